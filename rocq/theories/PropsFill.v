(** * Properties C14, C15, C38 (applying): external data from an old RPM

    Specification vocabulary: [SpecArchive], [SpecBlocks], and [extents] of [SpecDelta]. *)
From Verif Require Import Base BaseLemmas Utils CpioHeader Rpm Seq Expand SeqFinal Archive SpecArchive ArchiveCases
     SpecDelta SpecBlocks Blocks BlocksProofs ToyLibs Fill FillProofs FillStd FillSafe FillCases.

(** C14: copies read from the old RPM of an rpm-only delta denote parts of its header and archive. *)
Theorem C14_rpmonly_external_data : forall capacity old len clean copies,
  let data := rpm_export_header old ++ rp_archive old in
  1 <= capacity -> rp_off old = 0 -> zlen data < 2 ^ 63 -> 0 < len <= zlen data -> block_count len < 2 ^ 32 - 1 ->
  Forall (in_data len) (extents 0 copies) ->
  exists b b', blocks_create rsrc len copies (rpmonly_source old len) clean = Ok b /\
  read_copies rsrc capacity (in_order rsrc capacity next_rpmonly) b copies 0 0 = Ok (b', map (fun '(o, l) => slice data o l) (extents 0 copies)).
Proof. exact rpmonly_external. Qed.
Print Assumptions C14_rpmonly_external_data.

Example C14_case :
  let data := rpm_export_header old_rpm ++ rp_archive old_rpm in
  rp_off old_rpm = 0 /\ zlen data = 20028 /\ block_count (zlen data) = 3 /\ Forall (in_data (zlen data)) (extents 0 old_copies) /\
  match blocks_create rsrc (zlen data) old_copies (rpmonly_source old_rpm (zlen data)) 0 with
  | Ok b => match read_copies rsrc 1 (in_order rsrc 1 next_rpmonly) b old_copies 0 0 with
            | Ok (_, [x; y; z]) => list_eqb x (slice data 12000 8000) && list_eqb y (slice data 0 10000) && list_eqb z (slice data 10001 5)
            | _ => false
            end
  | _ => false
  end = true.
Proof.
  cbn zeta. split; [reflexivity|]. split; [vm_compute; reflexivity|]. split; [vm_compute; reflexivity|]. split; [|vm_compute; reflexivity].
  assert (E : zlen (rpm_export_header old_rpm ++ rp_archive old_rpm) = 20028) by (vm_compute; reflexivity). rewrite E.
  assert (Ee : extents 0 old_copies = [(12000, 8000); (0, 10000); (10001, 5)]) by (vm_compute; reflexivity). rewrite Ee.
  unfold in_data. repeat constructor; cbn [fst snd]; lia.
Qed.

(** C15: copies read from the old RPM of a standard delta denote parts of the altered archive that making
    the delta has computed from it. *)
Theorem C15_standard_external_data : forall L unpatched offadj files colors sha r es,
  zlen (rp_archive r) < 2 ^ 32 -> zlen files < 2 ^ 32 -> Forall wf_file files -> (forall l, zlen (lb_md5 L l) = 16) ->
  rp_off r = 0 -> listing (rp_archive r) 0 es -> NoDup (map en_name es) ->
  let ks := kept unpatched files colors es in
  Forall (fun k => digest_ok sha (ke_file k)) ks ->
  (offadj = true -> close 0 0 (offsets (rp_archive r) 0 ks)) ->
  Forall plain_entry ks -> Forall (zero_padded (rp_archive r)) ks ->
  exists cpio sequence adjs idx,
    parse_cpio_files L unpatched offadj files colors sha r = Ok (cpio, sequence, adjs) /\
    expand_sequence L None (Some sequence) files sha = Ok idx /\
    forall capacity len clean copies, 1 <= capacity -> 0 < len <= zlen cpio -> block_count len < 2 ^ 32 - 1 ->
      Forall (in_data len) (extents 0 copies) ->
      exists b b', blocks_create ssrc len copies (standard_source r idx) clean = Ok b /\
      read_copies ssrc capacity (in_order ssrc capacity (next_standard files idx)) b copies 0 0 =
        Ok (b', map (fun '(o, l) => slice cpio o l) (extents 0 copies)).
Proof. exact standard_external. Qed.
Print Assumptions C15_standard_external_data.

(** The archive of [C11_case], which shows the other hypotheses. *)
Example C15_case :
  NoDup (map en_name ex_entries) /\ Forall (zero_padded ex_archive) (kept None ex_files false ex_entries) /\
  match standard_case ex_files ex_rpm [(0, 484); (u32 (-300), 200); (50, 30)] with
  | Some (Ok l, l') => (zlen l =? 3) && forallb (fun '(x, y) => list_eqb x y) (combine l l') && (zlen (concat l) =? 714)
  | _ => false
  end = true.
Proof.
  split; [|split; [|vm_compute; reflexivity]].
  - assert (E : map en_name ex_entries = [[99; 102]; [97]; [108]; [122]; [100]]) by (vm_compute; reflexivity). rewrite E.
    repeat constructor; cbn [In]; intuition discriminate.
  - apply Forall_forall. intros k Hk.
    assert (H : forallb (fun k => let e := ke_entry k in
               list_eqb (slice ex_archive (en_body e + en_size e) (padding (en_size e) 4)) (zeros (padding (en_size e) 4)))
               [nth 0 (kept None ex_files false ex_entries) (mken 0 [] 0 0, 0, mkfi [] 0 [] 0 0 0 0 [] 0);
                nth 2 (kept None ex_files false ex_entries) (mken 0 [] 0 0, 0, mkfi [] 0 [] 0 0 0 0 [] 0)] = true) by (vm_compute; reflexivity).
    assert (E : map (fun k => S_ISREG (fi_mode (ke_file k))) (kept None ex_files false ex_entries) = [true; false; false]) by (vm_compute; reflexivity).
    destruct (kept None ex_files false ex_entries) as [|k0 [|k1 [|k2 [|]]]]; try discriminate E.
    cbn [map] in E. cbn [nth forallb] in H. apply andb_true_iff in H as [H0 _].
    intros Hreg. destruct Hk as [<-|[<-|[<-|[]]]]; [|congruence|congruence]. apply list_eqb_spec. exact H0.
Qed.

(** Without zero padding C15 is false: making writes zeros, applying copies what the archive has. *)
Theorem C15_padding_refuted : exists files r es,
  Forall wf_file files /\ listing (rp_archive r) 0 es /\ NoDup (map en_name es) /\
  exists copies l l', standard_case files r copies = Some (Ok l, l') /\ l <> l'.
Proof.
  exists ex_files, dirty_rpm, [mken 0 [97] 116 5]. split; [exact ex_wf|]. split; [apply (read_listing_ok _ 10); vm_compute; reflexivity|].
  split; [repeat constructor; auto|].
  exists [(0, 200)]. do 2 eexists. split; [vm_compute; reflexivity|discriminate].
Qed.
Print Assumptions C15_padding_refuted.

(** Nor does it hold if a name occurs twice: applying stops at the first member with the name. *)
Theorem C15_duplicate_refuted : exists files r es,
  Forall wf_file files /\ listing (rp_archive r) 0 es /\ Forall (zero_padded (rp_archive r)) (kept None files false es) /\
  exists copies l', standard_case files r copies = Some (Err EMismatch, l').
Proof.
  exists ex_files, twice_rpm, [mken 0 [97] 116 3; mken 120 [97] 116 5]. split; [exact ex_wf|].
  split; [apply (read_listing_ok _ 10); vm_compute; reflexivity|]. split.
  - assert (E : kept None ex_files false [mken 0 [97] 116 3; mken 120 [97] 116 5] = [(mken 120 [97] 116 5, 0, nth 0 ex_files (mkfi [] 0 [] 0 0 0 0 [] 0))])
      by (vm_compute; reflexivity).
    rewrite E. constructor; [|constructor]. intros _. vm_compute. reflexivity.
  - exists [(0, 200)]. eexists. vm_compute. reflexivity.
Qed.
Print Assumptions C15_duplicate_refuted.

(** C38: with an index from an accepted sequence, nothing undefined happens while blocks are made from any
    archive in which no header declares an empty name. *)
Theorem C38_blocks_safe_partial : forall L check sequence files sha idx r s,
  zlen (rp_archive r) < 2 ^ 62 -> Forall wf_file files -> rp_off r = 0 ->
  expand_sequence L check sequence files sha = Ok idx ->
  (forall o size, ~ header_at (rp_archive r) o 0 size) ->
  reached (next_standard files idx) (standard_source r idx) s ->
  defined (next_standard files idx s).
Proof. exact standard_defined. Qed.
Print Assumptions C38_blocks_safe_partial.

(** Such a header is a store before the name buffer when applying, too. *)
Theorem C38_apply_empty_name_refuted : exists sequence files r idx,
  expand_sequence toylibs None (Some sequence) files false = Ok idx /\
  next_standard files idx (standard_source r idx) = Ub OobWrite.
Proof.
  assert (H : exists s, match parse_cpio_files toylibs None false ex_files false false ex_rpm with Ok (_, s', _) => s' | _ => [] end = s) by eauto.
  destruct H as [s Hs]. exists s, ex_files, gap_rpm. vm_compute in Hs. subst s. eexists. split; [vm_compute; reflexivity|vm_compute; reflexivity].
Qed.
Print Assumptions C38_apply_empty_name_refuted.

(** The second block made from the archive of [C11_case], whose index this is. *)
Example C38_blocks_case : exists s x y s',
  next_standard ex_files ex_index (standard_source ex_rpm ex_index) = Ok (s, x) /\
  reached (next_standard ex_files ex_index) (standard_source ex_rpm ex_index) s /\
  next_standard ex_files ex_index s = Ok (s', y) /\ slice x 0 6 = CPIO_MAGIC /\ y = zeros 8192.
Proof.
  assert (H : match second_block with Ok (x, y) => list_eqb (slice x 0 6) CPIO_MAGIC && list_eqb y (zeros 8192) | _ => false end = true)
    by (vm_compute; reflexivity).
  unfold second_block, bind in H.
  destruct (next_standard ex_files ex_index (standard_source ex_rpm ex_index)) as [[s x]|?|?|] eqn:E1; [|discriminate H|discriminate H|discriminate H].
  destruct (next_standard ex_files ex_index s) as [[s' y]|?|?|] eqn:E2; [|discriminate H|discriminate H|discriminate H].
  apply andb_true_iff in H as [H1 H2]. apply list_eqb_spec in H1. apply list_eqb_spec in H2.
  exists s, x, y, s'. split; [reflexivity|]. split; [|split; [exact E2|split; [exact H1|exact H2]]]. exact (rc_next _ _ _ _ _ (rc_start _ _) E1).
Qed.
