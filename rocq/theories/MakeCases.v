(** * MakeCases: concrete packages for the properties of making deltas *)
From Verif Require Import Base FileSys BaseLemmas Utils UtilsProofs SpecCodec SpecDelta SpecStream SpecFormat Stream ToyCodec
  DeltaComp Rpm Delta Diff DeltaWrite DeltaRead Seq Expand Blocks Archive Fill SpecArchive SpecApply Apply ToyLibs FormatCases ArchiveSeq ArchiveCases ApplyCases
  Make SpecMake PackageProofs MakeRun MakeOnly MakeStd MakeNodiff.

(** The files of [ex_files], but the configuration file comes first. *)
Definition conf_files : list file_info :=
  match ex_files with a :: c :: l => c :: a :: l | l => l end.

(** Like [toylibs], with the payload format and one byte for the compressor and one for the list of files in the data of
    a header; the compression level is always 9. *)
Definition mlibs : libs := mklibs toy toy_md5 (lb_sha256 toylibs) toy_read (fun l => Some l)
  (fun h tag => if tag =? RPMTAG_PAYLOADCOMPRESSOR then (if list_eqb (slice h 28 1) [0] then None else Some str_gzip)
                else if tag =? RPMTAG_PAYLOADFORMAT then Some (slice h 24 4)
                else if tag =? RPMTAG_PAYLOADFLAGS then Some [57] else if tag =? RPMTAG_SOURCERPM then Some [115] else None)
  (fun h => [97; 45; 49; 45; 48 + zlen h mod 10]) (fun _ => None)
  (fun s => Some (slice s 12 16)) toy_mksig (fun h f => Some (slice h 0 24 ++ f ++ from h 28))
  (fun h => if list_eqb (slice h 29 1) [1] then ex_tags ex_files
            else if list_eqb (slice h 29 1) [3] then ex_tags conf_files else ex_tags other_files).

(** A header with one index entry, for the payload format, and the given data. *)
Definition m_header (comp files : Z) (data : list Z) : list Z :=
  create_be32 1 ++ create_be32 (6 + zlen data) ++ create_be32 1124 ++ create_be32 6 ++ create_be32 0 ++ create_be32 1 ++ str_cpio ++ [comp; files] ++ data.

Definition m_package (comp : Z) (hdr archive : list Z) : package :=
  let payload := if comp =? 0 then archive else toy_head comp ++ archive in
  let body := HEADER_MAGIC ++ hdr ++ payload in
  mkpkg toy_lead (toy_mksig (zlen body) (toy_md5 body)) hdr comp payload archive.

Lemma whole_readable L h : lb_read L = toy_read -> whole_header h -> readable L h.
Proof.
  intros EL [Hb [H8 Hz]] rest. rewrite EL. unfold toy_read.
  pose proof (zlen_nonneg rest). set (l := HEADER_MAGIC ++ h ++ rest).
  assert (Hl : zlen l = 8 + zlen h + zlen rest) by (unfold l; rewrite !zlen_app; change (zlen HEADER_MAGIC) with 8; lia).
  assert (E1 : slice l 0 8 = HEADER_MAGIC) by (apply slice_app_exact_l; reflexivity).
  assert (E2 : forall o n, 0 <= o -> 0 <= n -> o + n <= zlen h -> slice l (8 + o) n = slice h o n).
  { intros o n Ho Hn Hon. unfold l. rewrite slice_app_r by (change (zlen HEADER_MAGIC) with 8; lia). change (zlen HEADER_MAGIC) with 8.
    replace (8 + o - 8) with o by lia. apply slice_app_l; lia. }
  rewrite E1, list_eqb_refl. change (slice l 8 8) with (slice l (8 + 0) 8). change (slice l 8 4) with (slice l (8 + 0) 4). change (slice l 12 4) with (slice l (8 + 4) 4).
  rewrite !E2 by lia.
  assert (Hbb : bytesb (slice h 0 8) = true).
  { unfold bytesb. apply forallb_forall. intros y Hy. pose proof (bytes_slice h 0 8 Hb) as B. unfold bytes in B. rewrite Forall_forall in B. specialize (B _ Hy).
    unfold byte in B. lia. }
  rewrite Hbb. cbn [negb orb].
  replace (8 + be_val (slice h 0 4) * 16 + be_val (slice h 4 4)) with (zlen h) by lia.
  replace (zlen l <? 8 + zlen h) with false by lia. replace (zlen l <? 16) with false by lia.
  change (slice l 8 (zlen h)) with (slice l (8 + 0) (zlen h)). rewrite E2 by lia. rewrite slice_all. reflexivity.
Qed.

Lemma toy_md5_16 L : lb_md5 L = toy_md5 -> md5_16 L.
Proof.
  intros E x. rewrite E. unfold toy_md5. split.
  - repeat (apply Forall_app; split); apply create_be32_bytes.
  - rewrite !zlen_app, !zlen_create_be32. reflexivity.
Qed.

Lemma whole_sig size md5 : whole_header (toy_mksig size md5).
Proof.
  pose proof (toy_sig_len size md5) as H. unfold toy_mksig, toy_header in *. set (x := create_be32 size ++ firstn 16 (map u8 md5 ++ repeat 0 16)) in *.
  assert (Hx : zlen x = 20).
  { unfold x. rewrite zlen_app, zlen_create_be32. unfold zlen. rewrite firstn_length, app_length, map_length, repeat_length. lia. }
  split; [|split; [rewrite H; lia|]].
  - unfold x. rewrite !bytes_app. split; [repeat constructor; unfold byte; lia|]. split; [apply create_be32_bytes|]. split; [apply create_be32_bytes|].
    apply Forall_forall. intros y Hy.
    assert (Hi : In y (map u8 md5 ++ repeat 0 16)).
    { rewrite <- (firstn_skipn 16 (map u8 md5 ++ repeat 0 16)). apply in_or_app. auto. }
    apply in_app_or in Hi as [Hi|Hi].
    + apply in_map_iff in Hi as (z & <- & _). apply u8_byte.
    + apply repeat_spec in Hi. subst. unfold byte. lia.
  - rewrite H, Hx. reflexivity.
Qed.

Lemma whole_m comp files data : byte comp -> byte files -> bytes data -> zlen data < 2 ^ 20 -> whole_header (m_header comp files data).
Proof.
  intros H1 H2 H3 H4. pose proof (zlen_nonneg data).
  assert (E0 : slice (m_header comp files data) 0 4 = create_be32 1) by (unfold m_header; apply slice_app_exact_l; reflexivity).
  assert (E1 : slice (m_header comp files data) 4 4 = create_be32 (6 + zlen data)).
  { unfold m_header. rewrite slice_app_r by (rewrite zlen_create_be32; lia). rewrite zlen_create_be32. apply slice_app_exact_l. reflexivity. }
  assert (Hz : zlen (m_header comp files data) = 30 + zlen data).
  { unfold m_header. rewrite !zlen_app, !zlen_create_be32. change (zlen str_cpio) with 4. change (zlen [comp; files]) with 2. lia. }
  split; [|split; [lia|]].
  - unfold m_header. rewrite !bytes_app. repeat apply conj; solve [apply create_be32_bytes|exact H3|apply bytesb_ok; reflexivity|constructor; [exact H1|constructor; [exact H2|constructor]]].
  - rewrite Hz, E0, E1, create_be32_val, create_be32_val by lia. lia.
Qed.

Lemma m_package_ok comp c f data archive : comp = 0 /\ sniff archive = 0 /\ 8 <= zlen archive \/ comp = 1 -> byte c -> byte f -> bytes data -> zlen data < 2 ^ 20 ->
  bytes archive -> package_ok mlibs (m_package comp (m_header c f data) archive).
Proof.
  intros Hcomp Hc Hf Hd Hdz Ha.
  assert (Hw : whole_header (m_header c f data)) by (apply whole_m; auto).
  constructor; cbn [m_package p_lead p_sig p_hdr p_comp p_payload p_archive].
  - split; [apply bytesb_ok; reflexivity|]. split; reflexivity.
  - split; [apply whole_sig|]. split; [apply whole_readable; [reflexivity|apply whole_sig]|]. rewrite toy_sig_len. reflexivity.
  - split; [auto|]. apply whole_readable; [reflexivity|auto].
  - destruct Hcomp as [(-> & Hs & Hz)| ->]; [cbn [Z.eqb]; auto|]. cbn [Z.eqb Pos.eqb].
    split; [apply Forall_app; split; [apply bytesb_ok; reflexivity|auto]|].
    split; [rewrite zlen_app; change (zlen (toy_head 1)) with 10; pose proof (zlen_nonneg archive); lia|reflexivity].
  - split; [auto|]. destruct Hcomp as [(-> & Hs & Hz)| ->]; [reflexivity|]. cbn [Z.eqb Pos.eqb].
    replace (toy_head 1 ++ archive) with (enc_run (lb_codec mlibs) 1 9 [] [archive]).
    2:{ cbn [lb_codec mlibs]. rewrite toy_enc. cbn [concat]. rewrite app_nil_r. reflexivity. }
    replace archive with (concat [archive]) at 2 by (cbn; apply app_nil_r). apply (ok_decodes _ toy_ok); [left; reflexivity|lia].
  - split; [|cbn [lb_nevr mlibs]; unfold zlen; cbn; lia]. unfold c_string. cbn [lb_nevr mlibs].
    pose proof (Z.mod_pos_bound (zlen (m_header c f data)) 10 ltac:(lia)). repeat constructor; try discriminate; unfold byte; try lia.
Qed.

Lemma m_recompresses comp hdr archive : comp = 0 \/ comp = 1 -> recompresses mlibs (m_package comp hdr archive) 9.
Proof.
  intros [->| ->]; [left; reflexivity|right]. intros ps Hps _. cbn [m_package p_comp p_payload p_archive Z.eqb Pos.eqb] in *. cbn [lb_codec mlibs]. rewrite toy_enc, Hps. reflexivity.
Qed.

Lemma m_target comp c f data archive : bytes data -> cpio_target mlibs (m_package comp (m_header c f data) archive) 9.
Proof.
  intros Hd. unfold cpio_target. cbn [m_package p_hdr p_sig]. split; [|split; [reflexivity|split; [lia|split; [reflexivity|discriminate]]]].
  exists 0. split; [|reflexivity]. change (be_val _) with 1. lia.
Qed.

Definition m_options (only : bool) (version : Z) (from_rpm addblk : bool) : make_options := mkopts only version from_rpm 4 6 addblk 2 0 true.
Lemma m_options_ok only version from_rpm addblk n : 1 <= version <= 3 -> n < 2 ^ 31 -> options_ok mlibs (m_options only version from_rpm addblk) n.
Proof.
  intros Hv Hn. constructor; cbn [m_options o_version o_from_rpm o_comp o_level o_addblk o_acomp o_alevel].
  - auto.
  - right. split; [right; unfold real_comp; cbn [In]; auto|lia].
  - intros _. split; [unfold real_comp; cbn [In]; auto|]. split; [lia|]. intros ps _ Hz. cbn [lb_codec mlibs]. rewrite toy_enc, zlen_app.
    change (zlen (toy_head 2)) with 11. lia.
Qed.

(** The old package; two new ones, one without compression; a new one in which bytes were changed here and there. *)
Definition m_old : package := Eval vm_compute in m_package 1 (m_header 1 1 [1; 2; 3]) ex_archive.
Definition m_new_archive : list Z := Eval vm_compute in
  member 33188 [97] [10; 20; 30; 41; 50] ++ slice ex_archive 120 124 ++ member 16877 [100] [] ++ member 33188 [122] [5; 6] ++ trailer.
Definition m_new : package := Eval vm_compute in m_package 1 (m_header 1 2 [1; 2; 4; 5]) m_new_archive.
Definition m_plain : package := Eval vm_compute in m_package 0 (m_header 1 2 [1; 2; 4; 5; 6]) m_new_archive.
(** No tag for the compressor. *)
Definition m_untagged : package := Eval vm_compute in m_package 0 (m_header 0 2 [1; 2; 4; 5; 6]) m_new_archive.

Definition m_apply := drpm_apply mlibs (fun _ => Err ENoInstall) no_files (fun _ => Err EIo) 0.
Definition m_make (o : make_options) (old new : package) : list Z :=
  match drpm_make mlibs (Some o) (Some (package_file old)) (Some (package_file new)) true with Ok (d, _) => d | _ => [] end.
Definition m_roundtrip (o : make_options) (old new : package) : bool :=
  match m_apply (Some (package_file old)) (m_make o old new) with (out, Ok tt) => list_eqb out (package_file new) | _ => false end.

Lemma m_old_ok : package_ok mlibs m_old.
Proof. change m_old with (m_package 1 (m_header 1 1 [1; 2; 3]) ex_archive). apply m_package_ok; auto; try (unfold byte; lia); [apply bytesb_ok; reflexivity|reflexivity|apply bytesb_ok; vm_compute; reflexivity]. Qed.
Lemma m_new_ok : package_ok mlibs m_new.
Proof. change m_new with (m_package 1 (m_header 1 2 [1; 2; 4; 5]) m_new_archive). apply m_package_ok; auto; try (unfold byte; lia); [apply bytesb_ok; reflexivity|reflexivity|apply bytesb_ok; vm_compute; reflexivity]. Qed.
Lemma m_plain_ok : package_ok mlibs m_plain.
Proof.
  change m_plain with (m_package 0 (m_header 1 2 [1; 2; 4; 5; 6]) m_new_archive).
  apply m_package_ok; try (unfold byte; lia); [left; split; [reflexivity|split; [reflexivity|vm_compute; discriminate]]|apply bytesb_ok; reflexivity|reflexivity|apply bytesb_ok; vm_compute; reflexivity].
Qed.
Lemma m_untagged_ok : package_ok mlibs m_untagged.
Proof.
  change m_untagged with (m_package 0 (m_header 0 2 [1; 2; 4; 5; 6]) m_new_archive).
  apply m_package_ok; try (unfold byte; lia); [left; split; [reflexivity|split; [reflexivity|vm_compute; discriminate]]|apply bytesb_ok; reflexivity|reflexivity|apply bytesb_ok; vm_compute; reflexivity].
Qed.

Lemma m_few old new addblk : bytes new -> zlen old < 2 ^ 20 -> 16 <= zlen new < 2 ^ 20 -> few_copies old new addblk.
Proof. intros Hb H1 H2. apply few_copies_small; auto; lia. Qed.

Lemma ex_plain : Forall plain_entry (kept None ex_files false ex_entries).
Proof.
  apply Forall_forall. intros k Hk.
  assert (H : forallb (fun k => if S_ISREG (fi_mode (ke_file k)) then fi_size (ke_file k) <=? 2 ^ 32 - 4
                                  else if S_ISLNK (fi_mode (ke_file k)) then zlen (fi_linkto (ke_file k)) <=? 2 ^ 32 - 4
                                  else en_size (ke_entry k) =? 0) (kept None ex_files false ex_entries) = true)
      by (vm_compute; reflexivity).
  rewrite forallb_forall in H. specialize (H k Hk). unfold plain_entry.
  destruct (S_ISREG _); [lia|]. destruct (S_ISLNK _); lia.
Qed.
Lemma ex_padded : Forall (zero_padded ex_archive) (kept None ex_files false ex_entries).
Proof.
  apply Forall_forall. intros k Hk.
  assert (H : forallb (fun k => let e := ke_entry k in
               list_eqb (slice ex_archive (en_body e + en_size e) (padding (en_size e) 4)) (zeros (padding (en_size e) 4)))
               [nth 0 (kept None ex_files false ex_entries) (mken 0 [] 0 0, 0, mkfi [] 0 [] 0 0 0 0 [] 0);
                nth 2 (kept None ex_files false ex_entries) (mken 0 [] 0 0, 0, mkfi [] 0 [] 0 0 0 0 [] 0)] = true) by (vm_compute; reflexivity).
  assert (E : map (fun k => S_ISREG (fi_mode (ke_file k))) (kept None ex_files false ex_entries) = [true; false; false]) by (vm_compute; reflexivity).
  destruct (kept None ex_files false ex_entries) as [|k0 [|k1 [|k2 [|]]]]; try discriminate E.
  cbn [map] in E. cbn [nth forallb] in H. apply andb_true_iff in H as [H0 _].
  intros Hreg. destruct Hk as [<-|[<-|[<-|[]]]]; [|congruence|congruence]. apply list_eqb_spec. exact H0.
Qed.

Lemma m_source : standard_source_ok mlibs m_old ex_files false false ex_entries.
Proof.
  constructor.
  - vm_compute. reflexivity.
  - vm_compute. reflexivity.
  - split; [reflexivity|exact ex_wf].
  - split; [exact ex_listing|].
    assert (E : map en_name ex_entries = [[99; 102]; [97]; [108]; [122]; [100]]) by (vm_compute; reflexivity). rewrite E.
    repeat constructor; cbn [In]; intuition discriminate.
  - assert (E : map ke_file (kept None ex_files false ex_entries) = [nth 0 ex_files (ke_file (mken 0 [] 0 0, 0, mkfi [] 0 [] 0 0 0 0 [] 0)); nth 3 ex_files (mkfi [] 0 [] 0 0 0 0 [] 0); nth 2 ex_files (mkfi [] 0 [] 0 0 0 0 [] 0)])
      by (vm_compute; reflexivity).
    rewrite <- (Forall_map ke_file (digest_ok false)), E. cbn [nth ex_files]. repeat constructor.
    + intros _ _. exists (repeat 17 16). split; vm_compute; reflexivity.
    + intros H. discriminate H.
    + intros H. discriminate H.
  - split; [exact ex_plain|exact ex_padded].
Qed.

Lemma m_new_target : standard_target_ok mlibs m_new (slice (p_hdr m_new) 0 24 ++ str_drpm ++ from (p_hdr m_new) 28).
Proof.
  constructor.
  - reflexivity.
  - vm_compute. reflexivity.
  - assert (W : whole_header (slice (p_hdr m_new) 0 24 ++ str_drpm ++ from (p_hdr m_new) 28)).
    { split; [apply bytesb_ok; vm_compute; reflexivity|]. split; [vm_compute; discriminate|vm_compute; reflexivity]. }
    split; [apply whole_readable; [reflexivity|exact W]|]. split; [exact W|]. split; [|vm_compute; reflexivity].
    exists 0. split; [vm_compute; split; [discriminate|reflexivity]|vm_compute; reflexivity].
  - exists str_gzip. split; [vm_compute; reflexivity|left; reflexivity].
  - intros size md5. split; [apply toy_sig_readable|]. cbn [lb_mksig mlibs]. rewrite toy_sig_len. vm_compute. reflexivity.
Qed.

Lemma m_adjustments : few_adjustments mlibs m_old.
Proof.
  intros cpio sequence adjs H.
  assert (E : match parse_cpio mlibs None true (rpm_of m_old) with Ok (_, _, a) => zlen a <? 2 ^ 29 | _ => false end = true) by (vm_compute; reflexivity).
  rewrite H in E. lia.
Qed.
