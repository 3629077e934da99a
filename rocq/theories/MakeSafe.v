(** * MakeSafe: making deltas is defined *)
From Verif Require Import Base BaseLemmas Sat Utils UtilsProofs DeltaComp SpecCodec Search Stream Rpm Delta Diff DiffProofs SpecDelta CopiesProofs DeltaWrite Archive SpecArchive
  ArchiveProofs ArchiveCases SeqFinal HandleProofs Make SpecMake SpecApply SpecMakeSafe ApplySafe.

(** ** Results other than undefined behaviour *)
Definition good {A} (Q : A -> Prop) (r : res A) : Prop := match r with Ok a => Q a | Err _ => True | _ => False end.
Lemma good_bind {A B} (Q : A -> Prop) (Q' : B -> Prop) r k : good Q r -> (forall a, Q a -> good Q' (k a)) -> good Q' (bind r k).
Proof. destruct r; cbn; auto. Qed.
Lemma good_mono {A} (Q Q' : A -> Prop) r : good Q r -> (forall a, Q a -> Q' a) -> good Q' r.
Proof. destruct r; cbn; auto. Qed.
Lemma good_sat {A} (Q : A -> Prop) r : sat Q r -> good Q r.
Proof. destruct r; cbn; auto. Qed.

(** ** The diff *)
Lemma ext_ends fuel : forall old_off old_len offset, 0 <= old_off -> 0 <= offset < 2 ^ 63 + 2 ^ 32 -> 0 <= old_len ->
  old_off + old_len + Z.min (Z.abs (old_off - offset)) (2 ^ 31) < 2 ^ 63 + 2 ^ 32 ->
  (Z.abs (old_off - offset) + old_len) / INT32_MAX + 1 <= Z.of_nat fuel ->
  sat (fun '(_, o) => 0 <= o <= old_off + old_len + Z.min (Z.abs (old_off - offset)) (2 ^ 31)) (ext_loop fuel old_off old_len offset).
Proof.
  induction fuel as [|f IH]; intros old_off old_len offset H1 H2 H3 H4 Hf.
  { pose proof (Z.div_pos (Z.abs (old_off - offset) + old_len) INT32_MAX). unfold INT32_MAX in *. lia. }
  cbn [ext_loop]. unfold TWO31, INT32_MAX in *.
  assert (Hstep : forall x y, 0 <= x -> x + (2 ^ 31 - 1) <= y -> y / (2 ^ 31 - 1) + 1 <= Z.of_nat (S f) -> x / (2 ^ 31 - 1) + 1 <= Z.of_nat f).
  { intros x y Hx Hy Hd. Z.div_mod_to_equations. lia. }
  destruct ((offset <? old_off) && (2 ^ 31 <=? u64 (old_off - offset))) eqn:E1.
  { apply andb_prop in E1 as [A B]. rewrite u64_small in B by lia. rewrite u64_small by lia.
    eapply sat_bind; [apply IH; [lia|lia|lia|lia|eapply Hstep; [| |exact Hf]; lia]|]. intros [r o] Ho. cbn [sat]. lia. }
  destruct ((old_off <? offset) && (2 ^ 31 <=? u64 (offset - old_off))) eqn:E2.
  { apply andb_prop in E2 as [A B]. rewrite u64_small in B by lia. rewrite u64_small by lia.
    eapply sat_bind; [apply IH; [lia|lia|lia|lia|eapply Hstep; [| |exact Hf]; lia]|]. intros [r o] Ho. cbn [sat]. lia. }
  assert (Hd : Z.abs (old_off - offset) < 2 ^ 31).
  { destruct (Z.ltb_spec offset old_off).
    - cbn [andb] in E1. rewrite u64_small in E1 by lia. lia.
    - destruct (Z.ltb_spec old_off offset); [cbn [andb] in E2; rewrite u64_small in E2 by lia; lia|]. lia. }
  destruct (Z.leb_spec (2 ^ 31) old_len).
  - cbv zeta. rewrite !u64_small by lia.
    eapply sat_bind; [apply IH; [lia|lia|lia|lia|eapply Hstep; [| |exact Hf]; lia]|]. intros [r o] Ho. cbn [sat]. lia.
  - cbn [sat]. rewrite u64_small by lia. lia.
Qed.

Lemma int_ends fuel : forall cnt n, 0 < n -> n / INT32_MAX + 1 <= Z.of_nat fuel -> sat (fun _ => True) (int_loop fuel cnt n).
Proof.
  unfold INT32_MAX. induction fuel as [|f IH]; intros c n Hn Hf; [pose proof (Z.div_pos n (2 ^ 31 - 1)); lia|].
  cbn [int_loop]. unfold TWO31, INT32_MAX. destruct (Z.leb_spec (2 ^ 31) n); [|exact I]. eapply sat_bind; [apply IH|intros; exact I]; lia.
Qed.

Section Diff.
Variables old new : list Z.
Variable addblk : bool.
Hypothesis Ho : zlen old < 2 ^ 63.
Hypothesis Hn : zlen new < 2 ^ 63.
Hypothesis H16 : zlen new = 0 \/ HSIZE <= zlen new.

Lemma copies_ends dcs : forall np offset cnt, dcs_ok old new addblk np dcs -> 0 <= np -> 0 <= offset < 2 ^ 63 + 2 ^ 32 ->
  sat (fun _ => True) (diff_copies_loop dcs offset cnt).
Proof.
  induction dcs as [|d r IH]; intros np offset cnt Hok Hnp Hoff; [exact I|].
  pose proof Hok as (D1 & D2 & D3 & D4 & D5 & D6 & D7 & D8). cbn [diff_copies_loop].
  eapply (sat_bind (fun '(_, o) => 0 <= o < 2 ^ 63 + 2 ^ 32)).
  { destruct (dc_old_len d =? 0); [exact Hoff|]. eapply sat_mono.
    - apply ext_ends; try lia. unfold ext_fuel, INT32_MAX. rewrite Z2Nat.id by (Z.div_mod_to_equations; lia). lia.
    - intros [ex o] H. lia. }
  intros [ex o] Ho'. cbv zeta. eapply (sat_bind (fun _ => True)).
  { destruct (Z.eqb_spec (dc_new_len d) 0) as [E|E]; [exact I|]. eapply (sat_bind (fun _ => True)); [|intros; exact I].
    apply int_ends; [lia|]. unfold int_fuel, INT32_MAX. rewrite Z2Nat.id by (Z.div_mod_to_equations; lia). lia. }
  intros [is c] _. eapply sat_bind; [apply (IH (np + dc_old_len d + dc_new_len d)); auto; lia|]. intros [exts ints] _. exact I.
Qed.

(** The diff succeeds and its internal data lies in the new data. *)
Definition diff_inside (d : diff_result) : Prop :=
  exists data, int_data_of new (dr_int_off d) (dr_int d) = Ok data /\ length (dr_int_off d) = length (dr_int d).

Lemma diff_defined : sat diff_inside (make_diff old new addblk).
Proof.
  unfold make_diff. pose proof (zlen_nonneg old). pose proof (zlen_nonneg new).
  eapply sat_bind; [apply make_diff_copies_sat; auto; lia|]. intros [dcs ads] [Hok _].
  pose proof (copies_ends dcs 0 0 0 Hok ltac:(lia) ltac:(lia)) as HP.
  unfold create_diff_copies. destruct (diff_copies_loop dcs 0 0) as [[exts ints]| | |] eqn:E; try contradiction. cbn [bind].
  destruct (int_array_sat old new addblk ltac:(lia) dcs 0 0 0 exts ints [] 0 Hok ltac:(lia) E ltac:(constructor) ltac:(lia)) as [HA _].
  unfold create_int_data_array. cbn [app] in HA. destruct (int_array_loop dcs ints 0 0) as [offs| | |]; try contradiction.
  cbn [bind sat] in *. exists (dcs_data new dcs). exact HA.
Qed.
End Diff.

(** ** Streams *)
Section Streams.
Variable L : libs.

Lemma init_good fd comp level : good (fun s => 0 <= cs_pos s <= zlen (cs_data s)) (compstrm_init (lb_codec L) fd comp level).
Proof.
  unfold compstrm_init. destruct (_ && _); [exact I|]. destruct (comp =? COMP_NONE); [cbn; lia|]. destruct (_ || _); [|exact I].
  destruct (c_init _ _ _); cbn; [exact I|lia].
Qed.

Lemma pieces_good ps : forall s, 0 <= cs_pos s <= zlen (cs_data s) -> good (fun _ => True) (write_pieces L s ps).
Proof.
  induction ps as [|p ps IH]; intros s Hs; [exact I|]. cbn [write_pieces]. unfold compstrm_write. destruct (cs_finished s); [exact I|].
  destruct (zlen p =? 0); [apply IH; auto|]. cbv zeta. set (data := cs_data s ++ _).
  assert (Hd : zlen (cs_data s) <= zlen data).
  { subst data. rewrite zlen_app. match goal with |- context [zlen ?x + zlen ?y] => pose proof (zlen_nonneg y) end. lia. }
  rewrite rd_range_in by lia. cbn [bind]. apply IH. cbn [cs_pos cs_data]. pose proof (zlen_nonneg data). lia.
Qed.

Lemma finish_good s : good (fun _ => True) (compstrm_finish (lb_codec L) s).
Proof. unfold compstrm_finish. destruct (cs_finished s); [exact I|]. destruct (cs_comp s =? COMP_NONE); exact I. Qed.
End Streams.

(** ** Writing a delta *)
Lemma half_count n : 0 <= n -> 0 <= u32 (n * 2) / 2 <= n.
Proof. intros H. pose proof (u32_range (n * 2)). assert (u32 (n * 2) <= n * 2) by (unfold u32; apply Z.mod_le; lia). Z.div_mod_to_equations. lia. Qed.
Lemma half_array {A} (l : list A) : exists x, rd_range l 0 (u32 (zlen l * 2) / 2) = Ok x.
Proof. pose proof (half_count (zlen l) (zlen_nonneg l)). eexists. apply rd_range_in; lia. Qed.

Lemma pieces_inside new : forall offs ints data, length offs = length ints -> int_data_of new offs ints = Ok data ->
  exists ps, int_pieces new offs ints = Ok ps.
Proof.
  induction offs as [|o offs IH]; intros [|[c l] ints] data Hl H; try discriminate; [eexists; reflexivity|].
  cbn [int_data_of] in H. apply bind_ok in H as (p & Ep & H). apply bind_ok in H as (d & Ed & H). injection Hl as Hl.
  destruct (IH _ _ Hl Ed) as [ps Eps]. cbn [int_pieces]. destruct (l =? 0); [|rewrite Ep]; cbn [bind]; rewrite Eps; eexists; reflexivity.
Qed.

(** Counts that are those of the arrays, and internal data that is there. *)
Record whole_delta (d : deltarpm) : Prop := {
  wd_int : d_intn d = zlen (d_int d);
  wd_ext : d_extn d = zlen (d_ext d);
  wd_off : d_offn d = zlen (d_off d);
  wd_data : match d_idata d with
            | IPtrs new offs => exists data, int_data_of new offs (d_int d) = Ok data /\ length offs = length (d_int d)
            | IBytes b => 0 <= d_intlen d <= zlen b
            end
}.

Lemma delta_pieces_good d : whole_delta d -> good (fun _ => True) (delta_pieces d).
Proof.
  intros [Hi He Ho Hd]. unfold delta_pieces. rewrite Hi, He, Ho.
  destruct (half_array (d_int d)) as [xi Ei]. destruct (half_array (d_ext d)) as [xe Ee]. destruct (half_array (d_off d)) as [xo Eo].
  rewrite Ei, Ee, Eo. eapply (good_bind (fun _ => True)).
  { destruct (2 <=? d_version d); [|exact I]. destruct (encode_comp _ _); [|exact I]. destruct (3 <=? d_version d); exact I. }
  intros v2 _. cbn [bind]. cbv zeta. eapply (good_bind (fun _ => True)); [|intros; exact I].
  destruct (d_idata d) as [b|new offs].
  - rewrite rd_range_in by lia. exact I.
  - destruct Hd as (data & Hd & Hl). rewrite rd_range_in by (pose proof (zlen_nonneg (d_int d)); lia). cbn [bind]. rewrite slice_all.
    destruct (pieces_inside _ _ _ _ Hl Hd) as [ps ->]. exact I.
Qed.

Section Write.
Variable L : libs.

Lemma stream_good {B} fd comp level ps (k : list Z -> res B) (Q : B -> Prop) : good (fun _ => True) ps -> (forall data, good Q (k data)) ->
  good Q (s <- compstrm_init (lb_codec L) fd comp level ;; ps <- ps ;; s <- write_pieces L s ps ;; '(_, _, data) <- compstrm_finish (lb_codec L) s ;; k data).
Proof.
  intros Hps Hk. eapply good_bind; [apply init_good|]. intros s Hs. eapply good_bind; [exact Hps|]. intros p _.
  eapply good_bind; [apply pieces_good; exact Hs|]. intros s' _. eapply good_bind; [apply finish_good|]. intros [[? ?] data] _. apply Hk.
Qed.

Lemma write_good d : whole_delta d -> good (fun _ => True) (write_deltarpm L d).
Proof.
  intros Hd. unfold write_deltarpm. destruct (_ && _); [exact I|]. apply stream_good; [apply delta_pieces_good; exact Hd|]. intros strm.
  destruct (d_head d); [destruct (d_type d =? TYPE_STANDARD)|destruct (d_type d =? TYPE_RPMONLY)]; exact I.
Qed.

Lemma seqfile_good d : zlen (d_seq d) < 2 ^ 31 -> good (fun _ => True) (write_seqfile d).
Proof.
  intros H. pose proof (zlen_nonneg (d_seq d)). unfold write_seqfile. rewrite u32_small, Z.ltb_irrefl by lia. rewrite dump_exact. exact I.
Qed.

Lemma diff_and_add_good o old new : zlen old < 2 ^ 63 -> zlen new < 2 ^ 63 -> zlen new = 0 \/ HSIZE <= zlen new ->
  good (fun ra => diff_inside new (fst ra)) (diff_and_add L o old new).
Proof.
  intros H1 H2 H3. unfold diff_and_add. eapply (good_bind (fun _ => True)).
  { destruct (o_addblk o); [|exact I]. eapply good_bind; [apply init_good|]. intros; exact I. }
  intros _ _. eapply good_bind; [apply good_sat, diff_defined; auto|]. intros r Hr. eapply (good_bind (fun _ => True)); [|intros add _; exact Hr].
  destruct (o_addblk o); [|exact I]. unfold add_block_data.
  pose proof (stream_good (B := list Z) false (o_acomp o) (o_alevel o) (Ok (dr_add r)) (fun d => Ok d) (fun _ => True) I (fun _ => I)) as H. exact H.
Qed.

(** ** Reading packages *)
Lemma be32_good l o : 0 <= o -> o + 4 <= zlen l -> exists v, parse_be32_at l o = Ok v.
Proof.
  intros H1 H2. unfold parse_be32_at. rewrite !rd_getz by lia. eexists. reflexivity.
Qed.

Lemma format_loop_good header count : zlen header < 2 ^ 32 - 16 -> forall fuel i off, 0 <= off <= zlen header -> zlen header - off < 16 * Z.of_nat fuel ->
  good (fun _ => True) (payload_format_loop fuel header count i off).
Proof.
  intros Hz. induction fuel as [|f IH]; intros i off Ho Hf; [lia|]. cbn [payload_format_loop].
  destruct (_ && _) eqn:E; [|exact I]. apply andb_prop in E as [_ E]. rewrite u32_small in E by lia.
  destruct (be32_good header off) as [tag ->]; [lia|lia|]. cbn [bind]. destruct (tag =? _).
  - destruct (be32_good header (off + 8)) as [v ->]; [lia|lia|]. exact I.
  - apply IH; rewrite ?u32_small; lia.
Qed.

Lemma format_good r : 8 <= zlen (rp_hdr r) < 2 ^ 31 -> good (fun _ => True) (rpm_find_payload_format_offset r).
Proof.
  intros H. unfold rpm_find_payload_format_offset. assert (Hz : zlen (rpm_export_header r) = 8 + zlen (rp_hdr r)) by (unfold rpm_export_header; rewrite zlen_app; reflexivity).
  destruct (be32_good (rpm_export_header r) 8) as [c ->]; [lia|lia|]. cbn [bind]. apply format_loop_good; try lia. unfold zlen in *. lia.
Qed.
End Write.

(** ** [drpm_make] *)
Section MakeDefined.
Variable L : libs.
Hypothesis Hrpm : librpm_sane L.
Hypothesis Hmd : md5_16 L.

Lemma read_good file mode whole : good (fun '(r, _, seq, full) => 8 <= zlen (rp_hdr r) < 2 ^ 31 /\ zlen seq = 16 /\ zlen full = 16) (rpm_read L file mode whole).
Proof.
  unfold rpm_read. destruct (_ || _); [exact I|]. destruct (lb_read L _) as [[sig n]|]; [|exact I]. destruct (lb_read L (from file (_ + _))) as [[hdr m]|] eqn:Eh; [|exact I].
  pose proof (ls_read _ Hrpm _ _ _ Eh) as H8. pose proof (fun x => proj2 (Hmd x)) as H16. eapply (good_bind (fun _ => True)).
  { destruct mode; try exact I. unfold rpm_read_archive. set (pos := _ + m). pose proof (init_def true (from file pos)) as Hs.
    destruct (decompstrm_init true (from file pos)) as [s|?|?|]; cbn [bind]; auto.
    unfold decompstrm_read_until_eof. pose proof (eof_def L (fill_fuel s) s ltac:(unfold fill_fuel; lia)) as H.
    destruct (eof_loop (lb_codec L) (fill_fuel s) s) as [s'|?|?|]; cbn [bind defined] in *; auto. }
  intros [[[[archive csize] comp] sm] fm] _. cbn [good rp_hdr]. auto.
Qed.

Lemma parse_good offadj r files0 : sound_source (rp_archive r) files0 -> (forall files colors, rpm_get_file_info L true r = Ok (files, colors) -> sound_source (rp_archive r) files) ->
  good (fun '(cpio, sequence, _) => zlen cpio < 2 ^ 61 /\ zlen sequence < 2 ^ 31) (parse_cpio L None offadj r).
Proof.
  intros [H32 [_ _ _ Hz]] Hs. unfold parse_cpio. pose proof (file_info_def L true r) as Hf. destruct (rpm_get_file_info L true r) as [[files colors]|?|?|] eqn:Ef; cbn [bind defined good] in *; auto.
  destruct (Hs _ _ eq_refl) as [_ [H2 H3 H1 _]]. eapply (good_bind (fun _ => True)).
  { unfold rpm_get_digest_algo. destruct (lb_algo L _) as [a|]; [|exact I]. destruct (a =? 1); [exact I|]. destruct (a =? 8); exact I. }
  intros sha _. pose proof (parse_defined L None offadj files colors sha r H32 H1 H2 H3 Hz) as Hd.
  destruct (parse_cpio_files L None offadj files colors sha r) as [[[cpio sequence] adjs]|?|?|] eqn:E; cbn [defined good] in *; auto.
  destruct (parse_sizes _ _ _ _ _ _ _ _ _ _ H32 H1 H2 E) as (A & x & sq & -> & B). split; [auto|]. rewrite zlen_app, (proj2 (Hmd x)). lia.
Qed.

Lemma payload_format_good r : good (fun _ => True) (rpm_get_payload_format L r).
Proof. unfold rpm_get_payload_format. destruct (lb_string L _ _); [|exact I]. repeat (destruct (list_eqb _ _); [exact I|]). exact I. Qed.
Lemma level_good r : good (fun _ => True) (rpm_get_comp_level L r).
Proof. unfold rpm_get_comp_level. destruct (lb_string L _ _); [|exact I]. destruct (_ <? _); exact I. Qed.

Definition delta_good (d : deltarpm) : Prop := whole_delta d /\ zlen (d_seq d) < 2 ^ 31.

Lemma diff_delta_good o (solo : bool) old new : (solo = true -> old = new /\ o_rpmonly o = false) ->
  (if o_rpmonly o then of_package L old (fun archive _ => zlen archive < 2 ^ 62) /\ of_package L new (fun archive _ => zlen archive < 2 ^ 62)
   else of_package L old sound_source /\ of_package L new sound_target) ->
  good delta_good (diff_delta L o solo old new).
Proof.
  intros Hsolo Hp. unfold diff_delta.
  eapply (good_bind (fun '(r, seq) => zlen seq < 2 ^ 31 /\
    match r with Some r => exists c sq f, rpm_read L old ReadDecomp (o_rpmonly o) = Ok (r, c, sq, f) | None => solo = true end)).
  { destruct solo; [cbn; auto with zarith|]. pose proof (read_good old ReadDecomp (o_rpmonly o)) as H.
    destruct (rpm_read L old ReadDecomp (o_rpmonly o)) as [[[[r c] sq] f]|?|?|]; cbn [bind good] in *; auto. split; [lia|]. eauto. }
  intros [old_rpm seq] [Hseq Hold]. pose proof (read_good new ReadDecomp false) as Hn.
  destruct (rpm_read L new ReadDecomp false) as [[[[new_rpm tcomp] m] full]|?|?|] eqn:En; cbn [bind good] in *; auto. destruct Hn as (Hh & _).
  set (orpm := match old_rpm with Some r => r | None => new_rpm end).
  assert (Ho : exists c sq f w, rpm_read L old ReadDecomp w = Ok (orpm, c, sq, f)).
  { subst orpm. destruct old_rpm as [r|].
    - destruct Hold as (c & sq & f & H). eauto.
    - destruct (Hsolo Hold) as [-> _]. eauto. }
  destruct Ho as (oc & osq & of & ow & Ho). pose proof (read_good old ReadDecomp ow) as Hoh. rewrite Ho in Hoh. cbn [good] in Hoh. destruct Hoh as (Hoh & _).
  eapply good_bind; [apply payload_format_good|]. intros fmt _. destruct (negb (fmt =? 1)); [exact I|].
  eapply good_bind; [apply level_good|]. intros tlevel _. destruct (if o_from_rpm o then _ else _) as [comp level]. cbv zeta.
  destruct (o_rpmonly o) eqn:Eo.
  - destruct Hp as [P1 P2]. destruct (P1 _ _ _ _ _ Ho) as [A1 _]. destruct (P2 _ _ _ _ _ En) as [A2 _].
    eapply good_bind; [apply format_good; auto|]. intros off _.
    assert (Hz : forall r, zlen (rpm_fetch_header r ++ rpm_fetch_archive r) = 8 + zlen (rp_hdr r) + zlen (rp_archive r)).
    { intros r. unfold rpm_fetch_header, rpm_export_header, rpm_fetch_archive. rewrite !zlen_app. reflexivity. }
    pose proof (zlen_nonneg (rp_archive new_rpm)).
    eapply good_bind; [apply diff_and_add_good; rewrite ?Hz; [lia|lia|right; unfold HSIZE; lia]|]. intros [r add] (data & Hd & Hl). cbn [fst] in *.
    split; [|exact Hseq]. constructor; cbn [d_intn d_int d_extn d_ext d_offn d_off d_idata]; auto. exists data. auto.
  - destruct Hp as [P1 P2]. destruct (P1 _ _ _ _ _ Ho) as [A1 A1']. destruct (P2 _ _ _ _ _ En) as [[A2 A3] _].
    eapply good_bind; [eapply parse_good; [exact A1|exact A1']|]. intros [[cpio sequence] adjs] [B1 B2].
    unfold rpm_patch_payload_format. destruct (lb_setfmt L (rp_hdr new_rpm) str_drpm) as [h|] eqn:Eset; [|exact I]. cbn [bind].
    eapply good_bind; [apply format_good; cbn [rp_hdr]; eapply ls_set; eauto|]. intros off _.
    eapply good_bind; [apply diff_and_add_good; unfold rpm_fetch_archive; [lia|lia|]|].
    { destruct A3 as [->|A3]; [left; reflexivity|right; exact A3]. }
    intros [r add] (data & Hd & Hl). cbn [fst] in *.
    split; [|exact B2]. constructor; cbn [d_intn d_int d_extn d_ext d_offn d_off d_idata]; auto. exists data. auto.
Qed.

Lemma nodiff_good o file : good delta_good (nodiff_delta L o file).
Proof.
  unfold nodiff_delta. destruct (if o_from_rpm o then _ else _) as [comp level]. pose proof (read_good file ReadUncomp true) as H.
  destruct (rpm_read L file ReadUncomp true) as [[[[r c] seq] full]|?|?|]; cbn [bind good] in *; auto. destruct H as (_ & H & _).
  split; [|cbn [d_seq]; lia]. constructor; cbn [d_intn d_int d_extn d_ext d_offn d_off d_idata d_intlen]; auto. change (zlen (@nil Z)) with 0. lia.
Qed.

Lemma make_defined o old new named :
  let only := match o with Some o => o_rpmonly o | None => false end in
  (forall file, source_file old new = Some file -> of_package L file (if only then fun archive _ => zlen archive < 2 ^ 62 else sound_source)) ->
  (forall file, target_file old new = Some file -> of_package L file (if only then fun archive _ => zlen archive < 2 ^ 62 else sound_target)) ->
  defined (drpm_make L o old new named).
Proof.
  intros only Hs Ht. unfold drpm_make. destruct (_ || _); [exact I|]. cbv zeta. fold only.
  set (op := match o with Some o => o | None => default_options end).
  destruct (only && _); [exact I|]. assert (Eo : o_rpmonly op = only) by (subst op only; destruct o; reflexivity).
  assert (G : forall d, good delta_good d ->
    good (fun _ => True) (d <- d ;; file <- write_deltarpm L d ;; seq <- (if o_seqfile op then s <- write_seqfile d ;; Ok (Some s) else Ok None) ;; Ok (file, seq))).
  { intros d0 Hd0. eapply good_bind; [exact Hd0|]. intros d [Hw Hq]. eapply good_bind; [apply write_good; exact Hw|]. intros file _.
    eapply (good_bind (fun _ => True)); [|intros; exact I]. destruct (o_seqfile op); [|exact I]. eapply good_bind; [apply seqfile_good; exact Hq|]. intros; exact I. }
  match goal with |- defined ?x => enough (H : good (fun _ => True) x) by (destruct x; exact H) end. apply G.
  assert (D : forall solo a b, source_file old new = Some a -> target_file old new = Some b -> (solo = true -> a = b /\ only = false) -> good delta_good (diff_delta L op solo a b)).
  { intros solo a b Ha Hb Hsol. apply diff_delta_good; rewrite Eo; [auto|]. specialize (Hs _ Ha). specialize (Ht _ Hb). destruct only; auto. }
  destruct old as [a|], new as [b|]; cbn [source_file target_file] in D; try exact I.
  - apply D; auto. discriminate.
  - destruct only; [apply nodiff_good|]. apply D; auto.
  - destruct only; [apply nodiff_good|]. apply D; auto.
Qed.
End MakeDefined.
