(** * MakeInstalled: standard deltas made from two packages and applied to the installed files of the first *)
From Verif Require Import Prelink SpecPrelink Check SpecCheck CheckProofs Base FileSys BaseLemmas Sat SpecCodec SpecStream SpecFormat SpecDelta Utils UtilsProofs DeltaComp Stream StreamProofs StreamFinal DetectProofs Rpm Delta
  Diff DiffProofs CopiesProofs DiffCounts DeltaWrite DeltaRead FormatFinal FormatCases Make SpecMake PackageProofs MakeRun MakeOnly Seq SeqProofs Expand Blocks Fill FillStd
  Archive SpecArchive ArchiveProofs ArchiveLoop ArchiveMain ArchiveSeq ArchiveCases Apply ApplyProofs ApplyRun SpecBlocks FsFill SpecFs FillSafe FsFinal SpecInstalled MakeStd.

(** Checking files does not change what a sequence expands to. *)
Lemma expand_with_check L c sequence files sha idx positions : expand_sequence L None (Some sequence) files sha = Ok idx ->
  seq_positions sequence (zlen files) = Ok positions ->
  (forall i f, In i positions -> rd files i = Ok f -> S_ISREG (fi_mode f) = true -> 0 < fi_size f ->
     forall x, file_digest sha (fi_md5 f) = Ok x -> c (fi_name f) sha x (fi_size f) = Ok tt) ->
  expand_sequence L (Some c) (Some sequence) files sha = Ok idx.
Proof.
  intros H Hp Hc.
  assert (G : forall l off md5 r, (forall i, In i l -> In i positions) -> expand_loop None sha files l off md5 = Ok r -> expand_loop (Some c) sha files l off md5 = Ok r).
  { induction l as [|i l IH]; intros off md5 r Hl E; [exact E|]. cbn [expand_loop] in *. apply bind_ok in E as (f & Ef & E). rewrite Ef. cbn [bind].
    apply bind_ok in E as (m & Em & E). cbn zeta in E.
    assert (Em' : expand_file (Some c) sha f = Ok m).
    { unfold expand_file in *. destruct (S_ISLNK (fi_mode f)); [exact Em|]. destruct (S_ISREG (fi_mode f) && (0 <? entry_size f)) eqn:Er; [|exact Em].
      apply andb_true_iff in Er as [E1 E2]. apply bind_ok in Em as (x & Ex & Em). cbn [bind] in Em. rewrite Ex. cbn [bind].
      unfold entry_size in E2 |- *. unfold entry_size in Em. rewrite E1 in *. rewrite (Hc i f (Hl i (or_introl eq_refl)) Ef E1 ltac:(lia) x Ex). exact Em. }
    rewrite Em'. cbn [bind]. apply bind_ok in E as ([[l1 o1] m1] & El & E). rewrite (IH _ _ _ (fun i Hi => Hl i (or_intror Hi)) El). exact E. }
  unfold expand_sequence in *. destruct (zlen sequence <? 16); [discriminate|]. rewrite Hp in *. cbn [bind] in *. apply bind_ok in H as (r & Er & H).
  rewrite (G _ _ _ _ (fun i Hi => Hi) Er). exact H.
Qed.

Section Installed.
Variable L : libs.
Let cd := lb_codec L.
Variables old new : package.
Variables files : list file_info.
Variables colors sha : bool.
Variable es : list entry.
Variable h : list Z.
Variable level : Z.
Variable o : make_options.
Let ks := kept None files colors es.
Let cpio := altered (p_archive old) ks.
Hypothesis Hcd : codec_ok cd.
Hypothesis Hmd : md5_16 L.
Hypothesis Hold : package_ok L old.
Hypothesis Hnew : package_ok L new.
Hypothesis Hsrc : standard_source_ok L old files colors sha es.
Hypothesis Htgt : cpio_target L new level.
Hypothesis Hstd : standard_target_ok L new h.
Hypothesis Hoarch : zlen (p_archive old) < 2 ^ 31.
Hypothesis Hocpio : zlen cpio < 2 ^ 31.
Hypothesis Hnsize : 16 <= zlen (p_archive new) < 2 ^ 31.
Hypothesis Hfew : few_copies cpio (p_archive new) (o_addblk o).
Hypothesis Hadjs : few_adjustments L old.
Hypothesis Hopt : options_ok L o (zlen (p_archive new)).
Hypothesis Honly : o_rpmonly o = false.


Variable solo : bool.
Hypothesis Hsolo : solo = true -> old = new.
Variable installed : list Z -> res rpm.
Variable fs : fsys.
Variable unprelinked : list Z -> res (list Z).
Variable clean : Z.
(** What the sequence of the delta stands for. *)
Lemma sequence_facts code : seq_encode (map ke_index ks) = Ok code ->
  let sequence := lb_md5 L (concat (map (fun k => meta (ke_file k)) ks)) ++ code in
  seq_positions sequence (zlen files) = Ok (map ke_index ks) /\
  expand_sequence L None (Some sequence) files sha = Ok (layout (p_archive old) 0 ks).
Proof.
  intros Ec sequence. pose proof Hsrc as [S1 S2 [S3 S4] [S5 S6] S7 [S8 S9]].
  pose proof (zlen_nonneg files) as Hz0. pose proof (kept_all None files colors _ _ _ S5) as Hk. fold ks in Hk, S7, S8, S9.
  destruct (make_accepted L None (3 <=? o_version o) files colors sha (rpm_of old) es) as (cpio' & sequence' & adjs' & E' & Ex); auto.
  { cbn [rpm_of rp_archive]. lia. }
  { apply Hmd. }
  { intros _. exact (closes old files colors es o Hocpio Honly). }
  { eapply kept_fewer; eauto. }
  destruct (parse_small L None (3 <=? o_version o) files colors sha (rpm_of old) es) as (code' & adjs2 & Y1 & Y2 & _); auto.
  { cbn [rpm_of rp_archive]. lia. }
  { intros _. exact (closes old files colors es o Hocpio Honly). }
  fold ks in Y1, Y2, Ex. rewrite Ec in Y1. apply ok_inj in Y1. subst code'. fold sequence in Y2.
  rewrite E' in Y2. apply ok_inj, pair_inj in Y2 as [Y2 _]. apply pair_inj in Y2 as [_ ->].
  destruct (roundtrip_seq (zlen files) (map ke_index ks)) as (code' & Ec' & _ & Hpos).
  { lia. }
  { rewrite Forall_map. eapply Forall_impl; [|exact Hk]. intros k [Hi _ _ _ _ _]. lia. }
  { rewrite zlen_map. eapply kept_fewer; eauto. }
  rewrite Ec in Ec'. apply ok_inj in Ec'. subst code'. specialize (Hpos _ (proj2 (Hmd (concat (map (fun k => meta (ke_file k)) ks))))).
  split; [exact Hpos|exact Ex].
Qed.

Lemma kept_files k : In k ks -> rd files (ke_index k) = Ok (ke_file k).
Proof.
  pose proof (kept_all None files colors _ _ _ (proj1 (st_entries _ _ _ _ _ _ Hsrc))) as Hk. fold ks in Hk. rewrite Forall_forall in Hk.
  intros Hin. destruct (Hk k Hin) as [K1 K2 _ _ _ _]. unfold rd. destruct (Z.ltb_spec (ke_index k) 0); [lia|]. rewrite K2. reflexivity.
Qed.

(** The delta. *)
Lemma made_delta : exists delta d seq,
  drpm_make L (Some o) (Some (package_file old)) (if solo then None else Some (package_file new)) true = Ok (delta, seq) /\
  read_deltarpm L delta = Ok d /\ d_type d = TYPE_STANDARD /\ d_src_nevr d = lb_nevr L (p_hdr old) /\
  seq_positions (d_seq d) (zlen files) = Ok (map ke_index ks) /\
  expand_sequence L None (Some (d_seq d)) files sha = Ok (layout (p_archive old) 0 ks).
Proof.
  destruct (make_std L old new files colors sha es h level o Hcd Hmd Hold Hnew Hsrc Htgt Hstd Hoarch Hocpio Hnsize Hfew Hadjs Hopt Honly solo Hsolo) as
    (delta & d & r & add & off & sequence & adjs & seq & Em & Er & RB & (code & Ec & Eseq) & _).
  exists delta, d, seq. split; [auto|]. split; [auto|]. destruct RB as [R1 R2 R3 R4 R5 _ _ _ _ _ _ _ _ _ _ _ _].
  split; [exact R1|]. split; [exact R4|]. rewrite R5. cbn [made_std d_seq]. rewrite Eseq. apply sequence_facts. exact Ec.
Qed.

Hypothesis Hhdr : header_installed L installed old files sha.

Lemma check_accepts c :
  (forall k, In k ks -> has_data (ke_file k) -> forall x, file_digest sha (fi_md5 (ke_file k)) = Ok x -> c (fi_name (ke_file k)) sha x (fi_size (ke_file k)) = Ok tt) ->
  forall delta seq,
  drpm_make L (Some o) (Some (package_file old)) (if solo then None else Some (package_file new)) true = Ok (delta, seq) ->
  drpm_check L installed delta (Some c) = Ok tt.
Proof.
  intros Hc delta seq Hm. destruct made_delta as (delta' & d & seq' & Em & Er & Et & En & Ep & Ex).
  rewrite Hm in Em. apply ok_inj, pair_inj in Em as [<- _]. destruct Hhdr as [(ri & colors' & I1 & I2 & I3 & I4)].
  unfold drpm_check. rewrite Er. cbn [bind]. rewrite En, I1. cbn [bind]. unfold rpm_get_nevr. rewrite I2, list_eqb_refl. cbn [negb].
  rewrite Et, Z.eqb_refl, I3. cbn [bind]. rewrite I4. cbn [bind]. rewrite (expand_with_check L c _ _ _ _ _ Ex Ep); [reflexivity|].
  intros i f Hi Hf Hr Hz x Hx. apply in_map_iff in Hi. destruct Hi as (k & <- & Hin). rewrite (kept_files k Hin) in Hf. apply ok_inj in Hf. subst f.
  apply Hc; auto. split; [auto|lia].
Qed.

Lemma unchanged_accepted : hashes_ok L -> digests_right L sha (p_archive old) ks -> unchanged fs unprelinked (p_archive old) ks ->
  forall delta seq,
  drpm_make L (Some o) (Some (package_file old)) (if solo then None else Some (package_file new)) true = Ok (delta, seq) ->
  drpm_check L installed delta (Some (check_full L fs unprelinked)) = Ok tt /\
  drpm_check L installed delta (Some (check_filesize L fs unprelinked)) = Ok tt.
Proof.
  intros Hh Hd Hu delta seq Hm.
  assert (G : forall k, In k ks -> has_data (ke_file k) -> forall x, file_digest sha (fi_md5 (ke_file k)) = Ok x ->
    check_full L fs unprelinked (fi_name (ke_file k)) sha x (fi_size (ke_file k)) = Ok tt /\
    check_filesize L fs unprelinked (fi_name (ke_file k)) sha x (fi_size (ke_file k)) = Ok tt).
  { intros k Hin Hdata x Hx. destruct (Hu k Hin Hdata) as (data & size & U1 & U2 & U).
    apply digest_exact in Hx as [Hx Hl]. pose proof (st_files _ _ _ _ _ _ Hsrc) as [_ Hw]. rewrite Forall_forall in Hw.
    pose proof (kept_files k Hin) as Hf. destruct (rd_In _ _ _ Hf) as [Hf2 _]. pose proof (wf_size _ (Hw _ Hf2)) as Hz.
    rewrite (Hd k Hin Hdata) in Hx.
    pose proof (kept_all None files colors _ _ _ (proj1 (st_entries _ _ _ _ _ _ Hsrc))) as Hk. fold ks in Hk. rewrite Forall_forall in Hk.
    destruct (Hk k Hin) as [K1 K2 K3 K4 K5 K6]. unfold wanted in K5. rewrite (proj1 Hdata) in K5. repeat rewrite andb_true_iff in K5. destruct K5 as [[[[K5 _] _] _] _].
    apply Z.eqb_eq in K5. assert (Es : slice (en_data (p_archive old) (ke_entry k)) 0 (fi_size (ke_file k)) = en_data (p_archive old) (ke_entry k)).
    { unfold en_data. rewrite K5. rewrite slice_slice by lia. f_equal; lia. }
    assert (Ev : right_digest L sha x (en_data (p_archive old) (ke_entry k)) (fi_size (ke_file k)) = Ok tt).
    { unfold right_digest. rewrite Es. injection Hx as <-. rewrite list_eqb_refl. reflexivity. }
    destruct U as [[-> ->]|(V1 & V2 & V3 & V4 & V5 & V6)].
    - split; [|unfold check_filesize; rewrite U2, Z.eqb_refl; reflexivity].
      rewrite (full_file L fs unprelinked _ sha x _ (en_data (p_archive old) (ke_entry k)) false); auto; [lia|rewrite U2; lia|discriminate].
    - destruct (prelinked_checks L fs unprelinked (fi_name (ke_file k)) sha x (fi_size (ke_file k)) data size) as [Q1 Q2]; auto; try (destruct Hdata; lia).
      rewrite Q1, Q2, V6. cbn [bind]. auto. }
  split; (eapply check_accepts; [|exact Hm]); intros k Hin Hdata x Hx; apply (G k Hin Hdata x Hx).
Qed.

Hypothesis Hrec : recompresses L new (if 2 <=? o_version o then level else 0).
Hypothesis Hver : o_version o = 1 -> rpm_get_comp L (mkrpm (p_lead new) (p_sig new) h (p_archive new) 0 (zlen (p_payload new))) = Ok (p_comp new).
Hypothesis Hnz : lb_md5 L (package_file new) <> zeros 16.
Hypothesis Hbin : lb_string L h 1044 <> None.
Lemma installed_apply : files_installed fs unprelinked (p_archive old) ks -> exists delta d seq,
  drpm_make L (Some o) (Some (package_file old)) (if solo then None else Some (package_file new)) true = Ok (delta, seq) /\
  read_deltarpm L delta = Ok d /\ d_type d = TYPE_STANDARD /\
  drpm_apply L installed fs unprelinked clean None delta = (package_file new, Ok tt).
Proof.
  intros Hins.
  pose proof Hsrc as [S1 S2 [S3 S4] [S5 S6] S7 [S8 S9]].
  destruct Hhdr as [(ri & colors' & I1 & I2 & I3 & I4)].
  apply (make_std_via L old new files colors sha es h level o Hcd Hmd Hold Hnew Hsrc Htgt Hstd Hoarch Hocpio Hnsize Hfew Hadjs Hopt Honly
           solo Hsolo installed fs unprelinked clean Hrec Hver Hnz None ri I2 (ex_intro _ colors' I3) I4).
  { intros d t R1 R4 R17 Et. unfold read_old. rewrite R1. cbn [TYPE_STANDARD TYPE_RPMONLY Z.eqb Pos.eqb]. rewrite R17. unfold rpm_is_sourcerpm. rewrite Et.
    unfold RPMTAG_SOURCERPM. destruct (lb_string L h 1044); [|contradiction Hbin; reflexivity]. rewrite R4. exact I1. }
  intros d sig code sequence R1 R13 Hin Ec patched.
  pose proof (kept_all None files colors _ _ _ S5) as Hk. fold ks in Hk, S7, S8, S9, Ec, sequence.
  pose proof Hk as Hk'. rewrite Forall_forall in Hk'.
  destruct (sequence_facts code Ec) as [Hpos Ex]. fold sequence in Hpos, Ex. set (idx := layout (p_archive old) 0 ks) in *.
  (* the archive *)
  assert (Earch : fs_archive fs unprelinked (map ke_file ks) = cpio).
  { unfold fs_archive, fs_entries, cpio, altered. f_equal. rewrite map_map. f_equal. apply map_ext_in. intros k Hin'.
    destruct (Hk' k Hin') as [K1 K2 K3 K4 K5 K6]. unfold new_bytes, fs_head, fs_body. rewrite <- K3. f_equal.
    unfold new_body. f_equal. destruct (S_ISLNK (fi_mode (ke_file k))) eqn:El; [reflexivity|].
    rewrite Forall_forall in S8. pose proof (S8 k Hin') as Hpl. unfold plain_entry in Hpl. rewrite El in Hpl.
    destruct (S_ISREG (fi_mode (ke_file k))) eqn:Er.
    - destruct (Z.eq_dec (fi_size (ke_file k)) 0) as [E0|E0].
      + unfold wanted in K5. rewrite Er in K5. repeat rewrite andb_true_iff in K5. destruct K5 as [[[[K5 _] _] _] _]. apply Z.eqb_eq in K5.
        assert (Esz : en_size (ke_entry k) = 0) by congruence.
        unfold en_data. rewrite Esz. unfold installed_data. rewrite E0.
        destruct (looks_prelinked fs (ke_file k)); [destruct (unprelinked _)|destruct (fs_open fs _)]; reflexivity.
      + apply (ins_data _ _ _ _ Hins); auto. split; auto.
    - unfold en_data. rewrite Hpl. reflexivity. }
  assert (Hcz : 124 <= zlen cpio).
  { unfold cpio, altered. rewrite zlen_app. change (zlen trailer) with 124. pose proof (zlen_nonneg (concat (map (new_bytes (p_archive old)) ks))). lia. }
  pose proof kept_files as Hrdk.
  assert (Hof : forall i f, In i (map ke_index ks) -> rd files i = Ok f -> exists k, In k ks /\ ke_index k = i /\ ke_file k = f).
  { intros i f Hi Hf. apply in_map_iff in Hi. destruct Hi as (k & <- & Hin'). exists k. split; [auto|]. split; [auto|]. specialize (Hrdk k Hin'). congruence. }
  destruct (installed_external L None sequence files sha idx (map ke_index ks) (map ke_file ks) fs unprelinked MAX_CORE_BLOCKS (zlen cpio) (d_ext d) clean)
    as (b & b' & Eb & Ecp); auto.
  { clear - Hrdk. induction ks as [|k l IH]; cbn [map]; constructor; [apply Hrdk; left; reflexivity|]. apply IH. intros; apply Hrdk; right; auto. }
  { rewrite Forall_map. eapply Forall_impl; [|exact S8]. intros k. unfold plain_entry, fits. destruct (S_ISREG _); [auto|]. destruct (S_ISLNK _); auto. }
  { intros f Hf Hd. apply in_map_iff in Hf. destruct Hf as (k & <- & Hin'). apply (ins_data _ _ _ _ Hins k Hin' Hd). }
  { intros i f Hi Hf Hd. destruct (Hof i f Hi Hf) as (k & A & <- & <-). apply (ins_place _ _ _ _ Hins k A Hd). }
  { destruct (ins_few _ _ _ _ Hins) as (op & O1 & O2). exists op. split; [auto|]. intros i f Hi Hf Hd Hl. destruct (Hof i f Hi Hf) as (k & A & <- & <-). auto. }
  { intros (f & Hf & Hd & Hl). apply in_map_iff in Hf. destruct Hf as (k & <- & Hin'). split; [|rewrite Earch; reflexivity].
    apply (ins_links _ _ _ _ Hins). exists k. auto. }
  { unfold MAX_CORE_BLOCKS. lia. }
  { rewrite Earch. lia. }
  { rewrite Earch. lia. }
  { unfold block_count, BS. Z.div_mod_to_equations; lia. }
  rewrite Earch in Ecp.
  exists fsrc, (fill_filesystem fs unprelinked files idx MAX_CORE_BLOCKS), (fs_source idx), idx, b, b'.
  split; [exact Ex|]. split; [reflexivity|]. rewrite R13. split; [exact Eb|exact Ecp].
Qed.

Lemma checked_applies : sound_files fs -> hashes_ok L -> digests_right L sha (p_archive old) ks -> no_twins L sha fs unprelinked (p_archive old) ks ->
  (forall k, In k ks -> has_data (ke_file k) -> rd (map ke_index ks) (ke_index k) = Ok (ke_index k)) ->
  (exists open, zlen open <= 50 /\ forall k, In k ks -> has_data (ke_file k) -> looks_prelinked fs (ke_file k) = false -> In (ke_index k) open) ->
  ((exists k, In k ks /\ has_data (ke_file k) /\ looks_prelinked fs (ke_file k) = true) -> whole_links fs unprelinked (map ke_file ks)) ->
  forall delta seq,
  drpm_make L (Some o) (Some (package_file old)) (if solo then None else Some (package_file new)) true = Ok (delta, seq) ->
  drpm_check L installed delta (Some (check_full L fs unprelinked)) = Ok tt ->
  drpm_apply L installed fs unprelinked clean None delta = (package_file new, Ok tt).
Proof.
  intros Hp Hh Hd Htw Hplace Hopen Hlinks delta seq Hm Hc. destruct made_delta as (delta' & d & seq' & Em & Er & Et & En & Ep & Ex).
  pose proof Hm as Hm'. rewrite Hm in Em. apply ok_inj, pair_inj in Em as [<- _].
  destruct (check_full_sound L installed fs unprelinked delta d Hc Er Et Hp Hh) as (r & files' & colors' & sha' & positions & A & B & C & D & E & G).
  destruct Hhdr as [(ri & colors2 & I1 & I2 & I3 & I4)]. rewrite En, I1 in A. apply ok_inj in A. subst r. rewrite I3 in C. apply ok_inj, pair_inj in C as [<- _].
  rewrite I4 in D. apply ok_inj in D. subst sha'. rewrite Ep in E. apply ok_inj in E. subst positions.
  pose proof (st_files _ _ _ _ _ _ Hsrc) as [_ Hw]. rewrite Forall_forall in Hw.
  pose proof (kept_all None files colors _ _ _ (proj1 (st_entries _ _ _ _ _ _ Hsrc))) as Hk. fold ks in Hk. rewrite Forall_forall in Hk.
  assert (Hfile : forall k, In k ks -> has_data (ke_file k) ->
            readable_file fs unprelinked (ke_file k) /\ installed_data fs unprelinked (ke_file k) = en_data (p_archive old) (ke_entry k)).
  { intros k Hin Hdata. pose proof (kept_files k Hin) as Hf. destruct (rd_In _ _ _ Hf) as [Hf2 _]. pose proof (wf_size _ (Hw _ Hf2)) as Hz. destruct Hdata as [Hd1 Hd2].
    destruct (G (ke_index k) (ke_file k)) as (contents & G1 & G2); auto; [apply in_map; auto|lia|].
    rewrite (Hd k Hin (conj Hd1 Hd2)) in G2. injection G2 as G2.
    assert (Es : slice contents 0 (fi_size (ke_file k)) = en_data (p_archive old) (ke_entry k)) by (apply (Htw k contents Hin G1); auto).
    destruct (Hk k Hin) as [K1 K2 K3 K4 K5 K6]. unfold wanted in K5. rewrite Hd1 in K5. repeat rewrite andb_true_iff in K5. destruct K5 as [[[[K5 _] _] _] _]. apply Z.eqb_eq in K5.
    assert (Hl : zlen (en_data (p_archive old) (ke_entry k)) = fi_size (ke_file k)).
    { unfold en_data. rewrite zlen_slice; [exact K5|lia|lia|]. destruct K6 as [N1 N2]. unfold en_next in N2. pose proof (pad4_range (en_size (ke_entry k))). lia. }
    assert (Hlen : fi_size (ke_file k) <= zlen contents).
    { rewrite <- Es in Hl. destruct (Z.le_gt_cases (fi_size (ke_file k)) (zlen contents)); [auto|]. rewrite slice_all_ge in Hl by lia. lia. }
    destruct G1 as (data & F1 & F2). destruct (Hp _ _ F1) as (Hb & Est & Hn).
    destruct F2 as [(F2 & F3 & F4 & F5)|[F2 ->]].
    - assert (Hlp : looks_prelinked fs (ke_file k) = true).
      { unfold looks_prelinked. rewrite F1, Est, prelinked_detected by (auto; lia). assert (Eq : (zlen data =? fi_size (ke_file k)) = false) by lia. rewrite Eq. reflexivity. }
      split; [exists data; split; [auto|]; rewrite Hlp; exists contents; auto|]. unfold installed_data. rewrite Hlp, F5. exact Es.
    - assert (Hnp : fs_stat fs (fi_name (ke_file k)) = Some (fi_size (ke_file k)) \/ is_prelinked data (slice data 0 128) = Ok false).
      { destruct (Z.eq_dec (zlen data) (fi_size (ke_file k))) as [Eq|Ne]; [left; congruence|right].
        apply plain_prelinked; auto; [|lia]. intros [P1 [P2|P2]]; [auto|]. apply F2. split; [lia|auto]. }
      assert (Hlp : looks_prelinked fs (ke_file k) = false).
      { unfold looks_prelinked. rewrite F1, Est. destruct Hnp as [Q|Q]; [|rewrite Q; apply andb_false_r].
        rewrite Est in Q. injection Q as ->. rewrite Z.eqb_refl. reflexivity. }
      split; [exists data; split; [auto|]; rewrite Hlp; auto|]. unfold installed_data. rewrite Hlp, F1. exact Es. }
  destruct installed_apply as (delta' & d' & seq2 & Q1 & _ & _ & Q4).
  - constructor; auto.
  - rewrite Hm in Q1. apply ok_inj, pair_inj in Q1 as [<- _]. exact Q4.
Qed.
End Installed.
