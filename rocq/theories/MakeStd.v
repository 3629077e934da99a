(** * MakeStd: standard deltas made from two packages and applied to the first *)
From Verif Require Import Base FileSys BaseLemmas Sat SpecCodec SpecStream SpecFormat SpecDelta Utils UtilsProofs DeltaComp Stream StreamProofs StreamFinal DetectProofs Rpm Delta
  Diff DiffProofs CopiesProofs DiffCounts DeltaWrite DeltaRead FormatFinal FormatCases Make SpecMake PackageProofs MakeRun MakeOnly Seq SeqProofs Expand Blocks Fill FillStd
  Archive SpecArchive ArchiveProofs ArchiveLoop ArchiveMain ArchiveSeq ArchiveCases Apply ApplyProofs ApplyRun SpecBlocks.

Lemma close_small bound : forall l prev disp, 0 <= prev -> Forall (fun p => snd p < bound) l -> Forall (fun p => 0 <= snd p) l -> bound <= 2 ^ 32 -> close prev disp l.
Proof.
  induction l as [|[o a] l IH]; intros prev disp Hp H1 H2 Hb; cbn [close]; [exact I|].
  pose proof (Forall_inv H1) as A. pose proof (Forall_inv H2) as B. cbn [snd] in *. apply Forall_inv_tail in H1, H2.
  destruct (o - a =? disp); [auto|]. split; [lia|]. apply IH; auto.
Qed.
Lemma offsets_range archive : forall ks a, 0 <= a ->
  Forall (fun p => snd p <= a + zlen (concat (map (new_bytes archive) ks))) (offsets archive a ks) /\ Forall (fun p => 0 <= snd p) (offsets archive a ks).
Proof.
  induction ks as [|k ks IH]; intros a Ha; cbn [offsets map concat]; [auto|]. rewrite zlen_app.
  pose proof (zlen_nonneg (new_bytes archive k)). pose proof (zlen_nonneg (concat (map (new_bytes archive) ks))).
  destruct (IH (a + zlen (new_bytes archive k)) ltac:(lia)) as [I1 I2].
  split; constructor; cbn [snd]; try lia; [|auto]. eapply Forall_impl; [|exact I1]. cbv beta. intros; lia.
Qed.

Lemma sequence_size L u oa files colors sha r c s a : (forall l, zlen (lb_md5 L l) = 16) -> parse_cpio_files L u oa files colors sha r = Ok (c, s, a) -> zlen s < 2 ^ 32.
Proof.
  intros Hm H. unfold parse_cpio_files in H. apply bind_ok in H as (st & _ & H). apply bind_ok in H as (g & _ & H). apply bind_ok in H as (sq & _ & H).
  destruct (2 ^ 32 <=? 16 + zlen sq) eqn:E; [discriminate|]. apply ok_inj, pair_inj in H as [H _]. apply pair_inj in H as [_ <-].
  rewrite zlen_app, Hm. lia.
Qed.

Section Std.
Variable L : libs.
Let cd := lb_codec L.
Variables old new : package.
Variables files : list file_info.
Variables colors sha : bool.
Variable es : list entry.
Variable h : list Z.
Variable level : Z.
Variable o : make_options.
Let ks := kept None files colors es.
Let cpio := altered (p_archive old) ks.
Hypothesis Hcd : codec_ok cd.
Hypothesis Hmd : md5_16 L.
Hypothesis Hold : package_ok L old.
Hypothesis Hnew : package_ok L new.
Hypothesis Hsrc : standard_source_ok L old files colors sha es.
Hypothesis Htgt : cpio_target L new level.
Hypothesis Hstd : standard_target_ok L new h.
Hypothesis Hoarch : zlen (p_archive old) < 2 ^ 31.
Hypothesis Hocpio : zlen cpio < 2 ^ 31.
Hypothesis Hnsize : 16 <= zlen (p_archive new) < 2 ^ 31.
Hypothesis Hfew : few_copies cpio (p_archive new) (o_addblk o).
Hypothesis Hadjs : few_adjustments L old.
Hypothesis Hopt : options_ok L o (zlen (p_archive new)).
Hypothesis Honly : o_rpmonly o = false.

Lemma md16 l : zlen (lb_md5 L l) = 16.
Proof. apply Hmd. Qed.

Lemma closes : close 0 0 (offsets (p_archive old) 0 ks).
Proof.
  destruct (offsets_range (p_archive old) ks 0 ltac:(lia)) as [A B].
  apply (close_small (2 ^ 31)); auto; [lia| |lia]. eapply Forall_impl; [|exact A]. cbv beta. intros p Hp.
  pose proof Hocpio as Hz. unfold cpio, altered in Hz. rewrite zlen_app in Hz. change (zlen trailer) with 124 in Hz. lia.
Qed.

Lemma parsed : exists code adjs, seq_encode (map ke_index ks) = Ok code /\
  let sequence := lb_md5 L (concat (map (fun k => meta (ke_file k)) ks)) ++ code in
  parse_cpio L None (3 <=? o_version o) (rpm_of old) = Ok (cpio, sequence, adjs) /\
  bytes sequence /\ 16 <= zlen sequence < 2 ^ 31 /\ pair_array (zlen adjs) adjs /\ Forall (fun p => snd p <> 2 ^ 31) adjs.
Proof.
  destruct Hsrc as [S1 S2 [S3 S4] [S5 S6] S7 [S8 S9]].
  destruct (parse_small L None (3 <=? o_version o) files colors sha (rpm_of old) es) as (code & adjs & Ec & E & E0 & _); auto.
  { cbn [rpm_of rp_archive]. lia. }
  { intros _. exact closes. }
  cbn [rpm_of rp_archive] in E. fold (rpm_of old) in E. fold ks in E, Ec. fold cpio in E. exists code, adjs. split; [auto|]. cbn zeta.
  assert (Ep : parse_cpio L None (3 <=? o_version o) (rpm_of old) = Ok (cpio, lb_md5 L (concat (map (fun k => meta (ke_file k)) ks)) ++ code, adjs)).
  { unfold parse_cpio. rewrite S1. cbn [bind]. rewrite S2. cbn [bind]. exact E. }
  split; [exact Ep|].
  pose proof (zlen_nonneg files) as Hz0. pose proof (kept_all None files colors _ _ _ S5) as Hk.
  destruct (roundtrip_seq (zlen files) (map ke_index ks)) as (code' & Ec' & Hb & _).
  { lia. }
  { rewrite Forall_map. eapply Forall_impl; [|exact Hk]. intros k [Hi _ _ _ _ _]. lia. }
  { rewrite zlen_map. eapply kept_fewer; eauto. }
  rewrite Ec in Ec'. apply ok_inj in Ec'. subst code'.
  split; [apply Forall_app; split; [apply Hmd|exact Hb]|].
  split; [split; [rewrite zlen_app, md16; pose proof (zlen_nonneg code); lia|]|].
  { destruct (parse_sizes L None (3 <=? o_version o) files colors sha (rpm_of old) _ _ _ ltac:(cbn [rpm_of rp_archive]; lia) S3 S4 E) as (_ & x & sq & Es & Hsq).
    rewrite Es, zlen_app, md16. lia. }
  pose proof (adjustments_survive L None (3 <=? o_version o) files colors sha (rpm_of old) _ _ _ ltac:(cbn [rpm_of rp_archive]; lia) S3 S4 E) as Hs.
  split.
  - split; [reflexivity|]. split.
    + destruct (3 <=? o_version o) eqn:Ev; [eapply Hadjs; exact Ep|]. rewrite E0 by auto. reflexivity.
    + eapply Forall_impl; [|exact Hs]. intros [a b]. unfold is_u32. cbn [fst snd]. intros; lia.
  - eapply Forall_impl; [|exact Hs]. intros [a b]. cbn [fst snd]. intros (_ & H1 & H2) ->. apply H2. reflexivity.
Qed.

(** The delta record that is made. *)
Definition std_target : rpm := mkrpm (p_lead new) (p_sig new) h (p_archive new) 0 (zlen (p_payload new)).
Definition made_std (r : diff_result) (add : list Z) (off : Z) (sequence : list Z) (adjs : list (Z * Z)) : deltarpm :=
  mkdelta TYPE_STANDARD (if o_from_rpm o then p_comp new else o_comp o) (if o_from_rpm o then level else o_level o)
    (HRpm std_target) (o_version o) (lb_nevr L (p_hdr old)) sequence (lb_md5 L (package_file new))
    (rpm_size_full (rpm_of new)) (p_comp new) level [] 0 (zlen adjs) adjs (package_front new) off
    (zlen (dr_int r)) (zlen (dr_ext r)) (dr_int r) (dr_ext r) (zlen cpio) add
    (dr_int_len r) (IPtrs (p_archive new) (dr_int_off r)).

Variable solo : bool.
Hypothesis Hsolo : solo = true -> old = new.

Lemma made_std_ok : exists r data add off code adjs,
  let sequence := lb_md5 L (concat (map (fun k => meta (ke_file k)) ks)) ++ code in
  seq_encode (map ke_index ks) = Ok code /\
  diff_delta L o solo (package_file old) (package_file new) = Ok (made_std r add off sequence adjs) /\
  wf_delta L (made_std r add off sequence adjs) /\ zlen sequence < 2 ^ 31 /\
  Forall (in_data (zlen cpio)) (extents 0 (dr_ext r)) /\ idata_bytes (made_std r add off sequence adjs) = data /\
  exists ds, patch cpio ds (dr_int r) (extents 0 (dr_ext r)) data = Some (p_archive new) /\
    forall d, d_add d = add -> exists a, open_add d = Ok a /\ add_inv cd a ds.
Proof.
  destruct parsed as (code & adjs & Ec & Ep & Q1 & Q2 & Q3 & Q4). cbn zeta in *. set (sequence := lb_md5 L _ ++ code) in *.
  assert (Hcz : 124 <= zlen cpio).
  { unfold cpio, altered. rewrite zlen_app. change (zlen trailer) with 124. pose proof (zlen_nonneg (concat (map (new_bytes (p_archive old)) ks))). lia. }
  destruct (pk_archive _ _ Hnew) as [Hab _].
  destruct (diff_made L o cpio (p_archive new) Hcd Hab ltac:(lia) ltac:(lia) Hopt Hfew) as
    (r & data & add & Er & A1 & A2 & A3 & A4 & A5 & A6 & A7 & A8 & A9 & A10 & A11 & A12 & ds & A13 & A14).
  destruct Hstd as [T1 T2 (T3 & T4 & T5 & T6) T7 T8]. destruct (pk_hdr _ _ Hnew) as [_ Hrd].
  pose proof Htgt as (_ & _ & Hl9 & _ & Himp).
  destruct (find_format std_target T4 T5 ltac:(cbn [std_target rp_hdr]; lia)) as (off & Eoff & Hoff).
  destruct (target_level L new level Htgt) as [Elv Efm].
  exists r, data, add, off, code, adjs. cbn zeta. fold sequence. split; [auto|]. split.
  { unfold diff_delta. rewrite Honly, !read_package by auto.
    assert (Es : (if solo then Ok (None, []) else '(r0, _, seq, _) <- Ok (rpm_of old, p_comp old, lb_md5 L (HEADER_MAGIC ++ p_hdr old ++ []),
                   lb_md5 L (package_front old ++ HEADER_MAGIC ++ p_hdr old ++ p_payload old)) ;; Ok (Some r0, seq)) =
                 Ok (if solo then None else Some (rpm_of old), if solo then [] else lb_md5 L (HEADER_MAGIC ++ p_hdr old ++ []))) by (destruct solo; reflexivity).
    rewrite Es. cbn [bind].
    assert (Er0 : match (if solo then None else Some (rpm_of old)) with Some r0 => r0 | None => rpm_of new end = rpm_of old).
    { destruct solo; [rewrite Hsolo by auto|]; reflexivity. }
    rewrite Er0, Efm. cbn [bind Z.eqb negb Pos.eqb]. rewrite Elv. cbn [bind].
    unfold rpm_patch_payload_format. change (rp_hdr (rpm_of new)) with (p_hdr new). unfold str_drpm. rewrite T1. cbn [bind].
    rewrite Ep, leadsig_front. cbn [rpm_of rp_lead rp_sig rp_archive rp_off rp_csize]. fold std_target. cbn [bind]. rewrite Eoff. cbn [bind].
    change (rpm_fetch_archive (rpm_of new)) with (p_archive new).
    rewrite Er. cbn [bind]. rewrite (u32_small (zlen add)) by (pose proof (zlen_nonneg add); lia). rewrite slice_all.
    unfold made_std. destruct (o_from_rpm o); reflexivity. }
  split.
  { destruct Hopt as [Ov Oc Oa]. destruct (Hmd (package_file new)) as [Mn1 Mn2].
    pose proof (pk_payload _ _ Hnew) as (Pb & P8 & Ps). destruct (pk_sig _ _ Hnew) as [[_ [Hs8 _]] [_ Hs31]].
    pose proof (zlen_front new (proj1 (proj2 (pk_lead _ _ Hnew)))) as Hzf. pose proof (sig_pad_range (zlen (p_sig new))).
    assert (Hpc : p_comp new = 0 \/ real_comp (p_comp new)) by (rewrite <- Ps; apply sniff_range).
    pose proof (zlen_nonneg (p_hdr new)).
    constructor; unfold made_std;
      cbn [d_type d_comp d_level d_head d_version d_src_nevr d_seq d_md5 d_size d_tcomp d_tlevel d_param d_hlen d_offn d_off d_leadsig d_fmtoff
           d_intn d_extn d_int d_ext d_extlen d_add d_intlen d_idata].
    - destruct Oc as [->|[Oc1 Oc2]]; auto. destruct (o_from_rpm o); auto.
    - destruct Oc as [->|[Oc1 Oc2]]; auto. destruct (o_from_rpm o); auto.
    - lia.
    - apply (pk_nevr _ _ Hold).
    - split; [auto|lia].
    - auto.
    - intros _. split; [unfold is_u32, rpm_size_full, u32; apply Z.mod_pos_bound; lia|]. split; [apply real_supported; auto|].
      split; [lia|]. split; [constructor|reflexivity].
    - intros _. split; [unfold is_u32; lia|]. auto.
    - split; [apply (bytes_front L); auto|lia].
    - exact Hoff.
    - split; [split; auto|lia].
    - split; [split; auto|]. split; [auto|]. eapply Forall_impl; [|exact A8]. unfold in_data. cbv beta. intros; lia.
    - destruct (o_version o =? 3); lia.
    - auto.
    - assert (zlen data <= 2 ^ 31).
      { assert (Hz : zlen data <= zlen (p_archive new)) by (eapply patch_data_len; exact A13). lia. }
      destruct (patch_uses _ _ _ _ _ _ A13) as (_ & P2 & _). destruct (o_version o =? 3); lia.
    - auto.
    - destruct (pk_lead _ _ Hnew) as (Hl1 & Hl2 & Hl3). split; [reflexivity|]. cbn [std_target rp_lead rp_hdr]. split; [auto|]. split; [auto|]. split; [auto|]. split; [|auto].
      unfold rpm_get_comp. cbn [std_target rp_hdr]. destruct T7 as (s & E & Hin). unfold RPMTAG_PAYLOADCOMPRESSOR. rewrite E.
      cbn [In] in Hin. repeat (destruct Hin as [<-|Hin]; [eexists; reflexivity|]). contradiction. }
  split; [lia|]. split; [auto|]. split; [unfold idata_bytes, made_std; cbn [d_idata d_int]; exact A12|]. exists ds. auto.
Qed.

Lemma make_std : exists delta d r add off sequence adjs seq,
  drpm_make L (Some o) (Some (package_file old)) (if solo then None else Some (package_file new)) true = Ok (delta, seq) /\
  read_deltarpm L delta = Ok d /\ reads_back L (made_std r add off sequence adjs) d /\
  (exists code, seq_encode (map ke_index ks) = Ok code /\ sequence = lb_md5 L (concat (map (fun k => meta (ke_file k)) ks)) ++ code) /\
  Forall (in_data (zlen cpio)) (extents 0 (dr_ext r)) /\
  exists ds, patch cpio ds (dr_int r) (extents 0 (dr_ext r)) (idata_bytes (made_std r add off sequence adjs)) = Some (p_archive new) /\
    forall d, d_add d = add -> exists a, open_add d = Ok a /\ add_inv cd a ds.
Proof.
  destruct made_std_ok as (r & data & add & off & code & adjs & Ec & Ed & Hwf & Hsz & Hin & Hdata & ds & Hp & Hadd). cbn zeta in *.
  set (sequence := lb_md5 L _ ++ code) in *.
  destruct (roundtrip_final L _ Hcd Hwf) as (file & d & Ew & Erd & RB).
  assert (Hseq : exists hex, write_seqfile (made_std r add off sequence adjs) = Ok hex).
  { destruct (wf_seq _ _ Hwf) as [Hb _]. apply seqfile_made; auto. }
  destruct Hseq as [sq Esq].
  exists file, d, r, add, off, sequence, adjs, (if o_seqfile o then Some sq else None). split.
  { unfold drpm_make.
    assert (Em : match (if solo then None else Some (package_file new)) with
                 | Some new0 => diff_delta L o false (package_file old) new0
                 | None => if o_rpmonly o then nodiff_delta L o (package_file old) else diff_delta L o true (package_file old) (package_file old)
                 end = Ok (made_std r add off sequence adjs)).
    { rewrite Honly. revert Ed. destruct solo; [|auto]. rewrite (Hsolo eq_refl). auto. }
    rewrite Honly in *. cbn [negb orb andb]. rewrite Em. cbn [bind]. rewrite Ew. cbn [bind]. destruct (o_seqfile o); [rewrite Esq|]; reflexivity. }
  split; [auto|]. split; [auto|]. split; [exists code; auto|]. split; [auto|]. exists ds. rewrite Hdata. auto.
Qed.

Variable installed : list Z -> res rpm.
Variable fs : fsys.
Variable unprelinked : list Z -> res (list Z).
Variable clean : Z.
(** Version 1 has no room for codec and level. *)
Hypothesis Hrec : recompresses L new (if 2 <=? o_version o then level else 0).
Hypothesis Hver : o_version o = 1 -> rpm_get_comp L std_target = Ok (p_comp new).
Hypothesis Hnz : lb_md5 L (package_file new) <> zeros 16.

(** The old package comes from [from_old]: [ri] is what is known of it, and blocks are filled from [src]. *)
Lemma make_std_via (from_old : option (list Z)) (ri : rpm) :
  rpm_get_nevr L ri = lb_nevr L (p_hdr old) -> (exists colors', rpm_get_file_info L false ri = Ok (files, colors')) -> rpm_get_digest_algo L ri = Ok sha ->
  (forall d t, d_type d = TYPE_STANDARD -> d_src_nevr d = lb_nevr L (p_hdr old) -> d_head d = HRpm t -> rp_hdr t = h ->
     read_old L installed from_old d = Ok ri) ->
  (forall d sig code, let sequence := lb_md5 L (concat (map (fun k => meta (ke_file k)) ks)) ++ code in
     d_type d = TYPE_STANDARD -> d_extlen d = zlen cpio -> Forall (in_data (zlen cpio)) (extents 0 (d_ext d)) ->
     seq_encode (map ke_index ks) = Ok code ->
     let patched := mkrpm (p_lead new) sig (rp_hdr ri) (rp_archive ri) (rp_off ri) (rp_csize ri) in
     exists S fill src idx b b',
       expand_sequence L None (Some sequence) files sha = Ok idx /\
       apply_from L fs unprelinked clean from_old d patched files idx = apply_diff L clean S fill src d /\
       blocks_create S (d_extlen d) (d_ext d) src clean = Ok b /\
       read_copies S MAX_CORE_BLOCKS fill b (d_ext d) 0 0 = Ok (b', map (fun '(o, l) => slice cpio o l) (extents 0 (d_ext d)))) ->
  exists delta d seq,
  drpm_make L (Some o) (Some (package_file old)) (if solo then None else Some (package_file new)) true = Ok (delta, seq) /\
  read_deltarpm L delta = Ok d /\ d_type d = TYPE_STANDARD /\
  drpm_apply L installed fs unprelinked clean from_old delta = (package_file new, Ok tt).
Proof.
  intros Hnevr [colors' Hinfo] Halgo Hread Hvia.
  destruct make_std as (delta & d & r & add & off & sequence & adjs & seq & Em & Erd & RB & (code & Ec & Eseq) & Hin & ds & Hp & Hadd).
  exists delta, d, seq. split; [auto|]. split; [auto|].
  destruct RB as [R1 R2 R3 R4 R5 R6 Ht R8 R9 R10 R11 R12 R13 R14 R15 R16 R17].
  split; [exact R1|]. unfold drpm_apply. rewrite Erd, calc_bind.
  set (data := idata_bytes (made_std r add off sequence adjs)) in *.
  unfold made_std in R1, R2, R3, R4, R5, R6, Ht, R8, R9, R10, R11, R12, R13, R14, R15, R17.
  cbn [d_type d_comp d_level d_head d_version d_src_nevr d_seq d_md5 d_size d_tcomp d_tlevel d_param d_hlen d_offn d_off d_leadsig d_fmtoff
           d_intn d_extn d_int d_ext d_extlen d_add d_intlen d_idata] in R1, R2, R3, R4, R5, R6, Ht, R8, R9, R10, R11, R12, R13, R14, R15, R17.
  destruct R11 as [R11a R11b]. destruct R12 as [R12a R12b].
  assert (R8a : d_hlen d = 0) by (destruct (o_version o =? 3); apply R8).
  destruct R17 as (rt & R17a & R17b & R17c & R17d). cbn [std_target rp_hdr rp_lead] in R17b, R17c.
  set (level' := if 2 <=? o_version o then level else 0) in *.
  assert (R7 : d_tcomp d = p_comp new /\ d_tlevel d = level').
  { unfold level'. destruct (2 <=? o_version o) eqn:Ev; [destruct Ht as (_ & X1 & X2 & _); auto|]. destruct Ht as (_ & X2 & _). split; [|auto].
    destruct Hopt as [Ov _ _]. assert (Ev1 : o_version o = 1) by lia. specialize (Hver Ev1). specialize (R17d Ev1). rewrite Hver in R17d. apply ok_inj in R17d. auto. }
  destruct R7 as [R7b R7c].
  assert (Htype : (TYPE_STANDARD =? TYPE_RPMONLY) = false) by reflexivity.
  pose proof Htgt as (_ & _ & Hl9 & _ & Himp). destruct (lb_import L (p_sig new)) as [sig|] eqn:Esig; [clear Himp|contradiction Himp; reflexivity].
  set (patched := mkrpm (p_lead new) sig (rp_hdr ri) (rp_archive ri) (rp_off ri) (rp_csize ri)).
  destruct (Hvia d sig code) as (S & fill & src & idx & b & b' & X2 & Xf & Eb & Ecp); auto.
  { rewrite R12b. exact Hin. }
  fold patched in Xf.
  assert (Eprep : apply_prepare L installed from_old d = Ok (patched, files, idx)).
  { unfold apply_prepare. rewrite (Hread d rt R1 R4 R17a R17c). cbn [bind]. rewrite R4, Hnevr, list_eqb_refl. cbn [negb].
    unfold expand_old. rewrite R1, Htype, Hinfo. cbn [bind]. rewrite Halgo. cbn [bind]. rewrite R5, Eseq, X2. cbn [bind].
    rewrite R9, (replace_leadsig L new ri sig Hnew Esig). reflexivity. }
  rewrite Eprep, calc_bind.
  assert (Hnd : is_nodiff d = false) by (unfold is_nodiff; rewrite R1, Htype; reflexivity).
  rewrite Hnd, Xf.
  assert (Hcz : 124 <= zlen cpio).
  { unfold cpio, altered. rewrite zlen_app. change (zlen trailer) with 124. pose proof (zlen_nonneg (concat (map (new_bytes (p_archive old)) ks))). lia. }
  destruct (Hadd d R14) as (a & Ea & Hai).
  assert (Ern : d_extn d = zlen (d_ext d)) by (rewrite R12a, R12b; reflexivity).
  unfold apply_diff. rewrite Eb, calc_bind, Ern, rd_range_in by (pose proof (zlen_nonneg (d_ext d)); lia). rewrite calc_bind, Ea, calc_bind.
  assert (Eth : target_header L d = Ok (HEADER_MAGIC ++ p_hdr new)).
  { unfold target_header. rewrite R1, Htype, R17a. unfold rpm_patch_payload_format. rewrite R17c. unfold str_cpio. rewrite (ta_fro _ _ _ Hstd).
    reflexivity. }
  rewrite Eth. cbn [put].
  assert (Eint : int_bytes d = data) by (unfold int_bytes; rewrite R16; reflexivity).
  destruct (pk_payload _ _ Hnew) as (Pb & P8 & Ps).
  assert (Hpc : p_comp new = 0 \/ real_comp (p_comp new)) by (rewrite <- Ps; apply sniff_range).
  destruct (rebuild_ok cd S fill (p_comp new) level' cpio ltac:(lia) d b b' a ds (p_archive new)) as (qs & Q1 & Q2 & Q3).
  { rewrite R11a, R11b. reflexivity. }
  { exact R7b. }
  { exact R7c. }
  { exact Ecp. }
  { rewrite R11b, R12b, Eint. exact Hp. }
  { exact Hai. }
  { rewrite R8a. lia. }
  { apply init_ok; auto. unfold level'. destruct (2 <=? o_version o); lia. }
  rewrite R8a in Q1, Q3. unfold from in Q1. cbn [Z.to_nat skipn] in Q1.
  assert (Esl : slice (p_archive new) 0 0 = []) by reflexivity. rewrite Esl in Q3. cbn [app] in Q3.
  assert (Eout : stream_out cd (p_comp new) level' qs = p_payload new).
  { unfold stream_out. destruct (Z.eqb_spec (p_comp new) COMP_NONE) as [E|E].
    - destruct (pk_archive _ _ Hnew) as [_ Hd]. unfold decodes in Hd. rewrite E in Hd. cbn in Hd. congruence.
    - destruct Hrec as [H0|H0]; [contradiction|]. apply H0; auto. }
  rewrite Eout in Q3. fold cd. rewrite Q3. cbn [wbind app].
  assert (Hf : no_full_md5 d = false).
  { unfold no_full_md5. rewrite R6. destruct (list_eqb (lb_md5 L (package_file new)) (zeros 16)) eqn:E; [|reflexivity]. apply list_eqb_spec in E. contradiction. }
  rewrite Hf, app_nil_r. cbn [calc].
  assert (Efile : package_front new ++ (HEADER_MAGIC ++ p_hdr new) ++ p_payload new = package_file new).
  { unfold package_file. rewrite <- app_assoc. reflexivity. }
  rewrite R9, Efile, app_nil_r. f_equal. unfold final_check. rewrite Hf, R6, list_eqb_refl. reflexivity.
Qed.

Lemma make_std_apply : exists delta d seq,
  drpm_make L (Some o) (Some (package_file old)) (if solo then None else Some (package_file new)) true = Ok (delta, seq) /\
  read_deltarpm L delta = Ok d /\ d_type d = TYPE_STANDARD /\
  drpm_apply L installed fs unprelinked clean (Some (package_file old)) delta = (package_file new, Ok tt).
Proof.
  destruct Hsrc as [S1 S2 [S3 S4] [S5 S6] S7 [S8 S9]].
  apply (make_std_via (Some (package_file old)) (rpm_of old)); [reflexivity|eexists; exact (file_info_unwanted _ _ _ _ S1)|exact S2| |].
  { intros d t R1 R4 _ _. unfold read_old. rewrite read_package by auto. cbn [bind]. rewrite R1. reflexivity. }
  intros d sig code sequence R1 R13 Hin Ec patched.
  destruct (standard_external L None (3 <=? o_version o) files colors sha patched es) as (cpio' & sequence' & adjs' & idx & X1 & X2 & X3); auto.
  { cbn [patched rpm_of rp_archive]. lia. }
  { exact md16. }
  { intros _. exact closes. }
  destruct (parse_small L None (3 <=? o_version o) files colors sha patched es) as (code' & adjs2 & Y1 & Y2 & _); auto.
  { cbn [patched rpm_of rp_archive]. lia. }
  { intros _. exact closes. }
  fold ks in Y1, Y2. rewrite Ec in Y1. apply ok_inj in Y1. subst code'. cbn [patched rp_archive rpm_of] in Y2. fold cpio in Y2. fold sequence in Y2.
  cbn [patched rp_archive rpm_of rp_hdr rp_off rp_csize] in X1.
  rewrite X1 in Y2. apply ok_inj, pair_inj in Y2 as [Y2 _]. apply pair_inj in Y2 as [-> ->].
  assert (Hcz : 124 <= zlen cpio).
  { unfold cpio, altered. rewrite zlen_app. change (zlen trailer) with 124. pose proof (zlen_nonneg (concat (map (new_bytes (p_archive old)) ks))). lia. }
  destruct (X3 MAX_CORE_BLOCKS (d_extlen d) clean (d_ext d)) as (b & b' & Eb & Ecp).
  { unfold MAX_CORE_BLOCKS. lia. }
  { rewrite R13. lia. }
  { rewrite R13. unfold block_count, BS. Z.div_mod_to_equations; lia. }
  { rewrite R13. exact Hin. }
  exists ssrc, (in_order ssrc MAX_CORE_BLOCKS (next_standard files idx)), (standard_source patched idx), idx, b, b'.
  split; [exact X2|]. split; [unfold apply_from; rewrite R1; reflexivity|]. split; [exact Eb|exact Ecp].
Qed.
End Std.
