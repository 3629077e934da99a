(** * MakeOnly: rpm-only deltas made from two packages and applied to the first *)
From Verif Require Import Base FileSys BaseLemmas Sat SpecCodec SpecStream SpecFormat SpecDelta Utils UtilsProofs DeltaComp Stream StreamProofs StreamFinal DetectProofs Rpm Delta
  Diff DiffProofs CopiesProofs DiffCounts DeltaWrite DeltaRead FormatFinal FormatCases Make SpecMake PackageProofs MakeRun Seq Expand Blocks Fill FillProofs Apply ApplyProofs ApplyRun SpecBlocks.

Lemma sniff_range b : sniff b = 0 \/ real_comp (sniff b).
Proof. unfold sniff, real_comp. repeat (match goal with |- context [if ?c then _ else _] => destruct c end; cbn; auto 10). Qed.
Lemma real_supported c : c = 0 \/ real_comp c -> supported_comp c.
Proof. unfold real_comp, supported_comp. cbn [In]. intros [->|H]; auto. Qed.

Section Only.
Variable L : libs.
Let cd := lb_codec L.

Lemma atoi_digit level : 0 <= level <= 9 -> u16 (atoi [48 + level]) = level.
Proof. intros H. assert (In level [0;1;2;3;4;5;6;7;8;9]) as Hin by (cbn; lia). cbn [In] in Hin. repeat (destruct Hin as [<-|Hin]; [reflexivity|]). contradiction. Qed.

Lemma target_level p level : cpio_target L p level -> rpm_get_comp_level L (rpm_of p) = Ok level /\ rpm_get_payload_format L (rpm_of p) = Ok 1.
Proof.
  intros (_ & Hf & Hl & Hs & _). unfold rpm_get_comp_level, rpm_get_payload_format, rpm_of, RPMTAG_PAYLOADFLAGS, RPMTAG_PAYLOADFORMAT. cbn [rp_hdr]. rewrite Hf, Hs.
  split; [|reflexivity]. replace (2 <? zlen [48 + level]) with false by reflexivity. rewrite atoi_digit by auto. reflexivity.
Qed.

Lemma bytes_front p : package_ok L p -> bytes (package_front p).
Proof.
  intros H. destruct (pk_lead _ _ H) as [H1 _]. destruct (pk_sig _ _ H) as [[H2 _] _]. unfold package_front.
  repeat (apply Forall_app; split); auto; [apply bytesb_ok; reflexivity|]. apply Forall_forall. intros x Hx. apply repeat_spec in Hx. subst; unfold byte; lia.
Qed.

Lemma bytes_data p : package_ok L p -> bytes (package_data p).
Proof.
  intros H. destruct (pk_hdr _ _ H) as [[H2 _] _]. destruct (pk_archive _ _ H) as [H1 _]. unfold package_data.
  repeat (apply Forall_app; split); auto. apply bytesb_ok; reflexivity.
Qed.

Variables old new : package.
Variable level : Z.
Variable o : make_options.
Hypothesis Hcd : codec_ok cd.
Hypothesis Hmd : md5_16 L.
Hypothesis Hold : package_ok L old.
Hypothesis Hnew : package_ok L new.
Hypothesis Hsigned : package_has_md5 L old.
Hypothesis Htgt : cpio_target L new level.
Hypothesis Hrec : recompresses L new level.
Hypothesis Hosize : zlen (package_data old) < 2 ^ 31.
Hypothesis Hnsize : zlen (package_data new) < 2 ^ 31.
Hypothesis Hfew : few_copies (package_data old) (package_data new) (o_addblk o).
Hypothesis Hopt : options_ok L o (zlen (package_data new)).
Hypothesis Honly : o_rpmonly o = true.
Hypothesis Hver : o_version o = 3.

(** The delta record that is made. *)
Definition made (r : diff_result) (add : list Z) (off : Z) : deltarpm :=
  mkdelta TYPE_RPMONLY (if o_from_rpm o then p_comp new else o_comp o) (if o_from_rpm o then level else o_level o)
    (HNevr (lb_nevr L (p_hdr new))) (o_version o) (lb_nevr L (p_hdr old)) (lb_md5 L (package_signed old)) (lb_md5 L (package_file new))
    (rpm_size_full (rpm_of new)) (p_comp new) level [] (8 + zlen (p_hdr new)) 0 [] (package_front new) off
    (zlen (dr_int r)) (zlen (dr_ext r)) (dr_int r) (dr_ext r) (zlen (package_data old)) add
    (dr_int_len r) (IPtrs (package_data new) (dr_int_off r)).

Lemma data_size p : package_ok L p -> 16 <= zlen (package_data p) /\ zlen (package_data p) = 8 + zlen (p_hdr p) + zlen (p_archive p).
Proof.
  intros H. destruct (pk_hdr _ _ H) as [[_ [H2 _]] _]. unfold package_data. rewrite !zlen_app. change (zlen HEADER_MAGIC) with 8.
  pose proof (zlen_nonneg (p_archive p)). lia.
Qed.

Lemma made_ok : exists r data add off, diff_delta L o false (package_file old) (package_file new) = Ok (made r add off) /\
  diff_and_add L o (package_data old) (package_data new) = Ok (r, add) /\ wf_delta L (made r add off) /\
  Forall (in_data (zlen (package_data old))) (extents 0 (dr_ext r)) /\ idata_bytes (made r add off) = data /\
  exists ds, patch (package_data old) ds (dr_int r) (extents 0 (dr_ext r)) data = Some (package_data new) /\
    forall d, d_add d = add -> exists a, open_add d = Ok a /\ add_inv cd a ds.
Proof.
  destruct (data_size old Hold) as [So1 So2]. destruct (data_size new Hnew) as [Sn1 Sn2].
  destruct (diff_made L o (package_data old) (package_data new) Hcd (bytes_data new Hnew) ltac:(lia) ltac:(lia) Hopt Hfew) as
    (r & data & add & Er & A1 & A2 & A3 & A4 & A5 & A6 & A7 & A8 & A9 & A10 & A11 & A12 & ds & A13 & A14).
  destruct (pk_hdr _ _ Hnew) as [Hwh Hrd]. pose proof Htgt as (Hfe & _ & Hl9 & _ & Himp). pose proof (zlen_nonneg (p_archive new)).
  destruct (find_format (rpm_of new) Hwh Hfe ltac:(cbn [rpm_of rp_hdr]; lia)) as (off & Eoff & Hoff).
  destruct (target_level new level Htgt) as [Elv Efm].
  exists r, data, add, off. split.
  { unfold diff_delta. rewrite Honly, !read_package by auto. cbn [bind]. rewrite Efm. cbn [bind Z.eqb negb Pos.eqb]. rewrite Elv. cbn [bind].
    assert (Hpd : forall p, rpm_fetch_header (rpm_of p) ++ rpm_fetch_archive (rpm_of p) = package_data p).
    { intros p. unfold rpm_fetch_header, rpm_fetch_archive, rpm_export_header, package_data, rpm_of. cbn [rp_hdr rp_archive]. rewrite <- app_assoc. reflexivity. }
    rewrite !Hpd, leadsig_front, Eoff, Er. cbn [bind]. rewrite (u32_small (zlen add)) by (pose proof (zlen_nonneg add); lia). rewrite slice_all.
    assert (Hhl : u32 (zlen (rpm_fetch_header (rpm_of new))) = 8 + zlen (p_hdr new)).
    { unfold rpm_fetch_header, rpm_export_header, rpm_of. cbn [rp_hdr]. rewrite zlen_app. change (zlen HEADER_MAGIC) with 8. pose proof (zlen_nonneg (p_hdr new)). apply u32_small. lia. }
    rewrite Hhl. unfold made. destruct (o_from_rpm o); reflexivity. }
  split; [exact Er|]. split.
  { destruct Hopt as [_ Oc Oa]. pose proof Hver as Ov. destruct (Hmd (package_signed old)) as [Mo1 Mo2]. destruct (Hmd (package_file new)) as [Mn1 Mn2].
    pose proof (pk_payload _ _ Hnew) as (Pb & P8 & Ps). destruct (pk_sig _ _ Hnew) as [[_ [Hs8 _]] [_ Hs31]].
    pose proof (zlen_front new (proj1 (proj2 (pk_lead _ _ Hnew)))) as Hzf. pose proof (sig_pad_range (zlen (p_sig new))).
    assert (Hpc : p_comp new = 0 \/ real_comp (p_comp new)) by (rewrite <- Ps; apply sniff_range).
    pose proof (zlen_nonneg (p_hdr new)).
    constructor; unfold made;
      cbn [d_type d_comp d_level d_head d_version d_src_nevr d_seq d_md5 d_size d_tcomp d_tlevel d_param d_hlen d_offn d_off d_leadsig d_fmtoff
           d_intn d_extn d_int d_ext d_extlen d_add d_intlen d_idata].
    - destruct Oc as [->|[Oc1 Oc2]]; auto. destruct (o_from_rpm o); auto.
    - destruct Oc as [->|[Oc1 Oc2]]; auto. destruct (o_from_rpm o); auto.
    - lia.
    - apply (pk_nevr _ _ Hold).
    - rewrite Mo2. split; [auto|lia].
    - auto.
    - intros _. split; [unfold is_u32, rpm_size_full, u32; apply Z.mod_pos_bound; lia|]. split; [apply real_supported; auto|].
      split; [lia|]. split; [constructor|reflexivity].
    - intros _. split; [unfold is_u32; lia|]. split; [split; [reflexivity|split; [reflexivity|constructor]]|constructor].
    - split; [apply bytes_front; auto|lia].
    - exact Hoff.
    - split; [split; auto|lia].
    - split; [split; auto|]. split; [auto|]. eapply Forall_impl; [|exact A8]. unfold in_data. cbv beta. intros; lia.
    - rewrite Ov. cbn [Z.eqb Pos.eqb]. lia.
    - auto.
    - rewrite Ov. cbn [Z.eqb Pos.eqb]. lia.
    - split; [apply bytes_data; auto|]. auto.
    - split; [reflexivity|]. split; [auto|]. split; [lia|]. split; [auto|]. apply (pk_nevr _ _ Hnew). }
  split; [auto|]. split; [unfold idata_bytes, made; cbn [d_idata d_int]; exact A12|]. exists ds. auto.
Qed.

Variable installed : list Z -> res rpm.
Variable fs : fsys.
Variable unprelinked : list Z -> res (list Z).
Variable clean : Z.
Hypothesis Hnz : lb_md5 L (package_file new) <> zeros 16.

Lemma make_apply : exists delta d seq, drpm_make L (Some o) (Some (package_file old)) (Some (package_file new)) true = Ok (delta, seq) /\
  read_deltarpm L delta = Ok d /\ d_type d = TYPE_RPMONLY /\
  drpm_apply L installed fs unprelinked clean (Some (package_file old)) delta = (package_file new, Ok tt).
Proof.
  destruct made_ok as (r & data & add & off & Ed & _ & Hwf & Hin & Hdata & ds & Hp & Hadd).
  destruct (roundtrip_final L _ Hcd Hwf) as (file & d & Ew & Erd & RB).
  destruct (Hmd (package_signed old)) as [Mo1 Mo2].
  assert (Hseq : exists hex, write_seqfile (made r add off) = Ok hex).
  { apply seqfile_made; cbn [made d_seq]; [exact Mo1|rewrite Mo2; reflexivity]. }
  destruct Hseq as [sq Esq].
  exists file, d, (if o_seqfile o then Some sq else None). split.
  { unfold drpm_make. cbn [negb orb]. rewrite Honly. rewrite Hver. cbn [andb Z.ltb Z.compare Pos.compare Pos.compare_cont].
    rewrite Ed. cbn [bind]. rewrite Ew. cbn [bind]. destruct (o_seqfile o); [rewrite Esq|]; reflexivity. }
  destruct RB as [R1 R2 R3 R4 R5 R6 R7 R8 R9 R10 R11 R12 R13 R14 R15 R16 R17].
  split; [auto|]. split; [exact R1|]. unfold drpm_apply. rewrite Erd, calc_bind.
  rewrite Hdata in R16.
  unfold made in R1, R2, R3, R4, R5, R6, R7, R8, R9, R10, R11, R12, R13, R14, R15, R17.
  cbn [d_type d_comp d_level d_head d_version d_src_nevr d_seq d_md5 d_size d_tcomp d_tlevel d_param d_hlen d_offn d_off d_leadsig d_fmtoff
           d_intn d_extn d_int d_ext d_extlen d_add d_intlen d_idata] in R1, R2, R3, R4, R5, R6, R7, R8, R9, R10, R11, R12, R13, R14, R15, R17.
  rewrite Hver in R7, R8. cbn [Z.leb Z.compare Pos.compare Pos.compare_cont Z.eqb Pos.eqb] in R7, R8.
  destruct R7 as (R7a & R7b & R7c & R7d). destruct R8 as (R8a & R8b & R8c). destruct R11 as [R11a R11b]. destruct R12 as [R12a R12b].
  destruct Htgt as (_ & _ & Hl9 & _ & Himp). destruct (lb_import L (p_sig new)) as [sig|] eqn:Esig; [clear Himp|contradiction Himp; reflexivity].
  set (patched := mkrpm (p_lead new) sig (p_hdr old) (p_archive old) 0 (zlen (p_payload old))).
  assert (Eprep : apply_prepare L installed (Some (package_file old)) d = Ok (patched, [], [])).
  { unfold apply_prepare, read_old. rewrite read_package by auto. cbn [bind]. rewrite R1, Z.eqb_refl. unfold rpm_signature_get_md5. cbn [rpm_of rp_sig].
    unfold package_has_md5 in Hsigned. rewrite Hsigned, Mo2. cbn [Z.eqb Pos.eqb bind]. rewrite R5.
    rewrite rd_range_in by lia. cbn [bind]. rewrite <- Mo2 at 1. rewrite slice_all, list_eqb_refl. cbn [negb bind].
    rewrite R4. unfold rpm_get_nevr. cbn [rpm_of rp_hdr]. rewrite list_eqb_refl. cbn [negb]. unfold expand_old. rewrite R1, Z.eqb_refl. cbn [bind].
    rewrite R9, (replace_leadsig L new (rpm_of old) sig Hnew Esig). reflexivity. }
  rewrite Eprep, calc_bind.
  assert (Hne : package_data new <> []).
  { destruct (data_size new Hnew) as [S1 _]. intros E. rewrite E in S1. change (zlen (@nil Z)) with 0 in S1. lia. }
  assert (Hnd : is_nodiff d = false).
  { unfold is_nodiff. rewrite R11a. destruct (dr_int r) as [|x l] eqn:Ei.
    - cbn [patch] in Hp. destruct (extents 0 (dr_ext r)); [|discriminate]. destruct data; [|discriminate]. destruct ds as [[|]|]; try discriminate; injection Hp as Hp; symmetry in Hp; contradiction.
    - replace (zlen (x :: l) =? 0) with false by (pose proof (zlen_nonneg l); rewrite zlen_cons; lia). rewrite andb_false_r. reflexivity. }
  rewrite Hnd. unfold apply_from. rewrite R1, Z.eqb_refl.
  destruct (data_size old Hold) as [So1 So2].
  destruct (rpmonly_external MAX_CORE_BLOCKS patched (d_extlen d) clean (d_ext d)) as (b & b' & Eb & Ec).
  { unfold MAX_CORE_BLOCKS. lia. }
  { reflexivity. }
  { unfold patched, rpm_export_header. cbn [rp_hdr rp_archive]. rewrite <- app_assoc. fold (package_data old). lia. }
  { unfold patched, rpm_export_header. cbn [rp_hdr rp_archive]. rewrite <- app_assoc. fold (package_data old). rewrite R13. lia. }
  { rewrite R13. unfold block_count, BS. Z.div_mod_to_equations; lia. }
  { rewrite R12b, R13. exact Hin. }
  destruct (Hadd d R14) as (a & Ea & Hai).
  assert (Ern : d_extn d = zlen (d_ext d)) by (rewrite R12a, R12b; reflexivity).
  unfold apply_diff. rewrite Eb, calc_bind, Ern, rd_range_in by (pose proof (zlen_nonneg (d_ext d)); lia). rewrite calc_bind, Ea, calc_bind.
  assert (Eth : target_header L d = Ok []) by (unfold target_header; rewrite R1, Z.eqb_refl; reflexivity).
  rewrite Eth. cbn [put].
  assert (Eint : int_bytes d = data) by (unfold int_bytes; rewrite R16; reflexivity).
  assert (Epd : rpm_export_header patched ++ rp_archive patched = package_data old).
  { unfold patched, rpm_export_header, package_data. cbn [rp_hdr rp_archive]. rewrite <- app_assoc. reflexivity. }
  rewrite Epd in Ec.
  destruct (data_size new Hnew) as [Sn1 Sn2]. pose proof (zlen_nonneg (p_archive new)).
  destruct (pk_payload _ _ Hnew) as (Pb & P8 & Ps).
  assert (Hpc : p_comp new = 0 \/ real_comp (p_comp new)) by (rewrite <- Ps; apply sniff_range).
  destruct (rebuild_ok cd rsrc (in_order rsrc MAX_CORE_BLOCKS next_rpmonly) (p_comp new) level (package_data old) ltac:(lia) d b b' a ds (package_data new)) as (qs & Q1 & Q2 & Q3).
  { rewrite R11a, R11b. reflexivity. }
  { exact R7b. }
  { exact R7c. }
  { exact Ec. }
  { rewrite R11b, R12b, Eint. exact Hp. }
  { exact Hai. }
  { rewrite R8a. pose proof (zlen_nonneg (p_hdr new)). lia. }
  { apply init_ok; auto. }
  assert (Ehd : slice (package_data new) 0 (d_hlen d) = HEADER_MAGIC ++ p_hdr new).
  { rewrite R8a. unfold package_data. rewrite app_assoc. apply slice_app_exact_l. rewrite zlen_app. reflexivity. }
  assert (Ear : from (package_data new) (d_hlen d) = p_archive new).
  { rewrite R8a. unfold package_data. rewrite app_assoc. apply from_app_exact. rewrite zlen_app. reflexivity. }
  rewrite Ehd in Q3. rewrite Ear in Q1.
  assert (Eout : stream_out cd (p_comp new) level qs = p_payload new).
  { unfold stream_out. destruct (Z.eqb_spec (p_comp new) COMP_NONE) as [E|E].
    - destruct (pk_archive _ _ Hnew) as [_ Hd]. unfold decodes in Hd. rewrite E in Hd. cbn in Hd. congruence.
    - destruct Hrec as [H0|H0]; [contradiction|]. apply H0; auto. }
  rewrite Eout in Q3. fold cd. rewrite Q3. cbn [wbind app].
  assert (Hf : no_full_md5 d = false).
  { unfold no_full_md5. rewrite R6. destruct (list_eqb (lb_md5 L (package_file new)) (zeros 16)) eqn:E; [|reflexivity]. apply list_eqb_spec in E. contradiction. }
  rewrite Hf, app_nil_r. cbn [calc].
  assert (Efile : package_front new ++ (HEADER_MAGIC ++ p_hdr new) ++ p_payload new = package_file new).
  { unfold package_file. rewrite <- app_assoc. reflexivity. }
  rewrite R9, Efile, app_nil_r. f_equal. unfold final_check. rewrite Hf, R6, list_eqb_refl. reflexivity.
Qed.
End Only.
