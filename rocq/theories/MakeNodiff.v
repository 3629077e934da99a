(** * MakeNodiff: rpm-only deltas made from one package *)
From Verif Require Import Base FileSys BaseLemmas Sat SpecCodec SpecStream SpecFormat SpecDelta Utils UtilsProofs DeltaComp Stream StreamProofs Rpm Delta
  Diff DeltaWrite DeltaRead FormatFinal FormatCases Make SpecMake PackageProofs MakeRun MakeOnly Seq Expand Blocks Fill Archive ArchiveSeq Apply ApplyProofs ApplyRun.

Lemma read_package_raw L p want : package_ok L p ->
  rpm_read L (package_file p) ReadUncomp want =
  Ok (mkrpm (p_lead p) (p_sig p) (p_hdr p) (p_payload p) 0 (zlen (p_payload p)), COMP_NONE,
      lb_md5 L (package_signed p), lb_md5 L (package_file p)).
Proof.
  intros [[Hlb [Hl Hm]] [[_ Hs] [Hsr Hsz]] [Hh Hhr] _ _ _]. unfold rpm_read.
  pose proof (zlen_front p Hl) as Hf.
  set (F := package_file p).
  assert (E0 : slice F 0 RPMLEAD_SIZE = p_lead p).
  { unfold F, package_file, package_front. rewrite <- app_assoc. unfold RPMLEAD_SIZE. rewrite <- Hl. apply slice_app_exact_l. reflexivity. }
  rewrite E0. unfold RPMLEAD_SIZE. rewrite Hl, Hm. cbn [Z.eqb negb orb Pos.eqb list_eqb MAGIC_RPM_BYTES andb].
  assert (E1 : from F 96 = HEADER_MAGIC ++ p_sig p ++ (repeat 0 (Z.to_nat (sig_pad (zlen (p_sig p)))) ++ HEADER_MAGIC ++ p_hdr p ++ p_payload p)).
  { unfold F, package_file, package_front. rewrite <- !app_assoc. apply from_app_exact. lia. }
  rewrite E1, Hsr.
  replace (padding (96 + (8 + zlen (p_sig p))) 8) with (sig_pad (zlen (p_sig p))) by (unfold padding, sig_pad; Z.div_mod_to_equations; lia).
  assert (E2 : from F (96 + (8 + zlen (p_sig p)) + sig_pad (zlen (p_sig p))) = HEADER_MAGIC ++ p_hdr p ++ p_payload p).
  { unfold F, package_file. apply from_app_exact. lia. }
  rewrite E2, Hhr.
  assert (E3 : from F (96 + (8 + zlen (p_sig p)) + sig_pad (zlen (p_sig p)) + (8 + zlen (p_hdr p))) = p_payload p).
  { unfold F, package_file. replace (package_front p ++ HEADER_MAGIC ++ p_hdr p ++ p_payload p) with ((package_front p ++ HEADER_MAGIC ++ p_hdr p) ++ p_payload p) by (rewrite <- !app_assoc; reflexivity).
    apply from_app_exact. rewrite !zlen_app. change (zlen HEADER_MAGIC) with 8. lia. }
  unfold rpm_read_archive. rewrite E3. cbn [bind].
  unfold F, package_file, package_signed, rpm_export_header, rpm_export_signature, package_front, zeros. cbn [rp_lead rp_sig rp_hdr].
  rewrite sig_pad_padding, <- !app_assoc. reflexivity.
Qed.

Section Nodiff.
Variable L : libs.
Variable p : package.
Variable o : make_options.
Hypothesis Hcd : codec_ok (lb_codec L).
Hypothesis Hmd : md5_16 L.
Hypothesis Hp : package_ok L p.
Hypothesis Hhsize : zlen (p_hdr p) < 2 ^ 32 - 8.
Hypothesis Hcomp : o_from_rpm o = true \/ ((o_comp o = 0 \/ real_comp (o_comp o)) /\ 0 <= o_level o <= 9).
Hypothesis Honly : o_rpmonly o = true.
Hypothesis Hver : o_version o = 3.

Definition made_nodiff : deltarpm :=
  mkdelta TYPE_RPMONLY (if o_from_rpm o then COMP_GZIP else o_comp o) (if o_from_rpm o then 0 else o_level o)
    (HNevr (lb_nevr L (p_hdr p))) (o_version o) (lb_nevr L (p_hdr p)) (lb_md5 L (package_signed p)) (lb_md5 L (package_file p))
    (rpm_size_full (rpm_of p)) COMP_NONE 0 [] (8 + zlen (p_hdr p)) 0 [] (package_front p) 0 0 0 [] [] 0 [] 0 (IBytes []).

Lemma nodiff_made : nodiff_delta L o (package_file p) = Ok made_nodiff /\ wf_delta L made_nodiff.
Proof.
  pose proof (zlen_nonneg (p_hdr p)) as Hz. split.
  { unfold nodiff_delta. rewrite read_package_raw by auto. unfold made_nodiff.
    rewrite <- leadsig_front. rewrite <- (u32_small (8 + zlen (p_hdr p))) by lia. destruct (o_from_rpm o); reflexivity. }
  destruct (Hmd (package_signed p)) as [Mo1 Mo2]. destruct (Hmd (package_file p)) as [Mn1 Mn2].
  destruct (pk_sig _ _ Hp) as [[_ [Hs8 _]] [_ Hs31]].
  pose proof (zlen_front p (proj1 (proj2 (pk_lead _ _ Hp)))) as Hzf. pose proof (sig_pad_range (zlen (p_sig p))).
  constructor; unfold made_nodiff;
    cbn [d_type d_comp d_level d_head d_version d_src_nevr d_seq d_md5 d_size d_tcomp d_tlevel d_param d_hlen d_offn d_off d_leadsig d_fmtoff
           d_intn d_extn d_int d_ext d_extlen d_add d_intlen d_idata].
  - destruct Hcomp as [->|[Oc1 Oc2]]; [right; left; reflexivity|]. destruct (o_from_rpm o); [right; left; reflexivity|auto].
  - destruct Hcomp as [->|[Oc1 Oc2]]; [lia|]. destruct (o_from_rpm o); lia.
  - lia.
  - apply (pk_nevr _ _ Hp).
  - rewrite Mo2. split; [auto|lia].
  - auto.
  - intros _. split; [unfold is_u32, rpm_size_full, u32; apply Z.mod_pos_bound; lia|].
    split; [apply real_supported; left; reflexivity|]. split; [lia|]. split; [constructor|reflexivity].
  - intros _. split; [unfold is_u32; lia|]. split; [split; [reflexivity|split; [reflexivity|constructor]]|constructor].
  - split; [apply (bytes_front L); auto|lia].
  - unfold is_u32. lia.
  - split; [split; [reflexivity|split; [reflexivity|constructor]]|cbn; lia].
  - split; [split; [reflexivity|split; [reflexivity|constructor]]|]. split; constructor.
  - destruct (o_version o =? 3); lia.
  - split; [constructor|reflexivity].
  - destruct (o_version o =? 3); lia.
  - split; [constructor|reflexivity].
  - split; [reflexivity|]. split; [auto|]. split; [lia|]. split; [auto|]. apply (pk_nevr _ _ Hp).
Qed.

Lemma nodiff_readable (solo_first : bool) : exists delta d seq,
  drpm_make L (Some o) (if solo_first then Some (package_file p) else None) (if solo_first then None else Some (package_file p)) true = Ok (delta, seq) /\
  read_deltarpm L delta = Ok d /\ reads_back L made_nodiff d.
Proof.
  destruct nodiff_made as [Ed Hwf]. destruct (roundtrip_final L _ Hcd Hwf) as (file & d & Ew & Erd & RB).
  assert (Hseq : exists hex, write_seqfile made_nodiff = Ok hex).
  { apply seqfile_made; cbn [made_nodiff d_seq]; [apply Hmd|rewrite (proj2 (Hmd _)); reflexivity]. }
  destruct Hseq as [sq Esq].
  exists file, d, (if o_seqfile o then Some sq else None). split; [|auto].
  unfold drpm_make. rewrite Honly, Hver. destruct solo_first; cbn [negb orb andb Z.ltb Z.compare Pos.compare Pos.compare_cont];
    rewrite Ed; cbn [bind]; rewrite Ew; cbn [bind]; (destruct (o_seqfile o); [rewrite Esq|]; reflexivity).
Qed.

Variable installed : list Z -> res rpm.
Variable fs : fsys.
Variable unprelinked : list Z -> res (list Z).
Variable clean : Z.
Hypothesis Hnz : lb_md5 L (package_file p) <> zeros 16.
Hypothesis Hsigned : package_has_md5 L p.
Hypothesis Himp : lb_import L (p_sig p) = Some (p_sig p).

(** What is written when the delta is applied has the archive without compression. *)
Definition decompressed_file : list Z := package_front p ++ HEADER_MAGIC ++ p_hdr p ++ p_archive p.

Lemma nodiff_apply (solo_first : bool) : exists delta d seq,
  drpm_make L (Some o) (if solo_first then Some (package_file p) else None) (if solo_first then None else Some (package_file p)) true = Ok (delta, seq) /\
  read_deltarpm L delta = Ok d /\ d_type d = TYPE_RPMONLY /\
  drpm_apply L installed fs unprelinked clean (Some (package_file p)) delta =
    (decompressed_file, if list_eqb (lb_md5 L decompressed_file) (lb_md5 L (package_file p)) then Ok tt else Err EMismatch).
Proof.
  destruct (nodiff_readable solo_first) as (delta & d & seq & Em & Erd & RB). exists delta, d, seq. split; [auto|]. split; [auto|].
  destruct RB as [R1 R2 R3 R4 R5 R6 R7 R8 R9 R10 R11 R12 R13 R14 R15 R16 R17].
  unfold made_nodiff in R1, R2, R3, R4, R5, R6, R7, R8, R9, R10, R11, R12, R13, R14, R15, R17.
  cbn [d_type d_comp d_level d_head d_version d_src_nevr d_seq d_md5 d_size d_tcomp d_tlevel d_param d_hlen d_offn d_off d_leadsig d_fmtoff
           d_intn d_extn d_int d_ext d_extlen d_add d_intlen d_idata] in R1, R2, R3, R4, R5, R6, R7, R8, R9, R10, R11, R12, R13, R14, R15, R17.
  rewrite Hver in R7. cbn [Z.leb Z.compare Pos.compare Pos.compare_cont] in R7. destruct R7 as (_ & R7b & _). destruct R11 as [R11a _]. destruct R12 as [R12a _].
  split; [auto|]. unfold drpm_apply. rewrite Erd, calc_bind.
  destruct (Hmd (package_signed p)) as [_ Mo2].
  assert (Eprep : apply_prepare L installed (Some (package_file p)) d = Ok (rpm_of p, [], [])).
  { unfold apply_prepare, read_old. rewrite read_package by auto. cbn [bind]. rewrite R1, Z.eqb_refl. unfold rpm_signature_get_md5. cbn [rpm_of rp_sig].
    unfold package_has_md5 in Hsigned. rewrite Hsigned, Mo2. cbn [Z.eqb Pos.eqb bind]. rewrite R5.
    rewrite rd_range_in by lia. cbn [bind]. rewrite <- Mo2 at 1. rewrite slice_all, list_eqb_refl. cbn [negb bind].
    rewrite R4. unfold rpm_get_nevr. cbn [rpm_of rp_hdr]. rewrite list_eqb_refl. cbn [negb]. unfold expand_old. rewrite R1, Z.eqb_refl. cbn [bind].
    rewrite R9. rewrite (replace_leadsig L p _ (p_sig p) Hp Himp). reflexivity. }
  rewrite Eprep, calc_bind.
  assert (Hnd : is_nodiff d = true) by (unfold is_nodiff; rewrite R1, R7b, R11a, R12a; reflexivity).
  assert (Hf : no_full_md5 d = false).
  { unfold no_full_md5. rewrite R6. destruct (list_eqb (lb_md5 L (package_file p)) (zeros 16)) eqn:E; [|reflexivity]. apply list_eqb_spec in E. contradiction. }
  rewrite Hnd, Hf. unfold rpm_write. cbn [negb].
  assert (E1 : rp_lead (rpm_of p) ++ rpm_export_signature (rpm_of p) ++ rpm_export_header (rpm_of p) ++ rp_archive (rpm_of p) = decompressed_file).
  { unfold decompressed_file. rewrite <- leadsig_front. unfold rpm_fetch_lead_and_signature, rpm_export_header. cbn [rpm_of rp_hdr rp_archive]. rewrite <- !app_assoc. reflexivity. }
  assert (E2 : (rp_lead (rpm_of p) ++ rpm_export_signature (rpm_of p)) ++ rpm_export_header (rpm_of p) ++ rp_archive (rpm_of p) = decompressed_file).
  { rewrite <- app_assoc. exact E1. }
  rewrite E1, E2. cbn [wbind calc]. rewrite app_nil_r. f_equal. unfold final_check. rewrite Hf, R6.
  destruct (list_eqb (lb_md5 L decompressed_file) (lb_md5 L (package_file p))); reflexivity.
Qed.

Lemma nodiff_plain : p_comp p = 0 -> decompressed_file = package_file p.
Proof.
  intros E. destruct (pk_archive _ _ Hp) as [_ Hd]. unfold decodes in Hd. rewrite E in Hd. cbn in Hd. unfold decompressed_file, package_file. rewrite Hd. reflexivity.
Qed.

Lemma nodiff_differs : p_archive p <> p_payload p -> decompressed_file <> package_file p.
Proof.
  intros Hne E. unfold decompressed_file, package_file in E. apply app_inv_head, app_inv_head, app_inv_head in E. contradiction.
Qed.
End Nodiff.
