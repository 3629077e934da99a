(** * IdentFinal: the sequence identifier of a delta is accepted where the delta is *)
From Verif Require FormatSafe.
From Verif Require Import Base FileSys BaseLemmas SpecFormat Utils Stream Rpm Seq Delta DeltaRead DeltaWrite Expand Apply ApplyProofs ApplyRefuse ArchiveSeq Ident SpecIdent IdentProofs.

Lemma short_sequence d line : write_seqfile d = Ok line -> zlen (d_seq d) < 2 ^ 31.
Proof.
  unfold write_seqfile. intros H. destruct (u32 _ <? _) eqn:E; [discriminate|]. pose proof (zlen_nonneg (d_seq d)).
  pose proof (u32_range (zlen (d_seq d) * 2 + 1)). lia.
Qed.

Section Check.
Variable L : libs.
Variable db : nevr_parts -> option (list Z).
Variable full filesizes : list Z -> bool -> list Z -> Z -> res unit.
Variable installed : list Z -> res rpm.
Variable fs : fsys.
Variable unprelinked : list Z -> res (list Z).
Variable clean : Z.

Lemma read_without_archive file r comp m1 m2 : rpm_read L file ReadDecomp false = Ok (r, comp, m1, m2) ->
  exists r' c a b, rpm_read L file DontRead false = Ok (r', c, a, b) /\ rp_sig r' = rp_sig r /\ rp_hdr r' = rp_hdr r.
Proof.
  unfold rpm_read. destruct (negb _ || negb _); [discriminate|]. destruct (lb_read L (from file RPMLEAD_SIZE)) as [[sig n]|]; [|discriminate].
  cbn zeta. destruct (lb_read L _) as [[hdr m]|]; [|discriminate]. intros H.
  apply bind_ok in H as ([[[[arch cs] cp] sm] fm] & _ & H). apply ok_inj in H. apply pair_inj in H as [H _]. apply pair_inj in H as [H _]. apply pair_inj in H as [<- _].
  cbn [bind]. do 4 eexists. split; [reflexivity|]. split; reflexivity.
Qed.

Lemma file_info_hdr r r' : rp_hdr r = rp_hdr r' -> rpm_get_file_info L false r = rpm_get_file_info L false r'.
Proof. intros H. unfold rpm_get_file_info. rewrite H. reflexivity. Qed.
Lemma digest_algo_hdr r r' : rp_hdr r = rp_hdr r' -> rpm_get_digest_algo L r = rpm_get_digest_algo L r'.
Proof. intros H. unfold rpm_get_digest_algo. rewrite H. reflexivity. Qed.

Lemma check_accepts old delta d out line : read_deltarpm L delta = Ok d -> bytes (d_seq d) -> d_src_nevr d <> [] ->
  write_seqfile d = Ok line ->
  drpm_apply L installed fs unprelinked clean (Some old) delta = (out, Ok tt) ->
  (forall r comp m1 m2, rpm_read L old ReadDecomp false = Ok (r, comp, m1, m2) -> forall m, lb_sig_md5 L (rp_sig r) = Some m -> zlen m = 16) ->
  drpm_check_sequence L db full filesizes (Some old) (Some line) CHECK_NONE = Ok tt.
Proof.
  intros Hd Hb Hn Hw H Hm. pose proof (FormatSafe.accepted_consistent _ _ _ Hd) as Hc.
  apply apply_inv in H as (d' & patched & files & idx & md5 & Hd' & Hp & _). rewrite Hd in Hd'. apply ok_inj in Hd'. subst d'.
  apply prepare_inv in Hp as (r & Hr & Hnv & He & _).
  destruct (write_seqfile_text d Hb (conj (co_seq _ Hc) (short_sequence _ _ Hw)) Hn) as (id & Ew & _ & _ & Es). rewrite Ew in Hw. apply ok_inj in Hw. subst line.
  unfold read_old in Hr. destruct (rpm_read L old ReadDecomp false) as [[[[r' comp] m1] m2]| | |] eqn:Er; try discriminate. cbn [bind] in Hr.
  destruct (read_without_archive _ _ _ _ _ Er) as (r0 & c & a & b & Er0 & Esig & Ehdr).
  assert (r' = r).
  { destruct (d_type d =? TYPE_RPMONLY); [|apply ok_inj in Hr; auto]. apply bind_ok in Hr as ([m|] & _ & Hr); [|discriminate].
    apply bind_ok in Hr as (s & _ & Hr). destruct (list_eqb s m); [apply ok_inj in Hr; auto|discriminate]. }
  subst r'. unfold drpm_check_sequence. cbn [Z.eqb CHECK_NONE orb negb]. rewrite Es. cbn [bind]. rewrite Er0. cbn [bind].
  assert (Es0 : rpm_signature_get_md5 L r0 = Ok (lb_sig_md5 L (rp_sig r))).
  { unfold rpm_signature_get_md5. rewrite Esig. destruct (lb_sig_md5 L (rp_sig r)) as [m|] eqn:Em; [|reflexivity]. rewrite (Hm _ _ _ _ eq_refl m Em). reflexivity. }
  rewrite Es0. cbn [bind]. unfold rpm_get_nevr. rewrite Ehdr, <- Hnv, list_eqb_refl. cbn [negb].
  set (only := match lb_sig_md5 L (rp_sig r) with Some _ => _ | None => _ end).
  destruct only eqn:Eo; [reflexivity|].
  destruct (d_type d =? TYPE_RPMONLY) eqn:T.
  - exfalso. apply Z.eqb_eq in T. rewrite (seq_read L installed unprelinked _ _ Hd T) in Hr. unfold rpm_signature_get_md5 in Hr. subst only.
    destruct (lb_sig_md5 L (rp_sig r)) as [m|] eqn:Em; cbn [bind] in Hr; [|discriminate]. rewrite (Hm _ _ _ _ eq_refl m Em) in Hr. cbn [Z.eqb Pos.eqb bind] in Hr.
    destruct (list_eqb (d_seq d) m) eqn:E; [|discriminate]. pose proof (only_seq L _ _ Hd T) as E16. rewrite E16 in Eo. cbn [Z.eqb Pos.eqb andb] in Eo.
    rewrite <- E16 in Eo at 1; rewrite slice_all in Eo. congruence.
  - unfold expand_old in He. rewrite T in He. apply bind_ok in He as ([fl colors] & E1 & He). apply bind_ok in He as (sha & E2 & He). apply bind_ok in He as (ix & E3 & He).
    rewrite (file_info_hdr r0 r), (digest_algo_hdr r0 r) by auto. rewrite E1. cbn [bind]. rewrite E2. cbn [bind]. change (check_of full filesizes CHECK_NONE) with (@None (list Z -> bool -> list Z -> Z -> res unit)).
    rewrite E3. reflexivity.
Qed.

Lemma check_same delta d line mode : read_deltarpm L delta = Ok d -> bytes (d_seq d) -> d_src_nevr d <> [] -> d_type d = TYPE_STANDARD ->
  write_seqfile d = Ok line -> mode = CHECK_FULL \/ mode = CHECK_FILESIZES ->
  drpm_check_sequence L db full filesizes None (Some line) mode = drpm_check L (rpm_read_header db) delta (check_of full filesizes mode).
Proof.
  intros Hd Hb Hn T Hw Hmode. pose proof (FormatSafe.accepted_consistent _ _ _ Hd) as Hc.
  destruct (write_seqfile_text d Hb (conj (co_seq _ Hc) (short_sequence _ _ Hw)) Hn) as (id & Ew & _ & _ & Es). rewrite Ew in Hw. apply ok_inj in Hw. subst line.
  unfold drpm_check_sequence, drpm_check.
  assert (E : negb ((mode =? CHECK_NONE) || (mode =? CHECK_FILESIZES) || (mode =? CHECK_FULL)) = false) by (destruct Hmode; subst mode; reflexivity).
  rewrite E, Es. cbn [bind]. rewrite Hd. cbn [bind]. rewrite T, Z.eqb_refl.
  assert (exists c, check_of full filesizes mode = Some c) as [c Ec] by (destruct Hmode; subst mode; eexists; reflexivity). rewrite Ec.
  destruct (rpm_read_header db (d_src_nevr d)) as [r|?|?|]; cbn [bind]; reflexivity.
Qed.
End Check.
