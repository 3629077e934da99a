(** * ApplyRefuse: which packages a delta is refused for *)
From Verif Require FormatSafe.
From Verif Require Import Base FileSys BaseLemmas Utils DeltaComp SpecFormat Stream Rpm Seq Delta DeltaRead Expand Blocks Fill SpecArchive
     SpecApply Apply ApplyProofs ArchiveSeq.

Section Refuse.
Variable L : libs.
Variable installed : list Z -> res rpm.
Variable fs : fsys.
Variable unprelinked : list Z -> res (list Z).
Variable clean : Z.
Notation apply := (drpm_apply L installed fs unprelinked clean).

Lemma only_seq delta d : read_deltarpm L delta = Ok d -> d_type d = TYPE_RPMONLY -> zlen (d_seq d) = 16.
Proof. intros H T. apply FormatSafe.accepted_consistent in H. apply (co_only _ H T). Qed.
Lemma seq_read delta d : read_deltarpm L delta = Ok d -> d_type d = TYPE_RPMONLY -> rd_range (d_seq d) 0 16 = Ok (d_seq d).
Proof.
  intros H T. pose proof (only_seq _ _ H T) as E. rewrite rd_range_in by lia. rewrite <- E, slice_all. reflexivity.
Qed.

Lemma expand_files d r files idx : d_type d <> TYPE_RPMONLY -> expand_old L d r = Ok (files, idx) ->
  exists colors, rpm_get_file_info L false r = Ok (files, colors) /\ (Forall wf_file files -> same_files L d files).
Proof.
  intros T H. unfold expand_old in H. apply Z.eqb_neq in T. rewrite T in H.
  apply bind_ok in H as ([fl colors] & E & H). apply bind_ok in H as (sha & Es & H). apply bind_ok in H as (ix & Ex & H).
  apply ok_inj, pair_inj in H as [<- <-]. exists colors. split; [auto|]. intros Hw.
  apply accepted_inv in Ex as (gs & Hf & Hp & Hm & _); auto. exists (removelast (map cf_index ix)), gs. auto.
Qed.

Lemma apply_right_source old delta file d : apply (Some old) delta = (file, Ok tt) -> read_deltarpm L delta = Ok d ->
  exists r comp m1 m2, rpm_read L old ReadDecomp false = Ok (r, comp, m1, m2) /\ right_source L d r.
Proof.
  intros H Hd. apply apply_inv in H as (d' & patched & files & idx & md5 & Hd' & Hp & _). rewrite Hd in Hd'. apply ok_inj in Hd'. subst d'.
  apply prepare_inv in Hp as (r & Hr & Hn & He & _). unfold read_old in Hr.
  destruct (rpm_read L old ReadDecomp false) as [[[[r' comp] m1] m2]| | |]; try discriminate. cbn [bind] in Hr.
  assert (r' = r /\ (d_type d = TYPE_RPMONLY -> same_signature L d r)) as [-> Hs].
  { destruct (d_type d =? TYPE_RPMONLY) eqn:T.
    - apply Z.eqb_eq in T. rewrite (seq_read _ _ Hd T) in Hr. unfold rpm_signature_get_md5 in Hr.
      destruct (lb_sig_md5 L (rp_sig r')) as [m|] eqn:Em; cbn [bind] in Hr; [|discriminate].
      destruct (zlen m =? 16); cbn [bind] in Hr; [|discriminate].
      destruct (list_eqb (d_seq d) m) eqn:E; cbn [negb] in Hr; [|discriminate]. apply ok_inj in Hr. subst r'.
      apply list_eqb_spec in E. subst m. auto.
    - apply ok_inj in Hr. subst r'. apply Z.eqb_neq in T. split; [auto|contradiction]. }
  exists r, comp, m1, m2. split; [reflexivity|]. split; [auto|]. split; [auto|].
  intros T. destruct (expand_files _ _ _ _ T He) as (c & A & B). eauto.
Qed.

Lemma installed_right_source delta file d : apply None delta = (file, Ok tt) -> read_deltarpm L delta = Ok d ->
  exists r t, installed (d_src_nevr d) = Ok r /\ right_source L d r /\ d_type d <> TYPE_RPMONLY /\
    d_head d = HRpm t /\ lb_string L (rp_hdr t) RPMTAG_SOURCERPM <> None.
Proof.
  intros H Hd. apply apply_inv in H as (d' & patched & files & idx & md5 & Hd' & Hp & _). rewrite Hd in Hd'. apply ok_inj in Hd'. subst d'.
  apply prepare_inv in Hp as (r & Hr & Hn & He & _). unfold read_old in Hr.
  destruct (d_type d =? TYPE_RPMONLY) eqn:T; [discriminate|]. apply Z.eqb_neq in T.
  destruct (d_head d) as [t|]; [|discriminate]. unfold rpm_is_sourcerpm in Hr.
  destruct (lb_string L (rp_hdr t) RPMTAG_SOURCERPM) eqn:Es; [|discriminate].
  exists r, t. split; [auto|]. destruct (expand_files _ _ _ _ T He) as (c & A & B).
  split; [split; [auto|split; [contradiction|eauto]]|]. split; [auto|]. split; [auto|congruence].
Qed.

Lemma prepare_err old delta d e : read_deltarpm L delta = Ok d -> apply_prepare L installed old d = Err e -> apply old delta = ([], Err e).
Proof. intros Hd H. unfold drpm_apply. rewrite Hd, calc_bind, H. reflexivity. Qed.

Lemma refused_signature old delta d r comp m1 m2 : read_deltarpm L delta = Ok d -> d_type d = TYPE_RPMONLY ->
  rpm_read L old ReadDecomp false = Ok (r, comp, m1, m2) -> ~ same_signature L d r ->
  apply (Some old) delta = ([], Err (match lb_sig_md5 L (rp_sig r) with
                                     | Some m => if zlen m =? 16 then EMismatch else EFormat
                                     | None => EFormat end)).
Proof.
  intros Hd T Hr Hs. apply (prepare_err _ _ d); auto. unfold apply_prepare, read_old. rewrite Hr. cbn [bind].
  rewrite T. cbn. rewrite (seq_read _ _ Hd T). unfold rpm_signature_get_md5. unfold same_signature in Hs.
  destruct (lb_sig_md5 L (rp_sig r)) as [m|]; [|reflexivity]. destruct (zlen m =? 16); [|reflexivity]. cbn [bind].
  destruct (list_eqb (d_seq d) m) eqn:E; [|reflexivity]. apply list_eqb_spec in E. congruence.
Qed.

Lemma refused_nevr old delta d r comp m1 m2 : read_deltarpm L delta = Ok d ->
  rpm_read L old ReadDecomp false = Ok (r, comp, m1, m2) -> (d_type d = TYPE_RPMONLY -> same_signature L d r) ->
  d_src_nevr d <> lb_nevr L (rp_hdr r) -> apply (Some old) delta = ([], Err EMismatch).
Proof.
  intros Hd Hr Hs Hn. apply (prepare_err _ _ d); auto. unfold apply_prepare, read_old. rewrite Hr. cbn [bind].
  assert (E : list_eqb (d_src_nevr d) (rpm_get_nevr L r) = false).
  { destruct (list_eqb (d_src_nevr d) (rpm_get_nevr L r)) eqn:E; [|reflexivity]. apply list_eqb_spec in E. contradiction. }
  destruct (d_type d =? TYPE_RPMONLY) eqn:T; [|cbn [bind]; rewrite E; reflexivity].
  apply Z.eqb_eq in T. specialize (Hs T). unfold same_signature in Hs.
  unfold rpm_signature_get_md5. rewrite Hs, (only_seq _ _ Hd T), (seq_read _ _ Hd T). cbn [bind].
  change (16 =? 16) with true. cbn iota. cbn [bind].
  assert (E2 : list_eqb (d_seq d) (d_seq d) = true) by (apply list_eqb_spec; reflexivity). rewrite E2. cbn [negb bind]. rewrite E. reflexivity.
Qed.

Lemma refused_files old delta d r comp m1 m2 files colors : read_deltarpm L delta = Ok d -> d_type d <> TYPE_RPMONLY ->
  rpm_read L old ReadDecomp false = Ok (r, comp, m1, m2) -> d_src_nevr d = lb_nevr L (rp_hdr r) ->
  rpm_get_file_info L false r = Ok (files, colors) -> Forall wf_file files -> ~ same_files L d files ->
  fst (apply (Some old) delta) = [] /\ snd (apply (Some old) delta) <> Ok tt.
Proof.
  intros Hd T Hr Hn Hf Hw Hs.
  assert (He : forall x, expand_old L d r <> Ok x).
  { intros [fl ix] H. apply expand_files in H as (c & E & H); auto. rewrite Hf in E. apply ok_inj, pair_inj in E as [-> ->]. auto. }
  unfold drpm_apply. rewrite Hd, calc_bind. unfold apply_prepare, read_old. rewrite Hr. apply Z.eqb_neq in T. rewrite T. cbn [bind].
  assert (E : list_eqb (d_src_nevr d) (rpm_get_nevr L r) = true) by (apply list_eqb_spec; exact Hn). rewrite E. cbn [negb].
  destruct (expand_old L d r) as [x| | |]; [destruct (He x); reflexivity| | |]; cbn [bind calc wbind fst snd app]; split; try reflexivity; discriminate.
Qed.

Lemma refused_installed delta d : read_deltarpm L delta = Ok d ->
  (d_type d = TYPE_RPMONLY \/ exists t, d_head d = HRpm t /\ lb_string L (rp_hdr t) RPMTAG_SOURCERPM = None) ->
  apply None delta = ([], Err EArgs).
Proof.
  intros Hd H. apply (prepare_err _ _ d); auto. unfold apply_prepare, read_old.
  destruct (d_type d =? TYPE_RPMONLY) eqn:T; [reflexivity|]. destruct H as [H|(t & Ht & Hs)]; [apply Z.eqb_neq in T; contradiction|].
  rewrite Ht. unfold rpm_is_sourcerpm. rewrite Hs. reflexivity.
Qed.
End Refuse.
