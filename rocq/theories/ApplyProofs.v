(** * ApplyProofs: what a successful [drpm_apply] has written, and when it refuses *)
From Verif Require Import Base FileSys BaseLemmas Utils DeltaComp SpecCodec Stream SpecStream StreamProofs Rpm Seq Delta DeltaRead Expand Blocks Fill
     Apply ArchiveSeq.

Lemma wbind_ok {A B} (x : wres A) (k : A -> wres B) out b : wbind x k = (out, Ok b) ->
  exists o1 a o2, x = (o1, Ok a) /\ k a = (o2, Ok b) /\ out = o1 ++ o2.
Proof.
  destruct x as [o1 [a| | |]]; cbn [wbind]; try discriminate.
  destruct (k a) as [o2 r] eqn:E. intros H. injection H as <- ->. eauto 10.
Qed.
Lemma calc_ok {A} (r : res A) out a : calc r = (out, Ok a) -> out = [] /\ r = Ok a.
Proof. unfold calc. intros H. injection H as <- ->. auto. Qed.
Lemma put_ok {A} (r : res (A * list Z)) out a : put r = (out, Ok a) -> r = Ok (a, out).
Proof. destruct r as [[x o]| | |]; cbn [put]; try discriminate. intros H. injection H as <- ->. auto. Qed.

Lemma calc_bind {A B} (a : A) (k : A -> wres B) : wbind (calc (Ok a)) k = k a.
Proof. unfold calc. cbn [wbind]. destruct (k a). reflexivity. Qed.
Lemma put_Ok {A} (a : A) (o : list Z) : put (Ok (a, o)) = (o, Ok a).
Proof. reflexivity. Qed.
Lemma pair_inj {A B} (a c : A) (b d : B) : (a, b) = (c, d) -> a = c /\ b = d.
Proof. intros H. split; congruence. Qed.

Section Writing.
Variable cd : codec.

(** What the wrapper has put into the file. *)
Definition winv (w : cwrap) (file : list Z) : Prop :=
  cs_inv (cw_strm w) /\ cs_fd (cw_strm w) = true /\ file = cw_uncomp w ++ cs_data (cw_strm w) /\
  (0 < cw_left w -> cs_data (cw_strm w) = []).

Lemma winv_write w file p w' out : winv w file -> wrapper_write cd w p = Ok (w', out) -> winv w' (file ++ out).
Proof.
  intros (Hs & Hfd & Hf & Hz). unfold wrapper_write. destruct (0 <? cw_left w) eqn:El.
  - destruct (zlen p =? 0) eqn:Ep; [intros H; injection H as <- <-; rewrite app_nil_r; unfold winv; auto|].
    destruct (write_step cd (cw_strm w) (slice p (Z.min (cw_left w) (zlen p)) (zlen p - Z.min (cw_left w) (zlen p))) Hs)
      as (s' & E & Hs' & _ & _ & Hfd' & _ & Hd').
    cbv zeta. rewrite E, Hfd. cbn [bind]. intros H. injection H as <- <-. unfold winv. cbn [cw_strm cw_uncomp cw_left].
    rewrite Hfd', Hd', Hz by lia. cbn [app]. repeat split; auto.
    + apply Hs'.
    + apply Hs'.
    + rewrite Hf, Hz by lia. rewrite app_nil_r, <- app_assoc. reflexivity.
    + intros Hl. replace (zlen p - Z.min (cw_left w) (zlen p)) with 0 by lia.
      assert (Ez : slice p (Z.min (cw_left w) (zlen p)) 0 = []) by reflexivity. rewrite Ez. reflexivity.
  - destruct (write_step cd (cw_strm w) p Hs) as (s' & E & Hs' & _ & _ & Hfd' & _ & Hd').
    rewrite E, Hfd. cbn [bind]. intros H. injection H as <- <-. unfold winv. cbn [cw_strm cw_uncomp cw_left].
    rewrite Hfd', Hd'. split; [auto|]. split; [auto|]. split; [rewrite Hf, <- app_assoc; reflexivity|lia].
Qed.

Lemma winv_finish w file out data : winv w file -> wrapper_finish cd w = Ok (out, data) -> file ++ out = data.
Proof.
  intros (Hs & Hfd & Hf & Hz). unfold wrapper_finish. destruct (finish_spec cd (cw_strm w) Hs) as (s' & o & E & _).
  rewrite E, Hfd. cbn [bind]. destruct (0 <? cw_left w); [discriminate|]. intros H. injection H as <- <-.
  rewrite Hf, <- app_assoc. reflexivity.
Qed.

Variable S : Type.
Variable fill : blocks S -> nat -> Z -> Z -> res (blocks S).

Lemma rebuild_ext_winv fuel : forall b add w off len cnt id out b' add' w' file,
  winv w file -> rebuild_ext cd S fill fuel (b, add, w) off len cnt id = (out, Ok (b', add', w')) -> winv w' (file ++ out).
Proof.
  induction fuel as [|f IH]; intros b add w off len cnt id out b' add' w' file Hw H; cbn [rebuild_ext] in H;
    (destruct (0 <? len); [|injection H as <- <- <- <-; rewrite app_nil_r; auto]); [discriminate|].
  apply wbind_ok in H as (o1 & [b1 x1] & o2 & H1 & H & ->). apply calc_ok in H1 as [-> _].
  apply wbind_ok in H as (o3 & [add2 x2] & o4 & H2 & H & ->). apply calc_ok in H2 as [-> _].
  apply wbind_ok in H as (o5 & w1 & o6 & H3 & H & ->). apply put_ok in H3.
  cbn [app]. rewrite app_assoc. eapply IH; [|exact H]. eapply winv_write; eauto.
Qed.

Lemma rebuild_exts_winv exts : forall b add w off cnt out b' add' w' off' cnt' file,
  winv w file -> rebuild_exts cd S fill (b, add, w) exts off cnt = (out, Ok (b', add', w', off', cnt')) -> winv w' (file ++ out).
Proof.
  induction exts as [|[d l] exts IH]; intros b add w off cnt out b' add' w' off' cnt' file Hw H; cbn [rebuild_exts] in H.
  - injection H as <- <- <- <- _ _. rewrite app_nil_r. auto.
  - apply wbind_ok in H as (o1 & [[b1 a1] w1] & o2 & H1 & H & ->). rewrite app_assoc.
    eapply IH; [|exact H]. eapply rebuild_ext_winv; eauto.
Qed.

Lemma rebuild_ints_winv ints : forall b add w exts off cnt data pos out b' add' w' file,
  winv w file -> rebuild_ints cd S fill (b, add, w) ints exts off cnt data pos = (out, Ok (b', add', w')) -> winv w' (file ++ out).
Proof.
  induction ints as [|[n l] ints IH]; intros b add w exts off cnt data pos out b' add' w' file Hw H; cbn [rebuild_ints] in H.
  - injection H as <- <- <- <-. rewrite app_nil_r. auto.
  - destruct (zlen exts <? n); [discriminate|].
    apply wbind_ok in H as (o1 & [[[[b1 a1] w1] off1] cnt1] & o2 & H1 & H & ->).
    apply wbind_ok in H as (o3 & x & o4 & H2 & H & ->). apply calc_ok in H2 as [-> _].
    apply wbind_ok in H as (o5 & w2 & o6 & H3 & H & ->). apply put_ok in H3.
    cbn [app]. rewrite !app_assoc. eapply IH; [|exact H]. eapply winv_write; [|exact H3]. eapply rebuild_exts_winv; eauto.
Qed.

Lemma rebuild_writes d b add out data : rebuild cd S fill d b add = (out, Ok data) -> out = data.
Proof.
  unfold rebuild. intros H.
  apply wbind_ok in H as (o1 & w & o2 & H1 & H & ->). apply calc_ok in H1 as [-> H1].
  apply wbind_ok in H as (o3 & [[b1 a1] w1] & o4 & H2 & H & ->).
  apply wbind_ok in H as (o6 & ? & o7 & H3 & H & ->). apply calc_ok in H3 as [-> _]. apply put_ok in H.
  destruct (wrapper_finish cd w1) as [[o5 d5]| | |] eqn:E; try discriminate. injection H as <- <-.
  assert (Hw : winv w []).
  { unfold wrapper_init in H1. destruct (compstrm_init cd true (d_tcomp d) (d_tlevel d)) as [s| | |] eqn:Ei; try discriminate.
    apply init_state in Ei. cbn [bind] in H1. injection H1 as <-. subst s. unfold winv, cs_inv. cbn. auto. }
  pose proof (rebuild_ints_winv _ _ _ _ _ _ _ _ _ _ _ _ _ _ Hw H2) as Hw1. cbn [app] in *.
  eapply winv_finish; eauto.
Qed.
End Writing.

Section Applying.
Variable L : libs.
Variable installed : list Z -> res rpm.
Variable fs : fsys.
Variable unprelinked : list Z -> res (list Z).
Variable clean : Z.
Notation apply := (drpm_apply L installed fs unprelinked clean).

(** The file is lead and signature followed by what was hashed. *)
Lemma apply_diff_writes S fill (src : S) d out m : apply_diff L clean S fill src d = (out, Ok m) ->
  exists body, out = d_leadsig d ++ body /\ m = lb_md5 L ((if no_full_md5 d then [] else d_leadsig d) ++ body).
Proof.
  unfold apply_diff. intros H.
  apply wbind_ok in H as (o1 & b & o2 & H1 & H & ->). apply calc_ok in H1 as [-> _].
  apply wbind_ok in H as (o1' & ? & o2' & H1 & H & ->). apply calc_ok in H1 as [-> _].
  apply wbind_ok in H as (o3 & add & o4 & H2 & H & ->). apply calc_ok in H2 as [-> _].
  apply wbind_ok in H as (o5 & [] & o6 & H3 & H & ->). injection H3 as <-.
  apply wbind_ok in H as (o7 & h & o8 & H4 & H & ->). apply put_ok in H4.
  destruct (target_header L d) as [h'| | |]; try discriminate. injection H4 as <- <-.
  apply wbind_ok in H as (o9 & data & o10 & H5 & H & ->). injection H as <- <-.
  apply rebuild_writes in H5. subst o9. exists (h' ++ data). cbn [app]. rewrite app_nil_r. auto.
Qed.

Lemma apply_from_writes old d patched files idx out m :
  apply_from L fs unprelinked clean old d patched files idx = (out, Ok m) ->
  exists body, out = d_leadsig d ++ body /\ m = lb_md5 L ((if no_full_md5 d then [] else d_leadsig d) ++ body).
Proof.
  unfold apply_from. destruct old; [destruct (d_type d =? TYPE_RPMONLY)|]; apply apply_diff_writes.
Qed.

(** Success of the whole: what was computed on the way. *)
Lemma apply_inv old delta file : apply old delta = (file, Ok tt) ->
  exists d patched files idx md5, read_deltarpm L delta = Ok d /\ apply_prepare L installed old d = Ok (patched, files, idx) /\
    final_check L d patched md5 = Ok tt /\
    ((is_nodiff d = true /\ rpm_write L patched true (negb (no_full_md5 d)) = (file, md5)) \/
     (is_nodiff d = false /\ apply_from L fs unprelinked clean old d patched files idx = (file, Ok md5))).
Proof.
  unfold drpm_apply. intros H.
  apply wbind_ok in H as (o1 & d & o2 & H1 & H & ->). apply calc_ok in H1 as [-> H1].
  apply wbind_ok in H as (o3 & [[patched files] idx] & o4 & H2 & H & ->). apply calc_ok in H2 as [-> H2].
  apply wbind_ok in H as (o5 & md5 & o6 & H3 & H & ->). apply calc_ok in H as [-> H].
  cbn [app]. rewrite app_nil_r. exists d, patched, files, idx, md5. split; [auto|]. split; [auto|]. split; [auto|].
  destruct (is_nodiff d); [left|right]; split; auto.
  destruct (rpm_write L patched true (negb (no_full_md5 d))) as [o m]. injection H3 as <- <-. reflexivity.
Qed.

Lemma zeros16 d : no_full_md5 d = true <-> d_md5 d = zeros 16.
Proof. unfold no_full_md5. rewrite list_eqb_spec. tauto. Qed.

(** C17 *)
Lemma apply_full_md5 old delta file d : apply old delta = (file, Ok tt) -> read_deltarpm L delta = Ok d ->
  d_md5 d <> zeros 16 -> lb_md5 L file = d_md5 d.
Proof.
  intros H Hd Hne. apply apply_inv in H as (d' & patched & files & idx & md5 & Hd' & Hp & Hc & Hw).
  rewrite Hd in Hd'. injection Hd' as <-.
  assert (Hn : no_full_md5 d = false) by (destruct (no_full_md5 d) eqn:E; [apply zeros16 in E; contradiction|auto]).
  unfold final_check in Hc. rewrite Hn in Hc.
  destruct (negb (list_eqb md5 (d_md5 d))) eqn:E; [discriminate|]. apply negb_false_iff, list_eqb_spec in E.
  rewrite <- E. destruct Hw as [[_ Hw]|[_ Hw]].
  - unfold rpm_write in Hw. rewrite Hn in Hw. cbn [negb] in Hw. apply pair_inj in Hw as [<- <-].
    f_equal. apply app_assoc.
  - apply apply_from_writes in Hw as (body & -> & ->). rewrite Hn. reflexivity.
Qed.

Lemma replace_inv r leadsig r' : rpm_replace_lead_and_signature L r leadsig = Ok r' ->
  exists n sig, lb_import L (slice leadsig 104 n) = Some sig /\
    r' = mkrpm (slice leadsig 0 96) sig (rp_hdr r) (rp_archive r) (rp_off r) (rp_csize r).
Proof.
  unfold rpm_replace_lead_and_signature. destruct (zlen leadsig <? RPM_LEADSIG_MIN_LEN); [discriminate|].
  destruct (negb _); [discriminate|].
  destruct (parse_be32_at leadsig 104) as [il| | |]; try discriminate. cbn [bind].
  destruct (parse_be32_at leadsig 108) as [dl| | |]; try discriminate. cbn [bind].
  unfold rd_range. destruct (_ && _); [|discriminate]. cbn [bind].
  destruct (lb_import L _) as [sig|] eqn:E; [|discriminate]. intros H. apply ok_inj in H. eauto.
Qed.

Lemma prepare_inv old d patched files idx : apply_prepare L installed old d = Ok (patched, files, idx) ->
  exists r, read_old L installed old d = Ok r /\ d_src_nevr d = lb_nevr L (rp_hdr r) /\
    expand_old L d r = Ok (files, idx) /\ rpm_replace_lead_and_signature L r (d_leadsig d) = Ok patched.
Proof.
  unfold apply_prepare. destruct (read_old L installed old d) as [r| | |]; try discriminate. cbn [bind].
  unfold rpm_get_nevr. destruct (list_eqb (d_src_nevr d) (lb_nevr L (rp_hdr r))) eqn:En; [|discriminate]. cbn [negb].
  destruct (expand_old L d r) as [[fl ix]| | |] eqn:Ee; try discriminate. cbn [bind].
  destruct (rpm_replace_lead_and_signature L r (d_leadsig d)) as [p| | |] eqn:Er; try discriminate. cbn [bind].
  intros H. apply ok_inj in H. apply pair_inj in H as [H ->]. apply pair_inj in H as [-> ->].
  apply list_eqb_spec in En. exists r. auto.
Qed.

Lemma apply_signature_md5 old delta file d : apply old delta = (file, Ok tt) -> read_deltarpm L delta = Ok d ->
  d_md5 d = zeros 16 ->
  exists n sig body, lb_import L (slice (d_leadsig d) 104 n) = Some sig /\
    (file = d_leadsig d ++ body \/
     file = slice (d_leadsig d) 0 96 ++ (HEADER_MAGIC ++ sig ++ zeros (padding (8 + zlen sig) 8)) ++ body) /\
    forall m, lb_sig_md5 L sig = Some m -> lb_md5 L body = m.
Proof.
  intros H Hd Hz. apply apply_inv in H as (d' & patched & files & idx & md5 & Hd' & Hp & Hc & Hw).
  rewrite Hd in Hd'. injection Hd' as <-. apply zeros16 in Hz.
  apply prepare_inv in Hp as (r & _ & _ & _ & Er).
  apply replace_inv in Er as (n & sig & Hi & ->). exists n, sig.
  assert (Hm : forall m, lb_sig_md5 L sig = Some m -> md5 = m).
  { intros m Hm. unfold final_check in Hc. rewrite Hz in Hc. unfold rpm_signature_get_md5 in Hc. cbn [rp_sig] in Hc.
    rewrite Hm in Hc. destruct (zlen m =? 16); [|discriminate]. cbn [bind] in Hc.
    destruct (list_eqb md5 m) eqn:E; [|discriminate]. apply list_eqb_spec in E. auto. }
  destruct Hw as [[_ Hw]|[_ Hw]].
  - unfold rpm_write in Hw. rewrite Hz in Hw. cbn [negb app] in Hw. apply pair_inj in Hw as [<- <-].
    eexists. split; [exact Hi|]. split; [right; reflexivity|exact Hm].
  - apply apply_from_writes in Hw as (body & -> & ->). rewrite Hz in Hm. exists body. auto.
Qed.

End Applying.
