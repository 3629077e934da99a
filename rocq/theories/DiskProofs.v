(** * DiskProofs: proofs about writing to a disk that can be full *)
From Verif Require Import Base BaseLemmas Utils DeltaComp Stream Rpm Seq Delta DeltaRead DeltaWrite Diff Expand FileSys Blocks Fill FsFill
  Apply ApplyProofs Make DiskOut SpecDisk.

(** [m] does what [w] says, or stops with the I/O error after a write that took too little. *)
Definition fine {A} (r : res A) : Prop := match r with Ub _ => False | _ => True end.
Definition sim {A} (P : A -> Prop) (m : D A) (w : wres A) : Prop := forall k, dk_short k = false ->
  (snd (m k) = snd w /\ (fine (snd w) -> dk_file (fst (m k)) = dk_file k ++ fst w) /\ dk_short (fst (m k)) = false /\
   (dk_grants k = [] -> dk_grants (fst (m k)) = []) /\ (forall a, snd w = Ok a -> P a)) \/
  (snd (m k) = Err EIo /\ dk_short (fst (m k)) = true /\ dk_grants k <> [] /\
   (fine (snd w) -> exists p q, fst w = p ++ q /\ dk_file (fst (m k)) = dk_file k ++ p)).

Definition any {A} (_ : A) : Prop := True.

Lemma sim_calc {A} (P : A -> Prop) (r : res A) : (forall a, r = Ok a -> P a) -> sim P (dcalc r) (calc r).
Proof. intros H k Hk. left. unfold dcalc, calc; simpl. rewrite app_nil_r. auto 6. Qed.

Lemma sim_bind {A B} (P : A -> Prop) (Q : B -> Prop) (m : D A) (w : wres A) f g :
  sim P m w -> (forall a, P a -> sim Q (f a) (g a)) -> sim Q (dbind m f) (wbind w g).
Proof.
  intros Hm Hf k Hk. destruct (Hm k Hk) as [(E1 & E2 & E3 & E4 & E5)|(E1 & E2 & E3 & E4)].
  - unfold dbind. destruct (m k) as [k' r']. destruct w as [out r]. simpl in E1, E2, E3, E4, E5. subst r'.
    destruct r as [a|e|u|]; simpl.
    + specialize (Hf a (E5 a eq_refl) k' E3). destruct (g a) as [out' r'']. simpl in Hf |- *.
      specialize (E2 I). destruct Hf as [(F1 & F2 & F3 & F4 & F5)|(F1 & F2 & F3 & F4)].
      * left. split; [auto|]. split; [|auto]. intros Hu. rewrite F2, E2, <- app_assoc; auto.
      * right. split; [auto|]. split; [auto|]. split; [intros E; apply F3; auto|].
        intros Hu. destruct (F4 Hu) as (p & q & F5 & F6).
        exists (out ++ p), q. rewrite F6, E2, F5, <- !app_assoc. auto.
    + left. split; [auto|]. split; [auto|]. split; [auto|]. split; [auto|]. discriminate.
    + left. split; [auto|]. split; [auto|]. split; [auto|]. split; [auto|]. discriminate.
    + left. split; [auto|]. split; [auto|]. split; [auto|]. split; [auto|]. discriminate.
  - right. unfold dbind. destruct (m k) as [k' r']. simpl in E1, E2, E4. subst r'. simpl.
    split; [auto|]. split; [auto|]. split; [auto|].
    destruct w as [out r]. simpl in E4.
    destruct r as [a|e|u|]; simpl.
    + destruct (E4 I) as (p & q & F5 & F6). subst out. destruct (g a) as [out' r'']. simpl.
      intros _. exists p, (q ++ out'). rewrite <- app_assoc. auto.
    + auto.
    + auto.
    + auto.
Qed.

Lemma slice_head (buf : list Z) n : 0 <= n <= zlen buf -> buf = slice buf 0 n ++ from buf n.
Proof.
  intros H. unfold slice, from. simpl. symmetry. apply firstn_skipn.
Qed.

Lemma sim_write buf : sim any (dwrite buf) (buf, Ok tt).
Proof.
  intros k Hk. unfold dwrite, sys_write. destruct (dk_grants k) as [|[|n] g] eqn:E.
  - left. simpl. rewrite Z.eqb_refl. unfold any. auto 6.
  - right. pose proof (zlen_nonneg buf). destruct (-1 =? zlen buf) eqn:F; [lia|]. cbn [fst snd dk_file dk_short].
    split; [auto|]. split; [auto|]. split; [discriminate|]. intros _. exists [], buf. rewrite app_nil_r. auto.
  - cbn zeta. set (m := Z.min (Z.max 0 n) (zlen buf)). pose proof (zlen_nonneg buf).
    destruct (m =? zlen buf) eqn:F.
    + left. simpl. assert (m = zlen buf) as -> by lia. rewrite slice_all, Hk, Z.ltb_irrefl. unfold any.
      split; [auto|]. split; [auto|]. split; [auto|]. split; [discriminate|auto].
    + right. simpl. rewrite Hk. split; [auto|]. split; [simpl; lia|]. split; [discriminate|].
      intros _. exists (slice buf 0 m), (from buf m). split; [apply slice_head; lia|auto].
Qed.

Lemma sim_nothing : sim any (dcalc (Ok tt)) ([], Ok tt).
Proof. apply (sim_calc any (Ok tt)). unfold any; auto. Qed.

Lemma sim_fwrite buf : sim any (dfwrite buf) (buf, Ok tt).
Proof.
  unfold dfwrite. destruct (zlen buf =? 0) eqn:E; [|apply sim_write].
  assert (buf = []) as -> by (apply zlen_zero_nil; lia). apply sim_nothing.
Qed.

Lemma sim_write_some fd buf : sim any (dwrite_some fd buf) (if fd then buf else [], Ok tt).
Proof.
  unfold dwrite_some. destruct fd; simpl; [|apply sim_nothing].
  destruct (0 <? zlen buf) eqn:E; [apply sim_write|].
  pose proof (zlen_nonneg buf). assert (buf = []) as -> by (apply zlen_zero_nil; lia). apply sim_nothing.
Qed.

Lemma sim_ext {A} (P : A -> Prop) m w w' : w = w' -> sim P m w -> sim P m w'.
Proof. intros ->; auto. Qed.

Lemma sim_weaken {A} (P Q : A -> Prop) m w : (forall a, P a -> Q a) -> sim P m w -> sim Q m w.
Proof. intros H Hm k Hk. destruct (Hm k Hk) as [(a & b & c & d & e)|E]; [left; auto 8|right; auto]. Qed.

(** Streams that are written to. *)
Definition open_strm (s : cstrm) : Prop := cs_finished s = false /\ 0 <= cs_pos s <= zlen (cs_data s).

Section Streams.
Variable cd : codec.

Lemma sim_strm_write s piece : open_strm s -> sim open_strm (disk_strm_write cd s piece) (put (compstrm_write cd s piece)).
Proof.
  intros [F P]. unfold disk_strm_write, compstrm_write. rewrite F.
  destruct (zlen piece =? 0) eqn:E.
  - apply (sim_calc open_strm (Ok s)). intros a [= <-]. split; auto.
  - cbn zeta. set (data := cs_data s ++ write_chunk cd s piece).
    assert (zlen data = zlen (cs_data s) + zlen (write_chunk cd s piece)) as Hl by (apply zlen_app).
    pose proof (zlen_nonneg (write_chunk cd s piece)).
    rewrite rd_range_in by lia. set (out := slice data (cs_pos s) (zlen data - cs_pos s)).
    set (s' := mkcs _ _ _ _ _ _ _).
    eapply sim_ext; [|eapply (sim_bind any open_strm (dcalc (Ok out)) (calc (Ok out)));
      [apply sim_calc; unfold any; auto|
       intros a _; eapply (sim_bind any open_strm _ _ _ (fun _ => calc (Ok s'))); [apply sim_write_some|]]].
    + simpl. rewrite app_nil_r. reflexivity.
    + intros u _. apply sim_calc. intros b [= <-]. split; simpl; [auto|]. pose proof (zlen_nonneg data). lia.
Qed.

Lemma sim_strm_finish s : open_strm s ->
  sim any (disk_strm_finish cd s)
    (put (match compstrm_finish cd s with
          | Ok (_, out, data) => Ok (data, out) | Err e => Err e | Ub u => Ub u | NoFuel => NoFuel end)).
Proof.
  intros [F P]. unfold disk_strm_finish, compstrm_finish. rewrite F.
  destruct (cs_comp s =? COMP_NONE).
  - simpl. destruct (cs_fd s); apply (sim_calc any (Ok (cs_data s))); unfold any; auto.
  - cbn zeta. simpl. set (data := cs_data s ++ _). set (out := slice _ _ _).
    eapply sim_ext; [|eapply (sim_bind any any _ _ _ (fun _ => calc (Ok data)))];
      [|apply sim_write_some|intros; apply sim_calc; unfold any; auto].
    simpl. rewrite app_nil_r. auto.
Qed.

Definition open_wrap (w : cwrap) : Prop := open_strm (cw_strm w).

Lemma strm_write_ok s piece : open_strm s -> exists s' out, compstrm_write cd s piece = Ok (s', out).
Proof.
  intros [F P]. unfold compstrm_write. rewrite F. destruct (zlen piece =? 0); [eauto|]. cbn zeta.
  pose proof (zlen_nonneg (write_chunk cd s piece)).
  rewrite rd_range_in by (rewrite ?zlen_app; lia). simpl. eauto.
Qed.

Lemma sim_wrapper_write w buffer : open_wrap w ->
  sim open_wrap (disk_wrapper_write cd w buffer) (put (wrapper_write cd w buffer)).
Proof.
  intros H. unfold disk_wrapper_write, wrapper_write. destruct (0 <? cw_left w) eqn:E.
  - destruct (zlen buffer =? 0) eqn:F; [apply (sim_calc open_wrap (Ok w)); intros a [= <-]; auto|].
    cbn zeta. set (n := Z.min _ _). set (head := slice buffer 0 n). set (rest := slice _ n _).
    destruct (strm_write_ok (cw_strm w) rest H) as (s' & out & Ew).
    pose proof (sim_strm_write (cw_strm w) rest H) as Hs. rewrite Ew in Hs |- *. simpl in Hs.
    eapply sim_ext; [|eapply (sim_bind any open_wrap _ _ _
      (fun _ => wbind (out, Ok s') (fun s => calc (Ok (mkcw s (cw_len w) (cw_left w - n) (cw_uncomp w ++ head)))))); [apply sim_write|]].
    + simpl. rewrite app_nil_r. auto.
    + intros _ _. eapply sim_bind; [apply Hs|]. intros a Ha. apply sim_calc. intros b [= <-]. auto.
  - destruct (strm_write_ok (cw_strm w) buffer H) as (s' & out & Ew).
    pose proof (sim_strm_write (cw_strm w) buffer H) as Hs. rewrite Ew in Hs |- *. simpl in Hs.
    eapply sim_ext; [|eapply (sim_bind open_strm open_wrap _ _ _
      (fun s => calc (Ok (mkcw s (cw_len w) (cw_left w) (cw_uncomp w))))); [apply Hs|]].
    + simpl. rewrite app_nil_r. auto.
    + intros a Ha. apply sim_calc. intros b [= <-]. auto.
Qed.

Lemma sim_wrapper_finish w : open_wrap w ->
  sim any (disk_wrapper_finish cd w)
    (put (match wrapper_finish cd w with
          | Ok (out, data) => Ok (data, out) | Err e => Err e | Ub u => Ub u | NoFuel => NoFuel end)).
Proof.
  intros H. unfold disk_wrapper_finish, wrapper_finish.
  pose proof (sim_strm_finish (cw_strm w) H) as Hs.
  destruct (0 <? cw_left w) eqn:E.
  - intros k Hk. destruct (Hs k Hk) as [(E1 & E2 & E3 & E4 & E5)|(E1 & E2 & E3 & E4)]; unfold dbind.
    + left. destruct (disk_strm_finish cd (cw_strm w) k) as [k' r']. simpl in E1, E2, E3, E4.
      destruct (compstrm_finish cd (cw_strm w)) as [[[s out] data]|e|u|]; simpl in E1, E2; subst r'; simpl; unfold any;
        repeat split; auto; tauto.
    + right. destruct (disk_strm_finish cd (cw_strm w) k) as [k' r']. simpl in E1, E2, E3, E4. subst r'. simpl.
      split; [auto|]. split; [auto|]. split; [auto|].
      destruct (compstrm_finish cd (cw_strm w)) as [[[s out] data]|e|u|]; simpl in E4 |- *; auto; tauto.
  - eapply sim_ext; [|eapply (sim_bind any any _ _ _ (fun data => calc (Ok (cw_uncomp w ++ data)))); [apply Hs|]].
    + destruct (compstrm_finish cd (cw_strm w)) as [[[s out] data]|e|u|]; simpl; rewrite ?app_nil_r; auto.
    + intros a _. apply sim_calc. unfold any; auto.
Qed.

Section Rebuild.
Variable S : Type.
Variable fill : blocks S -> nat -> Z -> Z -> res (blocks S).

Definition open_state (s : rstate S) : Prop := open_wrap (snd s).

Lemma sim_rebuild_ext fuel : forall s off len cnt id, open_state s ->
  sim open_state (disk_ext cd S fill fuel s off len cnt id) (rebuild_ext cd S fill fuel s off len cnt id).
Proof.
  induction fuel as [|f IH]; intros s off len cnt id H; cbn [disk_ext rebuild_ext]; (destruct (0 <? len);
    [|apply (sim_calc open_state (Ok s)); intros a [= <-]; auto]).
  - apply (sim_calc open_state NoFuel). discriminate.
  - destruct s as [[b add] w]. eapply sim_bind; [apply (sim_calc any); unfold any; auto|]. intros [b' x] _.
    eapply sim_bind; [apply (sim_calc any); unfold any; auto|]. intros [add' x'] _.
    eapply sim_bind; [apply sim_wrapper_write; auto|]. intros w' Hw. apply IH. auto.
Qed.

Lemma sim_rebuild_exts exts : forall s off cnt, open_state s ->
  sim (fun a => open_state (fst (fst a))) (disk_exts cd S fill s exts off cnt) (rebuild_exts cd S fill s exts off cnt).
Proof.
  induction exts as [|[d l] exts IH]; intros s off cnt H; cbn [disk_exts rebuild_exts].
  - apply (sim_calc _ (Ok (s, off, cnt))). intros a [= <-]. auto.
  - eapply sim_bind; [apply sim_rebuild_ext; auto|]. intros s' Hs. apply IH. auto.
Qed.

Lemma sim_rebuild_ints ints : forall s exts off cnt data pos, open_state s ->
  sim open_state (disk_ints cd S fill s ints exts off cnt data pos) (rebuild_ints cd S fill s ints exts off cnt data pos).
Proof.
  induction ints as [|[todo l] ints IH]; intros s exts off cnt data pos H; cbn [disk_ints rebuild_ints].
  - apply (sim_calc _ (Ok s)). intros a [= <-]. auto.
  - destruct (zlen exts <? todo); [apply (sim_calc _ (Err EFormat)); discriminate|].
    eapply sim_bind; [apply sim_rebuild_exts; auto|]. intros [[[[b add] w] off'] cnt'] Hs. simpl in Hs.
    eapply sim_bind; [apply (sim_calc any); unfold any; auto|]. intros x _.
    eapply sim_bind; [apply sim_wrapper_write; auto|]. intros w' Hw. apply IH. auto.
Qed.

Lemma init_open fd comp level s : compstrm_init cd fd comp level = Ok s -> open_strm s.
Proof.
  unfold compstrm_init. destruct (_ && _); [discriminate|]. destruct (comp =? COMP_NONE).
  - intros [= <-]. split; simpl; auto. unfold zlen; simpl; lia.
  - destruct (_ || _); [|discriminate]. destruct (c_init _ _ _); [discriminate|].
    intros [= <-]. split; simpl; auto. unfold zlen; simpl; lia.
Qed.

Lemma sim_rebuild d b add : sim any (disk_rebuild cd S fill d b add) (rebuild cd S fill d b add).
Proof.
  unfold disk_rebuild, rebuild. eapply (sim_bind open_wrap).
  - apply sim_calc. unfold wrapper_init. intros w Hw.
    destruct (compstrm_init _ _ _ _) as [s| | |] eqn:E; try discriminate. injection Hw as <-. apply (init_open _ _ _ _ E).
  - intros w Hw. eapply sim_bind; [apply (sim_rebuild_ints _ (b, add, w)); auto|].
    intros [[b' add'] w'] Hw'. eapply sim_bind; [apply (sim_calc any); unfold any; auto|]. intros _ _.
    apply sim_wrapper_finish. auto.
Qed.
End Rebuild.
End Streams.

Lemma sim_rpm_write L r arch full :
  sim any (disk_rpm_write L r arch full) (let '(out, md5) := rpm_write L r arch full in (out, Ok md5)).
Proof.
  unfold disk_rpm_write, rpm_write. cbn zeta. set (a := if arch then _ else _). set (m := lb_md5 L _).
  eapply sim_ext; [|
    eapply (sim_bind any any _ _ _ (fun _ => wbind _ (fun _ => wbind _ (fun _ => wbind _ (fun _ => calc (Ok m)))))); [apply sim_fwrite|];
    intros _ _; eapply sim_bind; [apply sim_fwrite|];
    intros _ _; eapply sim_bind; [apply sim_fwrite|];
    intros _ _; eapply sim_bind; [apply sim_fwrite|]; intros _ _; apply sim_calc; unfold any; auto].
  simpl. rewrite app_nil_r. auto.
Qed.

Section Apply.
Variable L : libs.
Variable installed : list Z -> res rpm.
Variable fs : fsys.
Variable unprelinked : list Z -> res (list Z).
Variable clean : Z.

Lemma sim_header d :
  sim any (if d_type d =? TYPE_RPMONLY then dcalc (Ok [])
           else dbind (dcalc (target_header L d)) (fun h => dbind (dwrite h) (fun _ => dcalc (Ok h))))
    (put (match target_header L d with Ok h => Ok (h, h) | Err e => Err e | Ub u => Ub u | NoFuel => NoFuel end)).
Proof.
  unfold target_header. destruct (d_type d =? TYPE_RPMONLY).
  - apply (sim_calc any (Ok [])). unfold any; auto.
  - set (r := match d_head d with HRpm _ => _ | HNevr _ => _ end).
    eapply sim_ext; [|eapply (sim_bind any any _ _ _ (fun h => wbind (h, Ok tt) (fun _ => calc (Ok h)))); [apply sim_calc; unfold any; auto|];
      intros h _; eapply sim_bind; [apply sim_write|]; intros _ _; apply sim_calc; unfold any; auto].
    destruct r; simpl; rewrite ?app_nil_r; auto.
Qed.

Lemma sim_diff S fill src d : sim any (disk_diff L clean S fill src d) (apply_diff L clean S fill src d).
Proof.
  unfold disk_diff, apply_diff.
  eapply sim_bind; [apply (sim_calc any); unfold any; auto|]. intros b _.
  eapply sim_bind; [apply (sim_calc any); unfold any; auto|]. intros _ _.
  eapply sim_bind; [apply (sim_calc any); unfold any; auto|]. intros add _.
  eapply sim_bind; [apply sim_write|]. intros _ _.
  eapply sim_bind; [apply sim_header|]. intros h _.
  eapply sim_bind; [apply sim_rebuild|]. intros data _.
  apply (sim_calc any). unfold any; auto.
Qed.

Lemma sim_apply old delta :
  sim any (disk_apply L installed fs unprelinked clean old delta) (drpm_apply L installed fs unprelinked clean old delta).
Proof.
  unfold disk_apply, drpm_apply.
  eapply sim_bind; [apply (sim_calc any); unfold any; auto|]. intros d _.
  eapply sim_bind; [apply (sim_calc any); unfold any; auto|]. intros [[patched files] idx] _.
  eapply sim_bind; [|intros md5 _; apply (sim_calc any); unfold any; auto].
  destruct (is_nodiff d); [apply sim_rpm_write|].
  unfold disk_from, apply_from. destruct old; [destruct (d_type d =? TYPE_RPMONLY)|]; apply sim_diff.
Qed.
End Apply.

Section Make.
Variable L : libs.

Definition as_written (r : res (list Z)) : wres unit :=
  match r with Ok f => (f, Ok tt) | Err e => ([], Err e) | Ub u => ([], Ub u) | NoFuel => ([], NoFuel) end.

Lemma sim_write_deltarpm d : sim any (disk_write_deltarpm L d) (as_written (write_deltarpm L d)).
Proof.
  unfold disk_write_deltarpm, write_deltarpm.
  destruct (_ && _); [apply (sim_calc any (Err EProg)); discriminate|].
  set (st := (s <- compstrm_init _ _ _ _ ;; _)%res).
  set (k := fun strm : list Z => match d_head d with HRpm _ => _ | HNevr _ => _ end).
  set (body := fun strm : list Z => match d_head d with
    | HRpm r =>
        if d_type d =? TYPE_STANDARD then
          let header := rpm_fetch_header r in
          let r := rpm_signature_make L r (zlen header + zlen strm) (lb_md5 L (header ++ strm)) in
          Ok (fst (rpm_write L r false false) ++ strm)
        else Err EProg
    | HNevr nevr =>
        if d_type d =? TYPE_RPMONLY then
          Ok ([100; 114; 112; 109] ++ version_str d
              ++ create_be32 (u32 (zlen nevr + 1)) ++ nevr ++ [0]
              ++ create_be32 (u32 (zlen (d_add d))) ++ d_add d ++ strm)
        else Err EProg
    end).
  eapply sim_ext; [|eapply (sim_bind any any (dcalc st) (calc st) _ (fun strm => as_written (body strm)));
    [apply sim_calc; unfold any; auto|]].
  - subst st body k. cbn beta.
    destruct (compstrm_init _ _ _ _) as [s|e|u|]; simpl; auto.
    destruct (delta_pieces d) as [ps|e|u|]; simpl; auto.
    destruct (write_pieces L s ps) as [s'|e|u|]; simpl; auto.
    destruct (compstrm_finish _ s') as [[[s'' out] strm]|e|u|]; simpl; auto.
    destruct (as_written _); auto.
  - intros strm _. subst body k. cbn beta. destruct (d_head d) as [r|nevr].
    + destruct (d_type d =? TYPE_STANDARD); [|apply (sim_calc any (Err EProg)); discriminate].
      cbn zeta. set (r' := rpm_signature_make _ _ _ _).
      pose proof (sim_rpm_write L r' false false) as Hr.
      destruct (rpm_write L r' false false) as [out md5]. simpl.
      eapply sim_ext; [|eapply (sim_bind any any _ _ _ (fun _ => (strm, Ok tt))); [apply Hr|intros _ _; apply sim_write]].
      reflexivity.
    + destruct (d_type d =? TYPE_RPMONLY); [|apply (sim_calc any (Err EProg)); discriminate].
      eapply sim_ext; [|
        eapply (sim_bind any any _ _ _ (fun _ => wbind _ (fun _ => wbind _ (fun _ => wbind _ (fun _ => wbind _ (fun _ => wbind _ (fun _ => _)))))));
        [apply sim_write|];
        intros _ _; eapply sim_bind; [apply sim_write|];
        intros _ _; eapply sim_bind; [apply sim_write|];
        intros _ _; eapply sim_bind; [apply sim_write|];
        intros _ _; eapply sim_bind; [apply sim_write|];
        intros _ _; eapply sim_bind; [apply sim_write|]; intros _ _; apply sim_write].
      simpl. rewrite <- !app_assoc. reflexivity.
Qed.

Lemma flush_all grants : forall file text, ~ In Fails grants -> dk_file (stdio_flush grants file text) = file ++ text.
Proof.
  induction grants as [|[|n] g IH]; intros file text H; simpl; auto.
  - exfalso. apply H. simpl. auto.
  - set (m := Z.min _ _). pose proof (zlen_nonneg text). destruct (m =? zlen text) eqn:E; [auto|].
    rewrite IH by (intros X; apply H; simpl; auto). rewrite <- app_assoc, <- slice_head by lia. auto.
Qed.
End Make.

Lemma fine_ub {A} (r : res A) : (forall u, r <> Ub u) -> fine r.
Proof. destruct r; simpl; auto. intros H. apply (H u). auto. Qed.

Lemma apply_all_or_error L installed fs unprelinked clean old delta grants :
  let '(wanted, planned) := drpm_apply L installed fs unprelinked clean old delta in
  let '(k, r) := disk_apply L installed fs unprelinked clean old delta (mkdisk [] grants false) in
  all_or_error wanted planned (dk_file k) r (dk_short k) /\ (grants = [] -> dk_short k = false).
Proof.
  pose proof (sim_apply L installed fs unprelinked clean old delta (mkdisk [] grants false) eq_refl) as H.
  destruct (drpm_apply _ _ _ _ _ _ _) as [wanted planned]. destruct (disk_apply _ _ _ _ _ _ _ _) as [k r]. simpl in H.
  unfold all_or_error. destruct H as [(E1 & E2 & E3 & _)|(E1 & E2 & E3 & E4)].
  - rewrite E3. split; [|auto]. split; [auto|]. intros Hu. apply E2. apply fine_ub. auto.
  - rewrite E2. split; [|intros ->; congruence]. split; [auto|]. intros Hu.
    destruct (E4 (fine_ub _ Hu)) as (p & q & F1 & F2). exists q. rewrite F1, F2. auto.
Qed.

Lemma apply_ok_whole L installed fs unprelinked clean old delta grants k :
  disk_apply L installed fs unprelinked clean old delta (mkdisk [] grants false) = (k, Ok tt) ->
  drpm_apply L installed fs unprelinked clean old delta = (dk_file k, Ok tt).
Proof.
  intros E. pose proof (apply_all_or_error L installed fs unprelinked clean old delta grants) as H.
  rewrite E in H. destruct (drpm_apply _ _ _ _ _ _ _) as [wanted planned]. destruct H as [H _].
  unfold all_or_error in H. destruct (dk_short k); destruct H as [H1 H2]; [discriminate|]. subst planned.
  rewrite H2; [auto|discriminate].
Qed.

Lemma apply_disk_digest L installed fs unprelinked clean old delta grants k d :
  disk_apply L installed fs unprelinked clean old delta (mkdisk [] grants false) = (k, Ok tt) ->
  read_deltarpm L delta = Ok d -> d_md5 d <> zeros 16 -> lb_md5 L (dk_file k) = d_md5 d.
Proof. intros E. apply apply_ok_whole in E. revert E. apply apply_full_md5. Qed.

(** ** Making *)
Lemma make_disk L o old new named dg sg :
  let '(k, q, r) := disk_make L o old new named dg sg in
  (r = Ok tt -> exists file seq, drpm_make L o old new named = Ok (file, seq) /\ dk_file k = file /\
     (q = None <-> seq = None) /\ (~ In Fails sg -> option_map dk_file q = seq)) /\
  (dk_short k = true -> r = Err EIo /\ q = None) /\
  (dg = [] -> dk_short k = false) /\
  (dk_short k = false -> match drpm_make L o old new named with
                         | Ok _ => r = Ok tt | Err e => r = Err e | Ub u => r = Ub u | NoFuel => r = NoFuel end) /\
  (forall file seq, drpm_make L o old new named = Ok (file, seq) -> begins (dk_file k) file).
Proof.
  unfold disk_make, drpm_make. cbn zeta.
  set (opts := match o with Some o => o | None => default_options end).
  set (only := match o with Some o => o_rpmonly o | None => false end).
  destruct (negb named || _).
  { simpl. repeat split; auto; discriminate. }
  destruct (only && _).
  { simpl. repeat split; auto; discriminate. }
  set (dr := match old with Some _ => _ | None => _ end).
  unfold dbind at 1, dcalc at 1. destruct dr as [d|e|u|]; try (simpl; repeat split; auto; discriminate).
  unfold dbind. pose proof (sim_write_deltarpm L d (mkdisk [] dg false) eq_refl) as H.
  destruct (disk_write_deltarpm L d (mkdisk [] dg false)) as [k r]. simpl in H.
  cbn [bind].
  destruct H as [(E1 & E2 & E3 & E4 & _)|(E1 & E2 & E3 & E4)].
  - subst r. destruct (write_deltarpm L d) as [file|e|u|]; cbn [as_written snd fst] in E2 |- *;
      try (repeat split; auto; try congruence; discriminate).
    specialize (E2 I). unfold dcalc. simpl in E2 |- *. destruct (o_seqfile opts).
    + unfold disk_write_seqfile. destruct (write_seqfile d) as [text|e|u|]; simpl;
        try (repeat split; auto; try congruence; discriminate).
      split; [intros _; exists file, (Some text); split; [auto|]; split; [auto|]; split;
        [split; discriminate|intros Hf; rewrite flush_all; auto]|].
      split; [congruence|]. split; [auto|]. split; [auto|]. intros f s [= <- <-]. exists []. rewrite app_nil_r. auto.
    + cbn [bind]. split; [intros _; exists file, None; repeat split; auto|].
      split; [congruence|]. split; [auto|]. split; [auto|]. intros f s [= <- <-]. exists []. rewrite app_nil_r. auto.
  - subst r. simpl. split; [discriminate|]. split; [auto|]. split; [intros ->; congruence|]. split; [congruence|].
    intros f s. destruct (write_deltarpm L d) as [file|e|u|]; simpl; try discriminate.
    destruct (E4 I) as (p & q & F1 & F2). simpl in F1. intros Hm.
    assert (f = file) as ->.
    { destruct (if o_seqfile opts then _ else _) as [x|?|?|]; simpl in Hm; try discriminate. congruence. }
    exists q. simpl in F2. rewrite F2. auto.
Qed.
