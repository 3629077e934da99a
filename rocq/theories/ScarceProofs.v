(** * ScarceProofs: option calls when memory can run out *)
From Verif Require Import Base BaseLemmas Utils DeltaComp Stream Rpm Delta Make Options SpecOptions OptionsProofs OptionsScarce SpecScarce.

Local Notation plenty := (forallb (fun m : bool => m)).

Lemma answer_plenty ms m ms' : answer ms = (m, ms') -> (m = false -> plenty ms = false) /\ (plenty ms' = false -> plenty ms = false).
Proof. destruct ms as [|b ms]; cbn [answer]; intros H; injection H as <- <-; [split; discriminate|]. cbn [forallb]. destruct b; split; auto; discriminate. Qed.

(** A larger block still holds the string. *)
Lemma realloc_holds t r n : ~ In 0 t -> zlen t + 1 <= n -> holds (Some (realloc (Some (t ++ 0 :: r)) n)) (Some t).
Proof.
  intros H Hn. cbn [realloc holds]. split; [exact H|]. pose proof (zlen_nonneg t). pose proof (zlen_nonneg r).
  rewrite zlen_app, zlen_cons. set (m := Z.min n _). set (f := fresh _).
  replace (t ++ 0 :: r) with ((t ++ [0]) ++ r) by (rewrite <- app_assoc; reflexivity).
  exists (slice ((t ++ [0]) ++ r) (zlen t + 1) (m - (zlen t + 1)) ++ f).
  assert (E : slice ((t ++ [0]) ++ r) 0 m = (t ++ [0]) ++ slice ((t ++ [0]) ++ r) (zlen t + 1) (m - (zlen t + 1))).
  { replace m with ((zlen t + 1) + (m - (zlen t + 1))) at 1 by lia. rewrite slice_split by lia. f_equal. apply slice_app_exact_l. rewrite zlen_app. reflexivity. }
  rewrite E, <- !app_assoc. reflexivity.
Qed.

(** Making room. *)
Lemma room_ok b old s ms : holds b old -> exists r ms', room b s ms = Ok (r, ms') /\
  (plenty ms' = false -> plenty ms = false) /\
  match r with
  | Some buf => zlen s + 1 <= zlen buf /\ (old <> None -> holds (Some buf) old) /\ (b = None -> answer ms = (true, ms'))
  | None => plenty ms = false /\ answer ms = (false, ms')
  end.
Proof.
  intros H. pose proof (zlen_nonneg s). unfold room. destruct b as [b|].
  - destruct old as [t|]; [|destruct H]. destruct H as (Ht & r & ->). rewrite strlen_app by auto. cbn [bind].
    destruct (zlen t <? zlen s) eqn:E.
    + destruct (answer ms) as [m ms'] eqn:Ea. destruct (answer_plenty _ _ _ Ea) as [A1 A2].
      exists (if m then Some (realloc (Some (t ++ 0 :: r)) (zlen s + 1)) else None), ms'. split; [reflexivity|]. split; [exact A2|]. destruct m; [|split; auto].
      split; [apply zlen_realloc; lia|]. split; [intros _; apply realloc_holds; [exact Ht|lia]|discriminate].
    + exists (Some (t ++ 0 :: r)), ms. split; [reflexivity|]. split; [auto|]. split; [rewrite zlen_app, zlen_cons; pose proof (zlen_nonneg r); lia|].
      split; [intros _; apply holds_some; exact Ht|discriminate].
  - destruct old as [t|]; [destruct H|]. cbn [bind]. destruct (answer ms) as [m ms'] eqn:Ea. destruct (answer_plenty _ _ _ Ea) as [A1 A2].
    exists (if m then Some (realloc None (zlen s + 1)) else None), ms'. split; [reflexivity|]. split; [exact A2|]. destruct m; [|split; auto].
    split; [apply zlen_realloc; lia|]. split; [congruence|auto].
Qed.

Lemma string_ok b s ms : holds b s -> b = None \/ plenty ms = true -> exists a ms', scarce_string b ms = Ok (Some a, ms') /\ holds a s /\
  (plenty ms = true -> plenty ms' = true).
Proof.
  intros H Hm. destruct b as [b|]; cbn [scarce_string].
  - destruct Hm as [Hm|Hm]; [discriminate|]. destruct (copy_string_ok _ _ H) as (a & E & Ha).
    assert (Ea : fst (answer ms) = true /\ plenty (snd (answer ms)) = true).
    { destruct ms as [|m ms]; [split; reflexivity|]. cbn [forallb answer fst snd] in *. destruct m; [auto|discriminate]. }
    destruct (answer ms) as [m ms']. cbn [fst snd] in Ea. destruct Ea as [-> Ea]. rewrite E. cbn [bind]. exists a, ms'. auto.
  - destruct s; [destruct H|]. exists None, ms. auto.
Qed.

Lemma scarce_simple w c ms : match c with Init (Some _) | Copy _ _ | SetSeqfile _ _ | AddPatches _ _ _ => False | _ => True end -> scarce_call w c ms = do_call w c.
Proof. destruct c as [[x|]|[x|]|x|dst src|x t|x v|x a b|x|x|x a b|x name|x s t|x n]; intros H; try destruct H; reflexivity. Qed.

Lemma assign_same w p x o : (forall y, says_var (w y) (p y)) -> says_var o (p x) -> forall y, says_var (assign w x o y) (p y).
Proof. intros H Ho y. unfold assign. destruct (y =? x) eqn:E; [|apply H]. apply Z.eqb_eq in E. subst y. exact Ho. Qed.

(** One call. *)
Lemma scarce_says w p c ms : (forall y, says_var (w y) (p y)) -> strings_ok c -> proper_copy c -> spared p c ms ->
  exists w' r p', scarce_call w c ms = (w', r) /\ after p c ms r = Some p' /\ forall y, says_var (w' y) (p' y).
Proof.
  intros H Hs Hp Hd.
  assert (Hold : match c with Destroy (Some x) => p x <> None | _ => True end -> scarce_call w c ms = do_call w c ->
                 exists w' r p', scarce_call w c ms = (w', r) /\ after p c ms r = Some p' /\ forall y, says_var (w' y) (p' y)).
  { intros Hx ->. pose proof (call_says w p c H Hs Hp Hx) as Hc. unfold after. destruct (plain_call p c) as [p'|].
    - destruct Hc as (w' & -> & Hw). exists w', (Ok tt), p'. auto.
    - rewrite Hc. exists w, (Err EArgs), p. auto. }
  destruct c as [[x|]|[x|]|x|dst src|x t|x v|x a b|x|x|x a b|x name|x s t|x n]; try (apply Hold; [exact I|apply scarce_simple; exact I]).
  - cbn [scarce_call] in *. destruct (answer ms) as [m ms'] eqn:Ea. cbn [fst] in *. destruct m; [apply Hold; auto|].
    destruct (answer_plenty _ _ _ Ea) as [A _]. eexists. eexists. eexists. split; [reflexivity|]. unfold after. cbn [plain_call without_memory].
    rewrite (A eq_refl). split; [reflexivity|]. apply assign_says; [auto|exact I].
  - apply Hold; [exact Hd|apply scarce_simple; exact I].
  - clear Hold. cbn [scarce_call proper_copy spared] in *. unfold scarce_copy, after. cbn [plain_call]. pose proof (H dst) as Hx. pose proof (H src) as Hy.
    destruct (w dst) as [o|], (p dst) as [q|]; try (destruct Hx; fail); [|exists w, (Err EArgs), p; auto].
    destruct (w src) as [o2|] eqn:Ew, (p src) as [q2|] eqn:Eq; try (destruct Hy; fail); [|exists w, (Err EArgs), p; auto].
    cbn zeta. unfold assign at 1. replace (src =? dst) with false by lia. rewrite Ew.
    specialize (Hd q2 eq_refl). destruct Hy as [S1 S2 S3 S4 S5 S6 S7 S8].
    assert (D1 : mo_seqfile o2 = None \/ plenty ms = true).
    { destruct (mo_seqfile o2), (q_seqfile q2) eqn:E; try (destruct S5; fail); auto. right. apply Hd. left. congruence. }
    assert (D2 : mo_print o2 = None \/ plenty ms = true).
    { destruct (mo_print o2), (q_patches q2) eqn:E; try (destruct S6; fail); auto. right. apply Hd. right. congruence. }
    assert (D3 : mo_patch o2 = None \/ plenty ms = true).
    { destruct (mo_patch o2), (q_patches q2) eqn:E; try (destruct S7; fail); auto. right. apply Hd. right. congruence. }
    unfold scarce_strings.
    destruct (string_ok _ _ ms S5 D1) as (a & m1 & -> & Ha & P1). cbn zeta.
    destruct (string_ok _ _ m1 S6) as (b & m2 & -> & Hb & P2); [destruct D2; auto|]. cbn zeta.
    destruct (string_ok _ _ m2 S7) as (c & m3 & -> & Hc & P3); [destruct D3; auto|].
    eexists. exists (Ok tt). eexists. split; [reflexivity|]. split; [reflexivity|].
    intros y. unfold assign, set_plain. destruct (y =? dst); [|apply H].
    cbn [says_var]. split; cbn; auto.
  - clear Hold. cbn [scarce_call strings_ok] in *. unfold scarce_on, after. cbn [plain_call variable]. pose proof (H x) as Hx.
    destruct (w x) as [o|], (p x) as [[only version comp add seqfile patches limit]|] eqn:Ep; try (destruct Hx; fail); [|exists w, (Err EArgs), p; auto].
    pose proof Hx as [S1 S2 S3 S4 S5 S6 S7 S8]. cbn [changed]. unfold scarce_seqfile.
    destruct name as [s|].
    + destruct (room_ok _ _ s ms S5) as (r & ms' & -> & P & Hr). destruct r as [buf|].
      * destruct Hr as (Hr & _ & _). destruct (strcpy_ok buf s Hr) as (r & ->).
        eexists. exists (Ok tt). eexists. split; [reflexivity|]. split; [reflexivity|]. apply assign_says; [auto|]. cbn [says_var].
        split; cbn [with_seqfile mo_rpmonly mo_version mo_from_rpm mo_comp mo_level mo_addblk mo_acomp mo_alevel mo_seqfile mo_print mo_patch mo_mbytes q_seqfile]; auto.
        apply holds_some. exact Hs.
      * destruct Hr as [Hr _]. rewrite Hr. eexists. eexists. eexists. split; [reflexivity|]. split; [reflexivity|].
        cbn [without_memory]. apply assign_same; [exact H|]. rewrite Ep. exact Hx.
    + eexists. exists (Ok tt). eexists. split; [reflexivity|]. split; [reflexivity|]. apply assign_says; [auto|]. cbn [says_var]. split; cbn; auto.
  - clear Hold. cbn [scarce_call strings_ok spared] in *. unfold scarce_on, after. cbn [plain_call variable]. pose proof (H x) as Hx.
    destruct (w x) as [o|], (p x) as [[only version comp add seqfile patches limit]|] eqn:Ep; try (destruct Hx; fail); [|exists w, (Err EArgs), p; auto].
    pose proof Hx as [S1 S2 S3 S4 S5 S6 S7 S8]. cbn [changed]. unfold scarce_patches.
    assert (Hno : exists w' r p', (assign w x (Some o), Err EArgs : res unit) = (w', r) /\
                  match r with Err EArgs => Some p | _ => None end = Some p' /\ forall y, says_var (w' y) (p' y)).
    { eexists. exists (Err EArgs). eexists. split; [reflexivity|]. split; [reflexivity|]. apply assign_same; [exact H|]. rewrite Ep. exact Hx. }
    destruct s as [s|]; [|exact Hno]. destruct t as [t|]; [|exact Hno]. clear Hno. destruct Hs as [Hs1 Hs2].
    destruct (room_ok _ _ s ms S6) as (r & m1 & -> & P1 & Hr). destruct r as [buf|].
    + destruct Hr as (Hr & Hk & Hn). cbn zeta. cbn [with_print mo_patch].
      destruct (room_ok _ _ t m1 S7) as (r & m2 & -> & P2 & Hr2). destruct r as [buf2|].
      * destruct Hr2 as (Hr2 & _ & _). destruct (strcpy_ok buf s Hr) as (r & ->). destruct (strcpy_ok buf2 t Hr2) as (r2 & ->). cbn [bind].
        eexists. exists (Ok tt). eexists. split; [reflexivity|]. split; [reflexivity|]. apply assign_says; [auto|]. cbn [says_var].
        split; cbn [with_print with_patch mo_rpmonly mo_version mo_from_rpm mo_comp mo_level mo_addblk mo_acomp mo_alevel mo_seqfile mo_print mo_patch mo_mbytes q_patches option_map fst snd]; auto.
        all: apply holds_some; auto.
      * destruct Hr2 as [Hf Ha2]. rewrite (P1 Hf). eexists. eexists. eexists. split; [reflexivity|]. split; [reflexivity|].
        cbn [without_memory]. apply assign_same; [exact H|]. rewrite Ep. cbn [says_var].
        assert (Hold : patches <> None).
        { intros ->. specialize (Hd _ eq_refl eq_refl). apply Hd.
          assert (En : mo_print o = None) by (destruct (mo_print o); [destruct S6|reflexivity]). specialize (Hn En).
          destruct ms as [|b ms]; cbn [answer] in Hn; [injection Hn as <-; discriminate Ha2|]. injection Hn as -> ->.
          destruct m1 as [|b2 m1]; cbn [answer] in Ha2; [discriminate|]. injection Ha2 as -> _. reflexivity. }
        split; cbn [mo_rpmonly mo_version mo_from_rpm mo_comp mo_level mo_addblk mo_acomp mo_alevel mo_seqfile mo_print mo_patch mo_mbytes]; auto.
        apply Hk. cbn [q_patches]. destruct patches; [discriminate|congruence].
    + destruct Hr as [Hr _]. rewrite Hr. eexists. eexists. eexists. split; [reflexivity|]. split; [reflexivity|].
      cbn [without_memory]. apply assign_same; [exact H|]. rewrite Ep. exact Hx.
Qed.

(** Histories. *)
Lemma scarce_history_from : forall cs w p, (forall y, says_var (w y) (p y)) -> Forall strings_ok (map fst cs) -> Forall proper_copy (map fst cs) ->
  let '(w', rs) := scarce_calls w cs in all_spared p cs rs ->
  exists p', after_all p cs rs = Some p' /\ forall y, says_var (w' y) (p' y).
Proof.
  induction cs as [|[c ms] cs IH]; intros w p H Hs Hp; [cbn; intros _; eauto|].
  cbn [scarce_calls map fst] in *. inversion Hs as [|? ? Hs1 Hs2]; subst. inversion Hp as [|? ? Hp1 Hp2]; subst.
  destruct (scarce_call w c ms) as [w' r] eqn:Ec.
  assert (Hone : spared p c ms -> exists p', after p c ms r = Some p' /\ forall y, says_var (w' y) (p' y)).
  { intros Hd. destruct (scarce_says w p c ms H Hs1 Hp1 Hd) as (w2 & r2 & p2 & E & Ha & Hw). rewrite Ec in E. injection E as <- <-. eauto. }
  assert (Hrest : forall p', (forall y, says_var (w' y) (p' y)) -> let '(w2, rs) := scarce_calls w' cs in all_spared p' cs rs ->
                  exists p2, after_all p' cs rs = Some p2 /\ forall y, says_var (w2 y) (p2 y)) by (intros; apply IH; auto).
  destruct r as [[]|e|u|].
  1, 2: destruct (scarce_calls w' cs) as [w2 rs]; cbn [all_spared after_all]; intros [Hd Hr]; destruct (Hone Hd) as (p' & Ha & Hw); rewrite Ha in *; apply (Hrest p' Hw Hr).
  all: cbn [all_spared after_all]; intros [Hd _]; destruct (Hone Hd) as (p' & Ha & Hw); exfalso; unfold after in Ha; destruct (plain_call p c); discriminate.
Qed.

Lemma scarce_history cs : Forall strings_ok (map fst cs) -> Forall proper_copy (map fst cs) ->
  let '(w, rs) := scarce_calls no_vars cs in all_spared no_plains cs rs ->
  exists p, after_all no_plains cs rs = Some p /\ forall x, says_var (w x) (p x).
Proof. intros. apply scarce_history_from; auto. intros y. exact I. Qed.

(** With enough memory, the calls are those of Options.v. *)
Lemma plenty_answer ms : plenty ms = true -> exists ms', answer ms = (true, ms') /\ plenty ms' = true.
Proof. destruct ms as [|m ms]; intros H; [exists []; auto|]. cbn [forallb answer] in *. destruct m; [exists ms; auto|discriminate]. Qed.

Lemma plenty_room b s ms : plenty ms = true -> exists ms', plenty ms' = true /\
  room b s ms = match make_room b s with Ok b => Ok (Some b, ms') | Err e => Err e | Ub u => Ub u | NoFuel => NoFuel end.
Proof.
  intros H. destruct (plenty_answer ms H) as (m' & E & Hm). unfold room, make_room. destruct b as [b|].
  - destruct (strlen b); cbn [bind]; try (exists ms; auto; fail). destruct (_ <? _); [rewrite E; exists m'; auto|exists ms; auto].
  - cbn [bind]. rewrite E. exists m'. auto.
Qed.

Lemma plenty_string b ms : plenty ms = true -> exists ms', plenty ms' = true /\
  scarce_string b ms = match copy_string b with Ok b => Ok (Some b, ms') | Err e => Err e | Ub u => Ub u | NoFuel => NoFuel end.
Proof.
  intros H. destruct (plenty_answer ms H) as (m' & E & Hm). unfold scarce_string. destruct b as [b|]; [|exists ms; auto].
  rewrite E. exists m'. split; [auto|]. destruct (copy_string (Some b)); reflexivity.
Qed.

Lemma plenty_same w c ms : plenty ms = true ->
  snd (scarce_call w c ms) = snd (do_call w c) /\
  (snd (do_call w c) = Ok tt -> forall y, fst (scarce_call w c ms) y = fst (do_call w c) y).
Proof.
  intros H. destruct c as [[x|]|[x|]|x|dst src|x t|x v|x a b|x|x|x a b|x name|x s t|x n]; try (split; reflexivity).
  - destruct (plenty_answer ms H) as (m' & E & _). cbn [scarce_call]. rewrite E. split; reflexivity.
  - cbn [scarce_call do_call]. unfold scarce_copy, copy. destruct (w dst) as [d|]; [|split; [reflexivity|discriminate]]. destruct (w src) as [s|] eqn:Es; [|split; [reflexivity|discriminate]].
    cbn zeta. set (w1 := assign w dst _). destruct (w1 src) as [s2|] eqn:E2; [|split; [reflexivity|discriminate]].
    unfold scarce_strings. destruct (plenty_string (mo_seqfile s2) ms H) as (m1 & H1 & ->). destruct (copy_string (mo_seqfile s2)); cbn [bind]; try (split; [reflexivity|discriminate]).
    destruct (plenty_string (mo_print s2) m1 H1) as (m2 & H2 & ->). destruct (copy_string (mo_print s2)); cbn [bind]; try (split; [reflexivity|discriminate]).
    destruct (plenty_string (mo_patch s2) m2 H2) as (m3 & H3 & ->). destruct (copy_string (mo_patch s2)); cbn [bind]; try (split; [reflexivity|discriminate]).
    split; [reflexivity|]. intros _ y. cbn [fst]. unfold w1, assign in E2. unfold assign. destruct (y =? dst); [|reflexivity].
    destruct (src =? dst); [injection E2 as <-; reflexivity|]. rewrite Es in E2. injection E2 as <-. reflexivity.
  - cbn [scarce_call do_call]. unfold scarce_on, on. destruct (w x) as [o|]; [|split; [reflexivity|discriminate]]. unfold scarce_seqfile, set_seqfile.
    destruct name as [s|]; cbn [bind]; [|split; reflexivity].
    destruct (plenty_room (mo_seqfile o) s ms H) as (m1 & H1 & ->). destruct (make_room _ _); cbn [bind]; try (split; [reflexivity|discriminate]).
    destruct (strcpy _ _); cbn [bind]; try (split; [reflexivity|discriminate]). split; reflexivity.
  - cbn [scarce_call do_call]. unfold scarce_on, on. destruct (w x) as [o|]; [|split; [reflexivity|discriminate]]. unfold scarce_patches, add_patches.
    destruct s as [s|]; [|split; [reflexivity|discriminate]]. destruct t as [t|]; [|split; [reflexivity|discriminate]].
    destruct (plenty_room (mo_print o) s ms H) as (m1 & H1 & ->). destruct (make_room (mo_print o) s); cbn [bind]; try (split; [reflexivity|discriminate]).
    cbn zeta. cbn [with_print mo_patch].
    destruct (plenty_room (mo_patch o) t m1 H1) as (m2 & H2 & ->). destruct (make_room (mo_patch o) t); cbn [bind]; try (split; [reflexivity|discriminate]).
    destruct (strcpy _ s); cbn [bind]; try (split; [reflexivity|discriminate]). destruct (strcpy _ t); cbn [bind]; try (split; [reflexivity|discriminate]). split; reflexivity.
Qed.

(** Copying never reports that memory ran out. *)
Lemma string_any b s ms : holds b s -> exists ms',
  (exists a, scarce_string b ms = Ok (Some a, ms') /\ holds a s) \/ (b <> None /\ plenty ms = false /\ scarce_string b ms = Ok (None, ms')).
Proof.
  intros H. destruct b as [b|]; cbn [scarce_string].
  - destruct (copy_string_ok _ _ H) as (a & E & Ha). destruct (answer ms) as [m ms'] eqn:Em. exists ms'. destruct m.
    + left. exists a. rewrite E. auto.
    + right. destruct (answer_plenty _ _ _ Em) as [A _]. split; [discriminate|]. auto.
  - destruct s; [destruct H|]. exists ms. left. exists None. auto.
Qed.

Lemma copy_silent w dst src d s q ms : dst <> src -> w dst = Some d -> w src = Some s -> says s q ->
  exists o, snd (scarce_call w (Copy dst src) ms) = Ok tt /\ fst (scarce_call w (Copy dst src) ms) dst = Some o /\
  (holds (mo_seqfile o) (q_seqfile q) \/ holds (mo_seqfile o) None) /\
  (holds (mo_print o) (option_map fst (q_patches q)) \/ holds (mo_print o) None) /\
  (holds (mo_patch o) (option_map snd (q_patches q)) \/ holds (mo_patch o) None).
Proof.
  intros Hd E1 E2 [S1 S2 S3 S4 S5 S6 S7 S8]. cbn [scarce_call]. destruct (scarce_strings (copy_numbers s) s ms) as [o r] eqn:E.
  assert (Ec : scarce_copy w dst src ms = (assign (assign w dst (Some (copy_numbers s))) dst (Some o), r)).
  { unfold scarce_copy. rewrite E1, E2. cbn zeta. unfold assign at 1. replace (src =? dst) with false by lia. rewrite E2, E. reflexivity. }
  rewrite Ec. clear Ec.
  assert (H : r = Ok tt /\ (holds (mo_seqfile o) (q_seqfile q) \/ holds (mo_seqfile o) None) /\
    (holds (mo_print o) (option_map fst (q_patches q)) \/ holds (mo_print o) None) /\
    (holds (mo_patch o) (option_map snd (q_patches q)) \/ holds (mo_patch o) None)).
  { unfold scarce_strings in E.
    destruct (string_any _ _ ms S5) as (m1 & [(a & Ea & Ha)|(_ & _ & Ea)]); rewrite Ea in E; [|injection E as <- <-; split; [reflexivity|repeat split; right; exact I]]. cbn zeta in E.
    destruct (string_any _ _ m1 S6) as (m2 & [(b & Eb & Hb)|(_ & _ & Eb)]); rewrite Eb in E; [|injection E as <- <-; split; [reflexivity|split; [left; exact Ha|split; right; exact I]]]. cbn zeta in E.
    destruct (string_any _ _ m2 S7) as (m3 & [(c & Ec & Hc)|(_ & _ & Ec)]); rewrite Ec in E; injection E as <- <-.
    - split; [reflexivity|]. split; [left; exact Ha|]. split; [left; exact Hb|left; exact Hc].
    - split; [reflexivity|]. split; [left; exact Ha|]. split; [left; exact Hb|right; exact I]. }
  destruct H as [-> H]. exists o. split; [reflexivity|]. split; [|exact H]. cbn [fst]. unfold assign. rewrite Z.eqb_refl. reflexivity.
Qed.
