(** * OptionsProofs: option calls keep what the plain record keeps *)
From Verif Require Import Base BaseLemmas Utils DeltaComp Stream Rpm Delta Make Options SpecOptions.

(** ** Strings *)
Lemma strlen_app s r : ~ In 0 s -> strlen (s ++ 0 :: r) = Ok (zlen s).
Proof.
  induction s as [|c s IH]; intros H; [reflexivity|]. cbn [app strlen]. replace (c =? 0) with false by (cbn [In] in H; lia).
  rewrite IH by (intros I; apply H; right; exact I). cbn [bind]. rewrite zlen_cons. f_equal. lia.
Qed.

Lemma zlen_fresh n : 0 <= n -> zlen (fresh n) = n.
Proof. intros H. unfold fresh, zlen. rewrite repeat_length. lia. Qed.

Lemma zlen_realloc b n : 0 <= n -> n <= zlen (realloc b n).
Proof.
  intros H. destruct b as [old|]; cbn [realloc]; [|rewrite zlen_fresh; lia]. rewrite zlen_app. pose proof (zlen_nonneg old).
  rewrite zlen_slice by lia. destruct (Z.le_gt_cases n (zlen old)).
  - pose proof (zlen_nonneg (fresh (n - zlen old))). lia.
  - rewrite zlen_fresh by lia. lia.
Qed.

Lemma make_room_ok b old s : holds b old -> exists buf, make_room b s = Ok buf /\ zlen s + 1 <= zlen buf.
Proof.
  intros H. pose proof (zlen_nonneg s). destruct b as [b|]; cbn [make_room].
  - destruct old as [t|]; [|destruct H]. destruct H as (Ht & r & ->). rewrite strlen_app by auto. cbn [bind].
    destruct (zlen t <? zlen s) eqn:E.
    + eexists. split; [reflexivity|]. apply zlen_realloc. lia.
    + eexists. split; [reflexivity|]. rewrite zlen_app, zlen_cons. pose proof (zlen_nonneg r). lia.
  - eexists. split; [reflexivity|]. apply zlen_realloc. lia.
Qed.

Lemma strcpy_ok b s : zlen s + 1 <= zlen b -> exists r, strcpy b s = Ok (s ++ 0 :: r).
Proof. intros H. unfold strcpy. replace (_ <? _) with false by lia. eexists. reflexivity. Qed.

Lemma holds_some s r : ~ In 0 s -> holds (Some (s ++ 0 :: r)) (Some s).
Proof. intros H. split; [auto|]. exists r. reflexivity. Qed.

Lemma copy_string_ok b s : holds b s -> exists b', copy_string b = Ok b' /\ holds b' s.
Proof.
  destruct b as [b|], s as [s|]; intros H; try (destruct H; fail); cbn [copy_string].
  - destruct H as (Hs & r & ->). unfold contents. rewrite strlen_app by auto. cbn [bind]. rewrite slice_app_exact_l by reflexivity.
    pose proof (zlen_nonneg s). destruct (strcpy_ok (fresh (zlen s + 1)) s) as [q E]; [rewrite zlen_fresh; lia|]. rewrite E. cbn [bind].
    eexists. split; [reflexivity|]. apply holds_some; auto.
  - exists None. split; [reflexivity|exact I].
Qed.

(** ** One call *)
Lemma assign_says w p x o q : (forall y, says_var (w y) (p y)) -> says_var o q -> forall y, says_var (assign w x o y) (set_plain p x q y).
Proof. intros H Hq y. unfold assign, set_plain. destruct (y =? x); auto. Qed.

Lemma says_defaults : says defaults plain_defaults.
Proof. split; try reflexivity; exact I. Qed.

Lemma level_ok l : bad_level l = negb ((0 <=? l) && (l <=? 9)).
Proof. unfold bad_level. lia. Qed.
Lemma comp_ok c : known_comp c = (0 <=? c) && (c <=? 6).
Proof. unfold known_comp, COMP_NONE, COMP_GZIP, COMP_BZIP2, COMP_LZMA, COMP_XZ, COMP_LZIP, COMP_ZSTD. lia. Qed.

Lemma compression_ok a b : compression a b = ((0 <=? a) && (a <=? 6)) && ((0 <=? b) && (b <=? 9)).
Proof. unfold compression. lia. Qed.

Definition simple (c : call) : Prop := match c with Init _ | Destroy _ | Copy _ _ => False | _ => True end.

(** What [f] does to one record. *)
Lemma on_says w p x f c : (forall y, says_var (w y) (p y)) -> simple c -> variable c = x ->
  (forall o q, says o q -> match changed c q with
                           | Some q' => exists o', f o = Ok o' /\ says o' q'
                           | None => f o = Err EArgs end) ->
  match plain_call p c with
  | Some p' => exists w', on w x f = (w', Ok tt) /\ forall y, says_var (w' y) (p' y)
  | None => on w x f = (w, Err EArgs)
  end.
Proof.
  intros H Hc Hv Hf.
  assert (E : plain_call p c = match p x with
         | None => None
         | Some q => match changed c q with Some q' => Some (set_plain p x (Some q')) | None => None end
         end) by (subst x; destruct c; try destruct Hc; reflexivity).
  rewrite E. unfold on. pose proof (H x) as Hx. destruct (w x) as [o|], (p x) as [q|]; try (destruct Hx; fail); [|reflexivity].
  cbn [says_var] in Hx. specialize (Hf _ _ Hx). destruct (changed c q) as [q'|].
  - destruct Hf as (o' & -> & Hs). eexists. split; [reflexivity|]. apply assign_says; auto.
  - rewrite Hf. reflexivity.
Qed.

Lemma call_says w p c : (forall y, says_var (w y) (p y)) -> strings_ok c -> proper_copy c ->
  match c with Destroy (Some x) => p x <> None | _ => True end ->
  match plain_call p c with
  | Some p' => exists w', do_call w c = (w', Ok tt) /\ forall y, says_var (w' y) (p' y)
  | None => do_call w c = (w, Err EArgs)
  end.
Proof.
  intros H Hs Hp Hd. destruct c as [[x|]|[x|]|x|dst src|x t|x v|x a b|x|x|x a b|x name|x s t|x n]; cbn [do_call].
  - cbn [plain_call]. eexists. split; [reflexivity|]. apply assign_says; auto. exact says_defaults.
  - reflexivity.
  - cbn [plain_call]. pose proof (H x) as Hx. destruct (w x); [|destruct (p x); [destruct Hx|congruence]].
    eexists. split; [reflexivity|]. apply assign_says; [auto|exact I].
  - reflexivity.
  - apply on_says; [auto|exact I|reflexivity|]. intros o q Hq. destruct q. cbn [changed]. eexists. split; [reflexivity|exact says_defaults].
  - cbn [plain_call proper_copy] in *. unfold copy. pose proof (H dst) as Hx. pose proof (H src) as Hy.
    destruct (w dst) as [o|], (p dst) as [q|]; try (destruct Hx; fail); [|reflexivity].
    destruct (w src) as [o2|] eqn:Ew, (p src) as [q2|] eqn:Eq; try (destruct Hy; fail); [|reflexivity].
    cbn zeta. unfold assign at 1. replace (src =? dst) with false by lia. rewrite Ew.
    destruct Hy as [S1 S2 S3 S4 S5 S6 S7 S8].
    destruct (copy_string_ok _ _ S5) as (a & -> & Ha). destruct (copy_string_ok _ _ S6) as (b & -> & Hb). destruct (copy_string_ok _ _ S7) as (c & -> & Hc).
    cbn [bind]. eexists. split; [reflexivity|].
    intros y. unfold assign, set_plain. destruct (y =? dst); [|apply H].
    cbn [says_var]. split; cbn; auto.
  - apply on_says; [auto|exact I|reflexivity|]. intros o [only version comp add seqfile patches limit] []. cbn [changed]. unfold set_type, TYPE_STANDARD, TYPE_RPMONLY.
    destruct (t =? 0) eqn:E0; cbn [orb].
    + eexists. split; [reflexivity|]. split; cbn; auto; lia.
    + destruct (t =? 1); [|reflexivity]. eexists. split; [reflexivity|]. split; cbn; auto.
  - apply on_says; [auto|exact I|reflexivity|]. intros o [only version comp add seqfile patches limit] []. cbn [changed]. unfold set_version.
    destruct ((1 <=? v) && (v <=? 3)) eqn:E.
    + replace ((v <? 1) || (3 <? v)) with false by lia. eexists. split; [reflexivity|]. split; cbn; auto.
    + replace ((v <? 1) || (3 <? v)) with true by lia. reflexivity.
  - apply on_says; [auto|exact I|reflexivity|]. intros o [only version comp add seqfile patches limit] []. cbn [changed]. unfold set_delta_comp. rewrite compression_ok, level_ok, comp_ok.
    destruct ((0 <=? a) && (a <=? 6)), ((0 <=? b) && (b <=? 9)); cbn [andb negb].
    + eexists. split; [reflexivity|]. split; cbn; auto.
    + reflexivity.
    + reflexivity.
    + reflexivity.
  - apply on_says; [auto|exact I|reflexivity|]. intros o [only version comp add seqfile patches limit] []. cbn [changed]. eexists. split; [reflexivity|]. split; cbn; auto.
  - apply on_says; [auto|exact I|reflexivity|]. intros o [only version comp add seqfile patches limit] []. cbn [changed]. eexists. split; [reflexivity|]. split; cbn; auto.
  - apply on_says; [auto|exact I|reflexivity|]. intros o [only version comp add seqfile patches limit] []. cbn [changed]. unfold set_addblk_comp. rewrite compression_ok, level_ok, comp_ok.
    destruct ((0 <=? a) && (a <=? 6)), ((0 <=? b) && (b <=? 9)); cbn [andb negb].
    + eexists. split; [reflexivity|]. split; cbn; auto.
    + reflexivity.
    + reflexivity.
    + reflexivity.
  - apply on_says; [auto|exact I|reflexivity|]. intros o [only version comp add seqfile patches limit] [S1 S2 S3 S4 S5 S6 S7 S8]. cbn [changed]. unfold set_seqfile.
    destruct name as [s|].
    + destruct (make_room_ok _ _ s S5) as (buf & -> & Hr). cbn [bind]. destruct (strcpy_ok buf s Hr) as (r & ->). cbn [bind].
      eexists. split; [reflexivity|]. split; cbn [mo_rpmonly mo_version mo_from_rpm mo_comp mo_level mo_addblk mo_acomp mo_alevel mo_seqfile mo_print mo_patch mo_mbytes q_seqfile]; auto.
      apply holds_some. exact Hs.
    + cbn [bind]. eexists. split; [reflexivity|]. split; cbn; auto.
  - apply on_says; [auto|exact I|reflexivity|]. intros o [only version comp add seqfile patches limit] [S1 S2 S3 S4 S5 S6 S7 S8]. cbn [changed]. unfold add_patches.
    destruct s as [s|]; [|reflexivity]. destruct t as [t|]; [|reflexivity].
    destruct (make_room_ok _ _ s S6) as (buf & -> & Hr). destruct (make_room_ok _ _ t S7) as (buf2 & -> & Hr2). cbn [bind].
    destruct (strcpy_ok buf s Hr) as (r & ->). destruct (strcpy_ok buf2 t Hr2) as (r2 & ->). cbn [bind]. destruct Hs as [Hs1 Hs2].
    eexists. split; [reflexivity|]. split; cbn [mo_rpmonly mo_version mo_from_rpm mo_comp mo_level mo_addblk mo_acomp mo_alevel mo_seqfile mo_print mo_patch mo_mbytes q_patches option_map fst snd]; auto.
    all: apply holds_some; auto.
  - apply on_says; [auto|exact I|reflexivity|]. intros o [only version comp add seqfile patches limit] []. cbn [changed]. eexists. split; [reflexivity|]. split; cbn; auto.
Qed.

(** ** Histories *)
Definition verdict (b : bool) : res unit := if b then Ok tt else Err EArgs.

Lemma calls_say : forall cs w p, (forall y, says_var (w y) (p y)) -> Forall strings_ok cs -> Forall proper_copy cs -> destroys_ok p cs ->
  let '(w', rs) := do_calls w cs in let '(p', ps) := plain_calls p cs in
  rs = map verdict ps /\ forall y, says_var (w' y) (p' y).
Proof.
  induction cs as [|c cs IH]; intros w p H Hs Hp Hd; [cbn; auto|].
  cbn [do_calls plain_calls destroys_ok] in *. inversion Hs as [|? ? Hs1 Hs2]; subst. inversion Hp as [|? ? Hp1 Hp2]; subst. destruct Hd as [Hd1 Hd2].
  pose proof (call_says w p c H Hs1 Hp1 Hd1) as Hc. destruct (plain_call p c) as [p'|].
  - destruct Hc as (w' & -> & Hw). specialize (IH w' p' Hw Hs2 Hp2 Hd2).
    destruct (do_calls w' cs) as [w2 rs]. destruct (plain_calls p' cs) as [p2 ps]. destruct IH as [-> IH]. auto.
  - rewrite Hc. specialize (IH w p H Hs2 Hp2 Hd2).
    destruct (do_calls w cs) as [w2 rs]. destruct (plain_calls p cs) as [p2 ps]. destruct IH as [-> IH]. auto.
Qed.

Lemma history cs : Forall strings_ok cs -> Forall proper_copy cs -> destroys_ok no_plains cs ->
  let '(w, rs) := do_calls no_vars cs in let '(p, ps) := plain_calls no_plains cs in
  rs = map (fun accepted : bool => if accepted then Ok tt else Err EArgs) ps /\ forall x, says_var (w x) (p x).
Proof. intros. apply calls_say; auto. intros y. exact I. Qed.

(** ** Refused calls, all states *)
Lemma on_refused w x f w' e : on w x f = (w', Err e) -> w' = w.
Proof. unfold on. destruct (w x); [destruct (f o)|]; intros H; try discriminate H; injection H as <- _; reflexivity. Qed.

Lemma on_err w x f w' e : (forall o e, f o = Err e -> e = EArgs) -> on w x f = (w', Err e) -> e = EArgs.
Proof.
  unfold on. intros Hf. destruct (w x) as [o|]; [destruct (f o) eqn:E|]; intros H; try discriminate H; injection H as _ <-; [|reflexivity].
  eapply Hf; eauto.
Qed.

Lemma strlen_no_err b e : strlen b = Err e -> False.
Proof. revert e. induction b as [|c b IH]; intros e; cbn [strlen]; [discriminate|]. destruct (c =? 0); [discriminate|]. destruct (strlen b); cbn [bind]; try discriminate. eauto. Qed.
Lemma room_no_err b s e : make_room b s = Err e -> False.
Proof. destruct b as [b|]; cbn [make_room]; [|discriminate]. destruct (strlen b) eqn:E; cbn [bind]; try discriminate; [destruct (_ <? _); discriminate|]. intros _. eapply strlen_no_err; eauto. Qed.
Lemma strcpy_no_err b s e : strcpy b s = Err e -> False.
Proof. unfold strcpy. destruct (_ <? _); discriminate. Qed.
Lemma copy_no_err b e : copy_string b = Err e -> False.
Proof.
  destruct b as [b|]; cbn [copy_string]; [|discriminate]. unfold contents. destruct (strlen b) eqn:E; cbn [bind]; try discriminate; [|intros _; eapply strlen_no_err; eauto].
  destruct (strcpy _ _) eqn:E2; cbn [bind]; try discriminate. intros _. eapply strcpy_no_err; eauto.
Qed.

Lemma refused w c w' e : do_call w c = (w', Err e) -> e = EArgs /\ w' = w.
Proof.
  destruct c as [[x|]|[x|]|x|dst src|x t|x v|x a b|x|x|x a b|x name|x s t|x n]; cbn [do_call]; intros H;
  try (split; [|eapply on_refused; eauto]; eapply on_err; [|exact H]; intros o e' He).
  - discriminate.
  - injection H as <- <-. auto.
  - destruct (w x); discriminate.
  - injection H as <- <-. auto.
  - discriminate.
  - unfold copy in H. destruct (w dst) as [o|]; [|injection H as <- <-; auto]. destruct (w src) as [o2|] eqn:E2; [|injection H as <- <-; auto].
    cbn zeta in H. set (w1 := assign w dst _) in *.
    assert (Hsrc : exists o3, w1 src = Some o3) by (unfold w1, assign; destruct (src =? dst); eauto). destruct Hsrc as [o3 Eo]. rewrite Eo in H.
    destruct (copy_string (mo_seqfile o3)) eqn:Ea; cbn [bind] in H; [|exfalso; eapply copy_no_err; eauto|discriminate|discriminate].
    destruct (copy_string (mo_print o3)) eqn:Eb; cbn [bind] in H; [|exfalso; eapply copy_no_err; eauto|discriminate|discriminate].
    destruct (copy_string (mo_patch o3)) eqn:Ec; cbn [bind] in H; [|exfalso; eapply copy_no_err; eauto|discriminate|discriminate].
    discriminate.
  - unfold set_type in He. destruct (_ =? _); [discriminate|]. destruct (_ =? _); [discriminate|congruence].
  - unfold set_version in He. destruct (_ || _); [congruence|discriminate].
  - unfold set_delta_comp in He. destruct (bad_level b); [congruence|]. destruct (known_comp a); [discriminate|congruence].
  - discriminate.
  - discriminate.
  - unfold set_addblk_comp in He. destruct (bad_level b); [congruence|]. destruct (known_comp a); [discriminate|congruence].
  - unfold set_seqfile in He. destruct name as [s|]; [|discriminate].
    destruct (make_room _ s) eqn:E1; cbn [bind] in He; [|exfalso; eapply room_no_err; eauto|discriminate|discriminate].
    destruct (strcpy _ s) eqn:E2; cbn [bind] in He; [discriminate|exfalso; eapply strcpy_no_err; eauto|discriminate|discriminate].
  - unfold add_patches in He. destruct s as [s|]; [|congruence]. destruct t as [t|]; [|congruence].
    destruct (make_room _ s) eqn:E1; cbn [bind] in He; [|exfalso; eapply room_no_err; eauto|discriminate|discriminate].
    destruct (make_room _ t) eqn:E2; cbn [bind] in He; [|exfalso; eapply room_no_err; eauto|discriminate|discriminate].
    destruct (strcpy _ s) eqn:E3; cbn [bind] in He; [|exfalso; eapply strcpy_no_err; eauto|discriminate|discriminate].
    destruct (strcpy _ t) eqn:E4; cbn [bind] in He; [discriminate|exfalso; eapply strcpy_no_err; eauto|discriminate|discriminate].
  - discriminate.
Qed.

(** ** Values stay in range *)
Lemma changed_range c p q : in_range p -> changed c p = Some q -> in_range q.
Proof.
  destruct p as [only version comp add seqfile patches limit]. intros [R1 R2 R3]. cbn [q_version q_comp q_add] in *.
  destruct c as [[x|]|[x|]|x|dst src|x t|x v|x a b|x|x|x a b|x name|x [s|] [t|]|x n]; cbn [changed]; intros H; try discriminate.
  - injection H as <-. split; cbn; auto; lia.
  - destruct (_ || _); [|discriminate]. injection H as <-. split; auto.
  - destruct (_ && _) eqn:E; [|discriminate]. injection H as <-. split; cbn; auto; lia.
  - destruct (compression a b) eqn:E; [|discriminate]. injection H as <-. unfold compression in E. split; cbn [q_version q_comp q_add]; auto; lia.
  - injection H as <-. split; cbn; auto.
  - injection H as <-. split; cbn; auto.
  - destruct (compression a b) eqn:E; [|discriminate]. injection H as <-. unfold compression in E. split; cbn [q_version q_comp q_add]; auto; lia.
  - injection H as <-. split; cbn; auto.
  - injection H as <-. split; cbn; auto.
  - injection H as <-. split; cbn; auto.
Qed.

Definition all_in_range (w : plains) : Prop := forall x p, w x = Some p -> in_range p.
Lemma set_range w x o : all_in_range w -> match o with Some p => in_range p | None => True end -> all_in_range (set_plain w x o).
Proof. intros H Ho y p. unfold set_plain. destruct (y =? x); [intros ->; exact Ho|apply H]. Qed.
Lemma defaults_range : in_range plain_defaults.
Proof. split; cbn; auto; lia. Qed.
Lemma call_range w c w' : all_in_range w -> plain_call w c = Some w' -> all_in_range w'.
Proof.
  intros H E.
  assert (Hs : forall x, match w x with
         | None => None
         | Some q => match changed c q with Some q' => Some (set_plain w x (Some q')) | None => None end
         end = Some w' -> all_in_range w').
  { intros x E'. destruct (w x) as [q|] eqn:Ex; [|discriminate]. destruct (changed c q) as [q'|] eqn:Ec; [|discriminate]. injection E' as <-.
    apply set_range; auto. eapply changed_range; [|exact Ec]. eapply H; eauto. }
  destruct c as [[x|]|[x|]|x|dst src|x t|x v|x a b|x|x|x a b|x name|x s t|x n]; cbn [plain_call variable] in E; try discriminate; try (eapply Hs; exact E).
  - injection E as <-. apply set_range; auto. exact defaults_range.
  - injection E as <-. apply set_range; [auto|exact I].
  - destruct (w dst); [|discriminate]. destruct (w src) eqn:Es; [|discriminate]. injection E as <-. apply set_range; auto. eapply H; eauto.
Qed.
Lemma calls_range : forall cs w, all_in_range w -> all_in_range (fst (plain_calls w cs)).
Proof.
  induction cs as [|c cs IH]; intros w H; [exact H|]. cbn [plain_calls]. destruct (plain_call w c) as [w'|] eqn:E.
  - specialize (IH w' (call_range _ _ _ H E)). destruct (plain_calls w' cs). exact IH.
  - specialize (IH w H). destruct (plain_calls w cs). exact IH.
Qed.
Lemma range cs x p : fst (plain_calls no_plains cs) x = Some p -> in_range p.
Proof. apply calls_range. intros y q H. discriminate. Qed.

(** ** Making *)
Lemma make_same L o o' old new named : 
  o_rpmonly o = o_rpmonly o' -> o_version o = o_version o' -> o_from_rpm o = o_from_rpm o' ->
  (o_from_rpm o = false -> o_comp o = o_comp o' /\ o_level o = o_level o') ->
  o_addblk o = o_addblk o' -> (o_addblk o = true -> o_acomp o = o_acomp o' /\ o_alevel o = o_alevel o') ->
  o_seqfile o = o_seqfile o' -> drpm_make L (Some o) old new named = drpm_make L (Some o') old new named.
Proof.
  intros E1 E2 E3 E4 E5 E6 E7.
  assert (Ed : forall a b, diff_and_add L o a b = diff_and_add L o' a b).
  { intros a b. unfold diff_and_add. rewrite <- E5. destruct (o_addblk o); [|reflexivity]. destruct E6 as [<- <-]; auto. }
  assert (En : forall f, nodiff_delta L o f = nodiff_delta L o' f).
  { intros f. unfold nodiff_delta. rewrite <- E2, <- E3. destruct (o_from_rpm o); [reflexivity|]. destruct E4 as [<- <-]; auto. }
  assert (Ef : forall s a b, diff_delta L o s a b = diff_delta L o' s a b).
  { intros s a b. unfold diff_delta. rewrite <- E1, <- E2, <- E3. 
    destruct (if s then _ else _) as [[old_rpm seq]| | |]; [cbn [bind]|reflexivity|reflexivity|reflexivity].
    destruct (rpm_read L b ReadDecomp false) as [[[[new_rpm tcomp] q] full]| | |]; [cbn [bind]|reflexivity|reflexivity|reflexivity].
    destruct (rpm_get_payload_format L new_rpm) as [fmt| | |]; [cbn [bind]|reflexivity|reflexivity|reflexivity].
    destruct (negb (fmt =? 1)); [reflexivity|].
    destruct (rpm_get_comp_level L new_rpm) as [tlevel| | |]; [cbn [bind]|reflexivity|reflexivity|reflexivity].
    assert (Ec : (if o_from_rpm o then (tcomp, tlevel) else (o_comp o, o_level o)) = (if o_from_rpm o then (tcomp, tlevel) else (o_comp o', o_level o'))).
    { destruct (o_from_rpm o); [reflexivity|]. destruct E4 as [<- <-]; auto. }
    rewrite Ec. destruct (if o_from_rpm o then _ else _) as [comp level].
    destruct (o_rpmonly o); [rewrite Ed; reflexivity|].
    repeat match goal with
    | |- bind ?x _ = bind ?x _ => let E := fresh in destruct x as [?| | |] eqn:E; cbn [bind]; [|reflexivity|reflexivity|reflexivity]
    | |- (let '(_, _) := ?x in _) = _ => destruct x
    | |- context [diff_and_add L o ?a ?b] => rewrite (Ed a b)
    | _ => reflexivity
    end. }
  unfold drpm_make. rewrite <- E1, <- E2, <- E7. destruct (_ || _); [reflexivity|]. destruct (_ && _); [reflexivity|].
  destruct old as [old|], new as [new|]; rewrite ?Ef, ?En; reflexivity.
Qed.

Lemma make_says L o p old new named : says o p -> drpm_make L (Some (given o)) old new named = drpm_make L (Some (asked p)) old new named.
Proof.
  intros [S1 S2 S3 S4 S5 S6 S7 S8]. apply make_same; unfold given, asked; cbn; rewrite ?S3, ?S4; auto.
  - destruct (mo_from_rpm o); reflexivity.
  - intros ->. auto.
  - destruct (mo_addblk o); reflexivity.
  - intros ->. auto.
  - destruct (mo_seqfile o), (q_seqfile p); auto; destruct S5.
Qed.

Lemma make_fresh L old new named : drpm_make L (Some (given defaults)) old new named = drpm_make L None old new named.
Proof. unfold drpm_make. reflexivity. Qed.
