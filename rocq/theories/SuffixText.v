(** * SuffixText: what the suffix sort keeps true, without its arrays *)
From Verif Require Import Base.
Unset Lia Cache.

(** Places from [a] to [b] are exchanged. *)
Definition shuffle (a b : Z) (J J' : Z -> Z) : Prop :=
  exists f g : Z -> Z, (forall s, f (g s) = s) /\ (forall s, g (f s) = s) /\
    (forall s, ~ (a <= s < b) -> f s = s) /\ (forall s, a <= s < b -> a <= f s < b) /\
    (forall s, J' s = J (f s)).

Lemma shuffle_refl a b J : shuffle a b J J.
Proof. exists (fun s => s), (fun s => s). repeat split; intros; lia. Qed.
Lemma shuffle_trans a b J1 J2 J3 : shuffle a b J1 J2 -> shuffle a b J2 J3 -> shuffle a b J1 J3.
Proof.
  intros (f & g & A & B & C & D & E) (f2 & g2 & A2 & B2 & C2 & D2 & E2).
  exists (fun s => f (f2 s)), (fun s => g2 (g s)). repeat split.
  - intros s. rewrite A2, A. reflexivity.
  - intros s. rewrite B, B2. reflexivity.
  - intros s H. rewrite C2 by assumption. auto.
  - apply D. auto.
  - apply D. auto.
  - intros s. rewrite E2, E. reflexivity.
Qed.
Lemma shuffle_wider a b a' b' J J' : a' <= a -> b <= b' -> shuffle a b J J' -> shuffle a' b' J J'.
Proof.
  intros H H' (f & g & A & B & C & D & E). exists f, g. split; [assumption|]. split; [assumption|].
  split; [intros s Hs; apply C; lia|]. split; [|assumption].
  intros s Hs. destruct (Z_le_dec a s); [destruct (Z_lt_dec s b)|]; [pose proof (D s); lia| |]; rewrite C by lia; assumption.
Qed.
Definition exchange (J : Z -> Z) (x y : Z) : Z -> Z :=
  fun s => if s =? x then J y else if s =? y then J x else J s.
Lemma shuffle_exchange a b J x y : a <= x < b -> a <= y < b -> shuffle a b J (exchange J x y).
Proof.
  intros Hx Hy. pose (f := fun s => if s =? x then y else if s =? y then x else s).
  assert (F : forall s, f (f s) = s).
  { intros s. unfold f. destruct (s =? x) eqn:E1; destruct (s =? y) eqn:E2; destruct (y =? x) eqn:E3;
      rewrite ?Z.eqb_refl, ?E1, ?E2, ?E3; lia. }
  exists f, f. split; [exact F|]. split; [exact F|]. unfold f. repeat split.
  - intros s H. replace (s =? x) with false by lia. replace (s =? y) with false by lia. reflexivity.
  - destruct (s =? x); [|destruct (s =? y)]; lia.
  - destruct (s =? x); [|destruct (s =? y)]; lia.
  - intros s. unfold exchange. destruct (s =? x); [|destruct (s =? y)]; reflexivity.
Qed.
Lemma shuffle_out a b J J' s : shuffle a b J J' -> ~ (a <= s < b) -> J' s = J s.
Proof. intros (f & g & A & B & C & D & E) H. rewrite E, C by assumption. reflexivity. Qed.
Lemma shuffle_in a b J J' s : shuffle a b J J' -> a <= s < b -> exists t, a <= t < b /\ J' s = J t.
Proof. intros (f & g & A & B & C & D & E) H. exists (f s). auto. Qed.
Lemma shuffle_from a b J J' s : shuffle a b J J' -> a <= s < b -> exists t, a <= t < b /\ J s = J' t.
Proof.
  intros (f & g & A & B & C & D & E) H. exists (g s). split; [|rewrite E, A; reflexivity].
  destruct (Z_le_dec a (g s)); [destruct (Z_lt_dec (g s) b); [lia|]|]; rewrite <- (A s), C in H by lia; lia.
Qed.

(** What the first array tells: runs of places whose classes have one member, and classes. *)
Inductive segs (A J V : Z -> Z) : Z -> Z -> Prop :=
| segs_nil a : segs A J V a a
| segs_run a l b : 0 < l -> A a = - l -> (forall s, a <= s < a + l -> V (J s) = s) ->
    segs A J V (a + l) b -> segs A J V a b
| segs_group a g b : a < g -> (forall s, a <= s <= g -> A s = J s /\ V (J s) = g) ->
    segs A J V (g + 1) b -> segs A J V a b.

Lemma segs_le A J V a b : segs A J V a b -> a <= b.
Proof. induction 1; lia. Qed.
Lemma segs_app A J V a b c : segs A J V a b -> segs A J V b c -> segs A J V a c.
Proof. induction 1; intros; [assumption| |]; [eapply segs_run|eapply segs_group]; eauto. Qed.
Lemma segs_keep A J V A' J' V' a b : segs A J V a b ->
  (forall s, a <= s < b -> A' s = A s /\ J' s = J s /\ V' (J s) = V (J s)) -> segs A' J' V' a b.
Proof.
  induction 1 as [a|a l b Hl E S H IH|a g b Hg E H IH]; intros K.
  - constructor.
  - pose proof (segs_le _ _ _ _ _ H). apply segs_run with l; [assumption| | |].
    + destruct (K a) as [-> _]; [lia|]. assumption.
    + intros s Hs. destruct (K s) as (_ & -> & ->); [lia|]. auto.
    + apply IH. intros s Hs. apply K. lia.
  - pose proof (segs_le _ _ _ _ _ H). apply segs_group with g; [assumption| |].
    + intros s Hs. destruct (K s) as (-> & -> & ->); [lia|]. auto.
    + apply IH. intros s Hs. apply K. lia.
Qed.

(** How many places from [a] to [b] meet a condition. *)
Fixpoint zcount (n : nat) (P : Z -> bool) (a : Z) : Z :=
  match n with O => 0 | S n => (if P a then 1 else 0) + zcount n P (a + 1) end.
Definition cnt (P : Z -> bool) (a b : Z) : Z := zcount (Z.to_nat (b - a)) P a.
Lemma cnt_nil P a : cnt P a a = 0.
Proof. unfold cnt. replace (Z.to_nat (a - a)) with O by lia. reflexivity. Qed.
Lemma cnt_cons P a b : a < b -> cnt P a b = (if P a then 1 else 0) + cnt P (a + 1) b.
Proof.
  intros H. unfold cnt. replace (Z.to_nat (b - a)) with (S (Z.to_nat (b - (a + 1)))) by lia. reflexivity.
Qed.
Lemma cnt_ind (Q : Z -> Z -> Prop) : (forall a, Q a a) -> (forall a b, a < b -> Q (a + 1) b -> Q a b) ->
  forall a b, a <= b -> Q a b.
Proof.
  intros A B a b H. remember (Z.to_nat (b - a)) as n eqn:E. revert a H E. induction n as [|n IH]; intros a H E.
  - replace a with b by lia. apply A.
  - apply B; [lia|]. apply IH; lia.
Qed.
Lemma cnt_app P a m b : a <= m -> m <= b -> cnt P a b = cnt P a m + cnt P m b.
Proof.
  intros H. revert a m H b. refine (cnt_ind _ _ _).
  - intros. rewrite cnt_nil. lia.
  - intros a m H IH b Hb. rewrite (cnt_cons P a b), (cnt_cons P a m), (IH b) by lia. lia.
Qed.
Lemma cnt_range P a b : a <= b -> 0 <= cnt P a b <= b - a.
Proof.
  revert a b. refine (cnt_ind _ _ _); intros; [rewrite cnt_nil; lia|]. rewrite cnt_cons by assumption. destruct (P a); lia.
Qed.
Lemma cnt_ext P Q a b : a <= b -> (forall s, a <= s < b -> P s = Q s) -> cnt P a b = cnt Q a b.
Proof.
  revert a b. refine (cnt_ind _ _ _).
  - intros. rewrite !cnt_nil. reflexivity.
  - intros a b H IH E. rewrite (cnt_cons P a b), (cnt_cons Q a b) by assumption. rewrite E, IH by (try (intros; apply E); lia). reflexivity.
Qed.
Lemma cnt_all P a b : a <= b -> (forall s, a <= s < b -> P s = true) -> cnt P a b = b - a.
Proof.
  revert a b. refine (cnt_ind _ _ _).
  - intros. rewrite !cnt_nil. lia.
  - intros a b H IH E. rewrite (cnt_cons P a b) by assumption. rewrite E, IH by (try (intros; apply E); lia). lia.
Qed.
Lemma cnt_none P a b : a <= b -> (forall s, a <= s < b -> P s = false) -> cnt P a b = 0.
Proof.
  revert a b. refine (cnt_ind _ _ _).
  - intros. rewrite !cnt_nil. lia.
  - intros a b H IH E. rewrite (cnt_cons P a b) by assumption. rewrite E, IH by (try (intros; apply E); lia). lia.
Qed.
Lemma cnt_three (P Q R : Z -> bool) a b : a <= b ->
  (forall s, a <= s < b -> (if P s then 1 else 0) + (if Q s then 1 else 0) + (if R s then 1 else 0) = 1) ->
  cnt P a b + cnt Q a b + cnt R a b = b - a.
Proof.
  revert a b. refine (cnt_ind _ _ _).
  - intros. rewrite !cnt_nil. lia.
  - intros a b H IH E. rewrite (cnt_cons P a b), (cnt_cons Q a b), (cnt_cons R a b) by assumption. pose proof (E a ltac:(lia)). specialize (IH ltac:(intros; apply E; lia)). lia.
Qed.
(** One place more than a run that meets it. *)
Lemma cnt_more P a b x y i : a <= x -> x <= y -> y <= b -> a <= i < b -> ~ (x <= i < y) ->
  (forall s, x <= s < y -> P s = true) -> P i = true -> y - x + 1 <= cnt P a b.
Proof.
  intros Hx Hxy Hy Hi Ho A I. pose proof (cnt_all P x y Hxy A).
  destruct (Z.lt_ge_cases i x).
  - rewrite (cnt_app P a i b), (cnt_cons P i b), (cnt_app P (i + 1) x b), (cnt_app P x y b), I by lia.
    pose proof (cnt_range P a i). pose proof (cnt_range P (i + 1) x). pose proof (cnt_range P y b). lia.
  - rewrite (cnt_app P a x b), (cnt_app P x y b), (cnt_app P y i b), (cnt_cons P i b), I by lia.
    pose proof (cnt_range P a x). pose proof (cnt_range P y i). pose proof (cnt_range P (i + 1) b). lia.
Qed.
Lemma cnt_one P a b x v : a <= x < b -> (forall s, a <= s < b -> s <> x -> P s = v s) ->
  cnt P a b = cnt v a b + (if P x then 1 else 0) - (if v x then 1 else 0).
Proof.
  intros Hx E. rewrite (cnt_app P a x b), (cnt_cons P x b), (cnt_app v a x b), (cnt_cons v x b) by lia.
  rewrite (cnt_ext P v a x), (cnt_ext P v (x + 1) b) by (intros; try apply E; lia). lia.
Qed.
Lemma cnt_exchange (P : Z -> bool) J a b x y : a <= x < b -> a <= y < b ->
  cnt (fun s => P (exchange J x y s)) a b = cnt (fun s => P (J s)) a b.
Proof.
  intros Hx Hy. destruct (Z.eq_dec x y) as [->|D].
  - apply cnt_ext; [lia|]. intros s _. unfold exchange. destruct (s =? y) eqn:E; [|reflexivity]. f_equal. f_equal. lia.
  - rewrite (cnt_one _ a b x (fun s => P (if s =? y then J x else J s)) Hx).
    + rewrite (cnt_one _ a b y (fun s => P (J s)) Hy).
      * unfold exchange. rewrite !Z.eqb_refl. replace (x =? y) with false by lia. lia.
      * intros s _ H. replace (s =? y) with false by lia. reflexivity.
    + intros s _ H. unfold exchange. replace (s =? x) with false by lia. reflexivity.
Qed.
Section Text.
Context (N : Z) (T : Z -> Z).
Hypothesis T_last : forall p, N - 1 <= p -> T p = -1.
Hypothesis T_body : forall p, 0 <= p < N - 1 -> 0 <= T p.

Definition agree (h p q : Z) : Prop := forall i, 0 <= i < h -> T (p + i) = T (q + i).
Definition tlt (p q : Z) : Prop :=
  exists k, 0 <= k /\ (forall i, 0 <= i < k -> T (p + i) = T (q + i)) /\ T (p + k) < T (q + k).

Lemma agree_refl h p : agree h p p. Proof. intros i _. reflexivity. Qed.
Lemma agree_sym h p q : agree h p q -> agree h q p. Proof. intros H i Hi. symmetry. auto. Qed.
Lemma agree_trans h p q r : agree h p q -> agree h q r -> agree h p r.
Proof. intros A B i Hi. rewrite A, B; auto. Qed.
Lemma agree_inside h p q : 0 <= p < N -> 0 <= q < N -> p <> q -> agree h p q -> 0 <= h -> p + h < N /\ q + h < N.
Proof.
  assert (W : forall p q, 0 <= p < N -> 0 <= q < N -> p < q -> agree h p q -> 0 <= h -> q + h < N).
  { intros p0 q0 Hp Hq L A Hh. destruct (Z.lt_ge_cases (q0 + h) N); [assumption|].
    pose proof (A (N - 1 - q0)) as B. rewrite (T_last (q0 + _)) in B by lia.
    pose proof (T_body (p0 + (N - 1 - q0))). lia. }
  intros Hp Hq D A Hh. destruct (Z.lt_ge_cases p q).
  - specialize (W p q Hp Hq H A Hh). lia.
  - specialize (W q p Hq Hp ltac:(lia) (agree_sym _ _ _ A) Hh). lia.
Qed.
Lemma agree_all h p q : 0 <= p < N -> 0 <= q < N -> N <= h -> agree h p q -> p = q.
Proof.
  intros Hp Hq Hh A. destruct (Z.eq_dec p q); [assumption|].
  pose proof (agree_inside h p q Hp Hq n A ltac:(lia)). lia.
Qed.
Lemma agree_double h p q : agree h p q -> agree h (p + h) (q + h) -> agree (h + h) p q.
Proof. clear T_last T_body.
  intros A B i Hi. destruct (Z.lt_ge_cases i h); [apply A; lia|].
  specialize (B (i - h)). replace (p + h + (i - h)) with (p + i) in B by lia.
  replace (q + h + (i - h)) with (q + i) in B by lia. apply B. lia.
Qed.
Lemma tlt_behind h p q : 0 <= h -> agree h p q -> tlt (p + h) (q + h) -> tlt p q.
Proof. clear T_last T_body.
  intros Hh A (k & Hk & B & L). exists (h + k). split; [lia|]. split.
  - intros i Hi. destruct (Z.lt_ge_cases i h); [apply A; lia|].
    specialize (B (i - h)). replace (p + h + (i - h)) with (p + i) in B by lia.
    replace (q + h + (i - h)) with (q + i) in B by lia. apply B. lia.
  - replace (p + (h + k)) with (p + h + k) by lia. replace (q + (h + k)) with (q + h + k) by lia. assumption.
Qed.
Lemma tlt_irrefl p : ~ tlt p p. Proof. clear T_last T_body. intros (k & _ & _ & L). lia. Qed.
Lemma tlt_trans p q r : tlt p q -> tlt q r -> tlt p r.
Proof. clear T_last T_body.
  intros (k & Hk & A & L) (m & Hm & B & M). destruct (Z.lt_trichotomy k m) as [C|[C|C]].
  - exists k. split; [lia|]. split; [intros i Hi; rewrite A, B; lia|]. rewrite <- B by lia. assumption.
  - subst m. exists k. split; [lia|]. split; [intros i Hi; rewrite A, B; lia|]. lia.
  - exists m. split; [lia|]. split; [intros i Hi; rewrite A, B; lia|]. rewrite A by lia. assumption.
Qed.

(** The positions [J s], in order, and the last place [V] of the class of each. *)
Record WF (h : Z) (V J : Z -> Z) : Prop := {
  w_range : forall s, 0 <= s < N -> 0 <= J s < N;
  w_inj : forall s t, 0 <= s < N -> 0 <= t < N -> J s = J t -> s = t;
  w_surj : forall p, 0 <= p < N -> exists s, 0 <= s < N /\ J s = p;
  w_mono : forall s t, 0 <= s -> s <= t -> t < N -> V (J s) <= V (J t);
  w_last : forall s, 0 <= s < N -> s <= V (J s) < N /\ V (J (V (J s))) = V (J s);
  w_lt : forall s t, 0 <= s < N -> 0 <= t < N -> V (J s) < V (J t) -> tlt (J s) (J t);
  w_agree : forall s t, 0 <= s < N -> 0 <= t < N -> V (J s) = V (J t) -> agree h (J s) (J t) }.

Lemma w_ltp h V J p q : WF h V J -> 0 <= p < N -> 0 <= q < N -> V p < V q -> tlt p q.
Proof. clear T_last T_body.
  intros W Hp Hq L. destruct (w_surj _ _ _ W p Hp) as (s & Hs & <-).
  destruct (w_surj _ _ _ W q Hq) as (t & Ht & <-). apply (w_lt _ _ _ W); assumption.
Qed.
Lemma w_agreep h V J p q : WF h V J -> 0 <= p < N -> 0 <= q < N -> V p = V q -> agree h p q.
Proof. clear T_last T_body.
  intros W Hp Hq L. destruct (w_surj _ _ _ W p Hp) as (s & Hs & <-).
  destruct (w_surj _ _ _ W q Hq) as (t & Ht & <-). apply (w_agree _ _ _ W); assumption.
Qed.

Lemma wf_shuffle h V J J' a b c : WF h V J -> shuffle a b J J' -> 0 <= a -> b <= N ->
  (forall s, a <= s < b -> V (J s) = c) -> WF h V J'.
Proof. clear T_last T_body.
  intros W S Ha Hb C.
  assert (E : forall s, V (J' s) = V (J s)).
  { intros s. destruct (Z_le_dec a s); [destruct (Z_lt_dec s b)|].
    - destruct (shuffle_in _ _ _ _ s S) as (t & Ht & ->); [lia|]. rewrite !C by lia. reflexivity.
    - rewrite (shuffle_out _ _ _ _ s S) by lia. reflexivity.
    - rewrite (shuffle_out _ _ _ _ s S) by lia. reflexivity. }
  destruct S as (f & g & A & B & K & D & M).
  assert (F : forall s, 0 <= s < N -> 0 <= f s < N).
  { intros s Hs. destruct (Z_le_dec a s); [destruct (Z_lt_dec s b)|]; [pose proof (D s); lia| |]; rewrite K by lia; lia. }
  assert (G : forall s, 0 <= s < N -> 0 <= g s < N).
  { intros s Hs. destruct (Z_le_dec 0 (g s)); [destruct (Z_lt_dec (g s) N); [lia|]|]; rewrite <- (A s), K in Hs by lia; lia. }
  destruct W as [W1 W2 W3 W4 W5 W6 W7]. split.
  - intros s Hs. rewrite M. auto.
  - intros s t Hs Ht H. rewrite !M in H. apply W2 in H; auto. rewrite <- (B s), <- (B t), H. reflexivity.
  - intros p Hp. destruct (W3 p Hp) as (s & Hs & <-). exists (g s). split; [auto|]. rewrite M, A. reflexivity.
  - intros s t. rewrite !E. auto.
  - intros s Hs. rewrite !E. auto.
  - intros s t Hs Ht H. rewrite !M in *. apply W6; auto.
  - intros s t Hs Ht H. rewrite !M in *. apply W7; auto.
Qed.

(** Places from [k] to [e], which are those of the smallest members of a class, become one of
    their own. *)
Lemma wf_mark h V V' J k e g : WF h V J -> 0 <= k -> k < e -> e <= g + 1 -> g < N ->
  (forall s, 0 <= s < k -> V (J s) < k) ->
  (forall s, k <= s <= g -> V (J s) = g) ->
  (forall a b, k <= a < e -> e <= b <= g -> tlt (J a) (J b)) ->
  (forall s, k <= s < e -> V' (J s) = e - 1) ->
  (forall s, 0 <= s < N -> ~ (k <= s < e) -> V' (J s) = V (J s)) ->
  WF h V' J /\ (forall s, 0 <= s < e -> V' (J s) < e).
Proof. clear T_last T_body.
  intros W Hk Hke Heg Hg Bd C L In Out. destruct W as [W1 W2 W3 W4 W5 W6 W7].
  assert (Ab : forall s, g < s < N -> g < V (J s)). { intros s Hs. pose proof (W5 s). lia. }
  assert (B : forall s, 0 <= s < N -> (s < k /\ V' (J s) = V (J s) /\ V (J s) < k) \/
            (k <= s < e /\ V' (J s) = e - 1 /\ V (J s) = g) \/
            (e <= s <= g /\ V' (J s) = g /\ V (J s) = g) \/
            (g < s /\ V' (J s) = V (J s) /\ g < V (J s))).
  { intros s Hs. destruct (Z.lt_ge_cases s k); [left; rewrite Out by lia; pose proof (Bd s); lia|].
    right. destruct (Z.lt_ge_cases s e); [left; rewrite In, C by lia; lia|]. right.
    destruct (Z.le_gt_cases s g); [left; rewrite Out, C by lia; lia|]. right. rewrite Out by lia. pose proof (Ab s). lia. }
  split; [split|].
  - assumption.
  - assumption.
  - assumption.
  - intros s t Hs Hst Ht. pose proof (W4 s t Hs Hst Ht). assert (Hs' : 0 <= s < N) by (clear - Hs Hst Ht; lia). assert (Ht' : 0 <= t < N) by (clear - Hs Hst Ht; lia).
    pose proof (B s Hs') as Bs. pose proof (B t Ht') as Bt. clear - Bs Bt H Hst Hke Heg.
    destruct Bs as [Bs|[Bs|[Bs|Bs]]]; destruct Bt as [Bt|[Bt|[Bt|Bt]]]; lia.
  - intros s Hs. destruct (W5 s Hs) as [X Y]. pose proof (B s Hs) as Z. split; [lia|].
    destruct Z as [(? & -> & ?)|[(? & -> & ?)|[(? & -> & ?)|(? & -> & ?)]]].
    + rewrite Out by lia. assumption.
    + apply In. lia.
    + rewrite Out by lia. apply C. lia.
    + rewrite Out by lia. assumption.
  - intros s t Hs Ht H. destruct (Z.lt_ge_cases (V (J s)) (V (J t))); [auto|].
    destruct (B s Hs) as [Bs|[Bs|[Bs|Bs]]]; destruct (B t Ht) as [Bt|[Bt|[Bt|Bt]]]; try (exfalso; clear - Bs Bt H H0 Hke Heg; lia).
    apply L; lia.
  - intros s t Hs Ht H. apply W7; auto.
    destruct (B s Hs) as [Bs|[Bs|[Bs|Bs]]]; destruct (B t Ht) as [Bt|[Bt|[Bt|Bt]]]; clear - Bs Bt H Hke Heg; lia.
  - intros s Hs. assert (Hs' : 0 <= s < N) by (clear - Hs Heg Hg; lia). pose proof (B s Hs') as Bs. clear - Bs Hs Heg Hk Hke. lia.
Qed.

End Text.
