(** Tools for the proofs about ownership: weakest preconditions and counting. *)
Require Import ZArith List Bool Lia.
Require Import Verif.Own.
Import ListNotations.
Open Scope Z_scope.

Fixpoint cnt (x : Z) (l : list Z) : nat :=
  match l with
  | [] => 0
  | y :: r => (if Z.eqb x y then 1 else 0) + cnt x r
  end%nat.

(** How often a resource is alive; how often a pointer owns it. *)
Definition C (s : st) (x : Z) : nat := cnt x (live s).
Definition ind (n x : Z) : nat := if x =? n then 1%nat else 0%nat.
Definition op (p : ptr) (x : Z) : nat := match p with At n => ind n x | _ => 0%nat end.
Fixpoint ops (l : list ptr) (x : Z) : nat :=
  match l with [] => 0 | p :: r => op p x + ops r x end%nat.
(** Not junk; a resource. *)
Definition okp (p : ptr) : Prop := match p with Junk => False | _ => True end.
Definition isat (p : ptr) : Prop := match p with At _ => True | _ => False end.
Fixpoint oks (l : list ptr) : Prop :=
  match l with [] => True | p :: r => okp p /\ oks r end.

Definition wp {A} (m : M A) (Q : A -> st -> Prop) (s : st) : Prop :=
  match m s with Done a s' => Q a s' | Bad _ => False end.

(** What a step does: it gives up [pre] and obtains [post]; the second one allows leaks. *)
Definition chg (s s' : st) (pre post : Z -> nat) : Prop :=
  envs s' = envs s /\ forall x, (C s' x + pre x = C s x + post x)%nat.
Definition chgl (s s' : st) (pre post : Z -> nat) : Prop :=
  envs s' = envs s /\ forall x, (C s' x + pre x >= C s x + post x)%nat.
Definition need (s : st) (pre : Z -> nat) : Prop := forall x, (pre x <= C s x)%nat.
Definition zer (x : Z) : nat := 0%nat.

Lemma wp_mono {A} (m : M A) (Q R : A -> st -> Prop) s :
  wp m Q s -> (forall a s', Q a s' -> R a s') -> wp m R s.
Proof. unfold wp. destruct (m s); auto. Qed.

Lemma wp_bind {A B} (m : M A) (k : A -> M B) (Q : _ -> st -> Prop) s :
  wp m (fun a s' => wp (k a) Q s') s -> wp (bind m k) Q s.
Proof. unfold wp, bind. destruct (m s); auto. Qed.

Lemma wp_ret {A} (a : A) (Q : A -> st -> Prop) s : Q a s -> wp (ret a) Q s.
Proof. auto. Qed.

Lemma cnt_remove1 n l x : In n l -> (cnt x (remove1 n l) + ind n x = cnt x l)%nat.
Proof.
  induction l as [|m r IH]; intros H; [destruct H|].
  cbn [remove1 cnt].
  destruct (n =? m) eqn:E.
  - apply Z.eqb_eq in E; subst. unfold ind. lia.
  - cbn [cnt]. destruct H as [H|H]; [subst; rewrite Z.eqb_refl in E; discriminate|].
    specialize (IH H). lia.
Qed.

Lemma cnt_In x l : (1 <= cnt x l)%nat -> In x l.
Proof.
  induction l as [|y r IH]; cbn; [lia|].
  destruct (x =? y) eqn:E; [apply Z.eqb_eq in E; subst; now left|].
  intros H. right. apply IH. lia.
Qed.

Lemma ind_refl n : ind n n = 1%nat.
Proof. unfold ind. now rewrite Z.eqb_refl. Qed.

Lemma exists_live n l : (1 <= cnt n l)%nat -> existsb (Z.eqb n) l = true.
Proof.
  intros H. apply existsb_exists. exists n. split; [now apply cnt_In|apply Z.eqb_refl].
Qed.

Lemma wp_pick (Q : _ -> st -> Prop) s :
  (forall p s', chg s s' zer zer -> Q p s') -> wp pick Q s.
Proof.
  intros H. unfold wp, pick. destruct (picks s) as [|p r].
  - apply H. split; [reflexivity|intro; reflexivity].
  - apply H. split; [reflexivity|intro; reflexivity].
Qed.

Lemma wp_call (Q : _ -> st -> Prop) s :
  (forall b s', chg s s' zer zer -> Q b s') -> wp call Q s.
Proof.
  intros H. unfold call. apply wp_bind, wp_pick. intros p s' K. apply wp_ret, H, K.
Qed.

Lemma wp_pickn (Q : _ -> st -> Prop) s :
  (forall n s', chg s s' zer zer -> Q n s') -> wp pickn Q s.
Proof.
  intros H. unfold pickn. apply wp_bind, wp_pick. intros p s' K. apply wp_ret, H, K.
Qed.

Lemma chg_refl s : chg s s zer zer.
Proof. split; [reflexivity|intro; reflexivity]. Qed.

Lemma wp_gated f (Q : _ -> st -> Prop) s :
  (forall s', chg s s' zer zer -> Q true s') ->
  (forall s', f (envs s) = true -> chg s s' zer zer -> Q false s') ->
  wp (gated f) Q s.
Proof.
  intros H1 H2. unfold gated, wp. destruct (f (envs s)) eqn:E.
  - apply (wp_call (fun b s' => Q b s') s). intros [|] s' K; auto.
  - apply H1, chg_refl.
Qed.

Lemma wp_new (Q : _ -> st -> Prop) s :
  (forall n s', chg s s' zer (ind n) -> Q (At n) s') -> wp new Q s.
Proof.
  intros H. unfold wp, new. apply H. split; [reflexivity|].
  intros x. unfold C, zer, ind. cbn. lia.
Qed.

Lemma wp_tryn (Q : _ -> st -> Prop) s :
  (forall n s', chg s s' zer (ind n) -> Q (At n) s') ->
  (forall s', chg s s' zer zer -> Q Null s') ->
  wp tryn Q s.
Proof.
  intros H1 H2. unfold tryn. apply wp_bind, wp_call. intros [|] s' K.
  - apply wp_new. intros n s2 [K1 K2]. apply H1. destruct K as [K3 K4].
    split; [congruence|]. intro x. specialize (K2 x). specialize (K4 x). unfold zer in *. lia.
  - apply wp_ret. auto.
Qed.

Lemma wp_malloc (Q : _ -> st -> Prop) s :
  (forall n s', chg s s' zer (ind n) -> Q (At n) s') ->
  (forall s', e_oom (envs s) = true -> chg s s' zer zer -> Q Null s') ->
  wp malloc Q s.
Proof.
  intros H1 H2. unfold malloc. apply wp_bind, wp_gated.
  - intros s' K. apply wp_new. intros n s2 [K1 K2]. apply H1. destruct K as [K3 K4].
    split; [congruence|]. intro x. specialize (K2 x). specialize (K4 x). unfold zer in *. lia.
  - intros s' E K. apply wp_ret. auto.
Qed.

Lemma wp_free p (Q : _ -> st -> Prop) s :
  okp p -> need s (op p) ->
  (forall s', chg s s' (op p) zer -> Q tt s') ->
  wp (free p) Q s.
Proof.
  intros G N H. unfold wp, free. destruct p as [| |n].
  - apply H, chg_refl.
  - destruct G.
  - specialize (N n). cbn [op] in N. rewrite ind_refl in N.
    rewrite exists_live by exact N.
    apply H. split; [reflexivity|]. intro x. unfold C, zer. cbn [live op].
    rewrite cnt_remove1; [lia|]. now apply cnt_In.
Qed.

Lemma wp_use p (Q : _ -> st -> Prop) s :
  isat p -> need s (op p) -> Q tt s -> wp (use p) Q s.
Proof.
  intros G N H. unfold wp, use. destruct p as [| |n]; try destruct G.
  specialize (N n). cbn [op] in N. rewrite ind_refl in N.
  now rewrite exists_live by exact N.
Qed.

Lemma wp_realloc p (Q : _ -> st -> Prop) s :
  okp p -> need s (op p) ->
  (forall n s', chg s s' (op p) (ind n) -> Q (At n) s') ->
  (forall s', e_oom (envs s) = true -> chg s s' zer zer -> Q Null s') ->
  wp (realloc p) Q s.
Proof.
  intros G N H1 H2. destruct p as [| |n].
  - apply wp_malloc; auto.
  - destruct G.
  - unfold realloc. apply wp_bind, wp_use; [exact I|exact N|].
    apply wp_bind, wp_malloc.
    + intros m s1 K. apply wp_bind, wp_free; [exact I| |].
      * intro x. specialize (N x). destruct K as [_ K]. specialize (K x). unfold zer in K.
        lia.
      * intros s2 K2. apply wp_ret, H1. destruct K as [E1 K1], K2 as [E2 K2].
        split; [congruence|]. intro x. specialize (K1 x). specialize (K2 x).
        unfold zer in *. lia.
    + intros s1 E K. apply wp_ret, H2; auto.
Qed.

Lemma wp_rounds {A} (I J : A -> st -> Prop) (f : A -> M (bool * A)) n : forall a s (Q : _ -> st -> Prop),
  I a s ->
  (forall a s, I a s ->
     wp (f a) (fun r s' => if fst r then I (snd r) s' else J (snd r) s') s) ->
  (forall a s', I a s' -> Q (true, a) s') ->
  (forall a s', J a s' -> Q (false, a) s') ->
  wp (rounds n f a) Q s.
Proof.
  induction n as [|n IH]; intros a s Q H HF H1 H2.
  - apply wp_ret. auto.
  - cbn [rounds]. apply wp_bind. eapply wp_mono; [apply HF, H|].
    intros [[|] a'] s' K; cbn in K.
    + apply IH; auto.
    + apply wp_ret. auto.
Qed.

Lemma wp_frees l : forall (Q : _ -> st -> Prop) s,
  oks l -> need s (ops l) ->
  (forall s', chg s s' (ops l) zer -> Q tt s') ->
  wp (frees l) Q s.
Proof.
  induction l as [|p r IH]; intros Q s G N H.
  - apply wp_ret, H. split; [reflexivity|intro; reflexivity].
  - cbn [frees]. destruct G as [G1 G2]. apply wp_bind, wp_free; [exact G1| |].
    + intro x. specialize (N x). cbn [ops] in N. lia.
    + intros s1 [E1 K1]. apply IH; [exact G2| |].
      * intro x. specialize (N x). specialize (K1 x). cbn [ops] in N. unfold zer in K1. lia.
      * intros s2 [E2 K2]. apply H. split; [congruence|].
        intro x. specialize (K1 x). specialize (K2 x). cbn [ops]. unfold zer in *. lia.
Qed.

Lemma wp_news n : forall (Q : _ -> st -> Prop) s,
  (forall l s', oks l -> chg s s' zer (ops l) -> Q l s') -> wp (news n) Q s.
Proof.
  induction n as [|n IH]; intros Q s H.
  - apply wp_ret, H; [exact I|]. split; [reflexivity|intro; reflexivity].
  - cbn [news]. apply wp_bind, wp_new. intros m s1 [E1 K1].
    apply wp_bind, IH. intros l s2 G [E2 K2]. apply wp_ret, H; [now split|].
    split; [congruence|]. intro x. specialize (K1 x). specialize (K2 x).
    cbn [ops op]. unfold zer in *. lia.
Qed.

(** Counting goals: everything is instantiated with the resource in question. *)
Ltac chg_split :=
  repeat match goal with
  | H : chg _ _ _ _ |- _ => destruct H
  | H : chgl _ _ _ _ |- _ => destruct H
  end.
Ltac inst x :=
  repeat match goal with
  | H : forall y : Z, (_ = _)%nat |- _ => specialize (H x)
  | H : forall y : Z, (_ >= _)%nat |- _ => specialize (H x)
  | H : forall y : Z, (_ <= _)%nat |- _ => specialize (H x)
  | H : need _ _ |- _ => specialize (H x)
  end.

Global Arguments C : simpl never.
Global Arguments ind : simpl never.
Create HintDb own.
Global Hint Unfold need zer : own.

(** Projections and tests to be reduced; extended in the files that follow. *)
Ltac own_red0 := cbn [isnull negb andb orb fst snd].
Ltac own_red := own_red0.

(** Instead of a chain of states, one relation between the first state and the last. *)
Lemma merge_cc s0 s s' A B A' B' :
  chg s0 s A B -> chg s s' A' B' ->
  chg s0 s' (fun x => A' x + A x)%nat (fun x => B' x + B x)%nat.
Proof.
  intros [E1 K1] [E2 K2]. split; [congruence|]. intro x. specialize (K1 x). specialize (K2 x).
  lia.
Qed.
Lemma merge_cl s0 s s' A B A' B' :
  chg s0 s A B -> chgl s s' A' B' ->
  chgl s0 s' (fun x => A' x + A x)%nat (fun x => B' x + B x)%nat.
Proof.
  intros [E1 K1] [E2 K2]. split; [congruence|]. intro x. specialize (K1 x). specialize (K2 x).
  lia.
Qed.
Lemma merge_lc s0 s s' A B A' B' :
  chgl s0 s A B -> chg s s' A' B' ->
  chgl s0 s' (fun x => A' x + A x)%nat (fun x => B' x + B x)%nat.
Proof.
  intros [E1 K1] [E2 K2]. split; [congruence|]. intro x. specialize (K1 x). specialize (K2 x).
  lia.
Qed.
Lemma merge_ll s0 s s' A B A' B' :
  chgl s0 s A B -> chgl s s' A' B' ->
  chgl s0 s' (fun x => A' x + A x)%nat (fun x => B' x + B x)%nat.
Proof.
  intros [E1 K1] [E2 K2]. split; [congruence|]. intro x. specialize (K1 x). specialize (K2 x).
  lia.
Qed.
Ltac merge :=
  repeat match goal with
  | K : chg ?s0 ?s _ _, H : _ (envs ?s) = true |- _ => rewrite (proj1 K) in H
  | K : chgl ?s0 ?s _ _, H : _ (envs ?s) = true |- _ => rewrite (proj1 K) in H
  end;
  repeat match goal with
  | K1 : chg ?s0 ?s _ _, K2 : chg ?s ?s' _ _ |- _ =>
      let K := fresh "K" in
      pose proof (merge_cc _ _ _ _ _ _ _ K1 K2) as K; cbv beta delta [zer] in K; clear K1 K2
  | K1 : chg ?s0 ?s _ _, K2 : chgl ?s ?s' _ _ |- _ =>
      let K := fresh "K" in
      pose proof (merge_cl _ _ _ _ _ _ _ K1 K2) as K; cbv beta delta [zer] in K; clear K1 K2
  | K1 : chgl ?s0 ?s _ _, K2 : chg ?s ?s' _ _ |- _ =>
      let K := fresh "K" in
      pose proof (merge_lc _ _ _ _ _ _ _ K1 K2) as K; cbv beta delta [zer] in K; clear K1 K2
  | K1 : chgl ?s0 ?s _ _, K2 : chgl ?s ?s' _ _ |- _ =>
      let K := fresh "K" in
      pose proof (merge_ll _ _ _ _ _ _ _ K1 K2) as K; cbv beta delta [zer] in K; clear K1 K2
  end.

Ltac count :=
  chg_split;
  let x := fresh "x" in intro x; inst x;
  repeat match goal with
  | H : (_ <= _)%nat |- _ => revert H
  | H : (_ >= _)%nat |- _ => revert H
  | H : @eq nat _ _ |- _ => revert H
  end;
  clear;
  repeat (progress autounfold with own); cbn; lia.
Ltac envs_tac :=
  chg_split;
  repeat match goal with
  | H : envs ?s = _ |- context [envs ?s] => rewrite H
  end; first [reflexivity | assumption | congruence].
Ltac chg_tac := split; [envs_tac|count].
Create HintDb own_wf.
Ltac wf :=
  first
  [ solve [auto]
  | solve [repeat first [assumption | exact I | solve [auto] | split]]
  | solve [repeat (progress autounfold with own_wf in *); cbn in *; intuition auto] ].
Ltac side :=
  first
  [ exact I | assumption
  | lazymatch goal with
    | |- need _ _ => count
    | |- chg _ _ _ _ => chg_tac
    | |- chgl _ _ _ _ => chg_tac
    | |- _ => wf
    end ].

(** A failure that a calm environment excludes. *)
Ltac contra :=
  match goal with
  | Z : envs ?s0 = calm, H : _ (envs ?s) = true |- _ =>
      solve [ exfalso; chg_split;
              let E := fresh in
              assert (E : envs s = calm) by congruence; rewrite E in H; discriminate H ]
  end.

Ltac prim :=
  lazymatch goal with
  | |- wp (ret _) _ _ => apply wp_ret
  | |- wp pick _ _ => apply wp_pick; intros ? ? ?
  | |- wp call _ _ => apply wp_call; intros [|] ? ?
  | |- wp pickn _ _ => apply wp_pickn; intros ? ? ?
  | |- wp (gated _) _ _ => apply wp_gated; [intros ? ?|intros ? ? ?; try contra]
  | |- wp new _ _ => apply wp_new; intros ? ? ?
  | |- wp tryn _ _ => apply wp_tryn; [intros ? ? ?|intros ? ?]
  | |- wp malloc _ _ => apply wp_malloc; [intros ? ? ?|intros ? ? ?; try contra]
  | |- wp (free _) _ _ => apply wp_free; [try side|try side|intros ? ?]
  | |- wp (use _) _ _ => apply wp_use; [try side|try side|]
  | |- wp (realloc _) _ _ => apply wp_realloc; [try side|try side|intros ? ? ?|intros ? ? ?; try contra]
  | |- wp (frees _) _ _ => apply wp_frees; [try side|try side|intros ? ?]
  | |- wp (news _) _ _ => apply wp_news; intros ? ? ? ?
  end.
(** Specifications of functions; extended in the files that follow. *)
Ltac spec := fail.
Ltac step :=
  own_red;
  lazymatch goal with
  | |- wp (bind _ _) _ _ => apply wp_bind; first [step | idtac]
  | |- wp (if ?b then _ else _) _ _ => destruct b eqn:?
  | |- wp _ _ _ => first [prim | spec]
  end; own_red; merge.
Ltac steps := repeat step.
