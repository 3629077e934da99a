(** * Total-correctness predicate on outcomes *)
From Verif Require Import Base.

(** [sat P x]: the function returned normally (no error code, no undefined
    behaviour, no lack of fuel) with a value satisfying [P]. *)
Definition sat {A} (P : A -> Prop) (x : res A) : Prop :=
  match x with Ok a => P a | _ => False end.

Lemma sat_bind {A B} (P : A -> Prop) (Q : B -> Prop) x k :
  sat P x -> (forall a, P a -> sat Q (k a)) -> sat Q (bind x k).
Proof. destruct x; cbn; intros H1 H2; try contradiction. auto. Qed.

Lemma sat_mono {A} (P Q : A -> Prop) x :
  sat P x -> (forall a, P a -> Q a) -> sat Q x.
Proof. destruct x; cbn; auto. Qed.

Lemma sat_ok {A} (P : A -> Prop) x : sat P x -> exists a, x = Ok a /\ P a.
Proof. destruct x; cbn; intros; try contradiction; eauto. Qed.
