(** Lists of patched files: every execution that has memory for the struct goes wrong. *)
Require Import ZArith List Bool.
Require Import Verif.Own Verif.OwnCodec Verif.OwnRpm Verif.OwnRead Verif.OwnMake Verif.OwnPatches Verif.SpecOwn.
Import ListNotations.
Open Scope Z_scope.
Open Scope own_scope.

(** If it ends, then with such a result. *)
Definition may {A} (m : M A) (Q : A -> Prop) : Prop := forall s a s', m s = Done a s' -> Q a.

Lemma may_ret {A} (a : A) (Q : A -> Prop) : Q a -> may (ret a) Q.
Proof. intros H s b s' E. injection E as <- <-. exact H. Qed.
Lemma may_bind {A B} (m : M A) (k : A -> M B) (P : A -> Prop) (Q : B -> Prop) :
  may m P -> (forall a, P a -> may (k a) Q) -> may (bind m k) Q.
Proof.
  intros H K s b s' E. unfold bind in E. destruct (m s) as [a s1|] eqn:Em; [|discriminate].
  exact (K a (H _ _ _ Em) _ _ _ E).
Qed.
Lemma may_any {A} (m : M A) : may m (fun _ => True).
Proof. intros s a s' _. exact I. Qed.
Lemma may_use_junk : may (use Junk) (fun _ => False).
Proof. intros s a s' E. discriminate. Qed.
Lemma may_free_junk : may (free Junk) (fun _ => False).
Proof. intros s a s' E. discriminate. Qed.
Lemma may_never {A} (m : M A) (Q : A -> Prop) : may m (fun _ => False) -> may m Q.
Proof. intros H s a s' E. destruct (H _ _ _ E). Qed.

Lemma grow_junk : may (grow Junk) (fun _ => False).
Proof.
  unfold grow. cbn [isnull]. eapply may_bind; [apply may_any|]. intros b _. cbn beta. destruct b; cbn [negb].
  - eapply may_bind with (P := fun _ => False); [|intros ? []]. unfold realloc.
    eapply may_bind; [apply may_use_junk|intros ? []].
  - eapply may_bind; [apply may_use_junk|intros ? []].
Qed.

Lemma unpatched_junk f i : n_files i = Junk -> may (unpatched_round (f, i)) (fun _ => False).
Proof. intros H. unfold unpatched_round. rewrite H. eapply may_bind; [apply grow_junk|intros ? []]. Qed.

Lemma patched_junk f i : n_files i = Junk -> may (patched_round (f, i)) (fun r => n_files (snd (snd r)) = Junk).
Proof.
  intros H. unfold patched_round. eapply may_bind; [apply may_any|]. intros [ok g] _. destruct (negb ok); [apply may_ret; exact H|].
  eapply may_bind; [apply may_any|]. intros _ _. rewrite H. eapply may_bind; [apply grow_junk|intros ? []].
Qed.

Lemma rounds_junk g n : forall f i, n_files i = Junk ->
  (forall f i, n_files i = Junk -> may (g (f, i)) (fun r => n_files (snd (snd r)) = Junk)) ->
  may (rounds n g (f, i)) (fun r : bool * (ptr * pinfo) => n_files (snd (snd r)) = Junk).
Proof.
  induction n as [|n IH]; intros f i H K; cbn [rounds]; [apply may_ret; exact H|].
  eapply may_bind; [apply K, H|]. intros [ok [f' i']] H'. cbn [snd] in H'. destruct ok; [apply IH; auto|apply may_ret; exact H'].
Qed.

Lemma list_junk i : n_files i = Junk -> may (list_files i) (fun r => n_files (snd (snd r)) = Junk).
Proof.
  intros H. unfold list_files. eapply may_bind; [apply may_any|]. intros ok _. destruct (negb ok); [apply may_ret; exact H|].
  eapply may_bind; [apply may_any|]. intros n _.
  eapply may_bind; [apply rounds_junk; [exact H|intros; apply may_never, unpatched_junk; auto]|]. intros [ok1 [f i1]] H1. cbn [snd] in H1.
  destruct (negb ok1); [apply may_ret; exact H1|]. eapply may_bind; [apply may_any|]. intros m _.
  eapply may_bind; [apply rounds_junk; [exact H1|intros; apply patched_junk; auto]|]. intros [ok2 [f2 i2]] H2. cbn [snd] in H2.
  destruct (negb ok2); [apply may_ret; exact H2|]. eapply may_bind; [apply may_any|]. intros [ok3 f3] _. apply may_ret. exact H2.
Qed.

Lemma rpmlist_junk i : n_files i = Junk -> may (read_rpmlist i) (fun r => n_files (snd r) = Junk).
Proof.
  intros H. unfold read_rpmlist. eapply may_bind; [apply may_any|]. intros [ok name] _. eapply may_bind; [apply may_any|]. intros [ok2 evr] _.
  eapply may_bind with (P := fun r => n_files (snd (snd r)) = Junk).
  - destruct (negb ok2); [apply may_ret; exact H|]. do 2 (eapply may_bind; [apply may_any|]; intros _ _).
    eapply may_bind; [apply may_any|]. intros n _. cbv zeta. destruct (isnull n); [apply may_ret; exact H|apply list_junk; exact H].
  - intros [ok3 [f i3]] H3. do 3 (eapply may_bind; [apply may_any|]; intros _ _). apply may_ret. exact H3.
Qed.

Lemma destroy_junk t : t_self t <> Null -> n_files (t_patch t) = Junk -> may (patches_destroy t) (fun _ => False).
Proof.
  intros Hs H. unfold patches_destroy. destruct (isnull (t_self t)) eqn:E; [destruct (t_self t); [tauto|discriminate|discriminate]|].
  do 2 (eapply may_bind; [apply may_any|]; intros _ _). eapply may_bind with (P := fun _ => False); [|intros ? []].
  unfold pinfo_free. rewrite H. eapply may_bind; [apply may_any|]. intros _ _. eapply may_bind; [apply may_free_junk|intros ? []].
Qed.

(** What happens after the struct was obtained. *)
Lemma fill_junk self : self <> Null ->
  may (patches_fill false self) (fun r => t_self (snd r) <> Null /\ n_files (t_patch (snd r)) = Junk).
Proof.
  intros Hs. unfold patches_fill. cbn [pinfo_new]. eapply may_bind; [apply may_any|]. intros fd _.
  eapply may_bind with (P := fun r => t_self (snd (fst r)) = self /\ n_files (t_patch (snd (fst r))) = Junk).
  - destruct (isnull fd); [apply may_ret; split; reflexivity|]. eapply may_bind; [apply may_any|]. intros ok _. cbn [t_patch t_print].
    eapply may_bind with (P := fun r => n_files (snd r) = Junk); [destruct ok; [apply rpmlist_junk|apply may_ret]; reflexivity|].
    intros [ok1 i] Hi. cbn [snd] in Hi. cbv zeta. destruct (negb ok1); [apply may_ret; split; [reflexivity|exact Hi]|].
    eapply may_bind; [apply may_any|]. intros _ _. eapply may_bind; [apply may_any|]. intros [[ok2 i2] fd2] _. apply may_ret. split; [reflexivity|exact Hi].
  - intros [[ok t] fd2] [H1 H2]. cbn [fst snd] in *. subst self. eapply may_bind with (P := fun t' => t_self t' <> Null /\ n_files (t_patch t') = Junk).
    + destruct ok; [apply may_ret; auto|]. eapply may_bind; [apply destroy_junk; auto|intros ? []].
    + intros t' Ht. eapply may_bind; [apply may_any|]. intros _ _. apply may_ret. exact Ht.
Qed.

Lemma patched_broken e ps rest : e_oom e = false -> broken e ps (make_patched false rest).
Proof.
  intros He. unfold broken. destruct (make_patched false rest (mkst [] 0 ps e)) as [a s'|b] eqn:E; [exfalso|eauto].
  unfold make_patched, bind at 1 in E. destruct (patches_read false (mkst [] 0 ps e)) as [[ok t] s1|] eqn:Er; [|discriminate].
  assert (Ht : t_self t <> Null /\ n_files (t_patch t) = Junk).
  { unfold patches_read, bind in Er. destruct (malloc (mkst [] 0 ps e)) as [p s2|] eqn:Em; [|discriminate].
    unfold malloc, bind, gated in Em. cbn [envs] in Em. rewrite He in Em. injection Em as <- <-. cbn [isnull] in Er.
    assert (Hn : At 0 <> Null) by discriminate. exact (fill_junk _ Hn _ _ _ Er). }
  revert E. apply (fun H : may _ (fun _ => False) => H s1 a s'). eapply may_bind; [apply may_any|]. intros ok' _.
  eapply may_bind; [apply destroy_junk; apply Ht|intros ? []].
Qed.
