(** From the specifications of the parts to the theorems about ownership. *)
Require Import ZArith List Bool Lia.
Require Import Verif.Own Verif.OwnTools Verif.OwnCodec Verif.OwnRpm Verif.OwnRead.
Require Import Verif.OwnClient Verif.OwnCheck Verif.SpecOwn.
Require Import Verif.OwnRpmProofs Verif.OwnReadProofs Verif.OwnApiProofs Verif.OwnCheckProofs.
Import ListNotations.
Open Scope Z_scope.

Lemma cnt_nil l : (forall x, cnt x l = 0%nat) -> l = [].
Proof.
  destruct l as [|y r]; [reflexivity|]. intros H. specialize (H y). cbn in H.
  rewrite Z.eqb_refl in H. discriminate H.
Qed.
Lemma nothing e ps s : chg (start e ps) s zer zer -> live s = [].
Proof.
  intros [_ K]. apply cnt_nil. intro x. specialize (K x). unfold C, zer in K. cbn in K. lia.
Qed.
Lemma one_left e ps s n : chg (start e ps) s zer (ind n) -> live s = [n].
Proof.
  intros [_ K]. unfold C, zer in K. cbn in K.
  destruct (live s) as [|a l] eqn:E.
  - specialize (K n). rewrite ind_refl in K. discriminate K.
  - assert (A : a = n).
    { specialize (K a). cbn [cnt] in K. rewrite Z.eqb_refl in K. unfold ind in K.
      destruct (Z.eqb_spec a n); [auto|]. lia. }
    subst a. f_equal. apply cnt_nil. intro x. specialize (K x). cbn [cnt] in K.
    unfold ind in K. destruct (Z.eqb x n); lia.
Qed.

Lemma wp_done {A} (m : M A) (Q : A -> st -> Prop) s :
  wp m Q s -> exists a s', m s = Done a s' /\ Q a s'.
Proof. unfold wp. destruct (m s) as [a s'|b]; [|tauto]. eauto. Qed.

Lemma clients_clean e ps l :
  clean e ps (bind (execs nobody l) (fun c => bind (release c) (fun _ => ret (c_failed c))))
    (fun failed => failed = false).
Proof.
  apply wp_done. change (mkst [] 0 ps e) with (start e ps).
  apply wp_bind, wp_execs.
  - repeat split; constructor.
  - intro x. unfold ocl. cbn. lia.
  - intros c s W K F. apply wp_bind, wp_release; [exact W| |].
    + intro x. destruct K as [_ K]. specialize (K x). change (ocl nobody x) with 0%nat in K. lia.
    + intros s2 K2. apply wp_ret. intros Fc. destruct (F Fc) as [_ Kc].
      apply nothing with (e := e) (ps := ps).
      destruct Kc as [E1 K1], K2 as [E2 K2]. split; [congruence|]. intro x.
      specialize (K1 x). specialize (K2 x). change (ocl nobody x) with 0%nat in K1.
      unfold zer in *. lia.
Qed.
Lemma clients_sound e ps l : sound e ps (execs nobody l).
Proof.
  destruct (clients_clean e ps l) as (b & s & E & _). unfold bind in E.
  unfold sound. destruct (execs nobody l (mkst [] 0 ps e)) as [c s1|]; [eauto|discriminate E].
Qed.

Lemma sequence_package e ps : clean e ps (drpm_check_sequence false CNone) (fun _ => True).
Proof.
  apply wp_done. apply wp_check_sequence_package. intros b s K _.
  exact (nothing e ps s K).
Qed.
Lemma sequence_sound ps m : sound calm ps (drpm_check_sequence true m).
Proof.
  destruct (wp_done (drpm_check_sequence true m) (fun _ _ => True) (start calm ps))
    as (b & s & E & _); [|now exists b, s].
  apply wp_check_sequence_installed; [reflexivity|auto].
Qed.
Lemma check_sound ps m : sound calm ps (drpm_check m).
Proof.
  destruct (wp_done (drpm_check m) (fun _ _ => True) (start calm ps))
    as (b & s & E & _); [|now exists b, s].
  apply wp_drpm_check; [reflexivity|auto].
Qed.
Lemma sequence_leaks ps m s :
  drpm_check_sequence true m (mkst [] 0 ps calm) = Done true s -> exists n, live s = [n].
Proof.
  intros E.
  destruct (wp_done (drpm_check_sequence true m)
    (fun b s' => b = true -> exists n, live s' = [n]) (start calm ps)) as (b & s2 & E2 & R).
  - apply wp_check_sequence_left; [reflexivity| |discriminate].
    intros n s' K _. exists n. exact (one_left _ _ _ n K).
  - unfold start in E2. rewrite E in E2. injection E2 as <- <-. auto.
Qed.
Lemma check_leaks ps m s :
  drpm_check m (mkst [] 0 ps calm) = Done true s -> exists n, live s = [n].
Proof.
  intros E.
  destruct (wp_done (drpm_check m)
    (fun b s' => b = true -> exists n, live s' = [n]) (start calm ps)) as (b & s2 & E2 & R).
  - apply wp_drpm_check_left; [reflexivity| |discriminate].
    intros n s' K _. exists n. exact (one_left _ _ _ n K).
  - unfold start in E2. rewrite E in E2. injection E2 as <- <-. auto.
Qed.
Lemma sequence_package_sound e ps : sound e ps (drpm_check_sequence false CNone).
Proof. destruct (sequence_package e ps) as (b & s & E & _). now exists b, s. Qed.
