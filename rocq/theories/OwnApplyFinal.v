(** From the specification of [drpm_apply] to the theorems about ownership. *)
Require Import ZArith List Bool Lia.
Require Import Verif.Own Verif.OwnTools Verif.OwnApply Verif.SpecOwn Verif.OwnFinal.
Require Import Verif.OwnApplyProofs.
Import ListNotations.
Open Scope Z_scope.

Lemma apply_package e ps lim mo add :
  0 < lim -> 0 < mo -> e_oom e = false -> e_page e = false ->
  clean e ps (drpm_apply lim mo true add) (fun ok => ok = true).
Proof.
  intros A B Z P. apply wp_done. apply wp_drpm_apply; try assumption; try discriminate.
  intros n s K _. exact (nothing e ps s K).
Qed.
Lemma apply_package_sound e ps lim mo add :
  0 < lim -> 0 < mo -> e_oom e = false -> e_page e = false ->
  sound e ps (drpm_apply lim mo true add).
Proof.
  intros A B Z P. destruct (apply_package e ps lim mo add A B Z P) as (b & s & E & _).
  now exists b, s.
Qed.
Lemma apply_installed ps lim mo add :
  0 < lim -> 0 < mo ->
  exists ok s, drpm_apply lim mo false add (mkst [] 0 ps calm) = Done ok s /\
               (ok = true -> exists n, live s = [n]).
Proof.
  intros A B. apply wp_done. apply wp_drpm_apply; try assumption; try reflexivity; try discriminate.
  intros n s K _. exists n. exact (one_left calm ps s n K).
Qed.
Lemma apply_installed_sound ps lim mo add :
  0 < lim -> 0 < mo -> sound calm ps (drpm_apply lim mo false add).
Proof.
  intros A B. destruct (apply_installed ps lim mo add A B) as (b & s & E & _).
  now exists b, s.
Qed.
Lemma apply_installed_left ps lim mo add s :
  0 < lim -> 0 < mo -> drpm_apply lim mo false add (mkst [] 0 ps calm) = Done true s ->
  exists n, live s = [n].
Proof.
  intros A B E. destruct (apply_installed ps lim mo add A B) as (b & s2 & E2 & R).
  rewrite E in E2. injection E2 as <- <-. now apply R.
Qed.
