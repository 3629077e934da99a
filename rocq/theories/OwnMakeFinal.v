(** From the specification of [drpm_make] to the theorems about ownership. *)
Require Import ZArith List Bool Lia.
Require Import Verif.Own Verif.OwnTools Verif.OwnMake Verif.SpecOwn Verif.OwnFinal.
Require Import Verif.OwnMakeProofs.
Import ListNotations.
Open Scope Z_scope.

Lemma make_clean e ps alone only v3 add seqfile :
  e_oom e = false -> (alone && only = true -> e = calm) ->
  clean e ps (drpm_make alone only v3 add seqfile) (fun ok => ok = true).
Proof.
  intros Z Y. apply wp_done. apply wp_drpm_make; [exact Z|exact Y| |discriminate].
  intros s K _. exact (nothing e ps s K).
Qed.
Lemma make_diff_sound e ps alone only v3 add seqfile :
  e_oom e = false -> alone && only = false ->
  sound e ps (drpm_make alone only v3 add seqfile).
Proof.
  intros Z Y. destruct (make_clean e ps alone only v3 add seqfile Z) as (b & s & E & _);
    [congruence|]. now exists b, s.
Qed.
Lemma make_identity_sound ps v3 add seqfile : sound calm ps (drpm_make true true v3 add seqfile).
Proof.
  destruct (make_clean calm ps true true v3 add seqfile eq_refl) as (b & s & E & _);
    [reflexivity|]. now exists b, s.
Qed.
Lemma make_diff_clean e ps alone only v3 add seqfile :
  e_oom e = false -> alone && only = false ->
  clean e ps (drpm_make alone only v3 add seqfile) (fun ok => ok = true).
Proof. intros Z Y. apply make_clean; [exact Z|congruence]. Qed.
Lemma make_identity_clean ps v3 add seqfile :
  clean calm ps (drpm_make true true v3 add seqfile) (fun ok => ok = true).
Proof. now apply make_clean. Qed.
