(** The suffix sort releases what it obtains. *)
Require Import ZArith List Bool Lia.
Require Import Verif.Own Verif.OwnTools Verif.OwnCodec Verif.OwnRpm Verif.OwnRead Verif.SpecOwn Verif.OwnClient Verif.OwnCodecProofs Verif.OwnFinal Verif.OwnSuffix.
Import ListNotations.
Open Scope Z_scope.

Lemma wp_bucketsort i v (Q : _ -> st -> Prop) s :
  isat i -> isat v -> need s (fun x => op i x + op v x)%nat ->
  (forall b s', chg s s' zer zer -> Q b s') -> wp (bucketsort i v) Q s.
Proof.
  intros Hi Hv N H. destruct i as [| |ni]; try destruct Hi. destruct v as [| |nv]; try destruct Hv.
  unfold bucketsort. steps; ends.
Qed.

Lemma wp_sfxsrt_create (Q : _ -> st -> Prop) s :
  (forall h t s', chg s s' zer (fun x => ind h x + ind t x)%nat -> Q (true, At h, At t) s') ->
  (forall p s', chg s s' zer zer -> Q (false, p, Junk) s') ->
  wp sfxsrt_create Q s.
Proof.
  intros H1 H2. unfold sfxsrt_create, bucketsort. steps; ends.
Qed.

Lemma suffix_clean e ps : clean e ps (suffix_caller false) (fun _ => True).
Proof.
  apply wp_done. change (mkst [] 0 ps e) with (start e ps). unfold suffix_caller. apply wp_bind, wp_sfxsrt_create.
  - intros h t s K. cbn [negb]. apply wp_bind, wp_pickn. intros n s1 K1. apply wp_bind.
    apply (wp_rounds (fun a s' => a = (At h, At t) /\ chg (start e ps) s' zer (fun x => ind h x + ind t x)%nat) (fun _ _ => False)).
    + split; [reflexivity|]. side.
    + intros a s2 [-> K2]. unfold sfxsrt_search. steps. split; [reflexivity|side].
    + intros a s2 [-> K2]. unfold sfxsrt_free. steps. intros _. apply (nothing e ps). side.
    + intros a s2 [].
  - intros p s K. cbn [negb]. apply wp_ret. intros _. exact (nothing e ps s K).
Qed.
