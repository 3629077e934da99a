(** What the streams own. *)
Require Import ZArith List Bool Lia.
Require Import Verif.Own Verif.OwnTools Verif.OwnCodec.
Import ListNotations.
Open Scope Z_scope.

Definition ods (d : dstream) (x : Z) : nat :=
  (op (ds_self d) x + op (ds_data d) x + op (ds_codec d) x)%nat.
Definition wf_ds (d : dstream) : Prop := isat (ds_self d) /\ okp (ds_data d) /\ okp (ds_codec d).
Definition ocs (c : cstream) (x : Z) : nat :=
  (op (cs_self c) x + op (cs_data c) x + op (cs_codec c) x)%nat.
Definition wf_cs (c : cstream) : Prop := isat (cs_self c) /\ okp (cs_data c) /\ okp (cs_codec c).
Definition owr (w : wrapper) (x : Z) : nat :=
  (op (wr_self w) x + op (wr_data w) x + ocs (wr_strm w) x)%nat.
Definition wf_wr (w : wrapper) : Prop :=
  isat (wr_self w) /\ okp (wr_data w) /\ wf_cs (wr_strm w).
Global Hint Unfold ods ocs owr : own.
Global Hint Unfold wf_ds wf_cs wf_wr : own_wf.
Ltac own_red ::=
  cbn [isnull negb andb orb fst snd
    ds_self ds_data ds_codec ds_zstd ds_null ds_junk set_ds_data
    cs_self cs_data cs_codec cs_zstd cs_null cs_junk set_cs_data end_codec
    wr_self wr_data wr_strm wr_null set_wr_strm].

Lemma wp_decompstrm_init old (Q : _ -> st -> Prop) s :
  (forall d s', wf_ds d -> chg s s' zer (ods d) -> Q (true, d) s') ->
  (forall d s', d = old \/ d = ds_null -> chg s s' zer zer -> Q (false, d) s') ->
  wp (decompstrm_init old) Q s.
Proof.
  intros H1 H2. unfold decompstrm_init. steps.
  all: try (apply H1; side). 
  all: try (apply H2; [now auto|side]).
Qed.

Lemma wp_read_round d (Q : _ -> st -> Prop) s :
  wf_ds d -> need s (ods d) ->
  (forall b d' s', wf_ds d' -> ds_zstd d' = ds_zstd d -> chg s s' (ods d) (ods d') ->
     Q (b, d') s') ->
  wp (read_round d) Q s.
Proof.
  intros (W1 & W2 & W3) N H. unfold read_round. destruct d as [a b c z]. cbn in *. steps.
  all: apply H; side.
Qed.

Lemma wp_read_rounds n d (Q : _ -> st -> Prop) s :
  wf_ds d -> need s (ods d) ->
  (forall b d' s', wf_ds d' -> ds_zstd d' = ds_zstd d -> chg s s' (ods d) (ods d') ->
     Q (b, d') s') ->
  wp (rounds n read_round d) Q s.
Proof.
  intros W N H.
  apply wp_rounds with
    (I := fun d' s' => wf_ds d' /\ ds_zstd d' = ds_zstd d /\ chg s s' (ods d) (ods d'))
    (J := fun d' s' => wf_ds d' /\ ds_zstd d' = ds_zstd d /\ chg s s' (ods d) (ods d')).
  - split; [exact W|]. split; [reflexivity|]. side.
  - intros d1 s1 (W1 & Z1 & K1). apply wp_read_round; [exact W1|side|].
    intros b d2 s2 W2 Z2 K2. cbn [fst snd].
    destruct b; (split; [exact W2|split; [congruence|side]]).
  - intros d1 s1 (W1 & Z1 & K1). auto.
  - intros d1 s1 (W1 & Z1 & K1). auto.
Qed.

Ltac sp1 :=
  lazymatch goal with
  | |- wp (rounds _ read_round _) _ _ =>
      apply wp_read_rounds; [try side|try side|intros [|] ? ? ? ? ?]
  end.
Ltac spec ::= sp1.

(** Ends of paths. *)
Ltac ends :=
  match goal with
  | H : forall _, _ |- _ => solve [apply H; first [discriminate|side]]
  end.

Lemma wp_read_chunk d (Q : _ -> st -> Prop) s :
  wf_ds d -> need s (ods d) ->
  (forall c d' s', c <> CFail -> wf_ds d' -> chg s s' (ods d) (ods d') -> Q (c, d') s') ->
  (forall d' s', wf_ds d' -> chgl s s' (ods d) (ods d') -> Q (CFail, d') s') ->
  wp (read_chunk d) Q s.
Proof.
  intros W N H1 H2. pose proof W as (W1 & W2 & W3). unfold read_chunk.
  steps; ends.
Qed.

Lemma wp_want_chunks n d (Q : _ -> st -> Prop) s :
  wf_ds d -> need s (ods d) ->
  (forall d' s', wf_ds d' -> chg s s' (ods d) (ods d') -> Q (true, d') s') ->
  (forall d' s', wf_ds d' -> chgl s s' (ods d) (ods d') -> Q (false, d') s') ->
  wp (rounds n want_chunk d) Q s.
Proof.
  intros W N H1 H2.
  apply wp_rounds with
    (I := fun d' s' => wf_ds d' /\ chg s s' (ods d) (ods d'))
    (J := fun d' s' => wf_ds d' /\ chgl s s' (ods d) (ods d')).
  - split; [exact W|]. side.
  - intros d1 s1 (W1 & K1). unfold want_chunk.
    apply wp_bind, wp_read_chunk; [exact W1|side| |].
    + intros c d2 s2 E W2 K2. destruct c; [| |congruence]; steps; (split; [exact W2|side]).
    + intros d2 s2 W2 K2. steps. split; [exact W2|side].
  - intros d1 s1 (W1 & K1). auto.
  - intros d1 s1 (W1 & K1). auto.
Qed.

Ltac sp2 :=
  lazymatch goal with
  | |- wp (rounds _ want_chunk _) _ _ =>
      apply wp_want_chunks; [try side|try side|intros ? ? ? ?|intros ? ? ? ?]
  | |- wp (read_chunk _) _ _ =>
      apply wp_read_chunk;
      [try side|try side|intros [| |] ? ? ? ? ?; try congruence|intros ? ? ? ?]
  end.
Ltac spec ::= sp2.

Lemma wp_decompstrm_read d (Q : _ -> st -> Prop) s :
  wf_ds d -> need s (ods d) ->
  (forall d' s', wf_ds d' -> chg s s' (ods d) (ods d') -> Q (true, d') s') ->
  (forall d' s', wf_ds d' -> chgl s s' (ods d) (ods d') -> Q (false, d') s') ->
  wp (decompstrm_read d) Q s.
Proof.
  intros W N H1 H2. pose proof W as (W1 & W2 & W3). unfold decompstrm_read. steps; ends.
Qed.

Lemma wp_decompstrm_read_until_eof d (Q : _ -> st -> Prop) s :
  wf_ds d -> need s (ods d) ->
  (forall d' n s', wf_ds d' -> chg s s' (ods d) (fun x => ods d' x + ind n x)%nat ->
     Q (true, d', At n) s') ->
  (forall d' s', wf_ds d' -> chgl s s' (ods d) (ods d') -> Q (false, d', Null) s') ->
  wp (decompstrm_read_until_eof d) Q s.
Proof.
  intros W N H1 H2. pose proof W as (W1 & W2 & W3). unfold decompstrm_read_until_eof.
  steps; ends.
Qed.

Lemma wp_decompstrm_destroy d (Q : _ -> st -> Prop) s :
  wf_ds d -> need s (ods d) ->
  (forall s', chg s s' (ods d) zer -> Q ds_null s') ->
  wp (decompstrm_destroy d) Q s.
Proof.
  intros W N H. pose proof W as (W1 & W2 & W3). unfold decompstrm_destroy.
  destruct d as [a b c z]. destruct a; try destruct W1. cbn in W2, W3. steps; ends.
Qed.

Lemma wp_decompstrm_destroy_null (Q : _ -> st -> Prop) s :
  Q ds_null s -> wp (decompstrm_destroy ds_null) Q s.
Proof. intros H. unfold decompstrm_destroy. steps. exact H. Qed.

Lemma wp_compstrm_init k old (Q : _ -> st -> Prop) s :
  (forall c s', wf_cs c -> chg s s' zer (ocs c) -> Q (true, c) s') ->
  (forall s', k = false -> chg s s' zer zer -> Q (false, old) s') ->
  (forall s', chgl s s' zer zer -> Q (false, cs_null) s') ->
  (forall c s', wf_cs c -> chg s s' zer (ocs c) -> Q (false, c) s') ->
  wp (compstrm_init k old) Q s.
Proof. intros H1 H2 H3 H4. unfold compstrm_init. destruct k; steps; ends. Qed.

Lemma wp_compstrm_destroy c (Q : _ -> st -> Prop) s :
  wf_cs c -> need s (ocs c) ->
  (forall s', chg s s' (fun x => op (cs_self c) x + op (cs_data c) x)%nat zer ->
     Q cs_null s') ->
  wp (compstrm_destroy c) Q s.
Proof.
  intros W N H. pose proof W as (W1 & W2 & W3). unfold compstrm_destroy.
  destruct c as [a b c z]. destruct a; try destruct W1. cbn in W2, W3. steps; ends.
Qed.

Lemma wp_compstrm_destroy_null (Q : _ -> st -> Prop) s :
  Q cs_null s -> wp (compstrm_destroy cs_null) Q s.
Proof. intros H. unfold compstrm_destroy. steps. exact H. Qed.

Lemma wp_write_round c (Q : _ -> st -> Prop) s :
  wf_cs c -> need s (ocs c) ->
  (forall b c' s', wf_cs c' -> cs_zstd c' = cs_zstd c -> cs_codec c' = cs_codec c ->
     chg s s' (ocs c) (ocs c') -> Q (b, c') s') ->
  wp (write_round c) Q s.
Proof.
  intros (W1 & W2 & W3) N H. unfold write_round. destruct c as [a b c z]. cbn in W1, W2, W3.
  steps; ends.
Qed.

Lemma wp_write_rounds n c (Q : _ -> st -> Prop) s :
  wf_cs c -> need s (ocs c) ->
  (forall b c' s', wf_cs c' -> cs_zstd c' = cs_zstd c -> cs_codec c' = cs_codec c ->
     chg s s' (ocs c) (ocs c') -> Q (b, c') s') ->
  wp (rounds n write_round c) Q s.
Proof.
  intros W N H.
  pose (I := fun c' s' => wf_cs c' /\ cs_zstd c' = cs_zstd c /\ cs_codec c' = cs_codec c /\
                          chg s s' (ocs c) (ocs c')).
  apply wp_rounds with (I := I) (J := I); unfold I; clear I.
  - split; [exact W|]. split; [reflexivity|]. split; [reflexivity|]. side.
  - intros c1 s1 (W1 & Z1 & D1 & K1). apply wp_write_round; [exact W1|side|].
    intros b c2 s2 W2 Z2 D2 K2. cbn [fst snd].
    destruct b; (split; [exact W2|split; [congruence|split; [congruence|side]]]).
  - intros c1 s1 (W1 & Z1 & D1 & K1). auto.
  - intros c1 s1 (W1 & Z1 & D1 & K1). auto.
Qed.

Ltac sp3 :=
  lazymatch goal with
  | |- wp (rounds _ write_round _) _ _ =>
      apply wp_write_rounds; [try side|try side|intros [|] ? ? ? ? ? ?]
  end.
Ltac spec ::= sp3.

Lemma wp_compstrm_write c (Q : _ -> st -> Prop) s :
  wf_cs c -> need s (ocs c) ->
  (forall c' s', wf_cs c' -> chg s s' (ocs c) (ocs c') -> Q (true, c') s') ->
  (forall c' s', wf_cs c' -> chgl s s' (ocs c) (ocs c') -> Q (false, c') s') ->
  wp (compstrm_write c) Q s.
Proof.
  intros W N H1 H2. pose proof W as (W1 & W2 & W3). unfold compstrm_write. steps; ends.
Qed.

Lemma wp_finish_codec c (Q : _ -> st -> Prop) s :
  wf_cs c -> need s (ocs c) ->
  (forall c' s', wf_cs c' -> cs_codec c' = Null -> chg s s' (ocs c) (ocs c') ->
     Q (true, c') s') ->
  (forall c' s', wf_cs c' -> chgl s s' (ocs c) (ocs c') -> Q (false, c') s') ->
  wp (finish_codec c) Q s.
Proof.
  intros W N H1 H2. pose proof W as (W1 & W2 & W3). unfold finish_codec.
  destruct c as [a b [| |n] z]; cbn in W1, W2, W3; try destruct W3; steps; try ends.
  all: match goal with c' : cstream |- _ => destruct c' as [x1 x2 x3 x4] end;
    match goal with W : wf_cs _, D : cs_codec _ = _ |- _ =>
      destruct W as (? & ? & ?); cbn in D; subst end;
    cbn [cs_self cs_data cs_codec] in *; ends.
Qed.

Ltac sp4 :=
  lazymatch goal with
  | |- wp (finish_codec _) _ _ =>
      apply wp_finish_codec; [try side|try side|intros ? ? ? ? ?|intros ? ? ? ?]
  end.
Ltac spec ::= sp4.

Lemma wp_compstrm_finish c old (Q : _ -> st -> Prop) s :
  wf_cs c -> need s (ocs c) ->
  (forall c' p s', wf_cs c' -> cs_codec c' = Null -> okp p ->
     chg s s' (ocs c) (fun x => ocs c' x + op p x)%nat -> Q (true, c', p) s') ->
  (forall c' p s', wf_cs c' -> p = old \/ p = Null -> chgl s s' (ocs c) (ocs c') ->
     Q (false, c', p) s') ->
  wp (compstrm_finish c old) Q s.
Proof.
  intros W N H1 H2. pose proof W as (W1 & W2 & W3). unfold compstrm_finish. steps; ends.
Qed.

(** The wrapper. *)
Ltac sp5 :=
  lazymatch goal with
  | |- wp (compstrm_init _ _) _ _ =>
      apply wp_compstrm_init; [intros ? ? ? ?|intros ? ? ?; try discriminate|intros ? ?|intros ? ? ? ?]
  | |- wp (compstrm_destroy _) _ _ =>
      apply wp_compstrm_destroy; [try side|try side|intros ? ?]
  | |- wp (compstrm_write _) _ _ =>
      apply wp_compstrm_write; [try side|try side|intros ? ? ? ?|intros ? ? ? ?]
  | |- wp (compstrm_finish _ _) _ _ =>
      apply wp_compstrm_finish;
      [try side|try side|intros ? ? ? ? ? ? ?|intros ? ? ? ? ? ?]
  end.
Ltac spec ::= sp5.

Lemma wp_wrapper_init (Q : _ -> st -> Prop) s :
  (forall w s', wf_wr w -> chg s s' zer (owr w) -> Q (true, w) s') ->
  (forall s', chgl s s' zer zer -> Q (false, wr_null) s') ->
  wp wrapper_init Q s.
Proof. intros H1 H2. unfold wrapper_init. steps; try ends. Qed.

Lemma wp_wrapper_destroy w (Q : _ -> st -> Prop) s :
  wf_wr w -> need s (owr w) ->
  (forall s', chg s s' (fun x => op (wr_self w) x + op (wr_data w) x +
                op (cs_self (wr_strm w)) x + op (cs_data (wr_strm w)) x)%nat zer -> Q tt s') ->
  wp (wrapper_destroy w) Q s.
Proof.
  intros W N H. pose proof W as (W1 & W2 & W3). unfold wrapper_destroy.
  destruct w as [a b c]. destruct a; try destruct W1. cbn in W2, W3. steps; ends.
Qed.

Lemma wp_wrapper_destroy_null (Q : _ -> st -> Prop) s :
  Q tt s -> wp (wrapper_destroy wr_null) Q s.
Proof. intros H. unfold wrapper_destroy. steps. exact H. Qed.

Lemma wp_wrapper_write w (Q : _ -> st -> Prop) s :
  wf_wr w -> need s (owr w) ->
  (forall w' s', wf_wr w' -> chg s s' (owr w) (owr w') -> Q (true, w') s') ->
  (forall w' s', wf_wr w' -> chgl s s' (owr w) (owr w') -> Q (false, w') s') ->
  wp (wrapper_write w) Q s.
Proof.
  intros W N H1 H2. pose proof W as (W1 & W2 & W3). unfold wrapper_write.
  destruct w as [a b c]. cbn in W1, W2, W3. steps; ends.
Qed.

(** Only when memory is not short. *)
Lemma wp_wrapper_finish w old (Q : _ -> st -> Prop) s :
  envs s = calm -> wf_wr w -> need s (owr w) ->
  (forall w' n s', wf_wr w' -> cs_codec (wr_strm w') = Null ->
     chg s s' (owr w) (fun x => owr w' x + ind n x)%nat -> Q (true, w', At n) s') ->
  (forall w' p s', wf_wr w' -> p = old \/ p = Null -> chgl s s' (owr w) (owr w') ->
     Q (false, w', p) s') ->
  wp (wrapper_finish w old) Q s.
Proof.
  intros Z W N H1 H2. pose proof W as (W1 & W2 & W3). unfold wrapper_finish.
  destruct w as [a b c]. cbn in W1, W2, W3. steps; ends.
Qed.
