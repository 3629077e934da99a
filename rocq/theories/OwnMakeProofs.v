(** What making a delta owns. *)
Require Import ZArith List Bool Lia.
Require Import Verif.Own Verif.OwnTools Verif.OwnCodec Verif.OwnCodecProofs Verif.OwnRpm.
Require Import Verif.OwnRpmProofs Verif.OwnRead Verif.OwnReadProofs Verif.OwnCheck.
Require Import Verif.OwnCheckProofs Verif.OwnMake.
Import ListNotations.
Open Scope Z_scope.

(** Here it is enough if memory is there. *)
Ltac contra ::=
  match goal with
  | Z : envs ?s0 = calm, H : _ (envs ?s) = true |- _ =>
      solve [ exfalso; chg_split;
              let E := fresh in
              assert (E : envs s = calm) by congruence; rewrite E in H; discriminate H ]
  | Z : e_oom (envs ?s0) = false, H : e_oom (envs ?s) = true |- _ =>
      solve [ exfalso; chg_split; congruence ]
  end.
Lemma calm_oom e : e = calm -> e_oom e = false.
Proof. now intros ->. Qed.

Lemma wp_look p (Q : _ -> st -> Prop) s :
  okp p -> need s (op p) -> Q tt s -> wp (look p) Q s.
Proof.
  intros W N H. unfold look. destruct p; [steps; exact H|destruct W|].
  own_red. apply wp_use; [exact I|exact N|exact H].
Qed.

Ltac mk1 :=
  first
  [ lazymatch goal with
    | |- wp (look _) _ _ => apply wp_look; [try side|try side|]
    end
  | sp17 ].
Ltac spec ::= mk1.

Lemma wp_grow p (Q : _ -> st -> Prop) s :
  okp p -> need s (op p) ->
  (forall p' s', okp p' -> chg s s' (op p) (op p') -> Q (true, p') s') ->
  (forall p' s', okp p' -> chg s s' (op p) (op p') -> Q (false, p') s') ->
  wp (grow p) Q s.
Proof. intros W N H1 H2. unfold grow. destruct p; [|destruct W|]; steps; ends. Qed.

Ltac mk2 :=
  first
  [ lazymatch goal with
    | |- wp (grow _) _ _ => apply wp_grow; [try side|try side|intros ? ? ? ?|intros ? ? ? ?]
    end
  | mk1 ].
Ltac spec ::= mk2.

Lemma wp_cpio_extend p (Q : _ -> st -> Prop) s :
  okp p -> need s (op p) ->
  (forall p' s', okp p' -> chg s s' (op p) (op p') -> Q (true, p') s') ->
  (forall p' s', okp p' -> chg s s' (op p) (op p') -> Q (false, p') s') ->
  wp (cpio_extend p) Q s.
Proof. intros W N H1 H2. unfold cpio_extend. steps; ends. Qed.

(** Without memory the old block is lost. *)
Lemma wp_seq_append p (Q : _ -> st -> Prop) s :
  okp p -> need s (op p) ->
  (forall p' s', okp p' -> chg s s' (op p) (op p') -> Q (true, p') s') ->
  (forall s', chgl s s' (op p) zer -> Q (false, Null) s') ->
  wp (seq_append p) Q s.
Proof. intros W N H1 H2. unfold seq_append. destruct p; [|destruct W|]; steps; ends. Qed.

Lemma wp_grows n p (Q : _ -> st -> Prop) s :
  okp p -> need s (op p) ->
  (forall p' s', okp p' -> chg s s' (op p) (op p') -> Q (true, p') s') ->
  (forall p' s', okp p' -> chg s s' (op p) (op p') -> Q (false, p') s') ->
  wp (rounds n grow p) Q s.
Proof.
  intros W N H1 H2. pose (I := fun p' s' => okp p' /\ chg s s' (op p) (op p')).
  apply wp_rounds with (I := I) (J := I); unfold I; clear I.
  - split; [exact W|side].
  - intros a s1 (W1 & K1). apply wp_grow; [exact W1|side| |]; intros; (split; [assumption|side]).
  - intros a s1 (W1 & K1). auto.
  - intros a s1 (W1 & K1). auto.
Qed.
Lemma wp_extends n p (Q : _ -> st -> Prop) s :
  okp p -> need s (op p) ->
  (forall p' s', okp p' -> chg s s' (op p) (op p') -> Q (true, p') s') ->
  (forall p' s', okp p' -> chg s s' (op p) (op p') -> Q (false, p') s') ->
  wp (rounds n cpio_extend p) Q s.
Proof.
  intros W N H1 H2. pose (I := fun p' s' => okp p' /\ chg s s' (op p) (op p')).
  apply wp_rounds with (I := I) (J := I); unfold I; clear I.
  - split; [exact W|side].
  - intros a s1 (W1 & K1). apply wp_cpio_extend; [exact W1|side| |]; intros; (split; [assumption|side]).
  - intros a s1 (W1 & K1). auto.
  - intros a s1 (W1 & K1). auto.
Qed.
Lemma wp_appends n p (Q : _ -> st -> Prop) s :
  okp p -> need s (op p) ->
  (forall p' s', okp p' -> chg s s' (op p) (op p') -> Q (true, p') s') ->
  (forall s', chgl s s' (op p) zer -> Q (false, Null) s') ->
  wp (rounds n seq_append p) Q s.
Proof.
  intros W N H1 H2.
  apply wp_rounds with
    (I := fun p' s' => okp p' /\ chg s s' (op p) (op p'))
    (J := fun p' s' => p' = Null /\ chgl s s' (op p) zer).
  - split; [exact W|side].
  - intros a s1 (W1 & K1). apply wp_seq_append; [exact W1|side| |]; intros;
      (split; [first [assumption|reflexivity]|side]).
  - intros a s1 (W1 & K1). auto.
  - intros a s1 (-> & K1). auto.
Qed.

Ltac mk3 :=
  first
  [ lazymatch goal with
    | |- wp (rounds _ grow _) _ _ =>
        apply wp_grows; [try side|try side|intros ? ? ? ?|intros ? ? ? ?]
    | |- wp (rounds _ cpio_extend _) _ _ =>
        apply wp_extends; [try side|try side|intros ? ? ? ?|intros ? ? ? ?]
    | |- wp (rounds _ seq_append _) _ _ =>
        apply wp_appends; [try side|try side|intros ? ? ? ?|intros ? ?]
    | |- wp (seq_append _) _ _ =>
        apply wp_seq_append; [try side|try side|intros ? ? ? ?|intros ? ?]
    end
  | mk2 ].
Ltac spec ::= mk3.

Definition opa (p : parse) (x : Z) : nat :=
  (op (p_name p) x + op (p_cpio p) x + op (p_seq p) x + op (p_adj p) x)%nat.
Definition wf_pa (v3 : bool) (p : parse) : Prop :=
  okp (p_name p) /\ okp (p_cpio p) /\ okp (p_seq p) /\
  if v3 then okp (p_adj p) else p_adj p = Null.
Global Hint Unfold opa : own.
Global Hint Unfold wf_pa : own_wf.

Lemma wp_cpio_round v3 r fi p (Q : _ -> st -> Prop) s :
  hd_rpm r -> wf_fi fi -> wf_pa v3 p -> need s (fun x => orpm r x + ofi fi x + opa p x)%nat ->
  (forall p' s', wf_pa v3 p' -> chg s s' (opa p) (opa p') -> Q (true, p') s') ->
  (forall p' s', wf_pa v3 p' -> chgl s s' (opa p) (opa p') -> Q (false, p') s') ->
  wp (cpio_round v3 r fi p) Q s.
Proof.
  intros W F V N H1 H2. unfold cpio_round. destruct p as [a b c d].
  pose proof F as (F1 & F2). pose proof W as (W1 & W2 & W3 & W4).
  destruct V as (V1 & V2 & V3 & V4). cbn in V1, V2, V3, V4.
  destruct v3; [|subst d]; steps; ends.
Qed.

Lemma wp_cpio_rounds n v3 r fi p (Q : _ -> st -> Prop) s :
  hd_rpm r -> wf_fi fi -> wf_pa v3 p -> need s (fun x => orpm r x + ofi fi x + opa p x)%nat ->
  (forall p' s', wf_pa v3 p' -> chg s s' (opa p) (opa p') -> Q (true, p') s') ->
  (forall p' s', wf_pa v3 p' -> chgl s s' (opa p) (opa p') -> Q (false, p') s') ->
  wp (rounds n (cpio_round v3 r fi) p) Q s.
Proof.
  intros W F V N H1 H2.
  apply wp_rounds with
    (I := fun p' s' => wf_pa v3 p' /\ chg s s' (opa p) (opa p'))
    (J := fun p' s' => wf_pa v3 p' /\ chgl s s' (opa p) (opa p')).
  - split; [exact V|side].
  - intros a s1 (V1 & K1).
    apply wp_cpio_round; [exact W|exact F|exact V1|side| |]; intros; (split; [assumption|side]).
  - intros a s1 (V1 & K1). auto.
  - intros a s1 (V1 & K1). auto.
Qed.

Lemma wp_cpio_end v3 p (Q : _ -> st -> Prop) s :
  wf_pa v3 p -> need s (opa p) ->
  (forall p' n s', wf_pa v3 p' -> chg s s' (opa p) (fun x => opa p' x + ind n x)%nat ->
     Q (true, p', p_seq p', At n) s') ->
  (forall p' f s', wf_pa v3 p' -> f = Null \/ f = p_seq p' -> chgl s s' (opa p) (opa p') ->
     Q (false, p', f, Null) s') ->
  wp (cpio_end p) Q s.
Proof.
  intros V N H1 H2. unfold cpio_end. destruct p as [a b c d].
  destruct V as (V1 & V2 & V3 & V4). cbn in V1, V2, V3, V4.
  steps.
  all: try (apply H2; [side|first [now left|now right]|side]).
  all: match goal with
       | |- _ (true, mkpa ?a ?b ?c ?d, _, At ?n) _ =>
           apply (H1 (mkpa a b c d) n); side
       end.
Qed.

Ltac mk4 :=
  first
  [ lazymatch goal with
    | |- wp (rounds _ (cpio_round _ _ _) _) _ _ =>
        apply wp_cpio_rounds;
          [try side|try side|try side|try side|intros ? ? ? ?|intros ? ? ? ?]
    | |- wp (cpio_end _) _ _ =>
        eapply wp_cpio_end;
          [eassumption|try side|intros ? ? ? ? ?|intros ? ? ? ? [->| ->] ?]
    end
  | mk3 ].
Ltac spec ::= mk4.

Lemma wf_pa_null v3 : wf_pa v3 (mkpa Null Null Null Null).
Proof. destruct v3; repeat split. Qed.
Global Hint Resolve wf_pa_null : core.

Lemma wf_pa_adj v3 p : wf_pa v3 p -> okp (p_adj p).
Proof. intros (_ & _ & _ & H). destruct v3; [exact H|now rewrite H]. Qed.
Lemma wf_pa_cpio v3 p : wf_pa v3 p -> okp (p_cpio p).
Proof. intros (_ & H & _). exact H. Qed.

Lemma wp_parse_cpio v3 r (Q : _ -> st -> Prop) s :
  hd_rpm r -> need s (orpm r) ->
  (forall c n a s', okp c -> okp a ->
     chg s s' zer (fun x => op c x + ind n x + op a x)%nat -> Q (true, c, At n, a) s') ->
  (forall s', chgl s s' zer zer -> Q (false, Null, Null, Null) s') ->
  wp (parse_cpio v3 r) Q s.
Proof.
  intros W N H1 H2. unfold parse_cpio. steps.
  all: first
    [ ends
    | apply H1; [eapply wf_pa_cpio; eassumption|eapply wf_pa_adj; eassumption|side] ].
Qed.

Lemma wp_hash_create (Q : _ -> st -> Prop) s :
  e_oom (envs s) = false ->
  (forall h t s', chg s s' zer (fun x => ind h x + ind t x)%nat -> Q (true, At h, At t) s') ->
  wp hash_create Q s.
Proof. intros Z H. unfold hash_create. steps; ends. Qed.

Ltac mk5 :=
  first
  [ lazymatch goal with
    | |- wp (compstrm_init _ _) _ _ =>
        apply wp_compstrm_init;
          [intros ? ? ? ?|intros ? ? ?; try discriminate|intros ? ?|intros ? ? ? ?]
    | |- wp (compstrm_destroy cs_null) _ _ => apply wp_compstrm_destroy_null
    | |- wp (compstrm_destroy _) _ _ =>
        apply wp_compstrm_destroy; [try side|try side|intros ? ?]
    | |- wp (compstrm_write _) _ _ =>
        apply wp_compstrm_write; [try side|try side|intros ? ? ? ?|intros ? ? ? ?]
    | |- wp (compstrm_finish _ _) _ _ =>
        apply wp_compstrm_finish;
        [try side|try side|intros ? ? ? ? ? ? ?|intros ? ? ? ? [->| ->] ?]
    | |- wp hash_create _ _ => apply wp_hash_create; [try envs_tac|intros ? ? ? ?]
    end
  | mk4 ].
Ltac spec ::= mk5.

Lemma wp_compstrm_writes n c (Q : _ -> st -> Prop) s :
  wf_cs c -> need s (ocs c) ->
  (forall c' s', wf_cs c' -> chg s s' (ocs c) (ocs c') -> Q (true, c') s') ->
  (forall c' s', wf_cs c' -> chgl s s' (ocs c) (ocs c') -> Q (false, c') s') ->
  wp (rounds n compstrm_write c) Q s.
Proof.
  intros W N H1 H2.
  apply wp_rounds with
    (I := fun c' s' => wf_cs c' /\ chg s s' (ocs c) (ocs c'))
    (J := fun c' s' => wf_cs c' /\ chgl s s' (ocs c) (ocs c')).
  - split; [exact W|side].
  - intros a s1 (W1 & K1). steps; (split; [assumption|side]).
  - intros a s1 (W1 & K1). auto.
  - intros a s1 (W1 & K1). auto.
Qed.

Ltac mk6 :=
  first
  [ lazymatch goal with
    | |- wp (rounds _ compstrm_write _) _ _ =>
        apply wp_compstrm_writes; [try side|try side|intros ? ? ? ?|intros ? ? ? ?]
    end
  | mk5 ].
Ltac spec ::= mk6.

Lemma wp_diff_rounds n (add : bool) o w h t (a : cstream * ptr) (Q : _ -> st -> Prop) s :
  isat o -> isat w -> isat h -> isat t -> (if add then wf_cs (fst a) else True) -> okp (snd a) ->
  need s (fun x => op o x + op w x + op h x + op t x + (if add then ocs (fst a) x else 0) +
                   op (snd a) x)%nat ->
  (forall c q s', (if add then wf_cs c else True) -> okp q ->
     chg s s' (fun x => (if add then ocs (fst a) x else 0) + op (snd a) x)%nat
              (fun x => (if add then ocs c x else 0) + op q x)%nat -> Q (true, (c, q)) s') ->
  (forall c q s', (if add then wf_cs c else True) -> okp q ->
     chgl s s' (fun x => (if add then ocs (fst a) x else 0) + op (snd a) x)%nat
              (fun x => (if add then ocs c x else 0) + op q x)%nat -> Q (false, (c, q)) s') ->
  wp (rounds n (diff_round add o w h t) a) Q s.
Proof.
  intros W1 W2 W3 W4 V1 V2 N H1 H2.
  apply wp_rounds with
    (I := fun b s' => (if add then wf_cs (fst b) else True) /\ okp (snd b) /\
       chg s s' (fun x => (if add then ocs (fst a) x else 0) + op (snd a) x)%nat
              (fun x => (if add then ocs (fst b) x else 0) + op (snd b) x)%nat)
    (J := fun b s' => (if add then wf_cs (fst b) else True) /\ okp (snd b) /\
       chgl s s' (fun x => (if add then ocs (fst a) x else 0) + op (snd a) x)%nat
              (fun x => (if add then ocs (fst b) x else 0) + op (snd b) x)%nat).
  - split; [exact V1|]. split; [exact V2|]. side.
  - intros [c q] s1 (U1 & U2 & K1). cbn [fst snd] in U1, U2, K1. unfold diff_round.
    destruct add; steps; (split; [side|split; side]).
  - intros [c q] s1 (U1 & U2 & K1). auto.
  - intros [c q] s1 (U1 & U2 & K1). auto.
Qed.

Lemma wp_copies_rounds n a (Q : _ -> st -> Prop) s :
  okp (fst a) -> okp (snd a) -> need s (fun x => op (fst a) x + op (snd a) x)%nat ->
  (forall b e i s', okp e -> okp i ->
     chg s s' (fun x => op (fst a) x + op (snd a) x)%nat (fun x => op e x + op i x)%nat ->
     Q (b, (e, i)) s') ->
  wp (rounds n copies_round a) Q s.
Proof.
  intros V1 V2 N H.
  pose (I := fun (b : ptr * ptr) s' => okp (fst b) /\ okp (snd b) /\
     chg s s' (fun x => op (fst a) x + op (snd a) x)%nat
              (fun x => op (fst b) x + op (snd b) x)%nat).
  apply wp_rounds with (I := I) (J := I); unfold I; clear I.
  - split; [exact V1|]. split; [exact V2|]. side.
  - intros [e i] s1 (U1 & U2 & K1). cbn [fst snd] in U1, U2, K1. unfold copies_round.
    steps; (split; [side|split; side]).
  - intros [e i] s1 (U1 & U2 & K1). auto.
  - intros [e i] s1 (U1 & U2 & K1). auto.
Qed.

Ltac mk7 :=
  first
  [ lazymatch goal with
    | |- wp (rounds _ copies_round _) _ _ =>
        apply wp_copies_rounds; [try side|try side|try side|intros [|] ? ? ? ? ? ?]
    | |- wp (rounds _ (diff_round _ _ _ _ _) _) _ _ =>
        apply wp_diff_rounds;
          [try side|try side|try side|try side|try side|try side|try side
          |intros ? ? ? ? ? ?|intros ? ? ? ? ? ?]
    end
  | mk6 ].
Ltac spec ::= mk7.

Lemma wp_create_diff_copies q (Q : _ -> st -> Prop) s :
  okp q -> need s (op q) ->
  (forall e i s', okp e -> okp i -> chg s s' zer (fun x => op e x + op i x)%nat ->
     Q (true, e, i) s') ->
  (forall s', chg s s' zer zer -> Q (false, Null, Null) s') ->
  wp (create_diff_copies q) Q s.
Proof. intros W N H1 H2. unfold create_diff_copies. steps; ends. Qed.

Ltac mk8 :=
  first
  [ lazymatch goal with
    | |- wp (create_diff_copies _) _ _ =>
        apply wp_create_diff_copies; [try side|try side|intros ? ? ? ? ? ?|intros ? ?]
    end
  | mk7 ].
Ltac spec ::= mk8.

(** A stream that was finished. *)
Ltac nocodec :=
  try match goal with
  | c : cstream, W : wf_cs ?c, D : cs_codec ?c = Null |- _ =>
      destruct c as [? ? ? ?]; cbn in D; subst;
      destruct W as (? & ? & ?); cbn [cs_self cs_data cs_codec] in *
  end.

Lemma wp_make_diff add o w k r m a b p j l (Q : _ -> st -> Prop) s :
  e_oom (envs s) = false -> okp o -> okp w -> need s (fun x => op o x + op w x)%nat ->
  (forall e i c t s', okp e -> okp i -> okp c -> okp t ->
     chg s s' zer (fun x => op e x + op i x + op c x + op t x)%nat ->
     Q (true, mkdlt k r m a b p j l i e c t) s') ->
  (forall e i c t s', okp e -> okp i -> okp c -> okp t ->
     chgl s s' zer (fun x => op e x + op i x + op c x + op t x)%nat ->
     Q (false, mkdlt k r m a b p j l i e c t) s') ->
  wp (make_diff add o w (mkdlt k r m a b p j l Null Null Null Null)) Q s.
Proof.
  intros Z W1 W2 N H1 H2. unfold make_diff, diff_results, hash_free.
  destruct o as [| |o]; try destruct W1; [steps; apply H2; side|].
  destruct w as [| |w]; try destruct W2; [steps; apply H2; side|].
  destruct add; steps.
  all: nocodec.
  all: try (apply H1; side).
  all: try (apply H2; side).
Qed.

(** Writing. *)
Lemma wp_write_parts n d w c (Q : _ -> st -> Prop) s :
  full_dl d -> okp w -> wf_cs c -> need s (fun x => odl d x + op w x + ocs c x)%nat ->
  (forall c' s', wf_cs c' -> chg s s' (ocs c) (ocs c') -> Q (true, c') s') ->
  (forall c' s', wf_cs c' -> chgl s s' (ocs c) (ocs c') -> Q (false, c') s') ->
  wp (rounds n (write_part d w) c) Q s.
Proof.
  intros F V W N H1 H2.
  apply wp_rounds with
    (I := fun c' s' => wf_cs c' /\ chg s s' (ocs c) (ocs c'))
    (J := fun c' s' => wf_cs c' /\ chgl s s' (ocs c) (ocs c')).
  - split; [exact W|side].
  - intros a s1 (W1 & K1). unfold write_part.
    destruct F as (F1 & F2 & F3 & F4 & F5 & F6 & F7 & F8 & F9 & F10).
    steps; (split; [assumption|side]).
  - intros a s1 (W1 & K1). auto.
  - intros a s1 (W1 & K1). auto.
Qed.

Ltac mk9 :=
  first
  [ lazymatch goal with
    | |- wp (rounds _ (write_part _ _) _) _ _ =>
        apply wp_write_parts;
          [try side|try side|try side|try side|intros ? ? ? ?|intros ? ? ? ?]
    | |- wp (rpm_fetch_header _) _ _ =>
        apply wp_rpm_fetch_header; [try side|try side|intros ? ? ?|intros ? ? ?; try contra]
    | |- wp (rpm_signature_empty _) _ _ =>
        apply wp_rpm_signature_empty; [try side|try side|intros ? ? ? ?]
    | |- wp (rpm_signature_set _) _ _ =>
        apply wp_rpm_signature_set; [try side|try side|intros ? ?]
    | |- wp (rpm_signature_reload _) _ _ =>
        apply wp_rpm_signature_reload;
          [try side|try side|intros ? ? ? ?|intros ? ? ? ?; try contra]
    | |- wp (rpm_write _) _ _ =>
        apply wp_rpm_write; [try side|try side|intros [|] ? ?]
    end
  | mk8 ].
Ltac spec ::= mk9.

Lemma wp_write_deltarpm w d (Q : _ -> st -> Prop) s :
  e_oom (envs s) = false -> full_dl d -> okp w -> need s (fun x => odl d x + op w x)%nat ->
  (forall d' s', full_dl d' -> d_only d' = d_only d -> chg s s' (odl d) (odl d') ->
     Q (true, d') s') ->
  (forall d' s', full_dl d' -> d_only d' = d_only d -> chgl s s' (odl d) (odl d') ->
     Q (false, d') s') ->
  wp (write_deltarpm w d) Q s.
Proof.
  intros Z F V N H1 H2. unfold write_deltarpm, write_standard.
  pose proof F as (F1 & F2 & F3 & F4 & F5 & F6 & F7 & F8 & F9 & F10).
  destruct d as [k r m a b p j l i e c t].
  cbn in F1, F2, F3, F4, F5, F6, F7, F8, F9, F10. destruct k.
  - steps; nocodec.
    all: try (apply H1; [side|reflexivity|side]).
    all: try (apply H2; [side|reflexivity|side]).
  - steps; nocodec.
    all: try (apply H1; [side|reflexivity|side]).
    all: try (apply H2; [side|reflexivity|side]).
Qed.

Lemma wp_write_seqfile d (Q : _ -> st -> Prop) s :
  full_dl d -> need s (odl d) -> (forall b s', chg s s' zer zer -> Q b s') ->
  wp (write_seqfile d) Q s.
Proof.
  intros (F1 & F2 & F3 & F4 & F5 & F6 & F7 & F8 & F9 & F10) N H. unfold write_seqfile.
  steps; ends.
Qed.

Lemma wp_patch_full r (Q : _ -> st -> Prop) s :
  e_oom (envs s) = false -> full_rpm r -> need s (orpm r) ->
  (forall b r' s', full_rpm r' -> chg s s' (orpm r) (orpm r') -> Q (b, r') s') ->
  wp (rpm_patch_payload_format r) Q s.
Proof.
  intros Z W N H. apply wp_rpm_patch_payload_format; [side|side| | |].
  - intros r' s' (A & B & D & E) S K. apply H; [|exact K].
    destruct W as (_ & W & _). rewrite <- S in W. repeat split; assumption.
  - intros r' s' O. congruence.
  - intros r' s' (A & B & D & E) S K. apply H; [|exact K].
    destruct W as (_ & W & _). rewrite <- S in W. repeat split; assumption.
Qed.

Ltac mk10 :=
  first
  [ lazymatch goal with
    | |- wp (rpm_patch_payload_format _) _ _ =>
        apply wp_patch_full; [try envs_tac|try side|try side|intros [|] ? ? ? ?]
    | |- wp (rpm_find_payload_format_offset _) _ _ =>
        apply wp_rpm_find_payload_format_offset; [try side|try side|intros [|] ? ?]
    | |- wp (rpm_look _) _ _ =>
        apply wp_rpm_look; [try side|try side|intros [|] ? ?]
    | |- wp (rpm_fetch_lead_and_signature _) _ _ =>
        apply wp_rpm_fetch_lead_and_signature;
          [try side|try side|intros ? ? ?|intros ? ? ?; try contra]
    | |- wp (rpm_fetch_archive _) _ _ =>
        apply wp_rpm_fetch_archive;
          [try side|try side|intros ? ? ?|intros ? ? ?; try contra]
    | |- wp (parse_cpio _ _) _ _ =>
        apply wp_parse_cpio; [try side|try side|intros ? ? ? ? ? ? ?|intros ? ?]
    | |- wp (make_diff _ _ _ _) _ _ =>
        apply wp_make_diff;
          [try envs_tac|try side|try side|try side
          |intros ? ? ? ? ? ? ? ? ? ?|intros ? ? ? ? ? ? ? ? ? ?]
    | |- wp (write_seqfile _) _ _ =>
        apply wp_write_seqfile; [try side|try side|intros [|] ? ?]
    | |- wp (write_deltarpm _ _) _ _ =>
        apply wp_write_deltarpm;
          [try envs_tac|try side|try side|try side|intros ? ? ? ? ?|intros ? ? ? ? ?]
    end
  | mk9 ].
Ltac spec ::= mk10.

Lemma wp_fill_nodiff (Q : _ -> st -> Prop) s :
  envs s = calm ->
  (forall d s', full_dl d -> d_only d = true -> chg s s' zer (odl d) -> Q (true, d) s') ->
  (forall d s', wf_dl d -> d_only d = true -> chgl s s' zer (odl d) -> Q (false, d) s') ->
  wp (fill_nodiff (set_d_only d_zero true)) Q s.
Proof.
  intros Z H1 H2. unfold fill_nodiff. steps.
  all: try (apply H1; [side|reflexivity|side]).
  all: try (apply H2; [side|reflexivity|side]).
Qed.

Definition of4 (f : four) (x : Z) : nat :=
  (op (fst (fst (fst f))) x + op (snd (fst (fst f))) x + op (snd (fst f)) x + op (snd f) x)%nat.
Definition wf_f4 (f : four) : Prop :=
  okp (fst (fst (fst f))) /\ okp (snd (fst (fst f))) /\ okp (snd (fst f)) /\ okp (snd f).
Global Hint Unfold of4 : own.
Global Hint Unfold wf_f4 : own_wf.

Lemma wp_make_body (alone only v3 add : bool) (Q : _ -> st -> Prop) s :
  e_oom (envs s) = false -> alone && only = false ->
  (forall d o n f s', full_dl d -> d_only d = only -> can_rpm o ->
     (if only then can_rpm n else n = rpm_null) -> wf_f4 f ->
     chg s s' zer (fun x => odl d x + orpm o x + orpm n x + of4 f x)%nat ->
     Q (true, d, o, n, f) s') ->
  (forall d o n f s', wf_dl d -> d_only d = only -> can_rpm o ->
     (if only then can_rpm n else True) -> wf_f4 f ->
     chgl s s' zer (fun x => odl d x + orpm o x + orpm n x + of4 f x)%nat ->
     Q (false, d, o, n, f) s') ->
  wp (make_body alone only v3 add (set_d_only d_zero only)) Q s.
Proof.
  intros Z E H1 H2.
  unfold make_body, make_packages, make_names, make_standard, make_only, make_format, source,
    target.
  destruct alone, only; try discriminate E; clear E.
  all: steps.
  all: try (apply H1; [side|reflexivity|side|side|side|side]).
  all: try (apply H2; [side|reflexivity|side|side|side|side]).
Qed.

Ltac mk11 :=
  first
  [ lazymatch goal with
    | |- wp (fill_nodiff _) _ _ =>
        apply wp_fill_nodiff; [try envs_tac|intros ? ? ? ? ?|intros ? ? ? ? ?]
    | |- wp (make_body _ _ _ _ _) _ _ =>
        apply wp_make_body;
          [try envs_tac|try reflexivity
          |intros ? ? ? [[[? ?] ?] ?] ? ? ? ? ? (? & ? & ? & ?) ?
          |intros ? ? ? [[[? ?] ?] ?] ? ? ? ? ? (? & ? & ? & ?) ?]
    end
  | mk10 ].
Ltac spec ::= mk11.

(** If memory is there, nothing bad happens, and after success nothing is left. *)
Lemma wp_drpm_make alone only v3 add seqfile (Q : _ -> st -> Prop) s :
  e_oom (envs s) = false -> (alone && only = true -> envs s = calm) ->
  (forall s', chg s s' zer zer -> Q true s') ->
  (forall s', chgl s s' zer zer -> Q false s') ->
  wp (drpm_make alone only v3 add seqfile) Q s.
Proof.
  intros Z Y H1 H2. unfold drpm_make. destruct alone, only.
  - specialize (Y eq_refl). destruct v3, seqfile; steps.
    all: subst; first [apply H1; side|apply H2; side].
  - destruct v3, seqfile; steps.
    all: subst; first [apply H1; side|apply H2; side].
  - destruct v3, seqfile; steps.
    all: subst; first [apply H1; side|apply H2; side].
  - destruct v3, seqfile; steps.
    all: subst; first [apply H1; side|apply H2; side].
Qed.
