(** Programs that use the reading and the options part of the API. *)
Require Import ZArith List Bool Arith Lia.
Require Import Verif.Own Verif.OwnTools Verif.OwnCodec Verif.OwnCodecProofs Verif.OwnRpm.
Require Import Verif.OwnRpmProofs Verif.OwnRead Verif.OwnReadProofs Verif.OwnClient.
Import ListNotations.
Open Scope Z_scope.

Definition wf0_h (h : drpm) : Prop := h = drpm_null \/ wf_h h.
Definition wf0_o (o : opts) : Prop := o = opts_null \/ wf_o o.

Lemma wp_drpm_get_block h t (Q : _ -> st -> Prop) s :
  wf0_h h -> need s (oh h) ->
  (forall b p s', okp p -> chg s s' zer (op p) -> Q (b, p) s') ->
  wp (drpm_get_block h (member t)) Q s.
Proof.
  intros [->|W] N H; unfold drpm_get_block.
  - steps; ends.
  - pose proof W as (W0 & W1 & W2 & W3 & W4 & W5 & W6 & W7 & W8 & W9).
    destruct h as [a b c d e f' g h i j]. cbn in *.
    destruct a; try destruct W0. own_red. apply wp_bind. step. step. 2: { steps; ends. }
    assert (E : exists p, member t (mkdrpm (At n) b c d e f' g h i j) = p /\ okp p /\ need s (op p)).
    { destruct t; cbn;
        (eexists; split; [reflexivity|split; [first [assumption|exact I]|side]]). }
    destruct E as (p & E & Ep & En). rewrite E. destruct p; [|destruct Ep|]; steps; ends.
Qed.

Lemma wp_options_defaults o (Q : _ -> st -> Prop) s :
  wf_o o -> need s (oo o) ->
  (forall o' s', wf_o o' -> chg s s' (oo o) (oo o') -> Q o' s') ->
  wp (options_defaults o) Q s.
Proof. intros (W0 & W1 & W2 & W3) N H. unfold options_defaults. steps; ends. Qed.

Lemma wp_options_init (Q : _ -> st -> Prop) s :
  (forall b o s', wf0_o o -> chg s s' zer (oo o) -> Q (b, o) s') -> wp options_init Q s.
Proof.
  intros H. unfold options_init. steps.
  - apply wp_options_defaults; [side|side|]. intros. steps. apply H; [now right|side].
  - apply H; [now left|side].
Qed.

Lemma wp_options_destroy o (Q : _ -> st -> Prop) s :
  wf_o o -> need s (oo o) -> (forall s', chg s s' (oo o) zer -> Q opts_null s') ->
  wp (options_destroy o) Q s.
Proof. intros (W0 & W1 & W2 & W3) N H. unfold options_destroy. steps; ends. Qed.

Lemma wp_options_set o (Q : _ -> st -> Prop) s :
  wf0_o o -> need s (oo o) -> (forall b s', chg s s' zer zer -> Q b s') ->
  wp (options_set o) Q s.
Proof.
  intros [->|W] N H; unfold options_set; [steps; ends|].
  destruct o as [a b c d]. destruct W as (W0 & W1 & W2 & W3). cbn in W0.
  destruct a; try destruct W0. steps; ends.
Qed.

Lemma wp_copy_str p (Q : _ -> st -> Prop) s :
  okp p -> need s (op p) ->
  (forall b q s', okp q -> chg s s' zer (op q) -> Q (b, q) s') ->
  wp (copy_str p) Q s.
Proof. intros W N H. unfold copy_str. destruct p; [|destruct W|]; steps; ends. Qed.

Lemma wp_grow_str p (Q : _ -> st -> Prop) s :
  okp p -> need s (op p) ->
  (forall b q s', okp q -> chg s s' (op p) (op q) -> Q (b, q) s') ->
  wp (grow_str p) Q s.
Proof. intros W N H. unfold grow_str. destruct p; [|destruct W|]; steps; ends. Qed.

Ltac sp11 :=
  first
  [ sp10
  | lazymatch goal with
    | |- wp (copy_str _) _ _ => apply wp_copy_str; [try side|try side|intros [|] ? ? ? ?]
    | |- wp (grow_str _) _ _ => apply wp_grow_str; [try side|try side|intros [|] ? ? ? ?]
    end ].
Ltac spec ::= sp11.

Lemma wp_options_copy o o' (Q : _ -> st -> Prop) s :
  wf_o o -> wf_o o' -> need s (fun x => oo o x + oo o' x)%nat ->
  (forall p s', wf_o p -> chg s s' (oo o) (oo p) -> Q p s') ->
  wp (options_copy o o') Q s.
Proof.
  intros (W0 & W1 & W2 & W3) (V0 & V1 & V2 & V3) N H. unfold options_copy.
  destruct o as [a b c d], o' as [a' b' c' d']. cbn in W0, W1, W2, W3, V0, V1, V2, V3.
  steps; ends.
Qed.

Lemma wp_options_seqfile o some (Q : _ -> st -> Prop) s :
  wf0_o o -> need s (oo o) ->
  (forall b p s', wf0_o p -> chg s s' (oo o) (oo p) -> Q (b, p) s') ->
  wp (options_seqfile o some) Q s.
Proof.
  intros [->|W] N H; unfold options_seqfile.
  - steps. apply H; [now left|side].
  - destruct o as [a b c d]. destruct W as (W0 & W1 & W2 & W3). cbn in W0, W1, W2, W3.
    destruct a; try destruct W0. destruct some; steps; (apply H; [right; side|side]).
Qed.

Lemma wp_options_patches o (Q : _ -> st -> Prop) s :
  wf0_o o -> need s (oo o) ->
  (forall b p s', wf0_o p -> chg s s' (oo o) (oo p) -> Q (b, p) s') ->
  wp (options_patches o) Q s.
Proof.
  intros [->|W] N H; unfold options_patches.
  - steps. apply H; [now left|side].
  - destruct o as [a b c d]. destruct W as (W0 & W1 & W2 & W3). cbn in W0, W1, W2, W3.
    destruct a; try destruct W0. steps; (apply H; [right; side|side]).
Qed.

(** What the program has. *)
Fixpoint ohs (l : list drpm) (x : Z) : nat :=
  match l with [] => 0 | h :: r => oh h x + ohs r x end%nat.
Fixpoint oos (l : list opts) (x : Z) : nat :=
  match l with [] => 0 | o :: r => oo o x + oos r x end%nat.
Definition ocl (c : client) (x : Z) : nat :=
  (ohs (c_handles c) x + oos (c_opts c) x + ops (c_given c) x)%nat.
Definition wf_cl (c : client) : Prop :=
  Forall wf0_h (c_handles c) /\ Forall wf0_o (c_opts c) /\ oks (c_given c).

(** What the handles own is not looked into from here on. *)
Ltac count ::=
  chg_split;
  let x := fresh "x" in intro x; inst x;
  repeat match goal with
  | H : (_ <= _)%nat |- _ => revert H
  | H : (_ >= _)%nat |- _ => revert H
  | H : @eq nat _ _ |- _ => revert H
  end;
  clear;
  unfold ocl, zer, hset, oset;
  cbn [c_handles c_opts c_given c_failed ohs oos ops op];
  change (oh drpm_null) with zer; change (oo opts_null) with zer; unfold zer; cbv beta;
  repeat match goal with
  | |- context [oh ?h ?x] => generalize (oh h x); intro
  | |- context [oo ?h ?x] => generalize (oo h x); intro
  end; lia.

Lemma ohs_set l : forall i h h' x, nth_error l i = Some h ->
  (ohs (set_nth i h' l) x + oh h x = ohs l x + oh h' x)%nat.
Proof.
  induction l as [|a r IH]; intros [|i] h h' x E; cbn in E; try discriminate.
  - injection E as ->. cbn [set_nth ohs]. lia.
  - cbn [set_nth ohs]. specialize (IH _ _ h' x E). lia.
Qed.
Lemma oos_set l : forall i h h' x, nth_error l i = Some h ->
  (oos (set_nth i h' l) x + oo h x = oos l x + oo h' x)%nat.
Proof.
  induction l as [|a r IH]; intros [|i] h h' x E; cbn in E; try discriminate.
  - injection E as ->. cbn [set_nth oos]. lia.
  - cbn [set_nth oos]. specialize (IH _ _ h' x E). lia.
Qed.
Lemma ops_set l : forall i h h' x, nth_error l i = Some h ->
  (ops (set_nth i h' l) x + op h x = ops l x + op h' x)%nat.
Proof.
  induction l as [|a r IH]; intros [|i] h h' x E; cbn in E; try discriminate.
  - injection E as ->. cbn [set_nth ops]. lia.
  - cbn [set_nth ops]. specialize (IH _ _ h' x E). lia.
Qed.
Lemma oos_two l : forall i j a b x, i <> j ->
  nth_error l i = Some a -> nth_error l j = Some b -> (oo a x + oo b x <= oos l x)%nat.
Proof.
  assert (L1 : forall l i a x, nth_error l i = Some a -> (oo a x <= oos l x)%nat).
  { intros l0 i a x E. pose proof (oos_set _ _ _ opts_null x E) as K.
    change (oo opts_null x) with 0%nat in K. lia. }
  induction l as [|c r IH]; intros [|i] [|j] a b x D E1 E2; cbn in *; try discriminate.
  - congruence.
  - injection E1 as ->. specialize (L1 _ _ _ x E2). lia.
  - injection E2 as ->. specialize (L1 _ _ _ x E1). lia.
  - assert (i <> j) by congruence. specialize (IH _ _ _ _ x H E1 E2). lia.
Qed.
Lemma Forall_set {A} (P : A -> Prop) l : forall i a, Forall P l -> P a ->
  Forall P (set_nth i a l).
Proof.
  induction l as [|b r IH]; intros [|i] a F p; cbn; auto; inversion F; constructor; auto.
Qed.
Lemma oks_set l : forall i a, oks l -> okp a -> oks (set_nth i a l).
Proof.
  induction l as [|b r IH]; intros [|i] a F p; cbn in *; auto; destruct F; split; auto.
Qed.
Lemma oks_nth l : forall i a, oks l -> nth_error l i = Some a -> okp a.
Proof.
  induction l as [|b r IH]; intros [|i] a F E; cbn in E; try discriminate.
  - injection E as ->. apply F.
  - destruct F as [F1 F2]. eauto.
Qed.

(** One call: everything the program has is alive before and after; nothing is lost unless
    [drpm_read] fails. *)
Lemma wp_exec c q (Q : _ -> st -> Prop) s :
  wf_cl c -> need s (ocl c) ->
  (forall c' s', wf_cl c' -> chgl s s' (ocl c) (ocl c') ->
     (c_failed c' = false -> c_failed c = false /\ chg s s' (ocl c) (ocl c')) -> Q c' s') ->
  wp (exec c q) Q s.
Proof.
  intros W N H.
  assert (E0 : Q c s). { apply H; [exact W|side|]. intros F. split; [exact F|side]. }
  destruct c as [hs os gs fl]. destruct W as (W1 & W2 & W3). cbn in W1, W2, W3.
  destruct q as [|i|i|i t|i| |i|i|i|i b|i|i j]; cbn [exec c_handles c_opts c_given c_failed].
  - apply wp_bind, wp_drpm_read.
    + intros h s' Wh K. steps. apply H.
      * repeat split; cbn; auto. constructor; [now right|exact W1].
      * side.
      * cbn. rewrite orb_false_r. intros F. split; [exact F|side].
    + intros s' K. steps. apply H.
      * repeat split; cbn; auto. constructor; [now left|exact W1].
      * side.
      * cbn. rewrite orb_true_r. discriminate.
  - destruct (nth_error hs i) as [h|] eqn:E; [|exact E0].
    assert (Wh : wf0_h h) by (eapply Forall_forall; [exact W1|eapply nth_error_In, E]).
    pose proof (fun x => ohs_set hs i h drpm_null x E) as Kn.
    apply wp_bind, wp_drpm_destroy; [exact Wh|side|].
    intros s' K. steps. unfold hset; cbn [c_handles c_opts c_given c_failed]. apply H.
    + repeat split; cbn; auto. apply Forall_set; [exact W1|now left].
    + side.
    + cbn. intros F. split; [exact F|side].
  - destruct (nth_error hs i) as [h|] eqn:E; [|exact E0].
    assert (Wh : wf0_h h) by (eapply Forall_forall; [exact W1|eapply nth_error_In, E]).
    pose proof (fun x => ohs_set hs i h drpm_null x E) as Kn.
    apply wp_bind, wp_drpm_get_num; [exact Wh|side|].
    intros b s' K. steps. apply H; [now repeat split|side|]. intros F. split; [exact F|side].
  - destruct (nth_error hs i) as [h|] eqn:E; [|exact E0].
    assert (Wh : wf0_h h) by (eapply Forall_forall; [exact W1|eapply nth_error_In, E]).
    pose proof (fun x => ohs_set hs i h drpm_null x E) as Kn.
    apply wp_bind, wp_drpm_get_block; [exact Wh|side|].
    intros b p s' P K. steps. apply H; [now repeat split|side|].
    intros F. split; [exact F|side].
  - destruct (nth_error gs i) as [p|] eqn:E; [|exact E0].
    pose proof (oks_nth _ _ _ W3 E) as P.
    pose proof (fun x => ops_set gs i p Null x E) as Kn.
    steps. apply H.
    + repeat split; cbn; auto. apply oks_set; [exact W3|exact I].
    + side.
    + cbn. intros F. split; [exact F|side].
  - apply wp_bind, wp_options_init. intros b o s' Wo K. steps. apply H.
    + repeat split; cbn; auto.
    + side.
    + cbn. intros F. split; [exact F|side].
  - destruct (nth_error os i) as [o|] eqn:E; [|exact E0].
    assert (Wo : wf0_o o) by (eapply Forall_forall; [exact W2|eapply nth_error_In, E]).
    pose proof (fun x => oos_set os i o opts_null x E) as Kn.
    destruct Wo as [->|Wo]; [exact E0|].
    assert (Z : isnull (o_self o) = false) by (destruct Wo as [Wo _]; now destruct (o_self o)).
    rewrite Z. apply wp_bind, wp_options_destroy; [exact Wo|side|].
    intros s' K. steps. unfold oset; cbn [c_handles c_opts c_given c_failed]. apply H.
    + repeat split; cbn; auto. apply Forall_set; [exact W2|now left].
    + side.
    + cbn. intros F. split; [exact F|side].
  - destruct (nth_error os i) as [o|] eqn:E; [|exact E0].
    assert (Wo : wf0_o o) by (eapply Forall_forall; [exact W2|eapply nth_error_In, E]).
    destruct Wo as [->|Wo]; [exact E0|].
    assert (Z : isnull (o_self o) = false) by (destruct Wo as [Wo _]; now destruct (o_self o)).
    rewrite Z. 
    apply wp_bind, wp_options_defaults; [exact Wo| |].
    { pose proof (fun x => oos_set os i o opts_null x E) as Kn. side. }
    intros o' s' Wo' K. pose proof (fun x => oos_set os i o o' x E) as Kn.
    steps. unfold oset; cbn [c_handles c_opts c_given c_failed]. apply H.
    + repeat split; cbn; auto. apply Forall_set; [exact W2|now right].
    + side.
    + cbn. intros F. split; [exact F|side].
  - destruct (nth_error os i) as [o|] eqn:E; [|exact E0].
    assert (Wo : wf0_o o) by (eapply Forall_forall; [exact W2|eapply nth_error_In, E]).
    pose proof (fun x => oos_set os i o opts_null x E) as Kn.
    apply wp_bind, wp_options_set; [exact Wo|side|].
    intros b s' K. steps. apply H; [now repeat split|side|]. intros F. split; [exact F|side].
  - destruct (nth_error os i) as [o|] eqn:E; [|exact E0].
    assert (Wo : wf0_o o) by (eapply Forall_forall; [exact W2|eapply nth_error_In, E]).
    apply wp_bind, wp_options_seqfile; [exact Wo| |].
    { pose proof (fun x => oos_set os i o opts_null x E) as Kn. side. }
    intros b' o' s' Wo' K. pose proof (fun x => oos_set os i o o' x E) as Kn.
    steps. unfold oset; cbn [c_handles c_opts c_given c_failed]. apply H.
    + repeat split; cbn; auto. apply Forall_set; [exact W2|exact Wo'].
    + side.
    + cbn. intros F. split; [exact F|side].
  - destruct (nth_error os i) as [o|] eqn:E; [|exact E0].
    assert (Wo : wf0_o o) by (eapply Forall_forall; [exact W2|eapply nth_error_In, E]).
    apply wp_bind, wp_options_patches; [exact Wo| |].
    { pose proof (fun x => oos_set os i o opts_null x E) as Kn. side. }
    intros b' o' s' Wo' K. pose proof (fun x => oos_set os i o o' x E) as Kn.
    steps. unfold oset; cbn [c_handles c_opts c_given c_failed]. apply H.
    + repeat split; cbn; auto. apply Forall_set; [exact W2|exact Wo'].
    + side.
    + cbn. intros F. split; [exact F|side].
  - destruct (nth_error os i) as [o|] eqn:E; [|exact E0].
    destruct (nth_error os j) as [u|] eqn:Ej; [|exact E0].
    assert (Wo : wf0_o o) by (eapply Forall_forall; [exact W2|eapply nth_error_In, E]).
    assert (Wu : wf0_o u) by (eapply Forall_forall; [exact W2|eapply nth_error_In, Ej]).
    destruct Wo as [->|Wo]; [exact E0|].
    assert (Z : isnull (o_self o) = false) by (destruct Wo as [Wo _]; now destruct (o_self o)).
    rewrite Z. destruct Wu as [->|Wu]; [exact E0|].
    assert (Zu : isnull (o_self u) = false) by (destruct Wu as [Wu _]; now destruct (o_self u)).
    rewrite Zu. cbn [orb]. destruct (Nat.eqb i j) eqn:D.
    + apply wp_bind, wp_options_defaults; [exact Wo| |].
      { pose proof (fun x => oos_set os i o opts_null x E) as Kn. side. }
      intros o' s' Wo' K. pose proof (fun x => oos_set os i o o' x E) as Kn.
      steps. unfold oset; cbn [c_handles c_opts c_given c_failed]. apply H.
      * repeat split; cbn; auto. apply Forall_set; [exact W2|now right].
      * side.
      * cbn. intros F. split; [exact F|side].
    + apply Nat.eqb_neq in D.
      apply wp_bind, wp_options_copy; [exact Wo|exact Wu| |].
      { pose proof (fun x => oos_two os i j o u x D E Ej) as Kn. side. }
      intros o' s' Wo' K. pose proof (fun x => oos_set os i o o' x E) as Kn.
      steps. unfold oset; cbn [c_handles c_opts c_given c_failed]. apply H.
      * repeat split; cbn; auto. apply Forall_set; [exact W2|now right].
      * side.
      * cbn. intros F. split; [exact F|side].
Qed.

Lemma wp_execs l : forall c (Q : _ -> st -> Prop) s,
  wf_cl c -> need s (ocl c) ->
  (forall c' s', wf_cl c' -> chgl s s' (ocl c) (ocl c') ->
     (c_failed c' = false -> c_failed c = false /\ chg s s' (ocl c) (ocl c')) -> Q c' s') ->
  wp (execs c l) Q s.
Proof.
  induction l as [|q l IH]; intros c Q s W N H.
  - apply wp_ret, H; [exact W|side|]. intros F. split; [exact F|side].
  - cbn [execs]. apply wp_bind, wp_exec; [exact W|exact N|].
    intros c1 s1 W1 K1 F1. apply IH; [exact W1|side|].
    intros c2 s2 W2 K2 F2. apply H; [exact W2|side|].
    intros F. destruct (F2 F) as [Fb Kb]. destruct (F1 Fb) as [Fa Ka]. split; [exact Fa|].
    clear K1 K2. side.
Qed.

Lemma wp_release c (Q : _ -> st -> Prop) s :
  wf_cl c -> need s (ocl c) -> (forall s', chg s s' (ocl c) zer -> Q tt s') ->
  wp (release c) Q s.
Proof.
  intros (W1 & W2 & W3) N H. unfold release. destruct c as [hs os gs fl]. cbn in *.
  assert (D : forall l (Q : _ -> st -> Prop) s, Forall wf0_h l -> need s (ohs l) ->
     (forall s', chg s s' (ohs l) zer -> Q tt s') -> wp (destroys l) Q s).
  { clear. induction l as [|h r IH]; intros Q s F N H; cbn [destroys].
    - apply wp_ret, H. side.
    - inversion F; subst. apply wp_bind, wp_drpm_destroy; [assumption|side|].
      intros s1 K. apply IH; [assumption|side|]. intros s2 K2. apply H. side. }
  assert (O : forall l (Q : _ -> st -> Prop) s, Forall wf0_o l -> need s (oos l) ->
     (forall s', chg s s' (oos l) zer -> Q tt s') -> wp (odestroys l) Q s).
  { clear. induction l as [|o r IH]; intros Q s F N H; cbn [odestroys].
    - apply wp_ret, H. side.
    - inversion F as [|? ? F1 F2]; subst. apply wp_bind. destruct F1 as [->|F1].
      + apply wp_ret. apply IH; [assumption|side|]. intros s2 K2. apply H. side.
      + assert (Z : isnull (o_self o) = false)
          by (destruct F1 as [F1 _]; now destruct (o_self o)).
        rewrite Z. apply wp_options_destroy; [assumption|side|].
        intros s1 K. apply IH; [assumption|side|]. intros s2 K2. apply H. side. }
  apply wp_bind, D; [exact W1|side|]. intros s1 K1.
  apply wp_bind, O; [exact W2|side|]. intros s2 K2.
  apply wp_frees; [exact W3|side|]. intros s3 K3. apply H. side.
Qed.
