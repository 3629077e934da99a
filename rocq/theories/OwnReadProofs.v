(** What deltas, handles and options own. *)
Require Import ZArith List Bool Lia.
Require Import Verif.Own Verif.OwnTools Verif.OwnCodec Verif.OwnCodecProofs Verif.OwnRpm.
Require Import Verif.OwnRpmProofs Verif.OwnRead.
Import ListNotations.
Open Scope Z_scope.

(** Without the package: the union of [head] and the rest. *)
Definition odl (d : dlt) (x : Z) : nat :=
  ((if d_only d then op (d_nevr d) x else orpm (d_rpm d) x) +
   op (d_src d) x + op (d_seq d) x + op (d_param d) x + op (d_adj d) x + op (d_lead d) x +
   op (d_int d) x + op (d_ext d) x + op (d_add d) x + op (d_data d) x)%nat.
Definition wf_dl (d : dlt) : Prop :=
  (if d_only d then okp (d_nevr d) else can_rpm (d_rpm d)) /\
  okp (d_src d) /\ okp (d_seq d) /\ okp (d_param d) /\ okp (d_adj d) /\ okp (d_lead d) /\
  okp (d_int d) /\ okp (d_ext d) /\ okp (d_add d) /\ okp (d_data d).
(** A delta that was read. *)
Definition full_dl (d : dlt) : Prop :=
  (if d_only d then isat (d_nevr d) else full_rpm (d_rpm d)) /\
  isat (d_src d) /\ isat (d_seq d) /\ okp (d_param d) /\ okp (d_adj d) /\ isat (d_lead d) /\
  okp (d_int d) /\ okp (d_ext d) /\ okp (d_add d) /\ okp (d_data d).
Definition oh (h : drpm) (x : Z) : nat :=
  (op (h_self h) x + op (h_file h) x + op (h_seq h) x + op (h_src h) x + op (h_tgt h) x +
   op (h_param h) x + op (h_lead h) x + op (h_adj h) x + op (h_int h) x + op (h_ext h) x)%nat.
Definition wf_h (h : drpm) : Prop :=
  isat (h_self h) /\ okp (h_file h) /\ okp (h_seq h) /\ okp (h_src h) /\ okp (h_tgt h) /\
  okp (h_param h) /\ okp (h_lead h) /\ okp (h_adj h) /\ okp (h_int h) /\ okp (h_ext h).
Definition oo (o : opts) (x : Z) : nat :=
  (op (o_self o) x + op (o_seq o) x + op (o_print o) x + op (o_patch o) x)%nat.
Definition wf_o (o : opts) : Prop :=
  isat (o_self o) /\ okp (o_seq o) /\ okp (o_print o) /\ okp (o_patch o).
Global Hint Unfold odl oh oo : own.
Global Hint Unfold wf_dl full_dl wf_h wf_o : own_wf.
Ltac own_red ::=
  cbn [isnull negb andb orb fst snd chain
    ds_self ds_data ds_codec ds_zstd ds_null ds_junk set_ds_data
    cs_self cs_data cs_codec cs_zstd cs_null cs_junk set_cs_data end_codec
    wr_self wr_data wr_strm wr_null set_wr_strm
    r_self r_sig r_hdr r_arch rpm_null rpm_junk set_sig set_hdr set_arch
    fi_self fi_strs fi_null
    d_only d_rpm d_nevr d_src d_seq d_param d_adj d_lead d_int d_ext d_add d_data d_zero
    set_d_only set_d_rpm set_d_nevr set_d_src set_d_seq set_d_param set_d_adj set_d_lead
    set_d_int set_d_ext set_d_add set_d_data
    h_self h_file h_seq h_src h_tgt h_param h_lead h_adj h_int h_ext drpm_null
    set_h_file set_h_seq set_h_src set_h_tgt set_h_param set_h_lead set_h_adj set_h_int
    set_h_ext o_self o_seq o_print o_patch opts_null
    o_patch].

Global Arguments set_d_only !d b /.
Global Arguments set_d_rpm !d r /.
Global Arguments set_d_nevr !d p /.
Global Arguments set_d_src !d p /.
Global Arguments set_d_seq !d p /.
Global Arguments set_d_param !d p /.
Global Arguments set_d_adj !d p /.
Global Arguments set_d_lead !d p /.
Global Arguments set_d_int !d p /.
Global Arguments set_d_ext !d p /.
Global Arguments set_d_add !d p /.
Global Arguments set_d_data !d p /.
Global Arguments set_h_file !h p /.
Global Arguments set_h_seq !h p /.
Global Arguments set_h_src !h p /.
Global Arguments set_h_tgt !h p /.
Global Arguments set_h_param !h p /.
Global Arguments set_h_lead !h p /.
Global Arguments set_h_adj !h p /.
Global Arguments set_h_int !h p /.
Global Arguments set_h_ext !h p /.

Lemma wp_free_deltarpm d (Q : _ -> st -> Prop) s :
  wf_dl d -> need s (odl d) ->
  (forall s', chg s s' (odl d) zer -> Q d_zero s') ->
  wp (free_deltarpm d) Q s.
Proof.
  intros W N H. pose proof W as (W0 & W1 & W2 & W3 & W4 & W5 & W6 & W7 & W8 & W9).
  unfold free_deltarpm. destruct d as [o a b c e f g h i j k l]. cbn in *.
  destruct o; steps; ends.
Qed.

Lemma wp_drpm_free h (Q : _ -> st -> Prop) s :
  wf_h h -> need s (oh h) ->
  (forall s', chg s s' (oh h) (op (h_self h)) ->
     Q (mkdrpm (h_self h) Null Null Null Null Null Null Null Null Null) s') ->
  wp (drpm_free h) Q s.
Proof.
  intros W N H. pose proof W as (W0 & W1 & W2 & W3 & W4 & W5 & W6 & W7 & W8 & W9).
  unfold drpm_free. steps; ends.
Qed.

Lemma wp_drpm_destroy h (Q : _ -> st -> Prop) s :
  h = drpm_null \/ wf_h h -> need s (oh h) ->
  (forall s', chg s s' (oh h) zer -> Q drpm_null s') ->
  wp (drpm_destroy h) Q s.
Proof.
  intros [->|W] N H; unfold drpm_destroy.
  - steps. ends.
  - pose proof W as (W0 & _). destruct h as [a b c e f g h i j k]. cbn in W0.
    destruct a; try destruct W0. own_red. apply wp_bind, wp_drpm_free; [exact W|exact N|].
    intros s1 K. steps. ends.
Qed.

Ltac sp5 :=
  first
  [ sp4
  | lazymatch goal with
    | |- wp (free_deltarpm _) _ _ => apply wp_free_deltarpm; [try side|try side|intros ? ?]
    | |- wp (drpm_free _) _ _ => apply wp_drpm_free; [try side|try side|intros ? ?]
    | |- wp (rpm_read _ _ _ _) _ _ =>
        apply wp_rpm_read;
        [try (first [now left|right; now left|right; right; envs_tac])
        |intros ? ? ? ?|intros ? ? ? ? ?]
    | |- wp (rpm_look _) _ _ => apply wp_rpm_look; [try side|try side|intros [|] ? ?]
    | |- wp (rpm_get_nevr _) _ _ =>
        apply wp_rpm_get_nevr; [try side|try side|intros ? ? ?|intros ? ?]
    end ].
Ltac spec ::= sp5.

(** The start of [readdelta_rest]: what the other functions leave. *)
Definition begun (d : dlt) : Prop :=
  (if d_only d then isat (d_nevr d) /\ okp (d_add d) else full_rpm (d_rpm d) /\ d_add d = Null) /\
  d_src d = Null /\ d_seq d = Null /\ d_param d = Null /\ d_adj d = Null /\ d_lead d = Null /\
  d_int d = Null /\ d_ext d = Null /\ d_data d = Null.

Lemma wp_rd_num ds d (Q : _ -> st -> Prop) s :
  wf_ds ds -> need s (ods ds) ->
  (forall ds' s', wf_ds ds' -> chg s s' (ods ds) (ods ds') -> Q (true, (ds', d)) s') ->
  (forall ds' s', wf_ds ds' -> chgl s s' (ods ds) (ods ds') -> Q (false, (ds', d)) s') ->
  wp (rd_num (ds, d)) Q s.
Proof. intros W N H1 H2. unfold rd_num. steps; ends. Qed.

Ltac sp6 :=
  first
  [ sp5
  | lazymatch goal with
    | |- wp (rd_num (_, _)) _ _ =>
        apply wp_rd_num; [try side|try side|intros ? ? ? ?|intros ? ? ? ?]
    end ].
Ltac spec ::= sp6.

Lemma wp_rd_block set ds d (Q : _ -> st -> Prop) s :
  wf_ds ds -> need s (ods ds) ->
  (forall ds' n s', wf_ds ds' -> chg s s' (ods ds) (fun x => ods ds' x + ind n x)%nat ->
     Q (true, (ds', set d (At n))) s') ->
  (forall ds' p s', wf_ds ds' -> okp p -> chgl s s' (ods ds) (fun x => ods ds' x + op p x)%nat ->
     Q (false, (ds', set d p)) s') ->
  wp (rd_block set (ds, d)) Q s.
Proof. intros W N H1 H2. unfold rd_block. steps; ends. Qed.

Ltac sp7 :=
  first
  [ sp6
  | lazymatch goal with
    | |- wp (rd_block _ (_, _)) _ _ =>
        apply wp_rd_block; [try side|try side|intros ? ? ? ? ?|intros ? ? ? ? ? ?]
    end ].
Ltac spec ::= sp7.

Lemma wp_rd_opt set ds d (Q : _ -> st -> Prop) s :
  wf_ds ds -> need s (ods ds) -> set d Null = d ->
  (forall ds' p s', wf_ds ds' -> okp p -> chg s s' (ods ds) (fun x => ods ds' x + op p x)%nat ->
     Q (true, (ds', set d p)) s') ->
  (forall ds' p s', wf_ds ds' -> okp p -> chgl s s' (ods ds) (fun x => ods ds' x + op p x)%nat ->
     Q (false, (ds', set d p)) s') ->
  wp (rd_opt set (ds, d)) Q s.
Proof.
  intros W N E H1 H2. unfold rd_opt. steps; try ends.
  rewrite <- E. apply H1; side.
Qed.

Lemma wp_rd_add ds d (Q : _ -> st -> Prop) s :
  wf_ds ds -> need s (ods ds) -> d_only d = true \/ d_add d = Null ->
  (forall ds' s', d_only d = true -> wf_ds ds' -> chg s s' (ods ds) (ods ds') ->
     Q (true, (ds', d)) s') ->
  (forall ds' s', d_only d = true -> wf_ds ds' -> chg s s' (ods ds) (ods ds') ->
     Q (false, (ds', d)) s') ->
  (forall ds' p s', d_only d = false -> wf_ds ds' -> okp p ->
     chg s s' (ods ds) (fun x => ods ds' x + op p x)%nat ->
     Q (true, (ds', set_d_add d p)) s') ->
  (forall ds' p s', d_only d = false -> wf_ds ds' -> okp p ->
     chgl s s' (ods ds) (fun x => ods ds' x + op p x)%nat ->
     Q (false, (ds', set_d_add d p)) s') ->
  wp (rd_add (ds, d)) Q s.
Proof.
  intros W N E H1 H2 H3 H4. unfold rd_add. steps; try ends.
  destruct (d_only d) eqn:O; [ends|]. destruct E as [E|E]; [discriminate|].
  replace d with (set_d_add d Null) by (destruct d; cbn in *; now subst).
  apply H3; side.
Qed.

Lemma wp_rd_check a (Q : _ -> st -> Prop) s :
  (forall b s', chg s s' zer zer -> Q (b, a) s') -> wp (rd_check a) Q s.
Proof. intros H. unfold rd_check. steps; ends. Qed.

Ltac sp8 :=
  first
  [ sp7
  | lazymatch goal with
    | |- wp (rd_check _) _ _ => apply wp_rd_check; intros [|] ? ?
    | |- wp (rd_opt _ (_, _)) _ _ =>
        apply wp_rd_opt;
        [try side|try side|try reflexivity|intros ? ? ? ? ? ?|intros ? ? ? ? ? ?]
    | |- wp (rd_add (_, _)) _ _ =>
        apply wp_rd_add; [try side|try side|cbn; auto|..]; cbn [d_only];
        [intros ? ? ? ? ?|intros ? ? ? ? ?|intros ? ? ? ? ? ? ?|intros ? ? ? ? ? ? ?];
        try discriminate
    end ].
Ltac spec ::= sp8.

Lemma wp_readdelta_rest d (Q : _ -> st -> Prop) s :
  begun d -> need s (odl d) ->
  (forall d' s', full_dl d' -> chg s s' (odl d) (odl d') -> Q (true, d') s') ->
  (forall d' s', wf_dl d' -> chgl s s' (odl d) (odl d') -> Q (false, d') s') ->
  wp (readdelta_rest d) Q s.
Proof.
  intros W N H1 H2. pose proof W as (W0 & W1 & W2 & W3 & W4 & W5 & W6 & W7 & W8).
  unfold readdelta_rest. destruct d as [o a b c e f g h i j k l]. cbn in *. subst.
  destruct o; destruct W0 as [W0 W9]; [|subst k].
  - steps; ends.
  - steps; ends.
Qed.

Lemma wp_readdelta_rpmonly d (Q : _ -> st -> Prop) s :
  d = set_d_only d_zero true ->
  (forall d' s', begun d' -> chg s s' zer (odl d') -> Q (true, d') s') ->
  (forall d' s', wf_dl d' -> chg s s' zer (odl d') -> Q (false, d') s') ->
  wp (readdelta_rpmonly d) Q s.
Proof.
  intros -> H1 H2. unfold readdelta_rpmonly. steps.
  all: first [apply H1; [repeat split|side] | apply H2; side].
Qed.

Lemma wp_readdelta_standard d (Q : _ -> st -> Prop) s :
  d = set_d_only d_zero false ->
  (forall d' s', begun d' -> chg s s' zer (odl d') -> Q (true, d') s') ->
  (forall s', chgl s s' zer zer -> Q (false, set_d_only d_zero false) s') ->
  wp (readdelta_standard d) Q s.
Proof.
  intros -> H1 H2. unfold readdelta_standard. steps.
  all: first [apply H1; [repeat split; side|side] | apply H2; side].
Qed.

Ltac sp9 :=
  first
  [ sp8
  | lazymatch goal with
    | |- wp (readdelta_rest _) _ _ =>
        apply wp_readdelta_rest; [try assumption|try side|intros ? ? ? ?|intros ? ? ? ?]
    | |- wp (readdelta_rpmonly _) _ _ =>
        apply wp_readdelta_rpmonly; [reflexivity|intros ? ? ? ?|intros ? ? ? ?]
    | |- wp (readdelta_standard _) _ _ =>
        apply wp_readdelta_standard; [reflexivity|intros ? ? ? ?|intros ? ?]
    end ].
Ltac spec ::= sp9.

Lemma wf_zero b : wf_dl (set_d_only d_zero b).
Proof. destruct b; [side|]. split; [left; side|]. side. Qed.
Lemma odl_zero b x : odl (set_d_only d_zero b) x = 0%nat.
Proof. now destruct b. Qed.

Lemma wp_read_deltarpm (Q : _ -> st -> Prop) s :
  (forall d s', full_dl d -> chg s s' zer (odl d) -> Q (true, d) s') ->
  (forall s', chgl s s' zer zer -> Q (false, d_zero) s') ->
  wp (read_deltarpm d_zero) Q s.
Proof.
  intros H1 H2. unfold read_deltarpm. steps; try ends.
Qed.

Lemma full_wf_dl d : full_dl d -> wf_dl d.
Proof.
  intros (W0 & W1 & W2 & W3 & W4 & W5 & W6 & W7 & W8 & W9).
  repeat split; auto. destruct (d_only d); auto.
Qed.
Global Hint Resolve full_wf_dl : core.

Lemma wp_dup_one set h (Q : _ -> st -> Prop) s :
  (forall n s', chg s s' zer (ind n) -> Q (true, set h (At n)) s') ->
  (forall s', chg s s' zer zer -> Q (false, set h Null) s') ->
  wp (dup_one set h) Q s.
Proof. intros H1 H2. unfold dup_one. steps; ends. Qed.

Lemma wp_dup_opt set h (Q : _ -> st -> Prop) s :
  set h Null = h ->
  (forall p s', okp p -> chg s s' zer (op p) -> Q (true, set h p) s') ->
  (forall s', chg s s' zer zer -> Q (false, set h Null) s') ->
  wp (dup_opt set h) Q s.
Proof.
  intros E H1 H2. unfold dup_opt, dup_one. steps; try ends.
  rewrite <- E. apply H1; side.
Qed.

Ltac sp10 :=
  first
  [ sp9
  | lazymatch goal with
    | |- wp (dup_one _ _) _ _ => apply wp_dup_one; [intros ? ? ?|intros ? ?]
    | |- wp (dup_opt _ _) _ _ =>
        apply wp_dup_opt; [reflexivity|intros ? ? ? ?|intros ? ?]
    | |- wp (read_deltarpm d_zero) _ _ => apply wp_read_deltarpm; [intros ? ? ? ?|intros ? ?]
    end ].
Ltac spec ::= sp10.

Lemma wp_deltarpm_to_drpm d n (Q : _ -> st -> Prop) s :
  full_dl d -> need s (fun x => odl d x + ind n x)%nat ->
  (forall h s', wf_h h -> chg s s' (ind n) (oh h) -> Q (true, h) s') ->
  (forall h s', chg s s' zer zer -> Q (false, h) s') ->
  wp (deltarpm_to_drpm d (At n)) Q s.
Proof.
  intros W N H1 H2. pose proof W as (W0 & W1 & W2 & W3 & W4 & W5 & W6 & W7 & W8 & W9).
  unfold deltarpm_to_drpm. destruct d as [o a b c e f g h i j k l]. cbn in *.
  destruct o; steps; ends.
Qed.

Lemma wp_drpm_read (Q : _ -> st -> Prop) s :
  (forall h s', wf_h h -> chg s s' zer (oh h) -> Q (true, h) s') ->
  (forall s', chgl s s' zer zer -> Q (false, drpm_null) s') ->
  wp drpm_read Q s.
Proof.
  intros H1 H2. unfold drpm_read. steps; try ends.
  apply wp_deltarpm_to_drpm; [assumption|side| |].
  - intros. steps; ends.
  - intros. steps; ends.
Qed.

Lemma wp_drpm_get_num h (Q : _ -> st -> Prop) s :
  h = drpm_null \/ wf_h h -> need s (oh h) -> (forall b s', chg s s' zer zer -> Q b s') ->
  wp (drpm_get_num h) Q s.
Proof.
  intros [->|W] N H; unfold drpm_get_num.
  - steps; ends.
  - pose proof W as (W0 & _). destruct h as [a b c d e f g h i j]. cbn in W0.
    destruct a; try destruct W0. steps; ends.
Qed.
