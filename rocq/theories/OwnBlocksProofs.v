(** What the blocks own. *)
Require Import ZArith List Bool Lia.
Require Import Verif.Own Verif.OwnTools Verif.OwnCodec Verif.OwnCodecProofs Verif.OwnRpm.
Require Import Verif.OwnRpmProofs Verif.OwnRead Verif.OwnReadProofs Verif.OwnCheck.
Require Import Verif.OwnCheckProofs Verif.OwnMake Verif.OwnMakeProofs Verif.OwnBlocks.
Import ListNotations.
Open Scope Z_scope.

(** Here memory and the page file are there. *)
Ltac contra ::=
  match goal with
  | Z : envs ?s0 = calm, H : _ (envs ?s) = true |- _ =>
      solve [ exfalso; chg_split;
              let E := fresh in
              assert (E : envs s = calm) by congruence; rewrite E in H; discriminate H ]
  | Z : e_oom (envs ?s0) = false, H : e_oom (envs ?s) = true |- _ =>
      solve [ exfalso; chg_split; congruence ]
  | Z : e_page (envs ?s0) = false, H : e_page (envs ?s) = true |- _ =>
      solve [ exfalso; chg_split; congruence ]
  end.

Definition opr (x : ptr * ptr) (y : Z) : nat := (op (fst x) y + op (snd x) y)%nat.
Fixpoint oprs (l : list (ptr * ptr)) (y : Z) : nat :=
  match l with [] => 0 | x :: r => op (fst x) y + op (snd x) y + oprs r y end%nat.
Definition ispr (x : ptr * ptr) : Prop := isat (fst x) /\ isat (snd x).
Fixpoint isprs (l : list (ptr * ptr)) : Prop :=
  match l with [] => True | x :: r => ispr x /\ isprs r end.
Fixpoint isats (l : list ptr) : Prop :=
  match l with [] => True | x :: r => isat x /\ isats r end.
Definition opl (p : pool) (y : Z) : nat :=
  (oprs (k_core p) y + oprs (k_idle p) y + ops (k_page p) y + op (k_fd p) y)%nat.
Definition wf_pl (p : pool) : Prop :=
  isprs (k_core p) /\ isprs (k_idle p) /\ isats (k_page p) /\ okp (k_fd p).
Definition obk (b : blocks) (y : Z) : nat :=
  (op (b_self b) y + op (b_table b) y + op (b_max b) y + op (b_cpio b) y + op (b_hdr b) y +
   op (b_open b) y)%nat.
Definition wf_bk (from only : bool) (b : blocks) : Prop :=
  isat (b_self b) /\ isat (b_table b) /\ isat (b_max b) /\ isat (b_cpio b) /\
  (if from && only then isat (b_hdr b) else b_hdr b = Null) /\
  (if from then b_open b = Null else isat (b_open b)).
Global Hint Unfold opr opl obk : own.
Global Hint Unfold ispr wf_pl wf_bk : own_wf.

Lemma oprs_app a b y : oprs (a ++ b) y = (oprs a y + oprs b y)%nat.
Proof. induction a as [|x a IH]; cbn; [reflexivity|rewrite IH; lia]. Qed.
Lemma isprs_app a b : isprs a -> isprs b -> isprs (a ++ b).
Proof. induction a as [|x a IH]; cbn; [auto|]. intros (A & B) D. auto. Qed.

Lemma pull_prs k : forall l x r, pull k l = Some (x, r) ->
  (forall y, oprs l y = opr x y + oprs r y)%nat /\ (isprs l -> ispr x /\ isprs r).
Proof.
  induction k as [|k IH]; intros [|a l] x r H; try discriminate H; cbn in H.
  - injection H as <- <-. cbn. auto.
  - destruct (pull k l) as [[b t]|] eqn:E; [|discriminate H]. injection H as <- <-.
    apply IH in E. destruct E as (E1 & E2). split.
    + intro y. cbn [oprs]. rewrite E1. lia.
    + cbn. intros (A & B). apply E2 in B. tauto.
Qed.
Lemma pull_ats k : forall l x r, pull k l = Some (x, r) ->
  (forall y, ops l y = op x y + ops r y)%nat /\ (isats l -> isat x /\ isats r).
Proof.
  induction k as [|k IH]; intros [|a l] x r H; try discriminate H; cbn in H.
  - injection H as <- <-. cbn. auto.
  - destruct (pull k l) as [[b t]|] eqn:E; [|discriminate H]. injection H as <- <-.
    apply IH in E. destruct E as (E1 & E2). split.
    + intro y. cbn. rewrite E1. lia.
    + cbn. intros (A & B). apply E2 in B. tauto.
Qed.
Lemma pull_last {A} (l : list A) : l <> [] -> pull (length l - 1) l <> None.
Proof.
  intros H. assert (L : (length l - 1 < length l)%nat) by (destruct l; cbn; [congruence|lia]).
  revert L. generalize (length l - 1)%nat as k. clear H.
  induction l as [|a l IH]; cbn; intros [|k] L; try lia; try discriminate.
  specialize (IH k). cbn [pull]. destruct (pull k l) as [[? ?]|]; [discriminate|].
  intros _. apply IH; [lia|reflexivity].
Qed.

Lemma wp_freepairs l : forall (Q : _ -> st -> Prop) s,
  isprs l -> need s (oprs l) -> (forall s', chg s s' (oprs l) zer -> Q tt s') ->
  wp (freepairs l) Q s.
Proof.
  induction l as [|[a b] l IH]; intros Q s W N H; cbn [freepairs].
  - apply wp_ret, H. side.
  - destruct W as ((W1 & W2) & W3). cbn in W1, W2.
    assert (okp b) by (destruct b; easy). assert (okp a) by (destruct a; easy).
    cbn [oprs] in N. steps.
    apply IH; [exact W3|side|]. intros. apply H. cbn [oprs]. side.
Qed.
Lemma wp_freepages l : forall (Q : _ -> st -> Prop) s,
  isats l -> need s (ops l) -> (forall s', chg s s' (ops l) zer -> Q tt s') ->
  wp (freepages l) Q s.
Proof.
  induction l as [|a l IH]; intros Q s W N H; cbn [freepages].
  - apply wp_ret, H. side.
  - destruct W as (W1 & W3). assert (okp a) by (destruct a; easy).
    cbn [ops] in N. steps.
    apply IH; [exact W3|side|]. intros. apply H. cbn [ops]. side.
Qed.

Ltac bk1 :=
  first
  [ lazymatch goal with
    | |- wp (freepairs _) _ _ => apply wp_freepairs; [try side|try side|intros ? ?]
    | |- wp (freepages _) _ _ => apply wp_freepages; [try side|try side|intros ? ?]
    | |- wp (rpm_fetch_header _) _ _ =>
        apply wp_rpm_fetch_header; [try side|try side|intros ? ? ?|intros ? ? ?; try contra]
    end
  | mk11 ].
Ltac spec ::= bk1.

Ltac own_red ::=
  cbn [isnull negb andb orb fst snd chain
    ds_self ds_data ds_codec ds_zstd ds_null ds_junk set_ds_data
    cs_self cs_data cs_codec cs_zstd cs_null cs_junk set_cs_data end_codec
    wr_self wr_data wr_strm wr_null set_wr_strm
    r_self r_sig r_hdr r_arch rpm_null rpm_junk set_sig set_hdr set_arch
    fi_self fi_strs fi_null
    d_only d_rpm d_nevr d_src d_seq d_param d_adj d_lead d_int d_ext d_add d_data d_zero
    set_d_only set_d_rpm set_d_nevr set_d_src set_d_seq set_d_param set_d_adj set_d_lead
    set_d_int set_d_ext set_d_add set_d_data
    b_self b_table b_max b_cpio b_hdr b_open b_null k_core k_idle k_page k_fd no_pool].

Lemma wp_blocks_create from only r (Q : _ -> st -> Prop) s :
  e_oom (envs s) = false -> hd_rpm r -> need s (orpm r) ->
  (forall b s', wf_bk from only b -> chg s s' zer (obk b) -> Q (true, b) s') ->
  (forall s', chg s s' zer zer -> Q (false, b_null) s') ->
  wp (blocks_create from only r) Q s.
Proof.
  intros Z W N H1 H2. unfold blocks_create. destruct from, only; steps.
  all: first [apply H1; side|apply H2; side].
Qed.

Lemma wp_blocks_destroy (from only : bool) b p fs (Q : _ -> st -> Prop) s :
  wf_bk from only b -> wf_pl p -> isprs fs -> (from = true -> fs = []) ->
  need s (fun y => obk b y + opl p y + oprs fs y)%nat ->
  (forall s', chg s s' (fun y => obk b y + opl p y + oprs fs y)%nat zer -> Q tt s') ->
  wp (blocks_destroy from b p fs) Q s.
Proof.
  intros (W1 & W2 & W3 & W4 & W5 & W6) (V1 & V2 & V3 & V4) F E N H.
  unfold blocks_destroy. destruct b as [a t m c h o], p as [co id pg fd].
  cbn in W1, W2, W3, W4, W5, W6, V1, V2, V3, V4.
  destruct a; try destruct W1.
  assert (okp t) by (destruct t; easy). assert (okp m) by (destruct m; easy).
  assert (okp c) by (destruct c; easy).
  destruct from.
  - rewrite (E eq_refl) in *. subst o.
    assert (okp h) by (destruct only; cbn in W5; [destruct h; easy|subst; exact I]).
    steps; apply H; side.
  - cbn in W5. subst h. assert (okp o) by (destruct o; easy). steps; apply H; side.
Qed.
Lemma wp_blocks_destroy_null from p fs (Q : _ -> st -> Prop) s :
  Q tt s -> wp (blocks_destroy from b_null p fs) Q s.
Proof. intros H. unfold blocks_destroy. steps. exact H. Qed.

Lemma wp_new_core_block p (Q : _ -> st -> Prop) s :
  e_oom (envs s) = false ->
  (forall n m s', chg s s' zer (fun y => ind n y + ind m y)%nat ->
     Q (true, mkpool ((At n, At m) :: k_core p) (k_idle p) (k_page p) (k_fd p)) s') ->
  wp (new_core_block p) Q s.
Proof. intros Z H. unfold new_core_block. steps. apply H. side. Qed.

(** What a pool becomes if nothing fails. *)
Definition more (s s' : st) (p p' : pool) : Prop :=
  wf_pl p' /\ chg s s' (opl p) (opl p') /\ forall y, (opl p y <= opl p' y)%nat.

Lemma wp_write_page_block p (Q : _ -> st -> Prop) s :
  e_oom (envs s) = false -> e_page (envs s) = false -> wf_pl p -> need s (opl p) ->
  (forall p' s', k_core p' = k_core p -> more s s' p p' -> Q (true, p') s') ->
  wp (write_page_block p) Q s.
Proof.
  intros Z Y W N H. unfold write_page_block, page_for.
  destruct p as [co id pg fd]. pose proof W as (W1 & W2 & W3 & W4). cbn in W1, W2, W3, W4.
  apply wp_bind, wp_call. intros [|] s1 K1; [steps|].
  { apply H; [reflexivity|]. split; [exact W|]. split; [side|auto]. }
  apply wp_bind, wp_bind, wp_call. intros [|] s2 K2; apply wp_bind, wp_pickn; intros n s3 K3; merge.
  - cbn [k_page]. destruct (pull n pg) as [[q r]|] eqn:E.
    + apply pull_ats in E. destruct E as (E1 & E2). specialize (E2 W3). destruct E2 as (E2 & _).
      steps. apply H; [reflexivity|]. split; [exact W|]. split; [side|auto].
    + destruct fd; [|destruct W4|]; steps.
      all: apply H; [reflexivity|]; split; [side|]; split; [side|]; intro y; unfold opl; cbn; lia.
  - destruct fd; [|destruct W4|]; steps.
    all: apply H; [reflexivity|]; split; [side|]; split; [side|]; intro y; unfold opl; cbn; lia.
Qed.

Ltac bk2 :=
  first
  [ lazymatch goal with
    | |- wp (new_core_block _) _ _ => apply wp_new_core_block; [try envs_tac|intros ? ? ? ?]
    | |- wp (write_page_block _) _ _ =>
        apply wp_write_page_block;
          [try envs_tac|try envs_tac|try side|try side|intros ? ? ? (? & ? & ?)]
    end
  | bk1 ].
Ltac spec ::= bk2.

Lemma wp_push_block lim x p (Q : _ -> st -> Prop) s :
  e_oom (envs s) = false -> e_page (envs s) = false -> ispr x -> wf_pl p -> need s (opl p) ->
  (forall y, (opr x y <= opl p y)%nat) ->
  (forall p' s', more s s' p p' -> Q (true, p') s') ->
  wp (push_block lim x p) Q s.
Proof.
  intros Z Y (X1 & X2) W N O H. unfold push_block, take_free.
  destruct x as [b d]. cbn in X1, X2.
  destruct p as [co id pg fd]. pose proof W as (W1 & W2 & W3 & W4). cbn in W1, W2, W3, W4.
  unfold opr in O. cbn [fst snd] in O. cbn [k_idle].
  destruct id as [|i id].
  - steps.
    + apply H. split; [side|]. split; [side|]. intro y. unfold opl, opr. cbn. lia.
    + subst. apply H. split; [side|]. split; [side|]. auto.
    + apply H. split; [side|]. split; [side|]. auto.
  - steps. apply H. destruct W2. split; [side|]. split; [side|].
    intro y. unfold opl. cbn. lia.
Qed.

Lemma wp_next_block lim p (Q : _ -> st -> Prop) s :
  0 < lim -> e_oom (envs s) = false -> e_page (envs s) = false -> wf_pl p -> need s (opl p) ->
  (forall p' x l s', k_core p' = x :: l -> more s s' p p' -> Q (true, p') s') ->
  wp (next_block lim p) Q s.
Proof.
  intros L Z Y W N H. unfold next_block, take_free.
  destruct p as [co id pg fd]. pose proof W as (W1 & W2 & W3 & W4). cbn in W1, W2, W3, W4.
  cbn [k_idle k_core k_page k_fd].
  destruct id as [|i id].
  2: { steps. destruct W2. eapply H; [reflexivity|]. split; [side|]. split; [side|].
       intro y. unfold opl. cbn. lia. }
  assert (D : forall (s1 : st), chg s s1 zer zer ->
    wp (new_core_block (mkpool co [] pg fd)) Q s1).
  { intros s1 K. steps. eapply H; [reflexivity|]. split; [side|]. split; [side|].
    intro y. unfold opl, opr. cbn. lia. }
  assert (D2 : forall (s1 : st), chg s s1 zer zer ->
    wp (if below lim (mkpool co [] pg fd) then new_core_block (mkpool co [] pg fd)
        else
          match pull (length co - 1) co with
          | None => use Null ;; ret (false, mkpool co [] pg fd)
          | Some (x, r) =>
            let p := mkpool (x :: r) [] pg fd in
            paged <- call ;;
            if paged then use (snd x) ;; write_page_block p else ret (true, p)
          end)%own Q s1).
  { intros s1 K. destruct (below lim (mkpool co [] pg fd)) eqn:B; [apply D; side|].
    assert (CO : co <> []).
    { intros ->. unfold below in B. cbn in B. apply Z.ltb_ge in B. lia. }
    apply pull_last in CO. destruct (pull (length co - 1) co) as [[x r]|] eqn:E; [|congruence].
    apply pull_prs in E. destruct E as (E1 & E2). destruct (E2 W1) as ((X1 & X2) & X3).
    cbv zeta. steps.
    - subst. eapply H; [eassumption|]. split; [assumption|]. split; [side|].
      intro y. match goal with M : forall y, (opl _ y <= opl _ y)%nat |- _ => specialize (M y); revert M end.
      unfold opl. specialize (E1 y). unfold opr in E1. cbn in *. lia.
    - eapply H; [reflexivity|]. split; [side|]. split; [side|].
      intro y. unfold opl. cbn. specialize (E1 y). unfold opr in E1. cbn in E1. lia. }
  apply wp_bind, wp_call. intros early s1 K1.
  destruct (below lim (mkpool co [] pg fd) && early); [apply D; side|].
  apply wp_bind, wp_call. intros some s2 K2. apply wp_bind, wp_pickn. intros k s3 K3. merge.
  destruct some.
  - destruct (pull k co) as [[x r]|] eqn:E; [|apply D2; side].
    apply pull_prs in E. destruct E as (E1 & E2). destruct (E2 W1) as ((X1 & X2) & X3).
    steps. eapply H; [reflexivity|]. split; [side|]. split; [side|].
    intro y. unfold opl. cbn. specialize (E1 y). unfold opr in E1. cbn in E1. lia.
  - apply D2; side.
Qed.

(** Pools only grow. *)
Ltac mono := let y := fresh "y" in intro y; chg_split; inst y; lia.

Lemma more_refl s s' p : wf_pl p -> chg s s' zer zer -> more s s' p p.
Proof. intros W K. split; [exact W|]. split; [side|auto]. Qed.
Lemma more_trans s s1 s2 p p1 p2 : more s s1 p p1 -> more s1 s2 p1 p2 -> more s s2 p p2.
Proof.
  intros (A & B & D) (A1 & B1 & D1). split; [exact A1|]. split; [side|].
  intro y. specialize (D y). specialize (D1 y). lia.
Qed.

Lemma wp_read_archive r (Q : _ -> st -> Prop) s :
  hd_rpm r -> need s (orpm r) -> (forall b s', chg s s' zer zer -> Q b s') ->
  wp (read_archive r) Q s.
Proof.
  intros (W1 & W2 & W3 & W4) N H. unfold read_archive. destruct r. cbn in W1, W2, W3, W4.
  steps; apply H; side.
Qed.

Ltac bk3 :=
  first
  [ lazymatch goal with
    | |- wp (read_archive _) _ _ => apply wp_read_archive; [try side|try side|intros [|] ? ?]
    | |- wp (push_block _ _ _) _ _ =>
        apply wp_push_block;
          [try envs_tac|try envs_tac|try side|try side|try side|try assumption
          |intros ? ? (? & ? & ?)]
    end
  | bk2 ].
Ltac spec ::= bk3.

(** Names of entries that are passed. *)
Lemma wp_pass n r name (Q : _ -> st -> Prop) s :
  hd_rpm r -> okp name -> need s (fun y => orpm r y + op name y)%nat ->
  (forall b name' s', okp name' -> chg s s' (op name) (op name') -> Q (b, name') s') ->
  wp (rounds n (fun name => ok <- read_archive r ;;
                  if negb ok then ret (false, name) else grow name)%own name) Q s.
Proof.
  intros W V N H. pose (I := fun p' s' => okp p' /\ chg s s' (op name) (op p')).
  apply wp_rounds with (I := I) (J := I); unfold I; clear I.
  - split; [exact V|side].
  - intros a s1 (W1 & K1). steps; cbn [fst snd]; (split; [assumption|side]).
  - intros a s1 (W1 & K1). auto.
  - intros a s1 (W1 & K1). auto.
Qed.

Ltac bk4 :=
  first
  [ lazymatch goal with
    | |- wp (rounds _ (fun _ => bind (read_archive _) _) _) _ _ =>
        apply wp_pass; [try side|try side|try side|intros [|] ? ? ? ?]
    end
  | bk3 ].
Ltac spec ::= bk4.

Lemma wp_fill_standard lim b r fi q x p (Q : _ -> st -> Prop) s :
  e_oom (envs s) = false -> e_page (envs s) = false ->
  wf_bk true false b -> hd_rpm r -> wf_fi fi -> okp q -> ispr x -> wf_pl p ->
  need s (fun y => obk b y + orpm r y + ofi fi y + op q y + opl p y)%nat ->
  (forall y, (opr x y <= opl p y)%nat) ->
  (forall ok p' s', more s s' p p' -> Q (ok, p') s') ->
  wp (fill_standard lim b r fi q x p) Q s.
Proof.
  intros Z Y B R F Wq X W N O H. unfold fill_standard.
  apply wp_bind, wp_pickn. intros n s1 K1.
  pose (I := fun a s' => okp (fst a) /\ wf_pl (snd a) /\
    chg s s' (opl p) (fun y => op (fst a) y + opl (snd a) y)%nat /\
    forall y, (opl p y <= opl (snd a) y)%nat).
  apply wp_bind, wp_rounds with (I := I) (J := I); unfold I; clear I.
  - split; [exact I|]. split; [exact W|]. split; [side|auto].
  - intros [name p1] s2 (V1 & V2 & V3 & V4). cbn [fst snd] in V1, V2, V3, V4.
    pose proof B as (B1 & B2 & B3 & B4 & B5 & B6). pose proof X as (X1 & X2).
    pose proof F as (F1 & F2).
    assert (O1 : forall y, (opr x y <= opl p1 y)%nat).
    { intro y. specialize (O y). specialize (V4 y). lia. }
    unfold standard_round. steps.
    all: cbn [fst snd]; (split; [assumption|]); (split; [assumption|]); (split; [side|]).
    all: mono.
  - intros [name p1] s2 (V1 & V2 & V3 & V4). cbn [fst snd] in V1, V2, V3, V4. steps.
    apply H. split; [exact V2|]. split; [side|exact V4].
  - intros [name p1] s2 (V1 & V2 & V3 & V4). cbn [fst snd] in V1, V2, V3, V4. steps.
    apply H. split; [exact V2|]. split; [side|exact V4].
Qed.

Lemma wp_fill_only lim b r x p (Q : _ -> st -> Prop) s :
  e_oom (envs s) = false -> e_page (envs s) = false ->
  wf_bk true true b -> hd_rpm r -> ispr x -> wf_pl p ->
  need s (fun y => obk b y + orpm r y + opl p y)%nat ->
  (forall y, (opr x y <= opl p y)%nat) ->
  (forall ok p' s', more s s' p p' -> Q (ok, p') s') ->
  wp (fill_only lim b r x p) Q s.
Proof.
  intros Z Y B R X W N O H. unfold fill_only.
  apply wp_bind, wp_pickn. intros n s1 K1.
  pose (I := fun p' s' => wf_pl p' /\ chg s s' (opl p) (opl p') /\
    forall y, (opl p y <= opl p' y)%nat).
  apply wp_rounds with (I := I) (J := I); unfold I; clear I.
  - split; [exact W|]. split; [side|auto].
  - intros p1 s2 (V2 & V3 & V4).
    pose proof B as (B1 & B2 & B3 & B4 & B5 & B6). pose proof X as (X1 & X2).
    assert (O1 : forall y, (opr x y <= opl p1 y)%nat).
    { intro y. specialize (O y). specialize (V4 y). lia. }
    unfold only_round. steps.
    all: cbn [fst snd]; (split; [assumption|]); (split; [side|]).
    all: mono.
  - intros p1 s2 (V2 & V3 & V4). apply H. split; [exact V2|]. split; [side|exact V4].
  - intros p1 s2 (V2 & V3 & V4). apply H. split; [exact V2|]. split; [side|exact V4].
Qed.

Lemma wp_open_new_file mo b fi q fs (Q : _ -> st -> Prop) s :
  0 < mo -> envs s = calm -> wf_bk false false b -> wf_fi fi -> okp q -> isprs fs ->
  need s (fun y => obk b y + ofi fi y + op q y + oprs fs y)%nat ->
  (forall ok pre fs' s', isprs fs' -> chg s s' (oprs fs) (oprs fs') -> Q (ok, pre, fs') s') ->
  wp (open_new_file mo b fi q fs) Q s.
Proof.
  intros L Z (B1 & B2 & B3 & B4 & B5 & B6) (F1 & F2) Wq W N H. unfold open_new_file.
  destruct fs as [|[f d] l].
  - steps.
    all: try (apply H; [exact W|side]).
    all: try (apply H; [apply isprs_app; [exact I|side]|split; [envs_tac|]];
              chg_split; intro y; inst y; cbn; unfold obk in *; lia).
    all: exfalso; match goal with E : (_ <? _) = _ |- _ => cbn in E; apply Z.ltb_ge in E; lia end.
  - destruct W as ((W1 & W2) & W3). cbn in W1, W2. assert (okp d) by (destruct d; easy). steps.
    all: try (apply H; [side|side]).
    + apply H; [apply isprs_app; [side|side]|]. split; [envs_tac|].
      chg_split. intro y. inst y. rewrite oprs_app. cbn in *. lia.
    + apply H; [apply isprs_app; [side|side]|]. split; [envs_tac|].
      chg_split. intro y. inst y. rewrite oprs_app. cbn in *. lia.
    + apply H; [apply isprs_app; [side|side]|]. split; [envs_tac|].
      chg_split. intro y. inst y. rewrite oprs_app. cbn in *. lia.
    + apply H; [apply isprs_app; [side|side]|]. split; [envs_tac|].
      chg_split. intro y. inst y. rewrite oprs_app. cbn in *. lia.
Qed.

Lemma wp_get_open_file b fs (Q : _ -> st -> Prop) s :
  wf_bk false false b -> isprs fs -> need s (fun y => obk b y + oprs fs y)%nat ->
  (forall ok fs' s', isprs fs' -> chg s s' (oprs fs) (oprs fs') -> Q (ok, fs') s') ->
  wp (get_open_file b fs) Q s.
Proof.
  intros (B1 & B2 & B3 & B4 & B5 & B6) W N H. unfold get_open_file.
  apply wp_bind, wp_use; [exact B6|side|].
  apply wp_bind, wp_call. intros [|] s1 K1; apply wp_bind, wp_pickn; intros k s2 K2; merge.
  2: { steps. apply H; side. }
  destruct (pull k fs) as [[[f d] l]|] eqn:E; [|steps; apply H; side].
  apply pull_prs in E. destruct E as (E1 & E2). destruct (E2 W) as ((X1 & X2) & X3).
  cbn in X1, X2. unfold opr in E1. cbn [fst snd] in E1. steps.
  apply H; [apply isprs_app; [side|side]|]. split; [envs_tac|].
  chg_split. intro y. inst y. rewrite oprs_app. cbn in *. lia.
Qed.

Lemma wp_prelink_file (Q : _ -> st -> Prop) s :
  envs s = calm ->
  (forall n s', chg s s' zer (ind n) -> Q (true, At n) s') ->
  (forall s', chg s s' zer zer -> Q (false, Null) s') ->
  wp prelink_file Q s.
Proof. intros Z H1 H2. unfold prelink_file. steps; first [apply H1; side|apply H2; side]. Qed.

Ltac bk5 :=
  first
  [ lazymatch goal with
    | |- wp (open_new_file _ _ _ _ _) _ _ =>
        apply wp_open_new_file;
          [try assumption|try envs_tac|try side|try side|try side|try side|try side
          |intros [|] [|] ? ? ? ?]
    | |- wp (get_open_file _ _) _ _ =>
        apply wp_get_open_file; [try side|try side|try side|intros [|] ? ? ? ?]
    | |- wp prelink_file _ _ => apply wp_prelink_file; [try envs_tac|intros ? ? ?|intros ? ?]
    end
  | bk4 ].
Ltac spec ::= bk5.

Lemma wp_back n fi (Q : _ -> st -> Prop) s :
  envs s = calm -> wf_fi fi -> need s (ofi fi) ->
  (forall b fd ok s', okp fd -> chg s s' zer (op fd) -> Q (b, (fd, ok)) s') ->
  wp (rounds n (back_round fi) (Null, true)) Q s.
Proof.
  intros Z (F1 & F2) N H.
  apply wp_rounds with
    (I := fun a s' => fst a = Null /\ chg s s' zer zer)
    (J := fun a s' => okp (fst a) /\ chg s s' zer (op (fst a))).
  - split; [reflexivity|side].
  - intros [fd ok] s1 (E & K). cbn [fst] in E. subst fd. unfold back_round. steps.
    all: cbn [fst snd]; (split; [first [exact I|reflexivity]|side]).
  - intros [fd ok] s1 (E & K). cbn in E. subst fd. apply H; side.
  - intros [fd ok] s1 (E & K). cbn [fst snd] in E, K. apply H; side.
Qed.

Lemma wp_fill_prelink lim b fi x p (Q : _ -> st -> Prop) s :
  envs s = calm -> wf_bk false false b -> wf_fi fi -> ispr x -> wf_pl p ->
  need s (fun y => obk b y + ofi fi y + opl p y)%nat ->
  (forall y, (opr x y <= opl p y)%nat) ->
  (forall ok p' s', more s s' p p' -> Q (ok, p') s') ->
  wp (fill_prelink lim b fi x p) Q s.
Proof.
  intros Z B F X W N O H. unfold fill_prelink.
  apply wp_bind, wp_pickn. intros n s1 K1.
  apply wp_bind, wp_back; [envs_tac|exact F|side|]. intros c fd ok s2 Wf K2. merge.
  destruct ok; cbn [negb].
  2: { steps. apply H. split; [exact W|]. split; [side|auto]. }
  apply wp_bind, wp_call. intros [|] s3 K3; cbn [negb]; merge.
  2: { steps. apply H. split; [exact W|]. split; [side|auto]. }
  apply wp_bind, wp_pickn. intros m s4 K4. merge.
  pose (I := fun a s' => okp (fst a) /\ wf_pl (snd a) /\
    chg s s' (opl p) (fun y => op (fst a) y + opl (snd a) y)%nat /\
    forall y, (opl p y <= opl (snd a) y)%nat).
  apply wp_bind, wp_rounds with (I := I) (J := I); unfold I; clear I.
  - split; [exact Wf|]. split; [exact W|]. split; [side|auto].
  - intros [fd1 p1] s5 (V1 & V2 & V3 & V4). cbn [fst snd] in V1, V2, V3, V4.
    pose proof B as (B1 & B2 & B3 & B4 & B5 & B6). pose proof X as (X1 & X2).
    pose proof F as (F1 & F2).
    assert (O1 : forall y, (opr x y <= opl p1 y)%nat).
    { intro y. specialize (O y). specialize (V4 y). lia. }
    assert (Z5 : envs s5 = calm) by envs_tac.
    assert (Z6 : e_oom (envs s5) = false) by (now rewrite Z5).
    assert (Z7 : e_page (envs s5) = false) by (now rewrite Z5).
    unfold prelink_round. destruct fd1; [|destruct V1|]; steps.
    all: cbn [fst snd]; (split; [first [assumption|exact I]|]); (split; [assumption|]);
      (split; [side|mono]).
  - intros [fd1 p1] s5 (V1 & V2 & V3 & V4). cbn [fst snd] in V1, V2, V3, V4. steps.
    all: apply H; (split; [exact V2|]); (split; [side|exact V4]).
  - intros [fd1 p1] s5 (V1 & V2 & V3 & V4). cbn [fst snd] in V1, V2, V3, V4. steps.
    all: apply H; (split; [exact V2|]); (split; [side|exact V4]).
Qed.

Ltac bk6 :=
  first
  [ lazymatch goal with
    | |- wp (fill_prelink _ _ _ _ _) _ _ =>
        apply wp_fill_prelink;
          [try envs_tac|try side|try side|try side|try side|try side|try assumption
          |intros ? ? ? (? & ? & ?)]
    | |- wp (fill_only _ _ _ _ _) _ _ =>
        apply wp_fill_only;
          [try envs_tac|try envs_tac|try side|try side|try side|try side|try side|try assumption
          |intros ? ? ? (? & ? & ?)]
    | |- wp (fill_standard _ _ _ _ _ _ _) _ _ =>
        apply wp_fill_standard;
          [try envs_tac|try envs_tac|try side|try side|try side|try side|try side|try side
          |try side|try assumption|intros ? ? ? (? & ? & ?)]
    end
  | bk5 ].
Ltac spec ::= bk6.

Lemma wp_fs_rounds n mo b fi q x fs (P : Z -> nat) (Q : _ -> st -> Prop) s :
  0 < mo -> envs s = calm -> wf_bk false false b -> wf_fi fi -> okp q -> ispr x -> isprs fs ->
  need s (fun y => obk b y + ofi fi y + op q y + oprs fs y + P y)%nat ->
  (forall y, (opr x y <= P y)%nat) ->
  (forall ok fs' pre s', isprs fs' -> chg s s' (oprs fs) (oprs fs') -> Q (ok, (fs', pre)) s') ->
  wp (rounds n (fs_round mo b fi q x) (fs, false)) Q s.
Proof.
  intros L Z B F Wq X W N O H.
  pose (I := fun a s' => isprs (fst a) /\
    chg s s' (oprs fs) (oprs (@fst (list (ptr * ptr)) bool a))).
  apply wp_rounds with (I := I) (J := I); unfold I; clear I.
  - split; [exact W|side].
  - intros [fs1 pre] s1 (V1 & V2). cbn [fst snd] in V1, V2.
    pose proof B as (B1 & B2 & B3 & B4 & B5 & B6). pose proof X as (X1 & X2).
    unfold fs_round. steps.
    all: cbn [fst snd]; (split; [assumption|side]).
  - intros [fs1 pre] s1 (V1 & V2). apply H; assumption.
  - intros [fs1 pre] s1 (V1 & V2). apply H; assumption.
Qed.

Lemma wp_fill_files lim mo b fi q x p fs (Q : _ -> st -> Prop) s :
  0 < mo -> envs s = calm -> wf_bk false false b -> wf_fi fi -> okp q -> ispr x -> wf_pl p ->
  isprs fs ->
  need s (fun y => obk b y + ofi fi y + op q y + oprs fs y + opl p y)%nat ->
  (forall y, (opr x y <= opl p y)%nat) ->
  (forall ok p' fs' s', isprs fs' -> wf_pl p' ->
     chg s s' (fun y => opl p y + oprs fs y)%nat (fun y => opl p' y + oprs fs' y)%nat ->
     (forall y, opl p y <= opl p' y)%nat -> Q (ok, p', fs') s') ->
  wp (fill_files lim mo b fi q x p fs) Q s.
Proof.
  intros L Z B F Wq X Wp W N O H. unfold fill_files.
  apply wp_bind, wp_call. intros [|] s1 K1; cbn [negb]; [|steps; apply H; [side|side|side|auto]].
  apply wp_bind, wp_pickn. intros n s2 K2. merge.
  apply wp_bind, wp_fs_rounds with (P := opl p); try assumption; [envs_tac|side|].
  intros ok fs' pre s3 V K3. merge. steps.
  - apply H; assumption || side.
  - apply H; [side|side|side|auto].
Qed.

Ltac bk7 :=
  first
  [ lazymatch goal with
    | |- wp (fill_files _ _ _ _ _ _ _ _) _ _ =>
        apply wp_fill_files;
          [try assumption|try envs_tac|try side|try side|try side|try side|try side|try side
          |try side|try assumption|intros ? ? ? ? ? ? ? ?]
    end
  | bk6 ].
Ltac spec ::= bk7.

Lemma wp_get_block lim mo (from only : bool) b r fi q p fs (Q : _ -> st -> Prop) s :
  0 < lim -> 0 < mo -> e_oom (envs s) = false -> e_page (envs s) = false ->
  (from = false -> envs s = calm /\ only = false) ->
  wf_bk from only b -> hd_rpm r -> wf_fi fi -> okp q -> wf_pl p -> isprs fs ->
  need s (fun y => obk b y + orpm r y + ofi fi y + op q y + oprs fs y + opl p y)%nat ->
  (forall ok p' fs' s', isprs fs' -> (from = true -> fs' = fs) -> wf_pl p' ->
     chg s s' (fun y => opl p y + oprs fs y)%nat (fun y => opl p' y + oprs fs' y)%nat ->
     Q (ok, p', fs') s') ->
  wp (get_block lim mo from only b r fi q p fs) Q s.
Proof.
  intros L1 L2 Z Y A B R F Wq Wp W N H. unfold get_block.
  pose proof B as (B1 & B2 & B3 & B4 & B5 & B6).
  apply wp_bind, wp_use; [exact B1|side|]. apply wp_bind, wp_use; [exact B2|side|].
  apply wp_bind, wp_next_block; try assumption; [side|].
  intros p1 x l s1 E (V1 & V2 & V3). cbn [negb]. rewrite E.
  assert (X : ispr x). { destruct V1 as (V1 & _). rewrite E in V1. apply V1. }
  pose proof X as (X1 & X2).
  assert (O : forall y, (opr x y <= opl p1 y)%nat).
  { intro y. unfold opl. rewrite E. unfold opr. cbn. lia. }
  assert (G : okp (k_fd p1)) by apply V1.
  assert (M : need s1 (fun y => opl p1 y + obk b y + orpm r y + ofi fi y + op q y + oprs fs y)%nat)
    by side.
  assert (M1 : need s1 (op (k_fd p1))).
  { intro y. specialize (M y). unfold opl in M. cbn in M. lia. }
  assert (M2 : need s1 (opr x)).
  { intro y. specialize (M y). specialize (O y). cbn in M. lia. }
  apply wp_bind, wp_call. intros [|] s2 K2.
  { assert (need s2 (op (k_fd p1))) by (clear N M M2 V2; side).
    assert (need s2 (opr x)) by (clear N M M1 V2; side).
    apply wp_bind, wp_use; [exact X1|clear - H1; side|].
    apply wp_bind, wp_use; [exact X2|clear - H1; side|].
    apply wp_bind, wp_look; [exact G|assumption|].
    apply wp_bind, wp_call. intros ok s3 K3. apply wp_ret.
    apply H; [side|auto|exact V1|]. clear - V2 K2 K3. side. }
  clear M M1 M2 E. merge.
  destruct from.
  - destruct only; steps.
    + apply H; [side|auto|assumption|side].
    + apply H; [side|auto|assumption|side].
  - destruct (A eq_refl) as (A1 & ->). steps. apply H; [side|easy|assumption|side].
Qed.

Lemma wp_blocks_next lim mo (from only : bool) b r fi q buf p fs (Q : _ -> st -> Prop) s :
  0 < lim -> 0 < mo -> e_oom (envs s) = false -> e_page (envs s) = false ->
  (from = false -> envs s = calm /\ only = false) ->
  wf_bk from only b -> hd_rpm r -> wf_fi fi -> okp q -> isat buf -> wf_pl p -> isprs fs ->
  need s (fun y => obk b y + orpm r y + ofi fi y + op q y + op buf y + oprs fs y + opl p y)%nat ->
  (forall ok p' fs' s', isprs fs' -> (from = true -> fs' = fs) -> wf_pl p' ->
     chg s s' (fun y => opl p y + oprs fs y)%nat (fun y => opl p' y + oprs fs' y)%nat ->
     Q (ok, p', fs') s') ->
  wp (blocks_next lim mo from only b r fi q buf p fs) Q s.
Proof.
  intros L1 L2 Z Y A B R F Wq Wb Wp W N H. unfold blocks_next.
  pose proof B as (B1 & B2 & B3 & B4 & B5 & B6).
  assert (D : forall s1 : st, chg s s1 zer zer ->
    wp (bind (get_block lim mo from only b r fi q p fs)
         (fun x => let '(ok, p, fs) := x in
            if negb ok then ret (false, p, fs) else bind (use buf) (fun _ => ret (true, p, fs))))
       Q s1).
  { intros s1 K. apply wp_bind, wp_get_block; try assumption.
    - envs_tac.
    - envs_tac.
    - intros E. destruct (A E). split; [envs_tac|assumption].
    - side.
    - intros ok p' fs' s' V1 V2 V3 K1. merge. destruct ok; cbn [negb].
      + apply wp_bind, wp_use; [exact Wb|side|]. apply wp_ret. apply H; assumption || side.
      + apply wp_ret. apply H; assumption || side. }
  apply wp_bind, wp_use; [exact B1|side|]. apply wp_bind, wp_use; [exact B2|side|].
  apply wp_bind, wp_call. intros [|] s1 K1; apply wp_bind, wp_pickn; intros k s2 K2; merge.
  2: { apply D. side. }
  destruct (pull k (k_core p)) as [[x l]|] eqn:E; [|apply D; side].
  apply pull_prs in E. destruct E as (E1 & E2). destruct (E2 (proj1 Wp)) as ((X1 & X2) & _).
  unfold opr in E1.
  apply wp_bind, wp_use; [exact X1|side|]. apply wp_bind, wp_use; [exact X2|side|].
  apply wp_bind, wp_use; [exact Wb|side|]. apply wp_ret. apply H; [assumption|auto|assumption|side].
Qed.
