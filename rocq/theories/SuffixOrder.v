(** * SuffixOrder: the passes of [sfxsrt_create] sort the suffixes *)
From Verif Require Import Base BaseLemmas Seq Search Suffix SuffixText SuffixSplit.
Unset Lia Cache.

Section Order.
Context (N : Z) (T : Z -> Z).
Hypothesis N_small : fits N.
Notation agree := (agree T). Notation tlt := (tlt T). Notation WF := (WF N T).
Notation Pre := (Pre N T). Notation Post := (Post N T). Notation Done := (Done T).

Lemma post_nil h a A V J : WF h (getz V) J -> Post h a a A V J A V J.
Proof.
  intros W. split; try assumption; try reflexivity; [apply shuffle_refl|apply same_out_refl|apply done_nil].
Qed.

(** Three parts, of which the middle one has equal keys. *)
Lemma three_ok h a jj kk b g A V J A1 V1 J1 A2 V2 A3 V3 J3 :
  Pre h a b g A V J -> a <= jj -> jj < kk -> kk <= b ->
  (forall s t, jj <= s < kk -> jj <= t < kk -> agree (h + h) (J s) (J t)) ->
  Post h a jj A V J A1 V1 J1 ->
  zlen V2 = zlen V1 -> same_out jj kk A1 A2 ->
  (forall s, 0 <= s < kk -> getz V2 (J1 s) < kk) ->
  (forall s, 0 <= s < N -> ~ (jj <= s < kk) -> getz V2 (J1 s) = getz V1 (J1 s)) ->
  segs (getz A2) J1 (getz V2) jj kk ->
  Post h kk b A2 V2 J1 A3 V3 J3 ->
  Post h a b A V J A3 V3 J3.
Proof.
  intros P Ha Hj Hk Eq [Q1 Q2 Q3 Q4 Q5 Q6] LV O Bd Out Sg [R1 R2 R3 R4 R5 R6].
  destruct (p_bounds _ _ _ _ _ _ _ _ _ P) as (B1 & B2 & B3 & B4 & B5 & B6 & B7).
  assert (Sh1 : shuffle a b J J1) by (eapply shuffle_wider; [| |exact Q1]; lia).
  assert (Sh3 : shuffle a b J1 J3) by (eapply shuffle_wider; [| |exact R1]; lia).
  split.
  - eapply shuffle_trans; eassumption.
  - lia.
  - eapply same_out_trans; [eapply same_out_wider; [| |exact Q3]; lia|].
    eapply same_out_trans; (eapply same_out_wider; [| |eassumption]; lia).
  - assumption.
  - intros s Hs Ho. rewrite R5 by lia. rewrite Out by lia. apply Q5; lia.
  - destruct Q3 as [_ Q3]. destruct O as [_ O]. destruct R3 as [_ R3].
    assert (D1 : Done h a jj A3 V3 J3).
    { eapply done_keep; [exact Q6|]. intros s Hs.
      pose proof (shuffle_out _ _ _ _ s R1 ltac:(lia)) as E. rewrite R3, O by lia.
      split; [reflexivity|]. split; [assumption|]. rewrite <- Out by lia. rewrite <- R5 by lia. rewrite E. reflexivity. }
    assert (D2 : Done h jj kk A3 V3 J3).
    { assert (E : forall s, jj <= s < kk -> J3 s = J1 s) by (intros s Hs; apply (shuffle_out _ _ _ _ s R1); lia).
      assert (EV : forall s, jj <= s < kk -> getz V3 (J1 s) = getz V2 (J1 s)) by (intros s Hs; rewrite <- R5 by lia; rewrite E by assumption; reflexivity).
      split; [|split].
      - eapply segs_keep; [exact Sg|]. intros s Hs. split; [apply R3; lia|]. split; [auto|]. auto.
      - intros s t Hs Ht _. rewrite !E by assumption. rewrite !(shuffle_out _ _ _ _ _ Q1) by lia. auto.
      - intros s Hs. rewrite E, EV by assumption. apply Bd. lia. }
    apply (done_app N T) with jj; try assumption; try lia.
    apply (done_app N T) with kk; try assumption; lia.
Qed.

Lemma split_ok : forall fuel h a b g A V J, Pre h a b g A V J -> b - a < Z.of_nat fuel ->
  exists A' V' J', suffix_split fuel A V a (b - a) h = Ok (A', V') /\ Post h a b A V J A' V' J'.
Proof.
  induction fuel as [|fuel IH]; intros h a b g A V J P Hf.
  - destruct (p_bounds _ _ _ _ _ _ _ _ _ P). lia.
  - cbn [suffix_split]. destruct (b - a <? 16) eqn:C; [eapply small_ok; eassumption|].
    destruct (p_bounds _ _ _ _ _ _ _ _ _ P) as (B1 & B2 & B3 & B4 & B5 & B6 & B7).
    pose proof (p_lay _ _ _ _ _ _ _ _ _ P) as L. pose proof (p_room _ _ _ _ _ _ _ _ _ P) as R.
    set (mid := a + (b - a) / 2).
    assert (Hm : a <= mid < b) by (pose proof (Z.div_lt_upper_bound (b - a) 2 (b - a)); pose proof (Z.div_pos (b - a) 2); unfold mid; lia).
    pose proof (L mid Hm) as Lm. pose proof (R mid Hm) as Rm.
    rewrite (key_in N T N_small); rewrite ?Lm; try lia. cbn [bind].
    set (x := getz V (J mid + h)).
    assert (La : lay a (a + Z.of_nat (Z.to_nat (b - a))) A J) by (intros s Hs; apply L; lia).
    assert (Ra : room N h a (a + Z.of_nat (Z.to_nat (b - a))) J) by (intros s Hs; apply R; lia).
    rewrite (tally_ok N T N_small V h x J (Z.to_nat (b - a)) A a 0 0) by (try assumption; lia). cbn [bind].
    replace (a + Z.of_nat (Z.to_nat (b - a))) with b in * by lia. clear La Ra.
    set (jj := 0 + cnt (fun s => getz V (J s + h) <? x) a b + a).
    set (kk := 0 + cnt (fun s => getz V (J s + h) =? x) a b + jj).
    replace (a + (b - a)) with b by lia.
    assert (Ct : counted V h x a b jj kk J).
    { unfold counted. split; [unfold jj; lia|]. split; [unfold kk; lia|].
      pose proof (cnt_three (fun s => getz V (J s + h) <? x) (fun s => getz V (J s + h) =? x) (fun s => x <? getz V (J s + h)) a b B3) as Q.
      cbn beta in Q. specialize (Q ltac:(clear; intros s _; destruct (getz V (J s + h) <? x) eqn:E1; destruct (getz V (J s + h) =? x) eqn:E2; destruct (x <? getz V (J s + h)) eqn:E3; lia)).
      unfold kk, jj. lia. }
    destruct (counted_bounds T V h x a b jj kk J B3 Ct) as [Bj Bk].
    assert (Hjk : jj < kk).
    { destruct Ct as (_ & Ct & _). pose proof (cnt_more (fun s => getz V (J s + h) =? x) a b a a mid) as M. cbn beta in M. rewrite Ct in M.
      specialize (M ltac:(lia) ltac:(lia) ltac:(lia) ltac:(lia) ltac:(lia) ltac:(lia)). fold x in M. rewrite Z.eqb_refl in M.
      specialize (M eq_refl). lia. }
    clearbody x jj kk. clear Hm Lm Rm. clearbody mid.
    destruct (part_low N T N_small V h x a b jj kk A J) as (j & k & A1 & J1 & E1 & P1 & Lo1); try assumption; [lia|].
    rewrite E1. cbn [bind]. clear E1.
    destruct (part_mid N T N_small V h x a b jj kk A J j k A1 J1) as (A2 & J2 & E2 & Sh & O & L2 & Lo & Mi & Hi); try assumption; [lia|].
    rewrite E2. cbn [bind]. clear E2 P1 Lo1 A1 J1 j k mid.
    pose proof (pre_shuffle _ _ _ _ _ _ _ _ _ _ _ P Sh O L2) as P2.
    pose proof (p_class _ _ _ _ _ _ _ _ _ P2) as Cl2. pose proof (p_room _ _ _ _ _ _ _ _ _ P2) as R2.
    pose proof (p_wf _ _ _ _ _ _ _ _ _ P2) as W2.
    assert (Keys : forall s t, a <= s < b -> a <= t < b -> getz V (J2 s + h) < getz V (J2 t + h) -> tlt (J2 s) (J2 t)).
    { intros s t Hs Ht Hl. pose proof (R2 s Hs). pose proof (R2 t Ht).
      apply (keys_lt N T h V J2 g); try assumption; try lia; apply Cl2; lia. }
    assert (Low : forall s t, a <= s < jj -> jj <= t < b -> tlt (J2 s) (J2 t)).
    { intros s t Hs Ht. apply Keys; try lia. pose proof (Lo s Hs). cbn beta in *. destruct (Z.lt_ge_cases t kk).
      - rewrite (Mi t) by lia. assumption.
      - pose proof (Hi t ltac:(lia)). cbn beta in *. lia. }
    assert (Mid : forall s t, jj <= s < kk -> kk <= t < b -> tlt (J2 s) (J2 t)).
    { intros s t Hs Ht. apply Keys; try lia. rewrite (Mi s) by lia. apply Hi. lia. }
    assert (Eq : forall s t, jj <= s < kk -> jj <= t < kk -> agree (h + h) (J2 s) (J2 t)).
    { intros s t Hs Ht. pose proof (R2 s ltac:(lia)). pose proof (R2 t ltac:(lia)).
      apply (keys_agree N T h V J2 g); try assumption; try lia; try (apply Cl2; lia). rewrite (Mi s), (Mi t) by lia. reflexivity. }
    destruct (p_bounds _ _ _ _ _ _ _ _ _ P2) as (_ & _ & _ & _ & _ & D6 & _).
    assert (H1 : exists A3 V3 J3, (if a <? jj then suffix_split fuel A2 V a (jj - a) h else Ok (A2, V)) = Ok (A3, V3) /\
      Post h a jj A2 V J2 A3 V3 J3).
    { destruct (a <? jj) eqn:Ca.
      - apply (IH h a jj g); [|lia]. destruct P2 as [X1 X2 X3 X4 X5 X6 X7]. split; try assumption.
        + clear - X2 Bj Bk Hjk. repeat split; lia.
        + intros s Hs. apply X5. lia.
        + intros s Hs. apply X6. lia.
        + intros s t Hs Ht. destruct (Z.lt_ge_cases t b); [apply Low; lia|apply X7; lia].
      - assert (jj = a) by lia. subst jj. exists A2, V, J2. split; [reflexivity|]. apply post_nil. assumption. }
    destruct H1 as (A3 & V3 & J3 & E3 & Q3). rewrite E3. cbn [bind]. clear E3.
    pose proof (q_shuffle _ _ _ _ _ _ _ _ _ _ _ Q3) as Sh3. pose proof (q_out _ _ _ _ _ _ _ _ _ _ _ Q3) as [O3L O3].
    pose proof (q_len _ _ _ _ _ _ _ _ _ _ _ Q3) as L3. pose proof (q_wf _ _ _ _ _ _ _ _ _ _ _ Q3) as W3.
    pose proof (q_keep _ _ _ _ _ _ _ _ _ _ _ Q3) as K3. pose proof (q_done _ _ _ _ _ _ _ _ _ _ _ Q3) as (_ & _ & D3).
    assert (J3e : forall s, jj <= s -> J3 s = J2 s) by (intros s Hs; apply (shuffle_out _ _ _ _ s Sh3); lia).
    assert (V3e : forall s, jj <= s <= g -> getz V3 (J3 s) = g) by (intros s Hs; rewrite K3 by lia; apply Cl2; lia).
    destruct (close_ok N T A3 V3 J3 h jj kk g W3) as (V4 & A4 & E4 & E5 & L4 & O4 & W4 & Bd4 & K4 & In4 & S4); try assumption; try lia.
    { intros s Hs. destruct (Z.lt_ge_cases s a).
      - rewrite K3 by lia. pose proof (p_start _ _ _ _ _ _ _ _ _ P2 s). lia.
      - apply D3. lia. }
    { intros s Hs. rewrite O3, J3e by lia. apply L2. lia. }
    { intros s t Hs Ht. rewrite !J3e by lia. destruct (Z.lt_ge_cases t b); [apply Mid; lia|apply (p_lt _ _ _ _ _ _ _ _ _ P2); lia]. }
    rewrite E4. cbn [bind]. rewrite E5. cbn [bind]. clear E4 E5.
    assert (H2 : exists A5 V5 J5, (if kk <? b then suffix_split fuel A4 V4 kk (b - kk) h else Ok (A4, V4)) = Ok (A5, V5) /\
      Post h kk b A4 V4 J3 A5 V5 J5).
    { destruct (kk <? b) eqn:Cb.
      - apply (IH h kk b g); [|lia]. destruct O4 as [O4L O4].
        assert (Z1 : forall s, kk <= s <= g -> 0 <= s < N /\ jj <= s <= g /\ jj <= s /\ ~ (jj <= s < kk) /\ ~ (a <= s < jj) /\ 0 <= s)
          by (clear - B2 B5 Bj Hjk; intros s Hs; lia).
        assert (Z2 : forall s, kk <= s < b -> kk <= s <= g /\ a <= s < b) by (clear - B4 Bj Hjk; intros s Hs; lia).
        split; try assumption.
        + clear - B1 B2 Bj Bk Hjk B4 B5 B6 B7 D6 O3L O4L L3 L4. repeat split; lia.
        + intros s Hs. destruct (Z1 s Hs) as (z1 & z2 & z3 & z4 & z5 & z6). rewrite K4 by assumption. apply V3e. assumption.
        + intros s Hs. destruct (Z2 s Hs) as [y1 y2]. destruct (Z1 s y1) as (z1 & z2 & z3 & z4 & z5 & z6).
          rewrite O4, O3, J3e by assumption. apply L2. assumption.
        + intros s Hs. destruct (Z2 s Hs) as [y1 y2]. destruct (Z1 s y1) as (z1 & z2 & z3 & z4 & z5 & z6).
          rewrite J3e by assumption. apply R2. assumption.
        + intros s t Hs Ht. destruct (Z2 s Hs) as [y1 y2]. rewrite !J3e by (clear - Hs Ht Hjk Bk; lia).
          apply (p_lt _ _ _ _ _ _ _ _ _ P2); assumption.
      - assert (kk = b) by lia. subst kk. exists A4, V4, J3. split; [reflexivity|]. apply post_nil. assumption. }
    destruct H2 as (A5 & V5 & J5 & E6 & Q5). rewrite E6. clear E6. exists A5, V5, J5. split; [reflexivity|].
    pose proof (three_ok h a jj kk b g A2 V J2 A3 V3 J3 A4 V4 A5 V5 J5 P2 ltac:(lia) Hjk ltac:(lia) Eq Q3 L4 O4 Bd4 K4 S4 Q5) as [F1 F2 F3 F4 F5 F6].
    split; try assumption.
    + eapply shuffle_trans; eassumption.
    + eapply same_out_trans; eassumption.
    + intros s Hs Ho. rewrite F5 by assumption. rewrite (shuffle_out _ _ _ _ s Sh) by assumption. reflexivity.
Qed.

(** ** One pass *)
Definition alone (V : list Z) (J : Z -> Z) : Prop := forall s, 0 <= s < N -> getz V (J s) = s.

Lemma wf_more h h' V J : WF h V J -> (forall s t, 0 <= s < N -> 0 <= t < N -> V (J s) = V (J t) -> agree h' (J s) (J t)) -> WF h' V J.
Proof. intros [] F. split; assumption. Qed.

Lemma pending_ok A V J i l : 0 <= l -> l <= i -> i <= N -> N <= zlen A ->
  segs (getz A) J (getz V) 0 (i - l) -> (forall s, i - l <= s < i -> getz V (J s) = s) ->
  exists A', (if 0 <? l then store A (i - l) (- l) else Ok A) = Ok A' /\ zlen A' = zlen A /\
    (forall s, i <= s -> getz A' s = getz A s) /\ segs (getz A') J (getz V) 0 i /\ (0 < l -> getz A' (i - l) = - l).
Proof.
  intros Hl Hli Hi HA S P. destruct (0 <? l) eqn:C.
  - destruct (store_in A (i - l) (- l)) as (A' & E & L & G); [lia|]. exists A'. split; [assumption|]. split; [assumption|].
    assert (E1 : getz A' (i - l) = - l) by (rewrite G, Z.eqb_refl by lia; reflexivity).
    split; [intros s Hs; rewrite G by lia; replace (s =? i - l) with false by lia; reflexivity|]. split; [|auto].
    eapply segs_app.
    + eapply segs_keep; [exact S|]. intros s Hs. rewrite G by lia. replace (s =? i - l) with false by lia. auto.
    + apply segs_run with l; [lia|assumption|intros s Hs; apply P; lia|]. replace (i - l + l) with i by lia. constructor.
  - exists A. split; [reflexivity|]. split; [reflexivity|]. split; [auto|]. replace (i - l) with i in S by lia. split; [assumption|lia].
Qed.

Definition passing (h : Z) (A0 V0 : list Z) (J0 : Z -> Z) (i l : Z) (A V : list Z) (J : Z -> Z) : Prop :=
  0 <= l /\ l <= i /\ i <= N /\ zlen A = zlen A0 /\ zlen V = zlen V0 /\ WF h (getz V) J /\
  segs (getz A) J (getz V) 0 (i - l) /\ (forall s, i - l <= s < i -> getz V (J s) = s) /\
  segs (getz A) J (getz V) i N /\
  (forall s t, 0 <= s < i -> 0 <= t < i -> getz V (J s) = getz V (J t) -> agree (h + h) (J s) (J t)) /\
  (forall s, 0 <= s < i -> getz V (J s) < i) /\ (alone V0 J0 -> l = i /\ alone V J).

Hypothesis T_last : forall p, N - 1 <= p -> T p = -1.
Hypothesis T_body : forall p, 0 <= p < N - 1 -> 0 <= T p.

Lemma pass_run h A0 V0 J0 i l l' A V J : passing h A0 V0 J0 i l A V J -> 0 < l' -> i + l' <= N ->
  (forall s, i <= s < i + l' -> getz V (J s) = s) -> segs (getz A) J (getz V) (i + l') N ->
  passing h A0 V0 J0 (i + l') (l + l') A V J.
Proof.
  clear T_last T_body. intros (Q1 & Q2 & Q3 & Q4 & Q5 & Q6 & Q7 & Q8 & Q9 & Q10 & Q11 & Q12) Hl Hi Hr Sg. unfold passing.
  split; [lia|]. split; [lia|]. split; [lia|]. split; [assumption|]. split; [assumption|]. split; [assumption|].
  replace (i + l' - (l + l')) with (i - l) by lia. split; [assumption|].
  assert (R : forall s, i - l <= s < i + l' -> getz V (J s) = s).
  { intros s Hs. destruct (Z.lt_ge_cases s i); [apply Q8|apply Hr]; lia. }
  split; [assumption|]. split; [assumption|]. split.
  - intros s t Hs Ht E. destruct (Z.lt_ge_cases s i); destruct (Z.lt_ge_cases t i).
    + apply Q10; auto; lia.
    + pose proof (Q11 s). rewrite (Hr t) in E by lia. lia.
    + pose proof (Q11 t). rewrite (Hr s) in E by lia. lia.
    + rewrite (Hr s), (Hr t) in E by lia. subst t. apply agree_refl.
  - split.
    + intros s Hs. destruct (Z.lt_ge_cases s i); [pose proof (Q11 s); lia|]. rewrite Hr by lia. lia.
    + intros H. destruct (Q12 H). split; [lia|assumption].
Qed.

Lemma pass_group h A0 V0 J0 i l g A V J : 0 <= h -> N <= zlen A0 -> N <= zlen V0 ->
  passing h A0 V0 J0 i l A V J -> i < g -> g < N ->
  (forall s, i <= s <= g -> getz A s = J s /\ getz V (J s) = g) -> segs (getz A) J (getz V) (g + 1) N ->
  exists A1 V1 J1, pass_step N h (i, l, A, V) = Ok (inl (g + 1, 0, A1, V1)) /\ passing h A0 V0 J0 (g + 1) 0 A1 V1 J1.
Proof.
  intros Hh HA HV (Q1 & Q2 & Q3 & Q4 & Q5 & Q6 & Q7 & Q8 & Q9 & Q10 & Q11 & Q12) Hig Hg C Sg.
  unfold pass_step. replace (i <? N) with true by lia. rewrite rd_in by lia. cbn [bind].
  assert (Hx : getz A i = J i) by (apply C; lia). rewrite Hx.
  pose proof (w_range _ _ _ _ _ Q6 i ltac:(lia)) as Rx. replace (J i <? 0) with false by lia.
  destruct (pending_ok A V J i l) as (A1 & E1 & L1 & O1 & S1 & _); try assumption; [lia|].
  rewrite E1. cbn [bind]. clear E1. rewrite rd_in by lia. cbn [bind].
  replace (getz V (J i)) with g by (symmetry; apply C; lia).
  assert (Rm : room N h i (g + 1) J).
  { intros s Hs. pose proof (w_range _ _ _ _ _ Q6 s ltac:(lia)) as Rs. split; [lia|].
    pose (t := if s =? i then g else i). assert (Ht : i <= t <= g /\ t <> s) by (unfold t; destruct (s =? i) eqn:E; lia).
    destruct (agree_inside N T T_last T_body h (J s) (J t)) as [A2 A3]; try assumption.
    - apply (w_range _ _ _ _ _ Q6). lia.
    - intros E. apply (w_inj _ _ _ _ _ Q6) in E; lia.
    - apply (w_agree _ _ _ _ _ Q6); try lia. rewrite (proj2 (C s ltac:(lia))), (proj2 (C t ltac:(lia))). reflexivity. }
  assert (P : Pre h i (g + 1) g A1 V J).
  { split; try assumption.
    - repeat split; lia.
    - intros s Hs. apply C. lia.
    - intros s Hs. rewrite O1 by lia. apply C. lia.
    - lia. }
  destruct (split_ok (Z.to_nat (g + 1 - i) + 1) h i (g + 1) g A1 V J P ltac:(lia)) as (A2 & V2 & J2 & E2 & [F1 F2 [F3L F3] F4 F5 (F6 & F7 & F8)]).
  rewrite E2. cbn [bind]. exists A2, V2, J2. split; [replace (i + (g + 1 - i)) with (g + 1) by lia; reflexivity|]. clear E2. unfold passing.
  assert (ZA : zlen A2 = zlen A0) by (rewrite F3L, L1; assumption). assert (ZV : zlen V2 = zlen V0) by (rewrite F2; assumption).
  clear Q4 Q5 L1 F2 F3L HA HV P Rm Rx Hx Hh.
  assert (Keep : forall s, 0 <= s < N -> ~ (i <= s < g + 1) -> J2 s = J s /\ getz V2 (J s) = getz V (J s)).
  { intros s Hs Ho. pose proof (shuffle_out _ _ _ _ s F1 Ho) as E. split; [assumption|]. rewrite <- F5 by assumption. rewrite E. reflexivity. }
  assert (S0 : segs (getz A2) J2 (getz V2) 0 i).
  { eapply segs_keep; [exact S1|]. intros s Hs. destruct (Keep s) as [K1 K2]; [lia|lia|]. rewrite F3 by lia. auto. }
  split; [lia|]. split; [lia|]. split; [lia|]. split; [assumption|]. split; [assumption|]. split; [assumption|]. clear ZA ZV.
  replace (g + 1 - 0) with (g + 1) by lia.
  split; [eapply segs_app; [exact S0|assumption]|]. split; [lia|]. split.
  { eapply segs_keep; [exact Sg|]. intros s Hs. destruct (Keep s) as [K1 K2]; [lia|lia|].
    rewrite F3, O1 by lia. auto. }
  assert (Bd : forall s, 0 <= s < i -> getz V2 (J2 s) < i).
  { intros s Hs. destruct (Keep s) as [K1 K2]; [lia|lia|]. rewrite K1, K2. auto. }
  split.
  - intros s t Hs Ht E. destruct (Z.lt_ge_cases s i); destruct (Z.lt_ge_cases t i).
    + destruct (Keep s) as [K1 K2]; [lia|lia|]. destruct (Keep t) as [K3 K4]; [lia|lia|].
      rewrite K1, K3 in *. apply Q10; try lia.
    + pose proof (Bd s). pose proof (w_last _ _ _ _ _ F4 t). lia.
    + pose proof (Bd t). pose proof (w_last _ _ _ _ _ F4 s). lia.
    + apply F7; auto; lia.
  - split.
    + intros s Hs. destruct (Z.lt_ge_cases s i); [pose proof (Bd s); lia|apply F8; lia].
    + intros H. destruct (Q12 H) as [_ Al]. pose proof (Al i ltac:(lia)) as X. rewrite (proj2 (C i ltac:(lia))) in X. lia.
Qed.

Lemma pass_ok h A V J : 0 <= h -> 0 < N -> N <= zlen A -> N <= zlen V -> WF h (getz V) J -> segs (getz A) J (getz V) 0 N ->
  exists A' V' J', while (Z.to_nat N + 1) (pass_step N h) (0, 0, A, V) = Ok (A', V') /\
    zlen A' = zlen A /\ zlen V' = zlen V /\ WF (h + h) (getz V') J' /\ segs (getz A') J' (getz V') 0 N /\
    (alone V J -> getz A' 0 = - N).
Proof.
  intros Hh HN HA HV W S.
  assert (H : exists r, while (Z.to_nat N + 1) (pass_step N h) (0, 0, A, V) = Ok r /\
    (fun r : list Z * list Z => let '(A', V') := r in exists J',
    zlen A' = zlen A /\ zlen V' = zlen V /\ WF (h + h) (getz V') J' /\ segs (getz A') J' (getz V') 0 N /\
    (alone V J -> getz A' 0 = - N)) r).
  { apply (while_ok _ (fun s : Z * Z * list Z * list Z => let '(i, l, A1, V1) := s in exists J1, passing h A V J i l A1 V1 J1)
      (fun s : Z * Z * list Z * list Z => let '(i, l, A1, V1) := s in N - i)).
    - intros [[[i l] A1] V1] (J1 & P). pose proof P as (Q1 & Q2 & Q3 & Q4 & Q5 & Q6 & Q7 & Q8 & Q9 & Q10 & Q11 & Q12).
      split; [lia|]. destruct (Z.lt_ge_cases i N).
      + remember N as M eqn:EM in Q9. destruct Q9 as [a|a l' b Hl' E Hr Sg|a g b Hg C Sg]; [lia| |]; subst.
        * pose proof (segs_le _ _ _ _ _ Sg). unfold pass_step. replace (a <? N) with true by lia.
          rewrite rd_in by lia. cbn [bind]. rewrite E. replace (- l' <? 0) with true by lia.
          replace (a - - l') with (a + l') by lia. replace (l - - l') with (l + l') by lia.
          eexists; split; [reflexivity|]. split; [|lia]. exists J1. apply pass_run; assumption.
        * pose proof (segs_le _ _ _ _ _ Sg).
          destruct (pass_group h A V J a l g A1 V1 J1) as (A2 & V2 & J2 & E & P2); try assumption; [lia|].
          eexists; split; [exact E|]. split; [|lia]. exists J2. assumption.
      + assert (i = N) by lia. subst i. unfold pass_step. replace (N <? N) with false by lia.
        destruct (pending_ok A1 V1 J1 N l) as (A2 & E2 & L2 & O2 & S2 & Z2); try assumption; [lia|].
        rewrite E2. cbn [bind]. eexists; split; [reflexivity|]. exists J1. split; [lia|]. split; [lia|].
        split; [eapply wf_more; eassumption|]. split; [assumption|].
        intros Al. destruct (Q12 Al) as [-> _]. replace (N - N) with 0 in Z2 by lia. apply Z2. lia.
    - exists J. unfold passing. split; [lia|]. split; [lia|]. split; [lia|]. split; [reflexivity|]. split; [reflexivity|].
      split; [assumption|]. split; [constructor|]. split; [lia|]. split; [assumption|]. split; [lia|]. split; [lia|auto].
    - lia. }
  destruct H as ([A' V'] & E & J' & H). exists A', V', J'. auto.
Qed.

(** ** All passes *)
Lemma order_ok h A V J : 1 <= h -> 0 < N -> N <= zlen A -> N <= zlen V -> WF h (getz V) J -> segs (getz A) J (getz V) 0 N ->
  exists A' V' J' h', while (Z.to_nat N + 2) (order_step N) (h, A, V) = Ok (A', V') /\
    zlen A' = zlen A /\ zlen V' = zlen V /\ WF h' (getz V') J' /\ alone V' J'.
Proof.
  intros Hh HN HA HV W S.
  assert (H : exists r, while (Z.to_nat N + 2) (order_step N) (h, A, V) = Ok r /\
    (fun r : list Z * list Z => let '(A', V') := r in exists J' h',
    zlen A' = zlen A /\ zlen V' = zlen V /\ WF h' (getz V') J' /\ alone V' J') r).
  { apply (while_ok _ (fun s : Z * list Z * list Z => let '(h, A1, V1) := s in exists J1,
       1 <= h /\ zlen A1 = zlen A /\ zlen V1 = zlen V /\ WF h (getz V1) J1 /\ segs (getz A1) J1 (getz V1) 0 N)
      (fun s : Z * list Z * list Z => let '(h, A1, V1) := s in Z.max 0 (N - h) + (if getz A1 0 =? - N then 0 else 1))).
    - intros [[h1 A1] V1] (J1 & Q1 & Q2 & Q3 & Q4 & Q5). split; [destruct (getz A1 0 =? - N); lia|].
      unfold order_step. rewrite rd_in by lia. cbn [bind]. destruct (getz A1 0 =? - N) eqn:C.
      + eexists; split; [reflexivity|]. exists J1, h1. split; [assumption|]. split; [assumption|]. split; [assumption|].
        remember 0 as z eqn:Ez in Q5 at 1. remember N as M eqn:EM in Q5.
        destruct Q5 as [a|a l b Hl E Hr Sg|a g b Hg D Sg]; [lia| |]; subst a b.
        * intros s Hs. apply Hr. lia.
        * pose proof (segs_le _ _ _ _ _ Sg). pose proof (w_range _ _ _ _ _ Q4 0 ltac:(lia)). rewrite (proj1 (D 0 ltac:(lia))) in C. lia.
      + destruct (pass_ok h1 A1 V1 J1) as (A2 & V2 & J2 & E & L1 & L2 & W2 & S2 & Al); try assumption; try lia.
        rewrite E. cbn [bind]. eexists; split; [reflexivity|]. split.
        * exists J2. split; [lia|]. split; [lia|]. split; [lia|]. auto.
        * destruct (Z.lt_ge_cases h1 N); [destruct (getz A2 0 =? - N); lia|]. rewrite Al; [rewrite Z.eqb_refl; lia|].
          intros s Hs. destruct (w_last _ _ _ _ _ Q4 s Hs) as [X Y].
          assert (J1 (getz V1 (J1 s)) = J1 s) as Z.
          { apply (agree_all N T T_last T_body h1); try assumption; try (apply (w_range _ _ _ _ _ Q4); lia).
            apply (w_agree _ _ _ _ _ Q4); lia. }
          apply (w_inj _ _ _ _ _ Q4) in Z; lia.
    - exists J. auto.
    - destruct (getz A 0 =? - N); lia. }
  destruct H as ([A' V'] & E & J' & h' & H). exists A', V', J', h'. auto.
Qed.

(** ** The array in the end *)
Lemma invert_ok V J h : WF h (getz V) J -> alone V J -> N <= zlen V ->
  forall n i A, 0 <= i -> i + Z.of_nat n <= N -> N <= zlen A ->
  exists A', invert n i A V = Ok A' /\ zlen A' = zlen A /\
    (forall s, 0 <= s < N -> i <= J s < i + Z.of_nat n -> getz A' s = J s) /\
    (forall s, 0 <= s < N -> ~ (i <= J s < i + Z.of_nat n) -> getz A' s = getz A s).
Proof.
  clear T_last T_body. intros W Al HV. induction n as [|n IH]; intros i A Hi Hn HA; cbn [invert].
  - exists A. split; [reflexivity|]. split; [reflexivity|]. split; [lia|auto].
  - rewrite rd_in by lia. cbn [bind]. destruct (w_surj _ _ _ _ _ W i ltac:(lia)) as (t & Ht & Et).
    replace (getz V i) with t by (rewrite <- Et, Al by assumption; reflexivity).
    destruct (store_in A t i) as (A1 & -> & L1 & G1); [lia|]. cbn [bind].
    destruct (IH (i + 1) A1) as (A2 & E & L2 & In & Out); [lia|lia|lia|]. exists A2. split; [assumption|]. split; [lia|]. split.
    + intros s Hs Hj. destruct (Z.eq_dec (J s) i) as [Ei|Ei].
      * rewrite Out by lia. rewrite G1 by lia. assert (s = t) by (apply (w_inj _ _ _ _ _ W); lia). subst t. rewrite Z.eqb_refl. lia.
      * apply In; lia.
    + intros s Hs Hj. rewrite Out by lia. rewrite G1 by lia. replace (s =? t) with false; [reflexivity|].
      symmetry. apply Z.eqb_neq. intros ->. lia.
Qed.
End Order.
