(** * SuffixCreate: the keys, the table and all of [sfxsrt_create] *)
From Verif Require Import Base BaseLemmas Seq Search Suffix SuffixText SuffixSplit SuffixOrder SuffixKeys.
Unset Lia Cache.

(** ** Numbers of [k] digits *)
Section Digits.
Context (T : Z -> Z).
Fixpoint val (k : nat) (p : Z) : Z :=
  match k with O => 0 | S k => val k p * 256 + T (p + Z.of_nat k) end.
Definition digits (k p : Z) : Prop := forall i, 0 <= i < k -> 0 <= T (p + i) < 256.

Lemma pow_s k : 256 ^ Z.of_nat (S k) = 256 ^ Z.of_nat k * 256.
Proof. rewrite Nat2Z.inj_succ, Z.pow_succ_r by lia. lia. Qed.
Lemma pow_pos k : 0 < 256 ^ Z.of_nat k.
Proof. apply Z.pow_pos_nonneg; lia. Qed.
Lemma val_range k p : digits (Z.of_nat k) p -> 0 <= val k p < 256 ^ Z.of_nat k.
Proof.
  induction k as [|k IH]; intros D; [cbn; lia|]. cbn [val]. rewrite pow_s.
  assert (D' : digits (Z.of_nat k) p) by (intros i Hi; apply D; lia). specialize (IH D').
  pose proof (D (Z.of_nat k) ltac:(lia)). nia.
Qed.
Lemma val_first k p : val (S k) p = T p * 256 ^ Z.of_nat k + val k (p + 1).
Proof.
  induction k as [|k IH]; [cbn [val]; rewrite Z.add_0_r; cbn; lia|].
  cbn [val] in IH |- *. rewrite IH, pow_s. replace (p + 1 + Z.of_nat k) with (p + Z.of_nat (S k)) by lia. ring.
Qed.
Lemma val_mod k p : digits (Z.of_nat (S k)) p -> val (S k) p mod 256 ^ Z.of_nat k = val k (p + 1).
Proof.
  intros D. rewrite val_first. rewrite Z.add_comm, Z_mod_plus_full. apply Z.mod_small. apply val_range.
  intros i Hi. specialize (D (1 + i)). replace (p + (1 + i)) with (p + 1 + i) in D by lia. apply D. lia.
Qed.
Lemma val_eq k p q : digits (Z.of_nat k) p -> digits (Z.of_nat k) q -> val k p = val k q -> agree T (Z.of_nat k) p q.
Proof.
  induction k as [|k IH]; intros D D' E i Hi; [lia|]. cbn [val] in E.
  pose proof (D (Z.of_nat k) ltac:(lia)). pose proof (D' (Z.of_nat k) ltac:(lia)).
  assert (val k p = val k q) by lia. assert (T (p + Z.of_nat k) = T (q + Z.of_nat k)) by lia.
  destruct (Z.eq_dec i (Z.of_nat k)) as [->|]; [assumption|].
  apply IH; [intros j Hj; apply D; lia|intros j Hj; apply D'; lia|assumption|lia].
Qed.
Lemma val_lt k p q : digits (Z.of_nat k) p -> digits (Z.of_nat k) q -> val k p < val k q -> tlt T p q.
Proof.
  induction k as [|k IH]; intros D D' L; cbn [val] in L; [lia|].
  pose proof (D (Z.of_nat k) ltac:(lia)). pose proof (D' (Z.of_nat k) ltac:(lia)).
  assert (P : digits (Z.of_nat k) p) by (intros j Hj; apply D; lia). assert (Q : digits (Z.of_nat k) q) by (intros j Hj; apply D'; lia).
  destruct (Z.lt_trichotomy (val k p) (val k q)) as [C|[C|C]].
  - auto.
  - exists (Z.of_nat k). split; [lia|]. split; [apply val_eq; assumption|lia].
  - exfalso. lia.
Qed.
(** Nowhere above before it is below. *)
Lemma tlt_le m p q : 0 <= m -> (forall i, 0 <= i < m -> T (p + i) <= T (q + i)) -> T (p + m) < T (q + m) -> tlt T p q.
Proof.
  intros Hm. revert p q. pattern m. apply (Zlt_0_ind _); [|assumption]. clear m Hm. intros m IH Hm p q L E.
  destruct (Z.eq_dec m 0) as [->|N0]; [exists 0; split; [lia|]; split; [intros; lia|assumption]|].
  pose proof (L 0 ltac:(lia)) as L0. destruct (Z.eq_dec (T (p + 0)) (T (q + 0))) as [E0|].
  - apply (tlt_behind T 1); [lia|intros i Hi; replace i with 0 by lia; assumption|].
    apply (IH (m - 1)); [lia| |].
    + intros i Hi. specialize (L (1 + i)). rewrite !Z.add_assoc in L. apply L. lia.
    + replace (p + 1 + (m - 1)) with (p + m) by lia. replace (q + 1 + (m - 1)) with (q + m) by lia. assumption.
  - exists 0. split; [lia|]. split; [intros; lia|lia].
Qed.
End Digits.

(** ** The text that is sorted *)
Definition text (d : Z) (old : list Z) (p : Z) : Z :=
  if p <? zlen old then getz old p else if p <? zlen old + d then 0 else -1.
Definition first_key (d : Z) (old : list Z) (p : Z) : Z :=
  if p <? zlen old then val (text d old) (Z.to_nat (d + 1)) p + d else zlen old + d - 1 - p.
Definition occurs (old : list Z) (i c : Z) : Z := cnt (fun p => getz old p =? c) 0 i.
Definition below (old : list Z) (i c : Z) : Z := cnt (fun p => getz old p <? c) 0 i.

Lemma bytes_getz old p : bytes old -> 0 <= p < zlen old -> 0 <= getz old p < 256.
Proof. intros H Hp. unfold bytes in H. rewrite Forall_forall in H. apply H. apply getz_in. assumption. Qed.

Lemma cnt_snoc P a b : a <= b -> cnt P a (b + 1) = cnt P a b + (if P b then 1 else 0).
Proof. intros H. rewrite (cnt_app P a b (b + 1)), (cnt_cons P b), cnt_nil by lia. lia. Qed.

Section Keys.
Context (d : Z) (old : list Z).
Hypothesis d_pos : 0 <= d.
Hypothesis d_len : d <= zlen old.
Hypothesis old_bytes : bytes old.
Let n := zlen old.
Let T := text d old.
Let W := Z.to_nat d.

Lemma T_old p : 0 <= p < n -> T p = getz old p.
Proof. intros H. unfold T, text. fold n. replace (p <? n) with true by lia. reflexivity. Qed.
Lemma T_zero p : n <= p < n + d -> T p = 0.
Proof. intros H. unfold T, text. fold n. replace (p <? n) with false by lia. replace (p <? n + d) with true by lia. reflexivity. Qed.
Lemma T_end p : n + d <= p -> T p = -1.
Proof. intros H. unfold T, text. fold n. replace (p <? n) with false by lia. replace (p <? n + d) with false by lia. reflexivity. Qed.
Lemma T_range p : 0 <= p < n + d -> 0 <= T p < 256.
Proof.
  intros H. destruct (Z.lt_ge_cases p n); [rewrite T_old by lia; apply bytes_getz; [assumption|unfold n in *; lia]|].
  rewrite T_zero by lia. lia.
Qed.
Lemma T_digits k p : 0 <= p -> p + k <= n + d -> digits T k p.
Proof. intros H H' i Hi. apply T_range. lia. Qed.

Definition counted (F : list Z) (i : Z) : Prop := zlen F = 257 /\ forall c, 0 <= c < 257 -> getz F c = occurs old i c.
Lemma counted_step F i : counted F i -> 0 <= i < n -> exists f F', rd F (getz old i) = Ok f /\
  store F (getz old i) (f + 1) = Ok F' /\ counted F' (i + 1).
Proof.
  intros [L C] Hi. pose proof (bytes_getz old i old_bytes Hi). rewrite rd_in by lia.
  destruct (store_in F (getz old i) (getz F (getz old i) + 1)) as (F' & E & L' & G); [lia|].
  exists (getz F (getz old i)), F'. split; [reflexivity|]. split; [exact E|]. split; [lia|].
  intros c Hc. rewrite G by lia. unfold occurs. rewrite cnt_snoc by lia. rewrite (Z.eqb_sym c).
  destruct (getz old i =? c) eqn:Q.
  - replace (getz old i) with c by lia. rewrite (C c) by lia. reflexivity.
  - rewrite (C c) by lia. unfold occurs. lia.
Qed.

Lemma first_keys_ok k : forall i F, counted F i -> 0 <= i -> i + Z.of_nat k <= n ->
  exists F', first_keys k old i (val T (Z.to_nat i) 0) F = Ok (val T (Z.to_nat i + k) 0, F') /\ counted F' (i + Z.of_nat k).
Proof.
  induction k as [|k IH]; intros i F C Hi Hk; cbn [first_keys].
  - exists F. rewrite Nat.add_0_r. replace (i + Z.of_nat 0) with i by lia. auto.
  - rewrite rd_in by (unfold n in *; lia). cbn [bind].
    destruct (counted_step F i C ltac:(lia)) as (f & F1 & -> & E1 & C1). cbn [bind]. rewrite E1. cbn [bind].
    destruct (IH (i + 1) F1 C1 ltac:(lia) ltac:(lia)) as (F2 & E2 & C2). exists F2.
    replace (Z.to_nat (i + 1)) with (S (Z.to_nat i)) in E2 by lia.
    replace (S (Z.to_nat i) + k)%nat with (Z.to_nat i + S k)%nat in E2 by lia.
    replace (i + 1 + Z.of_nat k) with (i + Z.of_nat (S k)) in C2 by lia. split; [|assumption]. rewrite <- E2. f_equal.
    cbn [val]. rewrite Z.add_0_l, Z2Nat.id by lia. rewrite T_old by lia. reflexivity.
Qed.

(** Keys are right below [i]. *)
Definition keyed (V : list Z) (i : Z) : Prop := zlen V = n + 3 /\ forall p, 0 <= p < i -> getz V p = first_key d old p.
Lemma keyed_store V i x : keyed V i -> 0 <= i < n + 3 -> x = first_key d old i ->
  exists V', store V i x = Ok V' /\ keyed V' (i + 1).
Proof.
  intros [L C] Hi ->. destruct (store_in V i (first_key d old i)) as (V' & E & L' & G); [lia|].
  exists V'. split; [assumption|]. split; [lia|]. intros p Hp. rewrite G by lia.
  destruct (p =? i) eqn:Q; [replace p with i by lia; reflexivity|apply C; lia].
Qed.
Lemma key_old i v : 0 <= i < n -> v mod 256 ^ d = val T W i ->
  v mod 256 ^ d * 256 + T (i + d) = val T (S W) i /\ val T (S W) i + d = first_key d old i /\
  val T (S W) i mod 256 ^ d = val T W (i + 1).
Proof.
  intros Hi E. split; [|split].
  - rewrite E. cbn [val]. unfold W. rewrite Z2Nat.id by assumption. reflexivity.
  - unfold first_key. fold n T. replace (i <? n) with true by lia. replace (Z.to_nat (d + 1)) with (S W) by (unfold W; lia). reflexivity.
  - replace d with (Z.of_nat W) at 1 by (unfold W; lia). apply val_mod. apply T_digits; [lia|]. unfold W. lia.
Qed.

Lemma fill_keys_ok k : forall i v F V, counted F i -> keyed V (i - d) -> d <= i -> i + Z.of_nat k <= n ->
  v mod 256 ^ d = val T W (i - d) ->
  exists v' F' V', fill_keys k d old i v F V = Ok (v', F', V') /\ counted F' (i + Z.of_nat k) /\
    keyed V' (i + Z.of_nat k - d) /\ v' mod 256 ^ d = val T W (i + Z.of_nat k - d).
Proof.
  induction k as [|k IH]; intros i v F V CF CV Hi Hk Hv; cbn [fill_keys].
  - exists v, F, V. replace (i + Z.of_nat 0) with i by lia. auto.
  - rewrite rd_in by (unfold n in *; lia). cbn [bind].
    destruct (counted_step F i CF ltac:(lia)) as (f & F1 & -> & E1 & C1). cbn [bind]. rewrite E1. cbn [bind]. cbn zeta.
    destruct (key_old (i - d) v ltac:(lia) Hv) as (K1 & K2 & K3).
    replace (i - d + d) with i in K1 by lia. rewrite (T_old i) in K1 by lia. rewrite K1.
    destruct (keyed_store V (i - d) (val T (S W) (i - d) + d) CV ltac:(lia) K2) as (V1 & -> & CV1). cbn [bind].
    replace (i - d + 1) with (i + 1 - d) in * by lia.
    destruct (IH (i + 1) (val T (S W) (i - d)) F1 V1 C1 CV1 ltac:(lia) ltac:(lia) K3) as (v' & F' & V' & E & Q1 & Q2 & Q3).
    exists v', F', V'. replace (i + 1 + Z.of_nat k) with (i + Z.of_nat (S k)) in * by lia. auto.
Qed.
Lemma last_keys_ok k : forall i v V, keyed V i -> 0 <= i -> n - d <= i -> i + Z.of_nat k <= n -> v mod 256 ^ d = val T W i ->
  exists V', last_keys k d i v V = Ok V' /\ keyed V' (i + Z.of_nat k).
Proof.
  induction k as [|k IH]; intros i v V CV Hi Hd Hk Hv; cbn [last_keys].
  - exists V. replace (i + Z.of_nat 0) with i by lia. auto.
  - cbn zeta. destruct (key_old i v ltac:(lia) Hv) as (K1 & K2 & K3). rewrite T_zero, Z.add_0_r in K1 by lia. rewrite K1.
    destruct (keyed_store V i (val T (S W) i + d) CV ltac:(lia) K2) as (V1 & -> & CV1). cbn [bind].
    destruct (IH (i + 1) (val T (S W) i) V1 CV1 ltac:(lia) ltac:(lia) ltac:(lia) K3) as (V' & E & Q). exists V'.
    replace (i + 1 + Z.of_nat k) with (i + Z.of_nat (S k)) in * by lia. auto.
Qed.
Lemma end_keys_ok k : forall i V, keyed V i -> n <= i -> i + Z.of_nat k = n + d -> d <= 2 ->
  exists V', end_keys k i V = Ok V' /\ keyed V' (n + d).
Proof.
  induction k as [|k IH]; intros i V CV Hi Hk Hd; cbn [end_keys].
  - exists V. replace (n + d) with i by lia. auto.
  - destruct (keyed_store V i (Z.of_nat k) CV ltac:(lia)) as (V1 & -> & CV1).
    { unfold first_key. fold n. replace (i <? n) with false by lia. lia. }
    cbn [bind]. apply IH; [assumption|lia|lia|assumption].
Qed.

Lemma all_keys_ok F V : d <= 2 -> counted F 0 -> zlen V = n + 3 ->
  exists F' V', all_keys d old F V = Ok (F', V') /\ counted F' n /\ keyed V' (n + d).
Proof.
  intros Hd CF HV. unfold all_keys. fold n.
  destruct (first_keys_ok (Z.to_nat d) 0 F CF ltac:(lia) ltac:(unfold n; lia)) as (F1 & E1 & C1).
  change (Z.to_nat 0) with O in E1. cbn [val Nat.add] in E1. rewrite E1. cbn [bind].
  replace (0 + Z.of_nat (Z.to_nat d)) with d in C1 by lia.
  assert (K0 : keyed V (d - d)) by (split; [assumption|intros; lia]).
  destruct (fill_keys_ok (Z.to_nat (n - d)) d (val T (Z.to_nat d) 0) F1 V C1 K0) as (v2 & F2 & V2 & E2 & C2 & K2 & M2); [lia|unfold n; lia| |].
  { rewrite Z.sub_diag. apply Z.mod_small. pose proof (val_range T W 0) as R. unfold W in R. rewrite Z2Nat.id in R by assumption.
    apply R. apply T_digits; [lia|]. pose proof (zlen_nonneg old). unfold n. lia. }
  rewrite E2. cbn [bind]. replace (d + Z.of_nat (Z.to_nat (n - d))) with n in * by (unfold n; lia).
  destruct (last_keys_ok (Z.to_nat d) (n - d) v2 V2 K2) as (V3 & E3 & K3); [unfold n; lia|lia|lia|assumption|].
  rewrite E3. cbn [bind]. replace (n - d + Z.of_nat (Z.to_nat d)) with n in K3 by lia.
  destruct (end_keys_ok (Z.to_nat d) n V3 K3) as (V4 & E4 & K4); [lia|lia|lia|].
  rewrite E4. cbn [bind]. exists F2, V4. auto.
Qed.

Lemma below_step i c : 0 <= i -> below old i (c + 1) = below old i c + occurs old i c.
Proof.
  clear. intros H. unfold below, occurs. revert H. generalize 0 as a. intros a H. revert a i H. refine (cnt_ind _ _ _).
  - intros. rewrite !cnt_nil. reflexivity.
  - intros a b H IH. rewrite !(cnt_cons _ a b), IH by lia.
    destruct (getz old a <? c + 1) eqn:E1; destruct (getz old a <? c) eqn:E2; destruct (getz old a =? c) eqn:E3; lia.
Qed.
Lemma sum_counts_ok k : forall v F, zlen F = 257 -> Z.of_nat k < 257 ->
  (forall c, 0 <= c < Z.of_nat k -> getz F c = occurs old n c) -> v = d + below old n (Z.of_nat k) ->
  exists F', sum_counts k v F = Ok F' /\ zlen F' = 257 /\
    (forall c, 0 <= c <= Z.of_nat k -> getz F' c = d + below old n c) /\ (forall c, Z.of_nat k < c -> getz F' c = getz F c).
Proof.
  induction k as [|k IH]; intros v F L Hk C Hv.
  - cbn [sum_counts]. destruct (store_in F (Z.of_nat 0) v) as (F1 & -> & L1 & G1); [lia|]. cbn [bind].
    exists F1. split; [reflexivity|]. split; [lia|]. split; intros c Hc; rewrite G1 by lia.
    + replace (c =? Z.of_nat 0) with true by lia. replace c with (Z.of_nat 0) by lia. assumption.
    + replace (c =? Z.of_nat 0) with false by lia. reflexivity.
  - cbn [sum_counts]. destruct (store_in F (Z.of_nat (S k)) v) as (F1 & -> & L1 & G1); [lia|]. cbn [bind].
    rewrite rd_in by lia. cbn [bind]. pose proof (zlen_nonneg old).
    destruct (IH (v - getz F (Z.of_nat k)) F1) as (F2 & E2 & L2 & I2 & O2); [lia|lia| | |].
    + intros c Hc. rewrite G1 by lia. replace (c =? Z.of_nat (S k)) with false by lia. apply C. lia.
    + rewrite Hv, (C (Z.of_nat k)) by lia. replace (Z.of_nat (S k)) with (Z.of_nat k + 1) by lia. rewrite below_step by (unfold n; lia). lia.
    + exists F2. split; [exact E2|]. split; [assumption|]. split; intros c Hc.
      * destruct (Z.eq_dec c (Z.of_nat (S k))) as [->|]; [|apply I2; lia]. rewrite O2 by lia. rewrite G1, Z.eqb_refl by lia. assumption.
      * rewrite O2 by lia. rewrite G1 by lia. replace (c =? Z.of_nat (S k)) with false by lia. reflexivity.
Qed.

(** ** What the keys say *)
Lemma end_below p q : n <= p < n + d -> 0 <= q < p -> tlt T p q.
Proof.
  intros Hp Hq. apply (tlt_le T (n + d - p)); [lia| |].
  - intros i Hi. rewrite (T_zero (p + i)) by lia. pose proof (T_range (q + i)). lia.
  - rewrite T_end by lia. pose proof (T_range (q + (n + d - p))). lia.
Qed.
Lemma last_below q : 0 <= q < n + d -> tlt T (n + d) q.
Proof.
  intros Hq. exists 0. split; [lia|]. split; [intros; lia|]. rewrite T_end by lia. pose proof (T_range (q + 0)). lia.
Qed.
Lemma key_range p : 0 <= p < n + d -> 0 <= first_key d old p < 256 ^ (d + 1) + d.
Proof.
  intros Hp. unfold first_key. fold n T. destruct (p <? n) eqn:E.
  - pose proof (val_range T (Z.to_nat (d + 1)) p) as R. rewrite Z2Nat.id in R by lia.
    specialize (R ltac:(apply T_digits; lia)). lia.
  - pose proof (Z.pow_pos_nonneg 256 (d + 1)). lia.
Qed.
Lemma key_big p : 0 <= p < n -> d <= first_key d old p.
Proof.
  intros Hp. unfold first_key. fold n T. replace (p <? n) with true by lia.
  pose proof (val_range T (Z.to_nat (d + 1)) p) as R. rewrite Z2Nat.id in R by lia. specialize (R ltac:(apply T_digits; lia)). lia.
Qed.
Lemma key_lt p q : 0 <= p < n + d -> 0 <= q < n + d -> first_key d old p < first_key d old q -> tlt T p q.
Proof.
  intros Hp Hq L. destruct (Z.lt_ge_cases p n); destruct (Z.lt_ge_cases q n).
  - unfold first_key in L. fold n T in L. replace (p <? n) with true in L by lia. replace (q <? n) with true in L by lia.
    apply (val_lt T (Z.to_nat (d + 1))); [apply T_digits; lia|apply T_digits; lia|lia].
  - pose proof (key_big p ltac:(lia)). unfold first_key in L at 2. fold n in L. replace (q <? n) with false in L by lia. lia.
  - apply end_below; lia.
  - unfold first_key in L. fold n in L. replace (p <? n) with false in L by lia. replace (q <? n) with false in L by lia. apply end_below; lia.
Qed.
Lemma key_eq p q : 0 <= p < n + d -> 0 <= q < n + d -> first_key d old p = first_key d old q -> agree T (d + 1) p q.
Proof.
  intros Hp Hq L. destruct (Z.lt_ge_cases p n); destruct (Z.lt_ge_cases q n).
  - unfold first_key in L. fold n T in L. replace (p <? n) with true in L by lia. replace (q <? n) with true in L by lia.
    replace (d + 1) with (Z.of_nat (Z.to_nat (d + 1))) at 1 by lia. apply val_eq; [apply T_digits; lia|apply T_digits; lia|lia].
  - pose proof (key_big p ltac:(lia)). unfold first_key in L at 2. fold n in L. replace (q <? n) with false in L by lia. lia.
  - pose proof (key_big q ltac:(lia)). unfold first_key in L at 1. fold n in L. replace (p <? n) with false in L by lia. lia.
  - unfold first_key in L. fold n in L. replace (p <? n) with false in L by lia. replace (q <? n) with false in L by lia.
    replace p with q by lia. apply agree_refl.
Qed.
End Keys.
