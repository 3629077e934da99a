(** * SuffixFinal: [sfxsrt_create] sorts *)
From Verif Require Import Base BaseLemmas Seq Search Suffix SuffixText SuffixSplit SuffixOrder SuffixKeys SuffixCreate SpecSuffix.
From Coq Require Import Permutation Sorted.
Unset Lia Cache.

(** ** Dictionaries and texts *)
Lemma getz_cons x l i : 0 < i -> getz (x :: l) i = getz l (i - 1).
Proof. intros H. unfold getz. replace (Z.to_nat i) with (S (Z.to_nat (i - 1))) by lia. reflexivity. Qed.
Lemma lex_where a b : lex a b -> exists k, 0 <= k <= zlen a /\ k < zlen b /\ (forall i, 0 <= i < k -> getz a i = getz b i) /\
  (k = zlen a \/ k < zlen a /\ getz a k < getz b k).
Proof.
  induction 1 as [b m|a l b m H|a l m H (k & Hk & Hk' & E & O)].
  - exists 0. change (zlen []) with 0. rewrite zlen_cons. pose proof (zlen_nonneg m). split; [lia|]. split; [lia|]. split; [intros; lia|auto].
  - exists 0. rewrite !zlen_cons. pose proof (zlen_nonneg l). pose proof (zlen_nonneg m). split; [lia|]. split; [lia|]. split; [intros; lia|].
    right. split; [lia|assumption].
  - exists (1 + k). rewrite !zlen_cons. split; [lia|]. split; [lia|]. split.
    + intros i Hi. destruct (Z.eq_dec i 0) as [->|]; [reflexivity|]. rewrite !getz_cons by lia. apply E. lia.
    + destruct O as [->|[O O']]; [auto|]. right. split; [lia|]. rewrite !getz_cons by lia. replace (1 + k - 1) with k by lia. assumption.
Qed.
Lemma lex_total a : forall b, lex a b \/ lex b a \/ a = b.
Proof.
  induction a as [|x a IH]; intros [|y b].
  - auto.
  - left. constructor.
  - right. left. constructor.
  - destruct (Z.lt_trichotomy x y) as [H|[->|H]].
    + left. constructor. assumption.
    + destruct (IH b) as [H|[H| ->]]; [left|right; left|auto]; constructor; assumption.
    + right. left. constructor. assumption.
Qed.
Lemma zlen_suffix old p : 0 <= p <= zlen old -> zlen (suffix old p) = zlen old - p.
Proof. intros H. unfold suffix, zlen in *. rewrite skipn_length. lia. Qed.
Lemma nth_skip {A} (x : A) l : forall n i, nth i (skipn n l) x = nth (n + i) l x.
Proof. induction l as [|y l IH]; intros [|n] i; cbn; try reflexivity; [destruct i; reflexivity|apply IH]. Qed.
Lemma getz_suffix old p i : 0 <= p -> 0 <= i -> getz (suffix old p) i = getz old (p + i).
Proof. intros H H'. unfold suffix, getz. rewrite nth_skip. f_equal. lia. Qed.

Section Order.
Context (d : Z) (old : list Z).
Hypothesis d_pos : 0 <= d.
Hypothesis old_bytes : bytes old.
Notation n := (zlen old).
Notation T := (text d old).

Lemma lex_tlt p q : 0 <= p < n -> 0 <= q < n -> lex (suffix old p) (suffix old q) -> tlt T p q.
Proof.
  intros Hp Hq L. destruct (lex_where _ _ L) as (k & Hk & Hk' & E & O). rewrite !zlen_suffix in * by lia.
  assert (E' : forall i, 0 <= i < k -> T (p + i) = T (q + i)).
  { intros i Hi. specialize (E i Hi). rewrite !getz_suffix in E by lia. rewrite !T_old by lia. assumption. }
  destruct O as [->|[O O']].
  - apply (tlt_le T (n + d - p)); [lia| |].
    + intros i Hi. destruct (Z.lt_ge_cases i (n - p)); [rewrite E' by lia; lia|].
      rewrite (T_zero d old (p + i)) by lia. pose proof (T_range d old old_bytes (q + i)). lia.
    + rewrite T_end by lia. pose proof (T_range d old old_bytes (q + (n + d - p))). lia.
  - exists k. split; [lia|]. split; [assumption|]. rewrite !getz_suffix in O' by lia. rewrite !T_old by lia. assumption.
Qed.
Lemma tlt_lex p q : 0 <= p < n -> 0 <= q < n -> tlt T p q -> lex (suffix old p) (suffix old q).
Proof.
  intros Hp Hq L. destruct (lex_total (suffix old p) (suffix old q)) as [H|[H|H]]; [assumption| |].
  - exfalso. apply (tlt_irrefl T p). apply tlt_trans with q; [assumption|]. apply lex_tlt; assumption.
  - exfalso. apply (f_equal zlen) in H. rewrite !zlen_suffix in H by lia. replace q with p in L by lia. exact (tlt_irrefl T p L).
Qed.
End Order.

(** ** Lists *)
Lemma strongly (R : Z -> Z -> Prop) l : (forall i j, 0 <= i -> i < j -> j < zlen l -> R (getz l i) (getz l j)) -> StronglySorted R l.
Proof.
  induction l as [|x l IH]; intros H; constructor.
  - apply IH. intros i j Hi Hij Hj. specialize (H (i + 1) (j + 1)). rewrite !getz_cons, zlen_cons in H by lia.
    replace (i + 1 - 1) with i in H by lia. replace (j + 1 - 1) with j in H by lia. apply H; lia.
  - apply Forall_forall. intros y Hy. destruct (in_getz l y Hy) as (k & Hk & <-). specialize (H 0 (k + 1)).
    rewrite (getz_cons x l (k + 1)) in H by lia. replace (k + 1 - 1) with k in H by lia. change (getz (x :: l) 0) with x in H. apply H; rewrite ?zlen_cons; lia.
Qed.
Lemma permute (l : list Z) m : zlen l = Z.of_nat m -> (forall i, 0 <= i < zlen l -> 0 <= getz l i < Z.of_nat m) ->
  (forall i j, 0 <= i < zlen l -> 0 <= j < zlen l -> getz l i = getz l j -> i = j) -> Permutation l (map Z.of_nat (seq 0 m)).
Proof.
  intros L R J. apply NoDup_Permutation_bis.
  - apply NoDup_nth with 0. intros i j Hi Hj E.
    assert (Z.of_nat i = Z.of_nat j); [|lia]. apply J; [unfold zlen; lia|unfold zlen; lia|]. unfold getz. rewrite !Nat2Z.id. assumption.
  - rewrite map_length, seq_length. unfold zlen in L. lia.
  - intros x Hx. destruct (in_getz l x Hx) as (k & Hk & <-). specialize (R k Hk). apply in_map_iff.
    exists (Z.to_nat (getz l k)). split; [lia|]. apply in_seq. lia.
Qed.
Lemma below_smaller old c : below old (zlen old) c = smaller old c.
Proof.
  unfold below, smaller. assert (G : forall l a, (forall i, 0 <= i < zlen l -> getz old (a + i) = getz l i) ->
    cnt (fun p => getz old p <? c) a (a + zlen l) = zlen (filter (fun b => b <? c) l)).
  { induction l as [|x l IH]; intros a H.
    - rewrite zlen_nil, Z.add_0_r, cnt_nil. reflexivity.
    - rewrite zlen_cons. pose proof (zlen_nonneg l) as Ln. rewrite cnt_cons by lia.
      pose proof (H 0 ltac:(rewrite zlen_cons; lia)) as H0. rewrite Z.add_0_r in H0. change (getz (x :: l) 0) with x in H0.
      rewrite H0, Z.add_assoc, IH.
      + cbn [filter]. destruct (x <? c); rewrite ?zlen_cons; lia.
      + intros i Hi. specialize (H (1 + i)). rewrite zlen_cons, getz_cons in H by lia.
        replace (1 + i - 1) with i in H by lia. rewrite Z.add_assoc in H. apply H. lia. }
  specialize (G old 0 ltac:(auto)). rewrite Z.add_0_l in G. exact G.
Qed.
Lemma smaller_all old : bytes old -> smaller old 256 = zlen old.
Proof.
  unfold smaller. induction 1 as [|b l H _ IH]; [reflexivity|]. cbn [filter]. unfold byte in H.
  replace (b <? 256) with true by lia. rewrite !zlen_cons. lia.
Qed.
Lemma getz_repeat n i : getz (repeat 0 n) i = 0.
Proof. unfold getz. destruct (nth_in_or_default (Z.to_nat i) (repeat 0 n) 0) as [H|H]; [|assumption]. apply repeat_spec in H. assumption. Qed.

(** ** All of it *)
Lemma create_ok old : bytes old -> 0 < zlen old < 2 ^ 62 ->
  exists Ix F, sfxsrt_create old = Ok (Ix, F) /\ zlen Ix = zlen old + 3 /\
    sorted_suffixes old (slice Ix (padding old + 1) (zlen old)) /\
    (forall k, 0 <= k <= padding old -> getz Ix k = zlen old + padding old - k) /\
    zlen F = 257 /\ (forall c, 0 <= c <= 256 -> getz F c = padding old + smaller old c).
Proof.
  intros Hb Hn. unfold sfxsrt_create.
  set (n := zlen old) in *. set (d := if 16777215 <? n then 2 else 1).
  assert (Dd : padding old = d). { unfold padding, d. fold n. destruct (16777215 <? n) eqn:E; destruct (16777216 <=? n) eqn:E'; reflexivity || lia. }
  rewrite Dd. assert (Hd : 1 <= d <= 2 /\ d <= n) by (unfold d; destruct (16777215 <? n) eqn:E; lia). destruct Hd as [Hd Hd'].
  set (buckets := if 16777215 <? n then 16777218 else 65537).
  assert (Hbk : 256 ^ (d + 1) + d <= buckets) by (unfold buckets, d; destruct (16777215 <? n); cbn; lia).
  assert (Hb0 : 0 < buckets) by (unfold buckets; destruct (16777215 <? n); lia).
  clearbody d buckets. set (zeros := repeat 0 (length old + 3)).
  assert (LZ : zlen zeros = n + 3) by (unfold zeros; rewrite zlen_repeat; unfold n, zlen; lia). clearbody zeros.
  destruct (all_keys_ok d old ltac:(lia) Hd' Hb (repeat 0 257) zeros) as (F1 & V1 & E1 & [LF CF] & [LV KV]); [lia| |exact LZ|].
  { split; [rewrite zlen_repeat; reflexivity|]. intros c Hc. rewrite getz_repeat. unfold occurs. rewrite cnt_nil. reflexivity. }
  rewrite E1. clear E1. cbn [bind]. cbn zeta. fold n in LV, KV, CF.
  destruct (sum_counts_ok d old 256 (n + d) F1 LF) as (F2 & E2 & LF2 & GF & _); [reflexivity|intros c Hc; apply CF; lia| |].
  { change (Z.of_nat 256) with 256. rewrite below_smaller, smaller_all by assumption. unfold n. lia. }
  rewrite E2. clear E2. cbn [bind]. change (Z.of_nat 256) with 256 in GF.
  destruct (bucketsort_ok (n + d + 1) (text d old) (d + 1) (n + d) buckets (first_key d old)) with (A := zeros) (V := V1)
    as (A3 & V3 & J3 & E3 & LA3 & LV3 & WF3 & S3); try reflexivity; try assumption; try lia.
  { intros p Hp. pose proof (key_range d old ltac:(lia) Hb p Hp). lia. }
  { intros p q Hp Hq. apply key_lt; (assumption || lia). }
  { intros p q Hp Hq. apply key_eq; (assumption || lia). }
  { intros q Hq. apply last_below; (assumption || lia). }
  rewrite E3. clear E3. cbn [bind].
  assert (Small : fits (n + d + 1)) by (unfold fits; lia).
  assert (TL : forall p, n + d + 1 - 1 <= p -> text d old p = -1) by (intros p Hp; apply T_end; fold n; lia).
  assert (TB : forall p, 0 <= p < n + d + 1 - 1 -> 0 <= text d old p).
  { intros p Hp. apply (T_range d old Hb). fold n. lia. }
  destruct (order_ok (n + d + 1) (text d old) Small TL TB (d + 1) A3 V3 J3) as (A4 & V4 & J & h & E4 & LA4 & LV4 & WF4 & Al); try assumption; try lia.
  rewrite E4. clear E4. cbn [bind].
  destruct (invert_ok (n + d + 1) (text d old) V4 J h WF4 Al ltac:(lia) (Z.to_nat (n + d + 1)) 0 A4) as (A5 & E5 & LA5 & G5 & _); [lia|lia|lia|].
  rewrite E5. clear E5. cbn [bind]. exists A5, F2. split; [reflexivity|]. split; [lia|].
  assert (GA : forall s, 0 <= s < n + d + 1 -> getz A5 s = J s).
  { intros s Hs. apply G5; [assumption|]. pose proof (w_range _ _ _ _ _ WF4 s Hs). lia. }
  assert (L5 : zlen A5 = n + 3) by lia.
  clear G5 S3 WF3 KV CF LV LV3 LA3 LA4 LV4.
  assert (Lt : forall s t, 0 <= s -> s < t -> t < n + d + 1 -> tlt (text d old) (J s) (J t)).
  { intros s t Hs Hst Ht. apply (w_lt _ _ _ _ _ WF4); [lia|lia|]. rewrite !Al by lia. assumption. }
  (* the places of the ends *)
  assert (Lt' : forall s t, 0 <= s < n + d + 1 -> 0 <= t < n + d + 1 -> tlt (text d old) (J s) (J t) -> s < t).
  { intros s t Hs Ht L. destruct (Z.lt_trichotomy s t) as [H|[->|H]]; [assumption| |].
    - exfalso. exact (tlt_irrefl _ _ L).
    - exfalso. apply (tlt_irrefl (text d old) (J s)). eapply tlt_trans; [exact L|]. apply Lt; lia. }
  assert (Ends : forall p q, n <= p <= n + d -> 0 <= q < p -> tlt (text d old) p q).
  { intros p q Hp Hq. destruct (Z.eq_dec p (n + d)) as [->|].
    - apply last_below; (assumption || (fold n; lia)).
    - apply end_below; (assumption || (fold n; lia)). }
  assert (JE : forall k, 0 <= k <= d -> J k = n + d - k).
  { assert (JE0 : forall m : nat, forall k, 0 <= k < Z.of_nat m -> k <= d -> J k = n + d - k).
    2: { intros k Hk. apply (JE0 (Z.to_nat (k + 1))); lia. }
    induction m as [|m IH]; [intros; lia|]. intros k Hk Hkd. destruct (Z.eq_dec k (Z.of_nat m)) as [->|]; [|apply IH; lia].
    remember (Z.of_nat m) as k eqn:Ek.
    destruct (w_surj _ _ _ _ _ WF4 (n + d - k) ltac:(lia)) as (s & Hs & Es).
    destruct (Z.lt_trichotomy s k) as [H|[<-|H]]; [|assumption|].
    - exfalso. rewrite IH in Es by lia. lia.
    - exfalso. pose proof (w_range _ _ _ _ _ WF4 k ltac:(lia)) as R.
      destruct (Z.lt_ge_cases (J k) (n + d - k)) as [Hl|Hg].
      + specialize (Ends (n + d - k) (J k) ltac:(lia) ltac:(lia)). rewrite <- Es in Ends. apply Lt' in Ends; lia.
      + destruct (Z.eq_dec (J k) (n + d - k)) as [Q|Q].
        * rewrite <- Es in Q. apply (w_inj _ _ _ _ _ WF4) in Q; lia.
        * assert (Q' : J k = J (n + d - J k)) by (rewrite (IH (n + d - J k)) by lia; lia).
          apply (w_inj _ _ _ _ _ WF4) in Q'; lia. }
  assert (In : forall s, d < s < n + d + 1 -> 0 <= J s < n).
  { intros s Hs. pose proof (w_range _ _ _ _ _ WF4 s ltac:(lia)) as R. destruct (Z.lt_ge_cases (J s) n); [lia|].
    exfalso. assert (Q' : J s = J (n + d - J s)) by (rewrite (JE (n + d - J s)) by lia; lia).
    apply (w_inj _ _ _ _ _ WF4) in Q'; lia. }
  assert (LS : zlen (slice A5 (d + 1) n) = n).
  { rewrite zlen_slice by lia. lia. }
  assert (GS : forall i, 0 <= i < n -> getz (slice A5 (d + 1) n) i = J (d + 1 + i)).
  { intros i Hi. rewrite getz_slice by lia. apply GA. lia. }
  split; [split|split; [|split]].
  - apply permute; [exact LS| |]; rewrite LS.
    + intros i Hi. rewrite GS by assumption. fold (zlen old). fold n. apply In. lia.
    + intros i j Hi Hj Q. rewrite !GS in Q by assumption. apply (w_inj _ _ _ _ _ WF4) in Q; lia.
  - apply strongly. rewrite LS. intros i j Hi Hij Hj. rewrite !GS by lia.
    apply (tlt_lex d); [lia|assumption|apply In; lia|apply In; lia|]. apply Lt; lia.
  - intros k Hk. rewrite GA by lia. apply JE. assumption.
  - assumption.
  - intros c Hc. rewrite GF by assumption. rewrite below_smaller. reflexivity.
Qed.
