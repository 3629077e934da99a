(** * SuffixSearch: [suffix_search] and [sfxsrt_search] *)
From Verif Require Import Base BaseLemmas Sat Seq Search SearchProofs Suffix SuffixText SuffixSplit SuffixKeys SpecSuffix SuffixFinal.
From Coq Require Import Permutation Sorted.
Unset Lia Cache.

(** ** Common bytes *)
Lemma common_spec a : forall b, let m := common a b in 0 <= m <= zlen a /\ m <= zlen b /\
  (forall k, 0 <= k < m -> getz a k = getz b k) /\ (m < zlen a -> m < zlen b -> getz a m <> getz b m).
Proof.
  induction a as [|x a IH]; intros [|y b]; cbn [common]; cbn zeta; rewrite ?zlen_cons; change (zlen (@nil Z)) with 0;
    try pose proof (zlen_nonneg a); try pose proof (zlen_nonneg b); try (repeat split; intros; lia).
  destruct (x =? y) eqn:E.
  - destruct (IH b) as (I1 & I2 & I3 & I4). split; [lia|]. split; [lia|]. split.
    + intros k Hk. destruct (Z.eq_dec k 0) as [->|]; [change (x = y); lia|]. rewrite !getz_cons by lia. apply I3. lia.
    + intros L1 L2. rewrite !getz_cons by lia. replace (1 + common a b - 1) with (common a b) by lia. apply I4; lia.
  - split; [lia|]. split; [lia|]. split; [intros; lia|]. intros _ _. change (x <> y). lia.
Qed.
Lemma common_unique a b r : 0 <= r <= zlen a -> r <= zlen b -> (forall k, 0 <= k < r -> getz a k = getz b k) ->
  (r < zlen a -> r < zlen b -> getz a r <> getz b r) -> r = common a b.
Proof.
  intros H1 H2 H3 H4. destruct (common_spec a b) as (C1 & C2 & C3 & C4). cbn zeta in *.
  destruct (Z.lt_trichotomy r (common a b)) as [H|[H|H]]; [|assumption|]; exfalso.
  - apply H4; [lia|lia|]. apply C3. lia.
  - apply C4; [lia|lia|]. apply H3. lia.
Qed.
Lemma common_first a b : a <> [] -> b <> [] -> getz a 0 <> getz b 0 -> common a b = 0.
Proof. destruct a as [|x a]; destruct b as [|y b]; try congruence. intros _ _ H. cbn [common]. change (x <> y) in H. replace (x =? y) with false by lia. reflexivity. Qed.
Lemma common_lower x : forall a b, lex a b -> lex b x -> common a x <= common b x.
Proof.
  induction x as [|z x IH]; intros a b A B; [inversion B|].
  destruct (common_spec b (z :: x)) as (P & _). cbn zeta in P.
  inversion B as [? ?|y l ? ? L|y l ? L]; subst; inversion A as [? ?|w l' ? ? L'|w l' ? L']; subst; cbn [common] in *; try lia.
  - replace (w =? z) with false by lia. lia.
  - replace (y =? z) with false by lia. lia.
  - replace (w =? z) with false by lia. lia.
  - rewrite Z.eqb_refl. specialize (IH l' l L' L). lia.
Qed.
Lemma common_self a : common a a = zlen a.
Proof. induction a as [|x a IH]; [reflexivity|]. cbn [common]. rewrite Z.eqb_refl, zlen_cons, IH. reflexivity. Qed.
Lemma common_upper x : forall a b, lex b a -> ~ lex b x -> common a x <= common b x.
Proof.
  intros a b A N. destruct (lex_total x b) as [B|[B| ->]]; [clear N|contradiction|].
  - revert x B. induction A as [y m|w l y m L|w l m L IH]; intros x B.
    + inversion B.
    + destruct (common_spec (w :: l) x) as (P & _). cbn zeta in P. inversion B as [? ?|z l' ? ? L'|z l' ? L']; subst; cbn [common] in *.
      * lia.
      * replace (y =? z) with false by lia. lia.
      * replace (y =? w) with false by lia. lia.
    + destruct (common_spec (w :: l) x) as (P & _). cbn zeta in P. inversion B as [? ?|z l' ? ? L'|z l' ? L']; subst; cbn [common] in *.
      * lia.
      * replace (w =? z) with false by lia. lia.
      * rewrite Z.eqb_refl in *. specialize (IH l' L'). lia.
  - rewrite common_self. destruct (common_spec a b) as (_ & P & _). exact P.
Qed.

(** ** Comparing *)
Lemma match_ok old p new q : 0 <= p <= zlen old -> 0 <= q <= zlen new -> zlen old < 2 ^ 62 ->
  match_len old p (u64 (zlen old - p)) new q (zlen new - q) = Ok (common (suffix old p) (suffix new q)).
Proof.
  intros Hp Hq Hn. unfold match_len, u64. rewrite Z.mod_small by lia.
  pose proof (match_len_loop_sat (Z.to_nat (Z.min (zlen old - p) (zlen new - q))) old p new q) as S.
  destruct (match_len_loop _ old p new q) as [r|e|u|]; try (exfalso; apply S; lia). f_equal.
  destruct S as (S1 & S2 & S3); try lia. apply common_unique; rewrite ?zlen_suffix by lia; try lia.
  - intros k Hk. rewrite !getz_suffix by lia. apply S2. assumption.
  - intros H1 H2. rewrite !getz_suffix by lia. apply S3. lia.
Qed.
Lemma common_match old p new q : 0 <= p <= zlen old -> 0 <= q <= zlen new ->
  match_at old new q p (common (suffix old p) (suffix new q)).
Proof.
  intros Hp Hq. destruct (common_spec (suffix old p) (suffix new q)) as (C1 & C2 & C3 & _). cbn zeta in *.
  rewrite zlen_suffix in C1, C2 by assumption. unfold match_at. repeat split; try lia.
  intros k Hk. specialize (C3 k Hk). rewrite !getz_suffix in C3 by lia. assumption.
Qed.

Lemma memcmp_loop k : forall a p b q, 0 <= p -> 0 <= q -> p + Z.of_nat k <= zlen a -> q + Z.of_nat k <= zlen b ->
  exists r, memcmp_below k a p b q = Ok r /\ 
   ((r = true <-> exists m, 0 <= m < Z.of_nat k /\ (forall i, 0 <= i < m -> getz a (p + i) = getz b (q + i)) /\ getz a (p + m) < getz b (q + m))).
Proof.
  induction k as [|k IH]; intros a p b q Hp Hq Ha Hb; cbn [memcmp_below].
  - exists false. split; [reflexivity|]. split; [discriminate|]. intros (m & Hm & _). lia.
  - rewrite !rd_in by lia. cbn [bind]. destruct (getz a p =? getz b q) eqn:E.
    + destruct (IH a (p + 1) b (q + 1)) as (r & E' & R); try lia. exists r. split; [exact E'|]. rewrite R. split; intros (m & Hm & M1 & M2).
      * exists (1 + m). rewrite !Z.add_assoc. split; [lia|]. split; [|assumption]. intros i Hi.
        destruct (Z.eq_dec i 0) as [->|]; [rewrite !Z.add_0_r; lia|]. specialize (M1 (i - 1)).
        replace (p + 1 + (i - 1)) with (p + i) in M1 by lia. replace (q + 1 + (i - 1)) with (q + i) in M1 by lia. apply M1. lia.
      * destruct (Z.eq_dec m 0) as [->|]; [rewrite !Z.add_0_r in M2; lia|]. exists (m - 1).
        replace (p + 1 + (m - 1)) with (p + m) by lia. replace (q + 1 + (m - 1)) with (q + m) by lia. split; [lia|]. split; [|assumption].
        intros i Hi. specialize (M1 (1 + i)). rewrite !Z.add_assoc in M1. apply M1. lia.
    + exists (getz a p <? getz b q). split; [reflexivity|]. split.
      * intros H. exists 0. rewrite !Z.add_0_r. split; [lia|]. split; [intros; lia|lia].
      * intros (m & Hm & M1 & M2). destruct (Z.eq_dec m 0) as [->|]; [rewrite !Z.add_0_r in M2; lia|].
        specialize (M1 0). rewrite !Z.add_0_r in M1. lia.
Qed.
Lemma lex_at a : forall b m, 0 <= m -> m < zlen a -> m < zlen b -> (forall i, 0 <= i < m -> getz a i = getz b i) -> getz a m < getz b m -> lex a b.
Proof.
  induction a as [|x a IH]; intros b m Hm Ha Hb E L; [change (zlen (@nil Z)) with 0 in Ha; lia|].
  destruct b as [|y b]; [change (zlen (@nil Z)) with 0 in Hb; lia|]. rewrite zlen_cons in *.
  destruct (Z.eq_dec m 0) as [->|]; [apply lex_less; exact L|].
  pose proof (E 0 ltac:(lia)) as E0. change (x = y) in E0. subst y. apply lex_same.
  apply (IH b (m - 1)); [lia|lia|lia| |].
  - intros i Hi. specialize (E (i + 1)). rewrite !getz_cons in E by lia. replace (i + 1 - 1) with i in E by lia. apply E. lia.
  - rewrite !getz_cons in L by lia. assumption.
Qed.
(** The comparison says less only if this is so; it misses suffixes with which the rest of
    [new] starts. *)
Lemma memcmp_ok old p new q : 0 <= p <= zlen old -> 0 <= q <= zlen new -> zlen old < 2 ^ 62 ->
  exists r, memcmp_below (Z.to_nat (Z.min (zlen new - q) (u64 (zlen old - p)))) old p new q = Ok r /\
    (r = true -> lex (suffix old p) (suffix new q)) /\
    (r = false -> common (suffix old p) (suffix new q) < zlen old - p -> ~ lex (suffix old p) (suffix new q)).
Proof.
  intros Hp Hq Hn. unfold u64. rewrite Z.mod_small by lia.
  destruct (memcmp_loop (Z.to_nat (Z.min (zlen new - q) (zlen old - p))) old p new q) as (r & E & R); try lia.
  exists r. split; [exact E|]. split.
  - intros ->. destruct R as [R _]. destruct (R eq_refl) as (m & Hm & M1 & M2).
    apply (lex_at _ _ m); rewrite ?zlen_suffix by lia; try lia.
    + intros i Hi. rewrite !getz_suffix by lia. apply M1. lia.
    + rewrite !getz_suffix by lia. assumption.
  - intros -> C L. destruct (lex_where _ _ L) as (m & M1 & M2 & M3 & M4). rewrite !zlen_suffix in * by lia.
    destruct M4 as [M4|[M4 M5]].
    + assert (m = common (suffix old p) (suffix new q)); [|lia]. apply common_unique; rewrite ?zlen_suffix by lia; try assumption; lia.
    + destruct R as [_ R]. discriminate R. exists m. split; [lia|]. split.
      * intros i Hi. specialize (M3 i Hi). rewrite !getz_suffix in M3 by lia. assumption.
      * rewrite !getz_suffix in M5 by lia. assumption.
Qed.

(** ** The places of a byte *)
Lemma sorted_filter c l : StronglySorted Z.le l -> forall i, 0 <= i < zlen l ->
  (getz l i < c <-> i < zlen (filter (fun b => b <? c) l)).
Proof.
  induction 1 as [|x l S IH H]; intros i Hi; [change (zlen (@nil Z)) with 0 in Hi; lia|]. rewrite zlen_cons in Hi. cbn [filter].
  pose proof (zlen_nonneg (filter (fun b => b <? c) l)).
  destruct (Z.eq_dec i 0) as [->|].
  - change (getz (x :: l) 0) with x. destruct (x <? c) eqn:E; rewrite ?zlen_cons; [lia|].
    replace (filter (fun b => b <? c) l) with (@nil Z); [cbn; lia|].
    rewrite Forall_forall in H. clear - H E. induction l as [|y l IH]; [reflexivity|]. cbn [filter].
    pose proof (H y (or_introl eq_refl)). replace (y <? c) with false by lia. apply IH. intros z Hz. apply H. right. assumption.
  - rewrite getz_cons by lia. specialize (IH (i - 1) ltac:(lia)). destruct (x <? c) eqn:E; rewrite ?zlen_cons; [lia|].
    pose proof (getz_in l (i - 1) ltac:(lia)) as I. rewrite Forall_forall in H. apply H in I.
    lia.
Qed.
Lemma filter_perm (f : Z -> bool) l m : Permutation l m -> zlen (filter f l) = zlen (filter f m).
Proof.
  induction 1 as [|x l m P IH|x y l|l m k P IH Q IH'].
  - reflexivity.
  - cbn [filter]. destruct (f x); rewrite ?zlen_cons; lia.
  - cbn [filter]. destruct (f x); destruct (f y); rewrite ?zlen_cons; lia.
  - lia.
Qed.
Lemma getz_all l : map (getz l) (map Z.of_nat (seq 0 (length l))) = l.
Proof.
  rewrite map_map. apply nth_ext with 0 0; [rewrite map_length, seq_length; reflexivity|].
  intros i Hi. rewrite map_length, seq_length in Hi. 
  rewrite nth_indep with (d' := getz l (Z.of_nat 0)) by (rewrite map_length, seq_length; assumption).
  rewrite (map_nth (fun x => getz l (Z.of_nat x))), seq_nth by assumption. unfold getz. rewrite Nat2Z.id. reflexivity.
Qed.
Lemma strongly_get (R : Z -> Z -> Prop) l : StronglySorted R l -> forall i j, 0 <= i -> i < j -> j < zlen l -> R (getz l i) (getz l j).
Proof.
  induction 1 as [|x l S IH H]; intros i j Hi Hij Hj; [change (zlen (@nil Z)) with 0 in Hj; lia|]. rewrite zlen_cons in Hj.
  rewrite (getz_cons x l j) by lia. destruct (Z.eq_dec i 0) as [->|].
  - rewrite Forall_forall in H. apply H. apply getz_in. lia.
  - rewrite getz_cons by lia. apply IH; lia.
Qed.
Lemma lex_first a b : lex a b -> a <> [] -> getz a 0 <= getz b 0.
Proof. intros [? ?|x l y m H|x l m H] N; [congruence| |]; cbn; lia. Qed.

Section Index.
Context (old Ix F : list Z).
Hypothesis old_bytes : bytes old.
Hypothesis old_len : 0 < zlen old < 2 ^ 62.
Hypothesis index : suffix_index old Ix F.
Notation n := (zlen old).
Notation d := (padding old).

Lemma pad_range : 1 <= d <= 2.
Proof. clear. unfold padding. destruct (16777216 <=? n); lia. Qed.
Let L := slice Ix (d + 1) n.
Lemma L_len : zlen L = n.
Proof. destruct index as (H & _). pose proof pad_range. unfold L. apply zlen_slice; lia. Qed.
Lemma L_getz i : 0 <= i < n -> getz L i = getz Ix (d + 1 + i).
Proof. intros H. pose proof pad_range. unfold L. apply getz_slice; lia. Qed.
Lemma place_range k : d < k <= n + d -> 0 <= getz Ix k < n.
Proof.
  intros H. destruct index as (_ & _ & (P & _) & _). fold L in P.
  replace k with (d + 1 + (k - d - 1)) by lia. rewrite <- L_getz by lia.
  pose proof (getz_in L (k - d - 1) ltac:(rewrite L_len; lia)) as I. apply (Permutation_in _ P) in I.
  apply in_map_iff in I. destruct I as (x & <- & I). apply in_seq in I. unfold zlen. lia.
Qed.
Lemma place_all p : 0 <= p < n -> exists k, d < k <= n + d /\ getz Ix k = p.
Proof.
  intros H. destruct index as (_ & _ & (P & _) & _). fold L in P. apply Permutation_sym in P.
  assert (I : In p (map Z.of_nat (seq 0 (length old)))).
  { apply in_map_iff. exists (Z.to_nat p). split; [lia|]. apply in_seq. unfold zlen in H. lia. }
  apply (Permutation_in _ P) in I. destruct (in_getz L p I) as (k & Hk & E). rewrite L_len in Hk. rewrite L_getz in E by assumption.
  exists (d + 1 + k). split; [lia|assumption].
Qed.
Lemma place_lex k l : d < k -> k < l -> l <= n + d -> lex (suffix old (getz Ix k)) (suffix old (getz Ix l)).
Proof.
  intros H1 H2 H3. destruct index as (_ & _ & (_ & S) & _). fold L in S.
  pose proof (strongly_get _ _ S (k - d - 1) (l - d - 1)) as G. rewrite L_len, !L_getz in G by lia. cbv beta in G.
  replace (d + 1 + (k - d - 1)) with k in G by lia. replace (d + 1 + (l - d - 1)) with l in G by lia. apply G; lia.
Qed.
Lemma suffix_some p : 0 <= p < n -> suffix old p <> [].
Proof. intros H E. apply (f_equal zlen) in E. rewrite zlen_suffix in E by lia. change (zlen (@nil Z)) with 0 in E. lia. Qed.
Lemma place_less k c : d < k <= n + d -> (getz old (getz Ix k) < c <-> k <= d + smaller old c).
Proof.
  intros H. pose proof index as (_ & _ & (P & _) & _). fold L in P.
  assert (S : StronglySorted Z.le (map (getz old) L)).
  { apply strongly. rewrite zlen_map, L_len. intros i j Hi Hij Hj. 
    assert (G : forall x, 0 <= x < n -> getz (map (getz old) L) x = getz old (getz L x)).
    { intros x Hx. unfold getz at 1. rewrite nth_indep with (d' := getz old 0) by (rewrite map_length; pose proof L_len as Q; unfold zlen in *; lia).
      rewrite map_nth. reflexivity. }
    rewrite !G, !L_getz by lia. pose proof (place_lex (d + 1 + i) (d + 1 + j) ltac:(lia) ltac:(lia) ltac:(lia)) as X.
    apply lex_first in X; [|apply suffix_some; apply place_range; lia].
    rewrite !getz_suffix in X by (try (apply place_range); lia). rewrite !Z.add_0_r in X. exact X. }
  pose proof (sorted_filter c _ S (k - d - 1)) as Q. rewrite zlen_map, L_len in Q. specialize (Q ltac:(lia)).
  rewrite (filter_perm _ _ _ (Permutation_map (getz old) P)), getz_all in Q. fold (smaller old c) in Q.
  assert (G : getz (map (getz old) L) (k - d - 1) = getz old (getz Ix k)).
  { unfold getz at 1. rewrite nth_indep with (d' := getz old 0) by (rewrite map_length; pose proof L_len as Q'; unfold zlen in *; lia).
    rewrite map_nth. fold (getz L (k - d - 1)). rewrite L_getz by lia. f_equal. f_equal. lia. }
  rewrite G in Q. rewrite Q. lia.
Qed.
Lemma F_range c : 0 <= c <= 256 -> d <= getz F c <= n + d.
Proof.
  intros H. destruct index as (_ & _ & _ & _ & G). rewrite G by assumption. unfold smaller.
  pose proof (zlen_nonneg (filter (fun b => b <? c) old)). assert (zlen (filter (fun b => b <? c) old) <= n); [|lia].
  clear. induction old as [|x l IH]; [cbn; lia|]. cbn [filter]. destruct (x <? c); rewrite ?zlen_cons; lia.
Qed.
Lemma place_byte k c : 0 <= c < 256 -> d < k <= n + d -> (getz old (getz Ix k) = c <-> getz F c < k <= getz F (c + 1)).
Proof.
  intros Hc Hk. destruct index as (_ & _ & _ & _ & G). rewrite !G by lia.
  pose proof (place_less k c Hk). pose proof (place_less k (c + 1) Hk). lia.
Qed.

(** ** Searching *)
Section At.
Context (new : list Z) (q : Z).
Hypothesis new_bytes : bytes new.
Hypothesis q_range : 0 <= q < zlen new.
Notation c := (getz new q).
Notation score_of p := (common (suffix old p) (suffix new q)).
(** No suffix is all of what [new] starts with here. *)
Definition no_end : Prop := forall p, 0 <= p < n -> score_of p < n - p.

Lemma halve_ok s0 e0 : d < s0 -> s0 < e0 -> e0 <= n + d ->
  exists s e, while (Z.to_nat (e0 - s0) + 1) (halve_step Ix old new q) (s0, e0) = Ok (s, e) /\
    s0 <= s /\ e = s + 1 /\ e <= e0 /\
    (s = s0 \/ lex (suffix old (getz Ix s)) (suffix new q)) /\
    (no_end -> e = e0 \/ ~ lex (suffix old (getz Ix e)) (suffix new q)).
Proof.
  intros H1 H2 H3. pose proof pad_range as Pd. destruct index as (LI & _).
  assert (H : exists r, while (Z.to_nat (e0 - s0) + 1) (halve_step Ix old new q) (s0, e0) = Ok r /\
    (fun r : Z * Z => let '(s, e) := r in s0 <= s /\ e = s + 1 /\ e <= e0 /\
    (s = s0 \/ lex (suffix old (getz Ix s)) (suffix new q)) /\
    (no_end -> e = e0 \/ ~ lex (suffix old (getz Ix e)) (suffix new q))) r).
  { apply (while_ok _ (fun r : Z * Z => let '(s, e) := r in s0 <= s /\ s < e /\ e <= e0 /\
      (s = s0 \/ lex (suffix old (getz Ix s)) (suffix new q)) /\
      (no_end -> e = e0 \/ ~ lex (suffix old (getz Ix e)) (suffix new q))) (fun r : Z * Z => let '(s, e) := r in e - s)).
    - intros [s e] (I1 & I2 & I3 & I4 & I5). split; [lia|]. unfold halve_step. destruct (2 <=? e - s) eqn:E.
      + cbn zeta. set (m := s + (e - s) / 2). assert (Hm : s < m < e).
        { unfold m. pose proof (Z.div_mod (e - s) 2). pose proof (Z.mod_pos_bound (e - s) 2). lia. }
        rewrite rd_in by lia. cbn [bind]. pose proof (place_range m ltac:(lia)) as Rm.
        destruct (memcmp_ok old (getz Ix m) new q) as (r & -> & R1 & R2); try lia. cbn [bind]. destruct r.
        * eexists; split; [reflexivity|]. split; [|lia]. repeat split; try lia; [right; auto|assumption].
        * eexists; split; [reflexivity|]. split; [|lia]. repeat split; try lia; [assumption|]. intros Ne. right. apply R2; [reflexivity|]. apply Ne. assumption.
      + eexists; split; [reflexivity|]. repeat split; try lia; assumption.
    - repeat split; try lia; auto.
    - lia. }
  destruct H as ([s e] & E & Q). exists s, e. auto.
Qed.

Lemma suffix_search_ok : exists len at_, suffix_search Ix old new q (getz F c + 1) (getz F (c + 1)) = Ok (len, at_) /\
  match at_ with
  | None => len = 0 /\ forall p, 0 <= p < n -> getz old p <> c
  | Some p => 0 <= p < n /\ 0 < len /\ len = score_of p
  end /\ (no_end -> forall p, 0 <= p < n -> score_of p <= len).
Proof.
  pose proof (SuffixCreate.bytes_getz new q new_bytes q_range) as Hc. pose proof pad_range as Pd.
  pose proof (F_range c ltac:(lia)) as F1. pose proof (F_range (c + 1) ltac:(lia)) as F2. pose proof index as (LI & _).
  assert (Ot : forall p, 0 <= p < n -> getz old p <> c -> score_of p = 0).
  { intros p Hp N. apply common_first; [apply suffix_some; assumption| |].
    - intros E. apply (f_equal zlen) in E. rewrite zlen_suffix in E by lia. change (zlen (@nil Z)) with 0 in E. lia.
    - rewrite !getz_suffix by lia. rewrite !Z.add_0_r. assumption. }
  assert (Pos : forall k, d < k <= n + d -> getz F c < k <= getz F (c + 1) -> 0 < score_of (getz Ix k)).
  { intros k Hk R. apply (place_byte k c ltac:(lia) Hk) in R. pose proof (place_range k Hk).
    destruct (common_spec (suffix old (getz Ix k)) (suffix new q)) as (C1 & C2 & C3 & C4). cbn zeta in *. rewrite zlen_suffix in C1, C2 by lia.
    destruct (Z.eq_dec (score_of (getz Ix k)) 0) as [Q|]; [|lia]. exfalso. rewrite Q in C4. apply C4; rewrite ?zlen_suffix by lia; try lia.
    rewrite !getz_suffix by lia. rewrite !Z.add_0_r. assumption. }
  unfold suffix_search. destruct (getz F (c + 1) <? getz F c + 1) eqn:E1.
  - assert (No : forall p, 0 <= p < n -> getz old p <> c).
    { intros p Hp Q. destruct (place_all p Hp) as (k & Hk & <-). apply (place_byte k c ltac:(lia) Hk) in Q. lia. }
    exists 0, None. split; [reflexivity|]. split; [auto|]. intros _ p Hp. rewrite Ot by auto. lia.
  - destruct (getz F c + 1 =? getz F (c + 1)) eqn:E2.
    + rewrite rd_in by lia. cbn [bind]. pose proof (place_range (getz F c + 1) ltac:(lia)) as R.
      rewrite match_ok by lia. cbn [bind]. eexists _, _. split; [reflexivity|]. pose proof (Pos (getz F c + 1) ltac:(lia) ltac:(lia)) as Q.
      split; [auto|]. intros _ p Hp. destruct (Z.eq_dec (getz old p) c) as [Qc|Qc]; [|rewrite Ot by auto; lia].
      destruct (place_all p Hp) as (k & Hk & <-). apply (place_byte k c ltac:(lia) Hk) in Qc. replace k with (getz F c + 1) by lia. lia.
    + destruct (halve_ok (getz F c + 1) (getz F (c + 1))) as (s & e & E & S1 & S2 & S3 & S4 & S5); try lia.
      rewrite E. cbn [bind]. rewrite !rd_in by lia. cbn [bind].
      pose proof (place_range s ltac:(lia)) as Rs. pose proof (place_range e ltac:(lia)) as Re.
      rewrite !match_ok by lia. cbn [bind]. eexists _, _. split; [reflexivity|].
      pose proof (Pos s ltac:(lia) ltac:(lia)) as P1. pose proof (Pos e ltac:(lia) ltac:(lia)) as P2. split.
      * destruct (score_of (getz Ix e) <? score_of (getz Ix s)) eqn:Q; (split; [assumption|]); lia.
      * intros Ne p Hp. destruct (Z.eq_dec (getz old p) c) as [Qc|Qc]; [|rewrite Ot by auto; lia].
        destruct (place_all p Hp) as (k & Hk & <-). apply (place_byte k c ltac:(lia) Hk) in Qc.
        destruct (Z.lt_trichotomy k s) as [K|[->|K]]; [|lia|].
        -- destruct S4 as [S4|S4]; [lia|]. pose proof (common_lower _ _ _ (place_lex k s ltac:(lia) K ltac:(lia)) S4). lia.
        -- destruct (Z.eq_dec k e) as [->|]; [lia|]. destruct (S5 Ne) as [S|S]; [lia|].
           pose proof (common_upper _ _ _ (place_lex e k ltac:(lia) ltac:(lia) ltac:(lia)) S). lia.
Qed.
End At.
End Index.

(** ** All of the search *)
Lemma u64_add_l a b : u64 (a + u64 b) = u64 (a + b).
Proof. unfold u64. rewrite Zplus_mod_idemp_r. reflexivity. Qed.
Lemma u64_sub_r a b : u64 (a - u64 b) = u64 (a - b).
Proof. unfold u64. rewrite Zminus_mod_idemp_r. reflexivity. Qed.
Lemma u64_small x : 0 <= x < 2 ^ 64 -> u64 x = x.
Proof. intros H. unfold u64. apply Z.mod_small. assumption. Qed.
Lemma score_ok old new delta k : forall m s, 0 <= m -> 0 <= m + delta -> m + Z.of_nat k <= zlen new -> m + Z.of_nat k <= zlen old - delta ->
  zlen old < 2 ^ 62 -> exists s', score k old new (u64 delta) m s = Ok s'.
Proof.
  induction k as [|k IH]; intros m s H1 H2 H3 H4 H5; cbn [score]; [eauto|].
  rewrite u64_add_l, u64_small by lia. rewrite !rd_in by lia. cbn [bind]. apply IH; lia.
Qed.

Lemma no_end_last old new q : 0 <= q < zlen new -> (forall i, q <= i < zlen new -> getz new i <> getz old (zlen old - 1)) -> no_end old new q.
Proof.
  intros Hq H p Hp. destruct (common_spec (suffix old p) (suffix new q)) as (C1 & C2 & C3 & _). cbn zeta in *.
  rewrite zlen_suffix in C1, C2 by lia.
  destruct (Z.eq_dec (common (suffix old p) (suffix new q)) (zlen old - p)) as [E|]; [|lia]. exfalso.
  apply (H (q + (zlen old - 1 - p))); [lia|]. specialize (C3 (zlen old - 1 - p)). rewrite !getz_suffix in C3 by lia.
  replace (p + (zlen old - 1 - p)) with (zlen old - 1) in C3 by lia. symmetry. apply C3. lia.
Qed.

Lemma search_ok old Ix F new delta scan : bytes old -> 0 < zlen old < 2 ^ 62 -> suffix_index old Ix F ->
  bytes new -> zlen new < 2 ^ 62 -> 0 <= scan <= zlen new -> - scan <= delta <= zlen old ->
  exists scan' pos len, sfxsrt_search Ix F old new (u64 delta) scan = Ok (scan', pos, len) /\
    scan <= scan' <= zlen new /\
    (scan' < zlen new -> 0 <= pos < zlen old /\ len = common (suffix old pos) (suffix new scan') /\
       (no_end old new scan' -> forall p, 0 <= p < zlen old -> common (suffix old p) (suffix new scan') <= len)).
Proof.
  intros Ho Hn Hi Hb Hm Hs Hd.
  set (Post := fun r : Z * Z * Z => let '(scan', pos, len) := r in scan <= scan' <= zlen new /\
    (scan' < zlen new -> 0 <= pos < zlen old /\ len = common (suffix old pos) (suffix new scan') /\
       (no_end old new scan' -> forall p, 0 <= p < zlen old -> common (suffix old p) (suffix new scan') <= len))).
  assert (H : exists r, sfxsrt_search Ix F old new (u64 delta) scan = Ok r /\ Post r).
  { unfold sfxsrt_search. apply (while_ok _ (fun s : Z * Z * Z * Z * Z => let '(q, m, sc, len, pos) := s in
       scan <= q <= zlen new /\ scan <= m /\ 0 <= pos < zlen old) (fun s : Z * Z * Z * Z * Z => let '(q, m, sc, len, pos) := s in zlen new + 1 - q)).
    - intros [[[[q m] sc] len] pos] (I1 & I2 & I3). split; [lia|]. unfold search_step.
      destruct (q <? zlen new) eqn:Eq.
      2: { eexists; split; [reflexivity|]. unfold Post. split; [lia|]. intros; lia. }
      assert (Hq : 0 <= q < zlen new) by lia. pose proof (SuffixCreate.bytes_getz new q Hb Hq) as Hc.
      pose proof Hi as (_ & LF & _).
      rewrite rd_in by lia. cbn [bind]. rewrite !rd_in by lia. cbn [bind].
      destruct (suffix_search_ok old Ix F Hn Hi new q Hb Hq) as (l & at_ & E & M & Best).
      rewrite E. cbn [bind]. clear E. set (pos' := match at_ with Some p => p | None => pos end).
      assert (Q : 0 <= pos' < zlen old /\ l = common (suffix old pos') (suffix new q)).
      { unfold pos'. destruct at_ as [p|].
        - destruct M as (M1 & M2 & M3). auto.
        - destruct M as [-> M]. split; [assumption|]. symmetry. apply common_first.
          + apply suffix_some. assumption.
          + apply suffix_some. assumption.
          + rewrite !getz_suffix by lia. rewrite !Z.add_0_r. apply M. assumption. }
      destruct Q as [Q1 Q2]. pose proof (common_match old pos' new q ltac:(lia) ltac:(lia)) as (_ & _ & R1 & R2 & _). rewrite <- Q2 in R1, R2.
      cbn zeta. rewrite u64_sub_r, (u64_small (zlen old - delta)) by lia.
      assert (E : exists sc', score (Z.to_nat (Z.min (q + l) (zlen old - delta) - m)) old new (u64 delta) m sc = Ok sc').
      { destruct (Z.le_gt_cases m (Z.min (q + l) (zlen old - delta))).
        - apply score_ok; lia.
        - replace (Z.to_nat (Z.min (q + l) (zlen old - delta) - m)) with O by lia. exists sc. reflexivity. }
      destruct E as (sc' & ->). cbn [bind]. clearbody pos'. destruct ((0 <? l) && (l =? sc')) eqn:E1.
      + eexists; split; [reflexivity|]. cbv beta iota. split; [|lia]. repeat split; lia.
      + destruct (32 <? u64 (l - sc')) eqn:E2.
        * eexists; split; [reflexivity|]. unfold Post. split; [lia|]. auto.
        * rewrite u64_add_l, (u64_small (q + delta)) by lia.
          assert (E : exists hit, (if q + delta <? zlen old then x <- rd old (q + delta) ;; Ok (x =? getz new q) else Ok false) = Ok hit).
          { destruct (q + delta <? zlen old) eqn:E3; [|eauto]. rewrite rd_in by lia. cbn [bind]. eauto. }
          destruct E as (hit & ->). cbn [bind]. eexists; split; [reflexivity|]. cbv beta iota. split; [|lia]. repeat split; lia.
    - repeat split; lia.
    - unfold zlen in *. lia. }
  destruct H as ([[scan' pos] len] & E & P). exists scan', pos, len. split; [exact E|]. exact P.
Qed.

(** Without a place to compare with: the first position that has a long match. *)
Lemma search_first old Ix F new scan : bytes old -> 0 < zlen old < 2 ^ 62 -> suffix_index old Ix F ->
  bytes new -> zlen new < 2 ^ 62 -> 0 <= scan <= zlen new -> (forall q, scan <= q < zlen new -> no_end old new q) ->
  exists scan' pos len, sfxsrt_search Ix F old new (zlen old) scan = Ok (scan', pos, len) /\
    scan <= scan' <= zlen new /\
    (forall q p, scan <= q < scan' -> 0 <= p < zlen old -> common (suffix old p) (suffix new q) <= 32) /\
    (scan' < zlen new -> 0 <= pos < zlen old /\ 32 < len /\ len = common (suffix old pos) (suffix new scan') /\
       forall p, 0 <= p < zlen old -> common (suffix old p) (suffix new scan') <= len).
Proof.
  intros Ho Hn Hi Hb Hm Hs Ne.
  set (Post := fun r : Z * Z * Z => let '(scan', pos, len) := r in scan <= scan' <= zlen new /\
    (forall q p, scan <= q < scan' -> 0 <= p < zlen old -> common (suffix old p) (suffix new q) <= 32) /\
    (scan' < zlen new -> 0 <= pos < zlen old /\ 32 < len /\ len = common (suffix old pos) (suffix new scan') /\
       forall p, 0 <= p < zlen old -> common (suffix old p) (suffix new scan') <= len)).
  assert (H : exists r, sfxsrt_search Ix F old new (zlen old) scan = Ok r /\ Post r).
  { unfold sfxsrt_search. apply (while_ok _ (fun s : Z * Z * Z * Z * Z => let '(q, m, sc, len, pos) := s in
       scan <= q <= zlen new /\ 0 <= m /\ sc = 0 /\ 0 <= pos < zlen old /\
       (forall q' p, scan <= q' < q -> 0 <= p < zlen old -> common (suffix old p) (suffix new q') <= 32))
       (fun s : Z * Z * Z * Z * Z => let '(q, m, sc, len, pos) := s in zlen new + 1 - q)).
    - intros [[[[q m] sc] len] pos] (I1 & I2 & -> & I3 & I4). split; [lia|]. unfold search_step.
      destruct (q <? zlen new) eqn:Eq.
      2: { eexists; split; [reflexivity|]. unfold Post. split; [lia|]. split; [assumption|intros; lia]. }
      assert (Hq : 0 <= q < zlen new) by lia. pose proof (SuffixCreate.bytes_getz new q Hb Hq) as Hc.
      pose proof Hi as (_ & LF & _).
      rewrite rd_in by lia. cbn [bind]. rewrite !rd_in by lia. cbn [bind].
      destruct (suffix_search_ok old Ix F Hn Hi new q Hb Hq) as (l & at_ & E & M & Best).
      specialize (Best (Ne q ltac:(lia))).
      rewrite E. cbn [bind]. clear E. cbn zeta. rewrite Z.sub_diag. change (u64 0) with 0.
      assert (Hl : 0 <= l <= zlen new).
      { destruct at_ as [p|]; [|lia]. destruct M as (M1 & M2 & M3). pose proof (common_match old p new q ltac:(lia) ltac:(lia)) as (_ & _ & R1 & R2 & _). lia. }
      replace (Z.to_nat (Z.min (q + l) 0 - m)) with O by lia. cbn [score bind].
      replace ((0 <? l) && (l =? 0)) with false by lia. rewrite Z.sub_0_r, (u64_small l) by lia.
      rewrite (u64_small (q + zlen old)) by lia. replace (q + zlen old <? zlen old) with false by lia. cbn [bind].
      destruct (32 <? l) eqn:E2.
      + eexists; split; [reflexivity|]. unfold Post. split; [lia|]. split; [assumption|]. intros _.
        destruct at_ as [p|]; [|lia]. destruct M as (M1 & M2 & M3). split; [assumption|]. split; [lia|]. split; [assumption|]. assumption.
      + eexists; split; [reflexivity|]. cbv beta iota. split; [|lia]. split; [lia|]. split; [lia|]. split; [reflexivity|]. split.
        * destruct at_ as [p|]; [apply M|assumption].
        * intros q' p Hq' Hp. destruct (Z.eq_dec q' q) as [->|]; [specialize (Best p Hp); lia|apply I4; [lia|assumption]].
    - split; [lia|]. split; [lia|]. split; [reflexivity|]. split; [lia|]. intros; lia.
    - unfold zlen in *. lia. }
  destruct H as ([[scan' pos] len] & E & P). exists scan', pos, len. split; [exact E|]. exact P.
Qed.

(** ** For the array that [sfxsrt_create] makes *)
Lemma create_index old : bytes old -> 0 < zlen old < 2 ^ 62 -> exists Ix F, sfxsrt_create old = Ok (Ix, F) /\ suffix_index old Ix F.
Proof.
  intros Ho Hn. destruct (create_ok old Ho Hn) as (Ix & F & E & H1 & H2 & H3 & H4 & H5). exists Ix, F. split; [exact E|].
  repeat split; try assumption; apply H2.
Qed.
Lemma create_gives old Ix F : bytes old -> 0 < zlen old < 2 ^ 62 -> sfxsrt_create old = Ok (Ix, F) -> suffix_index old Ix F.
Proof. intros Ho Hn E. destruct (create_index old Ho Hn) as (Ix' & F' & E' & H). rewrite E in E'. injection E' as -> ->. assumption. Qed.
Lemma bucket_of old Ix F : bytes old -> 0 < zlen old < 2 ^ 62 -> sfxsrt_create old = Ok (Ix, F) ->
  forall k c, 0 <= c < 256 -> padding old < k <= zlen old + padding old ->
  (getz old (getz Ix k) = c <-> getz F c < k <= getz F (c + 1)).
Proof. intros Ho Hn E k c Hc Hk. apply place_byte; try assumption. apply create_gives; assumption. Qed.
Lemma search_safe old Ix F new delta scan : bytes old -> 0 < zlen old < 2 ^ 62 -> sfxsrt_create old = Ok (Ix, F) ->
  bytes new -> zlen new < 2 ^ 62 -> 0 <= scan <= zlen new -> - scan <= delta <= zlen old ->
  exists scan' pos len, sfxsrt_search Ix F old new (u64 delta) scan = Ok (scan', pos, len) /\
    scan <= scan' <= zlen new /\ (scan' < zlen new -> fits_at old new scan' pos len).
Proof.
  intros Ho Hn E Hb Hm Hs Hd. destruct (search_ok old Ix F new delta scan) as (s & p & l & E' & H1 & H2); try assumption; [apply create_gives; assumption|].
  exists s, p, l. split; [exact E'|]. split; [assumption|]. intros H. destruct (H2 H) as (H3 & H4 & _). split; auto.
Qed.
Lemma search_longest old Ix F new delta scan : bytes old -> 0 < zlen old < 2 ^ 62 -> sfxsrt_create old = Ok (Ix, F) ->
  bytes new -> zlen new < 2 ^ 62 -> 0 <= scan <= zlen new -> - scan <= delta <= zlen old -> last_absent old new scan ->
  exists scan' pos len, sfxsrt_search Ix F old new (u64 delta) scan = Ok (scan', pos, len) /\
    scan <= scan' <= zlen new /\ (scan' < zlen new -> fits_at old new scan' pos len /\ at_most old new scan' len).
Proof.
  intros Ho Hn E Hb Hm Hs Hd La. destruct (search_ok old Ix F new delta scan) as (s & p & l & E' & H1 & H2); try assumption; [apply create_gives; assumption|].
  exists s, p, l. split; [exact E'|]. split; [assumption|]. intros H. destruct (H2 H) as (H3 & H4 & H5). split; [split; auto|].
  unfold at_most. apply H5. apply no_end_last; [lia|]. intros i Hi. apply La. lia.
Qed.
Lemma search_long old Ix F new scan : bytes old -> 0 < zlen old < 2 ^ 62 -> sfxsrt_create old = Ok (Ix, F) ->
  bytes new -> zlen new < 2 ^ 62 -> 0 <= scan <= zlen new -> last_absent old new scan ->
  exists scan' pos len, sfxsrt_search Ix F old new (zlen old) scan = Ok (scan', pos, len) /\
    scan <= scan' <= zlen new /\ (forall q, scan <= q < scan' -> at_most old new q 32) /\
    (scan' < zlen new -> 32 < len /\ fits_at old new scan' pos len /\ at_most old new scan' len).
Proof.
  intros Ho Hn E Hb Hm Hs La. destruct (search_first old Ix F new scan) as (s & p & l & E' & H1 & H2 & H3); try assumption; [apply create_gives; assumption| |].
  { intros q Hq. apply no_end_last; [lia|]. intros i Hi. apply La. lia. }
  exists s, p, l. split; [exact E'|]. split; [assumption|]. split; [intros q Hq x Hx; apply H2; assumption|].
  intros H. destruct (H3 H) as (H4 & H5 & H6 & H7). split; [assumption|]. split; [split; auto|]. exact H7.
Qed.
