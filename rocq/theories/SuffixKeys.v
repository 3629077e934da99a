(** * SuffixKeys: the first classes, by [bucketsort] *)
From Verif Require Import Base BaseLemmas Seq Search Suffix SuffixText SuffixSplit SuffixOrder.
Unset Lia Cache.

(** ** Chains *)
Fixpoint mem (K : Z -> Z) (c : Z) (m : nat) (n : Z) : list Z :=
  match m with
  | O => []
  | S m => if K n =? c then n :: mem K c m (n + 1) else mem K c m (n + 1)
  end.
Lemma mem_in K c m : forall n p, In p (mem K c m n) <-> n <= p < n + Z.of_nat m /\ K p = c.
Proof.
  induction m as [|m IH]; intros n p; cbn [mem].
  - cbn. lia.
  - destruct (K n =? c) eqn:E; [cbn [In]|]; rewrite IH; split; intros H.
    + destruct H as [<-|H]; lia.
    + destruct (Z.eq_dec n p); [auto|]. right. lia.
    + lia.
    + destruct (Z.eq_dec n p) as [->|]; [lia|]. lia.
Qed.
Lemma mem_nodup K c m : forall n, NoDup (mem K c m n).
Proof.
  induction m as [|m IH]; intros n; cbn [mem]; [constructor|].
  destruct (K n =? c); [|apply IH]. constructor; [|apply IH]. rewrite mem_in. lia.
Qed.
Lemma mem_len K c m : forall n, zlen (mem K c m n) = cnt (fun p => K p =? c) n (n + Z.of_nat m).
Proof.
  induction m as [|m IH]; intros n; cbn [mem].
  - rewrite Z.add_0_r, cnt_nil. reflexivity.
  - rewrite cnt_cons by lia. replace (n + Z.of_nat (S m)) with (n + 1 + Z.of_nat m) by lia. rewrite <- IH.
    destruct (K n =? c); rewrite ?zlen_cons; lia.
Qed.

Fixpoint chain (V : list Z) (d : Z) (l : list Z) : Prop :=
  match l with
  | [] => d = 0
  | p :: l => 0 <= p /\ d = p + 1 /\ chain V (getz V p) l
  end.
Lemma chain_keep V V' l : forall d, chain V d l -> (forall p, In p l -> getz V' p = getz V p) -> chain V' d l.
Proof.
  induction l as [|p l IH]; intros d C E; cbn in *; [assumption|]. destruct C as (A & B & C).
  split; [assumption|]. split; [assumption|]. rewrite (E p) by auto. apply IH; [assumption|]. intros q Hq. apply E. auto.
Qed.

Lemma fill_ok K len buckets : 0 <= len -> (forall p, 0 <= p < len -> 0 <= K p < buckets) ->
  forall n V B, Z.of_nat n <= len -> len <= zlen V ->
  (forall p, 0 <= p < Z.of_nat n -> getz V p = K p) ->
  (forall c, chain V (bucket B c) (mem K c (Z.to_nat (len - Z.of_nat n)) (Z.of_nat n))) ->
  exists V' B', bucket_fill n buckets V B = Ok (V', B') /\ zlen V' = zlen V /\
    forall c, chain V' (bucket B' c) (mem K c (Z.to_nat len) 0).
Proof.
  intros Hl Kr. induction n as [|n IH]; intros V B Hn HV E C; cbn [bucket_fill].
  - exists V, B. split; [reflexivity|]. split; [reflexivity|]. intros c. specialize (C c).
    replace (len - Z.of_nat 0) with len in C by lia. exact C.
  - rewrite rd_in by lia. cbn [bind]. rewrite E by lia. pose proof (Kr (Z.of_nat n) ltac:(lia)).
    unfold in_table. replace ((0 <=? K (Z.of_nat n)) && (K (Z.of_nat n) <? buckets)) with true by lia. cbn [bind].
    destruct (store_in V (Z.of_nat n) (bucket B (K (Z.of_nat n)))) as (V1 & -> & L1 & G1); [lia|]. cbn [bind].
    destruct (IH V1 ((K (Z.of_nat n), Z.of_nat n + 1) :: B)) as (V2 & B2 & E2 & L2 & C2); [lia|lia| | |].
    + intros p Hp. rewrite G1 by lia. replace (p =? Z.of_nat n) with false by lia. apply E. lia.
    + intros c. replace (Z.to_nat (len - Z.of_nat n)) with (S (Z.to_nat (len - Z.of_nat (S n)))) by lia. cbn [mem bucket].
      specialize (C c). replace (Z.of_nat (S n)) with (Z.of_nat n + 1) in C at 2 by lia.
      assert (C1 : chain V1 (bucket B c) (mem K c (Z.to_nat (len - Z.of_nat (S n))) (Z.of_nat n + 1))).
      { eapply chain_keep; [exact C|]. intros p Hp. apply mem_in in Hp. rewrite G1 by lia. replace (p =? Z.of_nat n) with false by lia. reflexivity. }
      destruct (c =? K (Z.of_nat n)) eqn:Ec.
      * assert (c = K (Z.of_nat n)) by lia. subst c. rewrite Z.eqb_refl. cbn [chain]. split; [lia|]. split; [reflexivity|].
        rewrite G1, Z.eqb_refl by lia. assumption.
      * replace (K (Z.of_nat n) =? c) with false by lia. assumption.
    + exists V2, B2. split; [assumption|]. split; [lia|]. assumption.
Qed.

Lemma bucket_empty_ok g : forall l fuel d i A V, (length l < fuel)%nat -> chain V d l -> NoDup l ->
  (forall p, In p l -> 0 <= p < zlen V) -> zlen l <= i -> i < zlen A -> i <= g ->
  exists A' V', bucket_empty fuel g d i A V = Ok (i - zlen l, A', V') /\ zlen A' = zlen A /\ zlen V' = zlen V /\
    (forall p, In p l -> getz V' p = g) /\ (forall p, 0 <= p -> ~ In p l -> getz V' p = getz V p) /\
    (forall s, i - zlen l < s <= i -> getz A' s = if (s =? i - zlen l + 1) && (g =? s) then -1 else getz l (i - s)) /\
    (forall s, 0 <= s -> ~ (i - zlen l < s <= i) -> getz A' s = getz A s).
Proof.
  induction l as [|p l IH]; intros fuel d i A V Hf C ND R Hi HA Hg; (destruct fuel as [|fuel]; [cbn in Hf; lia|]); cbn [bucket_empty chain] in *.
  - subst d. cbn. exists A, V. change (zlen []) with 0. rewrite Z.sub_0_r. split; [reflexivity|]. repeat split; auto; lia.
  - destruct C as (Hp & -> & C). replace (p + 1 <=? 0) with false by lia. replace (p + 1 - 1) with p by lia. cbn zeta.
    pose proof (R p (or_introl eq_refl)) as Rp. rewrite zlen_cons in *. pose proof (zlen_nonneg l).
    rewrite rd_in by lia. cbn [bind].
    destruct (store_in V p g) as (V1 & -> & LV & GV); [lia|]. cbn [bind].
    set (y := if (getz V p =? 0) && (g =? i) then -1 else p).
    destruct (store_in A i y) as (A1 & -> & LA & GA); [lia|]. cbn [bind].
    inversion ND as [|? ? Nin ND']; subst.
    destruct (IH fuel (getz V p) (i - 1) A1 V1) as (A2 & V2 & E & L1 & L2 & In2 & Out2 & IA & OA); try assumption; try lia; try (cbn in Hf; lia).
    + eapply chain_keep; [exact C|]. intros q Hq. rewrite GV; [|apply R; cbn; auto].
      destruct (q =? p) eqn:Eq; [|reflexivity]. assert (q = p) by lia. subst q. contradiction.
    + intros q Hq. rewrite LV. apply R. cbn. auto.
    + exists A2, V2. split; [rewrite E; f_equal; f_equal; f_equal; lia|]. split; [lia|]. split; [lia|]. split; [|split; [|split]].
      * intros q [<-|Hq]; [|auto]. rewrite Out2 by (auto; lia). rewrite GV, Z.eqb_refl by lia. reflexivity.
      * intros q Hq Nq. cbn [In] in Nq. rewrite Out2 by tauto. rewrite GV by assumption.
        replace (q =? p) with false; [reflexivity|]. symmetry. apply Z.eqb_neq. intros ->. tauto.
      * intros s Hs. destruct (Z.eq_dec s i) as [->|].
        -- rewrite OA by lia. rewrite GA, Z.eqb_refl by lia. unfold y. replace (i - i) with 0 by lia. change (getz (p :: l) 0) with p.
           replace (i =? i - (1 + zlen l) + 1) with (getz V p =? 0); [reflexivity|].
           destruct l as [|q l]; cbn [chain] in C.
           ++ rewrite C. change (zlen []) with 0. lia.
           ++ destruct C as (Hq & -> & _). rewrite zlen_cons in *. pose proof (zlen_nonneg l). lia.
        -- rewrite IA by lia. replace (i - 1 - zlen l + 1) with (i - (1 + zlen l) + 1) by lia.
           destruct ((s =? i - (1 + zlen l) + 1) && (g =? s)); [reflexivity|]. unfold getz. replace (Z.to_nat (i - s)) with (S (Z.to_nat (i - 1 - s))) by lia. reflexivity.
      * intros s Hs Ho. rewrite OA by lia. rewrite GA by lia. replace (s =? i) with false by lia. reflexivity.
Qed.

(** [lia] without what it does not need. *)
Ltac drop := repeat match goal with
  | H : forall _, _ |- _ => clear H
  | H : context [zlen] |- _ => clear H
  | H : segs _ _ _ _ _ |- _ => clear H
  | H : context [cnt] |- _ => clear H
  end.
Ltac ql := solve [drop; lia].

Lemma zlen_nat {A} (l : list A) : zlen l = Z.of_nat (length l).
Proof. reflexivity. Qed.
Lemma getz_in (l : list Z) k : 0 <= k < zlen l -> In (getz l k) l.
Proof. intros H. unfold getz, zlen in *. apply nth_In. lia. Qed.
Lemma in_getz (l : list Z) p : In p l -> exists k, 0 <= k < zlen l /\ getz l k = p.
Proof.
  intros H. destruct (In_nth l p 0 H) as (n & Hn & E). exists (Z.of_nat n). unfold zlen, getz. rewrite Nat2Z.id. split; [lia|assumption].
Qed.
Lemma getz_inj (l : list Z) a b : NoDup l -> 0 <= a < zlen l -> 0 <= b < zlen l -> getz l a = getz l b -> a = b.
Proof.
  intros ND Ha Hb E. unfold getz, zlen in *. rewrite (NoDup_nth l 0) in ND.
  assert (Z.to_nat a = Z.to_nat b) by (apply ND; [lia|lia|assumption]). lia.
Qed.

(** ** Buckets *)
Local Opaque getz cnt zlen mem.
Section Buckets.
Context (len buckets : Z) (K : Z -> Z) (B : table).
Hypothesis len_pos : 0 <= len.
Hypothesis K_range : forall p, 0 <= p < len -> 0 <= K p < buckets.

Record emptying (j i : Z) (A V : list Z) (J : Z -> Z) : Prop := {
  e_j : -1 <= j < buckets;
  e_i : i = cnt (fun p => K p <=? j) 0 len;
  e_chain : forall c, c <= j -> chain V (bucket B c) (mem K c (Z.to_nat len) 0);
  e_zero : J 0 = len;
  e_surj : forall p, 0 <= p < len -> j < K p -> exists s, i < s <= len /\ J s = p;
  e_place : forall s, i < s <= len -> 0 <= J s < len /\ j < K (J s) /\ s <= getz V (J s) <= len /\
      getz V (J (getz V (J s))) = getz V (J s);
  e_inj : forall s t, i < s <= len -> i < t <= len -> J s = J t -> s = t;
  e_mono : forall s t, i < s -> s <= t -> t <= len -> getz V (J s) <= getz V (J t);
  e_lt : forall s t, i < s <= len -> i < t <= len -> getz V (J s) < getz V (J t) -> K (J s) < K (J t);
  e_eq : forall s t, i < s <= len -> i < t <= len -> getz V (J s) = getz V (J t) -> K (J s) = K (J t);
  e_segs : segs (getz A) J (getz V) (i + 1) (len + 1) }.

Lemma cnt_step j : cnt (fun p => K p <=? j) 0 len = cnt (fun p => K p <=? j - 1) 0 len + cnt (fun p => K p =? j) 0 len.
Proof.
  clear K_range. revert len_pos. generalize 0 as a. intros a H. revert a len H. refine (cnt_ind _ _ _).
  - intros. rewrite !cnt_nil. reflexivity.
  - intros a b H IH. rewrite (cnt_cons (fun p => K p <=? j) a b), (cnt_cons (fun p => K p <=? j - 1) a b), (cnt_cons (fun p => K p =? j) a b), IH by lia.
    destruct (K a <=? j) eqn:E1; destruct (K a <=? j - 1) eqn:E2; destruct (K a =? j) eqn:E3; lia.
Qed.

Lemma emptying_step j i A V J : emptying j i A V J -> len + 1 <= zlen A -> len + 1 <= zlen V -> 0 < i ->
  exists i' A' V' J', empty_step buckets B (j, i, A, V) = Ok (inl (j - 1, i', A', V')) /\
    zlen A' = zlen A /\ zlen V' = zlen V /\ emptying (j - 1) i' A' V' J'.
Proof.
  intros [Ej Ei Ec Ez Es Ep Einj Em El Ee Eg] HA HV Hi.
  assert (Hj : 0 <= j).
  { destruct (Z.lt_ge_cases j 0); [exfalso|assumption]. rewrite (cnt_none _ 0 len len_pos) in Ei; [lia|].
    intros s Hs. pose proof (K_range s Hs). lia. }
  pose proof (cnt_range (fun p => K p <=? j) 0 len len_pos) as Ri. rewrite <- Ei in Ri.
  set (l := mem K j (Z.to_nat len) 0) in *.
  assert (Ll : zlen l = cnt (fun p => K p =? j) 0 len).
  { unfold l. rewrite mem_len. replace (0 + Z.of_nat (Z.to_nat len)) with len by lia. reflexivity. }
  pose proof (cnt_step j) as St. rewrite <- Ei, <- Ll in St.
  pose proof (cnt_range (fun p => K p <=? j - 1) 0 len len_pos) as Rj.
  remember (zlen l) as m eqn:Em0.
  assert (St' : i - m = cnt (fun p => K p <=? j - 1) 0 len) by (clear - St; lia).
  rewrite <- St' in Rj. pose proof (zlen_nonneg l) as Ln. rewrite <- Em0 in Ln.
  assert (Rm : 0 <= i - m <= len) by (clear - Rj; lia).
  clear Ei St Rj Ll.
  assert (Inl : forall p, In p l <-> 0 <= p < len /\ K p = j).
  { intros p. unfold l. rewrite mem_in. replace (0 + Z.of_nat (Z.to_nat len)) with len by lia. reflexivity. }
  pose proof (mem_nodup K j (Z.to_nat len) 0) as ND. fold l in ND. assert (Hc0 : chain V (bucket B j) l) by (apply Ec; lia). clearbody l.
  unfold empty_step. replace (0 <? i) with true by lia. unfold in_table. replace ((0 <=? j) && (j <? buckets)) with true by lia. cbn [bind].
  destruct (bucket_empty_ok i l (length V + 1) (bucket B j) i A V) as (A' & V' & E & LA & LV & InV & OutV & InA & OutA);
    try assumption; try lia.
  { pose proof (zlen_nat V) as X1. pose proof (zlen_nat l) as X2. lia. }
  { intros p Hp. apply Inl in Hp. lia. }
  rewrite E. cbn [bind]. clear E. rewrite <- Em0 in *. set (J' := fun s => if (i - m <? s) && (s <=? i) then getz l (i - s) else J s).
  assert (Jn : forall s, i - m < s <= i -> J' s = getz l (i - s) /\ 0 <= J' s < len /\ K (J' s) = j /\ getz V' (J' s) = i).
  { intros s Hs. unfold J'. replace ((i - m <? s) && (s <=? i)) with true by lia. split; [reflexivity|].
    pose proof (getz_in l (i - s) ltac:(lia)) as X. rewrite (InV _ X). apply Inl in X. destruct X; auto. }
  assert (Jo : forall s, i < s <= len -> J' s = J s /\ getz V' (J s) = getz V (J s)).
  { intros s Hs. unfold J'. replace ((i - m <? s) && (s <=? i)) with false by lia. split; [reflexivity|].
    destruct (Ep s Hs) as (P1 & P2 & _). apply OutV; [clear - P1; lia|]. rewrite Inl. clear - P2; lia. }
  assert (Jz : J' 0 = len) by (unfold J'; replace ((i - m <? 0) && (0 <=? i)) with false by lia; assumption).
  clearbody J'. clear Hc0.
  exists (i - m), A', V', J'. split; [reflexivity|]. split; [assumption|]. split; [assumption|].
  assert (Side : forall s, i - m < s <= len -> (i - m < s <= i) \/ (i < s <= len)) by (clear; intros s Hs; ql).
  assert (Ch : forall c, c <= j - 1 -> chain V' (bucket B c) (mem K c (Z.to_nat len) 0)).
  { intros c Hc. eapply chain_keep; [apply Ec; ql|]. intros p Hp. apply mem_in in Hp.
    apply OutV; [ql|]. rewrite Inl. ql. }
  clear InV OutV.
  split.
  - ql.
  - exact St'.
  - exact Ch.
  - assumption.
  - intros p Hp Hk. destruct (Z.eq_dec (K p) j) as [Q|Q].
    + destruct (in_getz l p) as (k & Hk' & Ek); [apply Inl; auto|]. rewrite <- Em0 in Hk'. exists (i - k). split; [ql|].
      destruct (Jn (i - k)) as [-> _]; [ql|]. replace (i - (i - k)) with k by ql. assumption.
    + destruct (Es p Hp ltac:(ql)) as (s & Hs & Q'). exists s. split; [ql|]. destruct (Jo s Hs) as [-> _]. assumption.
  - intros s Hs. destruct (Side s Hs) as [Hn|Ho].
    + destruct (Jn s Hn) as (_ & J1 & J2 & J3). rewrite J3. destruct (Jn i ltac:(ql)) as (_ & _ & _ & J4). rewrite J4. ql.
    + destruct (Jo s Ho) as [J1 J2]. destruct (Ep s Ho) as (P1 & P2 & P3 & P4). rewrite J1, J2.
      split; [assumption|]. split; [ql|]. split; [assumption|]. destruct (Jo (getz V (J s)) ltac:(ql)) as [J3 J4].
      rewrite J3, J4. assumption.
  - intros s t Hs Ht Q. destruct (Side s Hs) as [Hn|Ho]; destruct (Side t Ht) as [Hn'|Ho'].
    + destruct (Jn s Hn) as (J1 & _). destruct (Jn t Hn') as (J2 & _). rewrite J1, J2 in Q. apply getz_inj in Q; [ql|assumption|rewrite <- Em0; ql|rewrite <- Em0; ql].
    + destruct (Jn s Hn) as (_ & _ & J1 & _). destruct (Jo t Ho') as [J2 _]. destruct (Ep t Ho') as (_ & P & _). rewrite Q, J2 in J1. ql.
    + destruct (Jn t Hn') as (_ & _ & J1 & _). destruct (Jo s Ho) as [J2 _]. destruct (Ep s Ho) as (_ & P & _). rewrite <- Q, J2 in J1. ql.
    + destruct (Jo s Ho) as [J1 _]. destruct (Jo t Ho') as [J2 _]. rewrite J1, J2 in Q. auto.
  - intros s t Hs Hst Ht. destruct (Side s ltac:(ql)) as [Hn|Ho]; destruct (Side t ltac:(ql)) as [Hn'|Ho'].
    + destruct (Jn s Hn) as (_ & _ & _ & J1). destruct (Jn t Hn') as (_ & _ & _ & J2). ql.
    + destruct (Jn s Hn) as (_ & _ & _ & J1). destruct (Jo t Ho') as [J2 J3]. destruct (Ep t Ho') as (_ & _ & P & _). rewrite J2, J3. ql.
    + ql.
    + destruct (Jo s Ho) as [J1 J2]. destruct (Jo t Ho') as [J3 J4]. rewrite J1, J2, J3, J4. apply Em; ql.
  - intros s t Hs Ht Q. destruct (Side s Hs) as [Hn|Ho]; destruct (Side t Ht) as [Hn'|Ho'].
    + destruct (Jn s Hn) as (_ & _ & _ & J1). destruct (Jn t Hn') as (_ & _ & _ & J2). ql.
    + destruct (Jn s Hn) as (_ & _ & J1 & _). destruct (Jo t Ho') as [J2 J3]. destruct (Ep t Ho') as (_ & P & _). rewrite J1, J2. assumption.
    + destruct (Jn t Hn') as (_ & _ & _ & J1). destruct (Jo s Ho) as [J2 J3]. destruct (Ep s Ho) as (_ & _ & P & _). rewrite J1, J2, J3 in Q. ql.
    + destruct (Jo s Ho) as [J1 J2]. destruct (Jo t Ho') as [J3 J4]. rewrite J1, J2, J3, J4 in *. auto.
  - intros s t Hs Ht Q. destruct (Side s Hs) as [Hn|Ho]; destruct (Side t Ht) as [Hn'|Ho'].
    + destruct (Jn s Hn) as (_ & _ & J1 & _). destruct (Jn t Hn') as (_ & _ & J2 & _). ql.
    + destruct (Jn s Hn) as (_ & _ & _ & J1). destruct (Jo t Ho') as [J2 J3]. destruct (Ep t Ho') as (_ & _ & P & _). rewrite J1, J2, J3 in Q. ql.
    + destruct (Jn t Hn') as (_ & _ & _ & J1). destruct (Jo s Ho) as [J2 J3]. destruct (Ep s Ho) as (_ & _ & P & _). rewrite J1, J2, J3 in Q. ql.
    + destruct (Jo s Ho) as [J1 J2]. destruct (Jo t Ho') as [J3 J4]. rewrite J1, J2, J3, J4 in *. auto.
  - assert (Sold : segs (getz A') J' (getz V') (i + 1) (len + 1)).
    { eapply segs_keep; [exact Eg|]. intros s Hs. destruct (Jo s ltac:(ql)) as [J1 J2]. rewrite OutA by ql. auto. }
    destruct (Z.eq_dec m 0) as [M0|M0]; [replace (i - m) with i by ql; assumption|].
    destruct (Z.eq_dec m 1) as [M1|M1].
    + apply segs_run with 1; [ql| | |].
      * rewrite InA by ql. replace (i - m + 1) with i by ql. rewrite !Z.eqb_refl. reflexivity.
      * intros s Hs. destruct (Jn s ltac:(ql)) as (_ & _ & _ & ->). ql.
      * replace (i - m + 1 + 1) with (i + 1) by ql. assumption.
    + apply segs_group with i; [ql| |assumption]. intros s Hs. destruct (Jn s ltac:(ql)) as (J1 & _ & _ & J2). split; [|assumption].
      rewrite InA by ql. rewrite J1. destruct ((s =? i - m + 1) && (i =? s)) eqn:Q; [ql|reflexivity].
Qed.
End Buckets.

(** ** All of [bucketsort] *)
Lemma sorting len buckets K B : 0 <= len -> (forall p, 0 <= p < len -> 0 <= K p < buckets) -> 0 < buckets ->
  forall A V, len + 1 <= zlen A -> len + 1 <= zlen V ->
  (forall c, chain V (bucket B c) (mem K c (Z.to_nat len) 0)) ->
  exists A' V' J j, while (Z.to_nat buckets + 1) (empty_step buckets B) (buckets - 1, len, A, V) = Ok (A', V') /\
    zlen A' = zlen A /\ zlen V' = zlen V /\ emptying len buckets K B j 0 A' V' J.
Proof.
  intros Hl Kr Hb A V HA HV C.
  assert (H : exists r, while (Z.to_nat buckets + 1) (empty_step buckets B) (buckets - 1, len, A, V) = Ok r /\
    (fun r : list Z * list Z => let '(A', V') := r in exists J j,
       zlen A' = zlen A /\ zlen V' = zlen V /\ emptying len buckets K B j 0 A' V' J) r).
  { apply (while_ok _ (fun s : Z * Z * list Z * list Z => let '(j, i, A1, V1) := s in exists J,
       zlen A1 = zlen A /\ zlen V1 = zlen V /\ emptying len buckets K B j i A1 V1 J)
      (fun s : Z * Z * list Z * list Z => let '(j, i, A1, V1) := s in j + 1)).
    - intros [[[j i] A1] V1] (J & LA & LV & E). pose proof (e_j _ _ _ _ _ _ _ _ _ E) as Rj. split; [lia|].
      pose proof (e_i _ _ _ _ _ _ _ _ _ E) as Ri. pose proof (cnt_range (fun p => K p <=? j) 0 len Hl) as Rc. rewrite <- Ri in Rc.
      destruct (Z.eq_dec i 0) as [->|Ni].
      + exists (inr (A1, V1)). split; [reflexivity|]. exists J, j. auto.
      + destruct (emptying_step len buckets K B Hl Kr j i A1 V1 J E) as (i' & A' & V' & J' & Q1 & Q2 & Q3 & Q4); [lia|lia|lia|].
        exists (inl (j - 1, i', A', V')). split; [exact Q1|]. split; [|lia]. exists J'. split; [lia|]. split; [lia|]. exact Q4.
    - exists (fun _ => len). split; [reflexivity|]. split; [reflexivity|].
      assert (Ca : cnt (fun p => K p <=? buckets - 1) 0 len = len).
      { rewrite cnt_all; [lia|lia|]. intros s Hs. specialize (Kr s Hs). lia. }
      split; try (intros; exfalso; lia).
      + lia.
      + symmetry. exact Ca.
      + intros c _. apply C.
      + reflexivity.
      + constructor.
    - lia. }
  destruct H as ([A' V'] & E & J & j & Q). exists A', V', J, j. auto.
Qed.

Lemma bucketsort_ok N T h len buckets K : N = len + 1 -> 0 <= len -> 0 < buckets ->
  (forall p, 0 <= p < len -> 0 <= K p < buckets) ->
  (forall p q, 0 <= p < len -> 0 <= q < len -> K p < K q -> tlt T p q) ->
  (forall p q, 0 <= p < len -> 0 <= q < len -> K p = K q -> agree T h p q) ->
  (forall q, 0 <= q < len -> tlt T len q) ->
  forall A V, N <= zlen A -> N <= zlen V -> (forall p, 0 <= p < len -> getz V p = K p) ->
  exists A' V' J, bucketsort A V len buckets = Ok (A', V') /\ zlen A' = zlen A /\ zlen V' = zlen V /\
    WF N T h (getz V') J /\ segs (getz A') J (getz V') 0 N.
Proof.
  intros -> Hl Hb Kr Klt Keq Tl A V HA HV E. unfold bucketsort.
  destruct (fill_ok K len buckets Hl Kr (Z.to_nat len) V []) as (V1 & B & E1 & L1 & C1); [lia|lia|intros p Hp; apply E; lia| |].
  { intros c. replace (Z.to_nat (len - Z.of_nat (Z.to_nat len))) with O by lia. reflexivity. }
  rewrite E1. cbn [bind]. clear E1.
  destruct (sorting len buckets K B Hl Kr Hb A V1) as (A2 & V2 & J & j & E2 & LA & LV & Em); [lia|lia|assumption|].
  rewrite E2. cbn [bind]. clear E2.
  destruct (store_in V2 len 0) as (V3 & E3 & L3 & G3); [lia|]. rewrite E3. cbn [bind]. clear E3.
  destruct (store_in A2 0 (-1)) as (A3 & E4 & L4 & G4); [lia|]. rewrite E4. cbn [bind]. clear E4.
  exists A3, V3, J. split; [reflexivity|]. split; [lia|]. split; [lia|].
  destruct Em as [Ej Ei Ec Ez Es Ep Einj Emo El Ee Eg].
  assert (G : forall s, 0 < s <= len -> getz V3 (J s) = getz V2 (J s)).
  { intros s Hs. destruct (Ep s Hs) as (P & _). rewrite G3 by lia. replace (J s =? len) with false by lia. reflexivity. }
  assert (G0 : getz V3 (J 0) = 0) by (rewrite Ez, G3, Z.eqb_refl by lia; reflexivity).
  clear L1 LA LV L3 L4 C1 E Ec G3.
  assert (Kj : forall p, 0 <= p < len -> j < K p).
  { intros p Hp. destruct (Z.lt_ge_cases j (K p)); [assumption|]. exfalso.
    rewrite (cnt_app _ 0 p len), (cnt_cons _ p len) in Ei by (clear - Hp; lia). replace (K p <=? j) with true in Ei by (clear - H; lia).
    pose proof (cnt_range (fun p => K p <=? j) 0 p ltac:(clear - Hp; lia)) as X1.
    pose proof (cnt_range (fun p => K p <=? j) (p + 1) len ltac:(clear - Hp; lia)) as X2. clear - Ei X1 X2. lia. }
  assert (Sd : forall s, 0 <= s < len + 1 -> s = 0 \/ 0 < s <= len) by (clear; intros; lia).
  assert (Pos : forall s, 0 < s <= len -> 0 < getz V3 (J s)).
  { intros s Hs. rewrite G by assumption. destruct (Ep s Hs) as (_ & _ & P & _). clear - P Hs. lia. }
  split; [split|].
  - intros s Hs. destruct (Sd s Hs) as [->|H]; [clear - Hl Ez; lia|]. destruct (Ep s H) as (P & _). clear - P; lia.
  - intros s t Hs Ht Q. destruct (Sd s Hs) as [->|H]; destruct (Sd t Ht) as [->|H'].
    + reflexivity.
    + destruct (Ep t H') as (P & _). clear - P Q Ez. lia.
    + destruct (Ep s H) as (P & _). clear - P Q Ez. lia.
    + auto.
  - intros p Hp. destruct (Z.eq_dec p len) as [->|D].
    + exists 0. split; [clear - Hl; lia|assumption].
    + destruct (Es p ltac:(clear - Hp D; lia)) as (s & Hs & Q); [apply Kj; clear - Hp D; lia|]. exists s. split; [clear - Hs; lia|assumption].
  - intros s t Hs Hst Ht. destruct (Sd t ltac:(clear - Hs Hst Ht; lia)) as [->|H'].
    + replace s with 0 by (clear - Hs Hst; lia). reflexivity.
    + destruct (Sd s ltac:(clear - Hs Hst Ht; lia)) as [->|H].
      * rewrite G0. specialize (Pos t H'). clear - Pos. lia.
      * rewrite !G by assumption. apply Emo; clear - H Hst H'; lia.
  - intros s Hs. destruct (Sd s Hs) as [->|H].
    + rewrite G0, G0. clear - Hl. lia.
    + rewrite G by assumption. destruct (Ep s H) as (P1 & P2 & P3 & P4). split; [clear - P3; lia|]. rewrite G by (clear - P3 H; lia). assumption.
  - intros s t Hs Ht L. destruct (Sd s Hs) as [->|H]; destruct (Sd t Ht) as [->|H'].
    + exfalso. clear - L. lia.
    + rewrite Ez. apply Tl. destruct (Ep t H') as (P & _). exact P.
    + exfalso. rewrite G0 in L. specialize (Pos s H). clear - L Pos. lia.
    + rewrite !G in L by assumption. destruct (Ep s H) as (P & _). destruct (Ep t H') as (P' & _). apply Klt; auto.
  - intros s t Hs Ht L. destruct (Sd s Hs) as [->|H]; destruct (Sd t Ht) as [->|H'].
    + apply agree_refl.
    + exfalso. rewrite G0 in L. specialize (Pos t H'). clear - L Pos. lia.
    + exfalso. rewrite G0 in L. specialize (Pos s H). clear - L Pos. lia.
    + rewrite !G in L by assumption. destruct (Ep s H) as (P & _). destruct (Ep t H') as (P' & _). apply Keq; auto.
  - apply segs_run with 1; [reflexivity| | |].
    + rewrite G4, Z.eqb_refl by (clear; lia). reflexivity.
    + intros s Hs. replace s with 0 by (clear - Hs; lia). assumption.
    + apply segs_keep with (getz A2) J (getz V2); [exact Eg|]. intros s Hs. split; [|split; [reflexivity|apply G; clear - Hs; lia]].
      rewrite G4 by (clear - Hs; lia). replace (s =? 0) with false by (clear - Hs; lia). reflexivity.
Qed.
