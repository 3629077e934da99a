(** * SuffixSplit: [suffix_split] refines the classes *)
From Verif Require Import Base BaseLemmas Seq BlocksProofs Search Suffix SuffixText.
Unset Lia Cache.

(** ** Arrays and loops *)
Lemma rd_in (l : list Z) i : 0 <= i < zlen l -> rd l i = Ok (getz l i).
Proof.
  intros H. unfold rd, getz, zlen in *. replace (i <? 0) with false by lia.
  destruct (nth_error l (Z.to_nat i)) as [x|] eqn:E.
  - rewrite (nth_error_nth _ _ _ E). reflexivity.
  - apply nth_error_None in E. lia.
Qed.
Lemma store_in (l : list Z) i x : 0 <= i < zlen l ->
  exists l', store l i x = Ok l' /\ zlen l' = zlen l /\
    forall j, 0 <= j -> getz l' j = if j =? i then x else getz l j.
Proof.
  intros H. destruct (store_ok l i x H) as (l' & E & L & G). exists l'. split; [assumption|]. split; [assumption|].
  intros j Hj. destruct (Z.lt_ge_cases j (zlen l)).
  - pose proof (G j) as Q. rewrite (rd_in l' j), (rd_in l j) in Q by lia. destruct (j =? i); injection Q; auto.
  - replace (j =? i) with false by lia. unfold getz. rewrite !nth_overflow by (unfold zlen in *; lia). reflexivity.
Qed.
Lemma while_ok {S R} (f : S -> res (S + R)) (Inv : S -> Prop) (m : S -> Z) (Post : R -> Prop) :
  (forall s, Inv s -> 0 <= m s /\ exists x, f s = Ok x /\
     match x with inl s' => Inv s' /\ m s' < m s | inr r => Post r end) ->
  forall fuel s, Inv s -> m s < Z.of_nat fuel -> exists r, while fuel f s = Ok r /\ Post r.
Proof.
  intros H. induction fuel as [|fuel IH]; intros s I L.
  - destruct (H s I). lia.
  - destruct (H s I) as (M & x & E & P). cbn [while]. rewrite E. cbn [bind]. destruct x as [s'|r].
    + destruct P as [P Q]. apply IH; [assumption|lia].
    + exists r. auto.
Qed.

Definition lay (a b : Z) (A : list Z) (J : Z -> Z) : Prop := forall s, a <= s < b -> getz A s = J s.
Definition same_out (a b : Z) (A A' : list Z) : Prop :=
  zlen A' = zlen A /\ forall s, 0 <= s -> ~ (a <= s < b) -> getz A' s = getz A s.

Lemma same_out_refl a b A : same_out a b A A. Proof. split; auto. Qed.
Lemma same_out_trans a b A B C : same_out a b A B -> same_out a b B C -> same_out a b A C.
Proof. intros [L E] [L' E']. split; [lia|]. intros s Hs Ho. rewrite E', E by assumption. reflexivity. Qed.
Lemma same_out_wider a b a' b' A B : a' <= a -> b <= b' -> same_out a b A B -> same_out a' b' A B.
Proof. intros H H' [L E]. split; [lia|]. intros s Hs Ho. apply E; lia. Qed.

Lemma swap_in a b A J x y : 0 <= a -> b <= zlen A -> a <= x < b -> a <= y < b -> lay a b A J ->
  exists A', swap A x y = Ok A' /\ same_out a b A A' /\ lay a b A' (exchange J x y).
Proof.
  intros Ha Hb Hx Hy L. unfold swap. rewrite !rd_in by lia. cbn [bind].
  destruct (store_in A x (getz A y)) as (B & -> & LB & GB); [lia|]. cbn [bind].
  destruct (store_in B y (getz A x)) as (C & -> & LC & GC); [lia|]. exists C. split; [reflexivity|]. split.
  - split; [lia|]. intros s Hs Ho. rewrite GC, GB by lia. replace (s =? y) with false by lia. replace (s =? x) with false by lia. reflexivity.
  - intros s Hs. rewrite GC, GB by lia. unfold exchange. rewrite <- !L by lia.
    destruct (s =? y) eqn:E; destruct (s =? x) eqn:E'; try reflexivity. f_equal. lia.
Qed.

(** ** A class of its own *)
Lemma mark_ok n : forall A V J a g, 0 <= a -> a + Z.of_nat n <= zlen A ->
  lay a (a + Z.of_nat n) A J -> (forall s, a <= s < a + Z.of_nat n -> 0 <= J s < zlen V) ->
  exists V', mark n A V a g = Ok V' /\ zlen V' = zlen V /\
    (forall s, a <= s < a + Z.of_nat n -> getz V' (J s) = g) /\
    (forall p, 0 <= p -> (forall s, a <= s < a + Z.of_nat n -> J s <> p) -> getz V' p = getz V p).
Proof.
  induction n as [|n IH]; intros A V J a g Ha HA L R; cbn [mark].
  - exists V. repeat split; auto. lia.
  - rewrite rd_in by lia. cbn [bind]. rewrite L by lia.
    destruct (store_in V (J a) g) as (V1 & -> & L1 & G1); [apply R; lia|]. cbn [bind].
    destruct (IH A V1 J (a + 1) g) as (V2 & E & L2 & G2 & O2); [lia|lia|intros s Hs; apply L; lia|intros s Hs; rewrite L1; apply R; lia|].
    exists V2. split; [assumption|]. split; [lia|]. split.
    + intros s Hs. destruct (Z.eq_dec s a) as [->|]; [|apply G2; lia].
      pose proof (R a ltac:(lia)) as Ra.
      destruct (Z_le_dec 0 (J a)); [|lia].
      assert (D : (exists s, a + 1 <= s < a + 1 + Z.of_nat n /\ J s = J a) \/ (forall s, a + 1 <= s < a + 1 + Z.of_nat n -> J s <> J a)).
      { clear. generalize (a + 1). intros b. induction n as [|n IH].
        - right. lia.
        - destruct IH as [(s & Hs & E)|IH]; [left; exists s; split; [lia|assumption]|].
          destruct (Z.eq_dec (J (b + Z.of_nat n)) (J a)); [left; exists (b + Z.of_nat n); split; [lia|assumption]|].
          right. intros s Hs. destruct (Z.eq_dec s (b + Z.of_nat n)) as [->|]; [assumption|]. apply IH. lia. }
      destruct D as [(s & Hs' & Ej)|D].
      * rewrite <- Ej. apply G2. lia.
      * rewrite O2 by (auto; lia). rewrite G1 by lia. rewrite Z.eqb_refl. reflexivity.
    + intros p Hp Hq. rewrite O2; [|assumption|intros s Hs; apply Hq; lia]. rewrite G1 by assumption.
      pose proof (Hq a). replace (p =? J a) with false by lia. reflexivity.
Qed.

(** The number of positions fits; a name of its own keeps it out of other proofs. *)
Definition fits (N : Z) : Prop := N <= 2 ^ 64.

Section Split.
Context (N : Z) (T : Z -> Z).
Hypothesis N_small : fits N.
Notation agree := (agree T). Notation tlt := (tlt T). Notation WF := (WF N T).

Definition room (h a b : Z) (J : Z -> Z) : Prop := forall s, a <= s < b -> 0 <= J s /\ J s + h < N.
Lemma room_shuffle h a b J J' : room h a b J -> shuffle a b J J' -> room h a b J'.
Proof. intros R S s Hs. destruct (shuffle_in _ _ _ _ s S Hs) as (t & Ht & ->). auto. Qed.

Lemma key_in A V h k : 0 <= k < zlen A -> 0 <= getz A k -> 0 <= h -> getz A k + h < N -> N <= zlen V ->
  key A V h k = Ok (getz V (getz A k + h)).
Proof.
  intros Hk H0 Hh H1 HV. unfold key. rewrite rd_in by assumption. cbn [bind].
  unfold fits in N_small. unfold u64. rewrite Z.mod_small by lia. apply rd_in. lia.
Qed.
(** ** The smallest keys *)
Lemma select_ok A V J h k fin : 0 <= h -> 0 <= k -> k < fin -> fin <= N -> N <= zlen A -> N <= zlen V ->
  lay k fin A J -> room h k fin J ->
  exists j A' J' x, select A V h k fin = Ok (j, A') /\ 1 <= j <= fin - k /\ shuffle k fin J J' /\
    same_out k fin A A' /\ lay k fin A' J' /\
    (forall s, k <= s < k + j -> getz V (J' s + h) = x) /\
    (forall s, k + j <= s < fin -> x < getz V (J' s + h)).
Proof.
  intros Hh Hk Hkf Hf HA HV L R.
  pose (Inv := fun s : Z * Z * Z * list Z => let '(i, j, x, B) := s in
    exists J', 1 <= i <= fin - k /\ 1 <= j <= i /\ shuffle k fin J J' /\ same_out k fin A B /\ lay k fin B J' /\
      (forall s, k <= s < k + j -> getz V (J' s + h) = x) /\
      (forall s, k + j <= s < k + i -> x < getz V (J' s + h))).
  pose (m := fun s : Z * Z * Z * list Z => let '(i, j, x, B) := s in fin - k - i).
  pose (Post := fun r : Z * list Z => let '(j, B) := r in
    exists J' x, 1 <= j <= fin - k /\ shuffle k fin J J' /\ same_out k fin A B /\ lay k fin B J' /\
      (forall s, k <= s < k + j -> getz V (J' s + h) = x) /\
      (forall s, k + j <= s < fin -> x < getz V (J' s + h))).
  assert (Hx : key A V h k = Ok (getz V (J k + h))).
  { pose proof (R k). pose proof (L k). rewrite key_in; rewrite ?H0; try reflexivity; lia. }
  assert (H : exists r, while (Z.to_nat (fin - k) + 1) (select_step V h k fin) (1, 1, getz V (J k + h), A) = Ok r /\ Post r).
  { apply (while_ok _ Inv m).
    - intros [[[i j] x] B] (J1 & Hi & Hj & S & O & LB & E & G). split; [cbn; lia|].
      unfold select_step. destruct (k + i <? fin) eqn:C.
      + pose proof (room_shuffle _ _ _ _ _ R S (k + i)) as Rk. destruct O as [OL OE].
        pose proof (LB (k + i)) as Lk.
        rewrite key_in; rewrite ?Lk; try lia. cbn [bind].
        set (v := getz V (J1 (k + i) + h)) in *.
        destruct (v <? x) eqn:C1; cbn iota beta.
        * rewrite Z.eqb_refl. destruct (swap_in k fin B J1 (k + 0) (k + i)) as (B' & Es & OB & LB'); try lia; [assumption|].
          rewrite Es. cbn [bind]. eexists; split; [reflexivity|]. split; [|cbn; lia].
          exists (exchange J1 (k + 0) (k + i)). split; [lia|]. split; [lia|].
          split; [eapply shuffle_trans; [exact S|]; apply shuffle_exchange; lia|].
          split; [eapply same_out_trans; [split; [exact OL|exact OE]|exact OB]|]. split; [assumption|]. split.
          -- intros s Hs. unfold exchange. replace (s =? k + 0) with true by lia. reflexivity.
          -- intros s Hs. unfold exchange. replace (s =? k + 0) with false by lia.
             assert (W : forall t, k <= t < k + i -> v < getz V (J1 t + h)).
             { intros t Ht. destruct (Z.lt_ge_cases t (k + j)); [rewrite E by lia; lia|]. pose proof (G t). lia. }
             destruct (s =? k + i) eqn:Es'; apply W; lia.
        * destruct (v =? x) eqn:C2.
          -- destruct (swap_in k fin B J1 (k + j) (k + i)) as (B' & Es & OB & LB'); try lia; [assumption|].
             rewrite Es. cbn [bind]. eexists; split; [reflexivity|]. split; [|cbn; lia].
             exists (exchange J1 (k + j) (k + i)). split; [lia|]. split; [lia|].
             split; [eapply shuffle_trans; [exact S|]; apply shuffle_exchange; lia|].
             split; [eapply same_out_trans; [split; [exact OL|exact OE]|exact OB]|]. split; [assumption|]. split.
             ++ intros s Hs. unfold exchange. destruct (s =? k + j) eqn:E1; [fold v; lia|].
                replace (s =? k + i) with false by lia. apply E. lia.
             ++ intros s Hs. unfold exchange. replace (s =? k + j) with false by lia.
                destruct (s =? k + i) eqn:E2; apply G; lia.
          -- eexists; split; [reflexivity|]. split; [|cbn; lia]. exists J1. split; [lia|]. split; [lia|].
             split; [assumption|]. split; [split; assumption|]. split; [assumption|]. split; [assumption|].
             intros s Hs. destruct (Z.eq_dec s (k + i)) as [->|]; [fold v; lia|]. apply G. lia.
      + eexists; split; [reflexivity|]. exists J1, x. split; [lia|]. split; [assumption|]. split; [assumption|].
        split; [assumption|]. split; [assumption|]. intros s Hs. apply G. lia.
    - exists J. split; [lia|]. split; [lia|]. split; [apply shuffle_refl|]. split; [apply same_out_refl|].
      split; [assumption|]. split; [intros s Hs; replace s with k by lia; reflexivity|lia].
    - cbn. lia. }
  destruct H as ([j A'] & E & J' & x & H). exists j, A', J', x. split; [|assumption].
  unfold select. rewrite Hx. cbn [bind]. assumption.
Qed.

Lemma close_ok A V J h k e g : WF h (getz V) J -> 0 <= k -> k < e -> e <= g + 1 -> g < N -> N <= zlen A -> N <= zlen V ->
  (forall s, 0 <= s < k -> getz V (J s) < k) ->
  (forall s, k <= s <= g -> getz V (J s) = g) ->
  lay k e A J ->
  (forall a b, k <= a < e -> e <= b <= g -> tlt (J a) (J b)) ->
  exists V' A', mark (Z.to_nat (e - k)) A V k (e - 1) = Ok V' /\ single A k (e - k) = Ok A' /\
    zlen V' = zlen V /\ same_out k e A A' /\ WF h (getz V') J /\
    (forall s, 0 <= s < e -> getz V' (J s) < e) /\
    (forall s, 0 <= s < N -> ~ (k <= s < e) -> getz V' (J s) = getz V (J s)) /\
    (forall s, k <= s < e -> getz V' (J s) = e - 1) /\
    segs (getz A') J (getz V') k e.
Proof.
  intros W Hk Hke Heg Hg HA HV Bd C L TL.
  destruct (mark_ok (Z.to_nat (e - k)) A V J k (e - 1)) as (V' & E & LV & In & Out); [lia|lia|intros s Hs; apply L; lia| |].
  { intros s Hs. pose proof (w_range _ _ _ _ _ W s). lia. }
  rewrite Z2Nat.id in * by lia. replace (k + (e - k)) with e in * by lia.
  assert (Out' : forall s, 0 <= s < N -> ~ (k <= s < e) -> getz V' (J s) = getz V (J s)).
  { intros s Hs Hn. apply Out; [apply (w_range _ _ _ _ _ W); assumption|]. intros t Ht Q.
    apply (w_inj _ _ _ _ _ W) in Q; lia. }
  destruct (wf_mark N T h (getz V) (getz V') J k e g W Hk Hke Heg Hg Bd C TL In Out') as [W' B'].
  assert (S : exists A', single A k (e - k) = Ok A' /\ same_out k e A A' /\ segs (getz A') J (getz V') k e).
  { unfold single. destruct (e - k =? 1) eqn:D.
    - destruct (store_in A k (-1)) as (A' & EA & LA & GA); [lia|]. exists A'. split; [assumption|]. split.
      + split; [assumption|]. intros s Hs Ho. rewrite GA by lia. replace (s =? k) with false by lia. reflexivity.
      + apply segs_run with 1; [lia| | |].
        * rewrite GA, Z.eqb_refl by lia. reflexivity.
        * intros s Hs. rewrite In by lia. lia.
        * replace (k + 1) with e by lia. constructor.
    - exists A. split; [reflexivity|]. split; [apply same_out_refl|]. apply segs_group with (e - 1); [lia| |].
      + intros s Hs. split; [apply L|apply In]; lia.
      + replace (e - 1 + 1) with e by lia. constructor. }
  destruct S as (A' & S1 & S2 & S3). exists V', A'. repeat (split; [assumption|]). assumption.
Qed.

(** ** Finished parts *)
Definition fine (h a b : Z) (V : list Z) (J : Z -> Z) : Prop :=
  forall s t, a <= s < b -> a <= t < b -> getz V (J s) = getz V (J t) -> agree (h + h) (J s) (J t).
Definition Done (h a b : Z) (A V : list Z) (J : Z -> Z) : Prop :=
  segs (getz A) J (getz V) a b /\ fine h a b V J /\ forall s, a <= s < b -> getz V (J s) < b.
Lemma done_keep h a b A V J A' V' J' : Done h a b A V J ->
  (forall s, a <= s < b -> getz A' s = getz A s /\ J' s = J s /\ getz V' (J s) = getz V (J s)) ->
  Done h a b A' V' J'.
Proof.
  intros (S & F & B) K. split; [|split].
  - eapply segs_keep; [exact S|]. assumption.
  - intros s t Hs Ht E. destruct (K s Hs) as (_ & K1 & K2). destruct (K t Ht) as (_ & K3 & K4).
    rewrite K1, K3 in *. apply F; [assumption|assumption|]. lia.
  - intros s Hs. destruct (K s Hs) as (_ & -> & ->). auto.
Qed.
Lemma done_nil h a A V J : Done h a a A V J.
Proof. split; [constructor|]. split; [intros s t Hs; lia|lia]. Qed.
Lemma done_app h a b c A V J : WF h (getz V) J -> 0 <= a -> c <= N -> Done h a b A V J -> Done h b c A V J -> Done h a c A V J.
Proof.
  intros W Ha Hc (S & F & B) (S' & F' & B'). pose proof (segs_le _ _ _ _ _ S). pose proof (segs_le _ _ _ _ _ S').
  split; [eapply segs_app; eassumption|]. split.
  - intros s t Hs Ht E. destruct (Z.lt_ge_cases s b); destruct (Z.lt_ge_cases t b).
    + apply F; auto; lia.
    + pose proof (B s). pose proof (w_last _ _ _ _ _ W t). lia.
    + pose proof (B t). pose proof (w_last _ _ _ _ _ W s). lia.
    + apply F'; auto; lia.
  - intros s Hs. destruct (Z.lt_ge_cases s b); [pose proof (B s); lia|]. apply B'. lia.
Qed.

(** ** What [suffix_split] needs and does *)
Record Pre (h a b g : Z) (A V : list Z) (J : Z -> Z) : Prop := {
  p_wf : WF h (getz V) J;
  p_bounds : 0 <= h /\ 0 <= a /\ a <= b /\ b <= g + 1 /\ g < N /\ N <= zlen A /\ N <= zlen V;
  p_start : forall s, 0 <= s < a -> getz V (J s) < a;
  p_class : forall s, a <= s <= g -> getz V (J s) = g;
  p_lay : lay a b A J;
  p_room : room h a b J;
  p_lt : forall s t, a <= s < b -> b <= t <= g -> tlt (J s) (J t) }.
Record Post (h a b : Z) (A V : list Z) (J : Z -> Z) (A' V' : list Z) (J' : Z -> Z) : Prop := {
  q_shuffle : shuffle a b J J';
  q_len : zlen V' = zlen V;
  q_out : same_out a b A A';
  q_wf : WF h (getz V') J';
  q_keep : forall s, 0 <= s < N -> ~ (a <= s < b) -> getz V' (J' s) = getz V (J s);
  q_done : Done h a b A' V' J' }.

(** Keys decide. *)
Lemma keys_lt h V J g s t : WF h (getz V) J -> 0 <= h -> 0 <= s < N -> 0 <= t < N ->
  getz V (J s) = g -> getz V (J t) = g -> J s + h < N -> J t + h < N ->
  getz V (J s + h) < getz V (J t + h) -> tlt (J s) (J t).
Proof.
  intros W Hh Hs Ht Es Et Rs Rt K. pose proof (w_range _ _ _ _ _ W s Hs). pose proof (w_range _ _ _ _ _ W t Ht).
  apply (tlt_behind T h); [assumption|apply (w_agree _ _ _ _ _ W); lia|].
  apply (w_ltp N T h (getz V) J); [assumption|lia|lia|assumption].
Qed.
Lemma keys_agree h V J g s t : WF h (getz V) J -> 0 <= h -> 0 <= s < N -> 0 <= t < N ->
  getz V (J s) = g -> getz V (J t) = g -> J s + h < N -> J t + h < N ->
  getz V (J s + h) = getz V (J t + h) -> agree (h + h) (J s) (J t).
Proof.
  intros W Hh Hs Ht Es Et Rs Rt K. pose proof (w_range _ _ _ _ _ W s Hs). pose proof (w_range _ _ _ _ _ W t Ht).
  apply agree_double; [apply (w_agree _ _ _ _ _ W); lia|].
  apply (w_agreep N T h (getz V) J); [assumption|lia|lia|assumption].
Qed.

(** Exchanging within the range and then closing its first part. *)
Lemma lt_shuffle a b g J J' : a <= b -> shuffle a b J J' ->
  (forall s t, a <= s < b -> b <= t <= g -> tlt (J s) (J t)) ->
  forall s t, a <= s < b -> b <= t <= g -> tlt (J' s) (J' t).
Proof.
  intros H S P s t Hs Ht. rewrite (shuffle_out _ _ _ _ t S) by lia.
  destruct (shuffle_in _ _ _ _ s S Hs) as (r & Hr & ->). auto.
Qed.
Lemma pre_shuffle h a b g A V J A' J' : Pre h a b g A V J -> shuffle a b J J' -> same_out a b A A' -> lay a b A' J' ->
  Pre h a b g A' V J'.
Proof.
  intros [W (B1 & B2 & B3 & B4 & B5 & B6 & B7) S C L R P] Sh [O1 O2] L'. split.
  - eapply wf_shuffle; [exact W|exact Sh|assumption|lia|]. intros s Hs. apply C. lia.
  - rewrite O1. repeat (split; [assumption|]). assumption.
  - intros s Hs. rewrite (shuffle_out _ _ _ _ s Sh) by lia. auto.
  - intros s Hs. destruct (Z.lt_ge_cases s b).
    + destruct (shuffle_in _ _ _ _ s Sh) as (t & Ht & ->); [lia|]. apply C. lia.
    + rewrite (shuffle_out _ _ _ _ s Sh) by lia. auto.
  - assumption.
  - eapply room_shuffle; eassumption.
  - eapply lt_shuffle; eassumption.
Qed.

(** ** Short groups *)
Lemma small_step_ok h a b g V J k A1 V1 J1 : k < b -> 0 <= a -> a <= k -> shuffle a b J J1 -> Pre h k b g A1 V1 J1 ->
  (forall s, 0 <= s < N -> ~ (a <= s < b) -> getz V1 (J1 s) = getz V (J s)) -> Done h a k A1 V1 J1 ->
  exists j A2 V2 J2, small_step h b (k, A1, V1) = Ok (inl (k + j, A2, V2)) /\ 0 < j /\ k + j <= b /\
    shuffle a b J J2 /\ same_out a b A1 A2 /\ zlen V2 = zlen V1 /\ Pre h (k + j) b g A2 V2 J2 /\
    (forall s, 0 <= s < N -> ~ (a <= s < b) -> getz V2 (J2 s) = getz V (J s)) /\ Done h a (k + j) A2 V2 J2.
Proof.
  intros Hkb Ha Hk Sh P K D.
  destruct (p_bounds _ _ _ _ _ _ _ P) as (C1 & C2 & C3 & C4 & C5 & C6 & C7).
  unfold small_step. replace (k <? b) with true by lia.
  assert (Cb : b <= N) by lia.
  destruct (select_ok A1 V1 J1 h k b) as (j & A2 & J2 & x & E & Hj & Sh2 & O2 & L2 & Kx & Kg);
    try assumption; [apply (p_lay _ _ _ _ _ _ _ P)|apply (p_room _ _ _ _ _ _ _ P)|].
  rewrite E. cbn [bind].
  pose proof (pre_shuffle _ _ _ _ _ _ _ _ _ P Sh2 O2 L2) as P2.
  destruct (p_bounds _ _ _ _ _ _ _ P2) as (_ & _ & _ & _ & _ & D6 & D7).
  destruct P2 as [W2 _ S2 Cl2 _ R2 T2]. clear E P.
  assert (J1' : 1 <= j) by lia. assert (J2' : k + j <= b) by lia. clear Hj.
  destruct (close_ok A2 V1 J2 h k (k + j) g W2) as (V3 & A3 & E1 & E2 & LV3 & O3 & W3 & B3' & K3 & In3 & S3); try assumption; try lia.
  { intros s Hs. apply L2. clear - Hs J2'. lia. }
  { intros s t Hs Ht. destruct (Z.lt_ge_cases t b) as [Hb|Hb]; [|apply T2; clear - Hs Ht Hb J2' C4; lia].
    assert (Hs' : k <= s < b) by (clear - Hs J2'; lia). assert (Ht' : k <= t < b) by (clear - Hb Ht J1'; lia).
    pose proof (R2 s Hs') as Rs. pose proof (R2 t Ht') as Rt.
    apply (keys_lt h V1 J2 g); try assumption; try (apply Cl2; clear - Hs' Ht' C4; lia); try (clear - Hs' Ht' Cb C2 Rs Rt; lia).
    rewrite (Kx s Hs). apply Kg. clear - Ht Hb. lia. }
  replace (k + j - k) with j in * by (clear; lia). rewrite E1. cbn [bind]. rewrite E2. cbn [bind].
  exists j, A3, V3, J2. clear E1 E2.
  assert (ShA : shuffle a b J1 J2) by (eapply shuffle_wider; [| |exact Sh2]; [assumption|apply Z.le_refl]).
  split; [reflexivity|]. split; [lia|]. split; [assumption|]. split; [eapply shuffle_trans; eassumption|].
  split; [eapply same_out_trans; (eapply same_out_wider; [| |eassumption]); [assumption|apply Z.le_refl|assumption|assumption]|].
  split; [assumption|]. split; [|split].
  - destruct O3 as [O3L O3E]. split; try assumption.
    + rewrite O3L, LV3. repeat split; try assumption. clear - C2 J1'. lia.
    + intros s Hs. assert (Hs' : k <= s <= g) by (clear - Hs J1'; lia). rewrite K3; [apply Cl2; assumption| |]; clear - Hs C2 C5 J1'; lia.
    + intros s Hs. rewrite O3E; [apply L2| |]; clear - Hs C2 J1'; lia.
    + intros s Hs. apply R2. clear - Hs J1'. lia.
    + intros s t Hs Ht. apply T2; [clear - Hs J1'; lia|assumption].
  - intros s Hs Ho. rewrite K3; [|assumption|clear - Ho Hk J2'; lia]. rewrite (shuffle_out _ _ _ _ s ShA) by assumption. auto.
  - apply done_app with (k); try assumption.
    + clear - Cb J2'. lia.
    + eapply done_keep; [exact D|]. intros s Hs. destruct O2 as [_ O2]. destruct O3 as [_ O3].
      assert (N1 : 0 <= s) by (clear - Hs Ha; lia). assert (N2 : ~ (k <= s < k + j)) by (clear - Hs; lia).
      assert (N3 : ~ (k <= s < b)) by (clear - Hs; lia). assert (N4 : 0 <= s < N) by (clear - Hs N1 C3 Cb; lia).
      rewrite (O3 s N1 N2), (O2 s N1 N3). pose proof (shuffle_out _ _ _ _ s Sh2 N3) as Es.
      split; [reflexivity|]. split; [assumption|]. rewrite <- Es. apply K3; assumption.
    + split; [assumption|]. split.
      * intros s t Hs Ht _. assert (Hs' : k <= s < b) by (clear - Hs J2'; lia). assert (Ht' : k <= t < b) by (clear - Ht J2'; lia).
        pose proof (R2 s Hs') as Rs. pose proof (R2 t Ht') as Rt.
        apply (keys_agree h V1 J2 g); try assumption; try (apply Cl2; clear - Hs' Ht' C4; lia); try (clear - Hs' Ht' Cb C2 Rs Rt; lia).
        rewrite (Kx s Hs), (Kx t Ht). reflexivity.
      * intros s Hs. apply B3'. clear - Hs C2. lia.
Qed.
Lemma small_ok h a b g A V J : Pre h a b g A V J ->
  exists A' V' J', small_split A V a (b - a) h = Ok (A', V') /\ Post h a b A V J A' V' J'.
Proof.
  intros P0. destruct (p_bounds _ _ _ _ _ _ _ P0) as (B1 & B2 & B3 & B4 & B5 & B6 & B7).
  assert (H : exists r, small_split A V a (b - a) h = Ok r /\
    (fun r : list Z * list Z => let '(A', V') := r in exists J', Post h a b A V J A' V' J') r).
  { unfold small_split. replace (a + (b - a)) with b by lia.
    apply (while_ok _ (fun s : Z * list Z * list Z => let '(k, A1, V1) := s in
      exists J1, a <= k <= b /\ shuffle a b J J1 /\ same_out a b A A1 /\ zlen V1 = zlen V /\ Pre h k b g A1 V1 J1 /\
      (forall s, 0 <= s < N -> ~ (a <= s < b) -> getz V1 (J1 s) = getz V (J s)) /\ Done h a k A1 V1 J1)
      (fun s : Z * list Z * list Z => let '(k, _, _) := s in b - k)).
    - intros [[k A1] V1] (J1 & Hk & Sh & O & LV & P & K & D). split; [cbn; lia|].
      destruct (Z.lt_ge_cases k b).
      + destruct (small_step_ok h a b g V J k A1 V1 J1) as (j & A2 & V2 & J2 & E & Q1 & Q2 & Q3 & Q4 & Q5 & Q6 & Q7 & Q8); try assumption; [lia|].
        eexists; split; [exact E|]. split; [|cbn; lia]. exists J2. split; [lia|]. split; [assumption|].
        split; [eapply same_out_trans; eassumption|]. split; [lia|]. auto.
      + unfold small_step. replace (k <? b) with false by lia. eexists; split; [reflexivity|].
        assert (k = b) by lia. subst k. exists J1. split; try assumption. apply (p_wf _ _ _ _ _ _ _ P).
    - exists J. split; [lia|]. split; [apply shuffle_refl|]. split; [apply same_out_refl|]. split; [reflexivity|].
      split; [assumption|]. split; [reflexivity|]. apply done_nil.
    - cbn. lia. }
  destruct H as ([A' V'] & E & J' & H). exists A', V', J'. auto.
Qed.

(** ** Long groups: counting *)
Lemma tally_ok V h x J : forall n A a jj kk, 0 <= a -> 0 <= h -> a + Z.of_nat n <= zlen A -> N <= zlen V ->
  lay a (a + Z.of_nat n) A J -> room h a (a + Z.of_nat n) J ->
  tally n A V h x a jj kk =
    Ok (jj + cnt (fun s => getz V (J s + h) <? x) a (a + Z.of_nat n),
        kk + cnt (fun s => getz V (J s + h) =? x) a (a + Z.of_nat n)).
Proof.
  induction n as [|n IH]; intros A a jj kk Ha Hh HA HV L R; cbn [tally].
  - rewrite Z.add_0_r, !cnt_nil, !Z.add_0_r. reflexivity.
  - pose proof (L a ltac:(lia)) as La. pose proof (R a ltac:(lia)) as Ra.
    rewrite key_in; rewrite ?La; try lia. cbn [bind].
    rewrite IH; [|lia|lia|lia|lia|intros s Hs; apply L; lia|intros s Hs; apply R; lia].
    rewrite (cnt_cons _ a (a + Z.of_nat (S n))), (cnt_cons (fun s => getz V (J s + h) =? x) a (a + Z.of_nat (S n))) by lia.
    replace (a + 1 + Z.of_nat n) with (a + Z.of_nat (S n)) by lia.
    f_equal. f_equal; [destruct (_ <? x)|destruct (_ =? x)]; lia.
Qed.

(** ** Long groups: exchanging *)
Section Part.
Context (V : list Z) (h x a b jj kk : Z).
Notation K := (fun p => getz V (p + h)).
Definition counted (J : Z -> Z) : Prop :=
  cnt (fun s => K (J s) <? x) a b = jj - a /\ cnt (fun s => K (J s) =? x) a b = kk - jj /\
  cnt (fun s => x <? K (J s)) a b = b - kk.
Lemma counted_exchange J y z : a <= y < b -> a <= z < b -> counted J -> counted (exchange J y z).
Proof.
  intros Hy Hz (A & B & C). unfold counted.
  rewrite (cnt_exchange (fun p => K p <? x)), (cnt_exchange (fun p => K p =? x)), (cnt_exchange (fun p => x <? K p)) by assumption. auto.
Qed.
Lemma counted_bounds J : a <= b -> counted J -> a <= jj <= kk /\ kk <= b.
Proof.
  intros H (A & B & C).
  pose proof (cnt_range (fun s => K (J s) <? x) a b H). pose proof (cnt_range (fun s => K (J s) =? x) a b H).
  pose proof (cnt_range (fun s => x <? K (J s)) a b H). lia.
Qed.

Definition part (A0 : list Z) (J0 : Z -> Z) (j k : Z) (A : list Z) (J : Z -> Z) : Prop :=
  0 <= j /\ 0 <= k /\ jj + j <= kk /\ kk + k <= b /\ shuffle a b J0 J /\ same_out a b A0 A /\ lay a b A J /\ counted J /\
  (forall s, jj <= s < jj + j -> K (J s) = x) /\ (forall s, kk <= s < kk + k -> x < K (J s)).

Lemma part_low A0 J0 : 0 <= a -> a <= b -> b <= N -> N <= zlen A0 -> N <= zlen V -> 0 <= h ->
  lay a b A0 J0 -> room h a b J0 -> counted J0 ->
  exists j k A J, while (2 * Z.to_nat (b - a) + 1) (low_step V h x jj kk) (a, 0, 0, A0) = Ok (j, k, A) /\
    part A0 J0 j k A J /\ (forall s, a <= s < jj -> K (J s) < x).
Proof.
  intros Ha Hab Hb HA HV Hh L0 R0 Ct0.
  destruct (counted_bounds _ Hab Ct0) as [Bj Bk].
  assert (H : exists r, while (2 * Z.to_nat (b - a) + 1) (low_step V h x jj kk) (a, 0, 0, A0) = Ok r /\
    (fun r : Z * Z * list Z => let '(j, k, A) := r in exists J, part A0 J0 j k A J /\ (forall s, a <= s < jj -> K (J s) < x)) r).
  { apply (while_ok _ (fun s : Z * Z * Z * list Z => let '(i, j, k, A) := s in
      exists J, a <= i <= jj /\ part A0 J0 j k A J /\ (forall s, a <= s < i -> K (J s) < x))
      (fun s : Z * Z * Z * list Z => let '(i, j, k, A) := s in (jj - i) + (kk - jj - j) + (b - kk - k))).
    - intros [[[i j] k] A] (J & Hi & (Pj & Pk & Qj & Qk & Sh & O & L & Ct & Ej & Ek) & El).
      split; [cbn; lia|]. unfold low_step. destruct (i <? jj) eqn:Ci.
      + assert (Hib : a <= i < b) by lia. pose proof (L i Hib) as Li.
        pose proof (room_shuffle _ _ _ _ _ R0 Sh i Hib) as Ri. destruct O as [OL OE].
        rewrite key_in; rewrite ?Li; try lia. cbn [bind].
        set (v := getz V (J i + h)).
        destruct (v <? x) eqn:C1.
        * eexists; split; [reflexivity|]. split; [|cbn; lia]. exists J. split; [lia|]. split.
          -- unfold part. split; [assumption|]. split; [assumption|]. split; [assumption|]. split; [assumption|].
             split; [assumption|]. split; [split; assumption|]. auto.
          -- intros s Hs. destruct (Z.eq_dec s i) as [->|]; [fold v; lia|]. apply El. lia.
        * destruct (v =? x) eqn:C2.
          -- assert (M : jj + j < kk).
             { destruct Ct as (_ & Ct & _).
               pose proof (cnt_more (fun s => K (J s) =? x) a b jj (jj + j) i) as M. cbn beta in M. rewrite Ct in M.
               specialize (M ltac:(lia) ltac:(lia) ltac:(lia) ltac:(lia) ltac:(lia)).
               specialize (M ltac:(intros s Hs; apply Z.eqb_eq; apply Ej; assumption) C2). lia. }
             assert (Hjb : a <= jj + j < b) by lia.
             destruct (swap_in a b A J i (jj + j)) as (B & Es & OB & LB); try lia; [assumption|].
             rewrite Es. cbn [bind]. eexists; split; [reflexivity|]. split; [|cbn; lia].
             exists (exchange J i (jj + j)). split; [lia|]. split.
             ++ unfold part. split; [lia|]. split; [lia|]. split; [lia|]. split; [lia|].
                split; [eapply shuffle_trans; [exact Sh|]; apply shuffle_exchange; assumption|].
                split; [eapply same_out_trans; [split; [exact OL|exact OE]|exact OB]|]. split; [assumption|].
                split; [apply counted_exchange; assumption|]. split.
                ** intros s Hs. unfold exchange. replace (s =? i) with false by lia.
                   destruct (s =? jj + j) eqn:E; [fold v; lia|]. apply Ej. lia.
                ** intros s Hs. unfold exchange. replace (s =? i) with false by lia.
                   replace (s =? jj + j) with false by lia. auto.
             ++ intros s Hs. unfold exchange. replace (s =? i) with false by lia. replace (s =? jj + j) with false by lia. auto.
          -- assert (M : kk + k < b).
             { destruct Ct as (_ & _ & Ct).
               pose proof (cnt_more (fun s => x <? K (J s)) a b kk (kk + k) i) as M. cbn beta in M. rewrite Ct in M.
               specialize (M ltac:(lia) ltac:(lia) ltac:(lia) ltac:(lia) ltac:(lia)).
               specialize (M ltac:(intros s Hs; apply Z.ltb_lt; apply Ek; assumption)).
               specialize (M ltac:(apply Z.ltb_lt; fold v; lia)). lia. }
             assert (Hjb : a <= kk + k < b) by lia.
             destruct (swap_in a b A J i (kk + k)) as (B & Es & OB & LB); try lia; [assumption|].
             rewrite Es. cbn [bind]. eexists; split; [reflexivity|]. split; [|cbn; lia].
             exists (exchange J i (kk + k)). split; [lia|]. split.
             ++ unfold part. split; [lia|]. split; [lia|]. split; [lia|]. split; [lia|].
                split; [eapply shuffle_trans; [exact Sh|]; apply shuffle_exchange; assumption|].
                split; [eapply same_out_trans; [split; [exact OL|exact OE]|exact OB]|]. split; [assumption|].
                split; [apply counted_exchange; assumption|]. split.
                ** intros s Hs. unfold exchange. replace (s =? i) with false by lia.
                   replace (s =? kk + k) with false by lia. auto.
                ** intros s Hs. unfold exchange. replace (s =? i) with false by lia.
                   destruct (s =? kk + k) eqn:E; [fold v; lia|]. apply Ek. lia.
             ++ intros s Hs. unfold exchange. replace (s =? i) with false by lia. replace (s =? kk + k) with false by lia. auto.
      + eexists; split; [reflexivity|]. exists J. split.
        * unfold part. repeat (split; [assumption|]). assumption.
        * intros s Hs. apply El. lia.
    - exists J0. split; [lia|]. split; [|lia]. unfold part. split; [lia|]. split; [lia|]. split; [lia|]. split; [lia|].
      split; [apply shuffle_refl|]. split; [apply same_out_refl|]. split; [assumption|]. split; [assumption|]. split; lia.
    - cbn. lia. }
  destruct H as ([[j k] A] & E & J & P & Q). exists j, k, A, J. auto.
Qed.

Lemma part_mid A0 J0 j0 k0 A1 J1 : 0 <= a -> a <= b -> b <= N -> N <= zlen A0 -> N <= zlen V -> 0 <= h ->
  room h a b J0 -> part A0 J0 j0 k0 A1 J1 -> (forall s, a <= s < jj -> K (J1 s) < x) ->
  exists A J, while (2 * Z.to_nat (b - a) + 1) (mid_step V h x jj kk) (j0, k0, A1) = Ok A /\
    shuffle a b J0 J /\ same_out a b A0 A /\ lay a b A J /\
    (forall s, a <= s < jj -> K (J s) < x) /\ (forall s, jj <= s < kk -> K (J s) = x) /\ (forall s, kk <= s < b -> x < K (J s)).
Proof.
  intros Ha Hab Hb HA HV Hh R0 P0 El0.
  assert (Bd : a <= jj <= kk /\ kk <= b). { destruct P0 as (_ & _ & _ & _ & _ & _ & _ & Ct & _). eapply counted_bounds; eassumption. }
  destruct Bd as [Bj Bk].
  assert (H : exists r, while (2 * Z.to_nat (b - a) + 1) (mid_step V h x jj kk) (j0, k0, A1) = Ok r /\
    (fun A => exists J, shuffle a b J0 J /\ same_out a b A0 A /\ lay a b A J /\
    (forall s, a <= s < jj -> K (J s) < x) /\ (forall s, jj <= s < kk -> K (J s) = x) /\ (forall s, kk <= s < b -> x < K (J s))) r).
  { apply (while_ok _ (fun s : Z * Z * list Z => let '(j, k, A) := s in
      exists J, part A0 J0 j k A J /\ (forall s, a <= s < jj -> K (J s) < x))
      (fun s : Z * Z * list Z => let '(j, k, A) := s in (kk - jj - j) + (b - kk - k))).
    - intros [[j k] A] (J & (Pj & Pk & Qj & Qk & Sh & O & L & Ct & Ej & Ek) & El).
      split; [cbn; lia|]. unfold mid_step.
      assert (NoLow : forall s, jj <= s < b -> x <= K (J s)).
      { intros s Hs. destruct (Z.lt_ge_cases (K (J s)) x); [exfalso|assumption].
        destruct Ct as (Ct & _). pose proof (cnt_more (fun s => K (J s) <? x) a b a jj s) as M. cbn beta in M. rewrite Ct in M.
        specialize (M ltac:(lia) ltac:(lia) ltac:(lia) ltac:(lia) ltac:(lia)).
        specialize (M ltac:(intros t Ht; apply Z.ltb_lt; apply El; assumption) ltac:(apply Z.ltb_lt; assumption)). lia. }
      destruct (jj + j <? kk) eqn:Ci.
      + assert (Hib : a <= jj + j < b) by lia. pose proof (L _ Hib) as Li.
        pose proof (room_shuffle _ _ _ _ _ R0 Sh _ Hib) as Ri. destruct O as [OL OE].
        rewrite key_in; rewrite ?Li; try lia. cbn [bind].
        pose proof (NoLow (jj + j) ltac:(lia)) as Lo.
        set (v := getz V (J (jj + j) + h)) in *.
        destruct (v =? x) eqn:C2.
        * eexists; split; [reflexivity|]. split; [|cbn; lia]. exists J. split; [|assumption].
          unfold part. split; [lia|]. split; [assumption|]. split; [lia|]. split; [assumption|].
          split; [assumption|]. split; [split; assumption|]. split; [assumption|]. split; [assumption|]. split; [|assumption].
          intros s Hs. destruct (Z.eq_dec s (jj + j)) as [->|]; [fold v; lia|]. apply Ej. lia.
        * assert (M : kk + k < b).
          { destruct Ct as (_ & _ & Ct).
            pose proof (cnt_more (fun s => x <? K (J s)) a b kk (kk + k) (jj + j)) as M. cbn beta in M. rewrite Ct in M.
            specialize (M ltac:(lia) ltac:(lia) ltac:(lia) ltac:(lia) ltac:(lia)).
            specialize (M ltac:(intros s Hs; apply Z.ltb_lt; apply Ek; assumption)).
            specialize (M ltac:(apply Z.ltb_lt; fold v; lia)). lia. }
          assert (Hjb : a <= kk + k < b) by lia.
          destruct (swap_in a b A J (jj + j) (kk + k)) as (B & Es & OB & LB); try lia; [assumption|].
          rewrite Es. cbn [bind]. eexists; split; [reflexivity|]. split; [|cbn; lia].
          exists (exchange J (jj + j) (kk + k)). split.
          -- unfold part. split; [lia|]. split; [lia|]. split; [lia|]. split; [lia|].
             split; [eapply shuffle_trans; [exact Sh|]; apply shuffle_exchange; assumption|].
             split; [eapply same_out_trans; [split; [exact OL|exact OE]|exact OB]|]. split; [assumption|].
             split; [apply counted_exchange; assumption|]. split.
             ++ intros s Hs. unfold exchange. replace (s =? jj + j) with false by lia.
                replace (s =? kk + k) with false by lia. auto.
             ++ intros s Hs. unfold exchange. replace (s =? jj + j) with false by lia.
                destruct (s =? kk + k) eqn:E; [fold v; lia|]. apply Ek. lia.
          -- intros s Hs. unfold exchange. replace (s =? jj + j) with false by lia. replace (s =? kk + k) with false by lia. auto.
      + eexists; split; [reflexivity|]. exists J. split; [assumption|]. split; [assumption|]. split; [assumption|].
        assert (Ejj : forall s, jj <= s < kk -> K (J s) = x) by (intros s Hs; apply Ej; lia).
        split; [assumption|]. split; [assumption|]. intros s Hs. pose proof (NoLow s ltac:(lia)) as Lo. cbn beta in *.
        destruct (Z.eq_dec (K (J s)) x) as [Eq|]; [exfalso|cbn beta in *; lia].
        destruct Ct as (_ & Ct & _). pose proof (cnt_more (fun s => K (J s) =? x) a b jj kk s) as M. cbn beta in M. rewrite Ct in M.
        specialize (M ltac:(lia) ltac:(lia) ltac:(lia) ltac:(lia) ltac:(lia)).
        specialize (M ltac:(intros t Ht; apply Z.eqb_eq; apply Ejj; assumption) ltac:(apply Z.eqb_eq; assumption)). lia.
    - exists J1. auto.
    - destruct P0 as (Pj & Pk & _). cbn. lia. }
  destruct H as (A & E & J & H). exists A, J. auto.
Qed.
End Part.
End Split.
