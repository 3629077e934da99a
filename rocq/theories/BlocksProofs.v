(** * BlocksProofs: the block cache is transparent *)
From Verif Require Import Base BaseLemmas Rpm Seq SpecDelta SpecBlocks Blocks.

(** ** Arrays *)
Lemma store_ok {A} (l : list A) i x : 0 <= i < zlen l ->
  exists l', store l i x = Ok l' /\ zlen l' = zlen l /\ forall j, rd l' j = if j =? i then Ok x else rd l j.
Proof.
  intros Hi. unfold store. replace (0 <=? i) with true by lia. replace (i <? zlen l) with true by lia. cbn [andb].
  eexists. split; [reflexivity|]. unfold zlen in *. split.
  - rewrite app_length, firstn_length. cbn [length]. rewrite skipn_length. lia.
  - intros j. unfold rd. destruct (j <? 0) eqn:Hj; [replace (j =? i) with false by lia; reflexivity|].
    destruct (j =? i) eqn:Hji.
    + assert (j = i) by lia. subst j. rewrite nth_error_app2 by (rewrite firstn_length; lia).
      rewrite firstn_length. replace (Z.to_nat i - _)%nat with 0%nat by lia. reflexivity.
    + destruct (Z.lt_ge_cases j i).
      * rewrite nth_error_app1 by (rewrite firstn_length; lia).
        rewrite <- (firstn_skipn (Z.to_nat i) l) at 2. rewrite nth_error_app1 by (rewrite firstn_length; lia). reflexivity.
      * rewrite nth_error_app2 by (rewrite firstn_length; lia). rewrite firstn_length.
        replace (Z.to_nat j - _)%nat with (S (Z.to_nat j - S (Z.to_nat i)))%nat by lia. cbn [nth_error].
        rewrite <- (firstn_skipn (S (Z.to_nat i)) l) at 2. rewrite nth_error_app2 by (rewrite firstn_length; lia).
        rewrite firstn_length. replace (Z.to_nat j - Init.Nat.min _ _)%nat with (Z.to_nat j - S (Z.to_nat i))%nat by lia. reflexivity.
Qed.

Lemma rd_app {A} (l : list A) x j : rd (l ++ [x]) j = if j =? zlen l then Ok x else rd l j.
Proof.
  unfold rd, zlen. destruct (j <? 0) eqn:Hj; [replace (j =? _) with false by lia; reflexivity|].
  destruct (j =? _) eqn:Hji.
  - rewrite nth_error_app2 by lia. replace (_ - _)%nat with 0%nat by lia. reflexivity.
  - destruct (Z.lt_ge_cases j (Z.of_nat (length l))).
    + rewrite nth_error_app1 by lia. reflexivity.
    + replace (nth_error (l ++ [x]) (Z.to_nat j)) with (@None A) by (symmetry; apply nth_error_None; rewrite app_length; cbn [length]; lia).
      replace (nth_error l (Z.to_nat j)) with (@None A) by (symmetry; apply nth_error_None; lia). reflexivity.
Qed.

Lemma rd_in_bounds {A} (l : list A) j a : rd l j = Ok a -> 0 <= j < zlen l.
Proof.
  unfold rd, zlen. destruct (j <? 0) eqn:E; [discriminate|]. destruct (nth_error l (Z.to_nat j)) eqn:H; [|discriminate].
  intros _. assert (H0 : nth_error l (Z.to_nat j) <> None) by congruence. apply nth_error_Some in H0. lia.
Qed.

Lemma rd_some {A} (l : list A) j : 0 <= j < zlen l -> exists a, rd l j = Ok a.
Proof.
  unfold rd, zlen. intros H. replace (j <? 0) with false by lia. destruct (nth_error l (Z.to_nat j)) eqn:E; [eauto|].
  apply nth_error_None in E. lia.
Qed.

Lemma rd_repeat {A} (x : A) n j : 0 <= j < Z.of_nat n -> rd (repeat x n) j = Ok x.
Proof.
  intros H. destruct (rd_some (repeat x n) j) as [a E]; [rewrite zlen_repeat; lia|]. rewrite E.
  unfold rd in E. replace (j <? 0) with false in E by lia. destruct (nth_error _ _) eqn:En; [|discriminate].
  apply nth_error_In, repeat_spec in En. congruence.
Qed.

Section Proofs.
Variable S : Type.
Variable capacity : Z.
Hypothesis Hcap : 1 <= capacity.
Variable next : S -> res (S * list Z).
(** The contents of the blocks, their number, and the last copy that uses each. *)
Variable blk : Z -> list Z.
Variable n : Z.
Hypothesis Hn : 0 <= n < 2 ^ 32.
Variable max : list Z.
Hypothesis Hmax : zlen max = n.

Notation st := (blocks S).
Notation fill := (in_order S capacity next).

(** Block [x] is needed from block [cur] of copy [cc] on. *)
Definition needed (cc cur x : Z) : Prop :=
  exists m, rd max x = Ok m /\ (cc < m \/ (m = cc /\ cur <= x)).

Definition rest (rid : Z) : list (list Z) := map (fun i => blk (Z.of_nat i)) (seq (Z.to_nat rid) (Z.to_nat (n - rid))).

Definition core_holds (b : st) (k : nat) (x : Z) : Prop :=
  rd (bk_slots b) (Z.of_nat k) = Ok (mksl BCore (Some x) (Some (blk x))) /\ 0 <= x < bk_rid b.
Definition page_holds (b : st) (p : nat) (x : Z) : Prop :=
  rd (bk_pageid b) (Z.of_nat p) = Ok x /\ rd (bk_file b) (Z.of_nat p) = Ok (blk x) /\ 0 <= x < bk_rid b.

(** Where a needed block is found; [hole] are slots that are being refilled. *)
Definition found (b : st) (hole : nat -> Prop) (x : Z) : Prop :=
  (exists k, rd (bk_table b) x = Ok (Some (PCore k)) /\ In k (bk_core b) /\ ~ hole k /\ core_holds b k x)
  \/ (exists p, rd (bk_table b) x = Ok (Some (PPage p)) /\ In p (bk_pages b) /\ page_holds b p x).

(** [skip] are blocks about whose table entries nothing is known. *)
Record inv (b : st) (hole : nat -> Prop) (skip : Z -> Prop) (cc cur : Z) : Prop := mkinv {
  i_table : zlen (bk_table b) = n;
  i_max : bk_max b = max;
  i_rid : 0 <= bk_rid b <= n;
  i_src : yields next (bk_src b) (rest (bk_rid b));
  i_free : bk_free b = [];
  i_core : forall k, In k (bk_core b) -> ~ hole k -> exists x, core_holds b k x;
  i_slots : forall k, (k < length (bk_slots b))%nat -> In k (bk_core b);
  i_pages : forall p, In p (bk_pages b) -> exists x, page_holds b p x;
  i_files : zlen (bk_file b) = zlen (bk_pageid b);
  i_fresh : forall x, bk_rid b <= x < n -> ~ skip x -> rd (bk_table b) x = Ok None;
  i_found : forall x, 0 <= x < bk_rid b -> ~ skip x -> needed cc cur x -> found b hole x
}.

Lemma rest_cons rid : 0 <= rid < n -> rest rid = blk rid :: rest (rid + 1).
Proof.
  intros H. unfold rest. replace (Z.to_nat (n - rid)) with (Datatypes.S (Z.to_nat (n - (rid + 1)))) by lia.
  cbn [seq map]. rewrite Z2Nat.id by lia. replace (Datatypes.S (Z.to_nat rid)) with (Z.to_nat (rid + 1)) by lia. reflexivity.
Qed.

Lemma needed_mono cc cur cc' cur' x : (cc < cc' \/ (cc = cc' /\ cur <= cur')) -> needed cc' cur' x -> needed cc cur x.
Proof. intros H (m & E & Hm). exists m. split; [auto|]. lia. Qed.

Lemma inv_mono b hole skip cc cur cc' cur' : (cc < cc' \/ (cc = cc' /\ cur <= cur')) ->
  inv b hole skip cc cur -> inv b hole skip cc' cur'.
Proof.
  intros H []. constructor; auto. intros x Hx Hs Hn'. apply i_found0; auto. eapply needed_mono; eauto.
Qed.

(** ** Pages *)
Lemma find_page_ok b f hole skip cc cur : inv b hole skip cc cur ->
  (forall x, 0 <= x < n -> exists t : bool, f x = Ok t) ->
  forall pages, incl pages (bk_pages b) ->
  exists r, find_page f (bk_pageid b) pages = Ok r /\
    match r with Some p => In p pages /\ exists x, page_holds b p x /\ f x = Ok true | None => True end.
Proof.
  intros I Hf. induction pages as [|p pages IH]; intros Hi.
  - exists None. split; [reflexivity|constructor].
  - destruct (i_pages _ _ _ _ _ I p) as [x (Hx1 & Hx2 & Hx3)]; [apply Hi; left; auto|].
    cbn [find_page]. rewrite Hx1. cbn [bind]. destruct (Hf x) as [t Ht].
    { pose proof (i_rid _ _ _ _ _ I). lia. }
    rewrite Ht. cbn [bind]. destruct t.
    + exists (Some p). split; [reflexivity|]. split; [left; auto|]. exists x. split; [|auto]. repeat split; auto; lia.
    + destruct IH as (r & E & Hr); [intros q Hq; apply Hi; right; auto|]. exists r. split; [auto|].
      destruct r; [|auto]. destruct Hr as [H1 H2]. split; [right; auto|auto].
Qed.

(** Storing block [x], which is in the core slot [k], in a page. *)
Lemma write_page_ok b hole skip cc cur x : inv b hole skip cc cur -> 0 <= x < bk_rid b ->
  exists b', write_page_block S b x (Some (blk x)) cc = Ok b' /\ inv b' hole skip cc cur /\
    bk_rid b' = bk_rid b /\ bk_slots b' = bk_slots b /\ bk_core b' = bk_core b /\ bk_src b' = bk_src b /\ bk_last b' = bk_last b /\
    found b' hole x /\ (forall y, y <> x -> rd (bk_table b') y = rd (bk_table b) y) /\
    (exists p, rd (bk_table b') x = Ok (Some (PPage p))).
Proof.
  intros I Hx. pose proof I as I'. destruct I'.
  unfold write_page_block.
  destruct (find_page_ok b (fun i => Ok (i =? x)) hole skip cc cur I) with (pages := bk_pages b) as (r & E & Hr); [eauto|apply incl_refl|].
  rewrite E. cbn [bind]. destruct r as [p|].
  - destruct Hr as (Hp & y & (Hy1 & Hy2 & Hy3) & Hy). assert (y = x) by (injection Hy; lia). subst y. clear Hy.
    unfold put_table. destruct (store_ok (bk_table b) x (Some (PPage p))) as (t & Et & Lt & Ht); [lia|]. rewrite Et. cbn [bind].
    eexists. split; [reflexivity|].
    assert (F : found (set_tab S b t) hole x).
    { right. exists p. cbn. rewrite Ht, Z.eqb_refl. split; [reflexivity|]. split; [auto|]. exact (conj Hy1 (conj Hy2 Hy3)). }
    split; [|split; [reflexivity|split; [reflexivity|split; [reflexivity|split; [reflexivity|split; [reflexivity|split; [exact F|split]]]]]]].
    + constructor; cbn; auto; try congruence.
      * intros z Hz Hsz. rewrite Ht. replace (z =? x) with false by lia. auto.
      * intros z Hz Hsz Hnz. destruct (Z.eq_dec z x) as [->|Hne]; [exact F|].
        destruct (i_found0 z Hz Hsz Hnz) as [(k & H1 & H2)|(q & H1 & H2)].
        -- left. exists k. cbn. rewrite Ht. replace (z =? x) with false by lia. auto.
        -- right. exists q. cbn. rewrite Ht. replace (z =? x) with false by lia. auto.
    + intros y Hy. cbn. rewrite Ht. replace (y =? x) with false by lia. reflexivity.
    + exists p. cbn. rewrite Ht, Z.eqb_refl. reflexivity.
  - destruct (find_page_ok b (fun i => m <- rd (bk_max b) i;; Ok (m <? cc)) hole skip cc cur I) with (pages := bk_pages b) as (r & E2 & Hr2); [|apply incl_refl|].
    { intros z Hz. destruct (rd_some (bk_max b) z) as [m Em]; [rewrite i_max0; lia|]. rewrite Em. cbn [bind]. eauto. }
    rewrite E2. cbn [bind]. destruct r as [p|].
    + destruct Hr2 as (Hp & y & (Hy1 & Hy2 & Hy3) & Hy).
      destruct (rd (bk_max b) y) as [m| | |] eqn:Em; try discriminate. cbn [bind] in Hy.
      assert (Hm : m < cc) by (injection Hy; lia).
      destruct (store_ok (bk_pageid b) (Z.of_nat p) x) as (ids & Ei & Li & Hi); [eapply rd_in_bounds; eauto|].
      destruct (store_ok (bk_file b) (Z.of_nat p) (blk x)) as (file & Ef & Lf & Hf); [eapply rd_in_bounds; eauto|].
      rewrite Ei, Ef. cbn [bind]. unfold put_table.
      destruct (store_ok (bk_table b) x (Some (PPage p))) as (t & Et & Lt & Ht); [lia|].
      cbn [set_pages bk_table]. rewrite Et. cbn [bind]. eexists. split; [reflexivity|].
      set (b' := set_tab S (set_pages S b (bk_pages b) ids file) t).
      assert (Hpp : forall q z, page_holds b q z -> q <> p -> page_holds b' q z).
      { intros q z (H1 & H2 & H3) Hq. unfold page_holds. cbn. rewrite Hi, Hf. replace (Z.of_nat q =? Z.of_nat p) with false by lia. auto. }
      assert (Hpx : page_holds b' p x).
      { unfold page_holds. cbn. rewrite Hi, Hf, Z.eqb_refl. auto. }
      assert (F : found b' hole x).
      { right. exists p. cbn. rewrite Ht, Z.eqb_refl. auto. }
      split; [|split; [reflexivity|split; [reflexivity|split; [reflexivity|split; [reflexivity|split; [reflexivity|split; [exact F|split]]]]]]].
      * constructor; cbn; auto; try congruence.
        -- intros q Hq. destruct (Nat.eq_dec q p) as [->|Hne]; [eauto|]. destruct (i_pages0 q Hq) as [z Hz]. eauto.
        -- intros z Hz Hsz. rewrite Ht. replace (z =? x) with false by lia. auto.
        -- intros z Hz Hsz Hnz. destruct (Z.eq_dec z x) as [->|Hne]; [exact F|].
           destruct (i_found0 z Hz Hsz Hnz) as [(k & H1 & H2)|(q & H1 & H2 & H3)].
           ++ left. exists k. cbn. rewrite Ht. replace (z =? x) with false by lia. auto.
           ++ right. exists q. cbn. rewrite Ht. replace (z =? x) with false by lia. split; [auto|]. split; [auto|].
              apply Hpp; [auto|]. intros ->. destruct H3 as (H3 & _). assert (z = y) by congruence. subst z.
              destruct Hnz as (m' & Em' & Hm'). rewrite i_max0 in Em. assert (m' = m) by congruence. lia.
      * intros z Hz. cbn. rewrite Ht. replace (z =? x) with false by lia. reflexivity.
      * exists p. cbn. rewrite Ht, Z.eqb_refl. reflexivity.
    + unfold put_table. destruct (store_ok (bk_table b) x (Some (PPage (length (bk_pageid b))))) as (t & Et & Lt & Ht); [lia|].
      cbn [set_pages bk_table]. rewrite Et. cbn [bind]. eexists. split; [reflexivity|].
      set (p := length (bk_pageid b)) in *.
      set (b' := set_tab S _ t).
      assert (Hpp : forall q z, page_holds b q z -> page_holds b' q z).
      { intros q z (H1 & H2 & H3). unfold page_holds. cbn. rewrite !rd_app.
        pose proof (rd_in_bounds _ _ _ H1). pose proof (rd_in_bounds _ _ _ H2). rewrite i_files0.
        replace (Z.of_nat q =? zlen (bk_pageid b)) with false by lia. auto. }
      assert (Hpx : page_holds b' p x).
      { unfold page_holds. cbn. rewrite !rd_app, i_files0. unfold zlen, p. rewrite Z.eqb_refl. auto. }
      assert (F : found b' hole x).
      { right. exists p. cbn. rewrite Ht, Z.eqb_refl. auto. }
      split; [|split; [reflexivity|split; [reflexivity|split; [reflexivity|split; [reflexivity|split; [reflexivity|split; [exact F|split]]]]]]].
      * constructor; cbn; auto; try congruence.
        -- intros q [<-|Hq]; [eauto|]. destruct (i_pages0 q Hq) as [z Hz]. eauto.
        -- rewrite !zlen_app. change (zlen [blk x]) with 1. change (zlen [x]) with 1. lia.
        -- intros z Hz Hsz. rewrite Ht. replace (z =? x) with false by lia. auto.
        -- intros z Hz Hsz Hnz. destruct (Z.eq_dec z x) as [->|Hne]; [exact F|].
           destruct (i_found0 z Hz Hsz Hnz) as [(k & H1 & H2)|(q & H1 & H2 & H3)].
           ++ left. exists k. cbn. rewrite Ht. replace (z =? x) with false by lia. auto.
           ++ right. exists q. cbn. rewrite Ht. replace (z =? x) with false by lia. auto.
      * intros z Hz. cbn. rewrite Ht. replace (z =? x) with false by lia. reflexivity.
      * exists p. cbn. rewrite Ht, Z.eqb_refl. reflexivity.
Qed.

(** ** Core blocks *)
Lemma holds_lt b k x : core_holds b k x -> (k < length (bk_slots b))%nat.
Proof. intros [H _]. apply rd_in_bounds in H. unfold zlen in H. lia. Qed.


Lemma new_ok b hole skip cc cur : inv b hole skip cc cur ->
  exists b' k, new_core_block S b = (b', k) /\
  inv b' (fun j => hole j \/ j = k) skip cc cur /\ k = length (bk_slots b) /\ In k (bk_core b') /\ zlen (bk_slots b') = zlen (bk_slots b) + 1 /\
  bk_rid b' = bk_rid b /\ bk_table b' = bk_table b /\ (forall j, In j (bk_core b) -> In j (bk_core b')) /\
  (forall j x, j <> k -> rd (bk_slots b) (Z.of_nat j) = x -> rd (bk_slots b') (Z.of_nat j) = x).
Proof.
  intros []. unfold new_core_block. set (k := length (bk_slots b)).
  set (b' := set_lists _ _ _ _). exists b', k.
  assert (Hrd : forall j, j <> k -> rd (bk_slots b') (Z.of_nat j) = rd (bk_slots b) (Z.of_nat j)).
  { intros j Hj. cbn. rewrite rd_app. unfold zlen. replace (Z.of_nat j =? _) with false by lia. reflexivity. }
  assert (Hh : forall j x, core_holds b j x -> core_holds b' j x).
  { intros j x H. pose proof (holds_lt _ _ _ H). destruct H as [H1 H2]. split; [|exact H2]. rewrite Hrd by lia. auto. }
  split; [reflexivity|]. split; [|split; [reflexivity|split; [left; reflexivity|split; [|split; [reflexivity|split; [reflexivity|split]]]]]].
  - constructor; cbn; auto.
    + intros j [<-|Hj] Hnj; [exfalso; apply Hnj; auto|]. destruct (i_core0 j Hj) as [x Hx]; [tauto|]. eauto.
    + intros j Hj. rewrite app_length in Hj. cbn [length] in Hj. destruct (Nat.eq_dec j k); [left; auto|]. right. apply i_slots0. lia.
    + intros x Hx Hs Hne. destruct (i_found0 x Hx Hs Hne) as [(j & H1 & H2 & H3 & H4)|H]; [|right; exact H].
      left. exists j. cbn. split; [auto|]. split; [auto|]. split; [|auto].
      pose proof (holds_lt _ _ _ H4). intros [?|?]; [tauto|lia].
  - cbn. rewrite zlen_app. reflexivity.
  - intros j Hj. right. auto.
  - intros j x Hj H. rewrite Hrd; auto.
Qed.

(** Filling a slot. *)
Lemma plug_ok b hole skip cc cur k x : inv b hole skip cc cur -> hole k -> (k < length (bk_slots b))%nat -> 0 <= x < bk_rid b ->
  exists b', put_slot S b k (mksl BCore (Some x) (Some (blk x))) = Ok b' /\
  inv b' (fun j => hole j /\ j <> k) skip cc cur /\ core_holds b' k x /\
  bk_rid b' = bk_rid b /\ bk_table b' = bk_table b /\ bk_core b' = bk_core b /\ length (bk_slots b') = length (bk_slots b) /\
  (forall j, j <> k -> rd (bk_slots b') (Z.of_nat j) = rd (bk_slots b) (Z.of_nat j)) /\ bk_pages b' = bk_pages b /\
  (forall p y, page_holds b p y -> page_holds b' p y).
Proof.
  intros I Hk Hlt Hx. destruct I. unfold put_slot.
  destruct (store_ok (bk_slots b) (Z.of_nat k) (mksl BCore (Some x) (Some (blk x)))) as (sl & E & L & H); [unfold zlen; lia|].
  rewrite E. cbn [bind]. eexists. split; [reflexivity|]. set (b' := set_slots S b sl).
  assert (Hrd : forall j, j <> k -> rd (bk_slots b') (Z.of_nat j) = rd (bk_slots b) (Z.of_nat j)).
  { intros j Hj. cbn. rewrite H. replace (Z.of_nat j =? _) with false by lia. reflexivity. }
  assert (Hkx : core_holds b' k x) by (split; [cbn; rewrite H, Z.eqb_refl; reflexivity|exact Hx]).
  assert (Hh : forall j y, j <> k -> core_holds b j y -> core_holds b' j y).
  { intros j y Hj [H1 H2]. split; [|exact H2]. rewrite Hrd by lia. auto. }
  split; [|split; [exact Hkx|split; [reflexivity|split; [reflexivity|split; [reflexivity|split; [|split; [exact Hrd|split; [reflexivity|]]]]]]]].
  - constructor; cbn; auto.
    + intros j Hj Hnj. destruct (Nat.eq_dec j k) as [->|Hne]; [eauto|]. destruct (i_core0 j Hj) as [y Hy]; [tauto|]. eauto.
    + intros j Hj. apply i_slots0. unfold zlen in L. lia.
    + intros y Hy Hs Hne. destruct (i_found0 y Hy Hs Hne) as [(j & H1 & H2 & H3 & H4)|H1]; [|right; exact H1].
      left. exists j. cbn. split; [auto|]. split; [auto|]. split; [tauto|]. apply Hh; [|auto]. intros ->. tauto.
  - cbn. unfold zlen in L. lia.
  - intros p y Hp. exact Hp.
Qed.

(** Changing the table entry of a block. *)
Lemma table_ok b hole skip cc cur x e : inv b hole skip cc cur -> 0 <= x < n ->
  exists b', put_table S b x e = Ok b' /\ inv b' hole (fun y => skip y \/ y = x) cc cur /\
  bk_rid b' = bk_rid b /\ bk_core b' = bk_core b /\ bk_slots b' = bk_slots b /\
  (forall y, rd (bk_table b') y = if y =? x then Ok e else rd (bk_table b) y) /\ bk_pages b' = bk_pages b /\
  bk_pageid b' = bk_pageid b /\ bk_file b' = bk_file b.
Proof.
  intros [] Hx. unfold put_table. destruct (store_ok (bk_table b) x e) as (t & E & L & H); [lia|].
  rewrite E. cbn [bind]. eexists. split; [reflexivity|]. cbn.
  split; [|repeat (split; [reflexivity|]); split; [exact H|auto]].
  constructor; cbn; auto; try congruence.
  - intros y Hy Hs. rewrite H. replace (y =? x) with false by lia. apply i_fresh0; [auto|tauto].
  - intros y Hy Hs Hne. assert (y <> x) by tauto.
    destruct (i_found0 y Hy ltac:(tauto) Hne) as [(j & H1 & H2)|(q & H1 & H2)].
    + left. exists j. cbn. rewrite H. replace (y =? x) with false by lia. auto.
    + right. exists q. cbn. rewrite H. replace (y =? x) with false by lia. auto.
Qed.

Lemma unskip b hole skip cc cur x : inv b hole skip cc cur ->
  (0 <= x < bk_rid b -> needed cc cur x -> found b hole x) ->
  (bk_rid b <= x < n -> rd (bk_table b) x = Ok None) ->
  inv b hole (fun y => skip y /\ y <> x) cc cur.
Proof.
  intros [] H1 H2. constructor; auto.
  - intros y Hy Hs. destruct (Z.eq_dec y x) as [->|]; [auto|]. apply i_fresh0; [auto|tauto].
  - intros y Hy Hs Hne. destruct (Z.eq_dec y x) as [->|]; [auto|]. apply i_found0; [auto|tauto|auto].
Qed.

Lemma inv_iff b hole hole' skip skip' cc cur : (forall k, hole k <-> hole' k) -> (forall x, skip x <-> skip' x) ->
  inv b hole skip cc cur -> inv b hole' skip' cc cur.
Proof.
  intros Hh Hs []. constructor; auto.
  - intros k Hk Hn'. apply i_core0; [auto|]. rewrite Hh. auto.
  - intros x Hx Hn'. apply i_fresh0; [auto|]. rewrite Hs. auto.
  - intros x Hx Hn' Hne. destruct (i_found0 x Hx ltac:(rewrite Hs; auto) Hne) as [(j & H1 & H2 & H3 & H4)|H]; [|right; exact H].
    left. exists j. split; [auto|]. split; [auto|]. split; [rewrite <- Hh; auto|auto].
Qed.

Lemma evict_ok b skip cc id : inv b (fun _ => False) skip cc id ->
  forall core, incl core (bk_core b) -> exists r, evict S b id cc core = Ok r /\
  match r with
  | None => True
  | Some (k, i, l) => In k core /\ core_holds b k i /\ (forall j, In j core -> j = k \/ In j l) /\ incl l core /\ ~ needed cc id i
  end.
Proof.
  intros I. induction core as [|k core IH]; intros Hi; cbn [evict]; [exists None; split; [reflexivity|exact Logic.I]|].
  destruct (i_core _ _ _ _ _ I k) as [x [Hx1 Hx2]]; [apply Hi; left; auto|tauto|].
  unfold slot_at. rewrite Hx1. cbn [bind slot_id sl_id].
  pose proof (i_rid _ _ _ _ _ I). destruct (rd_some max x) as [m Em]; [lia|].
  rewrite (i_max _ _ _ _ _ I), Em. cbn [bind].
  destruct ((m <? cc) || ((x <? id) && (m =? cc))) eqn:E.
  - eexists. split; [reflexivity|]. cbn. split; [auto|]. split; [split; auto|]. split; [intros j [<-|Hj]; auto|]. split; [intros j Hj; right; auto|].
    intros (m' & Em' & Hm'). assert (m' = m) by congruence. lia.
  - destruct IH as (r & Er & Hr); [intros j Hj; apply Hi; right; auto|]. rewrite Er. cbn [bind]. eexists. split; [reflexivity|].
    destruct r as [[[k' i'] l']|]; [|auto]. destruct Hr as (H1 & H2 & H3 & H4 & H5). split; [right; auto|]. split; [auto|].
    split; [intros j [<-|Hj]; [right; left; auto|destruct (H3 j Hj); [auto|right; right; auto]]|].
    split; [intros j [<-|Hj]; [left; auto|right; auto]|auto].
Qed.

(** Marking a slot as being refilled: its id and contents do not matter any more. *)
Lemma unplug_ok b hole skip cc cur k s : inv b hole skip cc cur -> (k < length (bk_slots b))%nat ->
  (forall x, 0 <= x < bk_rid b -> ~ skip x -> needed cc cur x -> rd (bk_table b) x <> Ok (Some (PCore k))) ->
  exists b', put_slot S b k s = Ok b' /\ inv b' (fun j => hole j \/ j = k) skip cc cur /\
  bk_rid b' = bk_rid b /\ bk_table b' = bk_table b /\ bk_core b' = bk_core b /\ length (bk_slots b') = length (bk_slots b) /\
  bk_free b' = bk_free b /\ bk_pages b' = bk_pages b /\ bk_src b' = bk_src b /\ bk_max b' = bk_max b /\
  (forall p y, page_holds b p y -> page_holds b' p y).
Proof.
  intros [] Hlt Hx. unfold put_slot.
  destruct (store_ok (bk_slots b) (Z.of_nat k) s) as (sl & E & L & H); [unfold zlen; lia|].
  rewrite E. cbn [bind]. eexists. split; [reflexivity|]. set (b' := set_slots S b sl).
  assert (Hh : forall j y, j <> k -> core_holds b j y -> core_holds b' j y).
  { intros j y Hj [H1 H2]. split; [|exact H2]. cbn. rewrite H. replace (Z.of_nat j =? _) with false by lia. auto. }
  split; [|repeat (split; [reflexivity|]); split; [cbn; unfold zlen in L; lia|repeat (split; [reflexivity|]); auto]].
  constructor; cbn; auto.
  - intros j Hj Hnj. destruct (i_core0 j Hj) as [y Hy]; [tauto|]. exists y. apply Hh; [tauto|auto].
  - intros j Hj. apply i_slots0. unfold zlen in L. lia.
  - intros y Hy Hs Hne. destruct (i_found0 y Hy Hs Hne) as [(j & H1 & H2 & H3 & H4)|H1]; [|right; exact H1].
    assert (j <> k) by (intros ->; apply (Hx y Hy Hs Hne); auto).
    left. exists j. cbn. split; [auto|]. split; [auto|]. split; [tauto|]. apply Hh; auto.
Qed.

Lemma core_block_ok b cc id : inv b (fun _ => False) (fun _ => False) cc id -> 0 <= id < n ->
  (exists m, rd max id = Ok m /\ cc <= m) ->
  exists b' k, core_block S capacity b id cc = Ok (b', k) /\ inv b' (fun j => j = k) (fun _ => False) cc id /\
  bk_rid b' = bk_rid b /\ In k (bk_core b') /\ (k < length (bk_slots b'))%nat /\
  (forall j, rd (bk_table b') id = Ok (Some (PCore j)) -> rd (bk_table b) id = Ok (Some (PCore j))).
Proof.
  intros I Hid (mi & Emi & Hmi). unfold core_block, get_free_core_block. rewrite (i_free _ _ _ _ _ I).
  set (room := core_count S b <? capacity).
  set (b1 := if room then set_clean S b (u64 (bk_clean b + 1)) else b).
  assert (I1 : inv b1 (fun _ => False) (fun _ => False) cc id).
  { unfold b1. destruct room; [|auto]. destruct I. constructor; auto. }
  assert (Hr1 : bk_rid b1 = bk_rid b) by (unfold b1; destruct room; reflexivity).
  assert (Ht1 : bk_table b1 = bk_table b) by (unfold b1; destruct room; reflexivity).
  assert (Hnew : forall c, inv c (fun _ => False) (fun _ => False) cc id -> bk_rid c = bk_rid b -> bk_table c = bk_table b ->
    exists b' k, Ok (new_core_block S c) = Ok (b', k) /\ inv b' (fun j => j = k) (fun _ => False) cc id /\
    bk_rid b' = bk_rid b /\ In k (bk_core b') /\ (k < length (bk_slots b'))%nat /\
    (forall j, rd (bk_table b') id = Ok (Some (PCore j)) -> rd (bk_table b) id = Ok (Some (PCore j)))).
  { intros c Ic Hr Ht. destruct (new_ok c _ _ _ _ Ic) as (b' & k & E & J1 & J2 & J3 & J4 & J5 & J6 & J7 & J8).
    exists b', k. rewrite E. split; [reflexivity|]. split; [eapply inv_iff; [| |exact J1]; tauto|].
    split; [congruence|]. split; [auto|]. split; [unfold zlen in J4; lia|]. rewrite J6, Ht. auto. }
  cbv zeta. destruct (room && negb (bk_clean b1 mod 8 =? 0)).
  { apply Hnew; auto. }
  destruct (evict_ok b1 _ _ _ I1 (bk_core b1) (incl_refl _)) as (r & Er & Hr). rewrite Er. cbn [bind].
  destruct r as [[[k i] l]|].
  - destruct Hr as (Hk & Hki & Hl & Hlin & Hni). unfold slot_at. destruct Hki as [Hki Hir]. rewrite Hki. cbn [bind sl_id sl_data].
    pose proof (i_rid _ _ _ _ _ I1) as Hrr.
    assert (I2 : inv b1 (fun j => j = k) (fun _ => False) cc id).
    { destruct I1. constructor; auto.
      intros x Hx Hs Hne. destruct (i_found0 x Hx Hs Hne) as [(j & H1 & H2 & H3 & H4)|H]; [|right; exact H].
        left. exists j. split; [auto|]. split; [auto|]. split; [|auto]. intros ->. destruct H4 as [H4 _].
        rewrite Hki in H4. injection H4 as H4. subst x. auto. }
    (* the table *)
    unfold put_table. destruct (store_ok (bk_table b1) i (@None ptr)) as (t & Et & Lt & Ht); [rewrite (i_table _ _ _ _ _ I1); lia|].
    cbn [set_lists bk_table]. rewrite Et. cbn [bind].
    unfold put_slot. cbn [set_tab set_lists bk_slots].
    destruct (store_ok (bk_slots b1) (Z.of_nat k) (mksl BFree (Some i) (Some (blk i)))) as (sl & Es & Ls & Hsl); [eapply rd_in_bounds; eauto|].
    rewrite Es. cbn [bind set_slots bk_free]. rewrite (i_free _ _ _ _ _ I1).
    eexists _, k. split; [reflexivity|].
    set (b' := set_lists _ _ _ _).
    assert (Hh : forall j y, j <> k -> core_holds b1 j y -> core_holds b' j y).
    { intros j y Hj [H1 H2]. split; [|exact H2]. cbn. rewrite Hsl. replace (Z.of_nat j =? _) with false by lia. auto. }
    split; [|split; [cbn; auto|split; [left; reflexivity|split]]].
    + destruct I2. constructor; cbn; auto; try congruence.
      * intros j [<-|Hj] Hne; [tauto|]. destruct (i_core0 j) as [y Hy]; [apply Hlin; auto|auto|]. eauto.
      * intros j Hj. unfold zlen in Ls. destruct (Hl j) as [->|]; [apply i_slots0; lia|left; auto|right; auto].
      * intros x Hx Hs. rewrite Ht. replace (x =? i) with false by lia. auto.
      * intros x Hx Hs Hne. assert (x <> i) by (intros ->; auto).
        destruct (i_found0 x Hx Hs Hne) as [(j & H1 & H2 & H3 & H4)|(q & H1 & H2)].
        -- left. exists j. cbn. rewrite Ht. replace (x =? i) with false by lia. split; [auto|].
           split; [right; destruct (Hl j H2); [tauto|auto]|]. split; [auto|]. apply Hh; auto.
        -- right. exists q. cbn. rewrite Ht. replace (x =? i) with false by lia. auto.
    + cbn. pose proof (rd_in_bounds _ _ _ Hki). unfold zlen in *. lia.
    + intros j Hj. cbn in Hj. rewrite Ht in Hj. destruct (id =? i) eqn:Ei; [discriminate|]. rewrite <- Ht1. auto.
  - clear Hr Er. cbn [bind]. rewrite (i_free _ _ _ _ _ I1).
    destruct (core_count S b1 <? capacity) eqn:Ec; [apply Hnew; auto|].
    destruct (rev (bk_core b1)) as [|k front] eqn:Erev.
    { exfalso. assert (Hin : In 0%nat (bk_core b1)).
      { apply (i_slots _ _ _ _ _ I1). unfold core_count, zlen in Ec. lia. }
      apply (f_equal (@rev nat)) in Erev. rewrite rev_involutive in Erev. rewrite Erev in Hin. destruct Hin. }
    assert (Ecore : bk_core b1 = rev front ++ [k]).
    { apply (f_equal (@rev nat)) in Erev. rewrite rev_involutive in Erev. cbn [rev] in Erev. auto. }
    assert (Hperm : forall j, In j (k :: rev front) <-> In j (bk_core b1)).
    { intros j. rewrite Ecore, in_app_iff. cbn [In]. tauto. }
    destruct (i_core _ _ _ _ _ I1 k) as [i [Hki Hir]]; [apply Hperm; left; auto|tauto|].
    set (b2 := set_lists S b1 (k :: rev front) []).
    assert (I2 : inv b2 (fun _ => False) (fun _ => False) cc id).
    { destruct I1. constructor; cbn; auto.
      - intros j Hj _. destruct (i_core0 j) as [y Hy]; [apply Hperm; exact Hj|tauto|]. exists y. exact Hy.
      - intros j Hj. apply (Hperm j). auto.
      - intros x Hx Hs Hne. destruct (i_found0 x Hx Hs Hne) as [(j & H1 & H2 & H3 & H4)|H]; [|right; exact H].
        left. exists j. split; [auto|]. split; [apply (Hperm j); auto|]. split; [auto|exact H4]. }
    rewrite (i_free _ _ _ _ _ I1). fold b2.
    change (slot_at S b2 k) with (rd (bk_slots b1) (Z.of_nat k)). rewrite Hki. cbn [bind slot_id sl_id sl_type sl_data].
    destruct (write_page_ok b2 _ _ _ _ i I2) as (b3 & E3 & I3 & Hr3 & Hs3 & Hc3 & _ & _ & F3 & T3 & P3); [exact Hir|].
    rewrite E3. cbn [bind].
    destruct (unplug_ok b3 _ _ _ _ k (mksl BFree (Some i) (Some (blk i))) I3) as (b4 & E4 & I4 & R4 & T4 & C4 & L4 & _).
    { rewrite Hs3. pose proof (rd_in_bounds _ _ _ Hki). unfold zlen in *. cbn. lia. }
    { intros x Hx Hs Hne Et. destruct (i_found _ _ _ _ _ I3 x Hx Hs Hne) as [(j & H1 & H2 & H3 & H4)|(q & H1 & H2)]; [|congruence].
      assert (j = k) by congruence. subst j. destruct H4 as [H4 _]. rewrite Hs3 in H4. change (bk_slots b2) with (bk_slots b1) in H4.
      rewrite Hki in H4. injection H4 as H4. subst x. destruct P3 as [p P3]. congruence. }
    rewrite E4. cbn [bind]. exists b4, k. split; [reflexivity|].
    split; [eapply inv_iff; [| |exact I4]; tauto|]. split; [rewrite R4, Hr3; auto|].
    split; [rewrite C4, Hc3; left; auto|]. split; [rewrite L4, Hs3; pose proof (rd_in_bounds _ _ _ Hki); unfold zlen in *; cbn; lia|].
    intros j Hj. rewrite T4 in Hj. destruct (Z.eq_dec id i) as [->|Hne].
    + destruct P3 as [p P3]. congruence.
    + rewrite T3 in Hj by auto. rewrite <- Ht1. exact Hj.
Qed.

(** ** Filling *)
Lemma push_ok b cc id k x skip : inv b (fun j => j = k) skip cc id -> 0 <= x < bk_rid b -> In k (bk_core b) ->
  core_holds b k x ->
  exists b', push_block S capacity b k cc = Ok b' /\ inv b' (fun j => j = k) (fun y => skip y /\ y <> x) cc id /\
  bk_rid b' = bk_rid b /\ In k (bk_core b') /\ (length (bk_slots b) <= length (bk_slots b'))%nat /\ bk_src b' = bk_src b /\
  (forall y, y <> x -> rd (bk_table b') y = rd (bk_table b) y).
Proof.
  intros I Hx Hk Hkx. unfold push_block, slot_at. destruct Hkx as [Hkx Hxr]. rewrite Hkx. cbn [bind slot_id sl_id].
  unfold get_free_core_block. rewrite (i_free _ _ _ _ _ I). pose proof (i_rid _ _ _ _ _ I) as Hr.
  destruct (core_count S b <? capacity).
  - destruct (new_ok b _ _ _ _ I) as (b1 & m & E1 & I1 & Hm & Hin & Hlen & R1 & T1 & C1 & S1).
    assert (Es1 : bk_src b1 = bk_src b) by (unfold new_core_block in E1; injection E1 as <- _; reflexivity).
    rewrite E1. destruct (plug_ok b1 _ _ _ _ m x I1) as (b2 & E2 & I2 & H2 & R2 & T2 & C2 & L2 & S2 & P2 & _); [auto|unfold zlen in Hlen; lia|lia|].
    assert (Es2 : bk_src b2 = bk_src b1).
    { clear - E2. unfold put_slot in E2. destruct (store _ _ _); cbn in E2; try discriminate. injection E2 as <-. reflexivity. }
    rewrite E2. cbn [bind].
    destruct (table_ok b2 _ _ _ _ x (Some (PCore m)) I2) as (b3 & E3 & I3 & R3 & C3 & S3 & T3 & _); [lia|].
    assert (Es3 : bk_src b3 = bk_src b2).
    { clear - E3. unfold put_table in E3. destruct (store _ _ _); cbn in E3; try discriminate. injection E3 as <-. reflexivity. }
    rewrite E3. exists b3. split; [reflexivity|].
    assert (Hmk : m <> k).
    { intros ->. apply rd_in_bounds in Hkx. unfold zlen in Hkx. lia. }
    split.
    { eapply inv_iff; [| |eapply (unskip b3 _ _ _ _ x I3)]; [| | |lia].
      - intros j. cbn beta. split; [intros [[?|?] ?]; [auto|congruence]|intros ->; split; [auto|congruence]].
      - intros y. cbn beta. split; [intros [[?|?] ?]; [auto|congruence]|tauto].
      - intros _ _. left. exists m. split; [rewrite T3, Z.eqb_refl; reflexivity|]. split; [rewrite C3, C2; auto|].
        split; [tauto|]. destruct H2 as [H2 H2']. split; [rewrite S3; auto|rewrite R3; auto]. }
    split; [congruence|]. split; [rewrite C3, C2; auto|]. split; [rewrite S3, L2; unfold zlen in Hlen; lia|].
    split; [congruence|]. intros y Hy. rewrite T3, T2, T1. replace (y =? x) with false by lia. reflexivity.
  - cbn [sl_type sl_data]. destruct (write_page_ok b _ _ _ _ x I Hx) as (b3 & E3 & I3 & Hr3 & Hs3 & Hc3 & Hsr & _ & F3 & T3 & _).
    rewrite E3. exists b3. split; [reflexivity|]. split; [apply unskip; [auto|auto|lia]|].
    split; [auto|]. split; [congruence|]. split; [rewrite Hs3; lia|]. auto.
Qed.

Lemma fill_ok cc id k : 0 <= id < n -> (exists m, rd max id = Ok m /\ cc <= m) ->
  forall fuel b, (Z.to_nat (id - bk_rid b) < fuel)%nat -> inv b (fun j => j = k) (fun y => y = id) cc id ->
  bk_rid b <= id -> In k (bk_core b) -> (k < length (bk_slots b))%nat -> rd (bk_table b) id = Ok (Some (PCore k)) ->
  exists b', fill_loop S capacity next fuel b k id cc = Ok b' /\ inv b' (fun _ => False) (fun _ => False) cc id /\
  In k (bk_core b') /\ core_holds b' k id.
Proof.
  intros Hid Hneed. induction fuel as [|fuel IH]; intros b Hf I Hle Hk Hlt Htab; [lia|].
  cbn [fill_loop]. pose proof (i_rid _ _ _ _ _ I) as Hr. pose proof (i_src _ _ _ _ _ I) as Hy.
  rewrite rest_cons in Hy by lia. inversion Hy as [|s s' x l Hnext Hy']; subst. rewrite Hnext. cbn [bind].
  rewrite !u32_small by lia. set (rid := bk_rid b) in *.
  set (b1 := set_src S b (rid + 1) s').
  (* the source has advanced *)
  assert (I1 : inv b1 (fun j => j = k) (fun y => y = id \/ y = rid) cc id).
  { destruct I. constructor; cbn; auto; try lia.
    - intros j Hj Hne. destruct (i_core0 j Hj Hne) as [y [H1 H2]]. exists y. split; [exact H1|cbn; lia].
    - intros p Hp. destruct (i_pages0 p Hp) as [y (H1 & H2 & H3)]. exists y. split; [exact H1|]. split; [exact H2|cbn; lia].
    - intros y Hy1 Hs. apply i_fresh0; [lia|tauto].
    - intros y Hy1 Hs Hne. destruct (i_found0 y ltac:(lia) ltac:(tauto) Hne) as [(j & H1 & H2 & H3 & H4 & H5)|(p & H1 & H2 & H3 & H4 & H5)].
      + left. exists j. split; [exact H1|]. split; [exact H2|]. split; [auto|]. split; [exact H4|cbn; lia].
      + right. exists p. split; [exact H1|]. split; [exact H2|]. split; [exact H3|]. split; [exact H4|cbn; lia]. }
  destruct (plug_ok b1 _ _ _ _ k rid I1) as (b2 & E2 & I2 & H2 & R2 & T2 & C2 & L2 & S2 & P2 & PP2); [auto|exact Hlt|cbn; lia|].
  rewrite E2. cbn [bind]. change (bk_rid b1) with (rid + 1) in R2. change (bk_table b1) with (bk_table b) in T2.
  change (bk_core b1) with (bk_core b) in C2. change (bk_slots b1) with (bk_slots b) in L2.
  destruct (rid =? id) eqn:Eid.
  - exists b2. split; [reflexivity|]. assert (Ee : id = rid) by lia.
    split; [|split; [rewrite C2; auto|rewrite Ee; auto]].
    assert (I2' : inv b2 (fun _ => False) (fun y => y = id) cc id) by (eapply inv_iff; [| |exact I2]; intros; intuition lia).
    eapply inv_iff; [| |eapply (unskip b2 _ _ _ _ id I2')]; [tauto|intros; intuition lia| |lia].
    intros _ _. left. exists k. rewrite T2. split; [auto|]. split; [rewrite C2; auto|]. split; [tauto|]. rewrite Ee. auto.
  - replace (id <? rid) with false by lia.
    destruct (rd_some max rid) as [m Em]; [lia|]. rewrite (i_max _ _ _ _ _ I2), Em. cbn [bind].
    assert (Hpre : inv b2 (fun j => j = k) (fun y => y = id \/ y = rid) cc id).
    { (* the slot is about to be refilled again *)
      destruct I2. constructor; auto.
      - intros j Hj Hne. apply i_core0; [auto|tauto].
      - intros y Hy1 Hs Hne. destruct (i_found0 y Hy1 Hs Hne) as [(j & H1 & H3 & H4 & H5)|H]; [|right; exact H].
        left. exists j. split; [auto|]. split; [auto|]. split; [|auto]. intros ->. destruct H5 as [H5 _]. destruct H2 as [H2 _].
        rewrite H2 in H5. injection H5 as H5. apply Hs. right. auto. }
    assert (Hgo : forall b3, inv b3 (fun j => j = k) (fun y => y = id) cc id -> bk_rid b3 = rid + 1 -> In k (bk_core b3) ->
              (length (bk_slots b2) <= length (bk_slots b3))%nat -> rd (bk_table b3) id = rd (bk_table b2) id ->
              exists b', fill_loop S capacity next fuel b3 k id cc = Ok b' /\ inv b' (fun _ => False) (fun _ => False) cc id /\
              In k (bk_core b') /\ core_holds b' k id).
    { intros b3 I3 R3 C3 L3 T3. apply IH; auto; try lia. rewrite T3, T2. auto. }
    destruct (cc <? m) eqn:Ecm.
    + destruct (push_ok b2 cc id k rid _ Hpre) as (b3 & E3 & I3 & R3 & C3 & L3 & Sr3 & T3); [lia|rewrite C2; auto|auto|].
      rewrite E3. cbn [bind]. apply Hgo; auto; try congruence.
      { eapply inv_iff; [| |exact I3]; intros; cbn; intuition lia. }
      { apply T3. lia. }
    + cbn [bind]. apply Hgo; auto; try congruence.
      eapply inv_iff; [| |eapply (unskip b2 _ _ _ _ rid Hpre)]; [tauto|intros; intuition lia| |lia].
      intros _ (m' & Em' & Hm'). exfalso. assert (m' = m) by congruence. lia.
Qed.

(** ** Getting a block *)
Lemma get_block_ok b cc id : inv b (fun _ => False) (fun _ => False) cc id -> 0 <= id < n ->
  (exists m, rd max id = Ok m /\ cc <= m) ->
  exists b' k, get_block S capacity fill b id cc = Ok (b', k) /\ inv b' (fun _ => False) (fun _ => False) cc id /\
  In k (bk_core b') /\ core_holds b' k id.
Proof.
  intros I Hid Hneed. pose proof (i_rid _ _ _ _ _ I) as Hr.
  assert (Hnid : needed cc id id) by (destruct Hneed as (m & E & H); exists m; split; [auto|lia]).
  unfold get_block. destruct (rd_some (bk_table b) id) as [p Ep]; [rewrite (i_table _ _ _ _ _ I); lia|]. rewrite Ep. cbn [bind].
  assert (Hcases : (exists k, p = Some (PCore k) /\ In k (bk_core b) /\ core_holds b k id) \/ (forall k, p <> Some (PCore k))).
  { destruct (Z.lt_ge_cases id (bk_rid b)) as [Hlt|Hge].
    - destruct (i_found _ _ _ _ _ I id) as [(k & H1 & H2 & H3 & H4)|(q & H1 & H2)]; [lia|tauto|auto| |].
      + left. exists k. split; [congruence|auto].
      + right. intros k. congruence.
    - right. intros k. rewrite (i_fresh _ _ _ _ _ I) in Ep by (tauto || lia). congruence. }
  destruct Hcases as [(k & -> & Hk & Hki)|Hno].
  { destruct Hki as [Hki Hkr]. unfold slot_at. rewrite Hki. cbn [bind sl_type]. exists b, k.
    split; [reflexivity|]. split; [auto|]. split; [auto|]. split; auto. }
  assert (Eh : (match p with Some (PCore k) => s <- slot_at S b k;; Ok (match sl_type s with BFree => None | _ => Some k end) | _ => Ok None end) = Ok None).
  { destruct p as [[k|q]|]; [exfalso; eapply Hno; eauto|reflexivity|reflexivity]. }
  rewrite Eh. cbn [bind].
  destruct (core_block_ok b cc id I Hid Hneed) as (b1 & k & E1 & I1 & R1 & C1 & L1 & T1). rewrite E1. cbn [bind].
  destruct (rd_some (bk_table b1) id) as [p1 Ep1]; [rewrite (i_table _ _ _ _ _ I1); lia|]. rewrite Ep1. cbn [bind].
  assert (Hno1 : forall j, p1 <> Some (PCore j)).
  { intros j ->. apply T1 in Ep1. rewrite Ep in Ep1. injection Ep1 as Ep1. eapply Hno; eauto. }
  destruct (table_ok b1 _ _ _ _ id (Some (PCore k)) I1) as (b2 & E2 & I2 & R2 & C2 & S2 & T2 & P2 & Q2 & F2); [lia|].
  rewrite E2. cbn [bind].
  assert (Hfilled : forall b3, inv b3 (fun _ => False) (fun y => y = id) cc id -> In k (bk_core b3) -> core_holds b3 k id -> id < bk_rid b3 ->
            rd (bk_table b3) id = Ok (Some (PCore k)) -> inv b3 (fun _ => False) (fun _ => False) cc id).
  { intros b3 I3 C3 H3 R3 T3. eapply inv_iff; [| |eapply (unskip b3 _ _ _ _ id I3)]; [tauto|intros; intuition lia| |lia].
    intros _ _. left. exists k. split; [auto|]. split; [auto|]. split; [tauto|auto]. }
  destruct (Z.lt_ge_cases id (bk_rid b)) as [Hlt|Hge].
  - (* in a page *)
    destruct (i_found _ _ _ _ _ I1 id) as [(j & H1 & _)|(q & H1 & H2 & H3 & H4 & H5)]; [lia|tauto|auto|exfalso; apply (Hno1 j); congruence|].
    assert (p1 = Some (PPage q)) by congruence. subst p1. rewrite Q2, H3, F2, H4. cbn [bind].
    assert (I2' : inv b2 (fun j => j = k) (fun y => y = id) cc id) by (eapply inv_iff; [| |exact I2]; tauto).
    destruct (plug_ok b2 _ _ _ _ k id I2') as (b3 & E3 & I3 & H3' & R3 & T3 & C3 & L3 & _); [auto|rewrite S2; auto|lia|].
    rewrite E3. cbn [bind].
    destruct (table_ok b3 _ _ _ _ id (Some (PCore k)) I3) as (b4 & E4 & I4 & R4 & C4 & S4 & T4 & _); [lia|].
    rewrite E4. cbn [bind]. exists b4, k. split; [reflexivity|].
    assert (Hk4 : core_holds b4 k id) by (destruct H3' as [U V]; split; [rewrite S4; auto|lia]).
    split; [|split; [rewrite C4, C3, C2; auto|auto]].
    apply Hfilled; auto; [|rewrite C4, C3, C2; auto|lia|rewrite T4, Z.eqb_refl; reflexivity].
    eapply inv_iff; [| |exact I4]; intros; cbn; tauto.
  - assert (p1 = None).
    { rewrite (i_fresh _ _ _ _ _ I1) in Ep1 by (tauto || lia). congruence. }
    subst p1.
    destruct (fill_ok cc id k Hid Hneed (Datatypes.S (Z.to_nat id)) b2) as (b3 & E3 & I3 & C3 & H3); try lia.
    { eapply inv_iff; [| |exact I2]; intros; cbn; tauto. }
    { rewrite C2. auto. }
    { rewrite S2. auto. }
    { rewrite T2, Z.eqb_refl. reflexivity. }
    change (fill b2 k id cc) with (fill_loop S capacity next (Datatypes.S (Z.to_nat id)) b2 k id cc).
    rewrite E3. cbn [bind]. exists b3, k. auto.
Qed.

(** With the last block. *)
Definition binv (b : st) (cc cur : Z) : Prop :=
  inv b (fun _ => False) (fun _ => False) cc cur /\
  match bk_last b with None => True | Some (PCore k) => In k (bk_core b) | Some (PPage _) => False end.

Lemma binv_mono b cc cur cc' cur' : (cc < cc' \/ (cc = cc' /\ cur <= cur')) -> binv b cc cur -> binv b cc' cur'.
Proof. intros H [I Hl]. split; [eapply inv_mono; eauto|auto]. Qed.

Lemma next_ok b cc id offset len : binv b cc id -> 0 <= id < n -> (exists m, rd max id = Ok m /\ cc <= m) ->
  zlen (blk id) = BLOCK_SIZE -> 0 <= len < 2 ^ 32 -> 
  let off := offset mod BLOCK_SIZE in
  exists b', blocks_next S capacity fill b offset len cc id = Ok (b', slice (blk id) off (Z.min len (BLOCK_SIZE - off))) /\ binv b' cc id.
Proof.
  intros [I Hl] Hid Hneed Hz Hlen off.
  assert (Hoff : 0 <= off < BLOCK_SIZE) by (apply Z.mod_pos_bound; reflexivity). unfold BLOCK_SIZE in *.
  unfold blocks_next.
  assert (Hfin : forall b' k, inv b' (fun _ => False) (fun _ => False) cc id -> In k (bk_core b') -> bk_last b' = Some (PCore k) -> core_holds b' k id ->
    exists b'', (s <- slot_at S b' k ;; d <- slot_data s ;;
                 x <- rd_range d (offset mod BLOCK_SIZE) (if BLOCK_SIZE <? u64 (offset mod BLOCK_SIZE + len) then BLOCK_SIZE - offset mod BLOCK_SIZE else len) ;;
                 Ok (b', x)) = Ok (b'', slice (blk id) off (Z.min len (8192 - off))) /\ binv b'' cc id).
  { intros b' k I' Hk Hl' [Hs _]. unfold slot_at. rewrite Hs. cbn [bind slot_data sl_data]. unfold BLOCK_SIZE. fold off.
    rewrite u64_small by lia.
    replace (if 8192 <? off + len then 8192 - off else len) with (Z.min len (8192 - off)) by (destruct (8192 <? off + len) eqn:?; lia).
    rewrite rd_range_in by lia. cbn [bind]. exists b'. split; [reflexivity|]. split; [auto|]. rewrite Hl'. auto. }
  destruct (bk_last b) as [[k|p]|] eqn:Elast; [|destruct Hl|].
  - destruct (i_core _ _ _ _ _ I k Hl) as [x [Hx Hxr]]; [tauto|]. unfold slot_at at 1. rewrite Hx. cbn [bind slot_id sl_id].
    destruct (x =? id) eqn:Ex.
    + cbn [bind]. apply (Hfin b k); auto. assert (x = id) by lia. subst x. split; auto.
    + cbn [bind]. destruct (rd_some (bk_table b) id) as [p Ep]; [rewrite (i_table _ _ _ _ _ I); lia|]. rewrite Ep. cbn [bind].
      destruct p as [[j|q]|].
      * cbn [bind]. assert (Hnid : needed cc id id) by (destruct Hneed as (m & E & H); exists m; split; [auto|lia]).
        destruct (Z.lt_ge_cases id (bk_rid b)) as [Hlt|Hge].
        -- destruct (i_found _ _ _ _ _ I id) as [(k' & H1 & H2 & H3 & H4)|(q & H1 & H2)]; [lia|tauto|auto| |congruence].
           assert (k' = j) by congruence. subst k'. apply (Hfin (set_last S b (Some (PCore j))) j); auto. destruct I; constructor; auto.
        -- rewrite (i_fresh _ _ _ _ _ I) in Ep by (tauto || lia). congruence.
      * destruct (get_block_ok b cc id I Hid Hneed) as (b' & k' & E' & I' & C' & H'). rewrite E'. cbn [bind].
        apply (Hfin (set_last S b' (Some (PCore k'))) k'); auto. destruct I'; constructor; auto.
      * destruct (get_block_ok b cc id I Hid Hneed) as (b' & k' & E' & I' & C' & H'). rewrite E'. cbn [bind].
        apply (Hfin (set_last S b' (Some (PCore k'))) k'); auto. destruct I'; constructor; auto.
  - cbn [bind]. destruct (rd_some (bk_table b) id) as [p Ep]; [rewrite (i_table _ _ _ _ _ I); lia|]. rewrite Ep. cbn [bind].
    destruct p as [[j|q]|].
    + cbn [bind]. assert (Hnid : needed cc id id) by (destruct Hneed as (m & E & H); exists m; split; [auto|lia]).
      destruct (Z.lt_ge_cases id (bk_rid b)) as [Hlt|Hge].
      * destruct (i_found _ _ _ _ _ I id) as [(k' & H1 & H2 & H3 & H4)|(q & H1 & H2)]; [lia|tauto|auto| |congruence].
        assert (k' = j) by congruence. subst k'. apply (Hfin (set_last S b (Some (PCore j))) j); auto. destruct I; constructor; auto.
      * rewrite (i_fresh _ _ _ _ _ I) in Ep by (tauto || lia). congruence.
    + destruct (get_block_ok b cc id I Hid Hneed) as (b' & k' & E' & I' & C' & H'). rewrite E'. cbn [bind].
      apply (Hfin (set_last S b' (Some (PCore k'))) k'); auto. destruct I'; constructor; auto.
    + destruct (get_block_ok b cc id I Hid Hneed) as (b' & k' & E' & I' & C' & H'). rewrite E'. cbn [bind].
      apply (Hfin (set_last S b' (Some (PCore k'))) k'); auto. destruct I'; constructor; auto.
Qed.

End Proofs.

(** ** Blocks of the data *)
Lemma block_zlen ext i : 0 <= i -> zlen (block ext i) = BS.
Proof.
  intros Hi. unfold block. rewrite zlen_app, zlen_repeat. pose proof (zlen_slice_le ext (i * BS) BS ltac:(discriminate)). unfold BS in *.
  pose proof (zlen_nonneg (slice ext (i * 8192) 8192)). lia.
Qed.

Lemma block_slice ext off m : 0 <= off -> 0 <= m <= BS - off mod BS -> off + m <= zlen ext ->
  slice (block ext (off / BS)) (off mod BS) m = slice ext off m.
Proof.
  intros Ho Hm Hl. pose proof (Z.div_mod off BS ltac:(discriminate)) as D. pose proof (Z.mod_pos_bound off BS ltac:(reflexivity)) as B.
  pose proof (Z.div_pos off BS ltac:(lia) ltac:(reflexivity)).
  set (q := off / BS) in *. set (r := off mod BS) in *. unfold block. unfold BS in *.
  assert (Hz : r + m <= zlen (slice ext (q * 8192) 8192)).
  { destruct (Z.le_gt_cases (q * 8192 + 8192) (zlen ext)).
    - rewrite zlen_slice by lia. lia.
    - unfold slice, zlen in *. rewrite firstn_length, skipn_length. lia. }
  rewrite slice_app_l by lia.
  rewrite slice_slice by lia. f_equal. lia.
Qed.

Lemma BLOCKS_pos x : 0 < x < 2 ^ 63 -> BLOCKS x = 1 + (x - 1) / 8192.
Proof.
  intros H. unfold BLOCKS, BLOCK_SIZE. rewrite (u64_small (x - 1)) by lia. apply u64_small.
  pose proof (Z.div_pos (x - 1) 8192 ltac:(lia) ltac:(lia)). assert ((x - 1) / 8192 <= x - 1) by (apply Z.div_le_upper_bound; lia). lia.
Qed.

(** ** Marking *)
Lemma mark_ok i : forall k max first, 0 <= first -> first + Z.of_nat k <= zlen max ->
  exists max', mark k max first i = Ok max' /\ zlen max' = zlen max /\
  forall j, rd max' j = if (first <=? j) && (j <? first + Z.of_nat k) then Ok i else rd max j.
Proof.
  induction k as [|k IH]; intros max first Hf Hl; cbn [mark].
  - exists max. split; [reflexivity|]. split; [reflexivity|]. intros j. replace ((first <=? j) && _) with false by lia. reflexivity.
  - destruct (store_ok max first i) as (max1 & E1 & L1 & H1); [lia|]. rewrite E1. cbn [bind].
    destruct (IH max1 (first + 1)) as (max2 & E2 & L2 & H2); [lia|lia|]. exists max2. split; [auto|]. split; [lia|].
    intros j. rewrite H2, H1. destruct (j =? first) eqn:E.
    + replace ((first + 1 <=? j) && _) with false by lia. replace ((first <=? j) && _) with true by lia. reflexivity.
    + destruct ((first + 1 <=? j) && _) eqn:E'.
      * replace ((first <=? j) && _) with true by lia. reflexivity.
      * replace ((first <=? j) && _) with false by lia. reflexivity.
Qed.

(** The blocks a copy touches. *)
Definition touches (e : Z * Z) (j : Z) : Prop := fst e / 8192 <= j < BLOCKS (fst e + snd e).

Lemma mark_all_ok elen : elen < 2 ^ 63 -> forall copies i off max, Forall (in_data elen) (extents off copies) ->
  BLOCKS (elen) <= zlen max -> (forall j m, rd max j = Ok m -> m <= i) ->
  exists max', mark_all copies i off max = Ok max' /\ zlen max' = zlen max /\
  (forall j m m', rd max j = Ok m -> rd max' j = Ok m' -> m <= m') /\
  (forall k e, nth_error (extents off copies) k = Some e -> forall j, touches e j -> exists m, rd max' j = Ok m /\ i + Z.of_nat k <= m).
Proof.
  intros Hext. induction copies as [|[d l] copies IH]; intros i off max Hin Hb Hm; cbn [mark_all extents] in *.
  - exists max. split; [reflexivity|]. split; [reflexivity|]. split; [intros j m m' E E'; rewrite E in E'; injection E'; lia|].
    intros [|k] e He; discriminate.
  - apply Forall_cons_iff in Hin. destruct Hin as [(H1 & H2 & H3) Hin]. cbn [fst snd] in H1, H2, H3.
    set (o := off + s32 d) in *. rewrite (u64_small o) by lia. rewrite (u64_small (o + l)) by lia.
    assert (Hbl : BLOCKS (o + l) = 1 + (o + l - 1) / 8192) by (apply BLOCKS_pos; lia).
    assert (Hbe : BLOCKS (elen) = 1 + (elen - 1) / 8192) by (apply BLOCKS_pos; lia).
    pose proof (Z.div_le_mono (o + l - 1) (elen - 1) 8192 ltac:(lia) ltac:(lia)).
    pose proof (Z.div_pos o 8192 ltac:(lia) ltac:(lia)) as Hof. unfold BLOCK_SIZE.
    destruct (mark_ok i (Z.to_nat (BLOCKS (o + l) - o / 8192)) max (o / 8192)) as (max1 & E1 & L1 & H4); [lia| |].
    { destruct (Z.le_gt_cases (o / 8192) (BLOCKS (o + l))); [lia|].
      pose proof (Z.div_mod o 8192 ltac:(lia)). pose proof (Z.mod_pos_bound o 8192 ltac:(lia)).
      pose proof (Z.div_mod (o + l - 1) 8192 ltac:(lia)). pose proof (Z.mod_pos_bound (o + l - 1) 8192 ltac:(lia)). lia. }
    rewrite E1. cbn [bind].
    destruct (IH (i + 1) (o + l) max1) as (max2 & E2 & L2 & H5 & H6).
    { exact Hin. }
    { lia. }
    { intros j m E. rewrite H4 in E. destruct (_ && _); [injection E; lia|apply Hm in E; lia]. }
    exists max2. split; [exact E2|]. split; [lia|]. split.
    + intros j m m' E E'. assert (Hj : exists m1, rd max1 j = Ok m1 /\ m <= m1).
      { rewrite H4. destruct (_ && _); [exists i; split; [auto|eauto]|exists m; split; [auto|lia]]. }
      destruct Hj as (m1 & Hj1 & Hj2). specialize (H5 _ _ _ Hj1 E'). lia.
    + intros [|k] e He j Hj; cbn [nth_error] in He.
      * injection He as <-. unfold touches in Hj. cbn [fst snd] in Hj.
        assert (Hj1 : rd max1 j = Ok i) by (rewrite H4; replace (_ && _) with true by lia; reflexivity).
        destruct (rd_some max2 j) as [m Em]; [rewrite L2, L1; lia|]. exists m. split; [auto|]. specialize (H5 _ _ _ Hj1 Em). lia.
      * destruct (H6 k e He j Hj) as (m & Em & Hmm). exists m. split; [auto|]. lia.
Qed.

(** ** Reading *)
Lemma count_pos len : 0 < len -> 0 <= block_count len.
Proof. intros H. unfold block_count, BS. apply Z.div_pos; lia. Qed.
Lemma count_bounds len : len <= block_count len * 8192 /\ block_count len * 8192 < len + 8192.
Proof. unfold block_count, BS. pose proof (Z.div_mod (len + 8192 - 1) 8192 ltac:(lia)). pose proof (Z.mod_pos_bound (len + 8192 - 1) 8192 ltac:(lia)). lia. Qed.

Section Reading.
Variable S : Type.
Variable capacity : Z.
Variable fill : blocks S -> nat -> Z -> Z -> res (blocks S).
Variable ext : list Z.
Variable elen : Z.
Hypothesis Helen : 0 < elen <= zlen ext.
Let n := block_count elen.
Hypothesis Hn : n < 2 ^ 32.
Variable max : list Z.
Hypothesis Hmax : zlen max = n.

(** What holds of the cache between two pieces, for copy [cc] and block [cur]. *)
Variable ok : blocks S -> Z -> Z -> Prop.
Hypothesis ok_mono : forall b cc cur cc' cur', (cc < cc' \/ (cc = cc' /\ cur <= cur')) -> ok b cc cur -> ok b cc' cur'.
Hypothesis ok_next : forall b cc id offset len, ok b cc id -> 0 <= id < n -> (exists m, rd max id = Ok m /\ cc <= m) ->
  0 <= len < 2 ^ 32 -> let off := offset mod BLOCK_SIZE in
  exists b', blocks_next S capacity fill b offset len cc id = Ok (b', slice (block ext id) off (Z.min len (BLOCK_SIZE - off))) /\ ok b' cc id.

Lemma copy_pieces_ok cc : forall fuel b off len cur,
  0 <= off -> 0 <= len < 2 ^ 32 -> off + len <= elen -> cur <= off / 8192 -> ok b cc cur ->
  (forall j, off / 8192 <= j < BLOCKS (off + len) -> 0 < len -> exists m, rd max j = Ok m /\ cc <= m) ->
  off mod 8192 + len <= Z.of_nat fuel * 8192 ->
  exists b' r cur', copy_pieces S capacity fill fuel b off len cc (off / 8192) = Ok (b', r) /\ concat r = slice ext off len /\ ok b' cc cur'.
Proof.
  pose proof (count_pos elen ltac:(lia)) as Hn0. pose proof (count_bounds elen) as Hnb. fold n in Hn0, Hnb.
  induction fuel as [|fuel IH]; intros b off len cur Ho Hlen Hin Hcur Hb Hm Hf.
  - pose proof (Z.mod_pos_bound off 8192 ltac:(lia)). assert (len = 0) by lia. subst len. cbn.
    exists b, [], cur. split; [reflexivity|]. split; [|auto]. reflexivity.
  - cbn [copy_pieces]. destruct (0 <? len) eqn:El.
    2:{ assert (len = 0) by lia. subst len. exists b, [], cur. split; [reflexivity|]. split; [|auto]. reflexivity. }
    assert (Hid : 0 <= off / 8192 < n).
    { split; [apply Z.div_pos; lia|]. apply Z.div_lt_upper_bound; lia. }
    pose proof (Z.div_mod off 8192 ltac:(lia)) as D. pose proof (Z.mod_pos_bound off 8192 ltac:(lia)) as B.
    assert (Hbl : BLOCKS (off + len) = 1 + (off + len - 1) / 8192) by (apply BLOCKS_pos; lia).
    destruct (ok_next b cc (off / 8192) off len) as (b1 & E1 & B1).
    { eapply ok_mono; [|exact Hb]. right. lia. }
    { exact Hid. }
    { apply Hm; [|lia]. rewrite Hbl. pose proof (Z.div_le_mono off (off + len - 1) 8192 ltac:(lia) ltac:(lia)). lia. }
    { exact Hlen. }
    rewrite E1. cbn [bind]. unfold BLOCK_SIZE. set (m := Z.min len (8192 - off mod 8192)).
    assert (Hs : slice (block ext (off / 8192)) (off mod 8192) m = slice ext off m) by (apply (block_slice ext off m); unfold BS; lia).
    rewrite Hs. rewrite zlen_slice by lia. rewrite u64_small by lia.
    destruct (Z.le_gt_cases len (8192 - off mod 8192)) as [Hsmall|Hbig].
    + replace m with len in * by lia. replace (len - len) with 0 by lia.
      replace (copy_pieces S capacity fill fuel b1 (off + len) 0 cc (off / 8192 + 1)) with (Ok (b1, @nil (list Z))) by (destruct fuel; reflexivity).
      cbn [bind]. exists b1, [slice ext off len], (off / 8192). split; [reflexivity|]. split; [cbn; apply app_nil_r|auto].
    + replace m with (8192 - off mod 8192) in * by lia.
      assert (Eo : off + (8192 - off mod 8192) = (off / 8192 + 1) * 8192) by lia.
      assert (Ed : (off + (8192 - off mod 8192)) / 8192 = off / 8192 + 1) by (rewrite Eo; apply Z.div_mul; lia).
      assert (Emod : (off + (8192 - off mod 8192)) mod 8192 = 0) by (rewrite Eo; apply Z.mod_mul; lia).
      destruct (IH b1 (off + (8192 - off mod 8192)) (len - (8192 - off mod 8192)) (off / 8192)) as (b2 & r & cur' & E2 & C2 & B2); try lia; auto.
      { intros j Hj _. replace (off + (8192 - off mod 8192) + (len - (8192 - off mod 8192))) with (off + len) in Hj by lia. apply Hm; lia. }
      rewrite Ed in E2. rewrite E2. cbn [bind]. exists b2, (slice ext off (8192 - off mod 8192) :: r), cur'. split; [reflexivity|]. split; [|auto].
      cbn [concat]. rewrite C2. rewrite <- slice_split by lia. f_equal. lia.
Qed.

Lemma read_copies_ok : forall copies b off cc, Forall (in_data elen) (extents off copies) -> ok b cc 0 ->
  (forall k e, nth_error (extents off copies) k = Some e -> forall j, touches e j -> exists m, rd max j = Ok m /\ cc + Z.of_nat k <= m) ->
  exists b', read_copies S capacity fill b copies off cc = Ok (b', map (fun '(o, l) => slice ext o l) (extents off copies)).
Proof.
  pose proof (count_pos elen ltac:(lia)) as Hn0. pose proof (count_bounds elen) as Hnb. fold n in Hn0, Hnb.
  induction copies as [|[d l] copies IH]; intros b off cc Hin Hb Hm; cbn [read_copies extents map] in *; [eauto|].
  apply Forall_cons_iff in Hin. destruct Hin as [(H1 & H2 & H3) Hin]. cbn [fst snd] in H1, H2, H3.
  set (o := off + s32 d) in *. rewrite (u64_small o) by lia. rewrite (u64_small (o + l)) by lia.
  pose proof (Z.div_pos o 8192 ltac:(lia) ltac:(lia)) as Hc.
  pose proof (Z.mod_pos_bound o 8192 ltac:(lia)). pose proof (Z.div_mod l 8192 ltac:(lia)). pose proof (Z.mod_pos_bound l 8192 ltac:(lia)). pose proof (Z.div_pos l 8192 ltac:(lia) ltac:(lia)).
    destruct (copy_pieces_ok cc (copy_fuel l) b o l 0) as (b1 & r & cur' & E1 & C1 & B1); auto; try lia.
    { intros j Hj _. destruct (Hm O (o, l) eq_refl j Hj) as (m & Em & Hmm). exists m. split; [auto|lia]. }
    { unfold copy_fuel, BLOCK_SIZE. lia. }
    unfold BLOCK_SIZE. rewrite E1. cbn [bind].
    destruct (IH b1 (o + l) (cc + 1) Hin) as (b2 & E2).
    { eapply ok_mono; [|exact B1]. left. lia. }
    { intros k e He j Hj. destruct (Hm (Datatypes.S k) e He j Hj) as (m & Em & Hmm). exists m. split; [auto|lia]. }
    rewrite E2. cbn [bind]. rewrite C1. eauto.
Qed.
End Reading.

(** Any way of filling blocks that keeps such an invariant yields what the copies say. *)
Lemma cache_reads S capacity fill (ok : list Z -> blocks S -> Z -> Z -> Prop) (src : S) clean ext len copies :
  0 < len <= zlen ext -> block_count len < 2 ^ 32 - 1 -> Forall (in_data len) (extents 0 copies) ->
  (forall max b cc cur cc' cur', (cc < cc' \/ (cc = cc' /\ cur <= cur')) -> ok max b cc cur -> ok max b cc' cur') ->
  (forall max, zlen max = block_count len -> forall b cc id offset l, ok max b cc id -> 0 <= id < block_count len ->
     (exists m, rd max id = Ok m /\ cc <= m) -> 0 <= l < 2 ^ 32 -> let off := offset mod BLOCK_SIZE in
     exists b', blocks_next S capacity fill b offset l cc id = Ok (b', slice (block ext id) off (Z.min l (BLOCK_SIZE - off))) /\ ok max b' cc id) ->
  (forall max, zlen max = block_count len ->
     ok max (mkbk [] [] [] [] [] [] (repeat None (Z.to_nat (block_count len))) max None clean 0 src) 0 0) ->
  exists b b', blocks_create S len copies src clean = Ok b /\
  read_copies S capacity fill b copies 0 0 = Ok (b', map (fun '(o, l) => slice ext o l) (extents 0 copies)).
Proof.
  intros Hz Hbc Hin Hmono Hnext Hinit. pose proof (count_pos len ltac:(lia)) as Hn0. pose proof (count_bounds len) as Hnb.
  assert (Eb : BLOCKS len = block_count len).
  { rewrite BLOCKS_pos by lia. unfold block_count, BS. replace (len + 8192 - 1) with (len - 1 + 1 * 8192) by lia. rewrite Z.div_add by lia. lia. }
  unfold blocks_create. rewrite Eb. replace (UINT32_MAX <=? block_count len) with false by (unfold UINT32_MAX; lia).
  set (z := repeat 0 (Z.to_nat (block_count len))).
  assert (Hzl : zlen z = block_count len) by (unfold z; rewrite zlen_repeat; lia).
  destruct (mark_all_ok len ltac:(lia) copies 0 0 z Hin) as (max & E & L & _ & H).
  { lia. }
  { intros j m E. pose proof (rd_in_bounds _ _ _ E). rewrite Hzl in *. unfold z in E. rewrite rd_repeat in E by lia. injection E; lia. }
  rewrite E. cbn [bind]. eexists.
  destruct (read_copies_ok S capacity fill ext len Hz ltac:(lia) max (ok max) (Hmono max) (Hnext max ltac:(lia)) copies
              (mkbk [] [] [] [] [] [] (repeat None (Z.to_nat (block_count len))) max None clean 0 src) 0 0 Hin) as (b' & E').
  - apply Hinit. lia.
  - exact H.
  - exists b'. split; [reflexivity|exact E'].
Qed.

(** The cache hands out exactly what the copies say. *)
Lemma cache_transparent S capacity next (src : S) clean ext len copies :
  1 <= capacity -> 0 < len <= zlen ext -> block_count len < 2 ^ 32 - 1 -> Forall (in_data len) (extents 0 copies) ->
  yields next src (first_blocks ext len) ->
  exists b b', blocks_create S len copies src clean = Ok b /\
  read_copies S capacity (in_order S capacity next) b copies 0 0 = Ok (b', map (fun '(o, l) => slice ext o l) (extents 0 copies)).
Proof.
  intros Hcap Hz Hbc Hin Hy. pose proof (count_pos len ltac:(lia)) as Hn0.
  apply (cache_reads S capacity _ (binv S next (block ext) (block_count len))); auto.
  - intros max b cc cur cc' cur'. apply binv_mono.
  - intros max Hm b cc id offset l Hb Hid Hneed Hl. apply next_ok; auto; [lia|]. apply block_zlen. lia.
  - intros max Hm. split; [|exact Logic.I]. constructor; cbn [bk_table bk_max bk_rid bk_src bk_free bk_core bk_slots bk_pages bk_pageid bk_file]; auto; try lia.
    + rewrite zlen_repeat. lia.
    + replace (rest (block ext) (block_count len) 0) with (first_blocks ext len); [exact Hy|].
      unfold rest, first_blocks. rewrite Z.sub_0_r. reflexivity.
    + intros k [].
    + intros k Hk. cbn in Hk. lia.
    + intros p [].
    + intros x Hx _. apply rd_repeat. lia.
Qed.
