(** * DirectProofs: the block cache over a source that can make any block at any time *)
From Verif Require Import Base BaseLemmas Rpm Seq SpecDelta SpecBlocks Blocks BlocksProofs.

Section Proofs.
Variable S : Type.
Variable capacity : Z.
Hypothesis Hcap : 1 <= capacity.
Variable fill : blocks S -> nat -> Z -> Z -> res (blocks S).
(** The contents of the blocks, their number, and the last copy that uses each; what holds of the source. *)
Variable blk : Z -> list Z.
Variable n : Z.
Hypothesis Hn : 0 <= n < 2 ^ 32.
Variable max : list Z.
Hypothesis Hmax : zlen max = n.
Variable good : S -> Prop.

Notation st := (blocks S).

Definition live (cc x : Z) : Prop := exists m, rd max x = Ok m /\ cc <= m.
Definition sholds (b : st) (k : nat) (x : Z) : Prop :=
  exists t, t <> BFree /\ rd (bk_slots b) (Z.of_nat k) = Ok (mksl t (Some x) (Some (blk x))) /\ 0 <= x < n.
Definition pholds (b : st) (p : nat) (x : Z) : Prop :=
  rd (bk_pageid b) (Z.of_nat p) = Ok x /\ rd (bk_file b) (Z.of_nat p) = Ok (blk x) /\ 0 <= x < n.

(** [hole]: slots being refilled; [skip]: blocks about whose table entries nothing is known. *)
Record finv (b : st) (hole : nat -> Prop) (skip : Z -> Prop) (cc : Z) : Prop := mkfinv {
  f_table : zlen (bk_table b) = n;
  f_max : bk_max b = max;
  f_free : bk_free b = [];
  f_core : forall k, In k (bk_core b) -> ~ hole k -> exists x, sholds b k x;
  f_slots : forall k, (k < length (bk_slots b))%nat -> In k (bk_core b);
  f_pages : forall p, In p (bk_pages b) -> exists x, pholds b p x;
  f_files : zlen (bk_file b) = zlen (bk_pageid b);
  f_entry : forall x k, ~ skip x -> rd (bk_table b) x = Ok (Some (PCore k)) -> In k (bk_core b) /\ ~ hole k /\ sholds b k x;
  f_page : forall x p, ~ skip x -> rd (bk_table b) x = Ok (Some (PPage p)) -> live cc x -> In p (bk_pages b) /\ pholds b p x;
  f_src : good (bk_src b)
}.

Lemma finv_mono b hole skip cc cc' : cc <= cc' -> finv b hole skip cc -> finv b hole skip cc'.
Proof. intros H []. constructor; auto. intros x p Hs Ht (m & E & Hm). apply f_page0; auto. exists m. split; [auto|lia]. Qed.

Lemma finv_iff b hole hole' skip skip' cc : (forall k, hole k <-> hole' k) -> (forall x, skip x <-> skip' x) ->
  finv b hole skip cc -> finv b hole' skip' cc.
Proof.
  intros Hh Hs []. constructor; auto.
  - intros k Hk Hn'. apply f_core0; [auto|]. rewrite Hh. auto.
  - intros x k Hx Ht. destruct (f_entry0 x k) as (A & B & C); [rewrite Hs; auto|auto|]. split; [auto|]. split; [rewrite <- Hh; auto|auto].
  - intros x p Hx Ht. apply f_page0; [rewrite Hs; auto|auto].
Qed.

Lemma find_ok b f hole skip cc : finv b hole skip cc -> (forall x, 0 <= x < n -> exists t : bool, f x = Ok t) ->
  forall pages, incl pages (bk_pages b) ->
  exists r, find_page f (bk_pageid b) pages = Ok r /\
    match r with Some p => In p pages /\ exists x, pholds b p x /\ f x = Ok true | None => True end.
Proof.
  intros I Hf. induction pages as [|p pages IH]; intros Hi.
  - exists None. split; [reflexivity|exact Logic.I].
  - destruct (f_pages _ _ _ _ I p) as [x (Hx1 & Hx2 & Hx3)]; [apply Hi; left; auto|].
    cbn [find_page]. rewrite Hx1. cbn [bind]. destruct (Hf x Hx3) as [t Ht].
    rewrite Ht. cbn [bind]. destruct t.
    + exists (Some p). split; [reflexivity|]. split; [left; auto|]. exists x. split; [|auto]. repeat split; auto; lia.
    + destruct IH as (r & E & Hr); [intros q Hq; apply Hi; right; auto|]. exists r. split; [auto|].
      destruct r; [|auto]. destruct Hr as [H1 H2]. split; [right; auto|auto].
Qed.

Lemma sholds_slots b b' k x : bk_slots b' = bk_slots b -> sholds b k x -> sholds b' k x.
Proof. intros E H. unfold sholds in *. rewrite E. exact H. Qed.
Lemma pholds_same b b' p x : bk_pageid b' = bk_pageid b -> bk_file b' = bk_file b -> pholds b p x -> pholds b' p x.
Proof. intros E1 E2 H. unfold pholds in *. rewrite E1, E2. exact H. Qed.

(** Changing the table entry of a block. *)
Lemma entry_ok b hole skip cc x e : finv b hole skip cc -> 0 <= x < n ->
  exists b', put_table S b x e = Ok b' /\ finv b' hole (fun y => skip y \/ y = x) cc /\
  (forall y, rd (bk_table b') y = if y =? x then Ok e else rd (bk_table b) y) /\
  bk_core b' = bk_core b /\ bk_slots b' = bk_slots b /\ bk_pages b' = bk_pages b /\ bk_pageid b' = bk_pageid b /\ bk_file b' = bk_file b /\
  bk_src b' = bk_src b /\ bk_last b' = bk_last b.
Proof.
  intros [] Hx. unfold put_table. destruct (store_ok (bk_table b) x e) as (t & E & L & H); [lia|].
  rewrite E. cbn [bind]. eexists. split; [reflexivity|]. cbn.
  split; [|repeat (split; [reflexivity || exact H|]); reflexivity].
  constructor; cbn; auto; try congruence.
  - intros y k Hs. rewrite H. replace (y =? x) with false by (symmetry; apply Z.eqb_neq; tauto). intros Ht.
    destruct (f_entry0 y k) as (A & B & C); [tauto|auto|]. split; [auto|]. split; [auto|]. exact C.
  - intros y p Hs. rewrite H. replace (y =? x) with false by (symmetry; apply Z.eqb_neq; tauto). intros Ht Hl.
    destruct (f_page0 y p) as (A & B); [tauto|auto|auto|]. split; [auto|]. exact B.
Qed.

Lemma unskip_ok b hole skip cc x : finv b hole skip cc ->
  (forall k, rd (bk_table b) x = Ok (Some (PCore k)) -> In k (bk_core b) /\ ~ hole k /\ sholds b k x) ->
  (forall p, rd (bk_table b) x = Ok (Some (PPage p)) -> live cc x -> In p (bk_pages b) /\ pholds b p x) ->
  finv b hole (fun y => skip y /\ y <> x) cc.
Proof.
  intros [] H1 H2. constructor; auto.
  - intros y k Hs Ht. destruct (Z.eq_dec y x) as [->|]; [auto|]. apply f_entry0; [tauto|auto].
  - intros y p Hs Ht. destruct (Z.eq_dec y x) as [->|]; [auto|]. apply f_page0; [tauto|auto].
Qed.

Lemma weak_ok b hole (skip skip' : Z -> Prop) cc : (forall x, skip x -> skip' x) -> finv b hole skip cc -> finv b hole skip' cc.
Proof. intros H []. constructor; auto. Qed.

(** Storing a block in a page. *)
Lemma page_ok b hole skip cc x : finv b hole skip cc -> 0 <= x < n ->
  exists b', write_page_block S b x (Some (blk x)) cc = Ok b' /\ finv b' hole (fun y => skip y /\ y <> x) cc /\
    bk_slots b' = bk_slots b /\ bk_core b' = bk_core b /\ bk_src b' = bk_src b /\ bk_last b' = bk_last b /\
    (forall y, y <> x -> rd (bk_table b') y = rd (bk_table b) y) /\
    (exists p, rd (bk_table b') x = Ok (Some (PPage p))).
Proof.
  intros I Hx. pose proof I as I'. destruct I'. unfold write_page_block.
  assert (Hmain : forall c p, finv c hole (fun y => skip y \/ y = x) cc -> bk_table c = bk_table b -> bk_slots c = bk_slots b ->
            bk_core c = bk_core b -> bk_src c = bk_src b -> bk_last c = bk_last b -> In p (bk_pages c) -> pholds c p x ->
            exists b', put_table S c x (Some (PPage p)) = Ok b' /\ finv b' hole (fun y => skip y /\ y <> x) cc /\
    bk_slots b' = bk_slots b /\ bk_core b' = bk_core b /\ bk_src b' = bk_src b /\ bk_last b' = bk_last b /\
    (forall y, y <> x -> rd (bk_table b') y = rd (bk_table b) y) /\
    (exists p, rd (bk_table b') x = Ok (Some (PPage p)))).
  { intros c p Ic Tc Sc Cc Rc Lc Hp Hpx.
    destruct (entry_ok c hole _ cc x (Some (PPage p)) Ic Hx) as (b' & E' & I2 & T2 & C2 & S2 & P2 & Q2 & F2 & R2 & L2).
    exists b'. split; [exact E'|]. split.
    { eapply finv_iff; [| |eapply (unskip_ok b' _ _ _ x I2)].
      - tauto.
      - intros y. cbn beta. tauto.
      - intros k Hk. rewrite T2, Z.eqb_refl in Hk. congruence.
      - intros q Hq _. rewrite T2, Z.eqb_refl in Hq. assert (q = p) by congruence. subst q.
        rewrite P2. split; [auto|]. eapply pholds_same; eauto. }
    split; [congruence|]. split; [congruence|]. split; [congruence|]. split; [congruence|]. split.
    - intros y Hy. rewrite T2. replace (y =? x) with false by lia. congruence.
    - exists p. rewrite T2, Z.eqb_refl. reflexivity. }
  destruct (find_ok b (fun i => Ok (i =? x)) hole skip cc I) with (pages := bk_pages b) as (r & E & Hr); [eauto|apply incl_refl|].
  rewrite E. cbn [bind]. destruct r as [p|].
  - destruct Hr as (Hp & y & Hy & Hyx). assert (y = x) by (injection Hyx; lia). subst y. clear Hyx.
    apply Hmain; auto. eapply weak_ok; [|exact I]. auto.
  - destruct (find_ok b (fun i => m <- rd (bk_max b) i;; Ok (m <? cc)) hole skip cc I) with (pages := bk_pages b) as (r & E2 & Hr2); [|apply incl_refl|].
    { intros z Hz. destruct (rd_some (bk_max b) z) as [m Em]; [rewrite f_max0; lia|]. rewrite Em. cbn [bind]. eauto. }
    rewrite E2. cbn [bind]. destruct r as [p|].
    + destruct Hr2 as (Hp & y & (Hy1 & Hy2 & Hy3) & Hy).
      destruct (rd (bk_max b) y) as [m| | |] eqn:Em; try discriminate. cbn [bind] in Hy.
      assert (Hm : m < cc) by (injection Hy; lia).
      destruct (store_ok (bk_pageid b) (Z.of_nat p) x) as (ids & Ei & Li & Hi); [eapply rd_in_bounds; eauto|].
      destruct (store_ok (bk_file b) (Z.of_nat p) (blk x)) as (file & Ef & Lf & Hf); [eapply rd_in_bounds; eauto|].
      rewrite Ei, Ef. cbn [bind]. set (c := set_pages S b (bk_pages b) ids file).
      assert (Hpp : forall q z, pholds b q z -> q <> p -> pholds c q z).
      { intros q z (H1 & H2 & H3) Hq. unfold pholds. cbn. rewrite Hi, Hf. replace (Z.of_nat q =? Z.of_nat p) with false by lia. auto. }
      assert (Hpx : pholds c p x).
      { unfold pholds. cbn. rewrite Hi, Hf, Z.eqb_refl. auto. }
      apply Hmain; auto. constructor; cbn; auto; try congruence.
      * intros q Hq. destruct (Nat.eq_dec q p) as [->|Hne]; [eauto|]. destruct (f_pages0 q Hq) as [z Hz]. eauto.
      * intros z k Hs Ht. destruct (f_entry0 z k) as (A & B & C); [tauto|auto|]. split; [auto|]. split; [auto|]. exact C.
      * intros z q Hs Ht Hl. destruct (f_page0 z q) as [H1 H2]; [tauto|auto|auto|]. split; [auto|]. apply Hpp; [auto|].
        intros ->. destruct H2 as (H2 & _). assert (z = y) by congruence. subst z. destruct Hl as (m' & Em' & Hm').
        rewrite f_max0 in Em. assert (m' = m) by congruence. lia.
    + set (p := length (bk_pageid b)). set (c := set_pages S b _ _ _).
      assert (Hpp : forall q z, pholds b q z -> pholds c q z).
      { intros q z (H1 & H2 & H3). unfold pholds. cbn. rewrite !rd_app.
        pose proof (rd_in_bounds _ _ _ H1). pose proof (rd_in_bounds _ _ _ H2). rewrite f_files0.
        replace (Z.of_nat q =? zlen (bk_pageid b)) with false by lia. auto. }
      assert (Hpx : pholds c p x).
      { unfold pholds. cbn. rewrite !rd_app, f_files0. unfold zlen, p. rewrite Z.eqb_refl. auto. }
      apply Hmain; auto; [|left; reflexivity]. constructor; cbn; auto; try congruence.
      * intros q [<-|Hq]; [eauto|]. destruct (f_pages0 q Hq) as [z Hz]. eauto.
      * rewrite !zlen_app. change (zlen [blk x]) with 1. change (zlen [x]) with 1. lia.
      * intros z k Hs Ht. destruct (f_entry0 z k) as (A & B & C); [tauto|auto|]. split; [auto|]. split; [auto|]. exact C.
      * intros z q Hs Ht Hl. destruct (f_page0 z q) as [H1 H2]; [tauto|auto|auto|]. split; [right; auto|auto].
Qed.

(** ** Core blocks *)
Lemma sholds_lt b k x : sholds b k x -> (k < length (bk_slots b))%nat.
Proof. intros (t & _ & H & _). apply rd_in_bounds in H. unfold zlen in H. lia. Qed.

Lemma fresh_ok b hole skip cc : finv b hole skip cc ->
  exists b' k, new_core_block S b = (b', k) /\
  finv b' (fun j => hole j \/ j = k) skip cc /\ k = length (bk_slots b) /\ In k (bk_core b') /\ zlen (bk_slots b') = zlen (bk_slots b) + 1 /\
  bk_table b' = bk_table b /\ (forall j, In j (bk_core b) -> In j (bk_core b')) /\ bk_src b' = bk_src b /\ bk_last b' = bk_last b.
Proof.
  intros []. unfold new_core_block. set (k := length (bk_slots b)).
  set (b' := set_lists _ _ _ _). exists b', k.
  assert (Hh : forall j x, sholds b j x -> sholds b' j x).
  { intros j x H. pose proof (sholds_lt _ _ _ H). destruct H as (t & H1 & H2 & H3). exists t. split; [auto|]. split; [|auto].
    cbn. rewrite rd_app. unfold zlen. replace (Z.of_nat j =? _) with false by lia. auto. }
  split; [reflexivity|]. split; [|split; [reflexivity|split; [left; reflexivity|split; [|split; [reflexivity|split]]]]].
  - constructor; cbn; auto.
    + intros j [<-|Hj] Hnj; [exfalso; apply Hnj; auto|]. destruct (f_core0 j Hj) as [x Hx]; [tauto|]. eauto.
    + intros j Hj. rewrite app_length in Hj. cbn [length] in Hj. destruct (Nat.eq_dec j k); [left; auto|]. right. apply f_slots0. lia.
    + intros x j Hs Ht. destruct (f_entry0 x j Hs Ht) as (H1 & H2 & H3). split; [right; auto|].
      pose proof (sholds_lt _ _ _ H3). split; [|auto]. intros [?|?]; [tauto|lia].
  - cbn. rewrite zlen_app. reflexivity.
  - intros j Hj. right. auto.
  - auto.
Qed.

(** Filling a slot. *)
Lemma fillslot_ok b hole skip cc k x t : finv b hole skip cc -> hole k -> (k < length (bk_slots b))%nat -> 0 <= x < n -> t <> BFree ->
  exists b', put_slot S b k (mksl t (Some x) (Some (blk x))) = Ok b' /\
  finv b' (fun j => hole j /\ j <> k) skip cc /\ sholds b' k x /\
  bk_table b' = bk_table b /\ bk_core b' = bk_core b /\ length (bk_slots b') = length (bk_slots b) /\
  bk_src b' = bk_src b /\ bk_last b' = bk_last b.
Proof.
  intros I Hk Hlt Hx Hty. destruct I. unfold put_slot.
  destruct (store_ok (bk_slots b) (Z.of_nat k) (mksl t (Some x) (Some (blk x)))) as (sl & E & L & H); [unfold zlen; lia|].
  rewrite E. cbn [bind]. eexists. split; [reflexivity|]. set (b' := set_slots S b sl).
  assert (Hkx : sholds b' k x) by (exists t; split; [auto|]; split; [cbn; rewrite H, Z.eqb_refl; reflexivity|exact Hx]).
  assert (Hh : forall j y, j <> k -> sholds b j y -> sholds b' j y).
  { intros j y Hj (u & H1 & H2 & H3). exists u. split; [auto|]. split; [|auto]. cbn. rewrite H. replace (Z.of_nat j =? _) with false by lia. auto. }
  split; [|split; [exact Hkx|split; [reflexivity|split; [reflexivity|split; [cbn; unfold zlen in L; lia|split; reflexivity]]]]].
  constructor; cbn; auto.
  + intros j Hj Hnj. destruct (Nat.eq_dec j k) as [->|Hne]; [eauto|]. destruct (f_core0 j Hj) as [y Hy]; [tauto|]. eauto.
  + intros j Hj. apply f_slots0. unfold zlen in L. lia.
  + intros y j Hs Ht. destruct (f_entry0 y j Hs Ht) as (H1 & H2 & H3). split; [auto|]. split; [tauto|]. apply Hh; [|auto]. intros ->. tauto.
Qed.

(** Marking a slot as being refilled. *)
Lemma clearslot_ok b hole skip cc k s : finv b hole skip cc -> (k < length (bk_slots b))%nat ->
  (forall x, ~ skip x -> rd (bk_table b) x <> Ok (Some (PCore k))) ->
  exists b', put_slot S b k s = Ok b' /\ finv b' (fun j => hole j \/ j = k) skip cc /\
  bk_table b' = bk_table b /\ bk_core b' = bk_core b /\ length (bk_slots b') = length (bk_slots b) /\
  bk_src b' = bk_src b /\ bk_last b' = bk_last b.
Proof.
  intros [] Hlt Hx. unfold put_slot.
  destruct (store_ok (bk_slots b) (Z.of_nat k) s) as (sl & E & L & H); [unfold zlen; lia|].
  rewrite E. cbn [bind]. eexists. split; [reflexivity|]. set (b' := set_slots S b sl).
  assert (Hh : forall j y, j <> k -> sholds b j y -> sholds b' j y).
  { intros j y Hj (u & H1 & H2 & H3). exists u. split; [auto|]. split; [|auto]. cbn. rewrite H. replace (Z.of_nat j =? _) with false by lia. auto. }
  split; [|split; [reflexivity|split; [reflexivity|split; [cbn; unfold zlen in L; lia|split; reflexivity]]]].
  constructor; cbn; auto.
  - intros j Hj Hnj. destruct (f_core0 j Hj) as [y Hy]; [tauto|]. exists y. apply Hh; [tauto|auto].
  - intros j Hj. apply f_slots0. unfold zlen in L. lia.
  - intros y j Hs Ht. destruct (f_entry0 y j Hs Ht) as (H1 & H2 & H3).
    assert (j <> k) by (intros ->; apply (Hx y Hs); auto). split; [auto|]. split; [tauto|]. apply Hh; auto.
Qed.

Lemma evict_any b skip cc id : finv b (fun _ => False) skip cc ->
  forall core, incl core (bk_core b) -> exists r, evict S b id cc core = Ok r /\
  match r with
  | None => True
  | Some (k, i, l) => In k core /\ sholds b k i /\ (forall j, In j core -> j = k \/ In j l) /\ incl l core
  end.
Proof.
  intros I. induction core as [|k core IH]; intros Hi; cbn [evict]; [exists None; split; [reflexivity|exact Logic.I]|].
  destruct (f_core _ _ _ _ I k) as [x (t & Ht & Hx1 & Hx2)]; [apply Hi; left; auto|tauto|].
  unfold slot_at. rewrite Hx1. cbn [bind slot_id sl_id].
  destruct (rd_some max x) as [m Em]; [lia|].
  rewrite (f_max _ _ _ _ I), Em. cbn [bind].
  destruct ((m <? cc) || ((x <? id) && (m =? cc))) eqn:E.
  - eexists. split; [reflexivity|]. cbn. split; [auto|]. split; [exists t; auto|]. split; [intros j [<-|Hj]; auto|]. intros j Hj; right; auto.
  - destruct IH as (r & Er & Hr); [intros j Hj; apply Hi; right; auto|]. rewrite Er. cbn [bind]. eexists. split; [reflexivity|].
    destruct r as [[[k' i'] l']|]; [|auto]. destruct Hr as (H1 & H2 & H3 & H4). split; [right; auto|]. split; [auto|].
    split; [intros j [<-|Hj]; [right; left; auto|destruct (H3 j Hj); [auto|right; right; auto]]|].
    intros j [<-|Hj]; [left; auto|right; auto].
Qed.

(** A table entry that is removed needs nothing. *)
Lemma drop_ok b hole skip cc x : finv b hole skip cc -> 0 <= x < n ->
  exists b', put_table S b x None = Ok b' /\ finv b' hole (fun y => skip y /\ y <> x) cc /\
  (forall y, rd (bk_table b') y = if y =? x then Ok None else rd (bk_table b) y) /\
  bk_core b' = bk_core b /\ bk_slots b' = bk_slots b /\ bk_src b' = bk_src b /\ bk_last b' = bk_last b.
Proof.
  intros I Hx. destruct (entry_ok b hole skip cc x None I Hx) as (b' & E & I2 & T2 & C2 & S2 & P2 & Q2 & F2 & R2 & L2).
  exists b'. split; [auto|]. split; [|auto]. eapply finv_iff; [| |eapply (unskip_ok b' _ _ _ x I2)].
  - tauto.
  - intros y. cbn beta. tauto.
  - intros k Hk. rewrite T2, Z.eqb_refl in Hk. congruence.
  - intros k Hk. rewrite T2, Z.eqb_refl in Hk. congruence.
Qed.

Lemma core_any b cc id : finv b (fun _ => False) (fun _ => False) cc -> 0 <= id < n ->
  exists b' k, core_block S capacity b id cc = Ok (b', k) /\ finv b' (fun j => j = k) (fun _ => False) cc /\
  In k (bk_core b') /\ (k < length (bk_slots b'))%nat /\ bk_src b' = bk_src b.
Proof.
  intros I Hid. unfold core_block, get_free_core_block. rewrite (f_free _ _ _ _ I).
  set (room := core_count S b <? capacity).
  set (b1 := if room then set_clean S b (u64 (bk_clean b + 1)) else b).
  assert (I1 : finv b1 (fun _ => False) (fun _ => False) cc).
  { unfold b1. destruct room; [|auto]. destruct I. constructor; auto. }
  assert (Hr1 : bk_src b1 = bk_src b) by (unfold b1; destruct room; reflexivity).
  assert (Hnew : forall c, finv c (fun _ => False) (fun _ => False) cc -> bk_src c = bk_src b ->
    exists b' k, Ok (new_core_block S c) = Ok (b', k) /\ finv b' (fun j => j = k) (fun _ => False) cc /\
    In k (bk_core b') /\ (k < length (bk_slots b'))%nat /\ bk_src b' = bk_src b).
  { intros c Ic Hr. destruct (fresh_ok c _ _ _ Ic) as (b' & k & E & J1 & J2 & J3 & J4 & J5 & J6 & J7 & J8).
    exists b', k. rewrite E. split; [reflexivity|]. split; [eapply finv_iff; [| |exact J1]; tauto|].
    split; [auto|]. split; [unfold zlen in J4; lia|]. congruence. }
  cbv zeta. destruct (room && negb (bk_clean b1 mod 8 =? 0)).
  { apply Hnew; auto. }
  destruct (evict_any b1 _ _ id I1 (bk_core b1) (incl_refl _)) as (r & Er & Hr). rewrite Er. cbn [bind].
  destruct r as [[[k i] l]|].
  - destruct Hr as (Hk & Hki & Hl & Hlin). pose proof Hki as (ty & Hty & Hks & Hir).
    unfold slot_at. rewrite Hks. cbn [bind sl_id sl_data].
    unfold put_table. destruct (store_ok (bk_table b1) i (@None ptr)) as (t & Et & Lt & Ht); [rewrite (f_table _ _ _ _ I1); lia|].
    cbn [set_lists bk_table]. rewrite Et. cbn [bind].
    unfold put_slot. cbn [set_tab set_lists bk_slots].
    destruct (store_ok (bk_slots b1) (Z.of_nat k) (mksl BFree (Some i) (Some (blk i)))) as (sl & Es & Ls & Hsl); [eapply rd_in_bounds; eauto|].
    rewrite Es. cbn [bind set_slots bk_free]. rewrite (f_free _ _ _ _ I1).
    eexists _, k. split; [reflexivity|].
    set (b' := set_lists _ _ _ _).
    assert (Hh : forall j y, j <> k -> sholds b1 j y -> sholds b' j y).
    { intros j y Hj (u & H1 & H2 & H3). exists u. split; [auto|]. split; [|auto]. cbn. rewrite Hsl. replace (Z.of_nat j =? _) with false by lia. auto. }
    split; [|split; [left; reflexivity|split]].
    + destruct I1. constructor; cbn; auto; try congruence.
      * intros j [<-|Hj] Hne; [tauto|]. destruct (f_core0 j) as [y Hy]; [apply Hlin; auto|auto|]. eauto.
      * intros j Hj. unfold zlen in Ls. destruct (Hl j) as [->|]; [apply f_slots0; lia|left; auto|right; auto].
      * intros x j Hs Hx. rewrite Ht in Hx. destruct (x =? i) eqn:Exi; [congruence|].
        destruct (f_entry0 x j Hs Hx) as (H1 & H2 & H3). assert (j <> k).
        { intros ->. destruct H3 as (u & _ & H3 & _). rewrite Hks in H3. injection H3 as H3 H4. lia. }
        split; [right; destruct (Hl j H1); [tauto|auto]|]. split; [auto|]. apply Hh; auto.
      * intros x p Hs Hx. rewrite Ht in Hx. destruct (x =? i) eqn:Exi; [congruence|]. apply f_page0; auto.
    + cbn. pose proof (rd_in_bounds _ _ _ Hks). unfold zlen in *. lia.
    + exact Hr1.
  - clear Hr Er. cbn [bind]. rewrite (f_free _ _ _ _ I1).
    destruct (core_count S b1 <? capacity) eqn:Ec; [apply Hnew; auto|].
    destruct (rev (bk_core b1)) as [|k front] eqn:Erev.
    { exfalso. assert (Hin : In 0%nat (bk_core b1)).
      { apply (f_slots _ _ _ _ I1). unfold core_count, zlen in Ec. lia. }
      apply (f_equal (@rev nat)) in Erev. rewrite rev_involutive in Erev. rewrite Erev in Hin. destruct Hin. }
    assert (Ecore : bk_core b1 = rev front ++ [k]).
    { apply (f_equal (@rev nat)) in Erev. rewrite rev_involutive in Erev. cbn [rev] in Erev. auto. }
    assert (Hperm : forall j, In j (k :: rev front) <-> In j (bk_core b1)).
    { intros j. rewrite Ecore, in_app_iff. cbn [In]. tauto. }
    destruct (f_core _ _ _ _ I1 k) as [i (ty & Hty & Hks & Hir)]; [apply Hperm; left; auto|tauto|].
    set (b2 := set_lists S b1 (k :: rev front) []).
    assert (I2 : finv b2 (fun _ => False) (fun _ => False) cc).
    { destruct I1. constructor; cbn; auto.
      - intros j Hj _. destruct (f_core0 j) as [y Hy]; [apply Hperm; exact Hj|tauto|]. exists y. exact Hy.
      - intros j Hj. apply (Hperm j). auto.
      - intros x j Hs Hx. destruct (f_entry0 x j Hs Hx) as (H1 & H2 & H3). split; [apply (Hperm j); auto|auto]. }
    rewrite (f_free _ _ _ _ I1). fold b2.
    change (slot_at S b2 k) with (rd (bk_slots b1) (Z.of_nat k)). rewrite Hks. cbn [bind slot_id sl_id sl_type sl_data].
    assert (H3 : exists b3, match ty with BCore => write_page_block S b2 i (Some (blk i)) cc | _ => put_table S b2 i None end = Ok b3 /\
              finv b3 (fun _ => False) (fun _ => False) cc /\ bk_slots b3 = bk_slots b1 /\ bk_core b3 = bk_core b2 /\ bk_src b3 = bk_src b /\
              (forall j, rd (bk_table b3) i <> Ok (Some (PCore j)))).
    { destruct ty; [congruence| |].
      - destruct (page_ok b2 _ _ _ i I2 Hir) as (b3 & E3 & I3 & Hs3 & Hc3 & Hr3 & _ & T3 & (p & P3)). exists b3. split; [auto|].
        split; [eapply finv_iff; [| |exact I3]; tauto|]. split; [auto|]. split; [auto|]. split; [rewrite Hr3; exact Hr1|]. congruence.
      - destruct (drop_ok b2 _ _ _ i I2 Hir) as (b3 & E3 & I3 & T3 & Hc3 & Hs3 & Hr3 & _). exists b3. split; [auto|].
        split; [eapply finv_iff; [| |exact I3]; tauto|]. split; [auto|]. split; [auto|]. split; [rewrite Hr3; exact Hr1|].
        intros j. rewrite T3, Z.eqb_refl. congruence. }
    destruct H3 as (b3 & E3 & I3 & Hs3 & Hc3 & Hr3 & T3). rewrite E3. cbn [bind].
    destruct (clearslot_ok b3 _ _ _ k (mksl BFree (Some i) (Some (blk i))) I3) as (b4 & E4 & I4 & T4 & C4 & L4 & R4 & _).
    { rewrite Hs3. pose proof (rd_in_bounds _ _ _ Hks). unfold zlen in *. lia. }
    { intros x Hs Et. destruct (f_entry _ _ _ _ I3 x k Hs Et) as (_ & _ & (u & _ & H4 & _)).
      rewrite Hs3, Hks in H4. injection H4 as _ H4 _. subst x. eapply T3; eauto. }
    rewrite E4. cbn [bind]. exists b4, k. split; [reflexivity|].
    split; [eapply finv_iff; [| |exact I4]; tauto|].
    split; [rewrite C4, Hc3; left; auto|]. split; [rewrite L4, Hs3; pose proof (rd_in_bounds _ _ _ Hks); unfold zlen in *; lia|]. congruence.
Qed.

(** Storing a block made on the way. *)
Lemma push_any b cc k x skip : finv b (fun j => j = k) skip cc -> In k (bk_core b) -> sholds b k x ->
  exists b', push_block S capacity b k cc = Ok b' /\ finv b' (fun j => j = k) (fun y => skip y /\ y <> x) cc /\
  In k (bk_core b') /\ (length (bk_slots b) <= length (bk_slots b'))%nat /\ bk_src b' = bk_src b /\
  (forall y, y <> x -> rd (bk_table b') y = rd (bk_table b) y).
Proof.
  intros I Hk (ty & Hty & Hkx & Hxr). unfold push_block, slot_at. rewrite Hkx. cbn [bind slot_id sl_id].
  unfold get_free_core_block. rewrite (f_free _ _ _ _ I).
  destruct (core_count S b <? capacity).
  - destruct (fresh_ok b _ _ _ I) as (b1 & m & E1 & I1 & Hm & Hin & Hlen & T1 & C1 & R1 & _).
    rewrite E1. destruct (fillslot_ok b1 _ _ _ m x ty I1) as (b2 & E2 & I2 & H2 & T2 & C2 & L2 & R2 & _); [auto|unfold zlen in Hlen; lia|lia|auto|].
    rewrite E2. cbn [bind].
    destruct (entry_ok b2 _ _ _ x (Some (PCore m)) I2) as (b3 & E3 & I3 & T3 & C3 & S3 & _ & _ & _ & R3 & _); [lia|].
    rewrite E3. exists b3. split; [reflexivity|].
    assert (Hmk : m <> k).
    { intros ->. apply rd_in_bounds in Hkx. unfold zlen in Hkx. lia. }
    split.
    { eapply finv_iff; [| |eapply (unskip_ok b3 _ _ _ x I3)].
      - intros j. cbn beta. split; [intros [[?|?] ?]; [auto|congruence]|intros ->; split; [auto|congruence]].
      - intros y. cbn beta. tauto.
      - intros j Hj. rewrite T3, Z.eqb_refl in Hj. assert (j = m) by congruence. subst j. split; [rewrite C3, C2; auto|].
        split; [tauto|]. eapply sholds_slots; eauto.
      - intros p Hp. rewrite T3, Z.eqb_refl in Hp. congruence. }
    split; [rewrite C3, C2; auto|]. split; [rewrite S3, L2; unfold zlen in Hlen; lia|].
    split; [congruence|]. intros y Hy. rewrite T3, T2, T1. replace (y =? x) with false by lia. reflexivity.
  - cbn [sl_type sl_data]. destruct ty; [congruence| |].
    + destruct (page_ok b _ _ _ x I Hxr) as (b3 & E3 & I3 & Hs3 & Hc3 & Hr3 & _ & T3 & _).
      rewrite E3. exists b3. split; [reflexivity|]. split; [exact I3|].
      split; [congruence|]. split; [rewrite Hs3; lia|]. auto.
    + destruct (drop_ok b _ _ _ x I Hxr) as (b3 & E3 & I3 & T3 & Hc3 & Hs3 & Hr3 & _).
      rewrite E3. exists b3. split; [reflexivity|]. split; [exact I3|].
      split; [congruence|]. split; [rewrite Hs3; lia|]. split; [auto|]. intros y Hy. rewrite T3. replace (y =? x) with false by lia. reflexivity.
Qed.

(** A block that stays for the moment in the slot that is being filled. *)
Lemma keep_slot b skip cc k x t : finv b (fun j => j = k) skip cc -> (k < length (bk_slots b))%nat -> 0 <= x < n -> t <> BFree ->
  exists b', put_slot S b k (mksl t (Some x) (Some (blk x))) = Ok b' /\ finv b' (fun j => j = k) skip cc /\ sholds b' k x /\
  bk_table b' = bk_table b /\ bk_core b' = bk_core b /\ length (bk_slots b') = length (bk_slots b) /\ bk_src b' = bk_src b /\ bk_rid b' = bk_rid b.
Proof.
  intros I Hlt Hx Ht.
  destruct (clearslot_ok b _ _ _ k (mksl t (Some x) (Some (blk x))) I Hlt) as (b' & E & I' & T & C & L & R & _).
  { intros y Hs Hy. destruct (f_entry _ _ _ _ I y k Hs Hy) as (_ & H & _). apply H. reflexivity. }
  exists b'. split; [exact E|]. split; [eapply finv_iff; [| |exact I']; tauto|].
  unfold put_slot in E. destruct (store_ok (bk_slots b) (Z.of_nat k) (mksl t (Some x) (Some (blk x)))) as (sl & Es & Ls & Hs); [unfold zlen; lia|].
  rewrite Es in E. cbn [bind] in E. injection E as <-.
  split; [exists t; split; [auto|]; split; [cbn; rewrite Hs, Z.eqb_refl; reflexivity|exact Hx]|]. auto 6.
Qed.

(** The wanted block stored in the slot. *)
Lemma final_fill b k id cc t : finv b (fun j => j = k) (fun y => y = id) cc -> In k (bk_core b) -> (k < length (bk_slots b))%nat ->
  rd (bk_table b) id = Ok (Some (PCore k)) -> 0 <= id < n -> t <> BFree ->
  exists b', put_slot S b k (mksl t (Some id) (Some (blk id))) = Ok b' /\
  finv b' (fun _ => False) (fun _ => False) cc /\ In k (bk_core b') /\ sholds b' k id.
Proof.
  intros I1 Hk Hlt Ht Hid Hty.
  destruct (fillslot_ok _ _ _ _ k id t I1) as (b3 & E3 & I3 & H3 & T3 & C3 & L3 & R3 & _); [auto|auto|auto|auto|].
  exists b3. split; [exact E3|]. assert (Hc3 : In k (bk_core b3)) by (rewrite C3; exact Hk). split; [|auto].
  eapply finv_iff; [| |eapply (unskip_ok b3 _ _ _ id I3)].
  - cbn beta. tauto.
  - intros y. cbn beta. tauto.
  - intros j Hj. rewrite T3 in Hj. assert (j = k) by congruence. subst j. split; [auto|]. split; [tauto|auto].
  - intros p Hp. rewrite T3 in Hp. congruence.
Qed.

(** A block that is just stored in the slot. *)
Lemma plain_fill b k id cc s' : finv b (fun j => j = k) (fun y => y = id) cc -> In k (bk_core b) -> (k < length (bk_slots b))%nat ->
  rd (bk_table b) id = Ok (Some (PCore k)) -> 0 <= id < n -> good s' ->
  exists b', put_slot S (set_src S b (bk_rid b) s') k (mksl BNopage (Some id) (Some (blk id))) = Ok b' /\
  finv b' (fun _ => False) (fun _ => False) cc /\ In k (bk_core b') /\ sholds b' k id.
Proof.
  intros I Hk Hlt Ht Hid Hg. apply final_fill; auto; [|discriminate]. destruct I. constructor; auto.
Qed.

(** ** Getting blocks *)
Hypothesis fill_any : forall b k id cc, finv b (fun j => j = k) (fun y => y = id) cc -> In k (bk_core b) -> (k < length (bk_slots b))%nat ->
  rd (bk_table b) id = Ok (Some (PCore k)) -> 0 <= id < n -> live cc id ->
  exists b', fill b k id cc = Ok b' /\ finv b' (fun _ => False) (fun _ => False) cc /\ In k (bk_core b') /\ sholds b' k id.

Lemma get_any b cc id : finv b (fun _ => False) (fun _ => False) cc -> 0 <= id < n -> live cc id ->
  exists b' k, get_block S capacity fill b id cc = Ok (b', k) /\ finv b' (fun _ => False) (fun _ => False) cc /\
  In k (bk_core b') /\ sholds b' k id.
Proof.
  intros I Hid Hlive.
  unfold get_block. destruct (rd_some (bk_table b) id) as [p Ep]; [rewrite (f_table _ _ _ _ I); lia|]. rewrite Ep. cbn [bind].
  assert (Hcases : (exists k, p = Some (PCore k)) \/ (forall k, p <> Some (PCore k))) by (destruct p as [[k|q]|]; [eauto|right; congruence|right; congruence]).
  destruct Hcases as [(k & ->)|Hno].
  { destruct (f_entry _ _ _ _ I id k) as (H1 & H2 & (t & H3 & H4 & H5)); [tauto|auto|].
    unfold slot_at. rewrite H4. cbn [bind sl_type]. exists b, k.
    destruct t; [congruence| |]; (split; [reflexivity|]; split; [auto|]; split; [auto|]; eexists; repeat split; eauto; lia). }
  assert (Eh : (match p with Some (PCore k) => s <- slot_at S b k;; Ok (match sl_type s with BFree => None | _ => Some k end) | _ => Ok None end) = Ok None).
  { destruct p as [[k|q]|]; [exfalso; eapply Hno; eauto|reflexivity|reflexivity]. }
  rewrite Eh. cbn [bind].
  destruct (core_any b cc id I Hid) as (b1 & k & E1 & I1 & C1 & L1 & R1). rewrite E1. cbn [bind].
  destruct (rd_some (bk_table b1) id) as [p1 Ep1]; [rewrite (f_table _ _ _ _ I1); lia|]. rewrite Ep1. cbn [bind].
  destruct (entry_ok b1 _ _ _ id (Some (PCore k)) I1) as (b2 & E2 & I2 & T2 & C2 & S2 & P2 & Q2 & F2 & R2 & _); [lia|].
  rewrite E2. cbn [bind].
  assert (Hfill : exists b' k0, (b0 <- fill b2 k id cc;; Ok (b0, k)) = Ok (b', k0) /\ finv b' (fun _ => False) (fun _ => False) cc /\ In k0 (bk_core b') /\ sholds b' k0 id).
  { destruct (fill_any b2 k id cc) as (b3 & E3 & I3 & C3 & H3); auto.
    - eapply finv_iff; [| |exact I2]; tauto.
    - congruence.
    - congruence.
    - rewrite T2, Z.eqb_refl. reflexivity.
    - rewrite E3. cbn [bind]. exists b3, k. auto. }
  destruct p1 as [[j|q]|]; [exact Hfill| |exact Hfill].
  destruct (f_page _ _ _ _ I1 id q) as (H1 & H2 & H3 & H4); [tauto|auto|auto|].
  rewrite Q2, H2, F2, H3. cbn [bind].
  assert (I2' : finv b2 (fun j => j = k) (fun y => y = id) cc) by (eapply finv_iff; [| |exact I2]; tauto).
  destruct (fillslot_ok b2 _ _ _ k id BCore I2') as (b3 & E3 & I3 & H3' & T3 & C3 & L3 & _); [auto|congruence|auto|congruence|].
  rewrite E3. cbn [bind].
  destruct (entry_ok b3 _ _ _ id (Some (PCore k)) I3) as (b4 & E4 & I4 & T4 & C4 & S4 & _); [lia|].
  rewrite E4. cbn [bind]. exists b4, k. split; [reflexivity|].
  assert (Hk4 : sholds b4 k id) by (eapply sholds_slots; eauto).
  assert (Hc4 : In k (bk_core b4)) by (rewrite C4, C3, C2; auto).
  split; [|auto].
  eapply finv_iff; [| |eapply (unskip_ok b4 _ _ _ id I4)].
  - tauto.
  - intros y. cbn beta. split; [intros [[?|?] ?]; congruence|tauto].
  - intros j Hj. rewrite T4, Z.eqb_refl in Hj. assert (j = k) by congruence. subst j. split; [auto|]. split; [tauto|auto].
  - intros r Hr. rewrite T4, Z.eqb_refl in Hr. congruence.
Qed.

(** With the last block. *)
Definition dinv (b : st) (cc : Z) : Prop :=
  finv b (fun _ => False) (fun _ => False) cc /\
  match bk_last b with None => True | Some (PCore k) => In k (bk_core b) | Some (PPage _) => False end.

Lemma next_any b cc id offset len : dinv b cc -> 0 <= id < n -> live cc id ->
  zlen (blk id) = BLOCK_SIZE -> 0 <= len < 2 ^ 32 -> 
  let off := offset mod BLOCK_SIZE in
  exists b', blocks_next S capacity fill b offset len cc id = Ok (b', slice (blk id) off (Z.min len (BLOCK_SIZE - off))) /\ dinv b' cc.
Proof.
  intros [I Hl] Hid Hlive Hz Hlen off.
  assert (Hoff : 0 <= off < BLOCK_SIZE) by (apply Z.mod_pos_bound; reflexivity). unfold BLOCK_SIZE in *.
  unfold blocks_next.
  assert (Hfin : forall b' k, finv b' (fun _ => False) (fun _ => False) cc -> In k (bk_core b') -> bk_last b' = Some (PCore k) -> sholds b' k id ->
    exists b'', (s <- slot_at S b' k ;; d <- slot_data s ;;
                 x <- rd_range d (offset mod BLOCK_SIZE) (if BLOCK_SIZE <? u64 (offset mod BLOCK_SIZE + len) then BLOCK_SIZE - offset mod BLOCK_SIZE else len) ;;
                 Ok (b', x)) = Ok (b'', slice (blk id) off (Z.min len (8192 - off))) /\ dinv b'' cc).
  { intros b' k I' Hk Hl' (t & _ & Hs & _). unfold slot_at. rewrite Hs. cbn [bind slot_data sl_data]. unfold BLOCK_SIZE. fold off.
    rewrite u64_small by lia.
    replace (if 8192 <? off + len then 8192 - off else len) with (Z.min len (8192 - off)) by (destruct (8192 <? off + len) eqn:?; lia).
    rewrite rd_range_in by lia. cbn [bind]. exists b'. split; [reflexivity|]. split; [auto|]. rewrite Hl'. auto. }
  destruct (rd_some (bk_table b) id) as [p Ep]; [rewrite (f_table _ _ _ _ I); lia|].
  assert (Hget : exists b'', ('(c, k) <- match p with Some (PCore k) => Ok (set_last S b (Some (PCore k)), k)
                                         | _ => '(b, k) <- get_block S capacity fill b id cc ;; Ok (set_last S b (Some (PCore k)), k) end ;;
               s <- slot_at S c k ;; d <- slot_data s ;;
               x <- rd_range d (offset mod BLOCK_SIZE) (if BLOCK_SIZE <? u64 (offset mod BLOCK_SIZE + len) then BLOCK_SIZE - offset mod BLOCK_SIZE else len) ;;
               Ok (c, x)) = Ok (b'', slice (blk id) off (Z.min len (8192 - off))) /\ dinv b'' cc).
  { assert (Hgb : exists b'', ('(c, k) <- ('(b, k) <- get_block S capacity fill b id cc ;; Ok (set_last S b (Some (PCore k)), k)) ;;
               s <- slot_at S c k ;; d <- slot_data s ;;
               x <- rd_range d (offset mod BLOCK_SIZE) (if BLOCK_SIZE <? u64 (offset mod BLOCK_SIZE + len) then BLOCK_SIZE - offset mod BLOCK_SIZE else len) ;;
               Ok (c, x)) = Ok (b'', slice (blk id) off (Z.min len (8192 - off))) /\ dinv b'' cc).
    { destruct (get_any b cc id I Hid Hlive) as (b' & k' & E' & I' & C' & H'). rewrite E'. cbn [bind].
      apply (Hfin (set_last S b' (Some (PCore k'))) k'); auto. destruct I'; constructor; auto. }
    destruct p as [[j|q]|]; [|exact Hgb|exact Hgb]. cbn [bind].
    destruct (f_entry _ _ _ _ I id j) as (H1 & _ & H3); [tauto|auto|].
    apply (Hfin (set_last S b (Some (PCore j))) j); auto. destruct I; constructor; auto. }
  destruct (bk_last b) as [[k|q]|] eqn:Elast; [|destruct Hl|].
  - destruct (f_core _ _ _ _ I k Hl) as [x (t & Ht & Hx & Hxr)]; [tauto|]. unfold slot_at at 1. rewrite Hx. cbn [bind slot_id sl_id].
    destruct (x =? id) eqn:Ex.
    + cbn [bind]. apply (Hfin b k); auto. assert (x = id) by lia. subst x. exists t. auto.
    + rewrite Ep. cbn [bind]. exact Hget.
  - cbn [bind]. rewrite Ep. cbn [bind]. exact Hget.
Qed.

End Proofs.

(** A source that makes any block of the data at any time yields what the copies say. *)
Lemma direct_reads S capacity fill (good : S -> Prop) (src : S) clean ext len copies :
  1 <= capacity -> 0 < len <= zlen ext -> block_count len < 2 ^ 32 - 1 -> Forall (in_data len) (extents 0 copies) ->
  good src ->
  (forall max, zlen max = block_count len -> forall b k id cc,
     finv S (block ext) (block_count len) max good b (fun j => j = k) (fun y => y = id) cc -> In k (bk_core b) -> (k < length (bk_slots b))%nat ->
     rd (bk_table b) id = Ok (Some (PCore k)) -> 0 <= id < block_count len -> live max cc id ->
     exists b', fill b k id cc = Ok b' /\
       finv S (block ext) (block_count len) max good b' (fun _ => False) (fun _ => False) cc /\ In k (bk_core b') /\
       sholds S (block ext) (block_count len) b' k id) ->
  exists b b', blocks_create S len copies src clean = Ok b /\
  read_copies S capacity fill b copies 0 0 = Ok (b', map (fun '(o, l) => slice ext o l) (extents 0 copies)).
Proof.
  intros Hcap Hz Hbc Hin Hg Hf. pose proof (count_pos len ltac:(lia)) as Hn0.
  apply (cache_reads S capacity fill (fun max b cc _ => dinv S (block ext) (block_count len) max good b cc)); auto.
  - intros max b cc cur cc' cur' H [I Hl]. split; [|auto]. eapply finv_mono; eauto; lia.
  - intros max Hm b cc id offset l Hb Hid Hneed Hl. apply next_any; auto; first [lia|apply block_zlen; lia|idtac].
  - intros max Hm. split; [|exact Logic.I]. constructor; cbn [bk_table bk_max bk_rid bk_src bk_free bk_core bk_slots bk_pages bk_pageid bk_file]; auto; try lia.
    + rewrite zlen_repeat. lia.
    + intros k [].
    + intros k Hk. cbn in Hk. lia.
    + intros p [].
    + intros x k _ H. pose proof (rd_in_bounds _ _ _ H) as Hb. rewrite zlen_repeat in Hb. rewrite rd_repeat in H by lia. congruence.
    + intros x k _ H. pose proof (rd_in_bounds _ _ _ H) as Hb. rewrite zlen_repeat in Hb. rewrite rd_repeat in H by lia. congruence.
Qed.
