(** * DirectSafe: the block cache over a source whose blocks may differ from time to time *)
From Verif Require Import Base BaseLemmas Rpm Seq SpecDelta SpecBlocks Blocks BlocksProofs.

Section Proofs.
Variable S : Type.
Variable capacity : Z.
Hypothesis Hcap : 1 <= capacity.
Variable fill : blocks S -> nat -> Z -> Z -> res (blocks S).
(** The number of blocks, the last copy that uses each; what holds of the source. *)
Variable n : Z.
Hypothesis Hn : 0 <= n < 2 ^ 32.
Variable max : list Z.
Hypothesis Hmax : zlen max = n.
Variable good : S -> Prop.

Notation st := (blocks S).

Definition sholds (b : st) (k : nat) (x : Z) : Prop :=
  exists d, rd (bk_slots b) (Z.of_nat k) = Ok (mksl BNopage (Some x) (Some d)) /\ zlen d = BLOCK_SIZE /\ 0 <= x < n.

(** [hole]: slots being refilled; [skip]: blocks about whose table entries nothing is known. *)
Record finv (b : st) (hole : nat -> Prop) (skip : Z -> Prop) : Prop := mkfinv {
  f_table : zlen (bk_table b) = n;
  f_max : bk_max b = max;
  f_free : bk_free b = [];
  f_core : forall k, In k (bk_core b) -> ~ hole k -> exists x, sholds b k x;
  f_slots : forall k, (k < length (bk_slots b))%nat -> In k (bk_core b);
  f_entry : forall x k, ~ skip x -> rd (bk_table b) x = Ok (Some (PCore k)) -> In k (bk_core b) /\ ~ hole k /\ sholds b k x;
  f_page : forall x p, rd (bk_table b) x <> Ok (Some (PPage p));
  f_src : good (bk_src b)
}.

Lemma finv_iff b hole hole' skip skip' : (forall k, hole k <-> hole' k) -> (forall x, skip x <-> skip' x) ->
  finv b hole skip -> finv b hole' skip'.
Proof.
  intros Hh Hs []. constructor; auto.
  - intros k Hk Hn'. apply f_core0; [auto|]. rewrite Hh. auto.
  - intros x k Hx Ht. destruct (f_entry0 x k) as (A & B & C); [rewrite Hs; auto|auto|]. split; [auto|]. split; [rewrite <- Hh; auto|auto].
Qed.

Lemma sholds_slots b b' k x : bk_slots b' = bk_slots b -> sholds b k x -> sholds b' k x.
Proof. intros E H. unfold sholds in *. rewrite E. exact H. Qed.

(** Changing the table entry of a block. *)
Lemma entry_ok b hole skip x e : finv b hole skip -> 0 <= x < n -> (forall p, e <> Some (PPage p)) ->
  exists b', put_table S b x e = Ok b' /\ finv b' hole (fun y => skip y \/ y = x) /\
  (forall y, rd (bk_table b') y = if y =? x then Ok e else rd (bk_table b) y) /\
  bk_core b' = bk_core b /\ bk_slots b' = bk_slots b /\ bk_src b' = bk_src b.
Proof.
  intros [] Hx He. unfold put_table. destruct (store_ok (bk_table b) x e) as (t & E & L & H); [lia|].
  rewrite E. cbn [bind]. eexists. split; [reflexivity|]. cbn.
  split; [|repeat (split; [reflexivity || exact H|]); reflexivity].
  constructor; cbn; auto; try congruence.
  - intros y k Hs. rewrite H. replace (y =? x) with false by (symmetry; apply Z.eqb_neq; tauto). intros Ht.
    destruct (f_entry0 y k) as (A & B & C); [tauto|auto|]. split; [auto|]. split; [auto|]. exact C.
  - intros y p. rewrite H. destruct (y =? x); [intros Hy; apply (He p); congruence|apply f_page0].
Qed.

Lemma unskip_ok b hole skip x : finv b hole skip ->
  (forall k, rd (bk_table b) x = Ok (Some (PCore k)) -> In k (bk_core b) /\ ~ hole k /\ sholds b k x) ->
  finv b hole (fun y => skip y /\ y <> x).
Proof.
  intros [] H1. constructor; auto.
  intros y k Hs Ht. destruct (Z.eq_dec y x) as [->|]; [auto|]. apply f_entry0; [tauto|auto].
Qed.

(** ** Core blocks *)
Lemma sholds_lt b k x : sholds b k x -> (k < length (bk_slots b))%nat.
Proof. intros (d & H & _). apply rd_in_bounds in H. unfold zlen in H. lia. Qed.

Lemma fresh_ok b hole skip : finv b hole skip ->
  exists b' k, new_core_block S b = (b', k) /\
  finv b' (fun j => hole j \/ j = k) skip /\ k = length (bk_slots b) /\ In k (bk_core b') /\ zlen (bk_slots b') = zlen (bk_slots b) + 1 /\
  bk_table b' = bk_table b /\ bk_src b' = bk_src b.
Proof.
  intros []. unfold new_core_block. set (k := length (bk_slots b)).
  set (b' := set_lists _ _ _ _). exists b', k.
  assert (Hh : forall j x, sholds b j x -> sholds b' j x).
  { intros j x H. pose proof (sholds_lt _ _ _ H). destruct H as (d & H2 & H3). exists d. split; [|auto].
    cbn. rewrite rd_app. unfold zlen. replace (Z.of_nat j =? _) with false by lia. auto. }
  split; [reflexivity|]. split; [|split; [reflexivity|split; [left; reflexivity|split; [|split; reflexivity]]]].
  - constructor; cbn; auto.
    + intros j [<-|Hj] Hnj; [exfalso; apply Hnj; auto|]. destruct (f_core0 j Hj) as [x Hx]; [tauto|]. eauto.
    + intros j Hj. rewrite app_length in Hj. cbn [length] in Hj. destruct (Nat.eq_dec j k); [left; auto|]. right. apply f_slots0. lia.
    + intros x j Hs Ht. destruct (f_entry0 x j Hs Ht) as (H1 & H2 & H3). split; [right; auto|].
      pose proof (sholds_lt _ _ _ H3). split; [|auto]. intros [?|?]; [tauto|lia].
  - cbn. rewrite zlen_app. reflexivity.
Qed.

(** Filling a slot. *)
Lemma fillslot_ok b hole skip k x d : finv b hole skip -> hole k -> (k < length (bk_slots b))%nat -> 0 <= x < n -> zlen d = BLOCK_SIZE ->
  exists b', put_slot S b k (mksl BNopage (Some x) (Some d)) = Ok b' /\
  finv b' (fun j => hole j /\ j <> k) skip /\ sholds b' k x /\ bk_table b' = bk_table b /\ bk_core b' = bk_core b /\ bk_src b' = bk_src b.
Proof.
  intros I Hk Hlt Hx Hd. destruct I. unfold put_slot.
  destruct (store_ok (bk_slots b) (Z.of_nat k) (mksl BNopage (Some x) (Some d))) as (sl & E & L & H); [unfold zlen; lia|].
  rewrite E. cbn [bind]. eexists. split; [reflexivity|]. set (b' := set_slots S b sl).
  assert (Hkx : sholds b' k x) by (exists d; split; [cbn; rewrite H, Z.eqb_refl; reflexivity|auto]).
  assert (Hh : forall j y, j <> k -> sholds b j y -> sholds b' j y).
  { intros j y Hj (u & H2 & H3). exists u. split; [|auto]. cbn. rewrite H. replace (Z.of_nat j =? _) with false by lia. auto. }
  split; [|split; [exact Hkx|split; [reflexivity|split; reflexivity]]].
  constructor; cbn; auto.
  + intros j Hj Hnj. destruct (Nat.eq_dec j k) as [->|Hne]; [eauto|]. destruct (f_core0 j Hj) as [y Hy]; [tauto|]. eauto.
  + intros j Hj. apply f_slots0. unfold zlen in L. lia.
  + intros y j Hs Ht. destruct (f_entry0 y j Hs Ht) as (H1 & H2 & H3). split; [auto|]. split; [tauto|]. apply Hh; [|auto]. intros ->. tauto.
Qed.

(** Marking a slot as being refilled. *)
Lemma clearslot_ok b hole skip k s : finv b hole skip -> (k < length (bk_slots b))%nat ->
  (forall x, ~ skip x -> rd (bk_table b) x <> Ok (Some (PCore k))) ->
  exists b', put_slot S b k s = Ok b' /\ finv b' (fun j => hole j \/ j = k) skip /\
  bk_table b' = bk_table b /\ bk_core b' = bk_core b /\ length (bk_slots b') = length (bk_slots b) /\ bk_src b' = bk_src b.
Proof.
  intros [] Hlt Hx. unfold put_slot.
  destruct (store_ok (bk_slots b) (Z.of_nat k) s) as (sl & E & L & H); [unfold zlen; lia|].
  rewrite E. cbn [bind]. eexists. split; [reflexivity|]. set (b' := set_slots S b sl).
  assert (Hh : forall j y, j <> k -> sholds b j y -> sholds b' j y).
  { intros j y Hj (u & H2 & H3). exists u. split; [|auto]. cbn. rewrite H. replace (Z.of_nat j =? _) with false by lia. auto. }
  split; [|split; [reflexivity|split; [reflexivity|split; [cbn; unfold zlen in L; lia|reflexivity]]]].
  constructor; cbn; auto.
  - intros j Hj Hnj. destruct (f_core0 j Hj) as [y Hy]; [tauto|]. exists y. apply Hh; [tauto|auto].
  - intros j Hj. apply f_slots0. unfold zlen in L. lia.
  - intros y j Hs Ht. destruct (f_entry0 y j Hs Ht) as (H1 & H2 & H3).
    assert (j <> k) by (intros ->; apply (Hx y Hs); auto). split; [auto|]. split; [tauto|]. apply Hh; auto.
Qed.

Lemma evict_any b skip cc id : finv b (fun _ => False) skip ->
  forall core, incl core (bk_core b) -> exists r, evict S b id cc core = Ok r /\
  match r with
  | None => True
  | Some (k, i, l) => In k core /\ sholds b k i /\ (forall j, In j core -> j = k \/ In j l) /\ incl l core
  end.
Proof.
  intros I. induction core as [|k core IH]; intros Hi; cbn [evict]; [exists None; split; [reflexivity|exact Logic.I]|].
  destruct (f_core _ _ _ I k) as [x (d & Hx1 & Hd & Hx2)]; [apply Hi; left; auto|tauto|].
  unfold slot_at. rewrite Hx1. cbn [bind slot_id sl_id].
  destruct (rd_some max x) as [m Em]; [lia|].
  rewrite (f_max _ _ _ I), Em. cbn [bind].
  destruct ((m <? cc) || ((x <? id) && (m =? cc))) eqn:E.
  - eexists. split; [reflexivity|]. cbn. split; [auto|]. split; [exists d; auto|]. split; [intros j [<-|Hj]; auto|]. intros j Hj; right; auto.
  - destruct IH as (r & Er & Hr); [intros j Hj; apply Hi; right; auto|]. rewrite Er. cbn [bind]. eexists. split; [reflexivity|].
    destruct r as [[[k' i'] l']|]; [|auto]. destruct Hr as (H1 & H2 & H3 & H4). split; [right; auto|]. split; [auto|].
    split; [intros j [<-|Hj]; [right; left; auto|destruct (H3 j Hj); [auto|right; right; auto]]|].
    intros j [<-|Hj]; [left; auto|right; auto].
Qed.

(** A table entry that is removed needs nothing. *)
Lemma drop_ok b hole skip x : finv b hole skip -> 0 <= x < n ->
  exists b', put_table S b x None = Ok b' /\ finv b' hole (fun y => skip y /\ y <> x) /\
  (forall y, rd (bk_table b') y = if y =? x then Ok None else rd (bk_table b) y) /\
  bk_core b' = bk_core b /\ bk_slots b' = bk_slots b /\ bk_src b' = bk_src b.
Proof.
  intros I Hx. destruct (entry_ok b hole skip x None I Hx) as (b' & E & I2 & T2 & C2 & S2 & R2); [discriminate|].
  exists b'. split; [auto|]. split; [|auto]. eapply finv_iff; [| |eapply (unskip_ok b' _ _ x I2)].
  - tauto.
  - intros y. cbn beta. tauto.
  - intros k Hk. rewrite T2, Z.eqb_refl in Hk. congruence.
Qed.

Lemma core_any b cc id : finv b (fun _ => False) (fun _ => False) -> 0 <= id < n ->
  exists b' k, core_block S capacity b id cc = Ok (b', k) /\ finv b' (fun j => j = k) (fun _ => False) /\
  In k (bk_core b') /\ (k < length (bk_slots b'))%nat.
Proof.
  intros I Hid. unfold core_block, get_free_core_block. rewrite (f_free _ _ _ I).
  set (room := core_count S b <? capacity).
  set (b1 := if room then set_clean S b (u64 (bk_clean b + 1)) else b).
  assert (I1 : finv b1 (fun _ => False) (fun _ => False)).
  { unfold b1. destruct room; [|auto]. destruct I. constructor; auto. }
  assert (Hnew : forall c, finv c (fun _ => False) (fun _ => False) ->
    exists b' k, Ok (new_core_block S c) = Ok (b', k) /\ finv b' (fun j => j = k) (fun _ => False) /\
    In k (bk_core b') /\ (k < length (bk_slots b'))%nat).
  { intros c Ic. destruct (fresh_ok c _ _ Ic) as (b' & k & E & J1 & J2 & J3 & J4 & _).
    exists b', k. rewrite E. split; [reflexivity|]. split; [eapply finv_iff; [| |exact J1]; tauto|].
    split; [auto|]. unfold zlen in J4; lia. }
  cbv zeta. destruct (room && negb (bk_clean b1 mod 8 =? 0)).
  { apply Hnew; auto. }
  destruct (evict_any b1 _ cc id I1 (bk_core b1) (incl_refl _)) as (r & Er & Hr). rewrite Er. cbn [bind].
  destruct r as [[[k i] l]|].
  - destruct Hr as (Hk & Hki & Hl & Hlin). pose proof Hki as (d & Hks & Hd & Hir).
    unfold slot_at. rewrite Hks. cbn [bind sl_id sl_data].
    unfold put_table. destruct (store_ok (bk_table b1) i (@None ptr)) as (t & Et & Lt & Ht); [rewrite (f_table _ _ _ I1); lia|].
    cbn [set_lists bk_table]. rewrite Et. cbn [bind].
    unfold put_slot. cbn [set_tab set_lists bk_slots].
    destruct (store_ok (bk_slots b1) (Z.of_nat k) (mksl BFree (Some i) (Some d))) as (sl & Es & Ls & Hsl); [eapply rd_in_bounds; eauto|].
    rewrite Es. cbn [bind set_slots bk_free]. rewrite (f_free _ _ _ I1).
    eexists _, k. split; [reflexivity|].
    set (b' := set_lists _ _ _ _).
    assert (Hh : forall j y, j <> k -> sholds b1 j y -> sholds b' j y).
    { intros j y Hj (u & H2 & H3). exists u. split; [|auto]. cbn. rewrite Hsl. replace (Z.of_nat j =? _) with false by lia. auto. }
    split; [|split; [left; reflexivity|]].
    + destruct I1. constructor; cbn; auto; try congruence.
      * intros j [<-|Hj] Hne; [tauto|]. destruct (f_core0 j) as [y Hy]; [apply Hlin; auto|auto|]. eauto.
      * intros j Hj. unfold zlen in Ls. destruct (Hl j) as [->|]; [apply f_slots0; lia|left; auto|right; auto].
      * intros x j Hs Hx. rewrite Ht in Hx. destruct (x =? i) eqn:Exi; [congruence|].
        destruct (f_entry0 x j Hs Hx) as (H1 & H2 & H3). assert (j <> k).
        { intros ->. destruct H3 as (u & H3 & _). rewrite Hks in H3. injection H3 as H3 H4. lia. }
        split; [right; destruct (Hl j H1); [tauto|auto]|]. split; [auto|]. apply Hh; auto.
      * intros x p. rewrite Ht. destruct (x =? i); [discriminate|apply f_page0].
    + cbn. pose proof (rd_in_bounds _ _ _ Hks). unfold zlen in *. lia.
  - clear Hr Er. cbn [bind]. rewrite (f_free _ _ _ I1).
    destruct (core_count S b1 <? capacity) eqn:Ec; [apply Hnew; auto|].
    destruct (rev (bk_core b1)) as [|k front] eqn:Erev.
    { exfalso. assert (Hin : In 0%nat (bk_core b1)).
      { apply (f_slots _ _ _ I1). unfold core_count, zlen in Ec. lia. }
      apply (f_equal (@rev nat)) in Erev. rewrite rev_involutive in Erev. rewrite Erev in Hin. destruct Hin. }
    assert (Ecore : bk_core b1 = rev front ++ [k]).
    { apply (f_equal (@rev nat)) in Erev. rewrite rev_involutive in Erev. cbn [rev] in Erev. auto. }
    assert (Hperm : forall j, In j (k :: rev front) <-> In j (bk_core b1)).
    { intros j. rewrite Ecore, in_app_iff. cbn [In]. tauto. }
    destruct (f_core _ _ _ I1 k) as [i (d & Hks & Hd & Hir)]; [apply Hperm; left; auto|tauto|].
    set (b2 := set_lists S b1 (k :: rev front) []).
    assert (I2 : finv b2 (fun _ => False) (fun _ => False)).
    { destruct I1. constructor; cbn; auto.
      - intros j Hj _. destruct (f_core0 j) as [y Hy]; [apply Hperm; exact Hj|tauto|]. exists y. exact Hy.
      - intros j Hj. apply (Hperm j). auto.
      - intros x j Hs Hx. destruct (f_entry0 x j Hs Hx) as (H1 & H2 & H3). split; [apply (Hperm j); auto|auto]. }
    rewrite (f_free _ _ _ I1). fold b2.
    change (slot_at S b2 k) with (rd (bk_slots b1) (Z.of_nat k)). rewrite Hks. cbn [bind slot_id sl_id sl_type sl_data].
    destruct (drop_ok b2 _ _ i I2 Hir) as (b3 & E3 & I3 & T3 & Hc3 & Hs3 & Hr3). rewrite E3. cbn [bind].
    change (bk_slots b2) with (bk_slots b1) in Hs3.
    destruct (clearslot_ok b3 _ _ k (mksl BFree (Some i) (Some d)) I3) as (b4 & E4 & I4 & T4 & C4 & L4 & R4).
    { rewrite Hs3. pose proof (rd_in_bounds _ _ _ Hks). unfold zlen in *. lia. }
    { intros x Hs Et. destruct (f_entry _ _ _ I3 x k Hs Et) as (_ & _ & (u & H4 & _)).
      rewrite Hs3, Hks in H4. injection H4 as H4 _. subst x. rewrite T3, Z.eqb_refl in Et. discriminate. }
    rewrite E4. cbn [bind]. exists b4, k. split; [reflexivity|].
    split; [eapply finv_iff; [| |exact I4]; tauto|].
    split; [rewrite C4, Hc3; left; auto|]. rewrite L4, Hs3; pose proof (rd_in_bounds _ _ _ Hks); unfold zlen in *; lia.
Qed.

(** A block that is just stored in the slot. *)
Lemma plain_fill b k id s' d : finv b (fun j => j = k) (fun y => y = id) -> In k (bk_core b) -> (k < length (bk_slots b))%nat ->
  rd (bk_table b) id = Ok (Some (PCore k)) -> 0 <= id < n -> good s' -> zlen d = BLOCK_SIZE ->
  exists b', put_slot S (set_src S b (bk_rid b) s') k (mksl BNopage (Some id) (Some d)) = Ok b' /\
  finv b' (fun _ => False) (fun _ => False) /\ In k (bk_core b') /\ sholds b' k id.
Proof.
  intros I Hk Hlt Ht Hid Hg Hd.
  assert (I1 : finv (set_src S b (bk_rid b) s') (fun j => j = k) (fun y => y = id)) by (destruct I; constructor; auto).
  destruct (fillslot_ok _ _ _ k id d I1) as (b3 & E3 & I3 & H3 & T3 & C3 & R3); [auto|auto|auto|auto|].
  exists b3. split; [exact E3|]. assert (Hc3 : In k (bk_core b3)) by (rewrite C3; exact Hk). split; [|auto].
  eapply finv_iff; [| |eapply (unskip_ok b3 _ _ id I3)].
  - cbn beta. tauto.
  - intros y. cbn beta. tauto.
  - intros j Hj. rewrite T3 in Hj. change (bk_table (set_src S b (bk_rid b) s')) with (bk_table b) in Hj.
    assert (j = k) by congruence. subst j. split; [auto|]. split; [tauto|auto].
Qed.

(** ** Getting blocks *)
Hypothesis fill_any : forall b k id cc, finv b (fun j => j = k) (fun y => y = id) -> In k (bk_core b) -> (k < length (bk_slots b))%nat ->
  rd (bk_table b) id = Ok (Some (PCore k)) -> 0 <= id < n ->
  exists b', fill b k id cc = Ok b' /\ finv b' (fun _ => False) (fun _ => False) /\ In k (bk_core b') /\ sholds b' k id.

Lemma get_any b cc id : finv b (fun _ => False) (fun _ => False) -> 0 <= id < n ->
  exists b' k, get_block S capacity fill b id cc = Ok (b', k) /\ finv b' (fun _ => False) (fun _ => False) /\
  In k (bk_core b') /\ sholds b' k id.
Proof.
  intros I Hid.
  unfold get_block. destruct (rd_some (bk_table b) id) as [p Ep]; [rewrite (f_table _ _ _ I); lia|]. rewrite Ep. cbn [bind].
  assert (Hcases : (exists k, p = Some (PCore k)) \/ (forall k, p <> Some (PCore k))) by (destruct p as [[k|q]|]; [eauto|right; congruence|right; congruence]).
  destruct Hcases as [(k & ->)|Hno].
  { destruct (f_entry _ _ _ I id k) as (H1 & H2 & (d & H4 & H5)); [tauto|auto|].
    unfold slot_at. rewrite H4. cbn [bind sl_type]. exists b, k. split; [reflexivity|]. split; [auto|]. split; [auto|]. exists d. auto. }
  assert (Eh : (match p with Some (PCore k) => s <- slot_at S b k;; Ok (match sl_type s with BFree => None | _ => Some k end) | _ => Ok None end) = Ok None).
  { destruct p as [[k|q]|]; [exfalso; eapply Hno; eauto|reflexivity|reflexivity]. }
  rewrite Eh. cbn [bind].
  destruct (core_any b cc id I Hid) as (b1 & k & E1 & I1 & C1 & L1). rewrite E1. cbn [bind].
  destruct (rd_some (bk_table b1) id) as [p1 Ep1]; [rewrite (f_table _ _ _ I1); lia|]. rewrite Ep1. cbn [bind].
  destruct (entry_ok b1 _ _ id (Some (PCore k)) I1) as (b2 & E2 & I2 & T2 & C2 & S2 & R2); [lia|discriminate|].
  rewrite E2. cbn [bind].
  assert (Hfill : exists b' k0, (b0 <- fill b2 k id cc;; Ok (b0, k)) = Ok (b', k0) /\ finv b' (fun _ => False) (fun _ => False) /\ In k0 (bk_core b') /\ sholds b' k0 id).
  { destruct (fill_any b2 k id cc) as (b3 & E3 & I3 & C3 & H3); auto.
    - eapply finv_iff; [| |exact I2]; tauto.
    - congruence.
    - congruence.
    - rewrite T2, Z.eqb_refl. reflexivity.
    - rewrite E3. cbn [bind]. exists b3, k. auto. }
  destruct p1 as [[j|q]|]; [exact Hfill| |exact Hfill].
  destruct (f_page _ _ _ I1 id q Ep1).
Qed.

(** With the last block. *)
Definition dinv (b : st) : Prop :=
  finv b (fun _ => False) (fun _ => False) /\
  match bk_last b with None => True | Some (PCore k) => In k (bk_core b) | Some (PPage _) => False end.

Lemma next_any b cc id offset len : dinv b -> 0 <= id < n -> 0 <= len < 2 ^ 32 ->
  let off := offset mod BLOCK_SIZE in
  exists b' x, blocks_next S capacity fill b offset len cc id = Ok (b', x) /\ zlen x = Z.min len (BLOCK_SIZE - off) /\ dinv b'.
Proof.
  intros [I Hl] Hid Hlen off.
  assert (Hoff : 0 <= off < BLOCK_SIZE) by (apply Z.mod_pos_bound; reflexivity). unfold BLOCK_SIZE in *.
  unfold blocks_next.
  assert (Hfin : forall b' k, finv b' (fun _ => False) (fun _ => False) -> In k (bk_core b') -> bk_last b' = Some (PCore k) -> sholds b' k id ->
    exists b'' y, (s <- slot_at S b' k ;; d <- slot_data s ;;
                 x <- rd_range d (offset mod BLOCK_SIZE) (if BLOCK_SIZE <? u64 (offset mod BLOCK_SIZE + len) then BLOCK_SIZE - offset mod BLOCK_SIZE else len) ;;
                 Ok (b', x)) = Ok (b'', y) /\ zlen y = Z.min len (8192 - off) /\ dinv b'').
  { intros b' k I' Hk Hl' (d & Hs & Hd & _). unfold slot_at. rewrite Hs. cbn [bind slot_data sl_data]. unfold BLOCK_SIZE in *. fold off.
    rewrite u64_small by lia.
    replace (if 8192 <? off + len then 8192 - off else len) with (Z.min len (8192 - off)) by (destruct (8192 <? off + len) eqn:?; lia).
    rewrite rd_range_in by lia. cbn [bind]. exists b'. eexists. split; [reflexivity|]. split; [apply zlen_slice; lia|]. split; [auto|]. rewrite Hl'. auto. }
  destruct (rd_some (bk_table b) id) as [p Ep]; [rewrite (f_table _ _ _ I); lia|].
  assert (Hget : exists b'' y, ('(c, k) <- match p with Some (PCore k) => Ok (set_last S b (Some (PCore k)), k)
                                         | _ => '(b, k) <- get_block S capacity fill b id cc ;; Ok (set_last S b (Some (PCore k)), k) end ;;
               s <- slot_at S c k ;; d <- slot_data s ;;
               x <- rd_range d (offset mod BLOCK_SIZE) (if BLOCK_SIZE <? u64 (offset mod BLOCK_SIZE + len) then BLOCK_SIZE - offset mod BLOCK_SIZE else len) ;;
               Ok (c, x)) = Ok (b'', y) /\ zlen y = Z.min len (8192 - off) /\ dinv b'').
  { assert (Hgb : exists b'' y, ('(c, k) <- ('(b, k) <- get_block S capacity fill b id cc ;; Ok (set_last S b (Some (PCore k)), k)) ;;
               s <- slot_at S c k ;; d <- slot_data s ;;
               x <- rd_range d (offset mod BLOCK_SIZE) (if BLOCK_SIZE <? u64 (offset mod BLOCK_SIZE + len) then BLOCK_SIZE - offset mod BLOCK_SIZE else len) ;;
               Ok (c, x)) = Ok (b'', y) /\ zlen y = Z.min len (8192 - off) /\ dinv b'').
    { destruct (get_any b cc id I Hid) as (b' & k' & E' & I' & C' & H'). rewrite E'. cbn [bind].
      apply (Hfin (set_last S b' (Some (PCore k'))) k'); auto. destruct I'; constructor; auto. }
    destruct p as [[j|q]|]; [|exact Hgb|exact Hgb]. cbn [bind].
    destruct (f_entry _ _ _ I id j) as (H1 & _ & H3); [tauto|auto|].
    apply (Hfin (set_last S b (Some (PCore j))) j); auto. destruct I; constructor; auto. }
  destruct (bk_last b) as [[k|q]|] eqn:Elast; [|destruct Hl|].
  - destruct (f_core _ _ _ I k Hl) as [x (d & Hx & Hd & Hxr)]; [tauto|]. unfold slot_at at 1. rewrite Hx. cbn [bind slot_id sl_id].
    destruct (x =? id) eqn:Ex.
    + cbn [bind]. apply (Hfin b k); auto. assert (x = id) by lia. subst x. exists d. auto.
    + rewrite Ep. cbn [bind]. exact Hget.
  - cbn [bind]. rewrite Ep. cbn [bind]. exact Hget.
Qed.

(** ** Copies *)
Variable elen : Z.
Hypothesis Helen : 0 < elen.
Hypothesis Hcount : n = block_count elen.

Lemma pieces_any cc : forall fuel b off len, 0 <= off -> 0 <= len < 2 ^ 32 -> off + len <= elen -> dinv b ->
  off mod 8192 + len <= Z.of_nat fuel * 8192 ->
  exists b' r, copy_pieces S capacity fill fuel b off len cc (off / 8192) = Ok (b', r) /\ dinv b'.
Proof.
  pose proof (count_pos elen ltac:(lia)) as Hn0. pose proof (count_bounds elen) as Hnb. rewrite <- Hcount in Hn0, Hnb.
  induction fuel as [|fuel IH]; intros b off len Ho Hlen Hin Hb Hf.
  - pose proof (Z.mod_pos_bound off 8192 ltac:(lia)). assert (len = 0) by lia. subst len. cbn. eauto.
  - cbn [copy_pieces]. destruct (0 <? len) eqn:El; [|eauto].
    assert (Hid : 0 <= off / 8192 < n).
    { split; [apply Z.div_pos; lia|]. apply Z.div_lt_upper_bound; lia. }
    pose proof (Z.div_mod off 8192 ltac:(lia)) as D. pose proof (Z.mod_pos_bound off 8192 ltac:(lia)) as B.
    destruct (next_any b cc (off / 8192) off len Hb Hid Hlen) as (b1 & x & E1 & Hx & B1).
    rewrite E1. cbn [bind]. unfold BLOCK_SIZE in Hx. rewrite u64_small by lia.
    destruct (Z.le_gt_cases len (8192 - off mod 8192)) as [Hsmall|Hbig].
    + replace (len - zlen x) with 0 by lia.
      replace (copy_pieces S capacity fill fuel b1 (off + zlen x) 0 cc (off / 8192 + 1)) with (Ok (b1, @nil (list Z))) by (destruct fuel; reflexivity).
      cbn [bind]. eauto.
    + assert (Ex : zlen x = 8192 - off mod 8192) by lia. rewrite Ex.
      assert (Eo : off + (8192 - off mod 8192) = (off / 8192 + 1) * 8192) by lia.
      assert (Ed : (off + (8192 - off mod 8192)) / 8192 = off / 8192 + 1) by (rewrite Eo; apply Z.div_mul; lia).
      assert (Emod : (off + (8192 - off mod 8192)) mod 8192 = 0) by (rewrite Eo; apply Z.mod_mul; lia).
      destruct (IH b1 (off + (8192 - off mod 8192)) (len - (8192 - off mod 8192))) as (b2 & r & E2 & B2); try lia; auto.
      rewrite Ed in E2. rewrite E2. cbn [bind]. eauto.
Qed.

Lemma copies_any : forall copies b off cc, Forall (in_data elen) (extents off copies) -> elen < 2 ^ 63 -> dinv b ->
  exists b' l, read_copies S capacity fill b copies off cc = Ok (b', l).
Proof.
  induction copies as [|[d l] copies IH]; intros b off cc Hin Hel Hb; cbn [read_copies extents map] in *; [eauto|].
  apply Forall_cons_iff in Hin. destruct Hin as [(H1 & H2 & H3) Hin]. cbn [fst snd] in H1, H2, H3.
  set (o := off + s32 d) in *. rewrite (u64_small o) by lia. rewrite (u64_small (o + l)) by lia.
  pose proof (Z.mod_pos_bound o 8192 ltac:(lia)). pose proof (Z.div_mod l 8192 ltac:(lia)). pose proof (Z.mod_pos_bound l 8192 ltac:(lia)). pose proof (Z.div_pos l 8192 ltac:(lia) ltac:(lia)).
  destruct (pieces_any cc (copy_fuel l) b o l) as (b1 & r & E1 & B1); auto; try lia.
  { unfold copy_fuel, BLOCK_SIZE. lia. }
  unfold BLOCK_SIZE. rewrite E1. cbn [bind].
  destruct (IH b1 (o + l) (cc + 1) Hin Hel B1) as (b2 & l2 & E2). rewrite E2. cbn [bind]. eauto.
Qed.
End Proofs.

(** A source that makes some block whenever it is asked is read without fail. *)
Lemma direct_any S capacity fill (good : S -> Prop) (src : S) clean len copies :
  1 <= capacity -> 0 < len < 2 ^ 63 -> block_count len < 2 ^ 32 - 1 -> Forall (in_data len) (extents 0 copies) ->
  good src ->
  (forall max, zlen max = block_count len -> forall b k id cc,
     finv S (block_count len) max good b (fun j => j = k) (fun y => y = id) -> In k (bk_core b) -> (k < length (bk_slots b))%nat ->
     rd (bk_table b) id = Ok (Some (PCore k)) -> 0 <= id < block_count len ->
     exists b', fill b k id cc = Ok b' /\
       finv S (block_count len) max good b' (fun _ => False) (fun _ => False) /\ In k (bk_core b') /\ sholds S (block_count len) b' k id) ->
  exists b b' l, blocks_create S len copies src clean = Ok b /\ read_copies S capacity fill b copies 0 0 = Ok (b', l).
Proof.
  intros Hcap Hz Hbc Hin Hg Hf. pose proof (count_pos len ltac:(lia)) as Hn0. pose proof (count_bounds len) as Hnb.
  assert (Eb : BLOCKS len = block_count len).
  { rewrite BLOCKS_pos by lia. unfold block_count, BS. replace (len + 8192 - 1) with (len - 1 + 1 * 8192) by lia. rewrite Z.div_add by lia. lia. }
  unfold blocks_create. rewrite Eb. replace (UINT32_MAX <=? block_count len) with false by (unfold UINT32_MAX; lia).
  set (z := repeat 0 (Z.to_nat (block_count len))).
  assert (Hzl : zlen z = block_count len) by (unfold z; rewrite zlen_repeat; lia).
  destruct (mark_all_ok len ltac:(lia) copies 0 0 z Hin) as (max & E & L & _ & H).
  { lia. }
  { intros j m E. pose proof (rd_in_bounds _ _ _ E). rewrite Hzl in *. unfold z in E. rewrite rd_repeat in E by lia. injection E; lia. }
  rewrite E. cbn [bind]. eexists.
  destruct (copies_any S capacity Hcap fill (block_count len) ltac:(lia) max ltac:(lia) good (Hf max ltac:(lia)) len ltac:(lia) eq_refl copies
              (mkbk [] [] [] [] [] [] (repeat None (Z.to_nat (block_count len))) max None clean 0 src) 0 0 Hin ltac:(lia)) as (b' & l & E').
  - split; [|exact Logic.I]. constructor; cbn [bk_table bk_max bk_rid bk_src bk_free bk_core bk_slots bk_pages bk_pageid bk_file]; auto; try lia.
    + rewrite zlen_repeat. lia.
    + intros k [].
    + intros k Hk. cbn in Hk. lia.
    + intros x k _ Hx. pose proof (rd_in_bounds _ _ _ Hx) as Hb. rewrite zlen_repeat in Hb. rewrite rd_repeat in Hx by lia. congruence.
    + intros x p Hx. pose proof (rd_in_bounds _ _ _ Hx) as Hb. rewrite zlen_repeat in Hb. rewrite rd_repeat in Hx by lia. congruence.
  - exists b', l. split; [reflexivity|exact E'].
Qed.
