(** * SeqProofs: the sequence code *)
From Verif Require Import Base BaseLemmas Seq.

(** ** Nibbles and bytes *)
Fixpoint pack (ns : list Z) : list Z :=
  match ns with
  | a :: b :: r => (a * 16 + b) :: pack r
  | [a] => [a * 16]
  | [] => []
  end.

Lemma pair_ind {A} (P : list A -> Prop) :
  P [] -> (forall a, P [a]) -> (forall a b l, P l -> P (a :: b :: l)) -> forall l, P l.
Proof.
  intros H0 H1 H2 l. assert (H : P l /\ forall a, P (a :: l)).
  { induction l as [|x l [IH1 IH2]]; split; auto. }
  apply H.
Qed.

Lemma even_zlen_cons2 {A} (a b : A) l : Z.even (zlen (a :: b :: l)) = Z.even (zlen l).
Proof. rewrite !zlen_cons. replace (1 + (1 + zlen l)) with (zlen l + 2 * 1) by lia. apply Z.even_add_mul_2. Qed.

Lemma pack_app : forall a b, Z.even (zlen a) = true -> pack (a ++ b) = pack a ++ pack b.
Proof.
  intros a b. induction a as [|x|x y l IH] using pair_ind; intros H.
  - reflexivity.
  - discriminate.
  - rewrite even_zlen_cons2 in H. cbn [app pack]. rewrite IH by auto. reflexivity.
Qed.

Lemma zlen_pack : forall ns, zlen (pack ns) = (zlen ns + 1) / 2.
Proof.
  intros ns. induction ns as [|x|x y l IH] using pair_ind; [reflexivity|reflexivity|].
  cbn [pack]. rewrite !zlen_cons, IH. replace (1 + (1 + zlen l) + 1) with (zlen l + 1 + 1 * 2) by lia.
  rewrite Z.div_add by lia. lia.
Qed.

Lemma odd_snoc {A} (l : list A) : Z.even (zlen l) = false -> exists l' y, l = l' ++ [y] /\ Z.even (zlen l') = true.
Proof.
  intros H. destruct l as [|x l] using rev_ind; [discriminate|]. exists l, x. split; [auto|].
  rewrite zlen_app in H. change (zlen [x]) with 1 in H. rewrite Z.even_add in H. destruct (Z.even (zlen l)); [auto|discriminate].
Qed.

Definition nib (x : Z) : Prop := 0 <= x < 16.

Lemma store_mid {A} (a b : list A) x y i : i = zlen a -> store (a ++ x :: b) i y = Ok (a ++ y :: b).
Proof.
  intros ->. unfold store. pose proof (zlen_nonneg a). pose proof (zlen_nonneg b).
  rewrite zlen_app, zlen_cons. replace ((0 <=? zlen a) && (zlen a <? zlen a + (1 + zlen b))) with true by lia.
  f_equal. unfold zlen. rewrite Nat2Z.id. rewrite firstn_app, firstn_all, Nat.sub_diag. cbn [firstn]. rewrite app_nil_r.
  f_equal. f_equal. rewrite skipn_app, skipn_all2 by lia. replace (S (length a) - length a)%nat with 1%nat by lia. reflexivity.
Qed.

Lemma rd_mid {A} (a b : list A) x i : i = zlen a -> rd (a ++ x :: b) i = Ok x.
Proof.
  intros ->. unfold rd. pose proof (zlen_nonneg a). replace (zlen a <? 0) with false by lia.
  unfold zlen. rewrite Nat2Z.id, nth_error_app2, Nat.sub_diag by lia. reflexivity.
Qed.

(** Buffer contents. *)
Definition holds (data : list (option Z)) (ns : list Z) : Prop :=
  exists rest, data = map Some (pack ns) ++ rest.

Lemma lor_nib y x : nib y -> nib x -> Z.lor (y * 16) x = y * 16 + x.
Proof.
  intros Hy Hx. unfold nib in *. enough (E : Z.land (y * 16) x = 0).
  { rewrite <- Z.lxor_lor, <- Z.add_nocarry_lxor by auto. reflexivity. }
  apply Z.bits_inj'. intros n Hn. rewrite Z.land_spec, Z.bits_0.
  destruct (Z_lt_le_dec n 4).
  - change 16 with (2 ^ 4). rewrite Z.mul_pow2_bits_low by lia. reflexivity.
  - rewrite (Z.bits_above_log2 x n); [apply andb_false_r|lia|].
    destruct (Z.eq_dec x 0) as [->|]; [cbn; lia|]. apply Z.log2_lt_pow2; [lia|].
    assert (2 ^ 4 <= 2 ^ n) by (apply Z.pow_le_mono_r; lia). lia.
Qed.

(** One nibble stored. *)
Lemma put_nibble data ns x : holds data ns -> nib x -> Forall nib ns -> zlen ns < 2 * zlen data ->
  exists data', (if zlen ns mod 2 =? 0 then store data (zlen ns / 2) (Some (u8 (Z.shiftl x 4)))
               else
                 b <- rd data (zlen ns / 2) ;;
                 match b with
                 | None => Ub Uninit
                 | Some b => store data (zlen ns / 2) (Some (Z.lor b x))
                 end) = Ok data' /\ holds data' (ns ++ [x]) /\ zlen data' = zlen data.
Proof.
  intros [rest ->] Hx Hns Hl. rewrite zlen_app, zlen_map, zlen_pack in Hl.
  assert (Hm : (zlen ns mod 2 =? 0) = Z.even (zlen ns)) by (rewrite Zeven_mod; unfold Zeq_bool; rewrite <- Z.eqb_compare; reflexivity).
  rewrite Hm. destruct (Z.even (zlen ns)) eqn:Ev.
  - apply Zeven_bool_iff, Zeven_ex in Ev as [k Hk].
    assert (Hd : (zlen ns + 1) / 2 = k) by (rewrite Hk; symmetry; apply Z.div_unique with 1; lia).
    assert (Hd0 : zlen ns / 2 = k) by (rewrite Hk; rewrite Z.mul_comm; apply Z.div_mul; lia).
    destruct rest as [|r0 rest]; [change (@zlen (option Z) []) with 0 in Hl; lia|].
    rewrite store_mid by (rewrite zlen_map, zlen_pack; lia). eexists. split; [reflexivity|]. split.
    + exists rest. rewrite pack_app by (rewrite Hk; apply Z.even_mul). rewrite map_app, <- app_assoc. cbn [pack map app].
      unfold u8. rewrite Z.shiftl_mul_pow2 by lia. unfold nib in Hx. rewrite Z.mod_small by lia. reflexivity.
    + rewrite !zlen_app, !zlen_cons. reflexivity.
  - destruct (odd_snoc ns Ev) as (ns' & y & -> & Ev'). apply Forall_app in Hns as [_ Hy]. inversion Hy as [|? ? Hy' _]; subst.
    pose proof Ev' as Ev2. apply Zeven_bool_iff, Zeven_ex in Ev' as [k Hk].
    rewrite zlen_app in *. change (zlen [y]) with 1 in *.
    assert (Hd0 : (zlen ns' + 1) / 2 = k) by (rewrite Hk; symmetry; apply Z.div_unique with 1; lia).
    rewrite pack_app by auto. cbn [pack]. rewrite map_app, <- app_assoc. cbn [map app].
    rewrite rd_mid by (rewrite zlen_map, zlen_pack; lia). cbn [bind].
    rewrite store_mid by (rewrite zlen_map, zlen_pack; lia). eexists. split; [reflexivity|]. split.
    + exists rest. rewrite <- app_assoc. cbn [app]. rewrite pack_app by auto. cbn [pack]. rewrite map_app, <- app_assoc.
      cbn [map app]. rewrite lor_nib by auto. reflexivity.
    + rewrite !zlen_app, !zlen_cons. reflexivity.
Qed.

(** Digits of a number, least significant first. *)
Fixpoint digits (n : nat) (v : Z) : list Z :=
  match n with
  | O => []
  | S n' => (v mod 8 + match n' with O => 0 | _ => 8 end) :: digits n' (v / 8)
  end.

Lemma digit_nib v (n : nat) : nib (v mod 8 + match n with O => 0 | _ => 8 end).
Proof. pose proof (Z.mod_pos_bound v 8). unfold nib. destruct n; lia. Qed.

Lemma digits_nib n : forall v, Forall nib (digits n v).
Proof. induction n as [|n IH]; intros v; cbn [digits]; constructor; auto. apply digit_nib. Qed.
Lemma digits_len n : forall v, zlen (digits n v) = Z.of_nat n.
Proof. induction n as [|n IH]; intros v; cbn [digits]; [reflexivity|]. rewrite zlen_cons, IH. lia. Qed.

Lemma land7 v : Z.land v 7 = v mod 8.
Proof. change 7 with (Z.ones 3). rewrite Z.land_ones by lia. reflexivity. Qed.

Lemma digit_lor v (n : nat) :
  Z.lor (Z.land v 7) (match n with O => 0 | _ => 8 end) = v mod 8 + match n with O => 0 | _ => 8 end.
Proof.
  rewrite land7. pose proof (Z.mod_pos_bound v 8 ltac:(lia)) as H. destruct n; [rewrite Z.lor_0_r; lia|].
  assert (Hc : v mod 8 = 0 \/ v mod 8 = 1 \/ v mod 8 = 2 \/ v mod 8 = 3 \/ v mod 8 = 4 \/ v mod 8 = 5 \/ v mod 8 = 6 \/ v mod 8 = 7) by lia.
  repeat (destruct Hc as [Hc|Hc]; [rewrite Hc; reflexivity|]). rewrite Hc. reflexivity.
Qed.

Lemma append_loop_ok : forall n data ns val, holds data ns -> Forall nib ns ->
  zlen ns + Z.of_nat n <= 2 * zlen data ->
  exists data', append_loop n data (zlen ns) val = Ok (data', zlen ns + Z.of_nat n) /\
    holds data' (ns ++ digits n val) /\ zlen data' = zlen data.
Proof.
  induction n as [|n IH]; intros data ns val Hh Hns Hl.
  - exists data. cbn [append_loop digits]. rewrite app_nil_r. split; [f_equal; f_equal; lia|auto].
  - cbn [append_loop digits]. rewrite digit_lor. set (x := val mod 8 + match n with O => 0 | _ => 8 end).
    assert (Hx : nib x) by apply digit_nib.
    destruct (put_nibble data ns x Hh Hx Hns ltac:(lia)) as (d1 & E1 & H1 & L1).
    rewrite E1. cbn [bind].
    assert (Hz : zlen ns + 1 = zlen (ns ++ [x])) by (rewrite zlen_app; reflexivity).
    rewrite Hz. rewrite Z.shiftr_div_pow2 by lia. change (2 ^ 3) with 8.
    destruct (IH d1 (ns ++ [x]) (val / 8) H1) as (d2 & E2 & H2 & L2).
    { apply Forall_app; auto. }
    { rewrite <- Hz, L1. lia. }
    exists d2. rewrite E2. split; [f_equal; f_equal; lia|]. rewrite <- app_assoc in H2. split; [auto|lia].
Qed.

Lemma digit_count_ok : forall f v, 0 <= v < 8 ^ Z.of_nat (S f) ->
  v < 8 ^ Z.of_nat (digit_count f v) /\ (1 <= digit_count f v <= S f)%nat.
Proof.
  induction f as [|f IH]; intros v Hv; cbn [digit_count].
  - split; [exact (proj2 Hv)|lia].
  - destruct (8 <=? v) eqn:E.
    + rewrite Z.shiftr_div_pow2 by lia. change (2 ^ 3) with 8.
      destruct (IH (v / 8)) as [A B].
      { split; [apply Z.div_pos; lia|]. apply Z.div_lt_upper_bound; [lia|].
        replace (8 * 8 ^ Z.of_nat (S f)) with (8 ^ Z.of_nat (S (S f))); [lia|].
        rewrite (Nat2Z.inj_succ (S f)), Z.pow_succ_r by lia. reflexivity. }
      split; [|lia]. rewrite Nat2Z.inj_succ, Z.pow_succ_r by lia.
      pose proof (Z.div_mod v 8 ltac:(lia)). pose proof (Z.mod_pos_bound v 8 ltac:(lia)). lia.
    + split; [cbn; lia|lia].
Qed.

(** ** Numbers appended *)
Definition number_nibs (v : Z) : list Z := digits (digit_count 11 v) v.

(** State of the encoder: nibbles written so far. *)
Definition enc (s : fseq) (ns : list Z) : Prop :=
  holds (fs_data s) ns /\ Forall nib ns /\ fs_index s = zlen ns.

Lemma number_count v : 0 <= v < 2 ^ 32 -> v < 8 ^ Z.of_nat (digit_count 11 v) /\ (1 <= digit_count 11 v <= 12)%nat.
Proof. intros H. apply digit_count_ok. change (8 ^ Z.of_nat 12) with (2 ^ 36). lia. Qed.

Lemma seq_append_ok s ns v : enc s ns -> 0 <= v < 2 ^ 32 ->
  exists s', seq_append s v = Ok s' /\ enc s' (ns ++ number_nibs v) /\
    fs_start s' = fs_start s /\ fs_last s' = fs_last s.
Proof.
  intros (Hh & Hn & Hi) Hv. destruct (number_count v Hv) as [_ Hc]. unfold seq_append.
  set (len := digit_count 11 v) in *. rewrite Hi.
  set (data := if _ <? _ then _ else _).
  assert (Hhd : holds data ns).
  { unfold data. destruct (_ <? _); [|auto]. destruct Hh as [r Hr]. exists (r ++ repeat None SEQ_ALLOC_SIZE).
    rewrite Hr, app_assoc. reflexivity. }
  assert (Hld : zlen ns + Z.of_nat len <= 2 * zlen data).
  { assert (Hal : (zlen ns + 1) / 2 <= zlen (fs_data s)).
    { destruct Hh as [r Hr]. rewrite Hr, zlen_app, zlen_map, zlen_pack. pose proof (zlen_nonneg r). lia. }
    unfold data, SEQ_BYTE_LEN. pose proof (zlen_nonneg ns).
    pose proof (Z.div_mod (zlen ns + 1) 2 ltac:(lia)). pose proof (Z.mod_pos_bound (zlen ns + 1) 2 ltac:(lia)).
    pose proof (Z.div_mod (zlen ns + Z.of_nat len + 1) 2 ltac:(lia)).
    pose proof (Z.mod_pos_bound (zlen ns + Z.of_nat len + 1) 2 ltac:(lia)).
    destruct (_ <? _) eqn:E.
    - rewrite zlen_app, zlen_repeat. change (Z.of_nat SEQ_ALLOC_SIZE) with 32. lia.
    - unfold SEQ_BYTE_LEN in E. lia. }
  destruct (append_loop_ok len data ns v Hhd Hn Hld) as (d' & E & H' & L').
  rewrite E. cbn [bind]. eexists. split; [reflexivity|]. cbn [fs_data fs_index fs_start fs_last].
  split; [|auto]. split; [exact H'|]. split; [apply Forall_app; split; [auto|apply digits_nib]|].
  cbn [fs_index]. rewrite zlen_app. unfold number_nibs. rewrite digits_len. reflexivity.
Qed.

(** ** Decoding nibbles *)
Fixpoint nib_loop (count : Z) (ns : list Z) (s : dseq) : res dseq :=
  match ns with
  | [] => Ok s
  | x :: ns => s <- seq_nibble count x s ;; nib_loop count ns s
  end.

Lemma nib_loop_app count a : forall b s,
  nib_loop count (a ++ b) s = (s <- nib_loop count a s ;; nib_loop count b s).
Proof.
  induction a as [|x a IH]; intros b s; cbn [app nib_loop]; [reflexivity|].
  destruct (seq_nibble count x s); cbn [bind]; auto.
Qed.

Lemma split_byte a b : nib a -> nib b -> Z.shiftr (a * 16 + b) 4 = a /\ Z.land (a * 16 + b) 15 = b.
Proof.
  unfold nib. intros Ha Hb. rewrite Z.shiftr_div_pow2 by lia. change 15 with (Z.ones 4). rewrite Z.land_ones by lia.
  change (2 ^ 4) with 16. split.
  - symmetry. apply Z.div_unique with b; lia.
  - symmetry. apply Z.mod_unique with a; lia.
Qed.

Lemma seq_loop_pack count : forall ns, Forall nib ns -> forall s,
  seq_loop count (pack ns) s = nib_loop count (if Z.even (zlen ns) then ns else ns ++ [0]) s.
Proof.
  intros ns. induction ns as [|x|x y l IH] using pair_ind; intros Hn s.
  - reflexivity.
  - inversion Hn; subst. cbn [pack seq_loop]. change (Z.even (zlen [x])) with false. cbn [app nib_loop].
    destruct (split_byte x 0) as [E1 E2]; [auto|unfold nib; lia|]. rewrite Z.add_0_r in E1, E2. rewrite E1, E2. reflexivity.
  - inversion Hn as [|? ? Hx Hn1]; subst. inversion Hn1 as [|? ? Hy Hn2]; subst.
    cbn [pack seq_loop]. destruct (split_byte x y Hx Hy) as [E1 E2]. rewrite E1, E2.
    rewrite even_zlen_cons2. destruct (Z.even (zlen l)) eqn:Ev; cbn [app nib_loop];
    destruct (seq_nibble count x s); cbn [bind]; auto;
    destruct (seq_nibble count y a); cbn [bind]; auto.
Qed.

Lemma lor_disjoint a b k : 0 <= k -> 0 <= a < 2 ^ k -> Z.lor a (b * 2 ^ k) = a + b * 2 ^ k.
Proof.
  intros Hk Ha. enough (E : Z.land a (b * 2 ^ k) = 0).
  { rewrite <- Z.lxor_lor, <- Z.add_nocarry_lxor by auto. reflexivity. }
  apply Z.bits_inj'. intros n Hn. rewrite Z.land_spec, Z.bits_0. destruct (Z_lt_le_dec n k).
  - rewrite Z.mul_pow2_bits_low by lia. apply andb_false_r.
  - destruct (Z.eq_dec a 0) as [->|]; [rewrite Z.bits_0; reflexivity|].
    rewrite (Z.bits_above_log2 a n); [reflexivity|lia|]. apply Z.log2_lt_pow2; [lia|].
    assert (2 ^ k <= 2 ^ n) by (apply Z.pow_le_mono_r; lia). lia.
Qed.

Lemma shl64_ok x k : 0 <= k < 64 -> 0 <= x -> x * 2 ^ k < 2 ^ 64 -> shl64 x k = Ok (x * 2 ^ k).
Proof.
  intros Hk Hx Hb. unfold shl64. destruct (k =? 0) eqn:E.
  - replace k with 0 by lia. rewrite Z.pow_0_r. f_equal. lia.
  - replace (64 <=? k) with false by lia. rewrite Z.shiftl_mul_pow2 by lia. rewrite u64_small; [reflexivity|].
    pose proof (Z.pow_pos_nonneg 2 k). nia.
Qed.

Lemma land8 x : nib x -> Z.land x 8 = if x <? 8 then 0 else 8.
Proof.
  unfold nib. intros H.
  assert (Hc : x = 0 \/ x = 1 \/ x = 2 \/ x = 3 \/ x = 4 \/ x = 5 \/ x = 6 \/ x = 7 \/
          x = 8 \/ x = 9 \/ x = 10 \/ x = 11 \/ x = 12 \/ x = 13 \/ x = 14 \/ x = 15) by lia.
  repeat (destruct Hc as [Hc|Hc]; [rewrite Hc; reflexivity|]). rewrite Hc. reflexivity.
Qed.
Lemma lxor8 x : 0 <= x < 8 -> Z.lxor (x + 8) 8 = x.
Proof.
  intros H. assert (Hc : x = 0 \/ x = 1 \/ x = 2 \/ x = 3 \/ x = 4 \/ x = 5 \/ x = 6 \/ x = 7) by lia.
  repeat (destruct Hc as [Hc|Hc]; [rewrite Hc; reflexivity|]). rewrite Hc. reflexivity.
Qed.

Lemma digits_decode count : forall n v k m s, (0 < n)%nat -> 0 <= v < 8 ^ Z.of_nat n -> 0 <= k ->
  3 * (k + Z.of_nat n) < 64 ->
  0 <= m < 2 ^ (3 * k) -> dq_shift s = 3 * k -> dq_num s = m ->
  nib_loop count (digits n v) s = seq_number count (m + v * 2 ^ (3 * k)) s.
Proof.
  induction n as [|n IH]; intros v k m s Hn Hv Hk Hb Hm Hs Hnum; [lia|].
  cbn [digits nib_loop]. unfold seq_nibble. rewrite Hs, Hnum.
  pose proof (Z.mod_pos_bound v 8 ltac:(lia)) as Hmod.
  assert (Hp : 0 < 2 ^ (3 * k)) by (apply Z.pow_pos_nonneg; lia).
  assert (Hp64 : 2 ^ (3 * k) * 8 <= 2 ^ 64).
  { change 8 with (2 ^ 3). rewrite <- Z.pow_add_r by lia. apply Z.pow_le_mono_r; lia. }
  rewrite land8 by apply digit_nib. destruct n as [|n].
  - replace (v mod 8 + 0 <? 8) with true by lia. change (negb (0 =? 0)) with false. cbn iota.
    rewrite Z.add_0_r. change (8 ^ Z.of_nat 1) with 8 in Hv. rewrite (Z.mod_small v 8) by lia.
    rewrite shl64_ok by nia. cbn [bind]. rewrite lor_disjoint by lia.
    cbn [nib_loop]. destruct (seq_number count (m + v * 2 ^ (3 * k)) s); reflexivity.
  - replace (v mod 8 + 8 <? 8) with false by lia. change (negb (8 =? 0)) with true. cbn iota.
    rewrite lxor8 by lia. rewrite shl64_ok by nia. cbn [bind]. rewrite lor_disjoint by lia.
    assert (Hpow : 2 ^ (3 * (k + 1)) = 8 * 2 ^ (3 * k)).
    { replace (3 * (k + 1)) with (3 + 3 * k) by lia. rewrite Z.pow_add_r by lia. reflexivity. }
    set (s1 := mkdq _ _ _ _ _ _).
    assert (Hseq : forall x, seq_number count x s1 = seq_number count x s).
    { intros x. unfold seq_number. cbn [s1 dq_jump dq_toggle dq_pos dq_out]. reflexivity. }
    rewrite (IH (v / 8) (k + 1) (m + v mod 8 * 2 ^ (3 * k)) s1).
    + rewrite Hseq. f_equal. rewrite Hpow. pose proof (Z.div_mod v 8 ltac:(lia)). nia.
    + lia.
    + split; [apply Z.div_pos; lia|]. apply Z.div_lt_upper_bound; [lia|].
      rewrite (Nat2Z.inj_succ (S n)), Z.pow_succ_r in Hv by lia. lia.
    + lia.
    + lia.
    + rewrite Hpow. nia.
    + cbn [s1 dq_shift]. rewrite u32_small by lia. lia.
    + reflexivity.
Qed.

Lemma number_decode count v s : 0 <= v < 2 ^ 32 -> dq_shift s = 0 -> dq_num s = 0 ->
  nib_loop count (number_nibs v) s = seq_number count v s.
Proof.
  intros Hv Hs Hn. destruct (number_count v Hv) as [A B]. unfold number_nibs.
  rewrite (digits_decode count _ v 0 0 s); try lia.
  f_equal. cbn. lia.
Qed.

(** ** Runs *)
Definition zseq (start len : Z) : list Z := map (fun k => start + Z.of_nat k) (seq 0 (Z.to_nat len)).
Lemma zlen_zseq start len : 0 <= len -> zlen (zseq start len) = len.
Proof. intros H. unfold zseq. rewrite zlen_map. unfold zlen. rewrite seq_length. lia. Qed.
Lemma zseq_snoc start len : 0 <= len -> zseq start (len + 1) = zseq start len ++ [start + len].
Proof.
  intros H. unfold zseq. replace (Z.to_nat (len + 1)) with (S (Z.to_nat len)) by lia.
  rewrite seq_S, map_app. cbn [map]. do 3 f_equal. lia.
Qed.
Lemma zseq_cons start len : 0 <= len -> zseq start (len + 1) = start :: zseq (start + 1) len.
Proof.
  intros H. unfold zseq. replace (Z.to_nat (len + 1)) with (S (Z.to_nat len)) by lia.
  cbn [seq map]. f_equal; [lia|]. rewrite <- seq_shift, map_map. apply map_ext. intros; lia.
Qed.

Lemma zseq_one i : zseq i 1 = [i].
Proof. change (zseq i 1) with [i + 0]. f_equal. lia. Qed.

Lemma run_loop_ok count : count < 2 ^ 64 -> forall f number pos out, 0 <= number -> 0 <= pos ->
  zlen out + number <= count -> pos + number <= count -> (Z.to_nat number <= f)%nat ->
  run_loop f count number pos out = Ok (pos + number, out ++ zseq pos number).
Proof.
  intros Hc. induction f as [|f IH]; intros number pos out Hn Hp Ho Hpn Hf.
  - assert (number = 0) by lia. subst. cbn [run_loop]. change (0 <? 0) with false. cbn iota.
    change (zseq pos 0) with (@nil Z). rewrite app_nil_r. do 2 f_equal. lia.
  - cbn [run_loop]. destruct (0 <? number) eqn:E.
    + pose proof (zlen_nonneg out).
      replace ((count <? zlen out) || (count <? pos)) with false by lia.
      replace (count <=? zlen out) with false by lia.
      rewrite u64_small by lia. rewrite IH by (rewrite ?zlen_app; change (zlen [pos]) with 1; lia).
      replace number with (number - 1 + 1) at 4 by lia. rewrite zseq_cons by lia. rewrite <- app_assoc.
      do 2 f_equal. lia.
    + assert (number = 0) by lia. subst. change (zseq pos 0) with (@nil Z). rewrite app_nil_r. do 2 f_equal. lia.
Qed.

(** ** The whole list *)
Record link (count : Z) (p : list Z) (s : fseq) (ns : list Z) (out : list Z) : Prop := {
  lk_enc : enc s ns;
  lk_dec : nib_loop count ns DSEQ_INIT = Ok (mkdq false true 0 0 (fs_start s) out);
  lk_range : 0 <= fs_start s <= fs_last s + 1 /\ fs_last s + 1 <= count;
  lk_out : p = out ++ zseq (fs_start s) (fs_last s + 1 - fs_start s)
}.

Lemma append_number count s ns D v : enc s ns -> nib_loop count ns DSEQ_INIT = Ok D ->
  dq_shift D = 0 -> dq_num D = 0 -> 0 <= v < 2 ^ 32 ->
  exists s', seq_append s v = Ok s' /\ enc s' (ns ++ number_nibs v) /\
    fs_start s' = fs_start s /\ fs_last s' = fs_last s /\
    nib_loop count (ns ++ number_nibs v) DSEQ_INIT = seq_number count v D.
Proof.
  intros He Hd Hs Hn Hv. destruct (seq_append_ok s ns v He Hv) as (s' & E & He' & H1 & H2).
  exists s'. split; [auto|]. split; [auto|]. split; [auto|]. split; [auto|].
  rewrite nib_loop_app, Hd. cbn [bind]. apply number_decode; auto.
Qed.

(** Appending the pending run. *)
Lemma flush_run count p s ns out : count < 2 ^ 32 -> zlen p <= count -> link count p s ns out ->
  exists s' ns' D, (if 0 <? u32 (fs_last s - fs_start s + 1) then seq_append s (u32 (fs_last s - fs_start s + 1)) else Ok s) = Ok s' /\
    enc s' ns' /\ fs_start s' = fs_start s /\ fs_last s' = fs_last s /\
    nib_loop count ns' DSEQ_INIT = Ok D /\ dq_shift D = 0 /\ dq_num D = 0 /\ dq_jump D = false /\ dq_out D = p /\
    (0 <= fs_last s -> fs_start s <= fs_last s -> dq_toggle D = false /\ dq_pos D = fs_last s + 1).
Proof.
  intros Hc Hp [He Hd Hr Ho]. rewrite u32_small by lia.
  destruct (0 <? fs_last s - fs_start s + 1) eqn:E.
  - destruct (append_number count s ns _ (fs_last s - fs_start s + 1) He Hd eq_refl eq_refl ltac:(lia))
      as (s' & E1 & He' & H1 & H2 & Hd'). 
    unfold seq_number in Hd'. cbn [dq_jump dq_toggle dq_pos dq_out negb] in Hd'.
    replace (fs_last s - fs_start s + 1 =? 0) with false in Hd' by lia.
    assert (Hz : zlen p = zlen out + (fs_last s + 1 - fs_start s)) by (rewrite Ho, zlen_app, zlen_zseq; lia).
    rewrite run_loop_ok in Hd' by lia. cbn [bind] in Hd'.
    exists s', (ns ++ number_nibs (fs_last s - fs_start s + 1)). eexists.
    split; [exact E1|]. split; [exact He'|]. split; [auto|]. split; [auto|]. split; [exact Hd'|].
    cbn. split; [auto|]. split; [auto|]. split; [auto|]. split.
    + rewrite Ho. do 2 f_equal. lia.
    + intros _ _. split; [auto|lia].
  - exists s, ns. eexists. split; [reflexivity|]. split; [auto|]. split; [auto|]. split; [auto|].
    split; [exact Hd|]. cbn. split; [auto|]. split; [auto|]. split; [auto|]. split.
    + rewrite Ho. replace (fs_last s + 1 - fs_start s) with 0 by lia. change (zseq (fs_start s) 0) with (@nil Z).
      rewrite app_nil_r. reflexivity.
    + intros; lia.
Qed.

Lemma add_step count p s ns out i : count < 2 ^ 32 -> zlen p < count -> 0 <= i < count ->
  link count p s ns out -> (fs_start s <= fs_last s \/ fs_last s = -1) ->
  exists s' ns' out', seq_add s i = Ok s' /\ link count (p ++ [i]) s' ns' out' /\ fs_start s' <= fs_last s'.
Proof.
  intros Hc Hp Hi Hl Hq. pose proof Hl as [He Hd Hr Ho]. unfold seq_add. destruct (i =? fs_last s + 1) eqn:E.
  - exists (mkfs (fs_data s) (fs_index s) (fs_start s) (fs_last s + 1)), ns, out.
    split; [reflexivity|]. cbn [fs_start fs_last]. split; [|lia]. split; cbn [fs_start fs_last].
    + destruct He as (A & B & C). split; auto.
    + auto.
    + lia.
    + replace (fs_last s + 1 + 1 - fs_start s) with (fs_last s + 1 - fs_start s + 1) by lia.
      rewrite zseq_snoc by lia. rewrite app_assoc, <- Ho. f_equal. f_equal. lia.
  - destruct (flush_run count p s ns out Hc ltac:(lia) Hl) as (s1 & ns1 & D & E1 & He1 & S1 & L1 & Hd1 & Hs1 & Hn1 & Hj1 & Ho1 & Ht1).
    rewrite E1. cbn [bind]. rewrite L1.
    destruct ((0 <=? fs_last s) && (fs_last s + 1 <? i)) eqn:Eg.
    + rewrite (u32_small (i - (fs_last s + 1))) by lia.
      destruct (append_number count s1 ns1 D (i - (fs_last s + 1)) He1 Hd1 Hs1 Hn1 ltac:(lia))
        as (s2 & E2 & He2 & S2 & L2 & Hd2).
      rewrite E2. cbn [bind]. destruct (Ht1 ltac:(lia) ltac:(lia)) as [Ht Hpos].
      unfold seq_number in Hd2. rewrite Hj1, Ht in Hd2. replace (i - (fs_last s + 1) =? 0) with false in Hd2 by lia.
      cbn [negb] in Hd2. rewrite Hpos, Ho1 in Hd2. rewrite u64_small in Hd2 by lia.
      do 3 eexists. split; [reflexivity|]. cbn [fs_start fs_last]. split; [|lia].
      split; cbn [fs_start fs_last].
      * destruct He2 as (A & B & C). split; [exact A|]. split; [exact B|exact C].
      * rewrite Hd2. do 2 f_equal. lia.
      * lia.
      * replace (i + 1 - i) with 1 by lia. rewrite zseq_one. reflexivity.
    + destruct (append_number count s1 ns1 D 0 He1 Hd1 Hs1 Hn1 ltac:(lia)) as (s2 & E2 & He2 & S2 & L2 & Hd2).
      rewrite E2. cbn [bind]. unfold seq_number in Hd2. rewrite Hj1 in Hd2. change (0 =? 0) with true in Hd2. cbn iota in Hd2.
      destruct (append_number count s2 _ _ i He2 Hd2 eq_refl eq_refl ltac:(lia)) as (s3 & E3 & He3 & S3 & L3 & Hd3).
      rewrite E3. cbn [bind]. unfold seq_number in Hd3. cbn [dq_jump dq_out] in Hd3. rewrite Ho1 in Hd3.
      do 3 eexists. split; [reflexivity|]. cbn [fs_start fs_last]. split; [|lia].
      split; cbn [fs_start fs_last].
      * destruct He3 as (A & B & C). split; [exact A|]. split; [exact B|exact C].
      * exact Hd3.
      * lia.
      * replace (i + 1 - i) with 1 by lia. rewrite zseq_one. reflexivity.
Qed.

Lemma add_all count : count < 2 ^ 32 -> forall l p s ns out, zlen p + zlen l <= count ->
  Forall (fun i => 0 <= i < count) l -> link count p s ns out -> (fs_start s <= fs_last s \/ fs_last s = -1) ->
  exists s' ns' out', seq_add_all s l = Ok s' /\ link count (p ++ l) s' ns' out'.
Proof.
  intros Hc. induction l as [|i l IH]; intros p s ns out Hp Hf Hl Hq; cbn [seq_add_all].
  - rewrite app_nil_r. eauto.
  - inversion Hf; subst. rewrite zlen_cons in Hp. pose proof (zlen_nonneg l).
    destruct (add_step count p s ns out i Hc ltac:(lia) ltac:(auto) Hl Hq) as (s1 & ns1 & o1 & E & Hl1 & Hq1).
    rewrite E. cbn [bind]. destruct (IH (p ++ [i]) s1 ns1 o1) as (s2 & ns2 & o2 & E2 & Hl2); auto.
    { rewrite zlen_app. change (zlen [i]) with 1. lia. }
    rewrite <- app_assoc in Hl2. eauto.
Qed.

Lemma stored_map l : stored (map Some l) = Ok l.
Proof. induction l as [|x l IH]; cbn [map stored]; [reflexivity|]. rewrite IH. reflexivity. Qed.

Lemma pack_bytes : forall ns, Forall nib ns -> bytes (pack ns).
Proof.
  intros ns. induction ns as [|x|x y l IH] using pair_ind; intros H; cbn [pack]; constructor.
  - inversion H; subst. unfold nib, byte in *. lia.
  - constructor.
  - inversion H as [|? ? A B]; subst. inversion B; subst. unfold nib, byte in *. lia.
  - inversion H as [|? ? A B]; subst. inversion B; subst. apply IH; auto.
Qed.

Lemma roundtrip_seq count l : 0 <= count < 2 ^ 32 -> Forall (fun i => 0 <= i < count) l -> zlen l <= count ->
  exists code, seq_encode l = Ok code /\ bytes code /\
    forall digest, zlen digest = 16 -> seq_positions (digest ++ code) count = Ok l.
Proof.
  intros Hc Hf Hl. unfold seq_encode.
  destruct (add_all count ltac:(lia) l [] SEQ_INIT [] []) as (s & ns & out & E & Hk); auto.
  { split; cbn.
    - split; [exists []; reflexivity|]. split; [constructor|reflexivity].
    - reflexivity.
    - lia.
    - reflexivity. }
  rewrite E. cbn [bind app] in *. unfold seq_final.
  destruct (flush_run count l s ns out ltac:(lia) Hl Hk) as (s1 & ns1 & D & E1 & (He1 & Hn1 & Hi1) & S1 & L1 & Hd1 & Hs1 & Hnum1 & Hj1 & Ho1 & Ht1).
  rewrite E1. cbn [bind]. destruct He1 as [rest Hdat]. rewrite Hdat, Hi1. unfold SEQ_BYTE_LEN.
  pose proof (zlen_nonneg rest). pose proof (zlen_nonneg ns1). pose proof (Z.div_pos (zlen ns1 + 1) 2).
  rewrite rd_range_in by (rewrite ?zlen_app, ?zlen_map, ?zlen_pack; lia).
  cbn [bind]. rewrite slice_app_exact_l by (rewrite zlen_map, zlen_pack; reflexivity). rewrite stored_map.
  eexists. split; [reflexivity|]. split; [apply pack_bytes; auto|]. intros digest H16.
  unfold seq_positions. replace 16%nat with (Z.to_nat (zlen digest)) by (rewrite H16; reflexivity).
  rewrite skipn_zlen_app. rewrite seq_loop_pack by auto.
  destruct (Z.even (zlen ns1)).
  - rewrite Hd1. cbn [bind]. rewrite Hs1. cbn. congruence.
  - rewrite nib_loop_app, Hd1. cbn [bind nib_loop]. unfold seq_nibble. change (Z.land 0 8 =? 0) with true. cbn [negb].
    unfold shl64. rewrite Hs1. change (0 =? 0) with true. cbn iota. cbn [bind]. rewrite Hnum1.
    unfold seq_number. rewrite Hj1. cbn [Z.lor]. change (0 =? 0) with true. cbn. congruence.
Qed.
