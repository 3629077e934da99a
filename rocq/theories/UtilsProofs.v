(** * UtilsProofs: lemmas about the byte-order and hexadecimal codecs *)
From Verif Require Import Base BaseLemmas Utils DeltaComp SpecCodec.

Lemma land_byte b : byte b -> Z.land 255 b = b.
Proof.
  intros H. rewrite Z.land_comm. change 255 with (Z.ones 8).
  rewrite Z.land_ones by lia. apply Z.mod_small. unfold byte in H. lia.
Qed.

Lemma land_shift b k : 0 <= k -> byte b ->
  Z.land (Z.shiftl 255 k) (Z.shiftl b k) = b * 2 ^ k.
Proof.
  intros Hk H. rewrite <- Z.shiftl_land, land_byte by auto. apply Z.shiftl_mul_pow2; auto.
Qed.

Lemma lor_add a b k : 0 <= k -> 0 <= b < 2 ^ k -> Z.lor (a * 2 ^ k) b = a * 2 ^ k + b.
Proof.
  intros Hk Hb. symmetry. rewrite Z.add_nocarry_lxor.
  - apply Z.lxor_lor.
    apply Z.bits_inj'. intros n Hn. rewrite Z.land_spec, Z.bits_0.
    destruct (Z.lt_ge_cases n k).
    + rewrite Z.mul_pow2_bits_low by lia. auto.
    + rewrite (Z.testbit_eqb b n) by lia.
      rewrite (Z.div_small b). rewrite andb_false_r; auto.
      split; [lia|]. apply Z.lt_le_trans with (2 ^ k); [lia|]. apply Z.pow_le_mono_r; lia.
  - apply Z.bits_inj'. intros n Hn. rewrite Z.land_spec, Z.bits_0.
    destruct (Z.lt_ge_cases n k).
    + rewrite Z.mul_pow2_bits_low by lia. auto.
    + rewrite (Z.testbit_eqb b n) by lia.
      rewrite (Z.div_small b). rewrite andb_false_r; auto.
      split; [lia|]. apply Z.lt_le_trans with (2 ^ k); [lia|]. apply Z.pow_le_mono_r; lia.
Qed.

Lemma parse_be16_val b0 b1 : byte b0 -> byte b1 -> parse_be16 b0 b1 = b0 * 2 ^ 8 + b1.
Proof.
  intros H0 H1. unfold parse_be16.
  change 65280 with (Z.shiftl 255 8). rewrite land_shift, land_byte by (auto; lia).
  apply lor_add; unfold byte in *; lia.
Qed.

Lemma parse_be32_val b0 b1 b2 b3 : byte b0 -> byte b1 -> byte b2 -> byte b3 ->
  parse_be32 b0 b1 b2 b3 = be_val [b0; b1; b2; b3].
Proof.
  intros H0 H1 H2 H3. unfold parse_be32.
  change 65280 with (Z.shiftl 255 8). change 16711680 with (Z.shiftl 255 16).
  change 4278190080 with (Z.shiftl 255 24).
  rewrite !land_shift, land_byte by (auto; lia). unfold byte in *.
  rewrite (lor_add b0 (b1 * 2 ^ 16) 24) by lia.
  replace (b0 * 2 ^ 24 + b1 * 2 ^ 16) with ((b0 * 2 ^ 8 + b1) * 2 ^ 16) by lia.
  rewrite (lor_add _ (b2 * 2 ^ 8) 16) by lia.
  replace ((b0 * 2 ^ 8 + b1) * 2 ^ 16 + b2 * 2 ^ 8) with (((b0 * 2 ^ 8 + b1) * 2 ^ 8 + b2) * 2 ^ 8) by lia.
  rewrite (lor_add _ b3 8) by lia.
  unfold be_val; cbn [fold_left]. lia.
Qed.

Lemma parse_be64_val b0 b1 b2 b3 b4 b5 b6 b7 :
  byte b0 -> byte b1 -> byte b2 -> byte b3 -> byte b4 -> byte b5 -> byte b6 -> byte b7 ->
  parse_be64 b0 b1 b2 b3 b4 b5 b6 b7 = be_val [b0; b1; b2; b3; b4; b5; b6; b7].
Proof.
  intros H0 H1 H2 H3 H4 H5 H6 H7. unfold parse_be64.
  change 65280 with (Z.shiftl 255 8). change 16711680 with (Z.shiftl 255 16).
  change 4278190080 with (Z.shiftl 255 24).
  change 1095216660480 with (Z.shiftl 255 32).
  change 280375465082880 with (Z.shiftl 255 40).
  change 71776119061217280 with (Z.shiftl 255 48).
  change 18374686479671623680 with (Z.shiftl 255 56).
  rewrite !land_shift, land_byte by (auto; lia). unfold byte in *.
  rewrite (lor_add b0 (b1 * 2 ^ 48) 56) by lia.
  replace (b0 * 2 ^ 56 + b1 * 2 ^ 48) with ((b0 * 2 ^ 8 + b1) * 2 ^ 48) by lia.
  set (x1 := b0 * 2 ^ 8 + b1).
  rewrite (lor_add _ (b2 * 2 ^ 40) 48) by lia.
  replace (x1 * 2 ^ 48 + b2 * 2 ^ 40) with ((x1 * 2 ^ 8 + b2) * 2 ^ 40) by lia.
  set (x2 := x1 * 2 ^ 8 + b2).
  rewrite (lor_add _ (b3 * 2 ^ 32) 40) by lia.
  replace (x2 * 2 ^ 40 + b3 * 2 ^ 32) with ((x2 * 2 ^ 8 + b3) * 2 ^ 32) by lia.
  set (x3 := x2 * 2 ^ 8 + b3).
  rewrite (lor_add _ (b4 * 2 ^ 24) 32) by lia.
  replace (x3 * 2 ^ 32 + b4 * 2 ^ 24) with ((x3 * 2 ^ 8 + b4) * 2 ^ 24) by lia.
  set (x4 := x3 * 2 ^ 8 + b4).
  rewrite (lor_add _ (b5 * 2 ^ 16) 24) by lia.
  replace (x4 * 2 ^ 24 + b5 * 2 ^ 16) with ((x4 * 2 ^ 8 + b5) * 2 ^ 16) by lia.
  set (x5 := x4 * 2 ^ 8 + b5).
  rewrite (lor_add _ (b6 * 2 ^ 8) 16) by lia.
  replace (x5 * 2 ^ 16 + b6 * 2 ^ 8) with ((x5 * 2 ^ 8 + b6) * 2 ^ 8) by lia.
  set (x6 := x5 * 2 ^ 8 + b6).
  rewrite (lor_add _ b7 8) by lia.
  unfold be_val; cbn [fold_left]. subst x1 x2 x3 x4 x5 x6. lia.
Qed.

Lemma u8_byte x : byte (u8 x).
Proof. unfold byte, u8. apply (Z.mod_pos_bound x (2 ^ 8)); lia. Qed.

Lemma create_be32_bytes x : bytes (create_be32 x).
Proof. repeat constructor; apply u8_byte. Qed.
Lemma create_be64_bytes x : bytes (create_be64 x).
Proof. repeat constructor; apply u8_byte. Qed.
Lemma zlen_create_be32 x : zlen (create_be32 x) = 4.
Proof. reflexivity. Qed.
Lemma zlen_create_be64 x : zlen (create_be64 x) = 8.
Proof. reflexivity. Qed.

Lemma u8_step x k : 0 <= k ->
  Z.shiftr x (k + 8) * 256 + u8 (Z.shiftr x k) = Z.shiftr x k.
Proof.
  intros. rewrite <- Z.shiftr_shiftr by lia. rewrite (Z.shiftr_div_pow2 _ 8) by lia.
  unfold u8. change (2 ^ 8) with 256. pose proof (Z.div_mod (Z.shiftr x k) 256). lia.
Qed.

Lemma shiftr_small x k : 0 <= k -> 0 <= x < 2 ^ k -> Z.shiftr x k = 0.
Proof. intros. rewrite Z.shiftr_div_pow2 by lia. apply Z.div_small; lia. Qed.

Lemma create_be32_val x : 0 <= x < 2 ^ 32 -> be_val (create_be32 x) = x.
Proof.
  intros H. unfold be_val, create_be32; cbn [fold_left].
  pose proof (u8_step x 0 ltac:(lia)). pose proof (u8_step x 8 ltac:(lia)).
  pose proof (u8_step x 16 ltac:(lia)). pose proof (u8_step x 24 ltac:(lia)).
  rewrite Z.shiftr_0_r in *.
  pose proof (shiftr_small x 32 ltac:(lia) ltac:(lia)).
  cbn [Z.add Pos.add Pos.succ] in *. lia.
Qed.

Lemma create_be64_val x : 0 <= x < 2 ^ 64 -> be_val (create_be64 x) = x.
Proof.
  intros H. unfold be_val, create_be64; cbn [fold_left].
  pose proof (u8_step x 0 ltac:(lia)). pose proof (u8_step x 8 ltac:(lia)).
  pose proof (u8_step x 16 ltac:(lia)). pose proof (u8_step x 24 ltac:(lia)).
  pose proof (u8_step x 32 ltac:(lia)). pose proof (u8_step x 40 ltac:(lia)).
  pose proof (u8_step x 48 ltac:(lia)). pose proof (u8_step x 56 ltac:(lia)).
  rewrite Z.shiftr_0_r in *.
  pose proof (shiftr_small x 64 ltac:(lia) ltac:(lia)).
  cbn [Z.add Pos.add Pos.succ Pos.add_carry] in *. lia.
Qed.

Lemma parse_be32_at_val l o : bytes l -> 0 <= o -> o + 4 <= zlen l ->
  parse_be32_at l o = Ok (be_val (slice l o 4)).
Proof.
  intros Hb Ho Hl. unfold parse_be32_at.
  rewrite !rd_getz by lia. cbn [bind].
  rewrite parse_be32_val by (apply bytes_getz; auto). f_equal. f_equal.
  apply list_getz_ext. { rewrite zlen_slice by lia. reflexivity. }
  intros i Hi. change (zlen _) with 4 in Hi.
  rewrite getz_slice by lia.
  assert (i = 0 \/ i = 1 \/ i = 2 \/ i = 3) as [-> | [-> | [-> | ->]]] by lia;
    rewrite ?Z.add_0_r; reflexivity.
Qed.

Lemma parse_be64_at_val l o : bytes l -> 0 <= o -> o + 8 <= zlen l ->
  parse_be64_at l o = Ok (be_val (slice l o 8)).
Proof.
  intros Hb Ho Hl. unfold parse_be64_at.
  rewrite !rd_getz by lia. cbn [bind].
  rewrite parse_be64_val by (apply bytes_getz; auto). f_equal. f_equal.
  apply list_getz_ext. { rewrite zlen_slice by lia. reflexivity. }
  intros i Hi. change (zlen _) with 8 in Hi.
  rewrite getz_slice by lia.
  assert (i = 0 \/ i = 1 \/ i = 2 \/ i = 3 \/ i = 4 \/ i = 5 \/ i = 6 \/ i = 7)
    as [-> | [-> | [-> | [-> | [-> | [-> | [-> | ->]]]]]]] by lia;
    rewrite ?Z.add_0_r; reflexivity.
Qed.

Lemma be_val_range l : bytes l -> 0 <= be_val l < 2 ^ (8 * zlen l).
Proof.
  unfold be_val. rewrite <- (rev_involutive l).
  induction (rev l) as [|b r IH]; intros H.
  - cbn. lia.
  - cbn [rev] in *. rewrite fold_left_app; cbn [fold_left].
    apply Forall_app in H as [H1 H2]. inversion H2; subst. specialize (IH H1).
    rewrite zlen_app, Z.mul_add_distr_l. change (8 * zlen [b]) with 8.
    rewrite Z.pow_add_r by (pose proof (zlen_nonneg (rev r)); lia).
    unfold byte in *. change (2 ^ 8) with 256. lia.
Qed.

Lemma parse_create_be32 x : 0 <= x < 2 ^ 32 -> parse_be32_at (create_be32 x) 0 = Ok x.
Proof.
  intros H. rewrite parse_be32_at_val; [|apply create_be32_bytes|lia|reflexivity].
  f_equal. change (slice (create_be32 x) 0 4) with (create_be32 x). apply create_be32_val; auto.
Qed.
Lemma parse_create_be64 x : 0 <= x < 2 ^ 64 -> parse_be64_at (create_be64 x) 0 = Ok x.
Proof.
  intros H. rewrite parse_be64_at_val; [|apply create_be64_bytes|lia|reflexivity].
  f_equal. change (slice (create_be64 x) 0 8) with (create_be64 x). apply create_be64_val; auto.
Qed.

Lemma shiftr_cons y d k : 0 <= k -> byte d -> Z.shiftr (y * 256 + d) (8 + k) = Z.shiftr y k.
Proof.
  intros Hk Hd. unfold byte in Hd. rewrite <- Z.shiftr_shiftr by lia. f_equal.
  rewrite Z.shiftr_div_pow2 by lia. change (2 ^ 8) with 256.
  rewrite Z.div_add_l, Z.div_small by lia. lia.
Qed.
Lemma u8_cons y d : byte d -> u8 (y * 256 + d) = d.
Proof.
  intros Hd. unfold byte in Hd. unfold u8. change (2 ^ 8) with 256.
  rewrite Z.add_comm, Z.mod_add by lia. apply Z.mod_small; lia.
Qed.

Lemma create_parse_be32 l : bytes l -> zlen l = 4 ->
  exists x, parse_be32_at l 0 = Ok x /\ create_be32 x = l.
Proof.
  intros Hb Hl. destruct l as [|a [|b [|c [|d [|]]]]]; cbn in Hl; try lia.
  exists (be_val [a; b; c; d]). split.
  { rewrite parse_be32_at_val; auto; try lia. change (zlen [a; b; c; d]) with 4. lia. }
  inversion_clear Hb. inversion_clear H0. inversion_clear H2. inversion_clear H3.
  unfold create_be32, be_val; cbn [fold_left].
  rewrite (shiftr_cons _ d 16), (shiftr_cons _ c 8), (shiftr_cons _ b 0), Z.shiftr_0_r by (auto; lia).
  rewrite (shiftr_cons _ d 8), (shiftr_cons _ c 0), Z.shiftr_0_r by (auto; lia).
  rewrite (shiftr_cons _ d 0), Z.shiftr_0_r by (auto; lia).
  rewrite !u8_cons by auto. reflexivity.
Qed.

(** ** Hexadecimal *)
Lemma digits_val n : 0 <= n < 16 ->
  exists c, rd digits n = Ok c /\ hex_digit c = Some n /\ isxdigit c = true /\ c <> 0 /\ byte c
            /\ c <> 45 /\ c <> 10.
Proof.
  intros H.
  assert (n = 0 \/ n = 1 \/ n = 2 \/ n = 3 \/ n = 4 \/ n = 5 \/ n = 6 \/ n = 7 \/
          n = 8 \/ n = 9 \/ n = 10 \/ n = 11 \/ n = 12 \/ n = 13 \/ n = 14 \/ n = 15) as D by lia.
  repeat destruct D as [-> | D]; try subst n;
    (eexists; split; [reflexivity|]; unfold byte; repeat split; try reflexivity; lia).
Qed.

Lemma hex_digit_char c :
  hex_digit c = if isdigit c then Some (c - 48)
                else if isxdigit c then Some (toupper c - 65 + 10) else None.
Proof.
  unfold hex_digit, isdigit, isxdigit, isdigit, toupper.
  destruct ((48 <=? c) && (c <=? 57)) eqn:E1; cbn [orb]; auto.
  destruct ((65 <=? c) && (c <=? 70)) eqn:E2; cbn [orb].
  - destruct ((97 <=? c) && (c <=? 122)) eqn:E3; [lia|]. f_equal; lia.
  - destruct ((97 <=? c) && (c <=? 102)) eqn:E3; auto.
    destruct ((97 <=? c) && (c <=? 122)) eqn:E4; [f_equal; lia|lia].
Qed.

Lemma hex_digit_range c n : hex_digit c = Some n -> 0 <= n < 16.
Proof.
  unfold hex_digit.
  destruct ((48 <=? c) && (c <=? 57)) eqn:E1; [intros H; inversion H; lia|].
  destruct ((65 <=? c) && (c <=? 70)) eqn:E2; [intros H; inversion H; lia|].
  destruct ((97 <=? c) && (c <=? 102)) eqn:E3; intros H; inversion H; lia.
Qed.

(** The digit loop computes the positional value. *)
Lemma hexnum_loop_spec n : forall str o ret,
  0 <= o -> o + Z.of_nat n <= zlen str -> 0 <= ret -> (ret + 1) * 16 ^ Z.of_nat n <= 2 ^ 64 ->
  hexnum_loop n str o ret =
  Ok (hex_val_from ret (slice str o (Z.of_nat n))).
Proof.
  induction n as [|n IH]; intros str o ret Ho Hl Hr Hb.
  - cbn [hexnum_loop]. rewrite slice_nil_len by lia. reflexivity.
  - cbn [hexnum_loop].
    replace (Z.of_nat (S n)) with (1 + Z.of_nat n) in * by lia.
    rewrite slice_split by lia.
    rewrite rd_getz by lia. cbn [bind].
    assert (slice str o 1 = [getz str o]) as ->.
    { apply list_getz_ext. { rewrite zlen_slice by lia. reflexivity. }
      rewrite zlen_slice by lia. intros i Hi. rewrite getz_slice by lia.
      replace i with 0 by lia. rewrite Z.add_0_r. reflexivity. }
    set (c := getz str o). cbn [app hex_val_from].
    rewrite hex_digit_char.
    rewrite Z.pow_add_r in Hb by lia. change (16 ^ 1) with 16 in Hb.
    assert (Hp : 0 < 16 ^ Z.of_nat n) by (apply Z.pow_pos_nonneg; lia).
    destruct (isdigit c) eqn:E.
    + assert (0 <= c - 48 < 16) by (unfold isdigit in E; lia).
      assert ((ret * 16 + (c - 48) + 1) * 16 ^ Z.of_nat n <= 2 ^ 64) by nia.
      rewrite u64_small by nia. apply IH; lia.
    + destruct (isxdigit c) eqn:E2; auto.
      assert (0 <= toupper c - 65 + 10 < 16).
      { apply (hex_digit_range c). rewrite hex_digit_char, E, E2. auto. }
      assert ((ret * 16 + (toupper c - 65 + 10) + 1) * 16 ^ Z.of_nat n <= 2 ^ 64) by nia.
      rewrite u64_small by nia. apply IH; lia.
Qed.

Lemma parse_hexnum_spec str o size :
  0 <= o -> 0 <= size <= 16 -> o + size <= zlen str ->
  parse_hexnum str o size = Ok (hex_val_from 0 (slice str o size)).
Proof.
  intros Ho Hs Hl. unfold parse_hexnum. rewrite hexnum_loop_spec.
  - rewrite Z2Nat.id by lia. auto.
  - auto.
  - rewrite Z2Nat.id by lia. auto.
  - lia.
  - rewrite Z2Nat.id by lia. rewrite Z.mul_1_l.
    change (2 ^ 64) with (16 ^ 16). apply Z.pow_le_mono_r; lia.
Qed.

(** ** dump_hex *)
Lemma dump_hex_spec l : bytes l ->
  exists s, dump_hex l (zlen l) = Ok s /\ hex_bytes s = Some l /\ zlen s = 2 * zlen l /\
            Forall (fun c => isxdigit c = true /\ c <> 0 /\ byte c /\ c <> 45 /\ c <> 10) s.
Proof.
  intros Hb. unfold dump_hex.
  assert (forall (n : nat) acc accs, Z.of_nat n <= zlen l ->
    hex_bytes accs = Some acc ->
    Forall (fun c => isxdigit c = true /\ c <> 0 /\ byte c /\ c <> 45 /\ c <> 10) accs ->
    exists s, dump_hex_loop n l accs = Ok s /\
      hex_bytes s = Some (firstn n l ++ acc) /\ zlen s = 2 * Z.of_nat n + zlen accs /\
      Forall (fun c => isxdigit c = true /\ c <> 0 /\ byte c /\ c <> 45 /\ c <> 10) s) as L.
  { induction n as [|n IH]; intros acc accs Hn He HF.
    - exists accs. cbn. repeat split; auto; lia.
    - cbn [dump_hex_loop]. rewrite rd_getz by lia. cbn [bind].
      set (b := getz l (Z.of_nat n)). assert (byte b) as Hbb by (apply bytes_getz; auto).
      unfold byte in Hbb.
      assert (Z.land (Z.shiftr b 4) 15 = b / 16) as ->.
      { change 15 with (Z.ones 4). rewrite Z.land_ones, Z.shiftr_div_pow2 by lia.
        change (2 ^ 4) with 16. apply Z.mod_small. Z.div_mod_to_equations; lia. }
      assert (Z.land b 15 = b mod 16) as ->.
      { change 15 with (Z.ones 4). rewrite Z.land_ones by lia. reflexivity. }
      destruct (digits_val (b / 16)) as (hi & Hhi & Vhi & Xhi & Nhi & Bhi & Dhi & Lhi).
      { Z.div_mod_to_equations; lia. }
      destruct (digits_val (b mod 16)) as (lo & Hlo & Vlo & Xlo & Nlo & Blo & Dlo & Llo).
      { Z.div_mod_to_equations; lia. }
      rewrite Hhi; cbn [bind]. rewrite Hlo; cbn [bind].
      destruct (IH (b :: acc) (hi :: lo :: accs)) as (s & E1 & E2 & E3 & E4).
      + lia.
      + cbn [hex_bytes]. rewrite Vhi, Vlo, He. repeat f_equal.
        Z.div_mod_to_equations; lia.
      + repeat (constructor; [tauto|]). auto.
      + exists s. split; [auto|]. split; [|split; [|auto]].
        * rewrite E2. f_equal.
          assert (firstn (S n) l = firstn n l ++ [b]) as ->.
          { assert (n < length l)%nat by (unfold zlen in *; lia).
            subst b. unfold getz. rewrite Nat2Z.id. clear - H.
            revert l H; induction n as [|n IH]; destruct l; cbn; intros; try lia; auto.
            f_equal. apply IH. lia. }
          rewrite <- app_assoc. reflexivity.
        * rewrite E3, !zlen_cons. lia. }
  destruct (L (Z.to_nat (zlen l)) [] []) as (s & E1 & E2 & E3 & E4).
  - unfold zlen; lia.
  - reflexivity.
  - constructor.
  - exists s. rewrite E1. split; auto. split.
    + rewrite E2. rewrite app_nil_r. f_equal. unfold zlen. rewrite Nat2Z.id. apply firstn_all.
    + split; auto. rewrite E3, zlen_nil. unfold zlen; lia.
Qed.

(** ** parse_hex *)
Lemma hex_val_two a b :
  hex_val_from 0 [a; b] =
  match hex_digit a, hex_digit b with Some x, Some y => Some (x * 16 + y) | _, _ => None end.
Proof.
  cbn [hex_val_from]. destruct (hex_digit a); auto.
Qed.

Lemma hex_bytes_ext : forall s l, hex_bytes s = Some l ->
  zlen s = 2 * zlen l /\ bytes l.
Proof.
  assert (forall n s l, (length s <= n)%nat -> hex_bytes s = Some l ->
                        zlen s = 2 * zlen l /\ bytes l) as L.
  2:{ intros s l. apply (L (length s)). lia. }
  induction n as [|n IH]; intros s l Hn; destruct s as [|a [|b s]]; cbn [hex_bytes length] in *;
    try lia; try discriminate; try (intros H; inversion H; split; [reflexivity|constructor]).
  destruct (hex_digit a) eqn:Ea; [|discriminate].
  destruct (hex_digit b) eqn:Eb; [|discriminate].
  destruct (hex_bytes s) as [r|] eqn:E; [|discriminate]. intros H; inversion H; subst.
  destruct (IH s r ltac:(lia) E). rewrite !zlen_cons. split; [lia|]. constructor; auto.
  apply hex_digit_range in Ea, Eb. unfold byte. lia.
Qed.

Lemma slice_two (s : list Z) o a b t :
  0 <= o -> skipn (Z.to_nat o) s = a :: b :: t -> slice s o 2 = [a; b].
Proof. intros Ho E. unfold slice. rewrite E. reflexivity. Qed.

Lemma skipn_step {A} (s : list A) o a b t :
  0 <= o -> skipn (Z.to_nat o) s = a :: b :: t -> skipn (Z.to_nat (o + 2)) s = t.
Proof.
  intros Ho E. replace (Z.to_nat (o + 2)) with (2 + Z.to_nat o)%nat by lia.
  rewrite <- skipn_skipn, E. reflexivity.
Qed.

(** The loop agrees with the specification on strings of even length. *)
Lemma parse_hex_loop_spec n : forall str o cap acc t,
  0 <= o -> skipn (Z.to_nat o) str = t -> length t = (2 * n)%nat ->
  zlen acc + Z.of_nat n <= cap -> o + zlen t = zlen str ->
  parse_hex_loop n str o cap acc =
  Ok (match hex_bytes t with Some l => Some (acc ++ l) | None => None end).
Proof.
  induction n as [|n IH]; intros str o cap acc t Ho Es Hl Hc Hz.
  - destruct t; [|cbn in Hl; lia]. cbn. rewrite app_nil_r. reflexivity.
  - destruct t as [|a [|b t]]; [cbn in Hl; lia|cbn in Hl; lia|].
    cbn [parse_hex_loop hex_bytes].
    rewrite !zlen_cons in Hz. pose proof (zlen_nonneg t).
    rewrite parse_hexnum_spec by lia. rewrite (slice_two _ _ _ _ _ Ho Es), hex_val_two.
    cbn [bind]. destruct (hex_digit a) as [x|] eqn:Ea; auto.
    destruct (hex_digit b) as [y|] eqn:Eb; auto.
    destruct (zlen acc <? cap) eqn:Ec; [|lia].
    apply hex_digit_range in Ea, Eb.
    rewrite u8_small by lia.
    rewrite (IH str (o + 2) cap (acc ++ [x * 16 + y]) t).
    + destruct (hex_bytes t); auto. rewrite <- app_assoc. reflexivity.
    + lia.
    + apply (skipn_step _ _ _ _ _ Ho Es).
    + cbn in Hl. lia.
    + rewrite zlen_app, zlen_cons, zlen_nil. lia.
    + lia.
Qed.

Lemma parse_hex_spec str cap : Z.even (zlen str) = true -> zlen str / 2 <= cap ->
  parse_hex str cap = Ok (hex_bytes str).
Proof.
  intros He Hc. unfold parse_hex.
  apply Z.even_spec in He as [k Hk].
  assert (zlen str / 2 = k) by (rewrite Hk, Z.mul_comm; apply Z.div_mul; lia).
  pose proof (zlen_nonneg str).
  rewrite (parse_hex_loop_spec _ str 0 cap [] str); try reflexivity; try lia.
  - destruct (hex_bytes str); auto.
  - unfold zlen in *. lia.
  - rewrite zlen_nil. lia.
Qed.

(** A digest that is too long for the buffer overflows it. *)
Lemma parse_hex_overflow str cap l : hex_bytes str = Some l -> 0 <= cap < zlen l ->
  parse_hex str cap = Ub OobWrite.
Proof.
  intros He Hc. unfold parse_hex.
  destruct (hex_bytes_ext _ _ He) as [Hs Hb].
  assert (forall n t o acc l', 0 <= o -> skipn (Z.to_nat o) str = t -> length t = (2 * n)%nat ->
     o + zlen t = zlen str -> hex_bytes t = Some l' -> zlen acc <= cap < zlen acc + zlen l' ->
     parse_hex_loop n str o cap acc = Ub OobWrite) as L.
  { induction n as [|n IH]; intros t o acc l' Ho Es Hl Hz Ht Ha.
    - destruct t; [|cbn in Hl; lia]. cbn in Ht. inversion Ht; subst. rewrite zlen_nil in Ha. lia.
    - destruct t as [|a [|b t]]; [cbn in Hl; lia|cbn in Hl; lia|].
      cbn [parse_hex_loop]. cbn [hex_bytes] in Ht.
      rewrite !zlen_cons in Hz. pose proof (zlen_nonneg t).
      rewrite parse_hexnum_spec by lia. rewrite (slice_two _ _ _ _ _ Ho Es), hex_val_two.
      cbn [bind]. destruct (hex_digit a) as [x|] eqn:Ea; [|discriminate].
      destruct (hex_digit b) as [y|] eqn:Eb; [|discriminate].
      destruct (hex_bytes t) as [l2|] eqn:El; [|discriminate]. inversion Ht; subst l'.
      rewrite zlen_cons in Ha.
      destruct (zlen acc <? cap) eqn:Ec; auto.
      apply (IH t (o + 2) _ l2); auto; try lia.
      + apply (skipn_step _ _ _ _ _ Ho Es).
      + cbn in Hl; lia.
      + rewrite zlen_app, zlen_cons, zlen_nil. lia. }
  apply (L _ str 0 [] l); auto; try lia.
  - unfold zlen in *. rewrite Hs, Z.mul_comm, Z.div_mul by lia. lia.
Qed.

(** ** Compression codes *)
Lemma mkcomp_small code level : 0 <= code < 256 -> 0 <= level < 2 ^ 16 ->
  mkcomp code level = level * 2 ^ 8 + code.
Proof.
  intros Hc Hl. unfold mkcomp. rewrite Z.lor_comm, Z.shiftl_mul_pow2 by lia.
  rewrite lor_add by lia. apply u32_small. lia.
Qed.

Lemma comp_algo_mk code level : 0 <= code < 256 -> 0 <= level ->
  comp_algo (level * 2 ^ 8 + code) = code.
Proof.
  intros. unfold comp_algo. change 255 with (Z.ones 8). rewrite Z.land_ones by lia.
  change (2 ^ 8) with 256. rewrite Z.add_comm, Z.mod_add by lia. apply Z.mod_small; lia.
Qed.
Lemma comp_level_mk code level : 0 <= code < 256 -> 0 <= level ->
  comp_level (level * 2 ^ 8 + code) = level mod 256.
Proof.
  intros. unfold comp_level. change 255 with (Z.ones 8). rewrite Z.land_ones by lia.
  rewrite Z.shiftr_div_pow2 by lia. rewrite Z.add_comm, Z.div_add by lia.
  rewrite Z.div_small by lia. reflexivity.
Qed.

Lemma encode_decode comp level :
  supported_comp comp -> 0 <= level < 2 ^ 16 ->
  exists c, encode_comp comp level = Some c /\ 0 <= c < 2 ^ 32 /\
            decode_comp c = Some (comp, level mod 256).
Proof.
  intros Hc Hl. unfold supported_comp in Hc.
  assert (forall code, 0 <= code < 256 -> 0 <= mkcomp code level < 2 ^ 32) as R.
  { intros. rewrite mkcomp_small by lia. lia. }
  cbn [In] in Hc.
  destruct Hc as [<- | [<- | [<- | [<- | [<- | [<- | []]]]]]];
    (eexists; split; [reflexivity|]; split; [apply R; lia|];
     rewrite mkcomp_small by lia; unfold decode_comp;
     rewrite comp_algo_mk, comp_level_mk by lia; reflexivity).
Qed.

(** ** Sign-magnitude *)
Lemma sm_roundtrip x : 0 <= x < 2 ^ 32 -> x <> 2 ^ 31 -> sm_decode (sm_encode x) = x.
Proof.
  intros Hx Hn. unfold sm_encode, sm_decode, s32, twos_complement.
  rewrite (u32_small x) by auto.
  destruct (x <? 2 ^ 31) eqn:E.
  - destruct (x <? 0) eqn:E0; [lia|].
    rewrite Z.testbit_eqb by lia. rewrite Z.div_small by lia. reflexivity.
  - destruct (x - 2 ^ 32 <? 0) eqn:E0; [|lia].
    assert (u32 (u32 (Z.lnot x) + 1) = 2 ^ 32 - x) as ->.
    { unfold u32, Z.lnot, Z.pred. Z.div_mod_to_equations. lia. }
    assert (Z.lor (2 ^ 32 - x) (2 ^ 31) = 1 * 2 ^ 31 + (2 ^ 32 - x)) as ->.
    { rewrite Z.lor_comm. rewrite <- (lor_add 1 (2 ^ 32 - x) 31) by lia. rewrite Z.mul_1_l. auto. }
    rewrite Z.testbit_eqb by lia.
    assert ((1 * 2 ^ 31 + (2 ^ 32 - x)) / 2 ^ 31 = 1) as ->.
    { rewrite Z.div_add_l by lia. rewrite Z.div_small by lia. reflexivity. }
    change (1 mod 2 =? 1) with true. cbv iota.
    change (2 ^ 31 - 1) with (Z.ones 31). rewrite Z.land_ones by lia.
    rewrite (Z.add_comm (1 * 2 ^ 31)), Z.mod_add by lia. rewrite Z.mod_small by lia.
    unfold u32, Z.lnot, Z.pred. Z.div_mod_to_equations. lia.
Qed.

Lemma sm_encode_range x : 0 <= x < 2 ^ 32 -> 0 <= sm_encode x < 2 ^ 32.
Proof.
  intros Hx. unfold sm_encode, s32, twos_complement. rewrite (u32_small x) by auto.
  destruct (x <? 2 ^ 31) eqn:E.
  - destruct (x <? 0) eqn:E1; lia.
  - destruct (x - 2 ^ 32 <? 0) eqn:E0; [|lia].
    set (y := u32 (u32 (Z.lnot x) + 1)).
    assert (0 <= y < 2 ^ 32) by apply u32_range.
    split; [apply Z.lor_nonneg; lia|].
    destruct (Z.eq_dec (Z.lor y (2 ^ 31)) 0); [lia|].
    apply Z.log2_lt_pow2.
    + pose proof (Z.lor_nonneg y (2 ^ 31)). lia.
    + rewrite Z.log2_lor by lia. change (Z.log2 (2 ^ 31)) with 31.
      destruct (Z.eq_dec y 0) as [->|]; [cbn; lia|].
      assert (Z.log2 y < 32) by (apply Z.log2_lt_pow2; lia). lia.
Qed.

(** The encoder produces the documented sign-magnitude form. *)
Lemma sm_encode_spec x : 0 <= x < 2 ^ 32 -> x <> 2 ^ 31 ->
  sm_encode x = sign_magnitude (s32 x).
Proof.
  intros Hx Hn. unfold sm_encode, sign_magnitude, s32, twos_complement.
  rewrite (u32_small x) by auto.
  destruct (x <? 2 ^ 31) eqn:E.
  - destruct (x <? 0) eqn:E0; [lia|auto].
  - destruct (x - 2 ^ 32 <? 0) eqn:E0; [|lia].
    assert (u32 (u32 (Z.lnot x) + 1) = 2 ^ 32 - x) as ->.
    { unfold u32, Z.lnot, Z.pred. Z.div_mod_to_equations. lia. }
    rewrite Z.lor_comm. rewrite <- (Z.mul_1_l (2 ^ 31)) at 1. rewrite lor_add by lia. lia.
Qed.
