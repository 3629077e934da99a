(** * CodecFinal: lemmas behind the properties of PropsCodec *)
From Coq Require Import String.
From Verif Require Import Base BaseLemmas Sat Utils Strerror DeltaComp SpecCodec UtilsProofs
     CpioHeader CpioHeaderProofs Search Diff SearchProofs DiffProofs SpecDelta CopiesProofs.

Lemma sm_all x : 0 <= x < 2 ^ 32 -> x <> 2 ^ 31 ->
  0 <= sm_encode x < 2 ^ 32 /\ sm_encode x = sign_magnitude (s32 x) /\
  sm_decode (sm_encode x) = x.
Proof.
  intros. split; [apply sm_encode_range; auto|].
  split; [apply sm_encode_spec; auto|apply sm_roundtrip; auto].
Qed.

Lemma ext_never_int_min old new addblk d :
  bytes new -> zlen old < 2 ^ 63 -> zlen new < 2 ^ 31 -> new = [] \/ 16 <= zlen new ->
  make_diff old new addblk = Ok d -> zlen (dr_ext d) < 2 ^ 32 ->
  Forall (fun c => 0 <= fst c < 2 ^ 32 /\ s32 (fst c) <> - 2 ^ 31 /\ 0 <= snd c < 2 ^ 31) (dr_ext d).
Proof.
  intros Hb Ho Hn H16 Hd Hx.
  assert (zlen new = 0 \/ HSIZE <= zlen new) as H16'.
  { destruct H16 as [-> | H]; [left; reflexivity|right; unfold HSIZE; lia]. }
  pose proof (make_diff_sat old new addblk Hb Ho Hn H16') as S. rewrite Hd in S. cbn in S.
  destruct (S Hx) as [F _]. eapply Forall_impl; [|exact F].
  intros [a b] (Ha & Hne & Hl); cbn [fst snd] in *. split; auto. split; auto.
  unfold s32. rewrite u32_small by lia. destruct (a <? 2 ^ 31) eqn:E; lia.
Qed.

Lemma be_codec x :
  (0 <= x < 2 ^ 32 -> be_val (create_be32 x) = x /\ parse_be32_at (create_be32 x) 0 = Ok x) /\
  (0 <= x < 2 ^ 64 -> be_val (create_be64 x) = x /\ parse_be64_at (create_be64 x) 0 = Ok x).
Proof.
  split; intros H; split; auto using create_be32_val, create_be64_val,
    parse_create_be32, parse_create_be64.
Qed.

Lemma parse_be16_at_val l o : bytes l -> 0 <= o -> o + 2 <= zlen l ->
  parse_be16_at l o = Ok (be_val (slice l o 2)).
Proof.
  intros Hb Ho Hl. unfold parse_be16_at. rewrite !rd_getz by lia. cbn [bind].
  rewrite parse_be16_val by (apply bytes_getz; auto). f_equal.
  assert (slice l o 2 = [getz l o; getz l (o + 1)]) as ->.
  { apply list_getz_ext. { rewrite zlen_slice by lia. reflexivity. }
    intros i. rewrite zlen_slice by lia. intros Hi. rewrite getz_slice by lia.
    assert (i = 0 \/ i = 1) as [-> | ->] by lia; rewrite ?Z.add_0_r; reflexivity. }
  reflexivity.
Qed.

Lemma be_parse l o : bytes l -> 0 <= o ->
  (o + 2 <= zlen l -> parse_be16_at l o = Ok (be_val (slice l o 2))) /\
  (o + 4 <= zlen l -> parse_be32_at l o = Ok (be_val (slice l o 4))) /\
  (o + 8 <= zlen l -> parse_be64_at l o = Ok (be_val (slice l o 8))).
Proof.
  intros. split; [|split]; intros; auto using parse_be16_at_val, parse_be32_at_val, parse_be64_at_val.
Qed.

Lemma hex_roundtrip l cap : bytes l -> zlen l <= cap ->
  exists s, dump_hex l (zlen l) = Ok s /\ hex_bytes s = Some l /\ parse_hex s cap = Ok (Some l).
Proof.
  intros Hb Hc. destruct (dump_hex_spec l Hb) as (s & E & Hh & Hz & _).
  exists s. split; auto. split; auto. rewrite parse_hex_spec.
  - rewrite Hh; auto.
  - rewrite Hz, Z.even_mul. reflexivity.
  - rewrite Hz, Z.mul_comm, Z.div_mul by lia. auto.
Qed.

Lemma hex_exact s cap : Z.even (zlen s) = true -> zlen s <= 2 * cap ->
  parse_hex s cap = Ok (hex_bytes s).
Proof.
  intros He Hc. apply parse_hex_spec; auto. apply Z.div_le_upper_bound; lia.
Qed.

(** An odd trailing character is ignored without being looked at. *)
Lemma hex_odd s cap c : Z.even (zlen s) = true -> zlen s <= 2 * cap ->
  parse_hex (s ++ [c]) cap = Ok (hex_bytes s).
Proof.
  intros He Hc. unfold parse_hex. apply Z.even_spec in He as [k Hk].
  pose proof (zlen_nonneg s).
  rewrite zlen_app. change (zlen [c]) with 1.
  assert ((zlen s + 1) / 2 = k) as ->.
  { rewrite Hk. replace (2 * k + 1) with (1 + k * 2) by lia. rewrite Z.div_add by lia. reflexivity. }
  (* the loop only reads the first [2 k] characters *)
  assert (forall n str t o acc, (forall i, 0 <= i < o + 2 * Z.of_nat n -> getz (str ++ t) i = getz str i) ->
     0 <= o -> o + 2 * Z.of_nat n <= zlen str ->
     parse_hex_loop n (str ++ t) o cap acc = parse_hex_loop n str o cap acc) as L.
  { induction n as [|n IH]; intros str t o acc Hg Ho Hl; [reflexivity|].
    cbn [parse_hex_loop]. pose proof (zlen_nonneg t).
    rewrite !parse_hexnum_spec by (rewrite ?zlen_app; lia).
    rewrite slice_app_l by lia. cbn [bind]. destruct (hex_val_from 0 (slice str o 2)); auto.
    destruct (zlen acc <? cap); auto. apply IH; try lia. intros i Hi. apply Hg. lia. }
  rewrite L; try lia.
  - assert (k = zlen s / 2) as -> by (rewrite Hk, Z.mul_comm, Z.div_mul; lia).
    change (parse_hex s cap = Ok (hex_bytes s)). apply hex_exact; try lia.
    apply Z.even_spec. eexists; exact Hk.
  - intros i Hi. unfold getz. apply app_nth1. unfold zlen in *. lia.
Qed.

Lemma digest_overflow : exists s l, hex_bytes s = Some l /\ zlen l = 33 /\
  parse_sha256 s 32 = Ub OobWrite /\ parse_md5 s 32 = Ub OobWrite.
Proof.
  exists (repeat 48 66), (repeat 0 33). split; [reflexivity|]. split; [reflexivity|].
  split; reflexivity.
Qed.

Lemma comp_code comp level : supported_comp comp -> 0 <= level < 256 ->
  exists c, encode_comp comp level = Some c /\ 0 <= c < 2 ^ 32 /\ decode_comp c = Some (comp, level).
Proof.
  intros Hc Hl. destruct (encode_decode comp level Hc ltac:(lia)) as (c & E1 & R & E2).
  exists c. split; auto. split; auto. rewrite E2. rewrite Z.mod_small by lia. auto.
Qed.

Lemma decode_exact c : 0 <= c < 2 ^ 32 ->
  decode_comp c =
  match nth_error [0; 1; 2; 1; 2; 3; 4; 6] (Z.to_nat (c mod 256)) with
  | Some comp => Some (comp, (c / 256) mod 256)
  | None => None
  end.
Proof.
  intros H. unfold decode_comp, comp_algo, comp_level.
  change 255 with (Z.ones 8). rewrite !Z.land_ones, Z.shiftr_div_pow2 by lia.
  change (2 ^ 8) with 256.
  assert (0 <= c mod 256 < 256) by (apply Z.mod_pos_bound; lia).
  set (a := c mod 256) in *. set (lv := (c / 256) mod 256).
  destruct (Z_le_dec a 7).
  - assert (a = 0 \/ a = 1 \/ a = 2 \/ a = 3 \/ a = 4 \/ a = 5 \/ a = 6 \/ a = 7) as D by lia.
    repeat destruct D as [-> | D]; try subst a; try (rewrite D); reflexivity.
  - destruct (a =? 0) eqn:E0; [lia|]. destruct ((a =? 1) || (a =? 3)) eqn:E1; [lia|].
    destruct ((a =? 2) || (a =? 4)) eqn:E2; [lia|]. destruct (a =? 5) eqn:E3; [lia|].
    destruct (a =? 6) eqn:E4; [lia|]. destruct (a =? 7) eqn:E5; [lia|].
    destruct (nth_error [0; 1; 2; 1; 2; 3; 4; 6] (Z.to_nat a)) eqn:E; auto.
    assert (nth_error [0; 1; 2; 1; 2; 3; 4; 6] (Z.to_nat a) <> None) as E' by congruence.
    apply nth_error_Some in E'; cbn [Datatypes.length] in E'; lia.
Qed.

Lemma strerror_all : (forall e, drpm_strerror e <> EmptyString) /\
  (forall a b, 0 <= a <= 10 -> drpm_strerror a = drpm_strerror b -> a = b) /\
  (forall e, ~ (0 <= e <= 10) -> drpm_strerror e = "(undefined error value)"%string).
Proof.
  assert (forall e, ~ (0 <= e <= 10) -> drpm_strerror e = "(undefined error value)"%string) as U.
  { intros e H. unfold drpm_strerror.
    repeat match goal with |- context [e =? ?k] => destruct (Z.eqb_spec e k); [lia|] end. reflexivity. }
  split; [|split; auto].
  - intros e. unfold drpm_strerror.
    repeat match goal with |- context [e =? ?k] => destruct (e =? k); [discriminate|] end. discriminate.
  - intros a b Ha H.
    assert (forall e, e = 0 \/ e = 1 \/ e = 2 \/ e = 3 \/ e = 4 \/ e = 5 \/ e = 6 \/ e = 7 \/
            e = 8 \/ e = 9 \/ e = 10 \/ ~ (0 <= e <= 10)) as D by (intros; lia).
    pose proof (D a) as Da. pose proof (D b) as Db. clear D.
    destruct (Z_le_dec 0 b); [destruct (Z_le_dec b 10)|].
    + repeat destruct Da as [-> | Da]; try lia;
        repeat destruct Db as [-> | Db]; try lia; cbn in H; discriminate.
    + rewrite (U b) in H by lia.
      repeat destruct Da as [-> | Da]; try lia; cbn in H; discriminate.
    + rewrite (U b) in H by lia.
      repeat destruct Da as [-> | Da]; try lia; cbn in H; discriminate.
Qed.
