(** * CpioHeaderProofs *)
From Verif Require Import Base BaseLemmas Utils SpecCodec UtilsProofs CpioHeader.

(** Fields in the range of their C types. *)
Definition header_range (h : cpio_header) : Prop :=
  0 <= ch_ino h < 2 ^ 16 /\ 0 <= ch_mode h < 2 ^ 16 /\ 0 <= ch_uid h < 2 ^ 16 /\
  0 <= ch_gid h < 2 ^ 16 /\ 0 <= ch_nlink h < 2 ^ 16 /\ 0 <= ch_mtime h < 2 ^ 32 /\
  0 <= ch_filesize h < 2 ^ 32 /\ 0 <= ch_devmajor h < 2 ^ 8 /\ 0 <= ch_devminor h < 2 ^ 8 /\
  0 <= ch_rdevmajor h < 2 ^ 8 /\ 0 <= ch_rdevminor h < 2 ^ 8 /\ 0 <= ch_namesize h < 2 ^ 16.

Lemma hex_xdigit n : 0 <= n < 16 -> hex_digit (xdigit n) = Some n.
Proof.
  intros H. unfold hex_digit, xdigit. destruct (n <? 10) eqn:E.
  - destruct ((48 <=? 48 + n) && (48 + n <=? 57)) eqn:E1; [f_equal; lia|lia].
  - destruct ((48 <=? 87 + n) && (87 + n <=? 57)) eqn:E1; [lia|].
    destruct ((65 <=? 87 + n) && (87 + n <=? 70)) eqn:E2; [lia|].
    destruct ((97 <=? 87 + n) && (87 + n <=? 102)) eqn:E3; [f_equal; lia|lia].
Qed.

Lemma xdigit_byte n : 0 <= n < 16 -> byte (xdigit n).
Proof. intros. unfold byte, xdigit. destruct (n <? 10) eqn:E; lia. Qed.

Lemma zlen_sprintf v : zlen (sprintf_08x v) = 8.
Proof. reflexivity. Qed.

Lemma sprintf_val v : 0 <= v < 2 ^ 32 -> hex_val_from 0 (sprintf_08x v) = Some v.
Proof.
  intros H. unfold sprintf_08x; cbn [map hex_val_from].
  assert (forall k, 0 <= (v / 16 ^ k) mod 16 < 16) as R.
  { intros. apply Z.mod_pos_bound. lia. }
  rewrite !hex_xdigit by apply R. f_equal.
  assert (forall k, 0 <= k -> v / 16 ^ k = (v / 16 ^ (k + 1)) * 16 + (v / 16 ^ k) mod 16) as S.
  { intros k Hk. rewrite Z.pow_add_r by lia. rewrite <- Z.div_div by (try apply Z.pow_nonzero; lia).
    change (16 ^ 1) with 16. pose proof (Z.div_mod (v / 16 ^ k) 16). lia. }
  pose proof (S 0 ltac:(lia)) as S0. pose proof (S 1 ltac:(lia)) as S1.
  pose proof (S 2 ltac:(lia)) as S2. pose proof (S 3 ltac:(lia)) as S3.
  pose proof (S 4 ltac:(lia)) as S4. pose proof (S 5 ltac:(lia)) as S5.
  pose proof (S 6 ltac:(lia)) as S6. pose proof (S 7 ltac:(lia)) as S7.
  cbn [Z.add Pos.add Pos.succ] in *.
  assert (v / 16 ^ 8 = 0) as E8 by (apply Z.div_small; lia).
  assert (v / 16 ^ 0 = v) as E0 by (apply Z.div_1_r).
  lia.
Qed.

Lemma cpio_field_at pre s post o v :
  o = zlen pre -> zlen s = 8 -> hex_val_from 0 s = Some v ->
  cpio_field (pre ++ s ++ post) o = Ok v.
Proof.
  intros -> Hs Hv. unfold cpio_field. pose proof (zlen_nonneg pre). pose proof (zlen_nonneg post).
  rewrite parse_hexnum_spec by (rewrite ?zlen_app; lia).
  rewrite slice_app_r by lia. rewrite Z.sub_diag.
  rewrite slice_app_exact_l by lia. rewrite Hv. reflexivity.
Qed.

Lemma header_len h : zlen (cpio_header_write h) = 110.
Proof. reflexivity. Qed.

Lemma header_roundtrip h rest : header_range h ->
  cpio_header_read (cpio_header_write h ++ rest) = Ok h.
Proof.
  intros R. unfold header_range in R.
  unfold cpio_header_read.
  assert (exists t, cpio_header_write h ++ rest = CPIO_MAGIC ++ t) as [t Et].
  { eexists. unfold cpio_header_write. rewrite <- app_assoc. reflexivity. }
  rewrite Et at 1. rewrite rd_range_in; try lia.
  2:{ rewrite zlen_app. change (zlen CPIO_MAGIC) with 6. pose proof (zlen_nonneg t). lia. }
  rewrite (slice_app_exact_l CPIO_MAGIC t 6) by reflexivity. cbn [bind]. clear t Et.
  rewrite list_eqb_refl. cbn [negb].
  unfold cpio_header_write. rewrite <- !app_assoc.
  set (s1 := sprintf_08x (ch_ino h)). set (s2 := sprintf_08x (ch_mode h)).
  set (s3 := sprintf_08x (ch_uid h)). set (s4 := sprintf_08x (ch_gid h)).
  set (s5 := sprintf_08x (ch_nlink h)). set (s6 := sprintf_08x (ch_mtime h)).
  set (s7 := sprintf_08x (ch_filesize h)). set (s8 := sprintf_08x (ch_devmajor h)).
  set (s9 := sprintf_08x (ch_devminor h)). set (s10 := sprintf_08x (ch_rdevmajor h)).
  set (s11 := sprintf_08x (ch_rdevminor h)). set (s12 := sprintf_08x (ch_namesize h)).
  set (t := sprintf_08x 0 ++ rest).
  rewrite (cpio_field_at CPIO_MAGIC s1 _ 6 (ch_ino h)) by (try reflexivity; apply sprintf_val; lia).
  cbn [bind].
  rewrite (app_assoc CPIO_MAGIC s1). set (p1 := CPIO_MAGIC ++ s1).
  rewrite (cpio_field_at p1 s2 _ 14 (ch_mode h)) by (try reflexivity; apply sprintf_val; lia).
  cbn [bind].
  rewrite (app_assoc p1 s2). set (p2 := p1 ++ s2).
  rewrite (cpio_field_at p2 s3 _ 22 (ch_uid h)) by (try reflexivity; apply sprintf_val; lia).
  cbn [bind].
  rewrite (app_assoc p2 s3). set (p3 := p2 ++ s3).
  rewrite (cpio_field_at p3 s4 _ 30 (ch_gid h)) by (try reflexivity; apply sprintf_val; lia).
  cbn [bind].
  rewrite (app_assoc p3 s4). set (p4 := p3 ++ s4).
  rewrite (cpio_field_at p4 s5 _ 38 (ch_nlink h)) by (try reflexivity; apply sprintf_val; lia).
  cbn [bind].
  rewrite (app_assoc p4 s5). set (p5 := p4 ++ s5).
  rewrite (cpio_field_at p5 s6 _ 46 (ch_mtime h)) by (try reflexivity; apply sprintf_val; lia).
  cbn [bind].
  rewrite (app_assoc p5 s6). set (p6 := p5 ++ s6).
  rewrite (cpio_field_at p6 s7 _ 54 (ch_filesize h)) by (try reflexivity; apply sprintf_val; lia).
  cbn [bind].
  rewrite (app_assoc p6 s7). set (p7 := p6 ++ s7).
  rewrite (cpio_field_at p7 s8 _ 62 (ch_devmajor h)) by (try reflexivity; apply sprintf_val; lia).
  cbn [bind].
  rewrite (app_assoc p7 s8). set (p8 := p7 ++ s8).
  rewrite (cpio_field_at p8 s9 _ 70 (ch_devminor h)) by (try reflexivity; apply sprintf_val; lia).
  cbn [bind].
  rewrite (app_assoc p8 s9). set (p9 := p8 ++ s9).
  rewrite (cpio_field_at p9 s10 _ 78 (ch_rdevmajor h)) by (try reflexivity; apply sprintf_val; lia).
  cbn [bind].
  rewrite (app_assoc p9 s10). set (p10 := p9 ++ s10).
  rewrite (cpio_field_at p10 s11 _ 86 (ch_rdevminor h)) by (try reflexivity; apply sprintf_val; lia).
  cbn [bind].
  rewrite (app_assoc p10 s11). set (p11 := p10 ++ s11).
  rewrite (cpio_field_at p11 s12 _ 94 (ch_namesize h)) by (try reflexivity; apply sprintf_val; lia).
  cbn [bind].
  rewrite !u16_small, !u32_small, !u8_small by lia. destruct h; reflexivity.
Qed.

Lemma header_write_bytes h : header_range h -> bytes (cpio_header_write h).
Proof.
  intros R. unfold header_range in R.
  assert (forall v, bytes (sprintf_08x v)) as S.
  { intros v. unfold sprintf_08x, bytes. apply Forall_forall. intros x Hx.
    apply in_map_iff in Hx as (k & <- & _). apply xdigit_byte. apply Z.mod_pos_bound. lia. }
  unfold cpio_header_write. rewrite !bytes_app. repeat split; try apply S.
  unfold CPIO_MAGIC, bytes, byte. repeat constructor; lia.
Qed.

(** Rejection: a wrong magic or a bad digit in any of the twelve fields. *)
Lemma cpio_field_bad buffer o : 0 <= o -> o + 8 <= zlen buffer ->
  hex_val_from 0 (slice buffer o 8) = None -> cpio_field buffer o = Err EFormat.
Proof.
  intros. unfold cpio_field. rewrite parse_hexnum_spec by lia. rewrite H1. reflexivity.
Qed.

Lemma cpio_field_cases buffer o : 0 <= o -> o + 8 <= zlen buffer ->
  cpio_field buffer o = match hex_val_from 0 (slice buffer o 8) with
                        | Some v => Ok v | None => Err EFormat end.
Proof. intros. unfold cpio_field. rewrite parse_hexnum_spec by lia. reflexivity. Qed.

Lemma header_read_cases buffer : 110 <= zlen buffer ->
  match cpio_header_read buffer with
  | Ok _ => slice buffer 0 6 = CPIO_MAGIC /\
            forall k, 0 <= k < 12 -> hex_val_from 0 (slice buffer (6 + 8 * k) 8) <> None
  | Err e => e = EFormat /\
             (slice buffer 0 6 <> CPIO_MAGIC \/
              exists k, 0 <= k < 12 /\ hex_val_from 0 (slice buffer (6 + 8 * k) 8) = None)
  | _ => False
  end.
Proof.
  intros Hl. unfold cpio_header_read. rewrite rd_range_in by lia. cbn [bind].
  destruct (list_eqb (slice buffer 0 6) CPIO_MAGIC) eqn:E; cbn [negb].
  2:{ split; auto. left. intros H. rewrite H, list_eqb_refl in E. discriminate. }
  apply list_eqb_spec in E.
  rewrite !cpio_field_cases by lia.
  assert (forall k o, o = 6 + 8 * k -> 0 <= k < 12 ->
          hex_val_from 0 (slice buffer o 8) = None ->
          exists k, 0 <= k < 12 /\ hex_val_from 0 (slice buffer (6 + 8 * k) 8) = None) as N.
  { intros k o -> Hk Hn. eauto. }
  destruct (hex_val_from 0 (slice buffer 6 8)) eqn:F0; cbn [bind];
    [|split; auto; right; apply (N 0 6); auto; lia].
  destruct (hex_val_from 0 (slice buffer 14 8)) eqn:F1; cbn [bind];
    [|split; auto; right; apply (N 1 14); auto; lia].
  destruct (hex_val_from 0 (slice buffer 22 8)) eqn:F2; cbn [bind];
    [|split; auto; right; apply (N 2 22); auto; lia].
  destruct (hex_val_from 0 (slice buffer 30 8)) eqn:F3; cbn [bind];
    [|split; auto; right; apply (N 3 30); auto; lia].
  destruct (hex_val_from 0 (slice buffer 38 8)) eqn:F4; cbn [bind];
    [|split; auto; right; apply (N 4 38); auto; lia].
  destruct (hex_val_from 0 (slice buffer 46 8)) eqn:F5; cbn [bind];
    [|split; auto; right; apply (N 5 46); auto; lia].
  destruct (hex_val_from 0 (slice buffer 54 8)) eqn:F6; cbn [bind];
    [|split; auto; right; apply (N 6 54); auto; lia].
  destruct (hex_val_from 0 (slice buffer 62 8)) eqn:F7; cbn [bind];
    [|split; auto; right; apply (N 7 62); auto; lia].
  destruct (hex_val_from 0 (slice buffer 70 8)) eqn:F8; cbn [bind];
    [|split; auto; right; apply (N 8 70); auto; lia].
  destruct (hex_val_from 0 (slice buffer 78 8)) eqn:F9; cbn [bind];
    [|split; auto; right; apply (N 9 78); auto; lia].
  destruct (hex_val_from 0 (slice buffer 86 8)) eqn:F10; cbn [bind];
    [|split; auto; right; apply (N 10 86); auto; lia].
  destruct (hex_val_from 0 (slice buffer 94 8)) eqn:F11; cbn [bind];
    [|split; auto; right; apply (N 11 94); auto; lia].
  split; auto. intros k Hk.
  assert (k = 0 \/ k = 1 \/ k = 2 \/ k = 3 \/ k = 4 \/ k = 5 \/ k = 6 \/ k = 7 \/
          k = 8 \/ k = 9 \/ k = 10 \/ k = 11) as D by lia.
  repeat destruct D as [-> | D]; try subst k; cbn [Z.mul Z.add Pos.mul Pos.add Pos.succ]; congruence.
Qed.
