(** * ArchiveMain: the main loop of the archive parser *)
From Verif Require Import Base BaseLemmas Utils SpecCodec UtilsProofs CpioHeader CpioHeaderProofs CodecFinal
     Rpm FormatFinal Seq SeqProofs Expand Archive SpecArchive ArchiveProofs.

(** ** Headers and names *)
Lemma hex_val_bound : forall s a v, 0 <= a -> hex_val_from a s = Some v -> 0 <= v < (a + 1) * 16 ^ zlen s.
Proof.
  induction s as [|c s IH]; intros a v Ha H; cbn [hex_val_from] in H.
  - injection H as <-. change (zlen []) with 0. rewrite Z.pow_0_r. lia.
  - destruct (hex_digit c) as [d|] eqn:E; [|discriminate].
    assert (Hd : 0 <= d < 16).
    { unfold hex_digit in E. destruct (_ && _) eqn:E1; [injection E as <-; lia|].
      destruct ((65 <=? c) && _) eqn:E2; [injection E as <-; lia|].
      destruct ((97 <=? c) && _) eqn:E3; [injection E as <-; lia|discriminate]. }
    apply IH in H; [|lia]. rewrite zlen_cons. pose proof (zlen_nonneg s). rewrite Z.pow_add_r by lia. change (16 ^ 1) with 16.
    assert (0 < 16 ^ zlen s) by (apply Z.pow_pos_nonneg; lia). nia.
Qed.

Lemma field_slice (archive : list Z) o k : 0 <= o -> o + 110 <= zlen archive -> 0 <= k < 12 ->
  slice (slice archive o 110) (6 + 8 * k) 8 = slice archive (o + 6 + 8 * k) 8.
Proof. intros. rewrite slice_slice by lia. f_equal. lia. Qed.

Lemma header_read_iff archive o : 0 <= o -> o + 110 <= zlen archive -> forall h,
  cpio_header_read (slice archive o 110) = Ok h ->
  header_at archive o (ch_namesize h) (ch_filesize h).
Proof.
  intros Ho Hl h H. set (b := slice archive o 110) in *.
  assert (Hb : zlen b = 110) by (apply zlen_slice; lia).
  assert (Hf : forall k, 0 <= k < 12 -> field_at archive o k = hex_val_from 0 (slice b (6 + 8 * k) 8)).
  { intros k Hk. unfold field_at, b. rewrite field_slice by lia. reflexivity. }
  pose proof (header_read_cases b ltac:(lia)) as Hc. rewrite H in Hc. destruct Hc as [Hm Hn].
  unfold cpio_header_read in H. rewrite rd_range_in in H by lia. cbn [bind] in H.
  rewrite Hm, list_eqb_refl in H. cbn [negb] in H.
  rewrite !cpio_field_cases in H by lia.
  pose proof (Hf 6 ltac:(lia)) as F6. pose proof (Hf 11 ltac:(lia)) as F11.
  change (6 + 8 * 6) with 54 in F6. change (6 + 8 * 11) with 94 in F11.
  destruct (hex_val_from 0 (slice b 6 8)); cbn [bind] in H; [|discriminate].
  destruct (hex_val_from 0 (slice b 14 8)); cbn [bind] in H; [|discriminate].
  destruct (hex_val_from 0 (slice b 22 8)); cbn [bind] in H; [|discriminate].
  destruct (hex_val_from 0 (slice b 30 8)); cbn [bind] in H; [|discriminate].
  destruct (hex_val_from 0 (slice b 38 8)); cbn [bind] in H; [|discriminate].
  destruct (hex_val_from 0 (slice b 46 8)); cbn [bind] in H; [|discriminate].
  destruct (hex_val_from 0 (slice b 54 8)) as [fsz|] eqn:E6; cbn [bind] in H; [|discriminate].
  destruct (hex_val_from 0 (slice b 62 8)); cbn [bind] in H; [|discriminate].
  destruct (hex_val_from 0 (slice b 70 8)); cbn [bind] in H; [|discriminate].
  destruct (hex_val_from 0 (slice b 78 8)); cbn [bind] in H; [|discriminate].
  destruct (hex_val_from 0 (slice b 86 8)); cbn [bind] in H; [|discriminate].
  destruct (hex_val_from 0 (slice b 94 8)) as [nsz|] eqn:E11; cbn [bind] in H; [|discriminate].
  injection H as <-. cbn [ch_namesize ch_filesize].
  assert (Hfs : 0 <= fsz < 2 ^ 32).
  { pose proof (hex_val_bound _ 0 fsz ltac:(lia) E6) as Hbd. rewrite zlen_slice in Hbd by lia. exact Hbd. }
  split.
  - lia.
  - rewrite <- Hm. unfold b. rewrite slice_slice by lia. f_equal. lia.
  - intros k Hk. rewrite Hf by lia. apply Hn. lia.
  - rewrite F6, u32_small by lia. reflexivity.
  - exists nsz. split; [auto|reflexivity].
Qed.

Lemma header_read_at archive o namesize size : header_at archive o namesize size ->
  exists h, cpio_header_read (slice archive o 110) = Ok h /\ ch_namesize h = namesize /\ ch_filesize h = size.
Proof.
  intros [[Ho Hl] Hm Hf Hs (n & Hn & ->)].
  pose proof (header_read_cases (slice archive o 110)) as Hc. rewrite zlen_slice in Hc by lia. specialize (Hc ltac:(lia)).
  destruct (cpio_header_read (slice archive o 110)) as [h|e|u|] eqn:E.
  - exists h. destruct (header_read_iff archive o Ho Hl h E) as [_ _ _ Hs' (n' & Hn' & Hnn)].
    split; [auto|]. rewrite Hs in Hs'. rewrite Hn in Hn'. injection Hs' as <-. injection Hn' as <-. auto.
  - destruct Hc as [_ [Hc|(k & Hk & Hc)]].
    + exfalso. apply Hc. rewrite slice_slice by lia. rewrite Z.add_0_r. auto.
    + exfalso. apply (Hf k Hk). unfold field_at. rewrite <- field_slice by lia. auto.
  - destruct Hc.
  - destruct Hc.
Qed.

Lemma header_size_range archive o namesize size : header_at archive o namesize size ->
  0 <= size < 2 ^ 32 /\ 0 <= namesize < 2 ^ 16.
Proof.
  intros [[Ho Hl] Hm Hf Hs (n & Hn & ->)]. split; [|apply Z.mod_pos_bound; lia].
  pose proof (hex_val_bound _ 0 size ltac:(lia) Hs) as Hbd. rewrite zlen_slice in Hbd by lia. exact Hbd.
Qed.

Lemma name_slice (archive : list Z) o n : 0 < n ->
  firstn (Z.to_nat (n - 1)) (slice archive o n) = slice archive o (n - 1).
Proof. intros H. unfold slice. rewrite firstn_firstn. f_equal. lia. Qed.

Lemma plain_name_prefix name : (if prefix_of [46; 47] name then skipn 2 name else name) = plain_name name.
Proof.
  destruct name as [|a [|b r]]; cbn [prefix_of plain_name skipn].
  - reflexivity.
  - rewrite andb_false_r. destruct a as [|p|p]; try reflexivity. do 6 (destruct p as [p|p|]; try reflexivity).
  - destruct (46 =? a) eqn:E1; cbn [andb].
    + assert (a = 46) by lia. subst a. destruct (47 =? b) eqn:E2; cbn [andb].
      * assert (b = 47) by lia. subst b. reflexivity.
      * destruct b as [|p|p]; try reflexivity. do 6 (destruct p as [p|p|]; try reflexivity). lia.
    + destruct a as [|p|p]; try reflexivity. do 6 (destruct p as [p|p|]; try reflexivity). lia.
Qed.

(** ** Lookup *)
Lemma find_file_of name : forall files, find_file name files 0 = file_of files name.
Proof.
  intros files. unfold file_of.
  assert (H : forall k, find_file name files (Z.of_nat k) =
    find (fun p => list_eqb name (skip_slash (fi_name (snd p)))) (combine (map Z.of_nat (seq k (length files))) files)).
  { induction files as [|f files IH]; intros k; [reflexivity|]. cbn [find_file length seq map combine find snd].
    destruct (list_eqb _ _); [reflexivity|]. replace (Z.of_nat k + 1) with (Z.of_nat (S k)) by lia. apply IH. }
  apply (H 0%nat).
Qed.

Lemma file_of_some files name i f : file_of files name = Some (i, f) ->
  0 <= i < zlen files /\ nth_error files (Z.to_nat i) = Some f /\ name = skip_slash (fi_name f).
Proof.
  unfold file_of. intros H. apply find_some in H as [Hin Hn]. cbn [snd] in Hn. apply list_eqb_spec in Hn.
  assert (G : forall k (l : list file_info), In (i, f) (combine (map Z.of_nat (seq k (length l))) l) ->
    Z.of_nat k <= i < Z.of_nat k + zlen l /\ nth_error l (Z.to_nat i - k) = Some f).
  { intros k l. revert k. induction l as [|x l IH]; intros k Hk; [destruct Hk|].
    cbn [length seq map combine] in Hk. rewrite zlen_cons. pose proof (zlen_nonneg l). destruct Hk as [Hk|Hk].
    - injection Hk as <- <-. rewrite Nat2Z.id, Nat.sub_diag. split; [lia|reflexivity].
    - apply IH in Hk as [A B]. split; [lia|]. replace (Z.to_nat i - k)%nat with (S (Z.to_nat i - S k)) by lia. exact B. }
  apply G in Hin as [A B]. rewrite Nat.sub_0_r in B. cbn [Z.of_nat] in A. auto.
Qed.

(** ** Flags *)
Lemma land_zero x m : (Z.land x m =? 0) = true <-> (forall n, 0 <= n -> Z.testbit m n = true -> Z.testbit x n = false).
Proof.
  rewrite Z.eqb_eq. split.
  - intros H n Hn Hm. pose proof (Z.land_spec x m n) as S. rewrite H, Z.bits_0, Hm, andb_true_r in S. auto.
  - intros H. apply Z.bits_inj'. intros n Hn. rewrite Z.land_spec, Z.bits_0. destruct (Z.testbit m n) eqn:E; [|apply andb_false_r].
    rewrite (H n) by auto. reflexivity.
Qed.

Lemma testbit_mask m n : 0 <= n -> 0 <= m < 128 -> Z.testbit m n = true ->
  n < 7.
Proof.
  intros Hn Hm Ht. destruct (Z.lt_ge_cases n 7); [auto|]. destruct (Z.eq_dec m 0) as [->|]; [rewrite Z.bits_0 in Ht; discriminate|].
  rewrite Z.bits_above_log2 in Ht; [discriminate|lia|]. apply Z.log2_lt_pow2; [lia|].
  assert (2 ^ 7 <= 2 ^ n) by (apply Z.pow_le_mono_r; lia). lia.
Qed.

Lemma flag73 x : (Z.land x (1 + 8 + 64) =? 0) = negb (Z.testbit x 0 || Z.testbit x 3 || Z.testbit x 6).
Proof.
  apply eq_true_iff_eq. rewrite land_zero. rewrite negb_true_iff, !orb_false_iff. split.
  - intros H. repeat split; apply H; try lia; reflexivity.
  - intros [[A B] C] n Hn Ht. assert (Hn7 : n < 7) by (eapply testbit_mask; [exact Hn| |exact Ht]; lia).
    assert (Hc : n = 0 \/ n = 1 \/ n = 2 \/ n = 3 \/ n = 4 \/ n = 5 \/ n = 6) by lia.
    repeat (destruct Hc as [Hc|Hc]; [subst n; solve [auto|discriminate]|]). subst n; auto.
Qed.
Lemma flag1 x : (Z.land x 1 =? 0) = negb (Z.testbit x 0).
Proof.
  apply eq_true_iff_eq. rewrite land_zero, negb_true_iff. split.
  - intros H. apply H; [lia|reflexivity].
  - intros A n Hn Ht. assert (Hn7 : n < 7) by (eapply testbit_mask; [exact Hn| |exact Ht]; lia).
    assert (Hc : n = 0 \/ n = 1 \/ n = 2 \/ n = 3 \/ n = 4 \/ n = 5 \/ n = 6) by lia.
    repeat (destruct Hc as [Hc|Hc]; [subst n; solve [auto|discriminate]|]). subst n; discriminate.
Qed.
Lemma flag2 x : (Z.land x 2 =? 0) = negb (Z.testbit x 1).
Proof.
  apply eq_true_iff_eq. rewrite land_zero, negb_true_iff. split.
  - intros H. apply H; [lia|reflexivity].
  - intros A n Hn Ht. assert (Hn7 : n < 7) by (eapply testbit_mask; [exact Hn| |exact Ht]; lia).
    assert (Hc : n = 0 \/ n = 1 \/ n = 2 \/ n = 3 \/ n = 4 \/ n = 5 \/ n = 6) by lia.
    repeat (destruct Hc as [Hc|Hc]; [subst n; solve [auto|discriminate]|]). subst n; discriminate.
Qed.
Lemma flag3 x : (Z.land x 3 =? 0) = negb (Z.testbit x 0 || Z.testbit x 1).
Proof.
  apply eq_true_iff_eq. rewrite land_zero, negb_true_iff, orb_false_iff. split.
  - intros H. split; apply H; try lia; reflexivity.
  - intros [A B] n Hn Ht. assert (Hn7 : n < 7) by (eapply testbit_mask; [exact Hn| |exact Ht]; lia).
    assert (Hc : n = 0 \/ n = 1 \/ n = 2 \/ n = 3 \/ n = 4 \/ n = 5 \/ n = 6) by lia.
    repeat (destruct Hc as [Hc|Hc]; [subst n; solve [auto|discriminate]|]). subst n; discriminate.
Qed.

Lemma skip_wanted unpatched colors f name size :
  skip_file unpatched colors f name size = negb (wanted unpatched colors f name size).
Proof.
  unfold skip_file, wanted, skip_regular. rewrite flag73, flag1, flag2, flag3.
  destruct (S_ISREG (fi_mode f)); [|destruct unpatched; reflexivity]. 
  destruct unpatched as [u|]; [cbn [andb]; destruct (u name (fi_md5 f))|];
    destruct (size =? fi_size f), (Z.testbit (fi_flags f) 0), (Z.testbit (fi_flags f) 3), (Z.testbit (fi_flags f) 6),
      (Z.testbit (fi_verify f) 0), (Z.testbit (fi_verify f) 1), colors; cbn [negb andb orb]; try reflexivity;
    destruct (Z.testbit (fi_color f) 0), (Z.testbit (fi_color f) 1), (IN_MULTILIB_DIR name); reflexivity.
Qed.

(** ** Devices *)
Lemma major_rdev d : 0 <= d < 2 ^ 16 -> major d = d / 256.
Proof.
  intros H. unfold major. rewrite Z.shiftr_div_pow2 by lia. change (2 ^ 8) with 256. change 4095 with (Z.ones 12).
  rewrite Z.land_ones by lia. apply Z.mod_small. split; [apply Z.div_pos; lia|].
  assert (d / 256 < 256) by (apply Z.div_lt_upper_bound; lia). change (2 ^ 12) with 4096. lia.
Qed.
Lemma land_high x : 0 <= x < 256 -> Z.land x 4294967040 = 0.
Proof.
  intros H. apply Z.eqb_eq, land_zero. intros n Hn Ht. destruct (Z.lt_ge_cases n 8) as [Hlt|Hge].
  - exfalso. change 4294967040 with (16777215 * 2 ^ 8) in Ht. rewrite Z.mul_pow2_bits_low in Ht by lia. discriminate.
  - destruct (Z.eq_dec x 0) as [->|]; [apply Z.bits_0|]. apply Z.bits_above_log2; [lia|].
    apply Z.log2_lt_pow2; [lia|]. assert (2 ^ 8 <= 2 ^ n) by (apply Z.pow_le_mono_r; lia). lia.
Qed.
Lemma minor_rdev d : 0 <= d < 2 ^ 16 -> minor d = d mod 256.
Proof.
  intros H. unfold minor. rewrite land_high.
  - rewrite Z.lor_0_r. change 255 with (Z.ones 8). rewrite Z.land_ones by lia. reflexivity.
  - rewrite Z.shiftr_div_pow2 by lia. split; [apply Z.div_pos; lia|]. apply Z.div_lt_upper_bound; lia.
Qed.
Lemma makedev_small ma mi : 0 <= ma < 256 -> 0 <= mi < 256 -> makedev ma mi = ma * 256 + mi.
Proof.
  intros Ha Hi. unfold makedev. rewrite land_high by lia. rewrite Z.shiftl_0_l, Z.lor_0_r.
  change 4095 with (Z.ones 12). rewrite Z.land_ones by lia. change 255 with (Z.ones 8). rewrite Z.land_ones by lia.
  rewrite !Z.mod_small by lia. rewrite Z.shiftl_mul_pow2 by lia. rewrite lor_add by lia. reflexivity.
Qed.

Lemma create_be4 x : 0 <= x < 2 ^ 32 -> create_be32 x = be4 x.
Proof.
  intros H. unfold create_be32, be4, u8. rewrite !Z.shiftr_div_pow2 by lia. change (2 ^ 8) with 256.
  f_equal. apply Z.mod_small. split; [apply Z.div_pos; lia|apply Z.div_lt_upper_bound; lia].
Qed.

Lemma even_part_split s : exists t, s = even_part s ++ t /\ zlen t <= 1 /\ zlen (even_part s) = 2 * (zlen s / 2).
Proof.
  pose proof (zlen_nonneg s). pose proof (Z.div_mod (zlen s) 2 ltac:(lia)). pose proof (Z.mod_pos_bound (zlen s) 2 ltac:(lia)).
  assert (H2 : zlen (even_part s) = 2 * (zlen s / 2)) by (unfold even_part; apply zlen_slice; lia).
  exists (skipn (Z.to_nat (2 * (zlen s / 2))) s). split; [|split; [|auto]].
  - unfold even_part, slice. rewrite skipn_O. symmetry. apply firstn_skipn.
  - unfold zlen at 1. rewrite skipn_length. unfold zlen in *. lia.
Qed.

Lemma parse_hex_even s cap : zlen s / 2 <= cap -> parse_hex s cap = Ok (hex_bytes (even_part s)).
Proof.
  intros H. destruct (even_part_split s) as (t & Es & Ht & Hz).
  assert (He : Z.even (zlen (even_part s)) = true) by (rewrite Hz, Z.even_mul; reflexivity).
  destruct t as [|c [|c' t]].
  - rewrite app_nil_r in Es. rewrite Es at 1. apply hex_exact; [auto|lia].
  - rewrite Es at 1. apply hex_odd; [auto|lia].
  - rewrite !zlen_cons in Ht. pose proof (zlen_nonneg t). lia.
Qed.

Lemma hex_loop_len : forall n s o cap acc d, parse_hex_loop n s o cap acc = Ok (Some d) ->
  zlen d = zlen acc + Z.of_nat n /\ (0 < Z.of_nat n -> zlen d <= cap).
Proof.
  induction n as [|n IH]; intros s o cap acc d H; cbn [parse_hex_loop] in H.
  - injection H as <-. lia.
  - destruct (parse_hexnum s o 2) as [[b|]|?|?|]; cbn [bind] in H; try discriminate.
    destruct (zlen acc <? cap) eqn:E; [|discriminate]. apply IH in H as [A B]. rewrite zlen_app in A.
    change (zlen [u8 b]) with 1 in A. split; [lia|]. intros _. destruct n; [lia|apply B; lia].
Qed.

Lemma parse_hex_inv s cap d : 0 <= cap -> parse_hex s cap = Ok (Some d) ->
  hex_bytes (even_part s) = Some d.
Proof.
  intros Hc H. assert (Hl : zlen s / 2 <= cap).
  { unfold parse_hex in H. apply hex_loop_len in H as [A B]. change (@zlen Z []) with 0 in A.
    pose proof (zlen_nonneg s). assert (0 <= zlen s / 2) by (apply Z.div_pos; lia). rewrite Z2Nat.id in * by lia. lia. }
  rewrite parse_hex_even in H by auto. congruence.
Qed.

Lemma digest_recorded sha f : S_ISREG (fi_mode f) = true -> fi_size f <> 0 -> digest_ok sha f ->
  file_digest sha (fi_md5 f) = Ok (recorded f).
Proof.
  intros Hr Hs Hd. destruct (Hd Hr Hs) as (d & Hh & Hl). unfold file_digest, recorded. rewrite Hh.
  assert (Hz : zlen (even_part (fi_md5 f)) = 2 * zlen d) by (destruct (hex_bytes_ext _ _ Hh); auto).
  destruct (even_part_split (fi_md5 f)) as (_ & _ & _ & Hz2).
  unfold parse_sha256, parse_md5. rewrite parse_hex_even.
  - rewrite Hh. destruct sha; cbn [bind]; rewrite Hl; reflexivity.
  - destruct sha; lia.
Qed.

Lemma digest_inv sha f d : file_digest sha (fi_md5 f) = Ok d -> digest_ok sha f /\ d = recorded f.
Proof.
  unfold file_digest, parse_sha256, parse_md5. intros H.
  destruct (parse_hex (fi_md5 f) 32) as [[b|]|?|?|] eqn:E; destruct sha; cbn [bind] in H; try discriminate;
    destruct (zlen b =? _) eqn:El; try discriminate; injection H as <-;
    apply parse_hex_inv in E; try lia; (split; [intros _ _; exists b; split; [auto|lia]|unfold recorded; rewrite E; reflexivity]).
Qed.
