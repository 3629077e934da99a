(** * FillProofs: what the block sources produce *)
From Verif Require Import Base BaseLemmas Utils CpioHeader Rpm Seq Expand Archive SpecDelta SpecBlocks Blocks BlocksProofs Fill.

(** ** Rpm-only *)
Definition at_off (r : rpm) (o : Z) : rpm := mkrpm (rp_lead r) (rp_sig r) (rp_hdr r) (rp_archive r) o (rp_csize r).

Lemma read_chunk_ok r n : 0 <= rp_off r -> 0 <= n -> rp_off r + n <= zlen (rp_archive r) -> zlen (rp_archive r) < 2 ^ 63 ->
  rpm_archive_read_chunk r n = Ok (at_off r (rp_off r + n), slice (rp_archive r) (rp_off r) n).
Proof.
  intros Ho Hn Hl Hz. unfold rpm_archive_read_chunk. rewrite u64_small by lia.
  replace (zlen (rp_archive r) <? rp_off r + n) with false by lia. rewrite rd_range_in by lia. reflexivity.
Qed.

Lemma slice_of_first {A} (l : list A) len p m : 0 <= p -> 0 <= m -> p + m <= len -> slice (slice l 0 len) p m = slice l p m.
Proof. intros. rewrite slice_slice by lia. f_equal. Qed.

Lemma zeros_repeat n : zeros n = repeat 0 (Z.to_nat n).
Proof. reflexivity. Qed.

Section Rpmonly.
Variable old : rpm.
Variable len : Z.
Variable H : list Z.
Let data := H ++ rp_archive old.
Hypothesis Hlen : 0 <= len <= zlen data.
Hypothesis Hz : zlen data < 2 ^ 63.

Definition rstate (p : Z) : rsrc := mkrs (at_off old (p - Z.min p (zlen H))) H (Z.min p (zlen H)) (len - p).

Lemma rpmonly_step p m : 0 <= p <= len -> m = Z.min (len - p) 8192 ->
  next_rpmonly (rstate p) = Ok (rstate (p + m), slice data p m ++ zeros (8192 - m)).
Proof.
  intros Hp Hm. pose proof (zlen_nonneg H). pose proof (zlen_nonneg (rp_archive old)).
  assert (Hd : zlen data = zlen H + zlen (rp_archive old)) by (unfold data; apply zlen_app).
  unfold next_rpmonly, rstate. cbn [rs_rpm rs_header rs_hoff rs_left]. unfold BLOCK_SIZE. rewrite <- Hm.
  destruct (Z.min p (zlen H) <? zlen H) eqn:E1.
  - rewrite (Z.min_l p (zlen H)) by lia. destruct (zlen H <? p + m) eqn:E2.
    + rewrite read_chunk_ok; cbn [at_off rp_off rp_archive]; try lia. cbn [bind]. rewrite rd_range_in by lia. cbn [bind].
      f_equal. f_equal.
      * unfold at_off. cbn [rp_lead rp_sig rp_hdr rp_archive rp_csize]. rewrite Z.min_r by lia. f_equal; [|lia|lia]. f_equal. lia.
      * f_equal. unfold data. rewrite (Z.sub_diag p). replace m with ((zlen H - p) + (m - (zlen H - p))) at 2 by lia.
        rewrite slice_split by lia. f_equal; [symmetry; apply slice_app_l; lia|].
        replace (p + (zlen H - p)) with (zlen H) by lia. symmetry. rewrite slice_app_r by lia. f_equal. lia.
    + rewrite rd_range_in by lia. cbn [bind]. f_equal. f_equal.
      * unfold at_off. cbn [rp_lead rp_sig rp_hdr rp_archive rp_csize]. rewrite (Z.min_l (p + m)) by lia. f_equal; [|lia]. f_equal. lia.
      * f_equal. symmetry. apply slice_app_l; lia.
  - rewrite (Z.min_r p (zlen H)) by lia. rewrite read_chunk_ok; cbn [at_off rp_off rp_archive]; try lia. cbn [bind].
    f_equal. f_equal.
    + unfold at_off. cbn [rp_lead rp_sig rp_hdr rp_archive rp_csize]. rewrite (Z.min_r (p + m)) by lia. f_equal; [|lia]. f_equal. lia.
    + f_equal. symmetry. apply slice_app_r; lia.
Qed.

Lemma rpmonly_yields : rp_off old = 0 -> yields next_rpmonly (mkrs old H 0 len) (first_blocks (slice data 0 len) len).
Proof.
  intros Ho. pose proof (zlen_nonneg H).
  assert (G : forall k i, 0 <= i -> (i + Z.of_nat k) <= block_count len ->
    yields next_rpmonly (rstate (i * 8192)) (map (fun j => block (slice data 0 len) (Z.of_nat j)) (seq (Z.to_nat i) k)) \/ (k = O)).
  2:{ replace (mkrs old H 0 len) with (rstate (0 * 8192)).
      - destruct (G (Z.to_nat (block_count len)) 0) as [G'|G']; [lia| |exact G'|].
        + unfold block_count, BS. assert (0 <= (len + 8192 - 1) / 8192) by (apply Z.div_pos; lia). lia.
        + unfold first_blocks. rewrite G'. constructor.
      - unfold rstate, at_off. rewrite Z.min_l by lia. f_equal; [destruct old; cbn in *; subst; f_equal|lia]. }
  assert (Hb : block_count len * 8192 < len + 8192).
  { unfold block_count, BS. pose proof (Z.div_mod (len + 8192 - 1) 8192 ltac:(lia)). pose proof (Z.mod_pos_bound (len + 8192 - 1) 8192 ltac:(lia)). lia. }
  induction k as [|k IH]; intros i Hi Hk; [auto|]. left. cbn [seq map].
  econstructor.
  - rewrite (rpmonly_step (i * 8192) (Z.min (len - i * 8192) 8192)) by lia. f_equal. f_equal.
    unfold block. rewrite Z2Nat.id by lia. unfold BS.
    replace (slice (slice data 0 len) (i * 8192) 8192) with (slice data (i * 8192) (Z.min (len - i * 8192) 8192)).
    + rewrite zlen_slice by lia. reflexivity.
    + destruct (Z.le_gt_cases (len - i * 8192) 8192).
      * rewrite Z.min_l by lia. rewrite <- (slice_of_first data len) by lia. unfold slice at 1 3.
        rewrite !firstn_all2; [reflexivity| |]; rewrite skipn_length; pose proof (zlen_slice data 0 len); unfold zlen in *; lia.
      * rewrite Z.min_r by lia. rewrite slice_of_first by lia. reflexivity.
  - destruct k as [|k]; [constructor|].
    destruct (IH (i + 1)) as [IH'|IH']; [lia|lia| |discriminate].
    replace (i * 8192 + Z.min (len - i * 8192) 8192) with ((i + 1) * 8192) by lia.
    replace (S (Z.to_nat i)) with (Z.to_nat (i + 1)) by lia. exact IH'.
Qed.
End Rpmonly.

(** External copies of an rpm-only delta. *)
Lemma rpmonly_external capacity old len clean copies : let data := rpm_export_header old ++ rp_archive old in
  1 <= capacity -> rp_off old = 0 -> zlen data < 2 ^ 63 -> 0 < len <= zlen data -> block_count len < 2 ^ 32 - 1 ->
  Forall (in_data len) (extents 0 copies) ->
  exists b b', blocks_create rsrc len copies (rpmonly_source old len) clean = Ok b /\
  read_copies rsrc capacity (in_order rsrc capacity next_rpmonly) b copies 0 0 = Ok (b', map (fun '(o, l) => slice data o l) (extents 0 copies)).
Proof.
  intros data Hc Ho Hz Hlen Hbc Hin.
  assert (Hzl : zlen (slice data 0 len) = len) by (apply zlen_slice; lia).
  destruct (cache_transparent rsrc capacity next_rpmonly (rpmonly_source old len) clean (slice data 0 len) len copies) as (b & b' & E1 & E2); auto.
  - lia.
  - apply rpmonly_yields; auto. split; [lia|apply Hlen].
  - exists b, b'. split; [auto|]. rewrite E2. f_equal. f_equal. apply map_ext_in. intros [o l] Hol.
    rewrite Forall_forall in Hin. specialize (Hin _ Hol). unfold in_data in Hin. cbn [fst snd] in Hin. apply slice_of_first; lia.
Qed.
