(** * CheckIoProofs: checks with failing and short reads *)
From Verif Require Import Base BaseLemmas Utils Stream Rpm FileSys Prelink SpecPrelink PrelinkProofs Check SpecCheck CheckProofs SeqFinal CheckSafe CheckIo.

Lemma cut_slice (data : list Z) pos len : 0 <= pos -> 0 <= len ->
  slice data pos len = slice data pos (zlen (slice data pos len)) /\ zlen (slice data pos len) = Z.min len (Z.max 0 (zlen data - pos)).
Proof.
  intros Hp Hl. assert (H : zlen (slice data pos len) = Z.min len (Z.max 0 (zlen data - pos))).
  { unfold zlen, slice. rewrite firstn_length, skipn_length. lia. }
  split; [|exact H]. rewrite H. destruct (Z.le_gt_cases len (Z.max 0 (zlen data - pos))); [rewrite Z.min_l by lia; reflexivity|]. rewrite Z.min_r by lia.
  unfold slice. rewrite !firstn_all2; [reflexivity|unfold zlen in *; rewrite skipn_length; lia..].
Qed.

Lemma read_part outs data pos len : 0 <= pos -> 0 < len -> match some_read outs data pos len with
  | (None, outs') => outs = None :: outs'
  | (Some buf, outs') => exists k, 0 < k <= len /\ buf = slice data pos k /\ (outs = [] /\ outs' = [] /\ k = len \/ exists n, outs = Some n :: outs' /\ k = Z.min len (Z.max 1 n))
  end.
Proof.
  intros Hp Hl. destruct outs as [|[n|] outs]; cbn [some_read]; [|exists (Z.min len (Z.max 1 n))|reflexivity].
  - exists len. split; [lia|]. split; [reflexivity|]. left. repeat split.
  - split; [lia|]. split; [reflexivity|]. right. exists n. split; reflexivity.
Qed.

Lemma io_loop_exact fuel : forall outs data pos filesize, 0 <= pos -> zlen data - pos < Z.of_nat fuel -> 0 < Z.of_nat fuel ->
  exists m failed, io_loop fuel outs data pos filesize = Ok (slice data pos m, failed) /\ m <= Z.max 0 filesize /\
    (failed = false -> slice data pos m = slice data pos filesize) /\ (failed = true -> In None outs).
Proof.
  induction fuel as [|fuel IH]; intros outs data pos filesize Hp Hf Hf0; [lia|]. cbn [io_loop].
  destruct (filesize <=? 0) eqn:E1.
  { exists 0, false. rewrite !slice_nil_len by lia. repeat split; auto; [lia|discriminate]. }
  pose proof (read_part outs data pos BUFFER_SIZE Hp ltac:(unfold BUFFER_SIZE; lia)) as Hr.
  destruct (some_read outs data pos BUFFER_SIZE) as [[buf|] outs'].
  2:{ exists 0, true. rewrite slice_nil_len by lia. subst outs. repeat split; [lia|discriminate|cbn; auto]. }
  destruct Hr as (k & Hk & -> & Ho). destruct (cut_slice data pos k Hp ltac:(lia)) as [Hb Hz]. set (buf := slice data pos k) in *.
  destruct (zlen buf <=? 0) eqn:E2.
  { exists filesize, false. assert (Hs : slice data pos filesize = []).
    { unfold slice. rewrite skipn_all2 by (unfold zlen in *; lia). apply firstn_nil. }
    rewrite Hs. repeat split; auto; [lia|discriminate]. }
  destruct (filesize <? zlen buf) eqn:E3.
  - assert (Hs : slice buf 0 filesize = slice data pos filesize) by (rewrite Hb, slice_slice by lia; f_equal; lia).
    rewrite Hs, zlen_slice by lia. destruct fuel as [|fuel]; [lia|]. cbn [io_loop]. assert (E4 : (filesize - filesize <=? 0) = true) by lia. rewrite E4.
    cbn [bind]. rewrite app_nil_r. exists filesize, false. repeat split; auto; [lia|discriminate].
  - destruct (IH outs' data (pos + zlen buf) (filesize - zlen buf)) as (m & failed & E & Hm & H1 & H2); try lia.
    rewrite E. cbn [bind]. exists (zlen buf + Z.max 0 m), failed.
    assert (Hx : slice data (pos + zlen buf) m = slice data (pos + zlen buf) (Z.max 0 m)).
    { destruct (Z.le_gt_cases m 0); [rewrite !slice_nil_len by lia; reflexivity|rewrite Z.max_r by lia; reflexivity]. }
    assert (Hy : buf ++ slice data (pos + zlen buf) m = slice data pos (zlen buf + Z.max 0 m)).
    { rewrite Hx. rewrite Hb at 1. rewrite <- slice_split by lia. reflexivity. }
    split; [rewrite Hy; reflexivity|]. split; [lia|]. split.
    + intros Hfl. rewrite <- Hy, (H1 Hfl). rewrite Hb at 1. rewrite <- slice_split by lia. f_equal. lia.
    + intros Hfl. specialize (H2 Hfl). destruct Ho as [(-> & -> & _)|(n & -> & _)]; [exact H2|right; exact H2].
Qed.

Section Io.
Variable L : libs.
Variable fs : fsys.
Variable unprelinked : list Z -> res (list Z).
Hypothesis Hh : hashes_ok L.

Lemma same_right sha digest x : zlen digest = digest_len sha ->
  (same <- same_digest sha (checksum L sha x) digest ;; if same then Ok tt else Err EMismatch) = if list_eqb (hash L sha x) digest then Ok tt else Err EMismatch.
Proof.
  intros Hd. rewrite (same_exact unprelinked); [reflexivity| |auto]. unfold checksum, digest_len. destruct (Hh x). destruct sha; auto.
Qed.

Lemma prelink_io outs name sha digest filesize : zlen digest = digest_len sha -> 0 < filesize ->
  let r := io_check_prelink L unprelinked outs name sha digest filesize in
  r = check_prelink L unprelinked name sha digest filesize \/ (In None outs /\ r = Err EIo).
Proof.
  intros Hd Hf r. subst r. rewrite check_prelink_exact by auto. unfold io_check_prelink. destruct (unprelinked name) as [u|?|?|]; cbn [bind]; auto.
  destruct (io_loop_exact (S (length u)) outs u 0 filesize) as (m & failed & E & Hm & H1 & H2); try (unfold zlen; lia). rewrite E. cbn [bind].
  assert (Ef : (filesize <=? 0) = false) by lia. rewrite Ef. cbn [bind]. destruct failed; [right; auto|left].
  rewrite same_right by auto. rewrite H1 by reflexivity. reflexivity.
Qed.

Lemma full_io outs outs' name sha digest filesize data : zlen digest = digest_len sha -> 0 < filesize ->
  fs_open fs name = Some data -> SpecCheck.sound_files fs -> (filesize < zlen data -> forall n rest, outs = Some n :: rest -> 64 <= n) ->
  let r := io_check_full L fs unprelinked outs outs' name sha digest filesize in
  r = check_full L fs unprelinked name sha digest filesize \/
  (In None outs' /\ r = Err EIo) \/
  (In None outs /\ exists m, m <= filesize /\ r = right_digest L sha digest data m).
Proof.
  intros Hd Hf E Hs Hn r. subst r. destruct (Hs _ _ E) as (Hb & Es & Hu). unfold io_check_full. rewrite E, Es.
  assert (G : forall part pos o, 0 <= pos -> 0 <= zlen part <= filesize -> part = slice data 0 (zlen part) -> (zlen part < filesize -> pos = zlen part) ->
    (forall x, In x o -> In x outs) ->
    let r := ('(rest, _) <- io_loop (S (length data)) o data pos (filesize - zlen part) ;;
       same <- same_digest sha (checksum L sha (part ++ rest)) digest ;; if same then Ok tt else Err EMismatch) in
    r = right_digest L sha digest data filesize \/ (In None outs /\ exists m, m <= filesize /\ r = right_digest L sha digest data m)).
  { intros part pos o H0 Hz Hp Hq Ho r. subst r. destruct (io_loop_exact (S (length data)) o data pos (filesize - zlen part)) as (m & failed & El & Hm & H1 & H2);
      try (unfold zlen in *; lia). rewrite El. cbn [bind]. rewrite same_right by auto.
    destruct (Z.eq_dec (zlen part) filesize) as [Ez|Ez].
    { left. rewrite (slice_nil_len data pos) by lia. rewrite app_nil_r, Hp, Ez. reflexivity. }
    rewrite Hq in * by lia. assert (Hc : forall k, part ++ slice data (zlen part) k = slice data 0 (zlen part + Z.max 0 k)).
    { intros k. assert (Hx : slice data (zlen part) k = slice data (zlen part) (Z.max 0 k)).
      { destruct (Z.le_gt_cases k 0); [rewrite !slice_nil_len by lia; reflexivity|rewrite Z.max_r by lia; reflexivity]. }
      rewrite Hx. rewrite Hp at 1. rewrite <- (slice_split data 0) by lia. reflexivity. }
    destruct failed.
    - right. split; [auto|]. exists (zlen part + Z.max 0 m). split; [lia|]. rewrite Hc. reflexivity.
    - left. rewrite H1, Hc by reflexivity. unfold right_digest. replace (zlen part + Z.max 0 (filesize - zlen part)) with filesize by lia. reflexivity. }
  assert (G0 : forall o, (forall x, In x o -> In x outs) ->
    let r := ('(rest, _) <- io_loop (S (length data)) o data 0 (filesize - zlen (@nil Z)) ;;
       same <- same_digest sha (checksum L sha ([] ++ rest)) digest ;; if same then Ok tt else Err EMismatch) in
    r = right_digest L sha digest data filesize \/ (In None outs /\ exists m, m <= filesize /\ r = right_digest L sha digest data m)).
  { intros o Ho. apply (G [] 0 o); auto; change (@zlen Z []) with 0; try lia. }
  assert (F : exists b : bool, is_prelinked data (slice data 0 BUFFER_SIZE) = Ok b /\ (b = true <-> has_table data /\ has_undo data)).
  { destruct (is_prelinked_exact data BUFFER_SIZE Hb) as [(A & B & _)|[_ F]]; [unfold BUFFER_SIZE; lia|tauto|exact F]. }
  destruct F as (b & Fb & Pb).
  assert (N : forall k, 64 <= k -> is_prelinked data (slice data 0 k) = Ok b).
  { intros k Hk. destruct (is_prelinked_exact data k Hb Hk) as [(A & B & _)|[_ (b' & -> & P)]]; [tauto|]. f_equal. destruct b, b'; intuition congruence. }
  pose proof (zlen_nonneg data) as Hzd.
  destruct (filesize <? zlen data) eqn:El; cbn [bind].
  2:{ rewrite (full_file L fs unprelinked name sha digest filesize data false); auto; try lia; [|rewrite Es; lia].
      destruct (G0 outs ltac:(auto)) as [H|H]; [left; exact H|right; right; exact H]. }
  rewrite (full_file L fs unprelinked name sha digest filesize data b); auto; [|lia|rewrite Es; lia].
  pose proof (read_part outs data 0 BUFFER_SIZE ltac:(lia) ltac:(unfold BUFFER_SIZE; lia)) as Hr.
  destruct (some_read outs data 0 BUFFER_SIZE) as [[buf|] o].
  2:{ cbn [bind]. destruct (G0 o) as [H|H]; [intros x Hx; rewrite Hr; right; exact Hx| |right; right; exact H].
      right. right. split; [rewrite Hr; left; reflexivity|]. exists filesize. split; [lia|exact H]. }
  destruct Hr as (k & Hk & -> & Ho). destruct (cut_slice data 0 k ltac:(lia) ltac:(lia)) as [Hbf Hz].
  assert (E0 : (0 <? zlen (slice data 0 k)) = true) by lia. rewrite E0.
  assert (Hk64 : 64 <= k). { unfold BUFFER_SIZE in *. destruct Ho as [(_ & _ & ->)|(n & -> & ->)]; [lia|]. specialize (Hn ltac:(lia) n o eq_refl). lia. }
  rewrite N by auto. cbn [bind]. destruct b.
  - destruct (prelink_io outs' name sha digest filesize Hd Hf) as [H|H]; [left|right; left; exact H]. rewrite H. apply check_prelink_exact; auto.
  - set (buf := slice data 0 k) in *.
    assert (Hin : forall x, In x o -> In x outs). { intros x Hx. destruct Ho as [(_ & -> & _)|(n & -> & _)]; [destruct Hx|right; exact Hx]. }
    destruct (G (if filesize <? zlen buf then slice buf 0 filesize else buf) (zlen buf) o) as [H|H]; auto; [lia| | |].
    + destruct (filesize <? zlen buf) eqn:E3; [rewrite zlen_slice by lia|]; lia.
    + destruct (filesize <? zlen buf) eqn:E3; [|exact Hbf]. rewrite zlen_slice by lia. rewrite Hbf, slice_slice by lia. f_equal; lia.
    + destruct (filesize <? zlen buf) eqn:E3; [rewrite zlen_slice by lia|]; lia.
Qed.
End Io.
