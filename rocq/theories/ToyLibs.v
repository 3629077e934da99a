(** * ToyLibs: libraries that meet the assumptions, for concrete cases

    Headers are in RPM's own format (two counts, then 16 bytes for each index entry and the
    data store).  Not part of the model of drpm. *)
From Verif Require Import Base BaseLemmas Utils UtilsProofs SpecCodec DeltaComp Stream SpecStream ToyCodec Rpm SpecFormat.

Definition toy_read (l : list Z) : option (list Z * Z) :=
  if negb (list_eqb (slice l 0 8) HEADER_MAGIC) || negb (bytesb (slice l 8 8)) then None
  else
    let n := 8 + be_val (slice l 8 4) * 16 + be_val (slice l 12 4) in
    if zlen l <? 8 + n then None else if zlen l <? 16 then None else Some (slice l 8 n, 8 + n).

(** Not a good hash, but it depends on every byte. *)
Definition toy_md5 (l : list Z) : list Z :=
  let h := fold_left (fun a x => (a * 31 + x + 7) mod 2 ^ 32) l 1 in
  create_be32 h ++ create_be32 (zlen l mod 2 ^ 32) ++ create_be32 (h * h) ++ create_be32 (h + 1).

Definition toy_header (data : list Z) : list Z := [0; 0; 0; 0] ++ create_be32 (zlen data) ++ data.

Definition toy_mksig (size : Z) (md5 : list Z) : list Z :=
  toy_header (create_be32 size ++ firstn 16 (map u8 md5 ++ repeat 0 16)).

Definition toylibs : libs := mklibs toy toy_md5 (fun l => toy_md5 l ++ toy_md5 (0 :: l))
  toy_read (fun l => Some l)
  (fun h tag => if tag =? RPMTAG_PAYLOADCOMPRESSOR then Some str_gzip
                else if tag =? RPMTAG_PAYLOADFORMAT then Some str_cpio
                else if tag =? RPMTAG_PAYLOADFLAGS then Some [57] else None)
  (fun h => [97; 45; 49; 45; 48 + zlen h mod 10]) (fun _ => None)
  (fun s => Some (slice s 12 16)) toy_mksig (fun h f => Some h)
  (fun _ => mkft None None None None None None None None None).

Lemma toy_readable data : bytes data -> zlen data < 2 ^ 32 -> readable toylibs (toy_header data).
Proof.
  intros Hb Hl rest. cbn [lb_read toylibs]. unfold toy_read, toy_header.
  pose proof (zlen_nonneg data) as H0. pose proof (zlen_nonneg rest) as H1.
  assert (E1 : slice (HEADER_MAGIC ++ ([0; 0; 0; 0] ++ create_be32 (zlen data) ++ data) ++ rest) 0 8 = HEADER_MAGIC)
    by (apply slice_app_exact_l; reflexivity).
  set (l := HEADER_MAGIC ++ ([0; 0; 0; 0] ++ create_be32 (zlen data) ++ data) ++ rest) in *.
  assert (Ell : l = (HEADER_MAGIC ++ [0; 0; 0; 0] ++ create_be32 (zlen data)) ++ data ++ rest).
  { unfold l. rewrite <- !app_assoc. reflexivity. }
  assert (E2 : slice l 8 8 = [0; 0; 0; 0] ++ create_be32 (zlen data)).
  { rewrite Ell, <- app_assoc. rewrite (slice_app_r HEADER_MAGIC) by (change (zlen HEADER_MAGIC) with 8; lia).
    change (8 - zlen HEADER_MAGIC) with 0. apply slice_app_exact_l. rewrite zlen_app, zlen_create_be32. reflexivity. }
  assert (E3 : slice l 8 4 = [0; 0; 0; 0]).
  { replace (slice l 8 4) with (slice (slice l 8 8) 0 4) by (rewrite slice_slice by lia; reflexivity).
    rewrite E2. reflexivity. }
  assert (E4 : slice l 12 4 = create_be32 (zlen data)).
  { replace (slice l 12 4) with (slice (slice l 8 8) 4 4) by (rewrite slice_slice by lia; reflexivity).
    rewrite E2. reflexivity. }
  assert (Hll : zlen l = 16 + zlen data + zlen rest).
  { rewrite Ell, !zlen_app, zlen_create_be32. change (zlen HEADER_MAGIC) with 8. change (zlen [0; 0; 0; 0]) with 4. lia. }
  rewrite E1, list_eqb_refl, E2, E3, E4.
  rewrite create_be32_val by lia. change (be_val [0; 0; 0; 0]) with 0.
  assert (Hbb : bytesb ([0; 0; 0; 0] ++ create_be32 (zlen data)) = true).
  { assert (Hby : bytes ([0; 0; 0; 0] ++ create_be32 (zlen data))).
    { apply bytes_app. split; [repeat constructor; unfold byte; lia|apply create_be32_bytes]. }
    unfold bytesb. apply forallb_forall. unfold bytes in Hby. rewrite Forall_forall in Hby. intros y Hy.
    specialize (Hby _ Hy). unfold byte in Hby. lia. }
  rewrite Hbb. cbn [negb orb].
  replace (zlen l <? 8 + (8 + 0 * 16 + zlen data)) with false by lia. replace (zlen l <? 16) with false by lia.
  rewrite !zlen_app, zlen_create_be32. change (zlen [0; 0; 0; 0]) with 4. do 2 f_equal; [|lia].
  unfold l. rewrite slice_app_r by (change (zlen HEADER_MAGIC) with 8; lia). change (8 - zlen HEADER_MAGIC) with 0.
  apply slice_app_exact_l. rewrite !zlen_app, zlen_create_be32. change (zlen [0; 0; 0; 0]) with 4. lia.
Qed.

Lemma toy_read_short l : zlen l < 16 -> toy_read l = None.
Proof.
  intros H. unfold toy_read. set (a := _ || _). destruct a; [reflexivity|]. cbv zeta.
  generalize (8 + be_val (slice l 8 4) * 16 + be_val (slice l 12 4)). intros m.
  destruct (zlen l <? 8 + m); [reflexivity|]. destruct (zlen l <? 16) eqn:E; [reflexivity|lia].
Qed.

Lemma toy_header_cut : header_cut toylibs.
Proof.
  intros l h n k H Hk. cbn [lb_read toylibs] in *. unfold toy_read in H.
  destruct (negb (list_eqb (slice l 0 8) HEADER_MAGIC)) eqn:Em; [discriminate|].
  destruct (negb (bytesb (slice l 8 8))) eqn:Eb; [discriminate|]. cbn [orb] in H.
  set (m := 8 + be_val (slice l 8 4) * 16 + be_val (slice l 12 4)) in *.
  destruct (zlen l <? 8 + m) eqn:E1; [discriminate|]. destruct (zlen l <? 16) eqn:E2; [discriminate|].
  assert (Hh : h = slice l 8 m) by congruence. assert (Hn : n = 8 + m) by congruence. subst h n. clear H.
  apply negb_false_iff, bytesb_ok in Eb.
  assert (Hm : 8 <= m).
  { assert (Hs : slice l 8 8 = slice l 8 4 ++ slice l 12 4) by (apply (slice_split l 8 4 4); lia).
    rewrite Hs in Eb. apply bytes_app in Eb as [Ba Bb].
    pose proof (be_val_range _ Ba). pose proof (be_val_range _ Bb). unfold m. lia. }
  destruct (Z_lt_le_dec k 16) as [Hlt|Hge].
  - replace (8 + m <=? k) with false by lia. apply toy_read_short.
    pose proof (zlen_slice_le l 0 k Hk). lia.
  - unfold toy_read. cbv zeta. destruct (Z_lt_le_dec k (zlen l)) as [Hkl|Hkl].
    + rewrite (slice_slice l 0 k 0 8), (slice_slice l 0 k 8 8), (slice_slice l 0 k 8 4), (slice_slice l 0 k 12 4) by lia. rewrite !Z.add_0_l.
      rewrite Em. replace (negb (bytesb (slice l 8 8))) with false.
      2:{ symmetry. apply negb_false_iff. unfold bytesb. apply forallb_forall. unfold bytes in Eb.
          rewrite Forall_forall in Eb. intros y Hy. specialize (Eb _ Hy). unfold byte in Eb. lia. }
      cbn [orb]. fold m. rewrite zlen_slice by lia.
      replace (k <? 16) with false by lia.
      destruct (Z_lt_le_dec k (8 + m)).
      * replace (k <? 8 + m) with true by lia. replace (8 + m <=? k) with false by lia. reflexivity.
      * replace (k <? 8 + m) with false by lia. replace (8 + m <=? k) with true by lia.
        rewrite slice_slice by lia. reflexivity.
    + rewrite (slice_all_ge l k) by lia. rewrite Em.
      replace (negb (bytesb (slice l 8 8))) with false.
      2:{ symmetry. apply negb_false_iff. unfold bytesb. apply forallb_forall. unfold bytes in Eb.
          rewrite Forall_forall in Eb. intros y Hy. specialize (Eb _ Hy). unfold byte in Eb. lia. }
      cbn [orb]. fold m. rewrite E1, E2. replace (8 + m <=? k) with true by lia. reflexivity.
Qed.

Lemma toy_sig_readable size md5 : readable toylibs (toy_mksig size md5).
Proof.
  apply toy_readable.
  - apply bytes_app. split; [apply create_be32_bytes|]. apply Forall_forall. intros y Hy.
    assert (Hi : In y (map u8 md5 ++ repeat 0 16)).
    { rewrite <- (firstn_skipn 16 (map u8 md5 ++ repeat 0 16)). apply in_or_app. auto. }
    apply in_app_or in Hi as [Hi|Hi].
    + apply in_map_iff in Hi as (z & <- & _). apply u8_byte.
    + apply repeat_spec in Hi. subst. unfold byte. lia.
  - rewrite zlen_app, zlen_create_be32. unfold zlen. rewrite firstn_length. lia.
Qed.
Lemma toy_sig_len size md5 : zlen (toy_mksig size md5) = 28.
Proof.
  unfold toy_mksig, toy_header. rewrite !zlen_app, !zlen_create_be32. change (zlen [0; 0; 0; 0]) with 4.
  unfold zlen. rewrite firstn_length, app_length, map_length, repeat_length. lia.
Qed.

Lemma toy_decodes_bytes : decodes_bytes toy.
Proof. intros comp hist c H. cbn [d_step toy fst]. apply (fun n => proj2 (proj1 (bytes_app (firstn n c) (skipn n c)) (eq_ind_r bytes H (firstn_skipn n c)))). Qed.
