(** * Final forms of the lemmas behind C01-C03 *)
From Verif Require Import Base BaseLemmas Sat Search SearchProofs Diff DiffProofs SpecDelta
     CopiesProofs ExtentProofs.

Lemma nil_or_16 (new : list Z) : new = [] \/ 16 <= zlen new -> zlen new = 0 \/ HSIZE <= zlen new.
Proof. intros [->|H]; [left; reflexivity|right; unfold HSIZE; lia]. Qed.

Lemma diff_patch_roundtrip : forall (old new : list Z) (addblk : bool),
  bytes new -> zlen old < 2 ^ 31 -> zlen new < 2 ^ 31 ->
  new = [] \/ 16 <= zlen new ->
  exists d data,
    make_diff old new addblk = Ok d /\
    int_data_of new (dr_int_off d) (dr_int d) = Ok data /\
    patch_delta old (dr_ext d) (dr_int d) data
                (if addblk then Some (concat (dr_add d)) else None) = Some new.
Proof.
  intros old new addblk Hb Ho Hn H.
  destruct (sat_ok _ _ (make_diff_small_sat old new addblk Hb Ho Hn (nil_or_16 _ H)))
    as (d & Hd & _ & _ & data & H1 & _ & _ & H2).
  exists d, data. auto.
Qed.

Lemma diff_patch_roundtrip_large : forall (old new : list Z) (addblk : bool),
  bytes new -> zlen old < 2 ^ 63 -> zlen new < 2 ^ 31 ->
  new = [] \/ 16 <= zlen new ->
  exists d, make_diff old new addblk = Ok d /\
    (zlen (dr_ext d) < 2 ^ 32 ->
     exists data,
       int_data_of new (dr_int_off d) (dr_int d) = Ok data /\
       patch_delta old (dr_ext d) (dr_int d) data
                   (if addblk then Some (concat (dr_add d)) else None) = Some new).
Proof.
  intros old new addblk Hb Ho Hn H.
  destruct (sat_ok _ _ (make_diff_sat old new addblk Hb Ho Hn (nil_or_16 _ H)))
    as (d & Hd & HP).
  exists d. split; auto. intros Hlt. destruct (HP Hlt) as (_ & data & H1 & _ & _ & H2).
  exists data. auto.
Qed.

Lemma search_sound : forall (old new : list Z) (last_offset start : Z),
  zlen old < 2 ^ 63 -> 16 <= zlen new < 2 ^ 63 -> 0 <= start <= zlen new ->
  exists h scan pos len,
    hash_create old = Ok h /\
    hash_search h old new last_offset start = Ok (scan, pos, len) /\
    ((scan = zlen new /\ pos = 0 /\ len = 0) \/
     (start <= scan /\ 1 <= len /\ scan + len <= zlen new /\
      0 <= pos /\ pos + len <= zlen old /\
      slice old pos len = slice new scan len)).
Proof.
  intros old new lo start Ho Hn Hs.
  destruct (sat_ok _ _ (hash_create_sat old)) as (h & Hh & Hwf).
  assert (H16 : HSIZE <= zlen new) by (unfold HSIZE; lia).
  destruct (sat_ok _ _ (hash_search_sat h old new lo start Hwf Ho (proj2 Hn) H16 Hs))
    as ([[scan pos] len] & HS & HP).
  exists h, scan, pos, len. split; auto. split; auto. cbn [search_ok] in HP.
  destruct HP as [HP|(H1 & H2 & (M1 & M2 & M3 & M4 & M5 & M6))]; [left; exact HP|right].
  repeat split; try lia. apply slice_getz_ext; auto; lia.
Qed.

Lemma dcs_ok_tile old new addblk dcs np :
  0 <= np -> dcs_ok old new addblk np dcs ->
  Forall (fun d => 0 <= dc_old_off d /\ 0 <= dc_old_len d /\
                   dc_old_off d + dc_old_len d <= zlen old) dcs /\
  concat (map (fun d => slice new (dc_new_off d - dc_old_len d) (dc_old_len d)
                        ++ slice new (dc_new_off d) (dc_new_len d)) dcs)
  = slice new np (zlen new - np).
Proof.
  revert np; induction dcs as [|d r IH]; intros np Hnp H.
  - cbn [dcs_ok] in H. subst. rewrite Z.sub_diag, slice_nil_len by lia. split; [constructor|reflexivity].
  - destruct H as (D1 & D2 & D3 & D4 & D5 & D6 & D7 & D8).
    destruct (IH (np + dc_old_len d + dc_new_len d) ltac:(lia) D8) as [I1 I2]. split; [constructor; auto|].
    cbn [map concat]. rewrite I2, D4.
    replace (np + dc_old_len d - dc_old_len d) with np by lia.
    replace (zlen new - np)
      with (dc_old_len d + dc_new_len d + (zlen new - (np + dc_old_len d + dc_new_len d))) by lia.
    pose proof (dcs_ok_le _ _ _ _ _ D8).
    rewrite (slice_split new np (dc_old_len d + dc_new_len d)) by lia.
    rewrite (slice_split new np (dc_old_len d)) by lia.
    rewrite Z.add_assoc. reflexivity.
Qed.

Lemma diff_total : forall (old new : list Z) (addblk : bool),
  zlen old < 2 ^ 63 -> zlen new < 2 ^ 63 -> new = [] \/ 16 <= zlen new ->
  exists dcs adds,
    make_diff_copies old new addblk = Ok (dcs, adds) /\
    Forall (fun d => 0 <= dc_old_off d /\ 0 <= dc_old_len d /\
                     dc_old_off d + dc_old_len d <= zlen old) dcs /\
    concat (map (fun d => slice new (dc_new_off d - dc_old_len d) (dc_old_len d)
                          ++ slice new (dc_new_off d) (dc_new_len d)) dcs) = new.
Proof.
  intros old new addblk Ho Hn H.
  destruct (sat_ok _ _ (make_diff_copies_sat old new Ho Hn addblk (nil_or_16 _ H)))
    as ([dcs ads] & HM & Hok & _).
  destruct (dcs_ok_tile _ _ _ _ _ (Z.le_refl 0) Hok) as [H1 H2].
  exists dcs, ads. split; auto. split; auto. rewrite H2, Z.sub_0_r. apply slice_all.
Qed.

Lemma short_new_oob : exists old new,
  zlen new = 15 /\ bytes old /\ bytes new /\ make_diff old new false = Ub OobRead.
Proof.
  exists (repeat 7 20), (repeat 7 15). split; [reflexivity|].
  split; [|split]; [| |vm_compute; reflexivity];
    apply Forall_forall; intros x Hx; apply repeat_spec in Hx; subst; unfold byte; lia.
Qed.

Lemma flat_map_dcs_ops dcs :
  flat_map (fun d => [OCopy (dc_old_off d) (dc_old_len d); OData (dc_new_len d)]) dcs = dcs_ops dcs.
Proof. induction dcs as [|d r IH]; cbn; [auto|]. now rewrite IH. Qed.

Lemma extents_denoted : forall dcs : list diff_copy,
  Forall (fun d => 0 <= dc_old_off d /\ 0 <= dc_old_len d < 2 ^ 31 /\
                   dc_old_off d + dc_old_len d < 2 ^ 63 /\ 0 <= dc_new_len d) dcs ->
  exists exts ints,
    create_diff_copies dcs = Ok (exts, ints) /\
    (zlen exts < 2 ^ 32 ->
     forall k, 0 <= k ->
       byte_src (delta_ops ints (extents 0 exts)) 0 k =
       byte_src (flat_map (fun d => [OCopy (dc_old_off d) (dc_old_len d);
                                     OData (dc_new_len d)]) dcs) 0 k).
Proof.
  intros dcs H. rewrite flat_map_dcs_ops.
  destruct (sat_ok _ _ (create_diff_copies_ops dcs H)) as ([exts ints] & HC & HP).
  exists exts, ints. split; auto. intros Hlt. apply HP. auto.
Qed.

Lemma two_gib_extent : exists dcs exts ints k,
  create_diff_copies dcs = Ok (exts, ints) /\
  byte_src (flat_map (fun d => [OCopy (dc_old_off d) (dc_old_len d);
                                OData (dc_new_len d)]) dcs) 0 k = Some (FromOld 100) /\
  byte_src (delta_ops ints (extents 0 exts)) 0 k = Some (FromOld 110).
Proof.
  exists [mkdc 10 (2 ^ 31) 0 0; mkdc 100 5 0 0]. do 2 eexists. exists (2 ^ 31).
  split; [vm_compute; reflexivity|]. split; vm_compute; reflexivity.
Qed.
