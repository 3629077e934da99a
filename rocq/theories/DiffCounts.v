(** * DiffCounts: the copies of a diff fit the format *)
From Verif Require Import Base BaseLemmas Sat Search SearchProofs Diff DiffProofs SpecDelta CopiesProofs.

Lemma diff_loop_sizes old new addblk : zlen old < 2 ^ 31 -> zlen new < 2 ^ 31 -> forall dcs np offset cnt exts ints,
  dcs_ok old new addblk np dcs -> 0 <= np -> 0 <= offset <= zlen old ->
  diff_copies_loop dcs offset cnt = Ok (exts, ints) ->
  Forall (fun e => 0 < snd e) exts /\ zlen exts <= zlen new - np /\ zlen ints <= zlen new - np + 1 /\
  Forall (fun p => 0 <= fst p < 2 ^ 32 /\ 0 <= snd p < 2 ^ 32) ints.
Proof.
  intros Ho Hn. induction dcs as [|d r IH]; intros np offset cnt exts ints Hok Hnp Hoff H; cbn [diff_copies_loop dcs_ok] in *.
  - assert (Hu : 0 <= u32 cnt < 2 ^ 32) by (unfold u32; apply Z.mod_pos_bound; lia).
    injection H as <- <-. split; [constructor|]. change (zlen (@nil (Z * Z))) with 0. split; [lia|].
    destruct (0 <? u32 cnt).
    + split; [change (zlen [(u32 cnt, 0)]) with 1; lia|]. repeat constructor; cbn [fst snd]; lia.
    + split; [change (zlen (@nil (Z * Z))) with 0; lia|constructor].
  - destruct Hok as (D1 & D2 & D3 & D4 & D5 & D6 & D7 & D8).
    apply bind_ok in H as ([ex off'] & E1 & H). apply bind_ok in H as ([is c] & E2 & H).
    apply bind_ok in H as ([exts' ints'] & E3 & H). injection H as <- <-.
    assert (X : Forall (fun e => 0 < snd e) ex /\ zlen ex <= dc_old_len d /\ 0 <= off' <= zlen old).
    { destruct (Z.eqb_spec (dc_old_len d) 0) as [E|E].
      - injection E1 as <- <-. split; [constructor|]. change (zlen (@nil (Z * Z))) with 0. lia.
      - unfold ext_fuel in E1.
        destruct (Z.to_nat ((Z.abs (dc_old_off d - offset) + dc_old_len d) / INT32_MAX + 2)) as [|f]; cbn [ext_loop] in E1; [discriminate|].
        unfold TWO31 in E1.
        replace ((offset <? dc_old_off d) && (2 ^ 31 <=? u64 (dc_old_off d - offset))) with false in E1.
        2:{ symmetry. destruct (Z.ltb_spec offset (dc_old_off d)); [|reflexivity]. rewrite u64_small by lia. cbn [andb]. lia. }
        replace ((dc_old_off d <? offset) && (2 ^ 31 <=? u64 (offset - dc_old_off d))) with false in E1.
        2:{ symmetry. destruct (Z.ltb_spec (dc_old_off d) offset); [|reflexivity]. rewrite u64_small by lia. cbn [andb]. lia. }
        replace (2 ^ 31 <=? dc_old_len d) with false in E1 by lia.
        injection E1 as <- <-. rewrite u64_small by lia. split; [repeat constructor; cbn [snd]; lia|]. split; [change (zlen [(u32 (dc_old_off d - offset), dc_old_len d)]) with 1; lia|lia]. }
    destruct X as (X1 & X2 & X3).
    assert (Y : zlen is <= dc_new_len d /\ Forall (fun p => 0 <= fst p < 2 ^ 32 /\ 0 <= snd p < 2 ^ 32) is).
    { destruct (Z.eqb_spec (dc_new_len d) 0) as [E|E].
      - injection E2 as <- <-. split; [change (zlen (@nil (Z * Z))) with 0; lia|constructor].
      - apply bind_ok in E2 as (r0 & E2 & H). injection H as <- <-. unfold int_fuel in E2.
        destruct (Z.to_nat (dc_new_len d / INT32_MAX + 2)) as [|f]; cbn [int_loop] in E2; [discriminate|].
        unfold TWO31 in E2. replace (2 ^ 31 <=? dc_new_len d) with false in E2 by lia. injection E2 as <-.
        split; [match goal with |- zlen ?l <= _ => change (zlen l) with 1 end; lia|]. repeat constructor; cbn [fst snd]; try lia;
          unfold u32; apply Z.mod_pos_bound; lia. }
    destruct Y as [Y1 Y2].
    destruct (IH _ _ _ _ _ D8 ltac:(lia) X3 E3) as (I1 & I2 & I3 & I4).
    rewrite !zlen_app. split; [apply Forall_app; auto|]. split; [lia|]. split; [lia|]. apply Forall_app; auto.
Qed.

Lemma bytes_dcs_add old new : forall dcs np, bytes (dcs_add old new np dcs).
Proof.
  induction dcs as [|d r IH]; intros np; cbn [dcs_add]; [constructor|]. apply Forall_app. split; [apply bytes_subs|apply IH].
Qed.

(** Everything about a diff of less than 2^29-1 bytes against less than 2^31 bytes that the rest needs. *)
Lemma make_diff_fits old new addblk : bytes new -> zlen old < 2 ^ 31 -> zlen new < 2 ^ 31 -> new = [] \/ 16 <= zlen new ->
  exists d data, make_diff old new addblk = Ok d /\
    int_data_of new (dr_int_off d) (dr_int d) = Ok data /\ zlen data = dr_int_len d /\ length (dr_int_off d) = length (dr_int d) /\
    patch_delta old (dr_ext d) (dr_int d) data (if addblk then Some (concat (dr_add d)) else None) = Some new /\
    Forall ext_wf (dr_ext d) /\ Forall (fun e => 0 < snd e) (dr_ext d) /\ zlen (dr_ext d) <= zlen new /\
    zlen (dr_int d) <= zlen new + 1 /\ Forall (fun p => 0 <= fst p < 2 ^ 32 /\ 0 <= snd p < 2 ^ 32) (dr_int d) /\
    bytes (concat (dr_add d)).
Proof.
  intros Hb Ho Hn H16.
  assert (H16' : zlen new = 0 \/ HSIZE <= zlen new).
  { destruct H16 as [->|H]; [left; reflexivity|right; unfold HSIZE; lia]. }
  pose proof (make_diff_small_sat old new addblk Hb Ho Hn H16') as HM.
  destruct (make_diff old new addblk) as [d| | |] eqn:E; try contradiction. cbn [sat] in HM.
  destruct HM as (_ & W & data & A1 & A2 & A3 & A4).
  exists d, data. split; [reflexivity|]. split; [auto|]. split; [auto|]. split; [auto|]. split; [auto|]. split; [auto|].
  unfold make_diff in E. apply bind_ok in E as ([dcs ads] & E1 & E).
  pose proof (zlen_nonneg old). pose proof (zlen_nonneg new).
  pose proof (make_diff_copies_sat old new ltac:(lia) ltac:(lia) addblk H16') as HC.
  rewrite E1 in HC. cbn [sat] in HC. destruct HC as [Hok Hads].
  apply bind_ok in E as ([exts ints] & E2 & E). unfold create_diff_copies in E2.
  apply bind_ok in E as ([offs l] & E3 & E). injection E as <-. cbn [dr_ext dr_int dr_add].
  destruct (diff_loop_sizes old new addblk Ho Hn dcs 0 0 0 exts ints Hok ltac:(lia) ltac:(lia) E2) as (I1 & I2 & I3 & I4).
  split; [auto|]. split; [lia|]. split; [lia|]. split; [auto|].
  destruct addblk; [rewrite Hads; apply bytes_dcs_add|rewrite Hads; constructor].
Qed.
