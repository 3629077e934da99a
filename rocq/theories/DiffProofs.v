(** * Proofs about the diff loop *)
From Verif Require Import Base BaseLemmas Sat Search SearchProofs Diff.

(** Byte-wise difference, as stored in an add block. *)
Fixpoint subs (ys xs : list Z) : list Z :=
  match ys, xs with
  | y :: ys', x :: xs' => u8 (y - x) :: subs ys' xs'
  | _, _ => []
  end.

(** Byte-wise sum, as computed when applying an add block. *)
Fixpoint adds (xs ds : list Z) : list Z :=
  match xs, ds with
  | x :: xs', d :: ds' => u8 (x + d) :: adds xs' ds'
  | _, _ => []
  end.

Lemma subs_app a b c d : length a = length c -> subs (a ++ b) (c ++ d) = subs a c ++ subs b d.
Proof.
  revert c; induction a as [|x a IH]; destruct c as [|y c]; cbn; intros H; try lia; auto.
  f_equal. apply IH. lia.
Qed.

Lemma length_subs a b : length a = length b -> length (subs a b) = length a.
Proof. revert b; induction a; destruct b; cbn; intros; try lia. f_equal. apply IHa. lia. Qed.

Lemma adds_subs ys xs : bytes ys -> length ys = length xs -> adds xs (subs ys xs) = ys.
Proof.
  revert xs; induction ys as [|y ys IH]; destruct xs as [|x xs]; cbn [adds subs length]; intros Hb Hl; try lia; auto.
  inversion Hb as [|? ? Hy Hys]; subst. f_equal.
  - unfold u8, byte in *. rewrite Zplus_mod_idemp_r.
    replace (x + (y - x)) with y by lia. apply Z.mod_small. lia.
  - apply IH; auto.
Qed.

Lemma bytes_subs ys xs : bytes (subs ys xs).
Proof.
  revert xs; induction ys as [|y ys IH]; destruct xs; cbn; constructor; auto.
  - unfold u8, byte. change (2 ^ 8) with 256. apply Z.mod_pos_bound. lia.
  - apply IH.
Qed.

Lemma slice_cons (l : list Z) off n :
  0 <= off < zlen l -> 0 < n -> slice l off n = getz l off :: slice l (off + 1) (n - 1).
Proof.
  intros. replace n with (1 + (n - 1)) at 1 by lia. rewrite slice_split by lia.
  assert (Hs : slice l off 1 = [getz l off]).
  { apply list_getz_ext.
    - rewrite zlen_slice by lia. reflexivity.
    - intros i Hi. rewrite zlen_slice in Hi by lia. replace i with 0 by lia.
      rewrite getz_slice by lia. rewrite Z.add_0_r. reflexivity. }
  rewrite Hs. reflexivity.
Qed.

Section DiffProofs.
  Context (old new : list Z).
  Context (Hold : zlen old < 2 ^ 63) (Hnew : zlen new < 2 ^ 63).

  Local Notation ol := (zlen old).
  Local Notation nl := (zlen new).

  Lemma fwd_loop_sat n op np i count best lf :
    0 <= op -> 0 <= np -> 0 <= i -> 0 <= lf <= i ->
    op + i + Z.of_nat n <= ol -> np + i + Z.of_nat n <= nl ->
    sat (fun r => 0 <= r <= i + Z.of_nat n) (fwd_loop old new n op np i count best lf).
  Proof.
    revert i count best lf; induction n as [|n IH]; intros i count best lf Hop Hnp Hi Hlf Ho Hn.
    - cbn. lia.
    - cbn [fwd_loop]. rewrite !rd_getz by lia. cbn [bind].
      destruct (_ =? _).
      + destruct (_ <=? _); (eapply sat_mono; [apply IH; lia|cbv beta; intros; lia]).
      + eapply sat_mono; [apply IH; lia|cbv beta; intros; lia].
  Qed.

  Lemma len_forward_sat addblk op np new_pos :
    0 <= op <= ol -> 0 <= np <= new_pos -> new_pos <= nl ->
    sat (fun lf => 0 <= lf /\ op + lf <= ol /\ np + lf <= new_pos /\
                   (addblk = false -> slice old op lf = slice new np lf))
        (len_forward_of old new addblk op np new_pos).
  Proof.
    intros. unfold len_forward_of. rewrite !u64_small by lia. destruct addblk.
    - eapply sat_mono; [apply fwd_loop_sat; lia|]. cbv beta. intros lf Hlf.
      repeat split; try lia.
    - eapply sat_mono; [apply match_len_loop_sat; lia|]. cbv beta. intros lf (Hlf & He & _).
      repeat split; try lia. intros _. apply slice_getz_ext; try lia. auto.
  Qed.

  Lemma back_loop_sat n p q i count best lb :
    0 <= p -> p <= ol -> 0 <= q -> q <= nl -> 1 <= i -> 0 <= lb < i ->
    i + Z.of_nat n - 1 <= p -> i + Z.of_nat n - 1 <= q ->
    sat (fun r => 0 <= r <= i + Z.of_nat n - 1) (back_loop old new n p q i count best lb).
  Proof.
    revert i count best lb; induction n as [|n IH]; intros.
    - cbn. lia.
    - cbn [back_loop]. rewrite !rd_getz by lia. cbn [bind].
      destruct (_ =? _).
      + destruct (_ <=? _); (eapply sat_mono; [apply IH; lia|cbv beta; intros; lia]).
      + eapply sat_mono; [apply IH; lia|cbv beta; intros; lia].
  Qed.

  Lemma len_back_sat addblk np old_pos new_pos :
    0 <= old_pos <= ol -> 0 <= np <= new_pos -> new_pos <= nl ->
    sat (fun lb => 0 <= lb /\ lb <= old_pos /\ np + lb <= new_pos /\
                   (addblk = false \/ new_pos = nl -> lb = 0))
        (len_back_of old new addblk np old_pos new_pos).
  Proof.
    intros. unfold len_back_of. destruct (addblk && _) eqn:E.
    - rewrite u64_small by lia. eapply sat_mono; [apply back_loop_sat; lia|].
      cbv beta. intros lb Hlb. repeat split; try lia.
    - cbn. repeat split; lia.
  Qed.

  Lemma split_loop_sat n a c b d i cf cb best sp :
    0 <= a -> 0 <= b -> 0 <= c -> 0 <= d -> 0 <= i -> 0 <= sp <= i ->
    a + i + Z.of_nat n <= ol -> b + i + Z.of_nat n <= ol ->
    c + i + Z.of_nat n <= nl -> d + i + Z.of_nat n <= nl ->
    sat (fun r => 0 <= r <= i + Z.of_nat n) (split_loop old new n a c b d i cf cb best sp).
  Proof.
    revert i cf cb best sp; induction n as [|n IH]; intros.
    - cbn. lia.
    - cbn [split_loop]. rewrite !rd_getz by lia. cbn [bind]. cbv zeta.
      destruct (_ && _); (eapply sat_mono; [apply IH; lia|cbv beta; intros; lia]).
  Qed.

  Lemma resolve_overlap_sat op np old_pos new_pos lf lb :
    0 <= op -> 0 <= np -> new_pos <= nl -> old_pos <= ol ->
    0 <= lf -> op + lf <= ol -> np + lf <= new_pos ->
    0 <= lb -> lb <= old_pos -> np + lb <= new_pos ->
    sat (fun '(lf', lb') => 0 <= lf' <= lf /\ 0 <= lb' <= lb /\ np + lf' <= new_pos - lb' /\
                            (lb = 0 -> lf' = lf))
        (resolve_overlap old new op np old_pos new_pos lf lb).
  Proof.
    intros. unfold resolve_overlap. rewrite (u64_small (new_pos - lb)) by lia.
    destruct (Z.ltb_spec (new_pos - lb) (np + lf)); [|cbn; lia].
    cbv zeta. rewrite (u64_small (np + lf - _)) by lia.
    set (ov := np + lf - (new_pos - lb)) in *.
    rewrite !u64_small by lia.
    eapply sat_bind.
    { apply split_loop_sat; try lia. }
    cbv beta. intros sp Hsp. cbn [sat]. rewrite !u64_small by lia. lia.
  Qed.

  Lemma sub_loop_eq n op np :
    0 <= op -> 0 <= np -> op + Z.of_nat n <= ol -> np + Z.of_nat n <= nl ->
    sub_loop old new n op np =
    Ok (subs (slice new np (Z.of_nat n)) (slice old op (Z.of_nat n))).
  Proof.
    revert op np; induction n as [|n IH]; intros op np Hop Hnp Ho Hn.
    - reflexivity.
    - cbn [sub_loop]. rewrite !rd_getz by lia. cbn [bind].
      rewrite IH by lia. cbn [bind].
      rewrite (slice_cons new np), (slice_cons old op) by lia. cbn [subs].
      repeat (f_equal; try lia).
  Qed.

  Lemma add_loop_sat fuel op np lf :
    0 <= op -> 0 <= np -> 0 <= lf <= Z.of_nat fuel -> op + lf <= ol -> np + lf <= nl ->
    sat (fun r => concat r = subs (slice new np lf) (slice old op lf))
        (add_loop old new fuel op np lf).
  Proof.
    revert op np lf; induction fuel as [|f IH]; intros op np lf Hop Hnp Hlf Ho Hn.
    - cbn [add_loop]. destruct (Z.leb_spec lf 0); [|lia]. cbn.
      replace lf with 0 by lia. reflexivity.
    - cbn [add_loop]. destruct (Z.leb_spec lf 0).
      { cbn. replace lf with 0 by lia. reflexivity. }
      cbv zeta. unfold BUFFER_SIZE. set (wl := Z.min lf 4096). assert (1 <= wl <= lf) by lia.
      rewrite sub_loop_eq by lia. cbn [bind].
      eapply sat_bind; [apply IH; lia|]. cbv beta. intros r Hr. cbn [sat concat].
      rewrite Hr, Z2Nat.id by lia.
      replace lf with (wl + (lf - wl)) at 3 4 by lia.
      rewrite (slice_split new np wl), (slice_split old op wl) by lia. rewrite subs_app; auto.
      apply zlen_eq. rewrite !zlen_slice; lia.
  Qed.

  (** The diff copies reproduce [new] from position [np] on: each takes
      [dc_old_len] bytes from the old data and then [dc_new_len] bytes from
      the new data, without gap or overlap. *)
  Fixpoint dcs_ok (addblk : bool) (np : Z) (dcs : list diff_copy) : Prop :=
    match dcs with
    | [] => np = nl
    | d :: r =>
        0 <= dc_old_off d /\ 0 <= dc_old_len d /\ dc_old_off d + dc_old_len d <= ol /\
        dc_new_off d = np + dc_old_len d /\ 0 <= dc_new_len d /\
        np + dc_old_len d + dc_new_len d <= nl /\
        (addblk = false ->
         slice old (dc_old_off d) (dc_old_len d) = slice new np (dc_old_len d)) /\
        dcs_ok addblk (np + dc_old_len d + dc_new_len d) r
    end.

  (** The add data that belongs to the diff copies. *)
  Fixpoint dcs_add (np : Z) (dcs : list diff_copy) : list Z :=
    match dcs with
    | [] => []
    | d :: r =>
        subs (slice new np (dc_old_len d)) (slice old (dc_old_off d) (dc_old_len d))
        ++ dcs_add (np + dc_old_len d + dc_new_len d) r
    end.

  Lemma make_diff_loop_sat h addblk fuel op np new_pos len :
    ht_wf ol h -> HSIZE <= nl ->
    0 <= op <= ol -> 0 <= np <= nl -> np <= new_pos + len <= nl ->
    (np = nl \/ nl - (new_pos + len) + 1 <= Z.of_nat fuel) ->
    sat (fun '(dcs, ads) => dcs_ok addblk np dcs /\
                            (if addblk then concat ads = dcs_add np dcs else ads = []))
        (make_diff_loop old new fuel h addblk op np new_pos len).
  Proof.
    intros Hht H16. revert op np new_pos len.
    induction fuel as [|f IH]; intros op np new_pos len Hop Hnp Hst Hf.
    - cbn [make_diff_loop]. destruct (Z.leb_spec nl np); [|lia].
      cbn. split; [lia|]. destruct addblk; auto.
    - cbn [make_diff_loop]. destruct (Z.leb_spec nl np) as [Hd|Hd].
      { cbn. split; [lia|]. destruct addblk; auto. }
      eapply sat_bind; [apply hash_search_sat; auto; lia|].
      intros [[new_pos' old_pos'] len'] Hs. cbn [search_ok] in Hs.
      assert (Hb : np <= new_pos' <= nl /\ 0 <= old_pos' <= ol /\ 0 <= len' /\
                   new_pos' + len' <= nl /\
                   (new_pos' = nl \/ new_pos + len < new_pos' + len')).
      { destruct Hs as [(-> & -> & ->)|(H1 & H2 & (M1 & M2 & M3 & M4 & M5 & _))].
        - pose proof (zlen_nonneg old). lia.
        - lia. }
      clear Hs. destruct Hb as (B1 & B2 & B3 & B4 & B5).
      eapply sat_bind; [apply len_forward_sat; lia|]. cbv beta. intros lf (F1 & F2 & F3 & F4).
      eapply sat_bind; [apply len_back_sat; lia|]. cbv beta. intros lb (K1 & K2 & K3 & K4).
      eapply sat_bind; [apply resolve_overlap_sat; lia|].
      intros [lf' lb'] (R1 & R2 & R3 & R4). cbv zeta.
      rewrite !(u64_small (new_pos' - lb')), !(u64_small (old_pos' - lb')) by lia.
      rewrite u64_small by lia.
      eapply (sat_bind (fun r => if addblk then concat r = subs (slice new np lf') (slice old op lf')
                                 else r = [])).
      { destruct addblk; [apply add_loop_sat; lia|reflexivity]. }
      intros ads Hads. eapply sat_bind; [apply IH; lia|].
      intros [dcs ads'] (D1 & D2). cbn [sat dcs_ok dcs_add dc_old_len dc_old_off dc_new_len dc_new_off].
      replace (np + lf' + (new_pos' - lb' - (np + lf'))) with (new_pos' - lb') by lia.
      split.
      + do 6 (split; [lia|]). split; [|exact D1].
        intros Hna. rewrite (R4 (K4 (or_introl Hna))). auto.
      + destruct addblk.
        * rewrite concat_app, Hads, D2. reflexivity.
        * subst. reflexivity.
  Qed.

  Lemma make_diff_copies_sat addblk :
    nl = 0 \/ HSIZE <= nl ->
    sat (fun '(dcs, ads) => dcs_ok addblk 0 dcs /\
                            (if addblk then concat ads = dcs_add 0 dcs else ads = []))
        (make_diff_copies old new addblk).
  Proof.
    intros Hn. unfold make_diff_copies.
    eapply sat_bind; [apply hash_create_sat|]. intros h Hh.
    pose proof (zlen_nonneg old). pose proof (zlen_nonneg new).
    destruct Hn as [Hn|Hn].
    - replace (Z.to_nat (nl + 1)) with 1%nat by lia. cbn [make_diff_loop].
      destruct (Z.leb_spec nl 0); [|lia]. cbn [sat dcs_ok].
      split; [lia|]. destruct addblk; auto.
    - apply make_diff_loop_sat; auto; lia.
  Qed.
End DiffProofs.
