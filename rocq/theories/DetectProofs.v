(** * DetectProofs: detection of the codec from the first eight bytes *)
From Verif Require Import Base BaseLemmas Utils UtilsProofs DeltaComp SpecCodec Stream SpecStream.

Lemma be_val_app h r : be_val (h ++ r) = be_val h * 2 ^ (8 * zlen r) + be_val r.
Proof.
  unfold be_val. rewrite fold_left_app. generalize (fold_left (fun a b => a * 256 + b) h 0) as a.
  induction r as [|b r IH]; intros a; cbn [fold_left].
  - change (@zlen Z []) with 0. lia.
  - rewrite IH, (IH (0 * 256 + b)), zlen_cons. pose proof (zlen_nonneg r).
    replace (8 * (1 + zlen r)) with (8 + 8 * zlen r) by lia.
    rewrite Z.pow_add_r by lia. change (2 ^ 8) with 256. ring.
Qed.

Lemma be_val_inj a : forall b, bytes a -> bytes b -> zlen a = zlen b -> be_val a = be_val b -> a = b.
Proof.
  induction a as [|x a IH]; intros b Ha Hb Hl Hv.
  - symmetry. apply zlen_zero_nil. rewrite <- Hl. reflexivity.
  - destruct b as [|y b]; [unfold zlen in Hl; cbn in Hl; lia|].
    rewrite !zlen_cons in Hl. change (x :: a) with ([x] ++ a) in Hv. change (y :: b) with ([y] ++ b) in Hv.
    rewrite !be_val_app in Hv. inversion Ha as [|? ? Hx Ha']; inversion Hb as [|? ? Hy Hb']; subst.
    pose proof (be_val_range a Ha'). pose proof (be_val_range b Hb').
    assert (El : zlen b = zlen a) by lia. rewrite El in *.
    change (be_val [x]) with (0 * 256 + x) in Hv. change (be_val [y]) with (0 * 256 + y) in Hv.
    set (q := 2 ^ (8 * zlen a)) in *.
    assert (x = y) by nia. subst y. f_equal. apply IH; auto.
    lia.
Qed.

Lemma shift_prefix l m : bytes l -> bytes m -> zlen m <= zlen l ->
  (Z.shiftr (be_val l) (8 * (zlen l - zlen m)) =? be_val m) = starts_with m l.
Proof.
  intros Hl Hm Hle. unfold starts_with. pose proof (zlen_nonneg m).
  set (h := slice l 0 (zlen m)). set (r := slice l (zlen m) (zlen l - zlen m)).
  assert (Hlr : l = h ++ r).
  { unfold h, r. pose proof (slice_split l 0 (zlen m) (zlen l - zlen m)) as X.
    rewrite Z.add_0_l in X. rewrite <- X by lia.
    replace (zlen m + (zlen l - zlen m)) with (zlen l) by lia. symmetry. apply slice_all. }
  assert (Hh : zlen h = zlen m) by (apply zlen_slice; lia).
  assert (Hr : zlen r = zlen l - zlen m) by (apply zlen_slice; lia).
  assert (Hbr : bytes r) by (apply bytes_slice; auto).
  assert (Hbh : bytes h) by (apply bytes_slice; auto).
  rewrite Z.shiftr_div_pow2 by lia. rewrite Hlr at 1. rewrite be_val_app, <- Hr.
  pose proof (be_val_range r Hbr). pose proof (zlen_nonneg r).
  rewrite Z.add_comm, Z.div_add by (apply Z.pow_nonzero; lia). rewrite Z.div_small by lia. rewrite Z.add_0_l.
  destruct (list_eqb h m) eqn:E.
  - apply list_eqb_spec in E. rewrite E. apply Z.eqb_refl.
  - apply Z.eqb_neq. intros Hv. apply be_val_inj in Hv; auto.
    rewrite Hv, list_eqb_refl in E. discriminate.
Qed.

Lemma starts_with_slice m l n : zlen m <= n -> starts_with m (slice l 0 n) = starts_with m l.
Proof. intros. unfold starts_with. pose proof (zlen_nonneg m). rewrite slice_slice by lia. reflexivity. Qed.

Lemma detect_sniff b : bytes b -> 8 <= zlen b -> detect_comp (be_val (slice b 0 8)) = sniff b.
Proof.
  intros Hb Hl. set (l := slice b 0 8).
  assert (Hll : zlen l = 8) by (apply zlen_slice; lia).
  assert (Hbl : bytes l) by (apply bytes_slice; auto).
  unfold detect_comp, sniff.
  assert (T : forall comp k v, In comp [1;2;3;4;6] -> k = 8 * (8 - zlen (magic_of comp)) -> v = be_val (magic_of comp) ->
     (Z.shiftr (be_val l) k =? v) = starts_with (magic_of comp) b).
  { intros comp k v Hc -> ->. unfold l. rewrite <- (starts_with_slice _ b 8). fold l.
    - pose proof (shift_prefix l (magic_of comp) Hbl) as X. rewrite Hll in X. apply X.
      + cbn [In] in Hc. destruct Hc as [<-|[<-|[<-|[<-|[<-|[]]]]]]; apply bytesb_ok; reflexivity.
      + cbn [In] in Hc. destruct Hc as [<-|[<-|[<-|[<-|[<-|[]]]]]]; vm_compute; discriminate.
    - cbn [In] in Hc. destruct Hc as [<-|[<-|[<-|[<-|[<-|[]]]]]]; vm_compute; discriminate. }
  rewrite (T 1), (T 2), (T 4), (T 3), (T 6); try reflexivity; cbn; auto 10.
Qed.

Lemma detect_exact file b : bytes b -> 8 <= zlen b ->
  exists s, decompstrm_init file b = Ok s /\ ds_comp s = sniff b /\ ds_in s = b /\ ds_fed s = [] /\
            ds_data s = [] /\ ds_pos s = 0.
Proof.
  intros Hb Hl. unfold decompstrm_init. replace (zlen b <? 8) with false by lia.
  rewrite parse_be64_at_val by (auto; lia). cbn [bind].
  eexists. split; [reflexivity|]. cbn [ds_comp ds_in ds_fed ds_data ds_pos]. rewrite detect_sniff by auto. auto 10.
Qed.

Lemma starts_with_app m r m' : zlen m' <= zlen m -> starts_with m' (m ++ r) = starts_with m' m.
Proof. intros. unfold starts_with. pose proof (zlen_nonneg m'). rewrite slice_app_l by lia. reflexivity. Qed.

Lemma sniff_magic comp r : real_comp comp -> sniff (magic_of comp ++ r) = comp.
Proof.
  intros Hc. unfold real_comp in Hc. cbn [In] in Hc.
  destruct Hc as [<-|[<-|[<-|[<-|[<-|[]]]]]]; unfold sniff, starts_with, slice; cbn; try reflexivity.
Qed.

(** An uncompressed delta payload starts with "DLT". *)
Lemma sniff_dlt r : sniff ([68; 76; 84] ++ r) = 0.
Proof. reflexivity. Qed.
