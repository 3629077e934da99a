(** * Lemmas about the base vocabulary *)
From Verif Require Import Base.

Lemma zlen_nonneg {A} (l : list A) : 0 <= zlen l.
Proof. unfold zlen; lia. Qed.

Lemma zlen_eq {A B} (a : list A) (b : list B) : zlen a = zlen b -> length a = length b.
Proof. unfold zlen. lia. Qed.

Lemma zlen_nil {A} : zlen (@nil A) = 0.
Proof. reflexivity. Qed.

Lemma zlen_cons {A} (x : A) l : zlen (x :: l) = 1 + zlen l.
Proof. unfold zlen; cbn [length]; lia. Qed.

Lemma zlen_app {A} (a b : list A) : zlen (a ++ b) = zlen a + zlen b.
Proof. unfold zlen; rewrite app_length; lia. Qed.

Lemma zlen_map {A B} (f : A -> B) l : zlen (map f l) = zlen l.
Proof. unfold zlen; rewrite map_length; lia. Qed.

Lemma zlen_repeat {A} (x : A) n : zlen (repeat x n) = Z.of_nat n.
Proof. unfold zlen; rewrite repeat_length; lia. Qed.

Lemma zlen_zero_nil {A} (l : list A) : zlen l = 0 -> l = [].
Proof. destruct l; unfold zlen; cbn; [auto|lia]. Qed.

Lemma bind_ok {A B} (x : res A) (k : A -> res B) b :
  bind x k = Ok b -> exists a, x = Ok a /\ k a = Ok b.
Proof. destruct x; cbn; intros H; try discriminate; eauto. Qed.

Lemma rd_ok {A} (l : list A) i a : rd l i = Ok a ->
  0 <= i < zlen l /\ nth_error l (Z.to_nat i) = Some a.
Proof.
  unfold rd. destruct (i <? 0) eqn:E; try discriminate.
  destruct (nth_error l (Z.to_nat i)) eqn:E2; try discriminate.
  intros H; injection H as <-. split; auto.
  assert (Hn : (Z.to_nat i < length l)%nat).
  { apply nth_error_Some. rewrite E2. discriminate. }
  unfold zlen; lia.
Qed.

Lemma rd_in {A} (l : list A) i d : 0 <= i < zlen l -> rd l i = Ok (nth (Z.to_nat i) l d).
Proof.
  intros H. unfold rd. destruct (i <? 0) eqn:E; [lia|].
  rewrite (nth_error_nth' l d); auto. unfold zlen in H; lia.
Qed.

Lemma rd_getz (l : list Z) i : 0 <= i < zlen l -> rd l i = Ok (getz l i).
Proof. intros; apply rd_in; auto. Qed.

Lemma zlen_slice {A} (l : list A) off len :
  0 <= off -> 0 <= len -> off + len <= zlen l -> zlen (slice l off len) = len.
Proof.
  intros. unfold slice, zlen in *. rewrite firstn_length, skipn_length. lia.
Qed.

Lemma zlen_slice_le {A} (l : list A) off len : 0 <= len -> zlen (slice l off len) <= len.
Proof. intros. unfold slice, zlen. rewrite firstn_length. lia. Qed.

Lemma slice_nil_len {A} (l : list A) off len : len <= 0 -> slice l off len = [].
Proof. intros. unfold slice. replace (Z.to_nat len) with 0%nat by lia. reflexivity. Qed.

Lemma slice_all {A} (l : list A) : slice l 0 (zlen l) = l.
Proof.
  unfold slice, zlen. rewrite Nat2Z.id. cbn [Z.to_nat skipn]. apply firstn_all.
Qed.

Lemma slice_all_ge {A} (l : list A) n : zlen l <= n -> slice l 0 n = l.
Proof.
  intros. unfold slice, zlen in *. cbn [Z.to_nat skipn]. apply firstn_all2. lia.
Qed.

Lemma firstn_zlen_app {A} (a b : list A) : firstn (Z.to_nat (zlen a)) (a ++ b) = a.
Proof.
  unfold zlen. rewrite Nat2Z.id, firstn_app, Nat.sub_diag, firstn_all. apply app_nil_r.
Qed.

Lemma skipn_zlen_app {A} (a b : list A) : skipn (Z.to_nat (zlen a)) (a ++ b) = b.
Proof.
  unfold zlen. rewrite Nat2Z.id, skipn_app, Nat.sub_diag, skipn_all. reflexivity.
Qed.

Lemma skipn_skipn {A} (x y : nat) (l : list A) : skipn x (skipn y l) = skipn (x + y) l.
Proof.
  revert l; induction y as [|y IH]; intros l.
  - rewrite Nat.add_0_r. reflexivity.
  - rewrite Nat.add_succ_r. destruct l; cbn [skipn]; [now rewrite skipn_nil|apply IH].
Qed.

Lemma nth_firstn {A} (n : nat) (l : list A) i d :
  nth i (firstn n l) d = if (i <? n)%nat then nth i l d else d.
Proof.
  revert l i; induction n as [|n IH]; intros l i; cbn [firstn].
  - destruct i; reflexivity.
  - destruct l, i; cbn [nth]; try reflexivity.
    + destruct (S i <? S n)%nat; reflexivity.
    + rewrite IH. reflexivity.
Qed.

Lemma slice_split {A} (l : list A) off n m :
  0 <= off -> 0 <= n -> 0 <= m ->
  slice l off (n + m) = slice l off n ++ slice l (off + n) m.
Proof.
  intros. unfold slice. rewrite !Z2Nat.inj_add by lia.
  rewrite <- (firstn_skipn (Z.to_nat n) (firstn (Z.to_nat n + Z.to_nat m) (skipn (Z.to_nat off) l))).
  rewrite firstn_firstn. rewrite Nat.min_l by lia.
  rewrite skipn_firstn_comm. f_equal. f_equal; [lia|].
  rewrite skipn_skipn. f_equal. lia.
Qed.

Lemma slice_slice {A} (l : list A) off len a n :
  0 <= off -> 0 <= a -> 0 <= n -> a + n <= len ->
  slice (slice l off len) a n = slice l (off + a) n.
Proof.
  intros. unfold slice. rewrite skipn_firstn_comm, firstn_firstn.
  rewrite Nat.min_l by lia. rewrite skipn_skipn. do 2 f_equal. lia.
Qed.

Lemma slice_app_l {A} (a b : list A) off n :
  0 <= off -> 0 <= n -> off + n <= zlen a -> slice (a ++ b) off n = slice a off n.
Proof.
  intros. unfold slice, zlen in *. rewrite skipn_app, firstn_app.
  replace (Z.to_nat n - length (skipn (Z.to_nat off) a))%nat with 0%nat.
  - cbn. apply app_nil_r.
  - rewrite skipn_length. lia.
Qed.

Lemma slice_app_r {A} (a b : list A) off n :
  zlen a <= off -> slice (a ++ b) off n = slice b (off - zlen a) n.
Proof.
  intros. unfold slice, zlen in *. rewrite skipn_app.
  rewrite (skipn_all2 a) by lia. cbn [app]. do 2 f_equal. lia.
Qed.

Lemma slice_app_exact_l {A} (a b : list A) n : n = zlen a -> slice (a ++ b) 0 n = a.
Proof.
  intros ->. rewrite slice_app_l; try (unfold zlen; lia). apply slice_all.
Qed.

Lemma slice_app_exact_r {A} (a b : list A) off n :
  off = zlen a -> n = zlen b -> slice (a ++ b) off n = b.
Proof.
  intros -> ->. rewrite slice_app_r by lia. rewrite Z.sub_diag. apply slice_all.
Qed.

Lemma rd_range_ok {A} (l : list A) off len x :
  rd_range l off len = Ok x ->
  0 <= off /\ 0 <= len /\ off + len <= zlen l /\ x = slice l off len.
Proof.
  unfold rd_range. destruct (_ && _) eqn:E; intros H; [|discriminate].
  injection H as <-. repeat split; lia.
Qed.

Lemma rd_range_in {A} (l : list A) off len :
  0 <= off -> 0 <= len -> off + len <= zlen l -> rd_range l off len = Ok (slice l off len).
Proof. intros. unfold rd_range. destruct (_ && _) eqn:E; [auto|lia]. Qed.

Lemma nth_slice (l : list Z) off len i d :
  0 <= off -> 0 <= i < len ->
  nth (Z.to_nat i) (slice l off len) d = nth (Z.to_nat (off + i)) l d.
Proof.
  intros. unfold slice.
  rewrite <- (firstn_skipn (Z.to_nat off) l) at 2.
  destruct (Nat.le_gt_cases (Z.to_nat off) (length l)) as [Hle|Hgt].
  - rewrite app_nth2; rewrite firstn_length, Nat.min_l by lia; [|lia].
    replace (Z.to_nat (off + i) - Z.to_nat off)%nat with (Z.to_nat i) by lia.
    rewrite nth_firstn. destruct (Nat.ltb_spec (Z.to_nat i) (Z.to_nat len)); [auto|lia].
  - rewrite (skipn_all2 l) by lia. rewrite firstn_nil, app_nil_r.
    rewrite (nth_overflow (firstn _ l)); [destruct (Z.to_nat i); reflexivity|].
    rewrite firstn_length. lia.
Qed.

Lemma getz_slice (l : list Z) off len i :
  0 <= off -> 0 <= i < len -> getz (slice l off len) i = getz l (off + i).
Proof. intros; apply nth_slice; auto. Qed.

Lemma list_getz_ext (a b : list Z) :
  zlen a = zlen b -> (forall i, 0 <= i < zlen a -> getz a i = getz b i) -> a = b.
Proof.
  unfold zlen. intros Hl H. apply (nth_ext a b 0 0); [lia|].
  intros n Hn. specialize (H (Z.of_nat n)). unfold getz in H.
  rewrite Nat2Z.id in H. apply H. lia.
Qed.

Lemma slice_getz_ext (a b : list Z) i j n :
  0 <= i -> 0 <= j -> 0 <= n -> i + n <= zlen a -> j + n <= zlen b ->
  (forall k, 0 <= k < n -> getz a (i + k) = getz b (j + k)) ->
  slice a i n = slice b j n.
Proof.
  intros. apply list_getz_ext.
  - rewrite !zlen_slice; lia.
  - intros k Hk. rewrite zlen_slice in Hk by lia. rewrite !getz_slice by lia. auto.
Qed.

Lemma slice_eq_getz (a b : list Z) i j n k :
  0 <= i -> 0 <= j -> slice a i n = slice b j n -> 0 <= k < n ->
  getz a (i + k) = getz b (j + k).
Proof.
  intros Hi Hj He Hk. rewrite <- (getz_slice a i n k) by lia.
  rewrite He. apply getz_slice; lia.
Qed.

Lemma list_eqb_spec a b : list_eqb a b = true <-> a = b.
Proof.
  revert b; induction a as [|x a IH]; destruct b as [|y b]; cbn; try easy.
  rewrite andb_true_iff, IH, Z.eqb_eq. split; intros H.
  - destruct H; subst; auto.
  - injection H; auto.
Qed.

Lemma list_eqb_refl a : list_eqb a a = true.
Proof. apply list_eqb_spec; auto. Qed.

Lemma bytes_app a b : bytes (a ++ b) <-> bytes a /\ bytes b.
Proof. apply Forall_app. Qed.

Lemma bytes_getz l i : bytes l -> byte (getz l i).
Proof.
  intros H. unfold getz. destruct (Nat.lt_ge_cases (Z.to_nat i) (length l)).
  - unfold bytes in H. rewrite Forall_forall in H. apply H. apply nth_In; auto.
  - rewrite nth_overflow by lia. unfold byte; lia.
Qed.

Lemma bytes_slice l off n : bytes l -> bytes (slice l off n).
Proof.
  intros H. unfold slice.
  rewrite <- (firstn_skipn (Z.to_nat off) l) in H. apply bytes_app in H as [_ H].
  rewrite <- (firstn_skipn (Z.to_nat n) (skipn _ l)) in H. apply bytes_app in H as [H _]. auto.
Qed.

Lemma u64_small x : 0 <= x < 2 ^ 64 -> u64 x = x.
Proof. intros; unfold u64; apply Z.mod_small; auto. Qed.
Lemma u32_small x : 0 <= x < 2 ^ 32 -> u32 x = x.
Proof. intros; unfold u32; apply Z.mod_small; auto. Qed.
Lemma u16_small x : 0 <= x < 2 ^ 16 -> u16 x = x.
Proof. intros; unfold u16; apply Z.mod_small; auto. Qed.
Lemma u8_small x : 0 <= x < 2 ^ 8 -> u8 x = x.
Proof. intros; unfold u8; apply Z.mod_small; auto. Qed.

Lemma u64_range x : 0 <= u64 x < 2 ^ 64.
Proof. unfold u64; apply Z.mod_pos_bound; lia. Qed.
Lemma u32_range x : 0 <= u32 x < 2 ^ 32.
Proof. unfold u32; apply Z.mod_pos_bound; lia. Qed.

(** Boolean test for [bytes], for concrete cases. *)
Definition bytesb (l : list Z) : bool := forallb (fun b => (0 <=? b) && (b <? 256)) l.
Lemma bytesb_ok l : bytesb l = true -> bytes l.
Proof.
  unfold bytesb, bytes. rewrite forallb_forall, Forall_forall.
  intros H x Hx. specialize (H x Hx). unfold byte. lia.
Qed.
