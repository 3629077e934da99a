(** * ArchiveProofs: parsing an archive while making a standard delta *)
From Verif Require Import Base BaseLemmas Utils SpecCodec UtilsProofs CpioHeader CpioHeaderProofs CodecFinal
     Rpm FormatFinal Seq SeqProofs Expand Archive SpecArchive.

(** ** Growing buffers *)
Definition gb_inv (g : gbuf) : Prop := gb_cap g = zlen (gb_data g) + padding (zlen (gb_data g)) CPIO_ALLOC_SIZE.

Lemma pad_range n : 0 <= padding n CPIO_ALLOC_SIZE < CPIO_ALLOC_SIZE.
Proof. apply padding_range. reflexivity. Qed.


(** Within the padding, the end of the padded region does not move. *)
Lemma pad_end x n a : 0 < a -> 0 <= n <= padding x a -> x + n + padding (x + n) a = x + padding x a.
Proof.
  intros Ha Hn. unfold padding in *.
  pose proof (Z.div_mod x a ltac:(lia)) as Hx. pose proof (Z.mod_pos_bound x a Ha) as Hr.
  set (r := x mod a) in *. set (q := x / a) in *.
  destruct (Z.eq_dec r 0) as [E|E].
  - rewrite E in Hn. rewrite Z.sub_0_r, Z.mod_same in Hn by lia. assert (n = 0) by lia. subst n. rewrite Z.add_0_r. reflexivity.
  - rewrite (Z.mod_small (a - r) a) in * by lia.
    destruct (Z.eq_dec n (a - r)) as [En|En].
    + assert (Hm : (x + n) mod a = 0).
      { symmetry. apply Z.mod_unique with (q + 1); lia. }
      rewrite Hm, Z.sub_0_r, Z.mod_same by lia. lia.
    + assert (Hm : (x + n) mod a = r + n).
      { symmetry. apply Z.mod_unique with q; lia. }
      rewrite Hm. rewrite Z.mod_small by lia. lia.
Qed.

Lemma extend_ok g x : gb_inv g -> zlen (gb_data g) + zlen x < 2 ^ 63 ->
  exists g', cpio_extend g x = Ok g' /\ gb_data g' = gb_data g ++ x /\ gb_inv g'.
Proof.
  intros Hg Hb. unfold cpio_extend. pose proof (zlen_nonneg (gb_data g)). pose proof (zlen_nonneg x).
  rewrite (u64_small (zlen (gb_data g) + zlen x)) by lia.
  pose proof (pad_range (zlen (gb_data g) + zlen x)) as Hp. pose proof (pad_range (zlen (gb_data g))) as Hp0.
  change CPIO_ALLOC_SIZE with 65536 in *.
  rewrite (u64_small (_ + padding _ _)) by lia.
  replace ((_ <? zlen x) || (_ <? padding _ _)) with false by lia.
  unfold gb_inv in *. change CPIO_ALLOC_SIZE with 65536 in *.
  destruct (padding (zlen (gb_data g)) 65536 <? zlen x) eqn:E.
  - replace (_ <=? _) with true by lia. eexists. split; [reflexivity|]. cbn [gb_data gb_cap]. rewrite zlen_app. auto.
  - rewrite Hg. replace (_ <=? _) with true by lia. eexists. split; [reflexivity|]. cbn [gb_data gb_cap]. rewrite zlen_app.
    split; [auto|]. rewrite pad_end; lia.
Qed.

Lemma extends_ok : forall l g, gb_inv g -> zlen (gb_data g) + zlen (concat l) < 2 ^ 63 ->
  exists g', cpio_extends g l = Ok g' /\ gb_data g' = gb_data g ++ concat l /\ gb_inv g'.
Proof.
  induction l as [|x l IH]; intros g Hg Hb; cbn [cpio_extends concat].
  - exists g. rewrite app_nil_r. auto.
  - cbn [concat] in Hb. rewrite zlen_app in Hb. pose proof (zlen_nonneg (concat l)).
    destruct (extend_ok g x Hg ltac:(lia)) as (g1 & E1 & D1 & I1). rewrite E1. cbn [bind].
    destruct (IH g1 I1) as (g2 & E2 & D2 & I2). { rewrite D1, zlen_app. lia. }
    exists g2. split; [auto|]. split; [|auto]. rewrite D2, D1, app_assoc. reflexivity.
Qed.

(** ** Archive reads *)
Definition set_off (r : rpm) (o : Z) : rpm := mkrpm (rp_lead r) (rp_sig r) (rp_hdr r) (rp_archive r) o (rp_csize r).

Lemma chunk_ok r o n : 0 <= o -> 0 <= n -> o + n <= zlen (rp_archive r) -> zlen (rp_archive r) < 2 ^ 62 ->
  rpm_archive_read_chunk (set_off r o) n = Ok (set_off r (o + n), slice (rp_archive r) o n).
Proof.
  intros Ho Hn Hl Hb. unfold rpm_archive_read_chunk. cbn [set_off rp_archive rp_off rp_lead rp_sig rp_hdr rp_csize].
  rewrite u64_small by lia. replace (_ <? _) with false by lia. rewrite rd_range_in by lia. reflexivity.
Qed.

Lemma data_loop_ok r : zlen (rp_archive r) < 2 ^ 62 -> forall fuel o g pos n copy,
  0 <= o -> 0 <= n -> o + n <= zlen (rp_archive r) -> n <= Z.of_nat fuel * BUFFER_SIZE ->
  0 <= pos -> pos + n < 2 ^ 64 ->
  gb_inv g -> zlen (gb_data g) + n < 2 ^ 63 ->
  exists g', data_loop fuel (set_off r o) g pos n copy = Ok (set_off r (o + n), g', pos + n) /\
    gb_data g' = gb_data g ++ (if copy then slice (rp_archive r) o n else []) /\ gb_inv g'.
Proof.
  intros Hb. induction fuel as [|fuel IH]; intros o g pos n copy Ho Hn Hl Hf Hp Hpn Hg Hgl.
  - assert (n = 0) by lia. subst n. cbn [data_loop]. change (0 <? 0) with false. rewrite !Z.add_0_r. exists g.
    split; [auto|]. split; [|auto]. rewrite slice_nil_len by lia. destruct copy; rewrite app_nil_r; reflexivity.
  - cbn [data_loop]. destruct (0 <? n) eqn:E.
    2:{ assert (n = 0) by lia. subst n. rewrite !Z.add_0_r. exists g. split; [auto|]. split; [|auto].
        rewrite slice_nil_len by lia. destruct copy; rewrite app_nil_r; reflexivity. }
    assert (Hmin : 0 < Z.min n BUFFER_SIZE <= n) by (change BUFFER_SIZE with 4096; lia).
    set (m := Z.min n BUFFER_SIZE) in *.
    rewrite chunk_ok by lia. cbn [bind].
    assert (Hsl : zlen (slice (rp_archive r) o m) = m) by (apply zlen_slice; lia).
    rewrite (u64_small (pos + m)) by lia.
    change BUFFER_SIZE with 4096 in *.
    destruct copy.
    + destruct (extend_ok g (slice (rp_archive r) o m) Hg ltac:(lia)) as (g1 & E1 & D1 & I1). rewrite E1. cbn [bind].
      destruct (IH (o + m) g1 (pos + m) (n - m) true) as (g2 & E2 & D2 & I2); auto; try lia.
      { rewrite D1, zlen_app. lia. }
      exists g2. rewrite E2. split; [do 2 f_equal; [f_equal; f_equal; lia|lia]|]. split; [|auto].
      rewrite D2, D1, <- app_assoc. f_equal. replace n with (m + (n - m)) at 2 by lia. rewrite slice_split by lia. reflexivity.
    + cbn [bind]. destruct (IH (o + m) g (pos + m) (n - m) false) as (g2 & E2 & D2 & I2); auto; try lia.
      exists g2. rewrite E2. split; [do 2 f_equal; [f_equal; f_equal; lia|lia]|]. auto.
Qed.

(** ** Offset adjustments *)
Fixpoint adj_len (adjs : list (Z * Z)) : Z :=
  match adjs with [] => 0 | (d, _) :: r => d + adj_len r end.

Lemma adj_sum_app : forall x y p a, adj_sum p (x ++ y) a = adj_sum p x a + adj_sum (p + adj_len x) y a.
Proof.
  induction x as [|[d o] x IH]; intros y p a; cbn [app adj_sum adj_len].
  - rewrite Z.add_0_r. lia.
  - rewrite IH. replace (p + (d + adj_len x)) with (p + d + adj_len x) by lia. lia.
Qed.
Lemma adj_len_app x y : adj_len (x ++ y) = adj_len x + adj_len y.
Proof. induction x as [|[d o] x IH]; cbn [app adj_len]; lia. Qed.

(** Capacity of the array of adjustments. *)
Definition cap_inv (adj : list (Z * Z)) (cap : Z) : Prop :=
  2 * zlen adj mod 32 = 0 \/ cap = 32 * (2 * zlen adj / 32) + 32.

Lemma cap_step adj cap : cap_inv adj cap ->
  let cap' := resize32 cap (2 * zlen adj) in
  2 * zlen adj + 1 < cap' /\ forall x, cap_inv (adj ++ [x]) cap'.
Proof.
  intros H. cbn zeta. set (n := 2 * zlen adj) in *. assert (Hev : n mod 2 = 0) by (unfold n; rewrite Z.mul_comm; apply Z.mod_mul; lia).
  assert (Hc : resize32 cap n = 32 * (n / 32) + 32).
  { unfold resize32, resize. unfold cap_inv in H. fold n in H. destruct (n mod 32 =? 0) eqn:E; [|destruct H; [lia|auto]].
    pose proof (Z.div_mod n 32 ltac:(lia)). lia. }
  pose proof (Z.div_mod n 32 ltac:(lia)) as Hd. pose proof (Z.mod_pos_bound n 32 ltac:(lia)) as Hm.
  assert (Hodd : n mod 32 <> 31).
  { intros E. pose proof (Z.div_mod n 2 ltac:(lia)). lia. }
  split; [lia|]. intros x. unfold cap_inv. rewrite zlen_app. change (zlen [x]) with 1.
  replace (2 * (zlen adj + 1)) with (n + 2) by (unfold n; lia).
  destruct (Z.eq_dec (n mod 32) 30) as [E|E].
  - left. symmetry. apply Z.mod_unique with (n / 32 + 1); lia.
  - right. rewrite Hc. do 2 f_equal. apply Z.div_unique with (n mod 32 + 2); lia.
Qed.

(** Values that survive the encoding of the format. *)
Definition adj_range (x : Z * Z) : Prop := 0 <= fst x < 2 ^ 31 /\ 0 <= snd x < 2 ^ 32 /\ snd x <> 2 ^ 31.

Lemma s32_small x : 0 <= x < 2 ^ 31 -> s32 x = x.
Proof. intros H. unfold s32. rewrite u32_small by lia. replace (x <? 2 ^ 31) with true by lia. reflexivity. Qed.
Lemma s32_neg x : 0 < x < 2 ^ 31 -> u32 (- x) = 2 ^ 32 - x /\ s32 (u32 (- x)) = - x.
Proof.
  intros H. assert (E : u32 (- x) = 2 ^ 32 - x) by (unfold u32; symmetry; apply Z.mod_unique with (-1); lia).
  split; [auto|]. rewrite E. unfold s32. rewrite u32_small by lia. replace (_ <? _) with false by lia. lia.
Qed.

Record adj_new (len prev pos : Z) (new : list (Z * Z)) : Prop := {
  an_len : adj_len new = len - prev;
  an_before : forall a, a < len -> adj_sum prev new a = 0;
  an_after : forall a, len <= a -> adj_sum prev new a = pos - len;
  an_range : Forall adj_range new
}.

Lemma off_phase len : forall fuel adj cap prev pos, cap_inv adj cap -> 0 <= len - prev < 2 ^ 31 ->
  Z.abs (len - pos) / INT32_MAX < Z.of_nat fuel ->
  exists new cap', offadj_loop fuel adj cap len prev pos = Ok (adj ++ new, cap') /\ cap_inv (adj ++ new) cap' /\
    adj_new len prev pos new.
Proof.
  induction fuel as [|fuel IH]; intros adj cap prev pos Hc Hp Hf.
  - pose proof (Z.div_pos (Z.abs (len - pos)) INT32_MAX ltac:(lia) ltac:(reflexivity)). lia.
  - cbn [offadj_loop]. destruct (cap_step adj cap Hc) as [Hs Hn]. cbn zeta in Hs, Hn.
    set (cap1 := resize32 cap (2 * zlen adj)) in *.
    replace (cap1 <=? 2 * zlen adj + 1) with false by lia.
    rewrite (u32_small (len - prev)) by lia. replace (2 ^ 31 <=? len - prev) with false by lia.
    assert (Hdiv : forall x, 2 ^ 31 <= x -> x / INT32_MAX < Z.of_nat (S fuel) -> (x - INT32_MAX) / INT32_MAX < Z.of_nat fuel).
    { intros x Hx Hq. replace (x - INT32_MAX) with (x + (-1) * INT32_MAX) by lia. rewrite Z.div_add by (unfold INT32_MAX; lia). lia. }
    assert (HM : INT32_MAX = 2 ^ 31 - 1) by reflexivity.
    destruct (pos <? len) eqn:Ep.
    + destruct (2 ^ 31 <=? len - pos) eqn:Eo.
      * assert (Hf' : Z.abs (len - (pos + INT32_MAX)) / INT32_MAX < Z.of_nat fuel).
        { rewrite Z.abs_eq in * by lia. replace (len - (pos + INT32_MAX)) with (len - pos - INT32_MAX) by lia. apply Hdiv; lia. }
        destruct (IH (adj ++ [(len - prev, u32 (- INT32_MAX))]) cap1 len (pos + INT32_MAX) (Hn _) ltac:(lia) Hf') as (new & cap' & E & Hc' & [A B C D]).
        clear Hf Hf' Hdiv IH.
        exists ((len - prev, u32 (- INT32_MAX)) :: new), cap'. rewrite E, <- app_assoc. rewrite <- app_assoc in Hc'.
        split; [reflexivity|]. split; [exact Hc'|].
        destruct (s32_neg INT32_MAX) as [U1 U2]; [rewrite HM; lia|].
        split; cbn [adj_len adj_sum].
        { lia. }
        { intros a Ha. replace (prev + (len - prev)) with len by lia. replace (len <=? a) with false by lia. rewrite B; lia. }
        { intros a Ha. replace (prev + (len - prev)) with len by lia. replace (len <=? a) with true by lia. rewrite C, U2; lia. }
        { constructor; [|auto]. unfold adj_range. cbn [fst snd]. rewrite U1. lia. }
      * exists [(len - prev, u32 (- (len - pos)))], cap1. split; [reflexivity|]. split; [apply Hn|].
        destruct (s32_neg (len - pos)) as [U1 U2]; [lia|].
        split; cbn [adj_len adj_sum].
        { lia. }
        { intros a Ha. replace (prev + (len - prev)) with len by lia. replace (len <=? a) with false by lia. lia. }
        { intros a Ha. replace (prev + (len - prev)) with len by lia. replace (len <=? a) with true by lia. lia. }
        { constructor; [|constructor]. unfold adj_range. cbn [fst snd]. rewrite U1. lia. }
    + destruct (2 ^ 31 <=? pos - len) eqn:Eo.
      * assert (Hf' : Z.abs (len - (pos - INT32_MAX)) / INT32_MAX < Z.of_nat fuel).
        { replace (len - (pos - INT32_MAX)) with (- (pos - len - INT32_MAX)) by lia. rewrite Z.abs_opp, Z.abs_eq by lia.
          replace (len - pos) with (- (pos - len)) in Hf by lia. rewrite Z.abs_opp, Z.abs_eq in Hf by lia. apply Hdiv; lia. }
        destruct (IH (adj ++ [(len - prev, INT32_MAX)]) cap1 len (pos - INT32_MAX) (Hn _) ltac:(lia) Hf') as (new & cap' & E & Hc' & [A B C D]).
        clear Hf Hf' Hdiv IH.
        exists ((len - prev, INT32_MAX) :: new), cap'. rewrite E, <- app_assoc. rewrite <- app_assoc in Hc'.
        split; [reflexivity|]. split; [exact Hc'|].
        assert (U2 : s32 INT32_MAX = INT32_MAX) by reflexivity.
        split; cbn [adj_len adj_sum].
        { lia. }
        { intros a Ha. replace (prev + (len - prev)) with len by lia. replace (len <=? a) with false by lia. rewrite B; lia. }
        { intros a Ha. replace (prev + (len - prev)) with len by lia. replace (len <=? a) with true by lia. rewrite C, U2; lia. }
        { constructor; [|auto]. unfold adj_range. cbn [fst snd]. lia. }
      * exists [(len - prev, u32 (pos - len))], cap1. split; [reflexivity|]. split; [apply Hn|].
        rewrite (u32_small (pos - len)) by lia.
        split; cbn [adj_len adj_sum].
        { lia. }
        { intros a Ha. replace (prev + (len - prev)) with len by lia. replace (len <=? a) with false by lia. lia. }
        { intros a Ha. replace (prev + (len - prev)) with len by lia. replace (len <=? a) with true by lia. rewrite s32_small by lia. lia. }
        { constructor; [|constructor]. unfold adj_range. cbn [fst snd]. lia. }
Qed.

Lemma offadj_ok len : forall adj cap prev pos, cap_inv adj cap -> 0 <= len - prev < 2 ^ 32 ->
  exists new cap', offadj_loop (offadj_fuel len pos) adj cap len prev pos = Ok (adj ++ new, cap') /\
    cap_inv (adj ++ new) cap' /\ adj_new len prev pos new.
Proof.
  intros adj cap prev pos Hc Hp. unfold offadj_fuel.
  pose proof (Z.div_pos (Z.abs (len - pos)) INT32_MAX ltac:(lia) ltac:(reflexivity)) as Hq.
  set (q := Z.abs (len - pos) / INT32_MAX) in *.
  assert (HM : INT32_MAX = 2 ^ 31 - 1) by reflexivity.
  assert (Hgap : forall f adj cap prev, cap_inv adj cap -> 2 ^ 31 <= len - prev < 2 ^ 32 ->
    (forall cap1 prev1, prev1 = prev + INT32_MAX -> cap_inv (adj ++ [(INT32_MAX, 0)]) cap1 ->
      exists new cap', offadj_loop f (adj ++ [(INT32_MAX, 0)]) cap1 len prev1 pos = Ok ((adj ++ [(INT32_MAX, 0)]) ++ new, cap') /\
        cap_inv ((adj ++ [(INT32_MAX, 0)]) ++ new) cap' /\ adj_new len prev1 pos new) ->
    exists new cap', offadj_loop (S f) adj cap len prev pos = Ok (adj ++ new, cap') /\
      cap_inv (adj ++ new) cap' /\ adj_new len prev pos new).
  { clear adj cap prev Hc Hp. intros f adj cap prev Hc Hp Hk. cbn [offadj_loop].
    destruct (cap_step adj cap Hc) as [Hs Hn]. cbn zeta in Hs, Hn.
    set (cap1 := resize32 cap (2 * zlen adj)) in *.
    replace (cap1 <=? 2 * zlen adj + 1) with false by lia.
    rewrite (u32_small (len - prev)) by lia. replace (2 ^ 31 <=? len - prev) with true by lia.
    destruct (Hk cap1 _ eq_refl (Hn _)) as (new & cap' & E & Hc' & [A B C D]).
    exists ((INT32_MAX, 0) :: new), cap'. rewrite E, <- app_assoc. rewrite <- app_assoc in Hc'. split; [reflexivity|]. split; [exact Hc'|].
    assert (U : s32 0 = 0) by reflexivity.
    split; cbn [adj_len adj_sum].
    - lia.
    - intros a Ha. rewrite B by lia. destruct (_ <=? a); lia.
    - intros a Ha. rewrite C by lia. destruct (_ <=? a); lia.
    - constructor; [|auto]. unfold adj_range. cbn [fst snd]. lia. }
  replace (Z.to_nat (5 + q)) with (S (S (Z.to_nat (3 + q)))) by lia.
  destruct (Z.lt_ge_cases (len - prev) (2 ^ 31)) as [Hlt|Hge]; [apply off_phase; auto; fold q; lia|].
  apply Hgap; [auto|lia|]. intros cap1 prev1 -> Hc1.
  destruct (Z.lt_ge_cases (len - (prev + INT32_MAX)) (2 ^ 31)) as [Hlt2|Hge2]; [apply off_phase; auto; fold q; lia|].
  apply Hgap; [auto|lia|]. intros cap2 prev2 -> Hc2. apply off_phase; [auto|lia|fold q; lia].
Qed.
