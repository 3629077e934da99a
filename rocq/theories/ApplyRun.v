(** * ApplyRun: rebuilding carries out the instructions of the delta *)
From Verif Require FormatSafe.
From Verif Require Import Base BaseLemmas Utils DeltaComp SpecCodec Stream SpecStream StreamProofs SpecDelta Rpm Seq Delta DeltaRead Expand
     SpecBlocks Blocks Fill Apply ApplyProofs ArchiveSeq.

Lemma zlen_firstn {A} (l : list A) n : 0 <= n <= zlen l -> zlen (firstn (Z.to_nat n) l) = n.
Proof. intros H. unfold zlen in *. rewrite firstn_length. lia. Qed.

Lemma add_block_bytes : forall x a, add_block x a = add_bytes x a.
Proof.
  induction x as [|b x IH]; intros [|c a]; cbn [add_block add_bytes]; auto. rewrite IH. f_equal.
  unfold s8, u8. change (2 ^ 8) with 256. destruct (c <? 128); [reflexivity|].
  replace (b + (c - 256)) with (b + c + (-1) * 256) by lia. apply Z_mod_plus_full.
Qed.

Lemma add_bytes_app x1 : forall x2 a1 a2, zlen a1 = zlen x1 ->
  add_bytes (x1 ++ x2) (a1 ++ a2) = add_bytes x1 a1 ++ add_bytes x2 a2.
Proof.
  induction x1 as [|b x IH]; intros x2 [|c a] a2 H; cbn [add_bytes app]; auto;
    try (exfalso; cbn [zlen] in H; rewrite ?zlen_cons in H; pose proof (zlen_nonneg a); pose proof (zlen_nonneg x); lia).
  - exfalso. rewrite zlen_cons in H. pose proof (zlen_nonneg a). change (@zlen Z []) with 0 in H. lia.
  - exfalso. rewrite zlen_cons in H. pose proof (zlen_nonneg x). change (@zlen Z []) with 0 in H. lia.
  - rewrite !zlen_cons in H. rewrite IH by lia. reflexivity.
Qed.

Section Run.
Variable cd : codec.

(** The add block stream has [ds] still to give. *)
Definition add_inv (add : option dstrm) (ds : option (list Z)) : Prop :=
  match add, ds with
  | None, None => True
  | Some s, Some ds => exists comp b x, decodes cd comp b x /\ dview cd comp b [] s /\ zlen x < 2 ^ 63 /\
                                        ds = skipn (Z.to_nat (ds_pos s)) x /\ ds_pos s <= zlen x
  | _, _ => False
  end.

Lemma add_read s ds d n : add_inv (Some s) (Some (d ++ ds)) -> zlen d = n -> n < 2 ^ 63 ->
  exists s', decompstrm_read cd s n = Ok (s', d) /\ add_inv (Some s') (Some ds).
Proof.
  intros (comp & b & x & Hd & Hv & Hx & Hs & Hp) Hn Hb. pose proof (zlen_nonneg d) as Hd0.
  pose proof Hv as (_ & _ & _ & _ & _ & _ & Hpos).
  assert (Ex : x = firstn (Z.to_nat (ds_pos s)) x ++ d ++ ds) by (rewrite Hs; symmetry; apply firstn_skipn).
  assert (El : zlen (firstn (Z.to_nat (ds_pos s)) x) = ds_pos s) by (rewrite zlen_firstn; lia).
  assert (Et : zlen x = ds_pos s + n + zlen ds) by (rewrite Ex, !zlen_app, El; lia). pose proof (zlen_nonneg ds) as Hds.
  pose proof (read_full cd comp b x n s Hd Hv ltac:(lia) ltac:(lia)) as R.
  replace (ds_pos s + n <=? zlen x) with true in R by lia. destruct R as (s' & E & V & P). exists s'.
  assert (Esl : slice x (ds_pos s) n = d).
  { rewrite Ex at 1. rewrite slice_app_r by lia. rewrite El. replace (ds_pos s - ds_pos s) with 0 by lia.
    apply slice_app_exact_l. auto. }
  rewrite Esl in E. split; [exact E|]. exists comp, b, x. split; [auto|]. split; [auto|]. split; [auto|]. split; [|lia].
  rewrite P, Ex at 1. rewrite app_assoc. rewrite skipn_app.
  rewrite skipn_all2; [|rewrite app_length; unfold zlen in *; lia].
  replace (Z.to_nat (ds_pos s + n) - length (firstn (Z.to_nat (ds_pos s)) x ++ d))%nat with 0%nat
    by (rewrite app_length; unfold zlen in *; lia).
  reflexivity.
Qed.

Variable S : Type.
Variable fill : blocks S -> nat -> Z -> Z -> res (blocks S).
Variables comp level : Z.
Notation wr w done file := (exists fed, cw_inv cd w done fed file comp level).

Lemma wr_step w done file p : wr w done file -> exists w' out, wrapper_write cd w p = Ok (w', out) /\ wr w' (done ++ p) (file ++ out) /\ cw_len w' = cw_len w.
Proof. intros [fed H]. destruct (wrapper_step cd w done fed file comp level p H) as (w' & out & fed' & E & I & L). eauto 10. Qed.

(** What is made of copied data. *)
Definition summed (x : list Z) (d : option (list Z)) : list Z := match d with None => x | Some d => add_bytes x d end.
(** [d] for [x] in front of [ds]. *)
Definition front (x : list Z) (d ds ds' : option (list Z)) : Prop :=
  match d, ds, ds' with
  | None, None, None => True
  | Some d, Some ds, Some ds' => ds = d ++ ds' /\ zlen d = zlen x
  | _, _, _ => False
  end.

Lemma rebuild_ext_ok fuel : forall b add w off len cnt id b' r d ds ds' done file,
  copy_pieces S MAX_CORE_BLOCKS fill fuel b off len cnt id = Ok (b', r) -> zlen (concat r) < 2 ^ 63 ->
  front (concat r) d ds ds' -> add_inv add ds -> wr w done file ->
  exists add' w' out, rebuild_ext cd S fill fuel (b, add, w) off len cnt id = (out, Ok (b', add', w')) /\
    add_inv add' ds' /\ wr w' (done ++ summed (concat r) d) (file ++ out) /\ cw_len w' = cw_len w.
Proof.
  induction fuel as [|f IH]; intros b add w off len cnt id b' r d ds ds' done file Hc Hz Hf Ha Hw; cbn [copy_pieces] in Hc; cbn [rebuild_ext].
  1,2: destruct (0 <? len) eqn:El; [|].
  - discriminate.
  - apply ok_inj, pair_inj in Hc as [<- <-]. exists add, w, []. split; [reflexivity|]. rewrite app_nil_r. cbn [concat] in *.
    assert (Hds : ds = ds' /\ summed [] d = []).
    { destruct d as [d|], ds as [ds|], ds' as [ds'|]; cbn [front] in Hf; try contradiction; [|auto].
      destruct Hf as [-> Hd]. apply zlen_zero_nil in Hd. subst d. auto. }
    destruct Hds as [-> ->]. rewrite app_nil_r. auto.
  - apply bind_ok in Hc as ([b1 x] & E1 & Hc). apply bind_ok in Hc as ([b2 r2] & E2 & Hc). apply ok_inj, pair_inj in Hc as [<- <-].
    cbn [concat] in *. rewrite zlen_app in Hz. pose proof (zlen_nonneg x) as Hx0. pose proof (zlen_nonneg (concat r2)) as Hr0.
    rewrite E1, calc_bind.
    assert (Hadd : exists d1 d2 add1 dsm,
      match add with
      | None => Ok (None, x)
      | Some a => ('(a, y) <- decompstrm_read cd a (zlen x) ;; Ok (Some a, add_block x y))%res
      end = Ok (add1, summed x d1) /\ front (concat r2) d2 dsm ds' /\ add_inv add1 dsm /\
      summed (x ++ concat r2) d = summed x d1 ++ summed (concat r2) d2).
    { destruct d as [d|], ds as [ds|], ds' as [ds'|]; cbn [front] in Hf; try contradiction; destruct add as [s|]; try contradiction Ha.
      - destruct Hf as [-> Hd]. rewrite zlen_app in Hd.
        set (d1 := firstn (Z.to_nat (zlen x)) d). set (d2 := skipn (Z.to_nat (zlen x)) d).
        assert (Ed : d = d1 ++ d2) by (symmetry; apply firstn_skipn).
        assert (E1' : zlen d1 = zlen x) by (unfold d1; rewrite zlen_firstn; lia).
        assert (E2' : zlen d2 = zlen (concat r2)) by (pose proof (f_equal (@zlen Z) Ed) as Q; rewrite zlen_app in Q; lia).
        rewrite Ed, <- app_assoc in Ha. destruct (add_read s (d2 ++ ds') d1 (zlen x) Ha E1' ltac:(lia)) as (s' & Er & Ha').
        exists (Some d1), (Some d2), (Some s'), (Some (d2 ++ ds')). rewrite Er. cbn [bind]. rewrite add_block_bytes.
        split; [reflexivity|]. split; [cbn [front]; auto|]. split; [exact Ha'|].
        cbn [summed]. rewrite Ed. apply add_bytes_app. auto.
      - exists None, None, None, None. cbn [summed front add_inv]. auto. }
    destruct Hadd as (d1 & d2 & add1 & dsm & Er & Hf2 & Ha2 & Es).
    rewrite Er, calc_bind.
    destruct (wr_step w done file (summed x d1) Hw) as (w1 & o1 & Ew & Hw1 & Lw1). rewrite Ew, put_Ok. cbn [wbind].
    assert (Hzx : zlen (summed x d1) = zlen x).
    { clear - Er. destruct add as [s|].
      - destruct (decompstrm_read cd s (zlen x)) as [[a y]| | |] eqn:Ed; try discriminate. cbn [bind] in Er.
        apply ok_inj, pair_inj in Er as [_ <-]. assert (Hy : zlen y = zlen x).
        { eapply FormatSafe.stream_len; eauto. }
        rewrite add_block_bytes. clear - Hy. revert y Hy. induction x as [|c x IH]; intros [|e y] H; auto.
        cbn [add_bytes]. rewrite !zlen_cons in *. rewrite IH by lia. reflexivity.
      - apply ok_inj, pair_inj in Er as [_ <-]. reflexivity. }
    rewrite Hzx.
    destruct (IH b1 add1 w1 (u64 (off + zlen x)) (len - zlen x) cnt (id + 1) b2 r2 d2 dsm ds' (done ++ summed x d1) (file ++ o1) E2 ltac:(lia) Hf2 Ha2 Hw1)
      as (add' & w' & out & Eo & Ha' & Hw' & Lw').
    rewrite Eo. exists add', w', (o1 ++ out). split; [reflexivity|]. split; [auto|]. rewrite Es, !app_assoc.
    split; [exact Hw'|congruence].
  - apply ok_inj, pair_inj in Hc as [<- <-]. exists add, w, []. split; [reflexivity|]. rewrite app_nil_r. cbn [concat] in *.
    assert (Hds : ds = ds' /\ summed [] d = []).
    { destruct d as [d|], ds as [ds|], ds' as [ds'|]; cbn [front] in Hf; try contradiction; [|auto].
      destruct Hf as [-> Hd]. apply zlen_zero_nil in Hd. subst d. auto. }
    destruct Hds as [-> ->]. rewrite app_nil_r. auto.
Qed.

(** Offset after external copies. *)
Fixpoint ext_end (off : Z) (exts : list (Z * Z)) : Z :=
  match exts with [] => off | (d, l) :: r => ext_end (off + s32 d + l) r end.

Lemma extents_app a : forall off b, extents off (a ++ b) = extents off a ++ extents (ext_end off a) b.
Proof. induction a as [|[d l] a IH]; intros off b; cbn [app extents ext_end]; [reflexivity|]. rewrite IH. reflexivity. Qed.
Lemma extents_length a : forall off, zlen (extents off a) = zlen a.
Proof. induction a as [|[d l] a IH]; intros off; cbn [extents]; [reflexivity|]. rewrite !zlen_cons, IH. reflexivity. Qed.

Definition sane_ext (e : Z * Z) : Prop := 0 <= fst e /\ 0 <= snd e /\ fst e + snd e < 2 ^ 63.

Lemma read_copies_app c1 : forall b c2 off cnt b' l, Forall sane_ext (extents off c1) ->
  read_copies S MAX_CORE_BLOCKS fill b (c1 ++ c2) off cnt = Ok (b', l) ->
  exists b1 l1 l2, read_copies S MAX_CORE_BLOCKS fill b c1 off cnt = Ok (b1, l1) /\
    read_copies S MAX_CORE_BLOCKS fill b1 c2 (ext_end off c1) (cnt + zlen c1) = Ok (b', l2) /\ l = l1 ++ l2.
Proof.
  induction c1 as [|[d n] c1 IH]; intros b c2 off cnt b' l Hs H.
  - cbn [app ext_end read_copies] in *. exists b, [], l. change (zlen (@nil (Z * Z))) with 0. rewrite Z.add_0_r. auto.
  - cbn [app read_copies extents ext_end] in *. apply Forall_inv in Hs as H0. apply Forall_inv_tail in Hs. destruct H0 as (A & B & C). cbn [fst snd] in *.
    assert (E1 : u64 (off + s32 d) = off + s32 d) by (apply u64_small; lia).
    assert (E2 : u64 (off + s32 d + n) = off + s32 d + n) by (apply u64_small; lia). rewrite E1, E2 in *.
    apply bind_ok in H as ([b1 x] & Ec & H). apply bind_ok in H as ([b2 r] & Er & H). apply ok_inj, pair_inj in H as [<- <-].
    apply IH in Er as (b3 & l1 & l2 & R1 & R2 & ->); auto. exists b3, (concat x :: l1), l2.
    rewrite Ec. cbn [bind]. rewrite R1. cbn [bind]. split; [reflexivity|]. split; [|reflexivity].
    rewrite zlen_cons. replace (cnt + (1 + zlen c1)) with (cnt + 1 + zlen c1) by lia. exact R2.
Qed.

Lemma copy_extents_sane old : zlen old < 2 ^ 63 -> forall es ds out ds', copy_extents old ds es = Some (out, ds') -> Forall sane_ext es.
Proof.
  intros Ho. induction es as [|[o l] es IH]; intros ds out ds' H; [constructor|]. cbn [copy_extents] in H.
  destruct ((0 <=? o) && (0 <=? l) && (o + l <=? zlen old)) eqn:E; [|discriminate].
  constructor; [unfold sane_ext; cbn [fst snd]; lia|]. destruct ds as [ds|].
  - destruct (take l ds) as [[d1 d2]|]; [|discriminate]. destruct (copy_extents old (Some d2) es) as [[o1 a1]|] eqn:E2; [|discriminate]. eauto.
  - destruct (copy_extents old None es) as [[o1 a1]|] eqn:E2; [|discriminate]. eauto.
Qed.

Lemma take_app {A} n (l a b : list A) : take n l = Some (a, b) -> l = a ++ b /\ zlen a = n /\ 0 <= n.
Proof.
  unfold take. destruct ((0 <=? n) && (n <=? zlen l)) eqn:E; [|discriminate]. intros H. injection H as <- <-.
  split; [symmetry; apply firstn_skipn|]. split; [apply zlen_firstn; lia|lia].
Qed.

Variable old : list Z.
Hypothesis Hold : zlen old < 2 ^ 63.
Notation pieces es := (map (fun '(o, l) => slice old o l) es).

Lemma rebuild_exts_ok : forall exts b add w off cnt b' ds out ds' done file,
  read_copies S MAX_CORE_BLOCKS fill b exts off cnt = Ok (b', pieces (extents off exts)) ->
  copy_extents old ds (extents off exts) = Some (out, ds') -> add_inv add ds -> wr w done file ->
  exists add' w' o, rebuild_exts cd S fill (b, add, w) exts off cnt = (o, Ok (b', add', w', ext_end off exts, cnt + zlen exts)) /\
    add_inv add' ds' /\ wr w' (done ++ out) (file ++ o) /\ cw_len w' = cw_len w.
Proof.
  induction exts as [|[d l] exts IH]; intros b add w off cnt b' ds out ds' done file Hr Hc Ha Hw.
  - cbn [read_copies extents copy_extents rebuild_exts ext_end] in *. injection Hr as <-. injection Hc as <- <-.
    exists add, w, []. change (zlen (@nil (Z * Z))) with 0. rewrite Z.add_0_r, !app_nil_r. auto.
  - pose proof (copy_extents_sane old Hold _ _ _ _ Hc) as Hs. cbn [extents] in Hs. apply Forall_inv in Hs. destruct Hs as (A & B & C). cbn [fst snd] in *.
    cbn [read_copies extents copy_extents rebuild_exts ext_end map] in *.
    assert (E1 : u64 (off + s32 d) = off + s32 d) by (apply u64_small; lia).
    assert (E2 : u64 (off + s32 d + l) = off + s32 d + l) by (apply u64_small; lia). rewrite E1, E2 in *.
    apply bind_ok in Hr as ([b1 x] & Ec & Hr). apply bind_ok in Hr as ([b2 r] & Er & Hr).
    apply ok_inj, pair_inj in Hr as [<- Hr]. injection Hr as Hx Hr. subst r.
    destruct ((0 <=? off + s32 d) && (0 <=? l) && (off + s32 d + l <=? zlen old)) eqn:E; [|discriminate].
    assert (Hlen : zlen (slice old (off + s32 d) l) = l) by (apply zlen_slice; lia).
    assert (exists dd dsm out2, front (concat x) dd ds dsm /\ copy_extents old dsm (extents (off + s32 d + l) exts) = Some (out2, ds') /\
      out = summed (concat x) dd ++ out2) as (dd & dsm & out2 & Hf & Hc2 & ->).
    { rewrite Hx. destruct ds as [ds|].
      - destruct (take l ds) as [[d1 d2]|] eqn:Et; [|discriminate]. apply take_app in Et as (-> & Hd1 & _).
        destruct (copy_extents old (Some d2) _) as [[o1 a1]|] eqn:E3; [|discriminate]. injection Hc as <- <-.
        exists (Some d1), (Some d2), o1. cbn [front summed]. rewrite Hlen. auto.
      - destruct (copy_extents old None _) as [[o1 a1]|] eqn:E3; [|discriminate]. injection Hc as <- <-.
        exists None, None, o1. cbn [front summed]. auto. }
    destruct (rebuild_ext_ok _ _ _ _ _ _ _ _ _ _ _ _ _ _ _ Ec ltac:(rewrite Hx; lia) Hf Ha Hw) as (add1 & w1 & o1 & R1 & Ha1 & Hw1 & L1).
    destruct (IH _ _ _ _ _ _ _ _ _ _ _ Er Hc2 Ha1 Hw1) as (add2 & w2 & o2 & R2 & Ha2 & Hw2 & L2).
    rewrite R1. cbn [wbind]. rewrite R2. exists add2, w2, (o1 ++ o2).
    rewrite zlen_cons. replace (cnt + (1 + zlen exts)) with (cnt + 1 + zlen exts) by lia. split; [reflexivity|]. split; [auto|].
    rewrite !app_assoc. split; [|congruence]. rewrite <- app_assoc in Hw2. rewrite app_assoc in Hw2. exact Hw2.
Qed.

Lemma rebuild_ints_ok data : forall ints b add w exts off cnt pos b' ds out done file,
  read_copies S MAX_CORE_BLOCKS fill b exts off cnt = Ok (b', pieces (extents off exts)) ->
  patch old ds ints (extents off exts) (from data pos) = Some out -> 0 <= pos <= zlen data ->
  add_inv add ds -> wr w done file ->
  exists add' w' o, rebuild_ints cd S fill (b, add, w) ints exts off cnt data pos = (o, Ok (b', add', w')) /\
    wr w' (done ++ out) (file ++ o) /\ cw_len w' = cw_len w.
Proof.
  induction ints as [|[n l] ints IH]; intros b add w exts off cnt pos b' ds out done file Hr Hp Hpos Ha Hw.
  - cbn [patch rebuild_ints] in *. destruct (extents off exts) as [|e es] eqn:Ee; [|discriminate].
    destruct (from data pos); [|discriminate].
    assert (out = []) by (destruct ds as [[|]|]; congruence). subst out.
    assert (exts = []) by (apply zlen_zero_nil; rewrite <- (extents_length exts off), Ee; reflexivity). subst exts.
    cbn [read_copies] in Hr. injection Hr as <-. exists add, w, []. rewrite !app_nil_r. auto.
  - cbn [patch] in Hp. destruct (take n (extents off exts)) as [[es1 es2]|] eqn:Et; [|discriminate].
    apply take_app in Et as (Ee & Hn & Hn0).
    destruct (copy_extents old ds es1) as [[out1 ds1]|] eqn:Ec; [|discriminate].
    destruct (take l (from data pos)) as [[dd data']|] eqn:Etd; [|discriminate].
    destruct (patch old ds1 ints es2 data') as [rest|] eqn:Ep; [|discriminate]. injection Hp as <-.
    assert (Hne : n <= zlen exts).
    { rewrite <- (extents_length exts off), Ee, zlen_app. pose proof (zlen_nonneg es2). lia. }
    set (c1 := slice exts 0 n). set (c2 := from exts n).
    assert (Ecat : exts = c1 ++ c2).
    { unfold c1, c2, from, slice. cbn [Z.to_nat skipn]. symmetry. apply firstn_skipn. }
    assert (Hc1 : zlen c1 = n) by (apply zlen_slice; lia).
    rewrite Ecat, extents_app in Ee.
    assert (Hsplit : extents off c1 = es1 /\ extents (ext_end off c1) c2 = es2).
    { assert (Hl : length (extents off c1) = length es1) by (apply zlen_eq; rewrite extents_length; lia).
      split; [apply (f_equal (firstn (length es1))) in Ee|apply (f_equal (skipn (length es1))) in Ee];
        rewrite <- Hl in Ee at 1; [rewrite !firstn_app in Ee|rewrite !skipn_app in Ee]; rewrite Hl, !Nat.sub_diag in Ee; rewrite <- Hl in Ee at 1.
      - rewrite !firstn_all in Ee. cbn [firstn] in Ee. rewrite !app_nil_r in Ee. exact Ee.
      - rewrite !skipn_all in Ee. exact Ee. }
    destruct Hsplit as [Hs1 Hs2].
    assert (Hsane : Forall sane_ext (extents off c1)) by (rewrite Hs1; eapply copy_extents_sane; eauto).
    rewrite Ecat in Hr at 1. rewrite Ecat, extents_app, map_app in Hr.
    apply read_copies_app in Hr as (b1 & l1 & l2 & R1 & R2 & El); auto.
    assert (Hl12 : l1 = pieces (extents off c1) /\ l2 = pieces (extents (ext_end off c1) c2)).
    { assert (Hl : length l1 = length (pieces (extents off c1))).
      { apply zlen_eq. rewrite zlen_map, extents_length. clear - R1. revert R1. generalize b cnt off. generalize b1 l1.
        induction c1 as [|[d m] c IHc]; intros b1' l1' b0 cnt0 off0 H; cbn [read_copies] in H; [injection H as _ <-; reflexivity|].
        apply bind_ok in H as ([b2 x] & _ & H). apply bind_ok in H as ([b3 r] & H1 & H). apply ok_inj, pair_inj in H as [_ <-].
        rewrite !zlen_cons. f_equal. eapply IHc; eauto. }
      split; [apply (f_equal (firstn (length l1))) in El|apply (f_equal (skipn (length l1))) in El];
        rewrite Hl in El at 1; [rewrite !firstn_app in El|rewrite !skipn_app in El]; rewrite Hl, !Nat.sub_diag in El; rewrite <- Hl in El at 2.
      - rewrite !firstn_all in El. cbn [firstn] in El. rewrite !app_nil_r in El. auto.
      - rewrite !skipn_all in El. cbn [app skipn] in El. auto. }
    destruct Hl12 as [-> ->].
    rewrite <- Hs1 in Ec. destruct (rebuild_exts_ok c1 b add w off cnt b1 ds out1 ds1 done file R1 Ec Ha Hw) as (add1 & w1 & o1 & X1 & Ha1 & Hw1 & L1).
    apply take_app in Etd as (Ed & Hdl & Hl0).
    assert (Hfl : zlen (from data pos) = zlen data - pos) by (unfold from, zlen in *; rewrite skipn_length; lia).
    assert (Hpl : pos + l <= zlen data).
    { rewrite Ed, zlen_app in Hfl. pose proof (zlen_nonneg data'). lia. }
    assert (Esl : slice data pos l = dd).
    { unfold slice. unfold from in Ed. rewrite Ed. rewrite <- Hdl. apply firstn_zlen_app. }
    assert (Edf : data' = from data (pos + l)).
    { unfold from in *. replace (Z.to_nat (pos + l)) with (Z.to_nat l + Z.to_nat pos)%nat by lia. rewrite <- skipn_skipn, Ed, <- Hdl, skipn_zlen_app. reflexivity. }
    destruct (wr_step w1 _ _ dd Hw1) as (w2 & o2 & Ew & Hw2 & L2).
    rewrite Edf, <- Hs2 in Ep. rewrite Hc1 in R2.
    destruct (IH b1 add1 w2 c2 (ext_end off c1) (cnt + n) (pos + l) b' ds1 rest _ _ R2 Ep ltac:(lia) Ha1 Hw2) as (add' & w' & o3 & X3 & Hw3 & L3).
    cbn [rebuild_ints]. replace (zlen exts <? n) with false by lia. fold c1 c2. rewrite X1. cbn [wbind].
    rewrite rd_range_in by lia. rewrite Esl, calc_bind, Ew, put_Ok. cbn [wbind]. rewrite Hc1, X3.
    exists add', w', (o1 ++ o2 ++ o3). split; [reflexivity|]. rewrite !app_assoc in *. split; [exact Hw3|congruence].
Qed.

(** Rebuilding writes what the instructions denote, with everything after the first [d_hlen d] bytes compressed. *)
Lemma rebuild_ok d b b' add ds out : d_intn d = zlen (d_int d) -> d_tcomp d = comp -> d_tlevel d = level ->
  read_copies S MAX_CORE_BLOCKS fill b (d_ext d) 0 0 = Ok (b', pieces (extents 0 (d_ext d))) ->
  patch old ds (d_int d) (extents 0 (d_ext d)) (int_bytes d) = Some out ->
  add_inv add ds -> 0 <= d_hlen d <= zlen out -> compstrm_init cd true comp level = Ok (mkcs comp level true [] [] 0 false) ->
  exists qs, concat qs = from out (d_hlen d) /\ Forall (fun q => q <> []) qs /\
    rebuild cd S fill d b add = (slice out 0 (d_hlen d) ++ stream_out cd comp level qs, Ok (slice out 0 (d_hlen d) ++ stream_out cd comp level qs)).
Proof.
  intros En Ec El Hr Hp Ha Hh Hi. unfold rebuild. unfold wrapper_init. rewrite Ec, El, Hi. cbn [bind]. rewrite calc_bind.
  set (w0 := mkcw _ _ _ _).
  assert (Hw : wr w0 [] []).
  { exists []. unfold cw_inv, w0. cbn. repeat split; auto. all: lia. }
  destruct (rebuild_ints_ok (int_bytes d) (d_int d) b add w0 (d_ext d) 0 0 0 b' ds out [] [] Hr Hp ltac:(pose proof (zlen_nonneg (int_bytes d)); lia) Ha Hw)
    as (add' & w' & o & E & [fed I] & Lw).
  rewrite E. cbn [wbind app]. rewrite En, rd_range_in by (pose proof (zlen_nonneg (d_int d)); lia). rewrite calc_bind. cbn [app].
  pose proof I as (_ & _ & _ & _ & _ & Hne & _ & _ & Hleft & Hlen & Hdone & Hz).
  cbn [app] in Hdone, I. assert (Hlw : cw_len w' = d_hlen d) by (rewrite Lw; reflexivity).
  pose proof (f_equal (@zlen Z) Hdone) as Hzo. rewrite zlen_app in Hzo.
  assert (H0 : cw_left w' = 0).
  { destruct (Z.eq_dec (cw_left w') 0); auto. rewrite Hz in Hzo by lia. change (zlen (concat (@nil (list Z)))) with 0 in Hzo. lia. }
  destruct (wrapper_finish_spec cd w' _ _ _ _ _ I H0) as (o2 & E2 & Eo). rewrite E2. cbn [put wbind].
  assert (Hu : cw_uncomp w' = slice out 0 (d_hlen d)).
  { rewrite Hdone. symmetry. apply slice_app_exact_l. lia. }
  rewrite Hu in Eo. exists fed. split.
  - rewrite Hdone. unfold from. rewrite <- Hlw, <- Hlen, H0, Z.add_0_r. symmetry. apply skipn_zlen_app.
  - split; [auto|]. rewrite Eo, Hu. reflexivity.
Qed.
End Run.
