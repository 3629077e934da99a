(** * ApplySafe: applying an accepted delta to an old RPM is defined *)
From Verif Require Import Base BaseLemmas Utils UtilsProofs DeltaComp SpecCodec Stream SpecStream StreamProofs SpecDelta Rpm FormatFinal Seq Delta DeltaRead Expand SeqFinal
     SpecFormat FormatSafe SpecBlocks SpecApply FileSys Blocks BlocksProofs Archive SpecArchive ArchiveProofs ArchiveSafe Fill FillSafe FsFill Apply ApplyProofs ApplyRun ArchiveSeq.

(** ** Sources that never fail *)

(** The same, or an error on the left. *)
Definition refines {A} (x y : res A) : Prop := x = y \/ exists e, x = Err e.
Lemma refines_refl {A} (x : res A) : refines x x.
Proof. left. reflexivity. Qed.
Lemma refines_bind {A B} (x y : res A) (k l : A -> res B) : refines x y -> (forall a, refines (k a) (l a)) -> refines (bind x k) (bind y l).
Proof. intros [->|[e ->]] H; [|right; exists e; reflexivity]. destruct y; cbn [bind]; auto; apply refines_refl. Qed.
Lemma refines_defined {A} (x y : res A) : refines x y -> defined y -> defined x.
Proof. intros [->|[e ->]] H; [exact H|exact I]. Qed.

Definition wrefines {A} (x y : wres A) : Prop := x = y \/ exists e, snd x = Err e.
Lemma wrefines_refl {A} (x : wres A) : wrefines x x.
Proof. left. reflexivity. Qed.
Lemma wrefines_bind {A B} (x y : wres A) (k l : A -> wres B) : wrefines x y -> (forall a, wrefines (k a) (l a)) -> wrefines (wbind x k) (wbind y l).
Proof.
  intros [->|[e He]] H.
  - destruct y as [o [a|e|u|]]; cbn [wbind]; try apply wrefines_refl. destruct (H a) as [->|[e He]]; [apply wrefines_refl|].
    right. exists e. destruct (k a). exact He.
  - right. exists e. destruct x as [o r]. cbn [snd] in He. subst r. reflexivity.
Qed.
Lemma wrefines_calc {A} (x y : res A) : refines x y -> wrefines (calc x) (calc y).
Proof. intros [->|[e ->]]; [apply wrefines_refl|right; exists e; reflexivity]. Qed.

Section Refine.
Variable S : Type.
Variable capacity : Z.

Lemma fill_loop_refines (next next' : S -> res (S * list Z)) : (forall s, refines (next s) (next' s)) ->
  forall fuel b k id cc, refines (fill_loop S capacity next fuel b k id cc) (fill_loop S capacity next' fuel b k id cc).
Proof.
  intros H. induction fuel as [|f IH]; intros b k id cc; cbn [fill_loop]; [apply refines_refl|].
  apply refines_bind; [apply H|]. intros [src data]. apply refines_bind; [apply refines_refl|]. intros b1.
  destruct (_ =? id); [apply refines_refl|]. destruct (id <? _); [apply refines_refl|].
  apply refines_bind; [apply refines_refl|]. intros m. apply refines_bind; [apply refines_refl|]. intros b2. apply IH.
Qed.

Variables fill fill' : blocks S -> nat -> Z -> Z -> res (blocks S).
Hypothesis H : forall b k id cc, refines (fill b k id cc) (fill' b k id cc).

Lemma get_block_refines b id cc : refines (get_block S capacity fill b id cc) (get_block S capacity fill' b id cc).
Proof.
  unfold get_block. apply refines_bind; [apply refines_refl|]. intros p. apply refines_bind; [apply refines_refl|]. intros [k|]; [apply refines_refl|].
  apply refines_bind; [apply refines_refl|]. intros [b1 k]. apply refines_bind; [apply refines_refl|]. intros q.
  apply refines_bind; [apply refines_refl|]. intros b2. destruct q as [[k'|q]|]; try apply refines_refl; (apply refines_bind; [apply H|intros b3; apply refines_refl]).
Qed.

Lemma blocks_next_refines b off len cc id : refines (blocks_next S capacity fill b off len cc id) (blocks_next S capacity fill' b off len cc id).
Proof.
  unfold blocks_next. apply refines_bind; [apply refines_refl|]. intros hit. apply refines_bind; [|intros [b1 k]; apply refines_refl].
  destruct hit as [k|]; [apply refines_refl|]. apply refines_bind; [apply refines_refl|]. intros [[k|p]|]; try apply refines_refl;
    (apply refines_bind; [apply get_block_refines|intros [b1 k]; apply refines_refl]).
Qed.
End Refine.

Section RefineApply.
Variable cd : codec.
Variable S : Type.
Variables fill fill' : blocks S -> nat -> Z -> Z -> res (blocks S).
Hypothesis H : forall b k id cc, refines (fill b k id cc) (fill' b k id cc).

Lemma rebuild_ext_refines : forall fuel s off len cc id, wrefines (rebuild_ext cd S fill fuel s off len cc id) (rebuild_ext cd S fill' fuel s off len cc id).
Proof.
  induction fuel as [|f IH]; intros s off len cc id; cbn [rebuild_ext]; [apply wrefines_refl|].
  destruct (0 <? len); [|apply wrefines_refl]. destruct s as [[b add] w].
  apply wrefines_bind; [apply wrefines_calc, blocks_next_refines, H|]. intros [b1 x].
  apply wrefines_bind; [apply wrefines_refl|]. intros [add1 x1]. apply wrefines_bind; [apply wrefines_refl|]. intros w1. apply IH.
Qed.

Lemma rebuild_exts_refines : forall exts s off cc, wrefines (rebuild_exts cd S fill s exts off cc) (rebuild_exts cd S fill' s exts off cc).
Proof.
  induction exts as [|[d l] exts IH]; intros s off cc; cbn [rebuild_exts]; [apply wrefines_refl|].
  apply wrefines_bind; [apply rebuild_ext_refines|]. intros s1. apply IH.
Qed.

Lemma rebuild_ints_refines data : forall ints s exts off cc pos,
  wrefines (rebuild_ints cd S fill s ints exts off cc data pos) (rebuild_ints cd S fill' s ints exts off cc data pos).
Proof.
  induction ints as [|[todo l] ints IH]; intros s exts off cc pos; cbn [rebuild_ints]; [apply wrefines_refl|].
  destruct (zlen exts <? todo); [apply wrefines_refl|]. apply wrefines_bind; [apply rebuild_exts_refines|]. intros [[[[b add] w] off1] cc1].
  apply wrefines_bind; [apply wrefines_refl|]. intros x. apply wrefines_bind; [apply wrefines_refl|]. intros w1. apply IH.
Qed.

Lemma rebuild_refines d b add : wrefines (rebuild cd S fill d b add) (rebuild cd S fill' d b add).
Proof.
  unfold rebuild. apply wrefines_bind; [apply wrefines_refl|]. intros w. apply wrefines_bind; [apply rebuild_ints_refines|].
  intros [[b1 add1] w1]. apply wrefines_refl.
Qed.
End RefineApply.

(** A source that goes on with zeros after an error. *)
Definition total {S} (next : S -> res (S * list Z)) (s : S) : res (S * list Z) :=
  match next s with Err _ => Ok (s, zeros BLOCK_SIZE) | x => x end.
Lemma total_refines {S} (next : S -> res (S * list Z)) s : refines (next s) (total next s).
Proof. unfold total. destruct (next s) as [p|e|u|]; try apply refines_refl. right. eauto. Qed.

(** Blocks can be had from such a source without end. *)
Lemma total_yields {S} (next : S -> res (S * list Z)) (ok : S -> Prop) :
  (forall s, ok s -> match next s with Ok (s', x) => ok s' /\ zlen x = BS | Err _ => True | _ => False end) ->
  forall n s, ok s -> exists bs, length bs = n /\ Forall (fun x => zlen x = BS) bs /\ yields (total next) s bs.
Proof.
  intros H. induction n as [|n IH]; intros s Hs; [exists []; repeat constructor|].
  assert (exists s' x, total next s = Ok (s', x) /\ ok s' /\ zlen x = BS) as (s' & x & E & Hs' & Hx).
  { specialize (H s Hs). unfold total. destruct (next s) as [[s' x]|e|u|]; try contradiction; [exists s', x; tauto|].
    exists s, (zeros BLOCK_SIZE). split; [reflexivity|]. split; [auto|]. apply zlen_zeros. unfold BS. lia. }
  destruct (IH s' Hs') as (bs & Hl & Hz & Hy). exists (x :: bs). split; [cbn; lia|]. split; [constructor; auto|]. econstructor; eauto.
Qed.

Lemma concat_blocks (bs : list (list Z)) : Forall (fun x => zlen x = BS) bs -> map (fun i => block (concat bs) (Z.of_nat i)) (seq 0 (length bs)) = bs.
Proof.
  induction bs as [|x bs IH]; intros H; [reflexivity|]. apply Forall_inv in H as Hx. apply Forall_inv_tail in H.
  cbn [length seq map concat]. f_equal.
  - unfold block. cbn [Z.of_nat Z.mul]. rewrite slice_app_exact_l by auto. rewrite Hx. unfold BS. cbn. apply app_nil_r.
  - rewrite <- seq_shift, map_map. rewrite <- (IH H) at 2. apply map_ext. intros i. unfold block.
    rewrite slice_app_r by (unfold BS in *; lia). rewrite Hx. replace (Z.of_nat (Datatypes.S i) * BS - BS) with (Z.of_nat i * BS) by (unfold BS; lia).
    reflexivity.
Qed.

Lemma concat_zlen (bs : list (list Z)) : Forall (fun x => zlen x = BS) bs -> zlen (concat bs) = zlen bs * BS.
Proof. induction bs as [|x bs IH]; intros H; [reflexivity|]. cbn [concat]. rewrite zlen_app, zlen_cons, IH by (eapply Forall_inv_tail; eauto). apply Forall_inv in H. lia. Qed.

(** ** Rebuilding *)
Definition wdef {A} (Q : A -> Prop) (x : wres A) : Prop := match snd x with Ok a => Q a | Err _ => True | _ => False end.
Lemma wdef_bind {A B} (Q : A -> Prop) (Q' : B -> Prop) x k : wdef Q x -> (forall a, Q a -> wdef Q' (k a)) -> wdef Q' (wbind x k).
Proof. destruct x as [o [a|e|u|]]; unfold wdef; cbn [wbind snd]; auto. intros H K. specialize (K a H). destruct (k a). exact K. Qed.
Lemma wdef_calc {A} (Q : A -> Prop) (r : res A) : match r with Ok a => Q a | Err _ => True | _ => False end -> wdef Q (calc r).
Proof. auto. Qed.
Lemma wrefines_wdef {A} (Q : A -> Prop) (x y : wres A) : wrefines x y -> wdef Q y -> wdef Q x.
Proof. intros [->|[e He]] H; [exact H|]. unfold wdef. rewrite He. exact I. Qed.

Section Rebuilding.
Variable cd : codec.

Definition addok (add : option dstrm) : Prop := match add with None => True | Some s => 0 <= ds_pos s end.

Lemma stream_fill_def n : forall fuel s, (length (ds_in s) < fuel)%nat ->
  match Stream.fill_loop cd fuel s n with Ok s' => ds_pos s' = ds_pos s /\ ds_pos s + n <= zlen (ds_data s') | Err _ => True | _ => False end.
Proof.
  induction fuel as [|f IH]; intros s Hf; [lia|]. cbn [Stream.fill_loop]. destruct (ds_pos s + n <=? zlen (ds_data s)) eqn:E; [lia|].
  destruct (read_chunk cd s) as [s' [e|]] eqn:Ec; [exact I|]. unfold read_chunk in Ec.
  set (chunk := slice (ds_in s) 0 (Z.min CHUNK_SIZE (zlen (ds_in s)))) in *. destruct (zlen chunk =? 0) eqn:E0; [discriminate|].
  destruct (if ds_comp s =? COMP_NONE then _ else _) as [out [e|]]; [discriminate|]. injection Ec as <-.
  set (s' := mkds _ _ _ _ _ _ _). assert (Hl : (length (ds_in s') < f)%nat).
  { cbn [s' ds_in]. pose proof (zlen_nonneg (ds_in s)). assert (Hc : zlen chunk = Z.min CHUNK_SIZE (zlen (ds_in s))) by (apply zlen_slice; unfold CHUNK_SIZE; lia).
    pose proof (zlen_slice (ds_in s) (zlen chunk) (zlen (ds_in s) - zlen chunk)) as Hz. unfold CHUNK_SIZE in *. unfold zlen in *. lia. }
  specialize (IH s' Hl). destruct (Stream.fill_loop cd f s' n); auto.
Qed.

Lemma stream_read_def s n : 0 <= ds_pos s -> 0 <= n ->
  match decompstrm_read cd s n with Ok (s', o) => 0 <= ds_pos s' /\ zlen o = n | Err _ => True | _ => False end.
Proof.
  intros Hp Hn. destruct (decompstrm_read cd s n) as [[s' o]|e|u|] eqn:E; auto; unfold decompstrm_read in E;
    (destruct (u64 _ <? n); [discriminate|]); pose proof (stream_fill_def n (fill_fuel s) s ltac:(unfold fill_fuel; lia)) as H;
    destruct (Stream.fill_loop cd (fill_fuel s) s n) as [s1|?|?|]; cbn [bind] in E; try discriminate; try contradiction;
    rewrite rd_range_in in E by lia; cbn [bind] in E; try discriminate.
  injection E as <- <-. cbn [ds_pos]. split; [lia|]. apply zlen_slice; lia.
Qed.

Lemma add_block_len : forall x y, zlen y = zlen x -> zlen (add_block x y) = zlen x.
Proof.
  intros x y. rewrite add_block_bytes. revert y. induction x as [|c x IH]; intros [|e y] H; auto.
  cbn [add_bytes]. rewrite !zlen_cons in *. rewrite IH by lia. reflexivity.
Qed.

Lemma write_def w p : cs_inv (cw_strm w) -> wdef (fun w' => cs_inv (cw_strm w') /\ cw_left w' <= Z.max 0 (cw_left w - zlen p)) (put (wrapper_write cd w p)).
Proof.
  intros Hs. unfold wrapper_write. pose proof (zlen_nonneg p). destruct (0 <? cw_left w) eqn:El.
  - destruct (zlen p =? 0) eqn:Ep; [cbn; split; [auto|lia]|]. cbv zeta.
    destruct (write_step cd (cw_strm w) (slice p (Z.min (cw_left w) (zlen p)) (zlen p - Z.min (cw_left w) (zlen p))) Hs) as (s' & E & Hs' & _).
    rewrite E. cbn [bind put wdef snd cw_strm cw_left]. split; [auto|lia].
  - destruct (write_step cd (cw_strm w) p Hs) as (s' & E & Hs' & _). rewrite E. cbn [bind put wdef snd cw_strm cw_left]. split; [auto|lia].
Qed.

Variable S : Type.
Variable fill : blocks S -> nat -> Z -> Z -> res (blocks S).
Notation st := (rstate S).

Lemma blocks_next_len b off len cc id b' x : blocks_next S MAX_CORE_BLOCKS fill b off len cc id = Ok (b', x) -> 0 < len < 2 ^ 32 -> 0 <= zlen x <= len.
Proof.
  unfold blocks_next. intros H Hl. apply bind_ok in H as (hit & _ & H). apply bind_ok in H as ([b1 k] & _ & H). apply bind_ok in H as (s & _ & H).
  apply bind_ok in H as (d & _ & H). apply bind_ok in H as (y & E & H). apply ok_inj, pair_inj in H as [_ <-].
  apply rd_range_ok in E as (A & B & C & ->). rewrite zlen_slice by lia. split; [lia|].
  pose proof (Z.mod_pos_bound off BLOCK_SIZE ltac:(unfold BLOCK_SIZE; lia)). unfold BLOCK_SIZE in *.
  rewrite u64_small in * by lia. destruct (8192 <? off mod 8192 + len) eqn:E; lia.
Qed.

Definition rok (b : blocks S) (left : Z) (s : st) : Prop :=
  let '(b', add, w) := s in b' = b /\ addok add /\ cs_inv (cw_strm w) /\ cw_left w <= Z.max 0 left.

Lemma rebuild_ext_def fuel : forall b add w off len cnt id b' r left,
  copy_pieces S MAX_CORE_BLOCKS fill fuel b off len cnt id = Ok (b', r) -> 0 <= len < 2 ^ 32 -> rok b left (b, add, w) ->
  wdef (rok b' (left - len)) (rebuild_ext cd S fill fuel (b, add, w) off len cnt id).
Proof.
  induction fuel as [|f IH]; intros b add w off len cnt id b' r left Hc Hl (_ & Ha & Hw & Hle); cbn [copy_pieces] in Hc; cbn [rebuild_ext].
  1,2: destruct (0 <? len) eqn:El.
  - discriminate.
  - apply ok_inj, pair_inj in Hc as [<- <-]. cbn. split; [auto|]. split; [auto|]. split; [auto|lia].
  - apply bind_ok in Hc as ([b1 x] & E1 & Hc). apply bind_ok in Hc as ([b2 r2] & E2 & Hc). apply ok_inj, pair_inj in Hc as [<- <-].
    pose proof (blocks_next_len _ _ _ _ _ _ _ E1 ltac:(lia)) as Hx. rewrite E1, calc_bind.
    eapply (wdef_bind (fun p => addok (fst p) /\ zlen (snd p) = zlen x)).
    { apply wdef_calc. destruct add as [a|]; [|cbn; auto]. pose proof (stream_read_def a (zlen x) Ha ltac:(lia)) as Hr.
      destruct (decompstrm_read cd a (zlen x)) as [[a' y]|?|?|]; cbn [bind]; auto. destruct Hr as [Hr Hy]. cbn [fst snd addok]. split; [auto|]. apply add_block_len. auto. }
    intros [add1 x1] [Ha1 Hx1]. cbn [fst snd] in *. eapply wdef_bind; [apply write_def; auto|]. intros w1 [Hw1 Hl1]. rewrite Hx1 in *.
    replace (left - len) with (left - zlen x - (len - zlen x)) by lia. eapply IH; [exact E2|lia|]. cbn. split; [auto|]. split; [auto|]. split; [auto|lia].
  - apply ok_inj, pair_inj in Hc as [<- <-]. cbn. split; [auto|]. split; [auto|]. split; [auto|lia].
Qed.

Lemma rebuild_exts_def : forall exts b add w off cnt b' rs left,
  read_copies S MAX_CORE_BLOCKS fill b exts off cnt = Ok (b', rs) -> Forall sane_ext (extents off exts) -> Forall (fun e => 0 <= snd e < 2 ^ 32) exts ->
  rok b left (b, add, w) ->
  wdef (fun '(s, off', cnt') => rok b' (left - zsum (map snd exts)) s /\ off' = ext_end off exts /\ cnt' = cnt + zlen exts)
    (rebuild_exts cd S fill (b, add, w) exts off cnt).
Proof.
  induction exts as [|[d l] exts IH]; intros b add w off cnt b' rs left Hr Hs Hu Hk; cbn [read_copies rebuild_exts ext_end extents] in *.
  - apply ok_inj, pair_inj in Hr as [<- <-]. unfold wdef. cbn [snd map zsum fold_right]. change (zsum []) with 0. change (zlen (@nil (Z * Z))) with 0.
    rewrite Z.sub_0_r, Z.add_0_r. auto.
  - apply Forall_inv in Hs as H0. apply Forall_inv_tail in Hs. destruct H0 as (A & B & C). cbn [fst snd] in *.
    apply Forall_inv in Hu as H1. apply Forall_inv_tail in Hu. cbn [snd] in H1.
    assert (E1 : u64 (off + s32 d) = off + s32 d) by (apply u64_small; lia).
    assert (E2 : u64 (off + s32 d + l) = off + s32 d + l) by (apply u64_small; lia). rewrite E1, E2 in *.
    apply bind_ok in Hr as ([b1 x] & Ec & Hr). apply bind_ok in Hr as ([b2 r] & Er & Hr). apply ok_inj, pair_inj in Hr as [<- _].
    eapply wdef_bind; [eapply rebuild_ext_def; eauto|]. intros [[b3 add3] w3] Hk3. pose proof Hk3 as (-> & _).
    cbn [map zsum fold_right snd]. fold (zsum (map snd exts)). replace (left - (l + zsum (map snd exts))) with (left - l - zsum (map snd exts)) by lia.
    rewrite zlen_cons. replace (cnt + (1 + zlen exts)) with (cnt + 1 + zlen exts) by lia. eapply IH; eauto.
Qed.

Lemma zsum_app a b : zsum (a ++ b) = zsum a + zsum b.
Proof. induction a as [|x a IH]; [reflexivity|]. cbn [app]. unfold zsum in *. cbn [fold_right]. lia. Qed.
Lemma zsum_pos l : Forall (fun x => 0 <= x) l -> 0 <= zsum l.
Proof. induction 1 as [|x l Hx Hl IH]; unfold zsum in *; cbn [fold_right]; lia. Qed.

Definition ints_len (ints exts : list (Z * Z)) : Z :=
  zsum (map snd ints) + zsum (map snd (firstn (Z.to_nat (zsum (map fst ints))) exts)).

Lemma rebuild_ints_def data : forall ints b add w exts off cnt pos b' rs left,
  read_copies S MAX_CORE_BLOCKS fill b exts off cnt = Ok (b', rs) -> Forall sane_ext (extents off exts) -> Forall (fun e => 0 <= snd e < 2 ^ 32) exts ->
  Forall (fun p => 0 <= fst p /\ 0 <= snd p) ints -> 0 <= pos -> pos + zsum (map snd ints) <= zlen data -> rok b left (b, add, w) ->
  wdef (fun '(_, add', w') => cs_inv (cw_strm w') /\ cw_left w' <= Z.max 0 (left - ints_len ints exts))
    (rebuild_ints cd S fill (b, add, w) ints exts off cnt data pos).
Proof.
  induction ints as [|[n l] ints IH]; intros b add w exts off cnt pos b' rs left Hr Hs Hu Hi Hp Hd Hk; cbn [rebuild_ints].
  - destruct Hk as (_ & _ & Hw & Hl). unfold wdef. cbn [snd]. split; [auto|]. unfold ints_len. cbn. unfold zsum. cbn. lia.
  - destruct (zlen exts <? n) eqn:En; [exact I|]. apply Forall_inv in Hi as H0. apply Forall_inv_tail in Hi. cbn [fst snd] in H0.
    assert (Hip : 0 <= zsum (map snd ints) /\ 0 <= zsum (map fst ints)).
    { split; apply zsum_pos; rewrite Forall_map; eapply Forall_impl; try exact Hi; cbn; lia. }
    assert (Hsum : zsum (map snd ((n, l) :: ints)) = l + zsum (map snd ints)) by reflexivity.
    assert (Hsum1 : zsum (map fst ((n, l) :: ints)) = n + zsum (map fst ints)) by reflexivity.
    set (c1 := slice exts 0 n). set (c2 := from exts n).
    assert (Ecat : exts = c1 ++ c2) by (unfold c1, c2, from, slice; cbn [Z.to_nat skipn]; symmetry; apply firstn_skipn).
    assert (Hc1 : zlen c1 = n) by (apply zlen_slice; lia).
    rewrite Ecat, extents_app in Hs. apply Forall_app in Hs as [Hs1 Hs2]. rewrite Ecat in Hu. apply Forall_app in Hu as [Hu1 Hu2].
    rewrite Ecat in Hr. apply read_copies_app in Hr as (b1 & l1 & l2 & R1 & R2 & _); auto.
    eapply wdef_bind; [eapply rebuild_exts_def; eauto|]. intros [[[[b2 add2] w2] off2] cnt2] (Hk2 & -> & ->). pose proof Hk2 as (-> & Ha2 & Hw2 & Hl2).
    rewrite rd_range_in by lia. rewrite calc_bind. eapply wdef_bind; [apply write_def; auto|]. intros w3 [Hw3 Hl3].
    rewrite zlen_slice in Hl3 by lia. assert (Hlen : ints_len ((n, l) :: ints) exts = zsum (map snd c1) + l + ints_len ints c2).
    { unfold ints_len. rewrite Hsum, Hsum1, Ecat at 1. rewrite firstn_app.
      replace (Z.to_nat (n + zsum (map fst ints)) - length c1)%nat with (Z.to_nat (zsum (map fst ints))) by (unfold zlen in Hc1; lia).
      rewrite firstn_all2 by (unfold zlen in Hc1; lia). rewrite map_app, zsum_app. lia. }
    rewrite Hlen. replace (left - (zsum (map snd c1) + l + ints_len ints c2)) with (left - zsum (map snd c1) - l - ints_len ints c2) by lia.
    eapply IH; try eassumption; [lia|lia|]. split; [auto|]. split; [auto|]. split; [auto|lia].
Qed.

Lemma rebuild_def d b add b' rs : consistent d -> d_intn d < 2 ^ 31 -> d_hlen d <= ints_len (d_int d) (d_ext d) ->
  read_copies S MAX_CORE_BLOCKS fill b (d_ext d) 0 0 = Ok (b', rs) -> Forall sane_ext (extents 0 (d_ext d)) -> Forall (fun e => 0 <= snd e < 2 ^ 32) (d_ext d) ->
  addok add -> 0 <= d_intn d -> wdef (fun _ => True) (rebuild cd S fill d b add).
Proof.
  intros Hc Hn Hh Hr Hs Hu Ha Hn0. unfold rebuild. pose proof (co_intn _ Hc) as Hin. destruct Hin as [_ Hin]. rewrite Z.mod_small in Hin by lia.
  eapply (wdef_bind (fun w => cs_inv (cw_strm w) /\ cw_left w = d_hlen d)).
  { apply wdef_calc. unfold wrapper_init, compstrm_init.
    repeat match goal with |- context [if ?x then _ else _] => destruct x; cbn [bind]; [exact I || (cbn; unfold cs_inv; cbn; auto)|] end; try exact I; cbn; unfold cs_inv; cbn; auto.
    all: destruct (c_init _ _ _); cbn; unfold cs_inv; cbn; auto. }
  intros w [Hw Hl]. destruct (co_data _ Hc) as (data & Ed & Hdl). unfold int_bytes. rewrite Ed.
  eapply wdef_bind.
  { eapply (rebuild_ints_def data (d_int d) b add w (d_ext d) 0 0 0 b' rs (d_hlen d)); eauto; try lia.
    - eapply Forall_impl; [|exact (co_intu _ Hc)]. cbn. lia.
    - pose proof (co_int _ Hc). lia.
    - split; [auto|]. split; [auto|]. split; [auto|]. pose proof (co_hlen _ Hc). lia. }
  intros [[b1 add1] w1] [Hw1 Hl1]. rewrite rd_range_in by lia. rewrite calc_bind.
  unfold wrapper_finish. destruct (finish_spec cd (cw_strm w1) Hw1) as (s' & o & E & _). rewrite E. cbn [bind].
  replace (0 <? cw_left w1) with false by lia. exact I.
Qed.
End Rebuilding.

(** ** Sources *)
Section Only.
Variable r : rpm.
Hypothesis Harch : zlen (rp_archive r) < 2 ^ 62.

Definition only_ok (s : rsrc) : Prop := positioned r (rs_rpm s) /\ 0 <= rs_hoff s <= zlen (rs_header s) /\ 0 <= rs_left s.

Lemma next_only_safe s : only_ok s -> match next_rpmonly s with Ok (s', x) => only_ok s' /\ zlen x = BS | Err _ => True | _ => False end.
Proof.
  intros ((o & Hr & Ho) & Hh & Hl). unfold next_rpmonly. set (n := Z.min (rs_left s) BLOCK_SIZE).
  assert (Hn : 0 <= n <= BS /\ n <= rs_left s) by (unfold n, BLOCK_SIZE, BS; lia).
  assert (Hz : forall x, zlen x = n -> zlen (x ++ zeros (BLOCK_SIZE - n)) = BS).
  { intros x Hx. rewrite zlen_app, zlen_zeros, Hx; unfold BLOCK_SIZE, BS in *; lia. }
  assert (Hp : forall a, 0 <= a <= zlen (rp_archive r) -> positioned r (set_off r a)) by (intros a Ha; exists a; auto).
  unfold BS in *. cbn zeta. rewrite Hr. destruct (rs_hoff s <? zlen (rs_header s)) eqn:E1.
  - destruct (zlen (rs_header s) <? rs_hoff s + n) eqn:E2.
    + destruct (chunk_any r Harch o (n - (zlen (rs_header s) - rs_hoff s))) as [E|[Hle E]]; [lia|lia|rewrite E; exact I|rewrite E; cbn [bind]].
      rewrite rd_range_in by lia. cbn [bind]. split; [|apply Hz; rewrite zlen_app, !zlen_slice by lia; lia].
      unfold only_ok. cbn [rs_rpm rs_hoff rs_header rs_left]. split; [apply Hp; lia|lia].
    + rewrite rd_range_in by lia. cbn [bind]. split; [|apply Hz; apply zlen_slice; lia].
      unfold only_ok. cbn [rs_rpm rs_hoff rs_header rs_left]. split; [apply Hp; lia|lia].
  - destruct (chunk_any r Harch o n) as [E|[Hle E]]; [lia|lia|rewrite E; exact I|rewrite E; cbn [bind]].
    split; [|apply Hz; apply zlen_slice; lia]. unfold only_ok. cbn [rs_rpm rs_hoff rs_header rs_left]. split; [apply Hp; lia|lia].
Qed.
End Only.

(** ** Everything *)
Lemma extents_snd (P : Z -> Prop) : forall exts off, Forall (fun e => P (snd e)) (extents off exts) -> Forall (fun e => P (snd e)) exts.
Proof.
  induction exts as [|[d l] exts IH]; intros off H; [constructor|]. cbn [extents] in H. apply Forall_inv in H as H0. apply Forall_inv_tail in H.
  constructor; eauto.
Qed.

Lemma parse64_some b : 8 <= zlen b -> is_ok (parse_be64_at b 0).
Proof.
  intros H. unfold parse_be64_at.
  repeat match goal with |- context [rd b ?i] => let E := fresh in destruct (rd_some b i ltac:(lia)) as [? E]; rewrite E; cbn [bind]; clear E end.
  eexists; reflexivity.
Qed.

Lemma init_def file input : match decompstrm_init file input with Ok s => ds_pos s = 0 | Err _ => True | _ => False end.
Proof.
  unfold decompstrm_init. destruct (zlen input <? 8) eqn:E; [exact I|]. destruct (parse64_some input ltac:(lia)) as [m ->]. reflexivity.
Qed.

Lemma BLOCKS_small x : 0 <= x < 2 ^ 64 -> BLOCKS x < 2 ^ 32 - 1 -> 0 < x < 2 ^ 63 /\ block_count x < 2 ^ 32 - 1.
Proof.
  intros Hx H. assert (Hx0 : x <> 0) by (intros ->; vm_compute in H; discriminate).
  assert (E : BLOCKS x = 1 + (x - 1) / 8192).
  { unfold BLOCKS, BLOCK_SIZE. rewrite (u64_small (x - 1)) by lia. apply u64_small.
    assert (0 <= (x - 1) / 8192) by (apply Z.div_pos; lia). assert ((x - 1) / 8192 < 2 ^ 51) by (apply Z.div_lt_upper_bound; lia). lia. }
  rewrite E in H. assert (x - 1 < 8192 * 2 ^ 32).
  { pose proof (Z.mul_div_le (x - 1) 8192). pose proof (Z.mod_pos_bound (x - 1) 8192). pose proof (Z.div_mod (x - 1) 8192). lia. }
  split; [lia|]. unfold block_count, BS. replace (x + 8192 - 1) with (x - 1 + 1 * 8192) by lia. rewrite Z.div_add by lia. lia.
Qed.

Section Diff.
Variable L : libs.
Variable clean : Z.

Lemma apply_diff_def S (next : S -> res (S * list Z)) (ok : S -> Prop) src d :
  (forall s, ok s -> match next s with Ok (s', x) => ok s' /\ zlen x = BS | Err _ => True | _ => False end) -> ok src ->
  consistent d -> d_intn d < 2 ^ 31 -> d_extn d < 2 ^ 31 -> d_hlen d <= output_length d ->
  wdef (fun _ => True) (apply_diff L clean S (in_order S MAX_CORE_BLOCKS next) src d).
Proof.
  intros Hnext Hsrc Hc Hi He Hh. unfold apply_diff.
  destruct (UINT32_MAX <=? BLOCKS (d_extlen d)) eqn:Eb; [unfold blocks_create; rewrite Eb; exact I|].
  destruct (BLOCKS_small (d_extlen d) (co_extlen _ Hc)) as [Hx Hbc]; [unfold UINT32_MAX in Eb; lia|].
  pose proof (co_ext _ Hc ltac:(lia)) as Hin.
  destruct (total_yields next ok Hnext (Z.to_nat (block_count (d_extlen d))) src Hsrc) as (bs & Hl & Hz & Hy).
  pose proof (count_bounds (d_extlen d)) as Hcb. pose proof (count_pos (d_extlen d) ltac:(lia)) as Hcp.
  destruct (cache_transparent S MAX_CORE_BLOCKS (total next) src clean (concat bs) (d_extlen d) (d_ext d)) as (b & b' & E1 & E2).
  - unfold MAX_CORE_BLOCKS. lia.
  - rewrite concat_zlen by auto. unfold zlen. rewrite Hl. unfold BS. lia.
  - exact Hbc.
  - exact Hin.
  - unfold first_blocks. rewrite <- Hl, concat_blocks by auto. exact Hy.
  - rewrite E1, calc_bind. destruct (co_extn _ Hc) as [Hn1 Hn2]. rewrite Z.mod_small in Hn2 by lia. rewrite rd_range_in by lia. rewrite calc_bind.
    eapply (wdef_bind addok).
    { apply wdef_calc. unfold open_add. destruct (0 <? zlen (d_add d)); [|exact I]. pose proof (init_def false (d_add d)) as H.
      destruct (decompstrm_init false (d_add d)) as [s|?|?|]; cbn [bind addok]; auto. lia. }
    intros add Hadd. eapply (wdef_bind (fun _ => True)); [exact I|]. intros _ _.
    eapply (wdef_bind (fun _ => True)).
    { unfold target_header. destruct (d_type d =? TYPE_RPMONLY); [exact I|]. destruct (d_head d); [|exact I].
      unfold rpm_patch_payload_format. destruct (lb_setfmt L _ _); exact I. }
    intros header _. eapply wdef_bind; [|intros data _; exact I].
    eapply wrefines_wdef; [apply (rebuild_refines _ S _ (in_order S MAX_CORE_BLOCKS (total next)))|].
    { intros b0 k id cc. unfold in_order. apply fill_loop_refines. intros s. apply total_refines. }
    eapply rebuild_def; eauto; try lia.
    + eapply Forall_impl; [|exact Hin]. unfold sane_ext. cbn. intros a Ha. lia.
    + apply (extents_snd (fun x => 0 <= x < 2 ^ 32) _ 0). eapply Forall_impl; [|exact Hin]. cbn. intros a Ha. lia.
    + apply (co_intn _ Hc).
Qed.

Lemma eof_def : forall fuel s, (length (ds_in s) < fuel)%nat -> defined (eof_loop (lb_codec L) fuel s).
Proof.
  induction fuel as [|f IH]; intros s Hf; [lia|]. cbn [eof_loop].
  destruct (read_chunk (lb_codec L) s) as [s' [e|]] eqn:Ec; [destruct e; exact I|]. apply IH. unfold read_chunk in Ec.
  set (chunk := slice (ds_in s) 0 (Z.min CHUNK_SIZE (zlen (ds_in s)))) in *. destruct (zlen chunk =? 0) eqn:E0; [discriminate|].
  destruct (if ds_comp s =? COMP_NONE then _ else _) as [out [e|]]; [discriminate|]. injection Ec as <-. cbn [ds_in].
  pose proof (zlen_nonneg (ds_in s)). assert (Hc : zlen chunk = Z.min CHUNK_SIZE (zlen (ds_in s))) by (apply zlen_slice; unfold CHUNK_SIZE; lia).
  pose proof (zlen_slice (ds_in s) (zlen chunk) (zlen (ds_in s) - zlen chunk)) as Hz. unfold CHUNK_SIZE in *. unfold zlen in *. lia.
Qed.

Lemma rpm_read_def file : match rpm_read L file ReadDecomp false with Ok (r, _, _, _) => rp_off r = 0 | Err _ => True | _ => False end.
Proof.
  unfold rpm_read. destruct (_ || _); [exact I|]. destruct (lb_read L _) as [[sig n]|]; [|exact I]. destruct (lb_read L _) as [[hdr m]|]; [|exact I].
  unfold rpm_read_archive. set (pos := _ + m). pose proof (init_def true (from file pos)) as Hs.
  destruct (decompstrm_init true (from file pos)) as [s|?|?|]; cbn [bind]; auto.
  unfold decompstrm_read_until_eof. pose proof (eof_def (fill_fuel s) s ltac:(unfold fill_fuel; lia)) as H.
  destruct (eof_loop (lb_codec L) (fill_fuel s) s) as [s'|?|?|]; cbn [bind defined] in *; auto.
Qed.

Lemma replace_def r leadsig : bytes leadsig -> signature_inside leadsig ->
  match rpm_replace_lead_and_signature L r leadsig with
  | Ok p => rp_archive p = rp_archive r /\ rp_off p = rp_off r | Err _ => True | _ => False
  end.
Proof.
  intros Hb Hin. unfold rpm_replace_lead_and_signature, RPM_LEADSIG_MIN_LEN. destruct (zlen leadsig <? 112) eqn:E; [exact I|]. destruct (negb _); [exact I|].
  rewrite !parse_be32_at_val by (auto; lia). cbn [bind]. unfold signature_inside in Hin. cbn zeta in Hin.
  pose proof (be_val_range (slice leadsig 104 4) (bytes_slice _ _ _ Hb)). pose proof (be_val_range (slice leadsig 108 4) (bytes_slice _ _ _ Hb)).
  rewrite rd_range_in by lia. cbn [bind]. destruct (lb_import L _); [|exact I]. cbn. auto.
Qed.

Variable installed : list Z -> res rpm.
Variable fs : fsys.
Variable unprelinked : list Z -> res (list Z).

Lemma file_info_def want r : defined (rpm_get_file_info L want r).
Proof.
  unfold rpm_get_file_info. repeat match goal with |- context [match ?x with Some _ => _ | None => _ end] => destruct x; [|exact I] end.
  cbv zeta. match goal with |- context [if ?x then _ else _] => destruct x end; exact I.
Qed.

Lemma apply_defined old delta d : read_deltarpm L delta = Ok d ->
  d_intn d < 2 ^ 31 -> d_extn d < 2 ^ 31 -> d_hlen d <= output_length d -> bytes (d_leadsig d) -> signature_inside (d_leadsig d) ->
  (forall r comp m1 m2, rpm_read L old ReadDecomp false = Ok (r, comp, m1, m2) -> zlen (rp_archive r) < 2 ^ 62 /\
     (d_type d <> TYPE_RPMONLY -> forall files colors, rpm_get_file_info L false r = Ok (files, colors) ->
        sound_files (rp_archive r) files /\ lists_files files (d_seq d))) ->
  defined (snd (drpm_apply L installed fs unprelinked clean (Some old) delta)).
Proof.
  intros Hd Hi He Hh Hb Hsg Hold. pose proof (FormatSafe.accepted_consistent _ _ _ Hd) as Hc. unfold drpm_apply. rewrite Hd, calc_bind.
  enough (G : wdef (fun _ => True) ('(patched, files, idx) <~ calc (apply_prepare L installed (Some old) d) ;;
    md5 <~ (if is_nodiff d then let '(out, md5) := rpm_write L patched true (negb (no_full_md5 d)) in (out, Ok md5)
          else apply_from L fs unprelinked clean (Some old) d patched files idx) ;;
    calc (final_check L d patched md5))%wres).
  { revert G. unfold wdef, defined. destruct (snd _); auto. }
  eapply (wdef_bind (fun '(p, files, idx) => zlen (rp_archive p) < 2 ^ 62 /\ rp_off p = 0 /\
     (d_type d <> TYPE_RPMONLY -> Forall wf_file files /\ (forall o size, ~ header_at (rp_archive p) o 0 size) /\
        exists sha, expand_sequence L None (Some (d_seq d)) files sha = Ok idx))).
  { apply wdef_calc. unfold apply_prepare, read_old. pose proof (rpm_read_def old) as Hr.
    destruct (rpm_read L old ReadDecomp false) as [[[[r comp] m1] m2]|?|?|] eqn:Er; cbn [bind]; auto.
    destruct (Hold _ _ _ _ eq_refl) as [Ha Hf]. clear Hold.
    assert (Hold : match (if d_type d =? TYPE_RPMONLY then
         m <- rpm_signature_get_md5 L r ;;
         match m with
         | None => Err EFormat
         | Some m =>
             seq <- rd_range (d_seq d) 0 16 ;;
             if negb (list_eqb seq m) then Err EMismatch else Ok r
         end
       else Ok r) with Ok r' => r' = r | Err _ => True | _ => False end).
    { destruct (d_type d =? TYPE_RPMONLY); [|reflexivity]. unfold rpm_signature_get_md5. destruct (lb_sig_md5 L (rp_sig r)) as [m|]; [|exact I].
      destruct (zlen m =? 16); [|exact I]. cbn [bind]. pose proof (co_seq _ Hc). rewrite rd_range_in by lia. cbn [bind].
      destruct (negb _); [exact I|reflexivity]. }
    match goal with |- context [bind ?x _] => destruct x as [r'|?|?|]; cbn [bind]; auto end. subst r'.
    destruct (negb (list_eqb _ _)); [exact I|].
    assert (Hx : match expand_old L d r with
      | Ok (files, idx) => d_type d <> TYPE_RPMONLY -> Forall wf_file files /\ (forall o size, ~ header_at (rp_archive r) o 0 size) /\
          exists sha, expand_sequence L None (Some (d_seq d)) files sha = Ok idx
      | Err _ => True | _ => False end).
    { unfold expand_old. destruct (d_type d =? TYPE_RPMONLY) eqn:Et; [intros H; lia|].
      pose proof (file_info_def false r) as H. destruct (rpm_get_file_info L false r) as [[files colors]|?|?|] eqn:Ef; cbn [bind]; auto.
      destruct (Hf ltac:(lia) _ _ eq_refl) as [[W M C N] (l & digest & code & Hl & Hz & Hdg & Hen & Hs)].
      assert (Hal : defined (rpm_get_digest_algo L r)).
      { unfold rpm_get_digest_algo. destruct (lb_algo L _) as [a|]; [|exact I]. destruct (a =? 1); [exact I|]. destruct (a =? 8); exact I. }
      destruct (rpm_get_digest_algo L r) as [sha|?|?|]; cbn [bind]; auto.
      pose proof (generated_safe L None ltac:(discriminate) l digest code files sha Hl Hz C M Hdg Hen) as Hg. rewrite <- Hs in Hg.
      destruct (expand_sequence L None (Some (d_seq d)) files sha) as [idx|?|?|] eqn:Ee; cbn [bind]; auto. eauto. }
    destruct (expand_old L d r) as [[files idx]|?|?|]; cbn [bind]; auto.
    pose proof (replace_def r _ Hb Hsg) as Hrep. destruct (rpm_replace_lead_and_signature L r (d_leadsig d)) as [p|?|?|]; cbn [bind]; auto.
    destruct Hrep as [Hra Hro]. rewrite Hra, Hro. auto. }
  intros [[p files] idx] (Ha & Ho & Hstd). eapply (wdef_bind (fun _ => True)).
  - destruct (is_nodiff d); [destruct (rpm_write _ _ _ _); exact I|]. unfold apply_from. destruct (d_type d =? TYPE_RPMONLY) eqn:Et.
    + apply (apply_diff_def rsrc next_rpmonly (only_ok p)); auto; [apply next_only_safe; auto|].
      unfold only_ok, rpmonly_source. cbn [rs_rpm rs_hoff rs_header rs_left]. pose proof (zlen_nonneg (rp_archive p)). pose proof (co_extlen _ Hc).
      split; [exists 0; split; [unfold set_off; destruct p; cbn in *; subst; reflexivity|lia]|]. split; [pose proof (zlen_nonneg (rpm_export_header p)); lia|lia].
    + destruct (Hstd ltac:(lia)) as (W & N & sha & Ee). pose proof (accepted_index _ _ _ _ _ _ W Ee) as Hix.
      apply (apply_diff_def ssrc (next_standard files idx) (sane files idx p)); auto; [|apply source_sane; auto].
      intros s Hs. pose proof (next_safe files idx p Ha W Hix s Hs) as H. destruct (next_standard files idx s) as [[s' x]|?|?|]; cbn [usafe] in H; auto.
      destruct H as [_ (o & size & H)]. exact (N o size H).
  - intros md5 _. unfold final_check. destruct (no_full_md5 d).
    + unfold rpm_signature_get_md5. destruct (lb_sig_md5 L _) as [m|]; [|exact I]. destruct (zlen m =? 16); [|exact I]. cbn [bind]. destruct (negb _); exact I.
    + destruct (negb _); exact I.
Qed.
End Diff.
