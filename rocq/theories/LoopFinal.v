(** * LoopFinal: the loops, codec by codec *)
From Verif Require Import Base BaseLemmas DeltaComp Stream CodecLoop SpecLoop LoopProofs LoopCases.

Definition fits32 (p : list Z) : Prop := zlen p < 2 ^ 32.

Lemma offered_all p : fits32 p -> offered p = p.
Proof.
  intros H. unfold fits32 in H. unfold offered. pose proof (zlen_nonneg p). rewrite u32_small by lia. apply slice_all.
Qed.

Section Writes.
Variables (valid : list Z -> list Z -> Prop) (e : encoder) (v : enc_view (e_state e)).

Lemma plain_writes fine_end ended : encodes valid any_value fine_end ended (e_run e) (e_finish e) v ->
  forall s c p data input, ev_live v s c p -> input <> [] -> fits32 input ->
  exists s' out, ev_live v s' (c ++ input) (p ++ out) /\
    exists k, forall fuel, (k <= fuel)%nat -> writechunk_plain fuel e (Some s) data input = Ok (Some s', data ++ out).
Proof.
  intros He s c p data input Hl Hi Hf.
  destruct (write_ok _ _ _ _ _ _ _ He (fun _ => None) ltac:(reflexivity) s c p data input Hl Hi) as (s' & out & A & k & B).
  exists s', out. split; [exact A|]. exists k. intros fuel Hfu. unfold writechunk_plain. rewrite offered_all by exact Hf.
  rewrite B by exact Hfu. reflexivity.
Qed.

Lemma lzma_writes fine_end ended : encodes valid lzma_going fine_end ended (e_run e) (e_finish e) v ->
  forall s c p data input, ev_live v s c p -> input <> [] -> True ->
  exists s' out, ev_live v s' (c ++ input) (p ++ out) /\
    exists k, forall fuel, (k <= fuel)%nat -> writechunk_lzma fuel e (Some s) data input = Ok (Some s', data ++ out).
Proof.
  intros He s c p data input Hl Hi _.
  assert (Hb : forall ret, lzma_going ret -> lzma_run_error ret = None) by (intros ret ->; reflexivity).
  destruct (write_ok _ _ _ _ _ _ _ He lzma_run_error Hb s c p data input Hl Hi) as (s' & out & A & k & B).
  exists s', out. split; [exact A|]. exists k. intros fuel Hfu. unfold writechunk_lzma.
  rewrite B by exact Hfu. reflexivity.
Qed.

Lemma zstd_good_error ret : zstd_good ret -> zstd_error ret = false.
Proof. unfold zstd_good, zstd_error. intros H. apply Z.ltb_ge. lia. Qed.

Lemma zstd_writes fine_end ended : encodes valid zstd_good fine_end ended (e_run e) (e_finish e) v ->
  forall s c p data input, ev_live v s c p -> input <> [] -> True ->
  exists s' out, ev_live v s' (c ++ input) (p ++ out) /\
    exists k, forall fuel, (k <= fuel)%nat -> writechunk_zstd fuel e (Some s) data input = Ok (Some s', data ++ out).
Proof.
  intros He s c p data input Hl Hi _.
  destruct (zwrite_ok _ _ _ _ _ _ _ He zstd_good_error s c p data input Hl Hi) as (s' & out & A & k & B).
  exists s', out. split; [exact A|]. exists k. intros fuel Hfu. unfold writechunk_zstd.
  rewrite B by exact Hfu. reflexivity.
Qed.

(** From the start to the end. *)
Lemma compress_all (fits : list Z -> Prop) write fin s pieces :
  ev_live v s [] [] ->
  (forall s c p data input, ev_live v s c p -> input <> [] -> fits input ->
    exists s' out, ev_live v s' (c ++ input) (p ++ out) /\
      exists k, forall fuel, (k <= fuel)%nat -> write fuel (Some s) data input = Ok (Some s', data ++ out)) ->
  (forall s c p data, ev_live v s c p -> exists out, valid (p ++ out) c /\
      exists k, forall fuel, (k <= fuel)%nat -> fin fuel (Some s) data = Ok (data ++ out)) ->
  pieces_ok pieces -> Forall fits pieces ->
  exists data, ends_with (fun fuel => compress (write fuel) (fin fuel) (Some s) [] pieces) data /\ valid data (concat pieces).
Proof.
  intros Hl Hw Hf Hp Hfi.
  destruct (compress_ok valid v write fin fits Hw Hf pieces s [] [] [] Hl Hp Hfi) as (out & V & k & C).
  exists out. split; [exists k; exact C|exact V].
Qed.
End Writes.

Lemma level_default level d hi : 0 <= level <= hi -> 1 <= d <= hi -> 1 <= (if level =? 0 then d else level) <= hi.
Proof. intros. destruct (Z.eqb_spec level 0); lia. Qed.

Lemma gzip_writes_lemma valid e v level pieces :
  starts e v 9 -> encodes valid any_value any_value (fun ret => ret =? 1) (e_run e) (e_finish e) v ->
  0 <= level <= 9 -> pieces_ok pieces -> Forall fits32 pieces ->
  exists s data, init_gzip e level = Ok (Some s) /\
    ends_with (fun fuel => compress (writechunk_gzip fuel e) (finish_gzip fuel e) (Some s) [] pieces) data /\
    valid data (concat pieces).
Proof.
  intros Hs He Hl Hp Hf. destruct (Hs _ (level_default level 9 9 Hl ltac:(lia))) as (s & Ei & Hlive).
  exists s. destruct (compress_all valid e v fits32 (fun f => writechunk_gzip f e) (fun f => finish_gzip f e) s pieces Hlive) as (data & A & B).
  - exact (plain_writes valid e v _ _ He).
  - intros s0 c p data Hl0. unfold finish_gzip, ready.
    apply (fin_ok _ _ _ _ _ _ _ He); [exact chunk_pos|reflexivity| | |exact Hl0].
    + intros _ out _ ->. reflexivity.
    + intros _ out _ Hlt. apply Z.eqb_neq. lia.
  - exact Hp.
  - exact Hf.
  - exists data. split; [|split; assumption]. unfold init_gzip. rewrite Ei. reflexivity.
Qed.

Lemma bzip2_writes_lemma valid e v level pieces :
  starts e v 9 -> encodes valid any_value any_value (fun ret => ret =? 4) (e_run e) (e_finish e) v ->
  0 <= level <= 9 -> pieces_ok pieces -> Forall fits32 pieces ->
  exists s data, init_bzip2 e level = Ok (Some s) /\
    ends_with (fun fuel => compress (writechunk_bzip2 fuel e) (finish_bzip2 fuel e) (Some s) [] pieces) data /\
    valid data (concat pieces).
Proof.
  intros Hs He Hl Hp Hf. destruct (Hs _ (level_default level 9 9 Hl ltac:(lia))) as (s & Ei & Hlive).
  exists s. destruct (compress_all valid e v fits32 (fun f => writechunk_bzip2 f e) (fun f => finish_bzip2 f e) s pieces Hlive) as (data & A & B).
  - exact (plain_writes valid e v _ _ He).
  - intros s0 c p data Hl0. unfold finish_bzip2, ready.
    apply (fin_ok _ _ _ _ _ _ _ He); [exact chunk_pos|reflexivity| | |exact Hl0].
    + intros ret out -> _. reflexivity.
    + intros ret out -> _. reflexivity.
  - exact Hp.
  - exact Hf.
  - exists data. split; [|split; assumption]. unfold init_bzip2. rewrite Ei. reflexivity.
Qed.

Lemma lzma_finish_ok valid e v : encodes valid lzma_going lzma_good (fun ret => ret =? 1) (e_run e) (e_finish e) v ->
  forall s c p data, ev_live v s c p -> exists out, valid (p ++ out) c /\
      exists k, forall fuel, (k <= fuel)%nat -> finish_lzma fuel e (Some s) data = Ok (data ++ out).
Proof.
  intros He s0 c p data Hl0. unfold finish_lzma, ready.
  apply (fin_ok _ _ _ _ _ _ _ He); [exact chunk_pos| | | |exact Hl0].
  - intros ret [->| ->]; reflexivity.
  - intros ret out -> _. reflexivity.
  - intros ret out -> _. reflexivity.
Qed.

Lemma all_true (l : list (list Z)) : Forall (fun _ => True) l.
Proof. induction l; constructor; auto. Qed.

Lemma lzma_writes_lemma valid e v preset level pieces :
  starts e v 9 -> (forall l, 1 <= l <= 9 -> preset l = true) ->
  encodes valid lzma_going lzma_good (fun ret => ret =? 1) (e_run e) (e_finish e) v ->
  0 <= level <= 9 -> pieces_ok pieces ->
  exists s data, init_lzma preset e level = Ok (Some s) /\
    ends_with (fun fuel => compress (writechunk_lzma fuel e) (finish_lzma fuel e) (Some s) [] pieces) data /\
    valid data (concat pieces).
Proof.
  intros Hs Hpre He Hl Hp. pose proof (level_default level 2 9 Hl ltac:(lia)) as Hlv. destruct (Hs _ Hlv) as (s & Ei & Hlive).
  exists s. destruct (compress_all valid e v (fun _ => True) (fun f => writechunk_lzma f e) (fun f => finish_lzma f e) s pieces Hlive) as (data & A & B).
  - exact (lzma_writes valid e v _ _ He).
  - exact (lzma_finish_ok valid e v He).
  - exact Hp.
  - apply all_true.
  - exists data. split; [|split; assumption]. unfold init_lzma. rewrite Ei, (Hpre _ Hlv). reflexivity.
Qed.

Lemma xz_writes_lemma valid e v level pieces :
  starts e v 9 -> encodes valid lzma_going lzma_good (fun ret => ret =? 1) (e_run e) (e_finish e) v ->
  0 <= level <= 9 -> pieces_ok pieces ->
  exists s data, init_xz e level = Ok (Some s) /\
    ends_with (fun fuel => compress (writechunk_lzma fuel e) (finish_lzma fuel e) (Some s) [] pieces) data /\
    valid data (concat pieces).
Proof.
  intros Hs He Hl Hp. pose proof (level_default level 3 9 Hl ltac:(lia)) as Hlv. destruct (Hs _ Hlv) as (s & Ei & Hlive).
  exists s. destruct (compress_all valid e v (fun _ => True) (fun f => writechunk_lzma f e) (fun f => finish_lzma f e) s pieces Hlive) as (data & A & B).
  - exact (lzma_writes valid e v _ _ He).
  - exact (lzma_finish_ok valid e v He).
  - exact Hp.
  - apply all_true.
  - exists data. split; [|split; assumption]. unfold init_xz. rewrite Ei. reflexivity.
Qed.

Lemma zstd_writes_lemma valid e v level pieces :
  starts e v 22 -> encodes valid zstd_good zstd_good (fun ret => ret =? 0) (e_run e) (e_finish e) v ->
  0 <= level <= 22 -> pieces_ok pieces ->
  exists s data, init_zstd e level = Ok (Some s) /\
    ends_with (fun fuel => compress (writechunk_zstd fuel e) (finish_zstd fuel e) (Some s) [] pieces) data /\
    valid data (concat pieces).
Proof.
  intros Hs He Hl Hp. pose proof (level_default level 19 22 Hl ltac:(lia)) as Hlv. destruct (Hs _ Hlv) as (s & Ei & Hlive).
  exists s. destruct (compress_all valid e v (fun _ => True) (fun f => writechunk_zstd f e) (fun f => finish_zstd f e) s pieces Hlive) as (data & A & B).
  - exact (zstd_writes valid e v _ _ He).
  - intros s0 c p data Hl0. unfold finish_zstd, ready.
    apply (fin_ok _ _ _ _ _ _ _ He); [exact zout_pos| | | |exact Hl0].
    + intros ret Hg. rewrite zstd_good_error by exact Hg. reflexivity.
    + intros ret out -> _. reflexivity.
    + intros ret out -> _. reflexivity.
  - exact Hp.
  - apply all_true.
  - exists data. split; [|split; assumption]. unfold init_zstd. rewrite Ei. reflexivity.
Qed.

(** ** Reading *)

Lemma reads_lemma valid fine d v (bad : Z -> option err) b x chunks rest :
  decodes_stream valid fine d v -> (forall ret, fine ret -> bad ret = None) ->
  valid b x -> b <> [] -> concat chunks ++ rest = b -> pieces_ok chunks ->
  exists y, ends_with (fun fuel => decompress (fun s data c => read_loop fuel (d_run d) bad s c data) (d_start d) [] chunks) (y, None) /\
    (exists z, y ++ z = x) /\ (rest = [] -> y = x).
Proof.
  intros Hd Hbad Hv Hb Hc Hp.
  destruct (decompress_ok d v b x (fun fuel s data c => read_loop fuel (d_run d) bad s c data) (fun _ => True)) with
    (chunks := chunks) (s := d_start d) (c := @nil Z) (p := @nil Z) (data := @nil Z) (rest := rest) as (out & A & B & k & C).
  - intros s c p data input rest0 Hl Hb0 Hi. exact (read_ok valid fine d v Hd b x Hv bad Hbad s c p data input rest0 Hl Hb0 Hi).
  - apply (de_start _ _ _ _ Hd).
  - exact Hc.
  - exact Hp.
  - exists x. reflexivity.
  - exists out. split; [exists k; exact C|]. split; [exact A|]. intros Hr. apply B; [exact Hr|exact I|].
    intros ->. subst rest. apply Hb. rewrite <- Hc. reflexivity.
Qed.

Lemma zstd_reads_lemma valid d v b x chunks rest :
  decodes_stream valid zstd_good d v ->
  valid b x -> b <> [] -> concat chunks ++ rest = b -> pieces_ok chunks ->
  exists y, ends_with (fun fuel => decompress (readchunk_zstd fuel d) (d_start d) [] chunks) (y, None) /\
    (exists z, y ++ z = x) /\ (rest = [] -> zlen x < ZSTD_DOUT -> y = x).
Proof.
  intros Hd Hv Hb Hc Hp.
  destruct (decompress_ok d v b x (fun fuel => readchunk_zstd fuel d) (fun x => zlen x < ZSTD_DOUT)) with
    (chunks := chunks) (s := d_start d) (c := @nil Z) (p := @nil Z) (data := @nil Z) (rest := rest) as (out & A & B & k & C).
  - intros s c p data input rest0 Hl Hb0 Hi.
    exact (zread_ok valid zstd_good d v Hd b x Hv zstd_good_error s c p data input rest0 Hl Hb0 Hi).
  - apply (de_start _ _ _ _ Hd).
  - exact Hc.
  - exact Hp.
  - exists x. reflexivity.
  - exists out. split; [exists k; exact C|]. split; [exact A|]. intros Hr Hs. apply B; [exact Hr|exact Hs|].
    intros ->. subst rest. apply Hb. rewrite <- Hc. reflexivity.
Qed.

Lemma gzip_good_error ret : gzip_good ret -> gzip_read_error ret = None.
Proof. unfold gzip_good. cbn [In]. intros [<-|[<-|[<-|[]]]]; reflexivity. Qed.
Lemma bzip2_good_error ret : bzip2_good ret -> bzip2_read_error ret = None.
Proof. unfold bzip2_good. cbn [In]. intros [<-|[<-|[<-|[]]]]; reflexivity. Qed.
Lemma lzma_good_error ret : lzma_good ret -> lzma_read_error ret = None.
Proof. intros [->| ->]; reflexivity. Qed.

(** ** What goes wrong *)

Lemma zstd_loses : exists d v b x y,
  decodes_stream (repeated 200000) zstd_good d v /\ repeated 200000 b x /\ b <> [] /\
  ends_with (fun fuel => decompress (readchunk_zstd fuel d) (d_start d) [] [b]) (y, None) /\
  zlen y = 131072 /\ zlen x = 200000.
Proof.
  exists (repeater 200000), (repeater_view 200000), [7], (repeat 7 (Z.to_nat 200000)).
  exists (slice (repeat 7 (Z.to_nat 200000)) 0 131072).
  split; [apply repeater_ok; [lia|unfold zstd_good; lia]|].
  split; [unfold repeated; cbn [map concat]; rewrite app_nil_r; reflexivity|].
  split; [discriminate|]. split.
  - exists 2%nat. intros fuel Hf. destruct fuel as [|[|fuel]]; [lia|lia|].
    assert (E : d_run (repeater 200000) [] [7] ZSTD_DOUT =
      (0, 1, slice (repeat 7 (Z.to_nat 200000)) 0 131072, slice (repeat 7 (Z.to_nat 200000)) 131072 (200000 - 131072))).
    { cbn [repeater d_run pump]. change (zlen (@nil Z)) with 0. change (ZSTD_DOUT <=? 0) with false. cbv iota.
      rewrite zlen_repeat. rewrite Z2Nat.id by lia. change (ZSTD_DOUT - 0) with 131072. change (131072 <=? 200000) with true.
      cbv iota. reflexivity. }
    cbn [decompress]. unfold readchunk_zstd. change (d_start (repeater 200000)) with (@nil Z).
    cbn [zread_loop]. change (zlen [7] =? 0) with false. cbv iota.
    rewrite (invoke_ok _ _ _ _ _ _ _ _ E); [|cbn; lia|].
    + cbn [bind]. change (zstd_error 0) with false. cbv iota. change (slice [7] 1 (zlen [7] - 1)) with (@nil Z).
      destruct fuel; reflexivity.
    + rewrite zlen_slice; [unfold ZSTD_DOUT; lia|lia|lia|]. rewrite zlen_repeat. lia.
  - split; [rewrite zlen_slice; [lia|lia|lia|]; rewrite zlen_repeat; lia|]. rewrite zlen_repeat. lia.
Qed.

Lemma fifo_rejects reject endc goon level : 10 <= level <= 99 -> e_init (fifo reject endc goon) level = (reject, []).
Proof.
  intros H. cbn [fifo e_init]. replace (level <=? 9) with false by (symmetry; apply Z.leb_gt; lia).
  rewrite andb_false_r. reflexivity.
Qed.

(** A piece of 2^32 bytes is not offered at all. *)
Lemma big_piece : exists p : list Z, zlen p = 2 ^ 32.
Proof. exists (repeat 0 (Z.to_nat (2 ^ 32))). rewrite zlen_repeat. lia. Qed.

Lemma gzip_big_piece_lemma : exists e v piece s data,
  starts e v 9 /\ encodes copied any_value any_value (fun ret => ret =? 1) (e_run e) (e_finish e) v /\
  zlen piece = 2 ^ 32 /\ init_gzip e 9 = Ok (Some s) /\
  ends_with (fun fuel => compress (writechunk_gzip fuel e) (finish_gzip fuel e) (Some s) [] [piece]) data /\
  ~ copied data piece.
Proof.
  destruct big_piece as [piece Hp].
  exists (fifo (-2) 1 0), fifo_view, piece, [], [].
  split; [apply fifo_starts|]. split; [apply fifo_ok; (exact I || reflexivity)|]. split; [exact Hp|]. split; [reflexivity|]. split.
  - exists 1%nat. intros fuel Hf. destruct fuel as [|fuel]; [lia|]. cbn [compress].
    unfold writechunk_gzip, writechunk_plain. replace (offered piece) with (@nil Z).
    + reflexivity.
    + unfold offered. rewrite Hp. change (u32 (2 ^ 32)) with 0. rewrite slice_nil_len by lia. reflexivity.
  - unfold copied. intros <-. discriminate Hp.
Qed.

Lemma gzip_level_final : exists e v, starts e v 9 /\
  encodes copied any_value any_value (fun ret => ret =? 1) (e_run e) (e_finish e) v /\
  forall level, 10 <= level <= 99 -> exists s, init_gzip e level = Ok s /\
    forall fuel data piece, writechunk_gzip fuel e s data piece = Ub Uninit.
Proof.
  exists (fifo (-2) 1 0), fifo_view. split; [apply fifo_starts|]. split; [apply fifo_ok; (exact I || reflexivity)|].
  intros level Hl. exists None. split; [|reflexivity]. unfold init_gzip.
  replace (level =? 0) with false by (symmetry; apply Z.eqb_neq; lia). rewrite fifo_rejects by exact Hl. reflexivity.
Qed.

Lemma bzip2_level_final : exists e v, starts e v 9 /\
  encodes copied any_value any_value (fun ret => ret =? 4) (e_run e) (e_finish e) v /\
  forall level, 10 <= level <= 99 -> exists s, init_bzip2 e level = Ok s /\
    forall fuel data piece, writechunk_bzip2 fuel e s data piece = Ub Uninit.
Proof.
  exists (fifo (-2) 4 3), fifo_view. split; [apply fifo_starts|]. split; [apply fifo_ok; (exact I || reflexivity)|].
  intros level Hl. exists None. split; [|reflexivity]. unfold init_bzip2.
  replace (level =? 0) with false by (symmetry; apply Z.eqb_neq; lia). rewrite fifo_rejects by exact Hl. reflexivity.
Qed.

Lemma level_reachable level : 10 <= level <= 99 ->
  exists word, 0 <= word < 2 ^ 32 /\ decode_comp word = Some (COMP_GZIP, level).
Proof.
  intros H. exists (1 + 256 * level). split; [lia|].
  assert (Hb : forallb (fun l => match decode_comp (1 + 256 * l) with Some (c, l') => (c =? COMP_GZIP) && (l' =? l) | None => false end)
    (map (fun n => Z.of_nat n) (seq 10 90)) = true) by (vm_compute; reflexivity).
  rewrite forallb_forall in Hb. specialize (Hb level).
  destruct (decode_comp (1 + 256 * level)) as [[c l']|].
  - assert (Hc : (c =? COMP_GZIP) && (l' =? level) = true).
    { apply Hb. apply in_map_iff. exists (Z.to_nat level). split; [lia|]. apply in_seq. lia. }
    apply andb_prop in Hc. destruct Hc as [Hc Hd]. apply Z.eqb_eq in Hc, Hd. subst. reflexivity.
  - discriminate Hb. apply in_map_iff. exists (Z.to_nat level). split; [lia|]. apply in_seq. lia.
Qed.

Lemma case_contracts :
  starts (fifo (-2) 1 0) fifo_view 9 /\
  encodes copied any_value any_value (fun ret => ret =? 1) (e_run (fifo (-2) 1 0)) (e_finish (fifo (-2) 1 0)) fifo_view /\
  encodes copied any_value any_value (fun ret => ret =? 4) (e_run (fifo (-2) 4 3)) (e_finish (fifo (-2) 4 3)) fifo_view /\
  encodes copied lzma_going lzma_good (fun ret => ret =? 1) (e_run (fifo 8 1 0)) (e_finish (fifo 8 1 0)) fifo_view /\
  encodes copied zstd_good zstd_good (fun ret => ret =? 0) (e_run (fifo 0 0 1)) (e_finish (fifo 0 0 1)) fifo_view /\
  decodes_stream (repeated 3) gzip_good (repeater 3) (repeater_view 3) /\
  decodes_stream (repeated 3) bzip2_good (repeater 3) (repeater_view 3) /\
  decodes_stream (repeated 3) lzma_good (repeater 3) (repeater_view 3) /\
  decodes_stream (repeated 3) zstd_good (repeater 3) (repeater_view 3).
Proof.
  split; [apply fifo_starts|].
  split; [apply fifo_ok; (exact I || reflexivity)|].
  split; [apply fifo_ok; (exact I || reflexivity)|].
  split; [apply fifo_ok; (exact I || reflexivity || (left; reflexivity) || (right; reflexivity))|].
  split; [apply fifo_ok; try reflexivity; unfold zstd_good; lia|].
  split; [apply repeater_ok; [lia|left; reflexivity]|].
  split; [apply repeater_ok; [lia|left; reflexivity]|].
  split; [apply repeater_ok; [lia|left; reflexivity]|].
  apply repeater_ok; [lia|unfold zstd_good; lia].
Qed.
