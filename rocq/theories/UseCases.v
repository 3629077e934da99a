(** * UseCases: small libraries that keep what [SpecUse] asks for, for concrete cases.  Not part of the model of drpm. *)
From Verif Require Import Base BaseLemmas DeltaComp Stream SpecStream CodecLoop SpecLoop LoopProofs LoopCases CodecUse SpecUse UseProofs.

(** A stream is the bytes themselves behind eight bytes that name the method. *)
Definition head8 (comp : Z) : list Z := firstn 8 (magic_of comp ++ repeat 0 8).
Definition behind (comp : Z) (b x : list Z) : Prop := b = head8 comp ++ x.

Definition tagger (comp endc goon : Z) : encoder :=
  mkencoder (list Z) (fun level => (if (1 <=? level) && (level <=? 22) then 0 else -2, head8 comp)) fifo_run (fifo_finish endc goon).
Definition tag_view (comp : Z) : enc_view (list Z) :=
  mkev (fun s c p => head8 comp ++ c = p ++ s) (fun s c p => head8 comp ++ c = p ++ s) (fun _ => False) (fun s input => zlen s + zlen input).

Lemma tagger_ok comp endc goon (fine fine_end : Z -> Prop) (ended : Z -> bool) :
  fine 0 -> fine_end endc -> fine_end goon -> ended endc = true -> ended goon = false ->
  encodes (behind comp) fine fine_end ended fifo_run (fifo_finish endc goon) (tag_view comp).
Proof.
  intros Hf He Hg Ee Eg. split.
  - intros s c p input room ret n out s' Hl Hr E. unfold fifo_run, fifo_take in E.
    injection E as <- <- <- <-. cbn [tag_view ev_live ev_left ev_stuck] in *.
    destruct (slice_cut (s ++ input) room Hr) as (A & B & C & D).
    pose proof (zlen_nonneg input). rewrite Z.sub_diag, (slice_nil_len input _ 0) by lia. rewrite slice_all.
    split; [lia|]. split; [exact B|]. split.
    { rewrite app_assoc, Hl, <- !app_assoc. f_equal. exact A. }
    split; [reflexivity|]. pose proof (zlen_nonneg (slice (s ++ input) room (zlen (s ++ input) - room))).
    change (zlen (@nil Z)) with 0. split; [lia|]. split; [rewrite C, zlen_app; lia|]. split; [right; intros []|]. left; exact Hf.
  - intros s c p room ret n out s' Hl Hr E. unfold fifo_finish in E. injection E as <- <- <- <-.
    cbn [tag_view ev_live ev_closing ev_left ev_stuck] in *.
    assert (Hc : head8 comp ++ c = p ++ s) by (destruct Hl; assumption).
    destruct (slice_cut s room Hr) as (A & B & C & D).
    split; [reflexivity|]. split; [exact B|]. split; [rewrite Hc, <- app_assoc; f_equal; exact A|].
    split. { intros Hlt. destruct (D Hlt) as (_ & _ & Hs). replace (zlen s <=? room) with true by (symmetry; apply Z.leb_le; lia). exact Ee. }
    split.
    { destruct (zlen s <=? room) eqn:El; [|rewrite Eg; discriminate]. intros _. apply Z.leb_le in El.
      unfold behind. rewrite slice_all_ge by lia. symmetry. exact Hc. }
    pose proof (zlen_nonneg (slice s room (zlen s - room))).
    change (zlen (@nil Z)) with 0. split; [lia|]. split; [lia|]. split; [right; intros []|]. left. destruct (zlen s <=? room); assumption.
Qed.

Lemma tagger_starts comp endc goon hi : hi <= 22 -> starts (tagger comp endc goon) (tag_view comp) hi.
Proof.
  intros Hh level Hl. exists (head8 comp). cbn [tagger e_init].
  replace (1 <=? level) with true by (symmetry; apply Z.leb_le; lia).
  replace (level <=? 22) with true by (symmetry; apply Z.leb_le; lia). split; [reflexivity|].
  cbn [tag_view ev_live]. rewrite app_nil_r. reflexivity.
Qed.

Definition toy_encoding : encoding :=
  mkencoding (tagger 1 1 0) (tagger 2 4 3) (tagger 3 1 0) (tagger 4 1 0) (tagger 6 0 1) (fun level => level <=? 9).

Lemma toy_writes : libraries_write behind toy_encoding.
Proof.
  split; cbn [toy_encoding el_gzip el_bzip2 el_lzma el_xz el_zstd el_preset].
  1-5: eexists; split; [apply tagger_starts; lia|]; apply tagger_ok; first [exact I | reflexivity | (left; reflexivity) | (right; reflexivity) | (unfold zstd_good; lia)].
  intros level Hl. apply Z.leb_le. lia.
Qed.

(** ** A decoder that drops eight bytes *)

Definition drop_run : call nat := fun s input room =>
  let k := Nat.min s (length input) in
  let out := firstn (Z.to_nat room) (skipn k input) in
  (0, Z.of_nat (k + length out), out, (s - k)%nat).
Definition drop_view : dec_view nat :=
  mkdv (fun s c p => s = (8 - length c)%nat /\ p = skipn 8 c) (fun _ => False) (fun _ input => zlen input).

Lemma skip_head comp x : skipn 8 (head8 comp ++ x) = x.
Proof.
  assert (H : length (head8 comp) = 8%nat) by (unfold head8; rewrite firstn_length, app_length, repeat_length; lia).
  rewrite skipn_app, skipn_all2 by lia. replace (8 - length (head8 comp))%nat with 0%nat by lia. reflexivity.
Qed.

Lemma drop_step (c input : list Z) (k n : nat) : k = Nat.min (8 - length c) (length input) -> (n <= length (skipn k input))%nat ->
  skipn 8 (c ++ firstn (k + n) input) = skipn 8 c ++ firstn n (skipn k input) /\
  (8 - length (c ++ firstn (k + n) input) = 8 - length c - k)%nat.
Proof.
  intros Hk Hn. rewrite skipn_length in Hn. split.
  - rewrite skipn_app. f_equal. rewrite skipn_firstn_comm.
    destruct (Nat.le_gt_cases (8 - length c) (length input)) as [H|H].
    + replace (8 - length c)%nat with k by lia. f_equal. lia.
    + replace n with 0%nat by lia. replace (k + 0 - (8 - length c))%nat with 0%nat by lia. reflexivity.
  - rewrite app_length, firstn_length. lia.
Qed.

Lemma slice_first {A} (l : list A) (n : nat) : slice l 0 (Z.of_nat n) = firstn n l.
Proof. unfold slice. rewrite Nat2Z.id. reflexivity. Qed.

Lemma drop_ok (valid : list Z -> list Z -> Prop) (fine : Z -> Prop) : (forall b x, valid b x -> skipn 8 b = x) -> fine 0 ->
  decodes_stream valid fine (mkdecoder nat 8%nat drop_run) drop_view.
Proof.
  intros Hvalid Hf. split; [split; reflexivity|].
  intros b x s c p input rest room ret n out s' Hv (-> & ->) Hb Hr E. unfold drop_run in E. cbn [d_run] in E.
  set (k := Nat.min (8 - length c) (length input)) in *. set (o := firstn (Z.to_nat room) (skipn k input)) in *.
  injection E as <- <- <- <-.
  assert (Ho : length o = Nat.min (Z.to_nat room) (length input - k)) by (unfold o; rewrite firstn_length, skipn_length; reflexivity).
  assert (Hk : (k <= length input)%nat) by (subst k; lia).
  assert (Eo : o = firstn (length o) (skipn k input)).
  { unfold o at 1. rewrite Ho. destruct (Nat.le_gt_cases (Z.to_nat room) (length input - k)).
    - rewrite Nat.min_l by lia. reflexivity.
    - rewrite Nat.min_r by lia. rewrite !firstn_all2 by (rewrite skipn_length; lia). reflexivity. }
  destruct (drop_step c input k (length o) eq_refl ltac:(rewrite skipn_length; lia)) as (D1 & D2). rewrite <- Eo in D1.
  assert (Hx : skipn 8 c ++ o ++ skipn (8 - length (c ++ firstn (k + length o) input)) (skipn (k + length o) input ++ rest) = x).
  { rewrite app_assoc, <- D1. rewrite <- (Hvalid _ _ Hv), <- Hb. rewrite <- skipn_app. f_equal.
    rewrite <- app_assoc. f_equal. rewrite app_assoc, firstn_skipn. reflexivity. }
  rewrite slice_first. unfold zlen in *. split; [lia|]. split; [lia|]. split; [split; [symmetry; exact D2|symmetry; exact D1]|].
  split; [eexists; exact Hx|]. split.
  { intros Hlt. assert (Hall : (k + length o = length input)%nat) by lia. split; [lia|]. intros ->.
    rewrite <- Hx. rewrite Hall, skipn_all, skipn_nil, app_nil_r. reflexivity. }
  assert (Hs : length (slice input (Z.of_nat (k + length o)) (Z.of_nat (length input) - Z.of_nat (k + length o))) = (length input - (k + length o))%nat).
  { unfold slice. rewrite firstn_length, skipn_length. lia. }
  cbn [drop_view dv_left]. unfold zlen. rewrite Hs. split; [lia|]. split; [lia|]. split; [right; intros []|]. left. exact Hf.
Qed.

(** zstd is not available here. *)
Definition toy_decoding : decoding :=
  mkdecoding nat (fun _ _ => (0, 8%nat)) drop_run nat (fun _ => (0, 8%nat)) drop_run nat (fun _ _ => (0, 8%nat)) drop_run nat None drop_run.

Lemma toy_reads : libraries_read behind (fun b => 65536) toy_decoding.
Proof.
  split; cbn [toy_decoding dl_bzip2_init dl_gzip_init dl_lzma_init dl_zstd_create dl_bzip2_run dl_gzip_run dl_lzma_run].
  - intros v s ret st _ _ E. assert (ret = 0 /\ st = 8%nat) as (-> & ->) by (split; congruence). split; [left; reflexivity|]. intros _.
    exists drop_view. apply drop_ok; [|left; reflexivity]. intros b x ->. apply skip_head.
  - intros v ret st _ E. assert (ret = 0 /\ st = 8%nat) as (-> & ->) by (split; congruence). split; [left; reflexivity|]. intros _.
    exists drop_view. apply drop_ok; [|left; reflexivity]. intros b x ->. apply skip_head.
  - intros v ret st _ E. assert (ret = 0 /\ st = 8%nat) as (-> & ->) by (split; congruence). split; [left; reflexivity|]. intros _.
    exists drop_view. apply drop_ok; [|left; reflexivity]. intros b x ([->| ->] & _); apply skip_head.
  - discriminate.
  - intros _. lia.
Qed.

Lemma toy_marked : marked behind.
Proof.
  intros comp b x Hc ->. split; [|split].
  - intros Hx. unfold bytes in *. rewrite Forall_app. split; [|exact Hx].
    apply bytesb_ok. destruct (real_cases _ Hc) as [->|[->|[->|[->| ->]]]]; reflexivity.
  - rewrite zlen_app. pose proof (zlen_nonneg x). replace (zlen (head8 comp)) with 8; [lia|].
    destruct (real_cases _ Hc) as [->|[->|[->|[->| ->]]]]; reflexivity.
  - exists (firstn (8 - length (magic_of comp)) (repeat 0 8) ++ x). rewrite app_assoc. f_equal.
    destruct (real_cases _ Hc) as [->|[->|[->|[->| ->]]]]; reflexivity.
Qed.

(** ** The codec that follows them *)

Definition toy_codec : codec := mkcodec
  (fun comp level => match open_encoder toy_encoding comp level with Err e => Some e | _ => None end)
  (fun comp _ hist piece => match hist with [] => head8 comp | _ => [] end ++ piece)
  (fun comp _ hist => match hist with [] => head8 comp | _ => [] end)
  (fun comp hist chunk => (skipn (8 - length (concat hist)) chunk, None)).

Lemma toy_enc comp level ps : forall hist,
  enc_run toy_codec comp level hist ps = match hist with [] => head8 comp | _ => [] end ++ concat ps.
Proof.
  induction ps as [|p ps IH]; intros hist; cbn [enc_run concat toy_codec c_flush c_step]; [rewrite app_nil_r; reflexivity|].
  rewrite IH. destruct (hist ++ [p]) eqn:E; [destruct hist; discriminate|]. cbn [app]. rewrite <- app_assoc. reflexivity.
Qed.

Lemma toy_dec comp cs : forall hist,
  dec_run toy_codec comp hist cs = (skipn (8 - length (concat hist)) (concat cs), None).
Proof.
  induction cs as [|c cs IH]; intros hist; cbn [dec_run concat toy_codec d_step]; [rewrite skipn_nil; reflexivity|].
  rewrite IH. rewrite skipn_app. do 3 f_equal. rewrite concat_app, app_length. cbn [concat]. rewrite app_nil_r. lia.
Qed.

Lemma ends_unique {A} (f : nat -> res A) r r' : ends_with f r -> ends_with f r' -> r = r'.
Proof. intros (n & H) (n' & H'). specialize (H (max n n') ltac:(lia)). specialize (H' (max n n') ltac:(lia)). congruence. Qed.

Lemma toy_follows : follows behind toy_codec toy_encoding toy_decoding.
Proof.
  split.
  - reflexivity.
  - intros comp level s ps b Hc Hl Hp Ho He.
    destruct (writes _ _ comp level ps toy_writes Hc Hl Hp) as (s' & b' & Ho' & He' & Hv).
    rewrite Ho in Ho'. injection Ho' as <-. rewrite (ends_unique _ _ _ He He'), Hv. apply toy_enc.
  - intros comp s cs rest b x y e Hc Hv Hb Hp Ho He.
    assert (H6 : comp <> 6) by (intros ->; discriminate Ho).
    assert (Ha : available toy_decoding comp) by (destruct (real_cases _ Hc) as [->|[->|[->|[->| ->]]]]; reflexivity || congruence).
    rewrite toy_dec. cbn [concat length Nat.sub].
    assert (Hh : length (head8 comp) = 8%nat) by (unfold head8; rewrite firstn_length, app_length, repeat_length; lia).
    destruct (Nat.le_gt_cases 8 (length (concat cs))) as [Hlen|Hlen].
    + assert (Hv' : behind comp (concat cs) (skipn 8 (concat cs))).
      { unfold behind in *. rewrite <- (firstn_skipn 8 (concat cs)) at 1. f_equal.
        transitivity (firstn 8 b); [|rewrite Hv, <- Hh, firstn_app, firstn_all, Nat.sub_diag; cbn [firstn]; apply app_nil_r].
        rewrite <- Hb, firstn_app. replace (8 - length (concat cs))%nat with 0%nat by lia. cbn [firstn]. rewrite app_nil_r. reflexivity. }
      destruct (reads _ _ _ comp _ _ cs [] toy_reads toy_marked Hc Hv' Ha (app_nil_r _) Hp) as (s' & y' & Ho' & He' & _ & Z2).
      rewrite Ho in Ho'. injection Ho' as <-. rewrite (ends_unique _ _ _ He He'). f_equal. symmetry. apply Z2; [reflexivity|left; exact H6].
    + assert (Hv' : behind comp (head8 comp) []) by (unfold behind; rewrite app_nil_r; reflexivity).
      assert (Hb' : concat cs ++ skipn (length (concat cs)) (head8 comp) = head8 comp).
      { rewrite <- (firstn_skipn (length (concat cs)) (head8 comp)) at 2. f_equal.
        transitivity (firstn (length (concat cs)) b).
        - rewrite <- Hb, firstn_app, firstn_all, Nat.sub_diag. cbn [firstn]. rewrite app_nil_r. reflexivity.
        - rewrite Hv, firstn_app. replace (length (concat cs) - length (head8 comp))%nat with 0%nat by lia. cbn [firstn]. apply app_nil_r. }
      destruct (reads _ _ _ comp _ _ cs _ toy_reads toy_marked Hc Hv' Ha Hb' Hp) as (s' & y' & Ho' & He' & (z & Z1) & _).
      rewrite Ho in Ho'. injection Ho' as <-. rewrite (ends_unique _ _ _ He He'). apply app_eq_nil in Z1. destruct Z1 as (-> & _).
      f_equal. apply skipn_all2. lia.
Qed.

Lemma lzma_level : exists valid E, libraries_write valid E /\
  forall level, 10 <= level <= 99 ->
    open_encoder E 3 level = Ub Uninit /\ exists word, 0 <= word < 2 ^ 32 /\ decode_comp word = Some (3, level).
Proof.
  exists behind, toy_encoding. split; [exact toy_writes|]. intros level Hl. split.
  - unfold open_encoder, init_lzma. cbn [Z.eqb COMP_NONE COMP_GZIP COMP_BZIP2 COMP_LZMA Pos.eqb toy_encoding el_preset].
    replace (level =? 0) with false by (symmetry; apply Z.eqb_neq; lia).
    replace (level <=? 9) with false by (symmetry; apply Z.leb_gt; lia). reflexivity.
  - exists (5 + 256 * level). split; [lia|].
    assert (Hb : forallb (fun l => match decode_comp (5 + 256 * l) with Some (c, l') => (c =? 3) && (l' =? l) | None => false end)
      (map (fun n => Z.of_nat n) (seq 10 90)) = true) by (vm_compute; reflexivity).
    rewrite forallb_forall in Hb. specialize (Hb level ltac:(apply in_map_iff; exists (Z.to_nat level); split; [lia|]; apply in_seq; lia)).
    destruct (decode_comp (5 + 256 * level)) as [[c l']|]; [|discriminate Hb].
    apply andb_prop in Hb. destruct Hb as [Hc Hd]. apply Z.eqb_eq in Hc, Hd. subst. reflexivity.
Qed.
