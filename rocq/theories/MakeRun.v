(** * MakeRun: what the diff puts into a delta can be stored and undone *)
From Verif Require Import Base BaseLemmas Sat SpecCodec SpecStream SpecFormat SpecDelta Utils DeltaComp Stream StreamProofs StreamFinal DetectProofs Rpm Delta
  Diff DiffProofs CopiesProofs DiffCounts FormatFinal Make SpecMake Apply ApplyRun SpecBlocks.

(** ** What success of [patch] says *)
Lemma copy_extents_in old : forall es ds out ds', copy_extents old ds es = Some (out, ds') ->
  Forall (fun e => 0 <= fst e /\ 0 <= snd e /\ fst e + snd e <= zlen old) es /\
  match ds, ds' with Some a, Some b => exists c, a = c ++ b /\ zlen c = zlen out | None, None => True | _, _ => False end.
Proof.
  induction es as [|[o l] es IH]; intros ds out ds' H; cbn [copy_extents] in H.
  - injection H as <- <-. split; [constructor|]. destruct ds; [exists []; auto|auto].
  - destruct ((0 <=? o) && (0 <=? l) && (o + l <=? zlen old)) eqn:E; [|discriminate]. destruct ds as [ds|].
    + destruct (take l ds) as [[d1 d2]|] eqn:Et; [|discriminate]. destruct (copy_extents old (Some d2) es) as [[o1 a1]|] eqn:E2; [|discriminate].
      injection H as <- <-. destruct (IH _ _ _ E2) as [I1 I2]. split; [constructor; [cbn [fst snd]; lia|auto]|].
      destruct a1 as [a1|]; [|contradiction]. destruct I2 as (c & -> & Hc).
      unfold take in Et. destruct ((0 <=? l) && (l <=? zlen ds)) eqn:El; [|discriminate]. injection Et as E1 E3.
      exists (d1 ++ c). rewrite <- app_assoc, <- E3, <- E1, firstn_skipn. split; [reflexivity|].
      rewrite !zlen_app, Hc. f_equal.
      assert (Hz : zlen (slice old o l) = l) by (apply zlen_slice; lia).
      assert (Hf : zlen (firstn (Z.to_nat l) ds) = l) by (unfold zlen in *; rewrite firstn_length; lia).
      rewrite Hf. revert Hf Hz. generalize (slice old o l) as x. generalize (firstn (Z.to_nat l) ds) as y. clear.
      intros y x Hy Hx. rewrite <- Hx. assert (Hl : length x = length y) by (unfold zlen in *; lia). clear - Hl. revert y Hl.
      induction x as [|a x IH]; intros [|b y] Hl; cbn [length] in Hl; try lia; auto. cbn [add_bytes]. rewrite !zlen_cons, <- IH by lia. reflexivity.
    + destruct (copy_extents old None es) as [[o1 a1]|] eqn:E2; [|discriminate]. injection H as <- <-.
      destruct (IH _ _ _ E2) as [I1 I2]. split; [constructor; [cbn [fst snd]; lia|auto]|auto].
Qed.

Lemma patch_uses old : forall ints ds es data out, patch old ds ints es data = Some out ->
  Forall (fun e => 0 <= fst e /\ 0 <= snd e /\ fst e + snd e <= zlen old) es /\
  zsum (map snd ints) = zlen data /\ match ds with Some a => zlen a <= zlen out | None => True end.
Proof.
  induction ints as [|[n l] ints IH]; intros ds es data out H; cbn [patch] in H.
  - destruct es; [|discriminate]. destruct data; [|discriminate]. split; [constructor|]. split; [reflexivity|].
    destruct ds as [[|]|]; try discriminate; auto. injection H as <-. reflexivity.
  - destruct (take n es) as [[e1 e2]|] eqn:Ee; [|discriminate].
    destruct (copy_extents old ds e1) as [[o1 a1]|] eqn:Ec; [|discriminate].
    destruct (take l data) as [[x data']|] eqn:Ed; [|discriminate].
    destruct (patch old a1 ints e2 data') as [rest|] eqn:Ep; [|discriminate]. injection H as <-.
    destruct (copy_extents_in _ _ _ _ _ Ec) as [C1 C2]. destruct (IH _ _ _ _ Ep) as (I1 & I2 & I3).
    unfold take in Ee, Ed. destruct ((0 <=? n) && (n <=? zlen es)) eqn:En; [|discriminate]. injection Ee as E1 E2.
    destruct ((0 <=? l) && (l <=? zlen data)) eqn:El; [|discriminate]. injection Ed as E3 E4.
    split; [rewrite <- (firstn_skipn (Z.to_nat n) es), E1, E2; apply Forall_app; auto|]. split.
    + cbn [map snd zsum fold_right]. fold (zsum (map snd ints)). rewrite I2, <- E4. unfold zlen in *. rewrite skipn_length. lia.
    + destruct ds as [a|]; [|exact I]. destruct a1 as [a1|]; [|contradiction]. destruct C2 as (c & -> & Hc).
      rewrite !zlen_app. pose proof (zlen_nonneg x). lia.
Qed.

Lemma patch_data_len old : forall ints data out es ds, patch old ds ints es data = Some out -> zlen data <= zlen out.
Proof.
  induction ints as [|[n l] ints IH]; intros data out es ds H; cbn [patch] in H.
  - destruct es; [|discriminate]. destruct data; [|discriminate]. apply zlen_nonneg.
  - destruct (take n es) as [[e1 e2]|] eqn:Ee; [|discriminate].
    destruct (copy_extents old ds e1) as [[o1 a1]|] eqn:Ec; [|discriminate].
    destruct (take l data) as [[x data']|] eqn:Ed; [|discriminate].
    destruct (patch old a1 ints e2 data') as [rest|] eqn:Ep; [|discriminate]. injection H as <-. apply IH in Ep.
    unfold take in Ed. destruct ((0 <=? l) && (l <=? zlen data)); [|discriminate]. injection Ed as E3 E4.
    rewrite <- (firstn_skipn (Z.to_nat l) data), E3, E4, !zlen_app. pose proof (zlen_nonneg o1). lia.
Qed.

Lemma int_data_wf new : forall offs ints data, int_data_of new offs ints = Ok data -> length offs = length ints ->
  Forall2 (fun o p => 0 <= o /\ o + snd p <= zlen new) offs ints /\
  concat (map (fun q => slice new (fst q) (snd (snd q))) (combine offs ints)) = data.
Proof.
  induction offs as [|o offs IH]; intros [|[c l] ints] data H Hl; cbn [int_data_of length] in *; try lia.
  - injection H as <-. split; [constructor|reflexivity].
  - apply bind_ok in H as (p & E & H). apply bind_ok in H as (r & E2 & H). injection H as <-.
    destruct (IH _ _ E2 ltac:(lia)) as [I1 I2]. apply rd_range_ok in E as (A & B & C & D). split; [constructor; [cbn [snd]; lia|auto]|].
    cbn [combine map fst snd concat]. rewrite I2, D. reflexivity.
Qed.

Lemma few_copies_small old new addblk : bytes new -> zlen old < 2 ^ 31 -> 16 <= zlen new < 2 ^ 29 - 2 -> few_copies old new addblk.
Proof.
  intros Hb Ho Hn r Hr.
  destruct (make_diff_fits old new addblk Hb Ho ltac:(lia) ltac:(lia)) as (r' & data & Er & _ & _ & _ & _ & _ & _ & D7 & D8 & _).
  rewrite Hr in Er. injection Er as <-. lia.
Qed.

(** ** The add block *)
Section Add.
Variable L : libs.
Let cd := lb_codec L.

Lemma init_ok fd comp level : codec_ok cd -> comp = 0 \/ real_comp comp -> 0 <= level <= 9 ->
  compstrm_init cd fd comp level = Ok (mkcs comp level fd [] [] 0 false).
Proof.
  intros Hk Hc Hl. unfold compstrm_init. replace (negb (level =? 0) && ((level <? 1) || (99 <? level))) with false by lia.
  destruct Hc as [->|Hc]; [reflexivity|]. pose proof (ok_init _ Hk comp level Hc Hl) as Hi.
  assert (Hs : (comp =? COMP_GZIP) || (comp =? COMP_BZIP2) || (comp =? COMP_LZMA) || (comp =? COMP_XZ) || (comp =? COMP_ZSTD) = true /\ comp =? COMP_NONE = false).
  { unfold real_comp in Hc. cbn [In] in Hc. destruct Hc as [<-|[<-|[<-|[<-|[<-|[]]]]]]; split; reflexivity. }
  destruct Hs as [Hs Hn]. rewrite Hn, Hs, Hi. reflexivity.
Qed.

Lemma add_data comp level ps : codec_ok cd -> real_comp comp -> 0 <= level <= 9 ->
  add_block_data L comp level ps = Ok (enc_run cd comp level [] (filter nonempty ps)).
Proof.
  intros Hk Hc Hl. unfold add_block_data. fold cd. rewrite init_ok by auto. cbn [bind].
  destruct (stream_write cd false comp level ps _ (init_ok false comp level Hk (or_intror Hc) Hl)) as (s1 & o1 & s2 & o2 & E1 & E2 & _).
  rewrite (write_pieces_all L ps _ _ _ E1). cbn [bind]. rewrite E2. cbn [bind]. unfold stream_out.
  replace (comp =? COMP_NONE) with false; [reflexivity|].
  unfold real_comp in Hc. cbn [In] in Hc. destruct Hc as [<-|[<-|[<-|[<-|[<-|[]]]]]]; reflexivity.
Qed.

Lemma bytes_filter ps : bytes (concat ps) -> Forall bytes (filter nonempty ps).
Proof.
  induction ps as [|p ps IH]; cbn [concat filter]; [constructor|]. intros H. apply Forall_app in H as [H1 H2].
  destruct (nonempty p); auto.
Qed.

(** Everything that is needed of the diff, with the add block as it is in the delta and as it is read. *)
Lemma diff_made o old new : codec_ok cd -> bytes new -> 0 < zlen old < 2 ^ 31 -> 16 <= zlen new < 2 ^ 31 -> options_ok L o (zlen new) ->
  few_copies old new (o_addblk o) ->
  exists r data add, diff_and_add L o old new = Ok (r, add) /\
    zlen (dr_int r) < 2 ^ 29 /\ Forall (fun p => is_u32 (fst p) /\ is_u32 (snd p)) (dr_int r) /\ zsum (map snd (dr_int r)) = dr_int_len r /\
    0 <= dr_int_len r < 2 ^ 62 /\
    zlen (dr_ext r) < 2 ^ 29 /\ Forall (fun p => is_u32 (fst p) /\ is_u32 (snd p)) (dr_ext r) /\ Forall (fun p => fst p <> 2 ^ 31) (dr_ext r) /\
    Forall (in_data (zlen old)) (extents 0 (dr_ext r)) /\
    bytes add /\ zlen add < 2 ^ 32 /\
    Forall2 (fun o p => 0 <= o /\ o + snd p <= zlen new) (dr_int_off r) (dr_int r) /\
    concat (map (fun q => slice new (fst q) (snd (snd q))) (combine (dr_int_off r) (dr_int r))) = data /\
    (exists ds, patch old ds (dr_int r) (extents 0 (dr_ext r)) data = Some new /\
       forall d, d_add d = add -> exists a, open_add d = Ok a /\ add_inv cd a ds).
Proof.
  intros Hk Hb Ho Hn [Hv Hc Ha] Hfew.
  destruct (make_diff_fits old new (o_addblk o) Hb ltac:(lia) ltac:(lia) ltac:(lia)) as
    (r & data & Er & D1 & D2 & D3 & D4 & D5 & D6 & D7 & D8 & D9 & D10).
  destruct (Hfew r Er) as [Few1 Few2]. unfold patch_delta in D4. destruct (patch_uses _ _ _ _ _ _ D4) as (P1 & P2 & P3).
  destruct (int_data_wf _ _ _ _ D1 D3) as [W1 W2].
  set (add := if o_addblk o then enc_run cd (o_acomp o) (o_alevel o) [] (filter nonempty (dr_add r)) else []).
  exists r, data, add.
  assert (Hint : zlen data <= 2 ^ 31) by (pose proof (patch_data_len _ _ _ _ _ _ D4); lia).
  split.
  { unfold diff_and_add. fold cd. destruct (o_addblk o) eqn:Eb.
    - destruct (Ha eq_refl) as (A1 & A2 & A3). rewrite init_ok by auto. cbn [bind]. rewrite Er. cbn [bind]. rewrite add_data by auto. reflexivity.
    - cbn [bind]. rewrite Er. reflexivity. }
  assert (Hadd : bytes add /\ zlen add < 2 ^ 32).
  { unfold add. destruct (o_addblk o) eqn:Eb; [|split; [constructor|reflexivity]]. destruct (Ha eq_refl) as (A1 & A2 & A3).
    pose proof (bytes_filter _ D10) as Hbf. split; [apply (ok_bytes _ Hk); auto|]. apply A3; auto. rewrite concat_filter_nonempty. lia. }
  split; [lia|]. split; [eapply Forall_impl; [|exact D9]; unfold is_u32; cbn; tauto|]. split; [rewrite P2, D2; reflexivity|].
  split; [pose proof (zlen_nonneg data); lia|]. split; [lia|].
  split; [eapply Forall_impl; [|exact D5]; unfold is_u32, ext_wf; cbv beta; intros; lia|].
  split; [eapply Forall_impl; [|exact D5]; unfold ext_wf; cbv beta; intros; lia|].
  split.
  { assert (HH : forall off, Forall (fun e => 0 < snd e < 2 ^ 31) (extents off (dr_ext r))).
    { clear - D5 D6. revert D5 D6. generalize (dr_ext r) as l. induction l as [|[d l] es IH]; intros H1 H2 off; cbn [extents]; constructor.
      - apply Forall_inv in H1. apply Forall_inv in H2. unfold ext_wf in H1. cbn [fst snd] in *. lia.
      - apply IH; eapply Forall_inv_tail; eauto. }
    specialize (HH 0). rewrite Forall_forall in *. intros e He. specialize (HH e He). specialize (P1 e He). unfold in_data. lia. }
  split; [tauto|]. split; [tauto|]. split; [auto|]. split; [auto|].
  exists (if o_addblk o then Some (concat (dr_add r)) else None). split; [auto|].
  intros d Hd. unfold open_add. rewrite Hd. unfold add. destruct (o_addblk o) eqn:Eb.
  - destruct (Ha eq_refl) as (A1 & A2 & A3). destruct (ok_magic _ Hk (o_acomp o) (o_alevel o) (filter nonempty (dr_add r)) A1 A2) as [M1 _].
    replace (0 <? _) with true by lia.
    destruct (detect_codec cd (o_acomp o) (o_alevel o) (filter nonempty (dr_add r)) false Hk A1 A2 (bytes_filter _ D10)) as (s & Es & Ec).
    rewrite Es. cbn [bind]. exists (Some s). split; [reflexivity|]. cbn [add_inv].
    destruct (init_view cd _ _ _ Es) as [Hvw Hp]. rewrite Ec in Hvw.
    exists (o_acomp o), (enc_run cd (o_acomp o) (o_alevel o) [] (filter nonempty (dr_add r))), (concat (filter nonempty (dr_add r))).
    split; [apply (ok_decodes _ Hk); auto|]. split; [auto|]. rewrite concat_filter_nonempty. split; [lia|]. rewrite Hp.
    split; [reflexivity|apply zlen_nonneg].
  - exists None. split; reflexivity.
Qed.
End Add.
