(** * FormatFinal: whole delta files *)
From Verif Require Import Base BaseLemmas Utils UtilsProofs DeltaComp SpecCodec SpecDelta SpecStream SpecFormat
  CodecFinal Stream StreamProofs DetectProofs StreamFinal Rpm Delta DeltaWrite DeltaRead ReadSim FormatProofs.

Lemma Ok_inj {A} (a b : A) : Ok a = Ok b -> a = b.
Proof. congruence. Qed.

Lemma write_pieces_all L ps : forall s s1 o, write_all (lb_codec L) s ps = Ok (s1, o) ->
  write_pieces L s ps = Ok s1.
Proof.
  induction ps as [|p r IH]; intros s s1 o H; cbn [write_all write_pieces] in *.
  - injection H as <- _. reflexivity.
  - apply bind_ok in H as ([s2 o2] & E & H). rewrite E. cbn [bind].
    apply bind_ok in H as ([s3 o3] & E3 & H). injection H as <- _. eauto.
Qed.

Lemma bytes_concat ps : bytes (concat ps) -> Forall bytes ps.
Proof.
  induction ps as [|p r IH]; cbn [concat]; intros H; [constructor|].
  apply bytes_app in H as [H1 H2]. constructor; auto.
Qed.

Lemma parse_be32_app l r : zlen l = 4 -> parse_be32_at (l ++ r) 0 = parse_be32_at l 0.
Proof.
  destruct l as [|a [|b [|c [|e [|? ?]]]]]; unfold zlen; cbn [length]; try lia. intros _. reflexivity.
Qed.

(** Anything that starts with "DLT" or is a codec's output is recognised, cut or not. *)
Lemma init_exact b : bytes b ->
  decompstrm_init true b = Err EFormat \/
  exists s, decompstrm_init true b = Ok s /\ ds_comp s = sniff b.
Proof.
  intros Hb. destruct (detect_exact_final true b Hb) as [H1 H2].
  destruct (Z_lt_le_dec (zlen b) 8); [left; auto|right; auto].
Qed.

(** A plain source that is cut. *)
Lemma cut_list type comp tc head add b1 b2 dd :
  readdelta_rest (list Z) rdl type comp tc head add (b1 ++ b2) = Ok ([], dd) -> b2 <> [] ->
  exists e, readdelta_rest (list Z) rdl type comp tc head add b1 = Err e.
Proof.
  intros H Hne.
  pose proof (rest_sim (list Z) (list Z) rdl rdl (fun l l' => l' = l ++ b2) True) as X.
  specialize (X ltac:(intros l l' n -> Hn; unfold rdl; rewrite zlen_app; pose proof (zlen_nonneg b2);
    destruct (n <=? zlen l) eqn:E; [|left; exact I]; replace (n <=? zlen l + zlen b2) with true by lia;
    eexists; split; [rewrite slice_app_l by lia; reflexivity|];
    unfold from; rewrite skipn_app; replace (Z.to_nat n - length l)%nat with O by (unfold zlen in E; lia); reflexivity)
    type comp tc head add b1 (b1 ++ b2) eq_refl).
  rewrite H in X. unfold rsim in X.
  destruct (readdelta_rest (list Z) rdl type comp tc head add b1) as [[l' d']|e|u|]; try discriminate; eauto.
  destruct X as (l2 & X & ->). injection X as X _. destruct l'; [cbn in X; congruence|discriminate].
Qed.

Section File.
Variable L : libs.
Variable d : deltarpm.
Hypothesis W : wf_delta L d.
Hypothesis Hcd : codec_ok (lb_codec L).

Lemma payload_bytes c : bytes (payload d c).
Proof.
  unfold payload, w_version, w_nevr, w_seq, w_target, w_hlen, w_off, w_leadsig, w_int, w_ext, w_len, w_add.
  destruct (wf_src L d W) as [Hs _]. destruct (wf_seq L d W) as [Hq _]. destruct (wf_md5 L d W) as [Hm _].
  destruct (wf_leadsig L d W) as [Hl _]. destruct (wf_add L d W) as [Ha _].
  pose proof (wf_version L d W) as Hv.
  assert (Hi : bytes (idata_bytes d)).
  { pose proof (wf_idata L d W) as Hw. unfold idata_bytes. destruct (d_idata d) as [b|new offs]; [tauto|].
    destruct Hw as (Hn & _). generalize (combine offs (d_int d)). intros l. induction l; cbn; [constructor|].
    apply bytes_app. split; auto. apply bytes_slice; auto. }
  rewrite !bytes_app.
  split; [repeat constructor; unfold byte; lia|].
  split; [split; [apply create_be32_bytes|split; [apply c_string_bytes; auto|repeat constructor; unfold byte; lia]]|].
  split; [split; [apply create_be32_bytes|auto]|].
  split.
  { destruct (2 <=? d_version d) eqn:E; [|constructor]. destruct (wf_target L d W ltac:(lia)) as (_ & _ & _ & Hp & _).
    rewrite !bytes_app. repeat split; auto; apply create_be32_bytes. }
  split; [destruct (_ =? _); [rewrite bytes_app; split; apply create_be32_bytes|constructor]|].
  split; [destruct (_ =? _); [rewrite bytes_app; split; apply bytes_be_list|constructor]|].
  split; [repeat split; auto; apply create_be32_bytes|].
  split; [split; apply bytes_be_list|]. split; [split; apply bytes_be_list|].
  split; [destruct (_ =? _); [apply create_be64_bytes|apply create_be32_bytes]|].
  split; [destruct (_ =? _); [apply bytes_app; split; [apply create_be32_bytes|auto]|apply create_be32_bytes]|].
  split; [destruct (_ =? _); [apply create_be64_bytes|apply create_be32_bytes]|auto].
Qed.

Lemma payload_len c : 100 < zlen (payload d c) < 2 ^ 63.
Proof.
  unfold payload, w_version, w_nevr, w_seq, w_target, w_hlen, w_off, w_leadsig, w_int, w_ext, w_len, w_add.
  destruct (wf_src L d W) as [_ Hs]. destruct (wf_seq L d W) as [_ Hq]. destruct (wf_md5 L d W) as [_ Hm].
  destruct (wf_leadsig L d W) as [_ Hl]. destruct (wf_add L d W) as [_ Ha].
  destruct (wf_int L d W) as [(_ & Hi & _) _]. destruct (wf_ext L d W) as [(_ & He & _) _].
  pose proof (idata_len L d W) as Hd. pose proof (wf_intlen L d W) as Hn.
  repeat rewrite zlen_app, ?zlen_create_be32, ?zlen_be_list.
  set (t := zlen (if 2 <=? d_version d then _ else _)). set (h := zlen (if d_version d =? 3 then _ ++ _ else _)).
  set (o := zlen (if d_version d =? 3 then be_list _ _ ++ _ else _)).
  set (x := zlen (if d_version d =? 3 then create_be64 (d_extlen d) else _)).
  set (y := zlen (if d_version d =? 3 then create_be64 (d_intlen d) else _)).
  set (a := zlen (if d_type d =? TYPE_STANDARD then _ else create_be32 0)).
  assert (0 <= t < 2 ^ 34).
  { unfold t. destruct (2 <=? d_version d) eqn:E; [|change (@zlen Z []) with 0; lia].
    destruct (wf_target L d W ltac:(lia)) as (_ & _ & _ & _ & Hp).
    rewrite !zlen_app, !zlen_create_be32. pose proof (zlen_nonneg (d_param d)). lia. }
  assert (0 <= h <= 8).
  { unfold h. destruct (_ =? _); [rewrite zlen_app, !zlen_create_be32|change (@zlen Z []) with 0]; lia. }
  assert (0 <= o < 2 ^ 34).
  { unfold o. destruct (d_version d =? 3) eqn:E; [|change (@zlen Z []) with 0; lia].
    destruct (wf_off L d W ltac:(lia)) as (_ & (_ & Hp & _) & _).
    rewrite zlen_app, !zlen_be_list. pose proof (zlen_nonneg (d_off d)). lia. }
  assert (0 <= x <= 8). { unfold x. destruct (_ =? _); rewrite ?zlen_create_be32, ?zlen_create_be64; lia. }
  assert (0 <= y <= 8). { unfold y. destruct (_ =? _); rewrite ?zlen_create_be32, ?zlen_create_be64; lia. }
  assert (0 <= a < 2 ^ 34).
  { unfold a. pose proof (zlen_nonneg (d_add d)).
    destruct (d_type d =? TYPE_STANDARD); rewrite ?zlen_app, ?zlen_create_be32; lia. }
  clearbody t h o x y a. change (zlen [68; 76; 84; 48 + d_version d]) with 4.
  pose proof (zlen_nonneg (d_src_nevr d)). pose proof (zlen_nonneg (d_int d)). pose proof (zlen_nonneg (d_ext d)).
  change (zlen [0]) with 1.
  assert (zlen (idata_bytes d) < 2 ^ 62) by (destruct (d_version d =? 3); lia).
  pose proof (zlen_nonneg (idata_bytes d)). clear Hn. lia.
Qed.

(** The compressed payload. *)
Lemma written_stream : exists c ps strm s0 s1 s2 out,
  (2 <= d_version d -> is_u32 c /\ decode_comp c = Some (d_tcomp d, d_tlevel d)) /\
  delta_pieces d = Ok ps /\ concat ps = payload d c /\
  compstrm_init (lb_codec L) false (d_comp d) (d_level d) = Ok s0 /\
  write_pieces L s0 ps = Ok s1 /\ compstrm_finish (lb_codec L) s1 = Ok (s2, out, strm) /\
  decodes (lb_codec L) (d_comp d) strm (payload d c) /\ bytes strm /\ 8 <= zlen strm /\ sniff strm = d_comp d.
Proof.
  destruct (pieces_concat L d W) as (c & ps & Hc & Hp & Cp).
  pose proof (payload_bytes c) as Hb. pose proof (payload_len c) as Hl.
  pose proof (wf_level L d W) as Hlev.
  assert (Hi : exists s0, compstrm_init (lb_codec L) false (d_comp d) (d_level d) = Ok s0).
  { unfold compstrm_init. destruct (negb (d_level d =? 0) && ((d_level d <? 1) || (99 <? d_level d))) eqn:El; [lia|].
    destruct (wf_comp L d W) as [->|Hr]; [cbn; eauto|].
    rewrite (ok_init _ Hcd) by auto. unfold real_comp in Hr. cbn [In] in Hr.
    destruct Hr as [<-|[<-|[<-|[<-|[<-|[]]]]]]; cbn; eauto. }
  destruct Hi as [s0 Hi].
  destruct (stream_write (lb_codec L) false (d_comp d) (d_level d) ps s0 Hi) as (s1 & o1 & s2 & o2 & E1 & E2 & _).
  exists c, ps, (stream_out (lb_codec L) (d_comp d) (d_level d) (filter nonempty ps)), s0, s1, s2, o2.
  split; [auto|]. split; [auto|]. split; [auto|]. split; [auto|]. split; [eapply write_pieces_all; eauto|].
  split; [auto|].
  assert (Hfb : Forall bytes (filter nonempty ps)) by (apply bytes_concat; rewrite concat_filter_nonempty, Cp; auto).
  unfold stream_out. destruct (wf_comp L d W) as [Hz|Hr].
  - rewrite Hz. cbn [Z.eqb COMP_NONE]. rewrite concat_filter_nonempty, Cp. split; [reflexivity|].
    split; [auto|]. split; [lia|]. apply sniff_dlt.
  - replace (d_comp d =? COMP_NONE) with false.
    2:{ unfold real_comp in Hr; cbn [In] in Hr; destruct Hr as [<-|[<-|[<-|[<-|[<-|[]]]]]]; reflexivity. }
    split; [rewrite <- Cp, <- concat_filter_nonempty; apply ok_decodes; auto|].
    split; [apply ok_bytes; auto|]. destruct (ok_magic _ Hcd (d_comp d) (d_level d) (filter nonempty ps) Hr Hlev) as [H8 [r Er]].
    split; [auto|]. rewrite Er. apply sniff_magic. auto.
Qed.

(** Reading the payload, whole or cut. *)
Lemma read_whole c strm tc head add :
  (2 <= d_version d -> is_u32 c /\ decode_comp c = Some (d_tcomp d, d_tlevel d)) ->
  decodes (lb_codec L) (d_comp d) strm (payload d c) -> bytes strm -> 8 <= zlen strm -> sniff strm = d_comp d ->
  read_payload L (d_type d) tc head add strm = Ok (rb_rec d (d_comp d) tc head add).
Proof.
  intros Hc Hd Hb H8 Hs. unfold read_payload. destruct (detect_exact true strm Hb H8) as (s & E & Ec & _).
  rewrite E. cbn [bind]. rewrite Hs in Ec. destruct (init_view (lb_codec L) _ _ _ E) as [V P]. rewrite Ec in V |- *.
  pose proof (payload_sim (lb_codec L) (d_comp d) strm (payload d c) [] Hd (proj2 (payload_len c))
                (d_type d) (d_comp d) tc head add s (payload d c)) as X.
  pose proof (parse_payload L d W c (d_comp d) tc head add [] Hc) as Y. rewrite app_nil_r in Y.
  rewrite Y in X. unfold rsim in X.
  destruct (readdelta_rest dstrm _ _ _ _ _ _ _) as [[s' d']|e|u|].
  - destruct X as (l' & X & _); [|injection X as _ <-; reflexivity]. split; [exact V|rewrite P; reflexivity].
  - destruct X as [X|[e' X]]; [split; [exact V|rewrite P; reflexivity]|congruence|discriminate].
  - discriminate X. split; [exact V|rewrite P; reflexivity].
  - discriminate X. split; [exact V|rewrite P; reflexivity].
Qed.

Lemma read_cut c b1 b2 tc head add :
  (2 <= d_version d -> is_u32 c /\ decode_comp c = Some (d_tcomp d, d_tlevel d)) ->
  decodes (lb_codec L) (d_comp d) (b1 ++ b2) (payload d c) -> bytes (b1 ++ b2) -> sniff (b1 ++ b2) = d_comp d ->
  b2 <> [] ->
  (exists e, read_payload L (d_type d) tc head add b1 = Err e) \/
  d_comp d <> 0 /\ read_payload L (d_type d) tc head add b1 = Ok (rb_rec d (d_comp d) tc head add).
Proof.
  intros Hc Hd Hb Hs Hne. unfold read_payload.
  assert (Hb1 : bytes b1) by (apply bytes_app in Hb; tauto).
  destruct (Z_lt_le_dec (zlen b1) 8) as [H8|H8].
  { left. destruct (detect_exact_final true b1 Hb1) as [X _]. rewrite (X H8). cbn. eauto. }
  destruct (detect_exact true b1 Hb1 H8) as (s & E & Ec & _). rewrite E. cbn [bind].
  assert (Hsb : sniff b1 = sniff (b1 ++ b2)).
  { rewrite <- !detect_sniff by (auto; rewrite ?zlen_app; pose proof (zlen_nonneg b2); lia).
    rewrite slice_app_l by lia. reflexivity. }
  rewrite <- Hsb in Hs. rewrite Hs in Ec.
  destruct (init_view_cut (lb_codec L) _ _ b2 _ E) as [V P]. rewrite Ec in V |- *.
  pose proof (parse_payload L d W c (d_comp d) tc head add [] Hc) as Y. rewrite app_nil_r in Y.
  destruct (Z.eq_dec (d_comp d) 0) as [Hz|Hz].
  - left. assert (Hd1 : decodes (lb_codec L) (d_comp d) b1 b1) by (unfold decodes; rewrite Hz; reflexivity).
    assert (Ep : b1 ++ b2 = payload d c) by (unfold decodes in Hd; rewrite Hz in Hd; exact Hd).
    destruct (init_view (lb_codec L) _ _ _ E) as [V1 _]. rewrite Ec in V1.
    assert (Hl1 : zlen b1 < zlen (payload d c)).
    { rewrite <- Ep, zlen_app. pose proof (zlen_nonneg b2). destruct (Z.eq_dec (zlen b2) 0) as [E0|]; [|lia].
      apply zlen_zero_nil in E0. congruence. }
    pose proof (payload_len c) as Hpl.
    pose proof (payload_sim (lb_codec L) (d_comp d) b1 b1 [] Hd1 ltac:(lia)
                (d_type d) (d_comp d) tc head add s b1) as X.
    assert (Z : exists e, readdelta_rest (list Z) rdl (d_type d) (d_comp d) tc head add b1 = Err e).
    { rewrite <- Ep in Y. eapply cut_list; eauto. }
    destruct Z as [e Z]. rewrite Z in X. unfold rsim in X.
    destruct (readdelta_rest dstrm _ _ _ _ _ _ _) as [[s' d']|e'|u|].
    + destruct X as (l' & X & _); [|discriminate]. split; [exact V1|rewrite P; reflexivity].
    + cbn. eauto.
    + discriminate X. split; [exact V1|rewrite P; reflexivity].
    + discriminate X. split; [exact V1|rewrite P; reflexivity].
  - pose proof (payload_sim (lb_codec L) (d_comp d) (b1 ++ b2) (payload d c) b2 Hd (proj2 (payload_len c))
                (d_type d) (d_comp d) tc head add s (payload d c)) as X.
    rewrite Y in X. unfold rsim in X.
    destruct (readdelta_rest dstrm _ _ _ _ _ _ _) as [[s' d']|e|u|].
    + right. split; [auto|]. destruct X as (l' & X & _); [|injection X as _ <-; reflexivity].
      split; [exact V|rewrite P; reflexivity].
    + left. cbn. eauto.
    + discriminate X. split; [exact V|rewrite P; reflexivity].
    + discriminate X. split; [exact V|rewrite P; reflexivity].
Qed.

(** ** Rpm-only files *)
Definition only_head (nevr : list Z) : list Z :=
  [100; 114; 112; 109] ++ [68; 76; 84; 51] ++ create_be32 (zlen nevr + 1) ++ nevr ++ [0]
  ++ create_be32 (zlen (d_add d)) ++ d_add d.

End File.

Lemma read_be32_app x r : is_u32 x -> read_be32 (create_be32 x ++ r) = Ok (x, r).
Proof.
  intros H. unfold read_be32. rewrite zlen_app, zlen_create_be32. pose proof (zlen_nonneg r).
  replace (4 + zlen r <? 4) with false by lia. rewrite parse_be32_app by apply zlen_create_be32.
  rewrite parse_create_be32 by auto. cbn [bind]. rewrite from_app_exact by (rewrite zlen_create_be32; auto). reflexivity.
Qed.

Lemma read_buf_app p r cap : zlen p <= cap -> read_buf (p ++ r) (zlen p) cap = Ok (p, r).
Proof.
  intros H. unfold read_buf. rewrite zlen_app. pose proof (zlen_nonneg r). pose proof (zlen_nonneg p).
  rewrite Z.min_l by lia. replace (cap <? zlen p) with false by lia. rewrite Z.ltb_irrefl.
  rewrite slice_app_exact_l, from_app_exact by auto. reflexivity.
Qed.

Lemma rpmonly_app nevr add r : c_string nevr -> zlen nevr < 2 ^ 32 - 2 -> zlen add < 2 ^ 32 ->
  readdelta_rpmonly ([68; 76; 84; 51] ++ create_be32 (zlen nevr + 1) ++ nevr ++ [0]
                     ++ create_be32 (zlen add) ++ add ++ r) = Ok (nevr, add, r).
Proof.
  intros Hn Hl Ha. unfold readdelta_rpmonly. change [68; 76; 84; 51] with (create_be32 1145852979).
  rewrite read_be32_app by (unfold is_u32; lia). cbn [bind]. rewrite Z.eqb_refl. cbn [negb].
  pose proof (zlen_nonneg nevr). pose proof (zlen_nonneg add).
  rewrite read_be32_app by (unfold is_u32; lia). cbn [bind]. rewrite u32_small by lia.
  rewrite (app_assoc nevr).
  replace (zlen nevr + 1) with (zlen (nevr ++ [0])) at 1 by (rewrite zlen_app; reflexivity).
  rewrite read_buf_app by (rewrite zlen_app; change (zlen [0]) with 1; lia). cbn [bind].
  rewrite Z.ltb_irrefl. rewrite read_be32_app by (unfold is_u32; lia). cbn [bind].
  rewrite read_buf_app by lia. cbn [bind]. rewrite cstr_app by auto. reflexivity.
Qed.

(** More input does not change what was read. *)
Definition emono {A} (r1 r2 : res A) (f : A -> A) : Prop :=
  match r1 with Ok a => r2 = Ok (f a) | Err _ => True | Ub u => r2 = Ub u | NoFuel => r2 = NoFuel end.

Lemma from_app {A} (l r : list A) n : n <= zlen l -> from (l ++ r) n = from l n ++ r.
Proof.
  intros H. unfold from. rewrite skipn_app. f_equal.
  replace (Z.to_nat n - length l)%nat with O by (unfold zlen in H; lia). reflexivity.
Qed.

Lemma read_be32_mono l r : emono (read_be32 l) (read_be32 (l ++ r)) (fun p => (fst p, snd p ++ r)).
Proof.
  unfold read_be32, emono. rewrite zlen_app. pose proof (zlen_nonneg r).
  destruct (zlen l <? 4) eqn:E; [exact I|]. replace (zlen l + zlen r <? 4) with false by lia.
  rewrite (from_app l r 4) by lia.
  assert (X : parse_be32_at (l ++ r) 0 = parse_be32_at l 0).
  { destruct l as [|a [|b [|c [|e l]]]]; unfold zlen in E; cbn [length] in E; try lia. reflexivity. }
  rewrite X. destruct (parse_be32_at l 0); cbn; auto.
Qed.

Lemma read_buf_mono l r n cap : 0 <= n ->
  emono (read_buf l n cap) (read_buf (l ++ r) n cap) (fun p => (fst p, snd p ++ r)).
Proof.
  intros Hn. unfold read_buf, emono. rewrite zlen_app. pose proof (zlen_nonneg r). pose proof (zlen_nonneg l).
  destruct (cap <? Z.min n (zlen l)) eqn:E.
  - replace (cap <? Z.min n (zlen l + zlen r)) with true by lia. reflexivity.
  - destruct (Z.min n (zlen l) <? n) eqn:E2; [exact I|].
    replace (cap <? Z.min n (zlen l + zlen r)) with false by lia.
    replace (Z.min n (zlen l + zlen r) <? n) with false by lia. cbn [fst snd].
    rewrite slice_app_l, from_app by lia. reflexivity.
Qed.

Lemma rpmonly_mono l r :
  emono (readdelta_rpmonly l) (readdelta_rpmonly (l ++ r)) (fun p => (fst p, snd p ++ r)).
Proof.
  unfold readdelta_rpmonly.
  pose proof (read_be32_mono l r) as H. destruct (read_be32 l) as [[v f]| | |]; cbn [emono bind fst snd] in *; auto; rewrite H; auto.
  cbn [bind]. destruct (negb (v =? 1145852979)); [exact I|].
  clear H. pose proof (read_be32_mono f r) as H. destruct (read_be32 f) as [[len f2]| | |] eqn:El; cbn [emono bind fst snd] in *; auto; rewrite H; auto.
  cbn [bind].
  assert (0 <= len < 2 ^ 32).
  { unfold read_be32 in El. destruct (_ <? _); [discriminate|]. apply bind_ok in El as (w & E1 & E2).
    injection E2 as -> _. eapply be32_range; eauto. }
  clear H. pose proof (read_buf_mono f2 r len (u32 (len + 1)) ltac:(lia)) as H.
  destruct (read_buf f2 len _) as [[nv f3]| | |]; cbn [emono bind fst snd] in *; auto; rewrite H; auto.
  cbn [bind]. destruct (u32 (len + 1) <? len + 1); [reflexivity|].
  clear H. pose proof (read_be32_mono f3 r) as H. destruct (read_be32 f3) as [[al f4]| | |] eqn:Ea; cbn [emono bind fst snd] in *; auto; rewrite H; auto.
  cbn [bind].
  assert (0 <= al < 2 ^ 32).
  { unfold read_be32 in Ea. destruct (_ <? _); [discriminate|]. apply bind_ok in Ea as (w & E1 & E2).
    injection E2 as -> _. eapply be32_range; eauto. }
  clear H. pose proof (read_buf_mono f4 r al al ltac:(lia)) as H.
  destruct (read_buf f4 al _) as [[a f5]| | |]; cbn [emono bind fst snd] in *; auto; rewrite H; auto.
Qed.

Section File2.
Variable L : libs.
Variable d : deltarpm.
Hypothesis W : wf_delta L d.
Hypothesis Hcd : codec_ok (lb_codec L).

Lemma file_only nevr : d_head d = HNevr nevr -> exists c strm,
  (2 <= d_version d -> is_u32 c /\ decode_comp c = Some (d_tcomp d, d_tlevel d)) /\
  write_deltarpm L d = Ok (only_head d nevr ++ strm) /\
  decodes (lb_codec L) (d_comp d) strm (payload d c) /\ bytes strm /\ 8 <= zlen strm /\ sniff strm = d_comp d.
Proof.
  intros Hh. destruct (written_stream L d W Hcd) as (c & ps & strm & s0 & s1 & s2 & o & Hc & E1 & E2 & E3 & E4 & E5 & E6).
  exists c, strm. split; [auto|]. split; [|auto].
  pose proof (wf_head L d W) as Hw. rewrite Hh in Hw. destruct Hw as (Ht & Hv & _ & _ & Hs & Hl).
  unfold write_deltarpm. rewrite Ht. cbn [Z.eqb TYPE_STANDARD TYPE_RPMONLY negb andb Pos.eqb].
  rewrite E3. cbn [bind]. rewrite E1. cbn [bind]. rewrite E4. cbn [bind]. rewrite E5. cbn [bind].
  rewrite Hh. destruct (wf_add L d W) as [_ Ha]. pose proof (zlen_nonneg nevr). pose proof (zlen_nonneg (d_add d)).
  rewrite !u32_small by lia. unfold version_str, only_head. rewrite Hv. change (u8 (48 + 3)) with 51.
  rewrite <- !app_assoc. reflexivity.
Qed.

Lemma read_only nevr r : d_head d = HNevr nevr ->
  read_deltarpm L (only_head d nevr ++ r) = read_payload L TYPE_RPMONLY 0 (HNevr nevr) (d_add d) r.
Proof.
  intros Hh. pose proof (wf_head L d W) as Hw. rewrite Hh in Hw. destruct Hw as (Ht & Hv & _ & _ & Hs & Hl).
  destruct (wf_add L d W) as [_ Ha].
  unfold read_deltarpm, only_head. change [100; 114; 112; 109] with (create_be32 1685221485).
  rewrite <- !app_assoc. rewrite read_be32_app by (unfold is_u32; lia). cbn [bind]. rewrite Z.eqb_refl.
  rewrite rpmonly_app by auto. reflexivity.
Qed.

Lemma read_only_short nevr h1 h2 : d_head d = HNevr nevr -> only_head d nevr = h1 ++ h2 -> h2 <> [] ->
  exists e, read_deltarpm L h1 = Err e.
Proof.
  intros Hh He Hne. pose proof (wf_head L d W) as Hw. rewrite Hh in Hw. destruct Hw as (Ht & Hv & _ & _ & Hs & Hl).
  destruct (wf_add L d W) as [_ Ha]. unfold read_deltarpm.
  assert (E0 : read_be32 (h1 ++ h2) = Ok (1685221485, [68; 76; 84; 51] ++ create_be32 (zlen nevr + 1) ++ nevr ++ [0]
                     ++ create_be32 (zlen (d_add d)) ++ d_add d)).
  { rewrite <- He. unfold only_head. change [100; 114; 112; 109] with (create_be32 1685221485).
    apply read_be32_app. unfold is_u32. lia. }
  pose proof (rpmonly_app nevr (d_add d) [] Hs Hl Ha) as X. rewrite app_nil_r in X.
  match type of X with readdelta_rpmonly ?t = _ => generalize dependent t end. intros tail E0 X.
  pose proof (read_be32_mono h1 h2) as H. destruct (read_be32 h1) as [[v f]|e|u|] eqn:E1; cbn [emono bind fst snd] in *;
    [|eauto|congruence|congruence].
  rewrite E0 in H. injection H as <- Hf. rewrite Z.eqb_refl.
  pose proof (rpmonly_mono f h2) as H. rewrite <- Hf in H.
  rewrite X in H. destruct (readdelta_rpmonly f) as [[[n a] f2]|e|u|]; cbn [emono bind fst snd] in *;
    [|eauto|congruence|congruence].
  injection H as _ _ H. destruct f2; [cbn in H; congruence|discriminate].
Qed.

(** ** Standard files *)
Definition std_head (r : rpm) : list Z := rp_lead r ++ rpm_export_signature r ++ rpm_export_header r.

Lemma zlen_zeros n : 0 <= n -> zlen (zeros n) = n.
Proof. intros. unfold zeros. rewrite zlen_repeat. lia. Qed.
Lemma padding_range o a : 0 < a -> 0 <= padding o a < a.
Proof. intros. unfold padding. apply Z.mod_pos_bound. auto. Qed.
Lemma padding_8 n : padding (96 + n) 8 = padding n 8.
Proof. unfold padding. do 2 f_equal. rewrite <- (Z.add_mod_idemp_l 96 n 8) by lia. reflexivity. Qed.

Record std_rpm (r : rpm) : Prop := {
  sr_lead : zlen (rp_lead r) = 96;
  sr_magic : slice (rp_lead r) 0 4 = [237; 171; 238; 219];
  sr_sig : readable L (rp_sig r);
  sr_hdr : readable L (rp_hdr r);
  sr_size : zlen (rp_sig r) + zlen (rp_hdr r) < 2 ^ 32 - 200
}.

Lemma read_std r t : std_rpm r ->
  rpm_read L (std_head r ++ t) DontRead false =
    Ok (mkrpm (rp_lead r) (rp_sig r) (rp_hdr r) [] 0 0, COMP_NONE,
        lb_md5 L (rpm_export_header r ++ []),
        lb_md5 L (rp_lead r ++ rpm_export_signature r ++ rpm_export_header r ++ [])).
Proof.
  intros [H1 H2 H3 H4 H5]. unfold rpm_read, std_head. rewrite <- !app_assoc.
  rewrite slice_app_exact_l by (rewrite H1; reflexivity). rewrite H1, H2. cbn [Z.eqb Pos.eqb RPMLEAD_SIZE negb].
  change (list_eqb [237; 171; 238; 219] MAGIC_RPM_BYTES) with true. cbn [negb orb].
  rewrite from_app_exact by (rewrite H1; reflexivity).
  unfold rpm_export_signature at 1. rewrite <- !app_assoc, H3.
  unfold RPMLEAD_SIZE. rewrite padding_8.
  set (k := padding (8 + zlen (rp_sig r)) 8). assert (0 <= k < 8) by (apply padding_range; lia).
  replace (from (rp_lead r ++ rpm_export_signature r ++ rpm_export_header r ++ t) (96 + (8 + zlen (rp_sig r)) + k))
    with (rpm_export_header r ++ t).
  2:{ rewrite app_assoc. rewrite from_app_exact; auto. unfold rpm_export_signature. fold k.
      rewrite !zlen_app, zlen_zeros by lia. change (zlen HEADER_MAGIC) with 8. lia. }
  unfold rpm_export_header at 1. rewrite <- app_assoc, H4. reflexivity.
Qed.

Lemma zlen_std_head r : std_rpm r ->
  zlen (std_head r) = rpm_size_full (mkrpm (rp_lead r) (rp_sig r) (rp_hdr r) [] 0 0) /\ 4 <= zlen (std_head r).
Proof.
  intros [H1 H2 H3 H4 H5]. unfold std_head, rpm_size_full, rpm_export_signature, rpm_export_header.
  cbn [rp_sig rp_hdr rp_csize]. unfold RPMLEAD_SIZE.
  set (k := padding (8 + zlen (rp_sig r)) 8). assert (0 <= k < 8) by (apply padding_range; lia).
  rewrite !zlen_app, zlen_zeros by lia. change (zlen HEADER_MAGIC) with 8. rewrite H1.
  pose proof (zlen_nonneg (rp_sig r)). pose proof (zlen_nonneg (rp_hdr r)).
  rewrite u32_small by lia. lia.
Qed.

Lemma std_magic r t : std_rpm r -> exists q, read_be32 (std_head r ++ t) = Ok (3987467995, q).
Proof.
  intros [H1 H2 H3 H4 H5]. unfold std_head. rewrite <- app_assoc.
  generalize ((rpm_export_signature r ++ rpm_export_header r) ++ t). intros q.
  destruct (rp_lead r) as [|a [|b [|c [|e l]]]]; try (unfold zlen in H1; cbn [length] in H1; lia).
  change (slice (a :: b :: c :: e :: l) 0 4) with [a; b; c; e] in H2. injection H2 as -> -> -> ->.
  exists (l ++ q). change ((237 :: 171 :: 238 :: 219 :: l) ++ q) with (create_be32 3987467995 ++ l ++ q).
  apply read_be32_app. unfold is_u32. lia.
Qed.

Lemma read_std_delta r t tc : std_rpm r -> rpm_get_comp L r = Ok tc ->
  read_deltarpm L (std_head r ++ t) =
    read_payload L TYPE_STANDARD tc (HRpm (mkrpm (rp_lead r) (rp_sig r) (rp_hdr r) [] 0 0)) [] t.
Proof.
  intros Hr Hc. unfold read_deltarpm. destruct (std_magic r t Hr) as (q & E). rewrite E. cbn [bind].
  change (3987467995 =? 1685221485) with false. rewrite Z.eqb_refl. cbn iota.
  unfold readdelta_standard. rewrite read_std by auto. cbn [bind].
  change (rpm_get_comp L (mkrpm (rp_lead r) (rp_sig r) (rp_hdr r) [] 0 0)) with (rpm_get_comp L r). rewrite Hc. cbn [bind].
  destruct (zlen_std_head r Hr) as [<- _]. rewrite from_app_exact by auto. reflexivity.
Qed.

Lemma file_std r : d_head d = HRpm r -> exists c strm sig tc,
  let r' := mkrpm (rp_lead r) sig (rp_hdr r) (rp_archive r) (rp_off r) (rp_csize r) in
  (2 <= d_version d -> is_u32 c /\ decode_comp c = Some (d_tcomp d, d_tlevel d)) /\
  write_deltarpm L d = Ok (std_head r' ++ strm) /\ std_rpm r' /\
  rpm_get_comp L r = Ok tc /\
  decodes (lb_codec L) (d_comp d) strm (payload d c) /\ bytes strm /\ 8 <= zlen strm /\ sniff strm = d_comp d.
Proof.
  intros Hh. destruct (written_stream L d W Hcd) as (c & ps & strm & s0 & s1 & s2 & o & Hc & E1 & E2 & E3 & E4 & E5 & E6).
  pose proof (wf_head L d W) as Hw. rewrite Hh in Hw. destruct Hw as (Ht & Hl & Hm & Hr & [tc Hg] & Hs).
  exists c, strm, (lb_mksig L (u32 (zlen (rpm_fetch_header r) + zlen strm)) (lb_md5 L (rpm_fetch_header r ++ strm))), tc.
  cbn zeta. split; [auto|]. split.
  - unfold write_deltarpm. rewrite Ht. cbn [Z.eqb TYPE_STANDARD negb andb].
    rewrite E3. cbn [bind]. rewrite E1. cbn [bind]. rewrite E4. cbn [bind]. rewrite E5. cbn [bind].
    rewrite Hh. unfold rpm_write, rpm_signature_make, std_head. cbn [fst rp_lead]. rewrite <- !app_assoc. reflexivity.
  - split; [|auto]. destruct (Hs (u32 (zlen (rpm_fetch_header r) + zlen strm)) (lb_md5 L (rpm_fetch_header r ++ strm))).
    split; cbn [rp_lead rp_sig rp_hdr]; auto.
Qed.

Lemma read_std_short r h1 h2 : header_cut L -> std_rpm r -> std_head r = h1 ++ h2 -> h2 <> [] ->
  exists e, read_deltarpm L h1 = Err e.
Proof.
  intros Hcut Hr He Hne.
  assert (Hm : emono (read_be32 h1) (read_be32 (h1 ++ h2)) (fun p => (fst p, snd p ++ h2))) by apply read_be32_mono.
  destruct (std_magic r [] Hr) as (q & Eq). rewrite app_nil_r, He in Eq. rewrite Eq in Hm.
  unfold read_deltarpm. destruct (read_be32 h1) as [[v f]|e|u|]; cbn [emono] in Hm; [|cbn; eauto|discriminate|discriminate].
  cbn [fst snd] in Hm. injection Hm as <- _. cbn [bind].
  change (3987467995 =? 1685221485) with false. rewrite Z.eqb_refl. cbn iota.
  unfold readdelta_standard, rpm_read.
  destruct (negb (zlen (slice h1 0 RPMLEAD_SIZE) =? RPMLEAD_SIZE) || negb (list_eqb (slice (slice h1 0 RPMLEAD_SIZE) 0 4) MAGIC_RPM_BYTES)) eqn:Eb;
    [cbn; eauto|].
  destruct Hr as [H1 H2 H3 H4 H5].
  assert (Hlen : 96 <= zlen h1).
  { apply orb_false_elim in Eb as [Eb _]. unfold RPMLEAD_SIZE, slice, zlen in *. rewrite firstn_length in Eb.
    change (Z.to_nat 0) with O in Eb. rewrite skipn_O in Eb. lia. }
  clear Eb. pose proof (zlen_nonneg h2).
  assert (Hh2 : 0 < zlen h2) by (destruct (Z.eq_dec (zlen h2) 0) as [Z0|]; [apply zlen_zero_nil in Z0; congruence|lia]).
  assert (Hf : forall k, 0 <= k <= zlen h1 -> from h1 k = slice (from (h1 ++ h2) k) 0 (zlen h1 - k)).
  { intros k Hk. rewrite from_app by lia. rewrite slice_app_exact_l; auto. rewrite zlen_from by lia. reflexivity. }
  assert (Hfo : forall k, zlen h1 < k -> from h1 k = slice (HEADER_MAGIC ++ rp_hdr r) 0 0).
  { intros k Hk. unfold from, zlen in *. rewrite skipn_all2 by lia. reflexivity. }
  change RPMLEAD_SIZE with 96. rewrite Hf by lia. rewrite <- He. unfold std_head.
  rewrite from_app_exact by auto. unfold rpm_export_signature at 1. rewrite <- !app_assoc.
  rewrite (Hcut _ _ _ _ (H3 _)) by lia.
  set (k := padding (8 + zlen (rp_sig r)) 8). assert (0 <= k < 8) by (apply padding_range; lia).
  destruct (8 + zlen (rp_sig r) <=? zlen h1 - 96) eqn:E1; [|cbn; eauto].
  rewrite padding_8. fold k.
  assert (Ht : zlen h1 + zlen h2 = 96 + (8 + zlen (rp_sig r)) + k + 8 + zlen (rp_hdr r)).
  { rewrite <- zlen_app, <- He. unfold std_head, rpm_export_signature, rpm_export_header. fold k.
    rewrite !zlen_app, zlen_zeros by lia. change (zlen HEADER_MAGIC) with 8. lia. }
  pose proof (zlen_nonneg (rp_hdr r)). pose proof (zlen_nonneg (rp_sig r)).
  assert (Hx : exists j, 0 <= j < 8 + zlen (rp_hdr r) /\
     from h1 (96 + (8 + zlen (rp_sig r)) + k) = slice (HEADER_MAGIC ++ rp_hdr r ++ []) 0 j).
  { destruct (Z_le_gt_dec (96 + (8 + zlen (rp_sig r)) + k) (zlen h1)).
    - exists (zlen h1 - (96 + (8 + zlen (rp_sig r)) + k)). split; [lia|].
      rewrite Hf by lia. rewrite <- He. unfold std_head. rewrite app_assoc, from_app_exact.
      + unfold rpm_export_header. rewrite app_nil_r. reflexivity.
      + unfold rpm_export_signature. fold k. rewrite !zlen_app, zlen_zeros by lia. change (zlen HEADER_MAGIC) with 8. lia.
    - exists 0. split; [lia|]. rewrite app_nil_r. apply Hfo. lia. }
  destruct Hx as (j & Hj & ->). rewrite (Hcut _ _ _ _ (H4 [])) by lia.
  replace (8 + zlen (rp_hdr r) <=? j) with false by lia. cbn. eauto.
Qed.

(** ** Round trip *)
Lemma rb_rec_ok tc head add :
  match d_head d with
  | HNevr nevr => head = HNevr nevr
  | HRpm r => exists r', head = HRpm r' /\ rp_lead r' = rp_lead r /\ rp_hdr r' = rp_hdr r /\ rpm_get_comp L r = Ok tc
  end ->
  (d_type d = TYPE_RPMONLY -> add = d_add d) ->
  reads_back L d (rb_rec d (d_comp d) tc head add).
Proof.
  intros Hh Ha. unfold rb_rec. pose proof (type_cases L d W) as Ht. pose proof (wf_version L d W) as Hv.
  destruct (2 <=? d_version d) eqn:E2; destruct (d_version d =? 3) eqn:E3; try lia;
  split; cbn [d_type d_comp d_version d_src_nevr d_seq d_md5 d_size d_tcomp d_tlevel d_param d_hlen d_offn d_off
    d_leadsig d_fmtoff d_intn d_extn d_int d_ext d_extlen d_add d_intlen d_idata d_head]; auto;
    rewrite ?E2, ?E3; auto;
    try (destruct Ht as [->|(Ht & _)]; [reflexivity|rewrite Ht, Ha by auto; reflexivity]);
    destruct (d_head d) as [r|nevr]; auto;
    destruct Hh as (r' & -> & A & B & C); exists r'; repeat split; auto; intros; lia.
Qed.

Lemma roundtrip : exists file d', write_deltarpm L d = Ok file /\ read_deltarpm L file = Ok d' /\ reads_back L d d'.
Proof.
  destruct (d_head d) as [r|nevr] eqn:Hh.
  - destruct (file_std r Hh) as (c & strm & sig & tc & Hc & Ew & Hr & Hg & Hd & Hb & H8 & Hs).
    do 2 eexists. split; [exact Ew|]. rewrite (read_std_delta _ _ tc) by auto.
    assert (Ht : d_type d = TYPE_STANDARD) by (pose proof (wf_head L d W) as X; rewrite Hh in X; tauto).
    rewrite <- Ht. split; [apply (read_whole L d W c); auto|]. apply rb_rec_ok.
    + rewrite Hh. eexists. split; [reflexivity|]. auto.
    + rewrite Ht. discriminate.
  - destruct (file_only nevr Hh) as (c & strm & Hc & Ew & Hd & Hb & H8 & Hs).
    do 2 eexists. split; [exact Ew|]. rewrite read_only by auto.
    assert (Ht : d_type d = TYPE_RPMONLY) by (pose proof (wf_head L d W) as X; rewrite Hh in X; tauto).
    rewrite <- Ht. split; [apply (read_whole L d W c); auto|]. apply rb_rec_ok; auto. rewrite Hh. auto.
Qed.

Lemma cut_app (h t : list Z) n : 0 <= n < zlen (h ++ t) ->
  (exists h1 h2, slice (h ++ t) 0 n = h1 /\ h = h1 ++ h2 /\ h2 <> []) \/
  (exists t1 t2, slice (h ++ t) 0 n = h ++ t1 /\ t = t1 ++ t2 /\ t2 <> []).
Proof.
  intros Hn. rewrite zlen_app in Hn. destruct (Z_lt_le_dec n (zlen h)).
  - left. exists (slice h 0 n), (slice h n (zlen h - n)). split; [apply slice_app_l; lia|].
    split; [symmetry; apply slice_cut; lia|]. intros H. assert (zlen (slice h n (zlen h - n)) = 0) by (rewrite H; reflexivity).
    rewrite zlen_slice in *; lia.
  - right. exists (slice t 0 (n - zlen h)), (slice t (n - zlen h) (zlen t - (n - zlen h))). split.
    + pose proof (slice_split (h ++ t) 0 (zlen h) (n - zlen h)) as X. replace (zlen h + (n - zlen h)) with n in X by lia.
      pose proof (zlen_nonneg h). rewrite X by lia. rewrite slice_app_exact_l by auto. f_equal. rewrite slice_app_r by lia. f_equal. lia.
    + split; [symmetry; apply slice_cut; lia|]. intros H.
      assert (zlen (slice t (n - zlen h) (zlen t - (n - zlen h))) = 0) by (rewrite H; reflexivity).
      rewrite zlen_slice in *; lia.
Qed.

Lemma cut_rejected file dd n : header_cut L -> write_deltarpm L d = Ok file -> read_deltarpm L file = Ok dd ->
  0 <= n < zlen file ->
  (exists e, read_deltarpm L (slice file 0 n) = Err e) \/
  d_comp d <> 0 /\ read_deltarpm L (slice file 0 n) = Ok dd.
Proof.
  intros Hcut Ew Er Hn. destruct (d_head d) as [r|nevr] eqn:Hh.
  - destruct (file_std r Hh) as (c & strm & sig & tc & Hc & Ew' & Hr & Hg & Hd & Hb & H8 & Hs).
    rewrite Ew in Ew'. apply Ok_inj in Ew'. subst file.
    assert (Ht : d_type d = TYPE_STANDARD) by (pose proof (wf_head L d W) as X; rewrite Hh in X; tauto).
    rewrite (read_std_delta _ _ tc), <- Ht, (read_whole L d W c) in Er by auto. injection Er as <-.
    destruct (cut_app _ _ _ Hn) as [(h1 & h2 & E1 & E2 & E3)|(t1 & t2 & E1 & E2 & E3)]; rewrite E1.
    + left. eapply read_std_short; eauto.
    + rewrite (read_std_delta _ _ tc) by auto. rewrite <- Ht. rewrite E2 in *. apply (read_cut L d W c _ t2); auto.
  - destruct (file_only nevr Hh) as (c & strm & Hc & Ew' & Hd & Hb & H8 & Hs).
    rewrite Ew in Ew'. apply Ok_inj in Ew'. subst file.
    assert (Ht : d_type d = TYPE_RPMONLY) by (pose proof (wf_head L d W) as X; rewrite Hh in X; tauto).
    rewrite read_only, <- Ht, (read_whole L d W c) in Er by auto. injection Er as <-.
    destruct (cut_app _ _ _ Hn) as [(h1 & h2 & E1 & E2 & E3)|(t1 & t2 & E1 & E2 & E3)]; rewrite E1.
    + left. eapply read_only_short; eauto.
    + rewrite read_only by auto. rewrite <- Ht. rewrite E2 in *. apply (read_cut L d W c _ t2); auto.
Qed.
End File2.

(** A sequence file can be written for a sequence whose text has a 32-bit length. *)
Lemma seqfile_made d : bytes (d_seq d) -> zlen (d_seq d) < 2 ^ 31 -> exists line, write_seqfile d = Ok line.
Proof.
  intros Hb Hz. pose proof (zlen_nonneg (d_seq d)). destruct (dump_hex_spec (d_seq d) Hb) as (h & Eh & _).
  unfold write_seqfile. rewrite u32_small, Z.ltb_irrefl by lia. rewrite Eh. eexists. reflexivity.
Qed.
