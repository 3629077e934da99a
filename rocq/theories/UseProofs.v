(** * UseProofs: the streams as they are set up write and read what they should *)
From Verif Require Import Base BaseLemmas DeltaComp SpecCodec Stream SpecStream DetectProofs CodecLoop SpecLoop LoopProofs LoopFinal CodecUse SpecUse.

Lemma real_cases comp : real_comp comp -> comp = 1 \/ comp = 2 \/ comp = 3 \/ comp = 4 \/ comp = 6.
Proof. unfold real_comp. cbn [In]. intuition lia. Qed.

(** ** Writing *)

Lemma encode_turn E {St} (f : option St -> estate E) write finish fuel :
  (forall s data p, encoder_chunk E fuel (f s) data p = turn E f (write s data p)) ->
  (forall s data, encoder_finish E fuel (f s) data = finish s data) ->
  forall ps s data, encode_all E fuel (f s) data ps = compress write finish s data ps.
Proof.
  intros Hw Hf. induction ps as [|p ps IH]; intros s data; cbn [encode_all compress]; [apply Hf|].
  rewrite Hw. unfold turn. destruct (write s data p) as [[s' d']|?|?|]; cbn [bind]; [|reflexivity..]. apply IH.
Qed.

Lemma ends_same {A} (f g : nat -> res A) r : (forall n, f n = g n) -> ends_with g r -> ends_with f r.
Proof. intros E (n & H). exists n. intros k Hk. rewrite E. apply H, Hk. Qed.

Lemma writes valid E comp level ps : libraries_write valid E -> real_comp comp -> 0 <= level <= 9 -> pieces_fit ps ->
  exists s b, open_encoder E comp level = Ok s /\ ends_with (fun fuel => encode_all E fuel s [] ps) b /\ valid comp b (concat ps).
Proof.
  intros [G B L X T P] Hc Hl [Hp Hs].
  destruct (real_cases _ Hc) as [->|[->|[->|[->| ->]]]]; unfold open_encoder; cbn [Z.eqb COMP_NONE COMP_GZIP COMP_BZIP2 COMP_LZMA COMP_XZ COMP_ZSTD Pos.eqb].
  - destruct G as (v & S0 & H). destruct (gzip_writes_lemma _ _ _ level ps S0 H Hl Hp Hs) as (s & b & I & W & V).
    exists (EGzip (Some s)), b. rewrite I. split; [reflexivity|]. split; [|exact V].
    refine (ends_same _ _ _ _ W). intros n. apply (encode_turn E EGzip); reflexivity.
  - destruct B as (v & S0 & H). destruct (bzip2_writes_lemma _ _ _ level ps S0 H Hl Hp Hs) as (s & b & I & W & V).
    exists (EBzip2 (Some s)), b. rewrite I. split; [reflexivity|]. split; [|exact V].
    refine (ends_same _ _ _ _ W). intros n. apply (encode_turn E EBzip2); reflexivity.
  - destruct L as (v & S0 & H). destruct (lzma_writes_lemma _ _ _ _ level ps S0 P H Hl Hp) as (s & b & I & W & V).
    exists (ELzma (Some s)), b. rewrite I. split; [reflexivity|]. split; [|exact V].
    refine (ends_same _ _ _ _ W). intros n. apply (encode_turn E ELzma); reflexivity.
  - destruct X as (v & S0 & H). destruct (xz_writes_lemma _ _ _ level ps S0 H Hl Hp) as (s & b & I & W & V).
    exists (EXz (Some s)), b. rewrite I. split; [reflexivity|]. split; [|exact V].
    refine (ends_same _ _ _ _ W). intros n. apply (encode_turn E EXz); reflexivity.
  - destruct T as (v & S0 & H). destruct (zstd_writes_lemma _ _ _ level ps S0 H ltac:(lia) Hp) as (s & b & I & W & V).
    exists (EZstd (Some s)), b. rewrite I. split; [reflexivity|]. split; [|exact V].
    refine (ends_same _ _ _ _ W). intros n. apply (encode_turn E EZstd); reflexivity.
Qed.

(** ** Reading *)

Lemma decode_wrap D {St} (f : St -> dstate D) read fuel :
  (forall s data c, decoder_chunk D fuel (f s) data c = wrap D f (read s data c)) ->
  forall cs s data, decompress (decoder_chunk D fuel) (f s) data cs = decompress read s data cs.
Proof.
  intros Hr. induction cs as [|c cs IH]; intros s data; cbn [decompress]; [reflexivity|].
  rewrite Hr. unfold wrap. destruct (read s data c) as [[[s' d'] e]|?|?|]; cbn [bind]; [|reflexivity..].
  destruct e; [reflexivity|apply IH].
Qed.

Lemma magic_nonempty comp r : 8 <= zlen (magic_of comp ++ r) -> magic_of comp ++ r <> [].
Proof. intros H E. rewrite E in H. change (zlen (@nil Z)) with 0 in H. lia. Qed.

Lemma reads valid memory D comp b x chunks rest : libraries_read valid memory D -> marked valid ->
  real_comp comp -> valid comp b x -> available D comp -> concat chunks ++ rest = b -> pieces_ok chunks ->
  exists s y, open_decoder D comp = Ok s /\
    ends_with (fun fuel => decompress (decoder_chunk D fuel) s [] chunks) (y, None) /\
    (exists z, y ++ z = x) /\ (rest = [] -> comp <> 6 \/ zlen x < 131072 -> y = x).
Proof.
  intros [B G L T M] Hm Hc Hv Ha Hb Hp. destruct (Hm _ _ _ Hc Hv) as (_ & H8 & r & Er).
  assert (Hn : b <> []) by (rewrite Er in *; apply magic_nonempty; exact H8). clear Er H8.
  unfold available in Ha.
  destruct (real_cases _ Hc) as [->|[->|[->|[->| ->]]]]; cbn [Z.eqb Pos.eqb] in Ha; unfold open_decoder;
    cbn [Z.eqb COMP_NONE COMP_GZIP COMP_BZIP2 COMP_LZMA COMP_XZ COMP_ZSTD Pos.eqb].
  - unfold open_gzip. change (16 + 15) with 31. destruct (dl_gzip_init D 31) as [ret s] eqn:E. cbn [fst] in Ha. subst ret.
    destruct (G 31 0 s (or_introl eq_refl) E) as (_ & H). destruct (H eq_refl) as (v & Hd).
    destruct (reads_lemma _ _ _ _ gzip_read_error b x chunks rest Hd gzip_good_error Hv Hn Hb Hp) as (y & W & Z1 & Z2).
    exists (DGzip (Some s)), y. split; [reflexivity|]. split; [|split; [exact Z1|auto]].
    refine (ends_same _ _ _ _ W). intros n. apply (decode_wrap D (fun s => DGzip (Some s))). reflexivity.
  - unfold open_bzip2. destruct (dl_bzip2_init D 0 1) as [ret s] eqn:E. cbn [fst] in Ha. subst ret.
    destruct (B 0 1 0 s ltac:(lia) ltac:(lia) E) as (_ & H). destruct (H eq_refl) as (v & Hd).
    destruct (reads_lemma _ _ _ _ bzip2_read_error b x chunks rest Hd bzip2_good_error Hv Hn Hb Hp) as (y & W & Z1 & Z2).
    exists (DBzip2 (Some s)), y. split; [reflexivity|]. split; [|split; [exact Z1|auto]].
    refine (ends_same _ _ _ _ W). intros n. apply (decode_wrap D (fun s => DBzip2 (Some s))). reflexivity.
  - unfold open_lzma. destruct (dl_lzma_init D (2 ^ 64 - 1) 0) as [ret s] eqn:E. cbn [fst] in Ha. subst ret.
    destruct (L (2 ^ 64 - 1) 0 s ltac:(lia) E) as (_ & H). destruct (H eq_refl) as (v & Hd). assert (Hmem : memory b <= 2 ^ 64 - 1) by (pose proof (M b); lia).
    destruct (reads_lemma _ _ _ _ lzma_read_error b x chunks rest Hd lzma_good_error (conj (or_introl Hv) Hmem) Hn Hb Hp) as (y & W & Z1 & Z2).
    exists (DLzma s), y. split; [reflexivity|]. split; [|split; [exact Z1|auto]].
    refine (ends_same _ _ _ _ W). intros n. apply (decode_wrap D DLzma). reflexivity.
  - unfold open_lzma. destruct (dl_lzma_init D (2 ^ 64 - 1) 0) as [ret s] eqn:E. cbn [fst] in Ha. subst ret.
    destruct (L (2 ^ 64 - 1) 0 s ltac:(lia) E) as (_ & H). destruct (H eq_refl) as (v & Hd). assert (Hmem : memory b <= 2 ^ 64 - 1) by (pose proof (M b); lia).
    destruct (reads_lemma _ _ _ _ lzma_read_error b x chunks rest Hd lzma_good_error (conj (or_intror Hv) Hmem) Hn Hb Hp) as (y & W & Z1 & Z2).
    exists (DLzma s), y. split; [reflexivity|]. split; [|split; [exact Z1|auto]].
    refine (ends_same _ _ _ _ W). intros n. apply (decode_wrap D DLzma). reflexivity.
  - unfold open_zstd. destruct (dl_zstd_create D) as [s|] eqn:E; [|congruence].
    destruct (T s eq_refl) as (v & Hd).
    destruct (zstd_reads_lemma _ _ _ b x chunks rest Hd Hv Hn Hb Hp) as (y & W & Z1 & Z2).
    exists (DZstd s), y. split; [reflexivity|]. split; [|split; [exact Z1|]].
    + refine (ends_same _ _ _ _ W). intros n. apply (decode_wrap D DZstd). reflexivity.
    + intros Hr [Hx|Hx]; [congruence|]. apply Z2; assumption.
Qed.

Lemma opens_lemma valid memory D comp b x chunks rest : libraries_read valid memory D -> marked valid ->
  real_comp comp -> valid comp b x -> bytes x -> available D comp -> concat chunks ++ rest = b -> pieces_ok chunks ->
  exists s y, open_stream D (be_val (slice b 0 8)) = Ok s /\
    ends_with (fun fuel => decompress (decoder_chunk D fuel) s [] chunks) (y, None) /\
    (exists z, y ++ z = x) /\ (rest = [] -> comp <> 6 \/ zlen x < 131072 -> y = x).
Proof.
  intros Hr Hm Hc Hv Hx Ha Hb Hp. destruct (Hm _ _ _ Hc Hv) as (Hby & H8 & r & Er). specialize (Hby Hx).
  unfold open_stream. rewrite detect_sniff by assumption. rewrite Er, sniff_magic by exact Hc. rewrite Er in Hv, Hb.
  eapply reads; eassumption.
Qed.

(** A library that cannot be set up is noticed. *)
Lemma refused_lemma valid memory D comp b x : libraries_read valid memory D -> marked valid ->
  real_comp comp -> valid comp b x -> bytes x -> ~ available D comp ->
  exists e, open_stream D (be_val (slice b 0 8)) = Err e /\ In e [EConfig; EMemory; EFormat].
Proof.
  intros [B G L T M] Hm Hc Hv Hx Ha. destruct (Hm _ _ _ Hc Hv) as (Hby & H8 & r & Er). specialize (Hby Hx).
  unfold open_stream. rewrite detect_sniff by assumption. rewrite Er, sniff_magic by exact Hc.
  unfold available in Ha. destruct (real_cases _ Hc) as [->|[->|[->|[->| ->]]]]; cbn [Z.eqb Pos.eqb] in Ha; unfold open_decoder;
    cbn [Z.eqb COMP_NONE COMP_GZIP COMP_BZIP2 COMP_LZMA COMP_XZ COMP_ZSTD Pos.eqb].
  - unfold open_gzip. change (16 + 15) with 31. destruct (dl_gzip_init D 31) as [ret s] eqn:E. cbn [fst] in Ha.
    destruct (G 31 ret s (or_introl eq_refl) E) as ([<-|[<-|[<-|[]]]] & _); [congruence| |]; eexists; (split; [reflexivity|cbn; tauto]).
  - unfold open_bzip2. destruct (dl_bzip2_init D 0 1) as [ret s] eqn:E. cbn [fst] in Ha.
    destruct (B 0 1 ret s ltac:(lia) ltac:(lia) E) as ([<-|[<-|[<-|[]]]] & _); [congruence| |]; eexists; (split; [reflexivity|cbn; tauto]).
  - unfold open_lzma. destruct (dl_lzma_init D (2 ^ 64 - 1) 0) as [ret s] eqn:E. cbn [fst] in Ha.
    destruct (L (2 ^ 64 - 1) ret s ltac:(lia) E) as ([<-|[<-|[<-|[]]]] & _); [congruence| |]; eexists; (split; [reflexivity|cbn; tauto]).
  - unfold open_lzma. destruct (dl_lzma_init D (2 ^ 64 - 1) 0) as [ret s] eqn:E. cbn [fst] in Ha.
    destruct (L (2 ^ 64 - 1) ret s ltac:(lia) E) as ([<-|[<-|[<-|[]]]] & _); [congruence| |]; eexists; (split; [reflexivity|cbn; tauto]).
  - unfold open_zstd. destruct (dl_zstd_create D) as [s|] eqn:E; [exfalso; apply Ha; discriminate|].
    eexists; (split; [reflexivity|cbn; tauto]).
Qed.

(** ** The abstract codec *)

Lemma codec_lemma valid memory cd E D comp level ps :
  libraries_write valid E -> libraries_read valid memory D -> marked valid -> follows valid cd E D ->
  real_comp comp -> 0 <= level <= 9 -> pieces_fit ps -> available D comp ->
  let b := enc_run cd comp level [] ps in
  c_init cd comp level = None /\ (Forall bytes ps -> bytes b) /\ 8 <= zlen b /\ (exists r, b = magic_of comp ++ r) /\
  (comp <> 6 \/ zlen (concat ps) < 131072 -> decodes cd comp b (concat ps)).
Proof.
  intros Hw Hr Hm [F1 F2 F3] Hc Hl Hp Ha. cbn zeta.
  destruct (writes valid E comp level ps Hw Hc Hl Hp) as (s & b & Ho & He & Hv).
  rewrite (F2 _ _ _ _ _ Hc Hl Hp Ho He). destruct (Hm _ _ _ Hc Hv) as (H1 & H2 & H3).
  split; [rewrite F1 by (assumption || lia); rewrite Ho; reflexivity|]. split; [intros Hby; apply H1, Forall_concat, Hby|]. split; [exact H2|]. split; [exact H3|].
  intros Hz. unfold decodes. destruct (Z.eqb_spec comp COMP_NONE) as [E0|_]; [destruct (real_cases _ Hc) as [?|[?|[?|[?|?]]]]; unfold COMP_NONE in E0; lia|].
  intros cs rest Hcs Hne.
  destruct (reads valid memory D comp b (concat ps) cs rest Hr Hm Hc Hv Ha Hcs Hne) as (s' & y & Hs' & Hy & Z1 & Z2).
  exists y, None. split; [eapply F3; eassumption|]. split; [exact Z1|]. intros Hrest. split; [reflexivity|]. apply Z2; assumption.
Qed.
