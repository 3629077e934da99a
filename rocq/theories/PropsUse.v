(** * PropsUse: C41, the libraries are chosen and set up so that streams are written and read, and the abstract codec is
    justified *)
From Verif Require Import Base DeltaComp SpecCodec Stream SpecStream CodecLoop SpecLoop CodecUse SpecUse UseProofs UseCases.

(** Whatever method and level from 0 (the default) to 9 is asked for: setting up succeeds, and what is written is a stream
    of this method. *)
Theorem C41_writes : forall valid E comp level ps,
  libraries_write valid E -> real_comp comp -> 0 <= level <= 9 -> pieces_fit ps ->
  exists s b, open_encoder E comp level = Ok s /\ ends_with (fun fuel => encode_all E fuel s [] ps) b /\ valid comp b (concat ps).
Proof. exact writes. Qed.
Print Assumptions C41_writes.

(** From the first eight bytes of a stream the right library is chosen and set up, and reading gives what is in the stream,
    with the exception for zstd of [C41_zstd_reads_refuted]. *)
Theorem C41_opens_partial : forall valid memory D comp b x chunks rest,
  libraries_read valid memory D -> marked valid -> real_comp comp -> valid comp b x -> bytes x -> available D comp ->
  concat chunks ++ rest = b -> pieces_ok chunks ->
  exists s y, open_stream D (be_val (slice b 0 8)) = Ok s /\
    ends_with (fun fuel => decompress (decoder_chunk D fuel) s [] chunks) (y, None) /\
    (exists z, y ++ z = x) /\ (rest = [] -> comp <> 6 \/ zlen x < 131072 -> y = x).
Proof. exact opens_lemma. Qed.
Print Assumptions C41_opens_partial.

(** If the library cannot be set up for reading, this is reported. *)
Theorem C41_refused : forall valid memory D comp b x,
  libraries_read valid memory D -> marked valid -> real_comp comp -> valid comp b x -> bytes x -> ~ available D comp ->
  exists e, open_stream D (be_val (slice b 0 8)) = Err e /\ In e [EConfig; EMemory; EFormat].
Proof. exact refused_lemma. Qed.
Print Assumptions C41_refused.

(** What [codec_ok] assumes of the abstract codec holds for the one that the loops over the libraries compute, for pieces
    below 4 GiB, and with zstd for less than 128 KiB. *)
Theorem C41_codec_partial : forall valid memory cd E D comp level ps,
  libraries_write valid E -> libraries_read valid memory D -> marked valid -> follows valid cd E D ->
  real_comp comp -> 0 <= level <= 9 -> pieces_fit ps -> available D comp ->
  let b := enc_run cd comp level [] ps in
  c_init cd comp level = None /\ (Forall bytes ps -> bytes b) /\ 8 <= zlen b /\ (exists r, b = magic_of comp ++ r) /\
  (comp <> 6 \/ zlen (concat ps) < 131072 -> decodes cd comp b (concat ps)).
Proof. exact codec_lemma. Qed.
Print Assumptions C41_codec_partial.

(** Above level 9: liblzma does not know such a preset, and for lzma the options then stay as they are, never set; with xz
    the library reports it.  Deltas can ask for such levels. *)
Theorem C41_lzma_level_refuted : exists valid E, libraries_write valid E /\
  forall level, 10 <= level <= 99 ->
    open_encoder E 3 level = Ub Uninit /\ exists word, 0 <= word < 2 ^ 32 /\ decode_comp word = Some (3, level).
Proof. exact lzma_level. Qed.
Print Assumptions C41_lzma_level_refuted.

(** Libraries that meet all of this; zstd cannot be set up for reading there. *)
Example C41_case_libraries :
  libraries_write behind toy_encoding /\ libraries_read behind (fun _ => 65536) toy_decoding /\ marked behind /\
  follows behind toy_codec toy_encoding toy_decoding /\
  available toy_decoding 1 /\ available toy_decoding 2 /\ available toy_decoding 3 /\ available toy_decoding 4 /\ ~ available toy_decoding 6.
Proof.
  split; [exact toy_writes|]. split; [exact toy_reads|]. split; [exact toy_marked|]. split; [exact toy_follows|].
  repeat (split; [reflexivity|]). intros H. apply H. reflexivity.
Qed.

Example C41_case_stream :
  pieces_fit [[5; 6]; repeat 7 (Z.to_nat 2000)] /\
  (s <- open_encoder toy_encoding 4 6 ;; encode_all toy_encoding 9 s [] [[5; 6]; repeat 7 (Z.to_nat 2000)]) =
    Ok ([253; 55; 122; 88; 90; 0; 0; 0; 5; 6] ++ repeat 7 (Z.to_nat 2000)) /\
  (s <- open_stream toy_decoding (be_val [253; 55; 122; 88; 90; 0; 0; 0]) ;;
   decompress (decoder_chunk toy_decoding 9) s [] [[253; 55; 122; 88]; [90; 0; 0; 0; 5] ++ repeat 7 (Z.to_nat 1500); [8; 9]]) =
    Ok ([5] ++ repeat 7 (Z.to_nat 1500) ++ [8; 9], None) /\
  open_stream toy_decoding (be_val [40; 181; 47; 253; 0; 0; 0; 0]) = Err EMemory /\
  (s <- open_stream toy_decoding (be_val [1; 2; 3; 4; 5; 6; 7; 8]) ;; decompress (decoder_chunk toy_decoding 9) s [] [[1; 2]; [3]]) =
    Ok ([1; 2; 3], None).
Proof.
  split.
  - split; repeat constructor; try discriminate.
  - split; [vm_compute; reflexivity|]. split; [vm_compute; reflexivity|]. split; vm_compute; reflexivity.
Qed.
