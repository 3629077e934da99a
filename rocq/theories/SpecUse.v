(** * SpecUse: what the documentation of the codec libraries promises about setting them up, and what it means that the
    abstract codec of [Stream] is what the loops over these libraries compute

    [valid comp b x]: [b] is a complete stream of [x] in the format of the method [comp]; [memory b]: the memory that
    liblzma needs to decode [b]. *)
From Verif Require Import Base DeltaComp Stream SpecStream CodecLoop SpecLoop CodecUse.

(** Encoders accept the levels from 1 to 9 and keep the contract of [SpecLoop]. *)
Record libraries_write (valid : Z -> list Z -> list Z -> Prop) (E : encoding) : Prop := {
  lw_gzip : exists v, starts (el_gzip E) v 9 /\
    encodes (valid 1) any_value any_value (fun ret => ret =? 1) (e_run (el_gzip E)) (e_finish (el_gzip E)) v;
  lw_bzip2 : exists v, starts (el_bzip2 E) v 9 /\
    encodes (valid 2) any_value any_value (fun ret => ret =? 4) (e_run (el_bzip2 E)) (e_finish (el_bzip2 E)) v;
  lw_lzma : exists v, starts (el_lzma E) v 9 /\
    encodes (valid 3) lzma_going lzma_good (fun ret => ret =? 1) (e_run (el_lzma E)) (e_finish (el_lzma E)) v;
  lw_xz : exists v, starts (el_xz E) v 9 /\
    encodes (valid 4) lzma_going lzma_good (fun ret => ret =? 1) (e_run (el_xz E)) (e_finish (el_xz E)) v;
  lw_zstd : exists v, starts (el_zstd E) v 22 /\
    encodes (valid 6) zstd_good zstd_good (fun ret => ret =? 0) (e_run (el_zstd E)) (e_finish (el_zstd E)) v;
  lw_preset : forall level, 1 <= level <= 9 -> el_preset E level = true
}.

(** Decoders, set up with arguments that are allowed: bzlib with a verbosity from 0 to 4 and small or not; zlib for gzip
    streams with 31 window bits, or 47 for zlib streams, too; liblzma without flags, for streams within the memory limit,
    whatever of its two formats they have.  The values returned are those that can come up with such arguments. *)
Record libraries_read (valid : Z -> list Z -> list Z -> Prop) (memory : list Z -> Z) (D : decoding) : Prop := {
  lr_bzip2 : forall verbosity small ret s, 0 <= verbosity <= 4 -> 0 <= small <= 1 -> dl_bzip2_init D verbosity small = (ret, s) ->
    In ret [0; -9; -3] /\ (ret = 0 -> exists v, decodes_stream (valid 2) bzip2_good (mkdecoder _ s (dl_bzip2_run D)) v);
  lr_gzip : forall bits ret s, bits = 31 \/ bits = 47 -> dl_gzip_init D bits = (ret, s) ->
    In ret [0; -6; -4] /\ (ret = 0 -> exists v, decodes_stream (valid 1) gzip_good (mkdecoder _ s (dl_gzip_run D)) v);
  lr_lzma : forall limit ret s, 0 < limit < 2 ^ 64 -> dl_lzma_init D limit 0 = (ret, s) ->
    In ret [0; 5; 8] /\
    (ret = 0 -> exists v, decodes_stream (fun b x => (valid 3 b x \/ valid 4 b x) /\ memory b <= limit) lzma_good
                            (mkdecoder _ s (dl_lzma_run D)) v);
  lr_zstd : forall s, dl_zstd_create D = Some s ->
    exists v, decodes_stream (valid 6) zstd_good (mkdecoder _ s (dl_zstd_run D)) v;
  lr_memory : forall b, 0 <= memory b < 2 ^ 64
}.

(** Streams of bytes are bytes, and start with what identifies their format. *)
Definition marked (valid : Z -> list Z -> list Z -> Prop) : Prop := forall comp b x,
  real_comp comp -> valid comp b x -> (bytes x -> bytes b) /\ 8 <= zlen b /\ exists r, b = magic_of comp ++ r.

(** The library for a method can be set up: no want of memory, and the version fits. *)
Definition available (D : decoding) (comp : Z) : Prop :=
  if comp =? 1 then fst (dl_gzip_init D 31) = 0
  else if comp =? 2 then fst (dl_bzip2_init D 0 1) = 0
  else if comp =? 6 then dl_zstd_create D <> None
  else fst (dl_lzma_init D (2 ^ 64 - 1) 0) = 0.

(** All pieces are written to a stream in a row, and it is finished. *)
Fixpoint encode_all (E : encoding) (fuel : nat) (s : estate E) (data : list Z) (pieces : list (list Z)) : res (list Z) :=
  match pieces with
  | [] => encoder_finish E fuel s data
  | p :: r => '(s, data) <- encoder_chunk E fuel s data p ;; encode_all E fuel s data r
  end.

(** Pieces that all libraries take: not empty, and shorter than 4 GiB. *)
Definition pieces_fit (ps : list (list Z)) : Prop := pieces_ok ps /\ Forall (fun p => zlen p < 2 ^ 32) ps.

(** The abstract codec of [Stream] is what the loops over the libraries compute: the error of setting up, everything
    written, and everything read from parts of streams. *)
Record follows (valid : Z -> list Z -> list Z -> Prop) (cd : codec) (E : encoding) (D : decoding) : Prop := {
  fo_init : forall comp level, real_comp comp -> 0 <= level <= 9 ->
    c_init cd comp level = match open_encoder E comp level with Err e => Some e | _ => None end;
  fo_write : forall comp level s ps b, real_comp comp -> 0 <= level <= 9 -> pieces_fit ps -> open_encoder E comp level = Ok s ->
    ends_with (fun fuel => encode_all E fuel s [] ps) b -> enc_run cd comp level [] ps = b;
  fo_read : forall comp s cs rest b x y e, real_comp comp -> valid comp b x -> concat cs ++ rest = b -> pieces_ok cs ->
    open_decoder D comp = Ok s -> ends_with (fun fuel => decompress (decoder_chunk D fuel) s [] cs) (y, e) ->
    dec_run cd comp [] cs = (y, e)
}.
