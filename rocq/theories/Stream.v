(** * Stream: model of /repo/src/drpm_compstrm.c, /repo/src/drpm_decompstrm.c and of the
    compression wrapper of /repo/src/drpm_write.c lines 299-391

    Configuration modelled: built with zstd, without lzlib (HAVE_LZLIB_DEVEL undefined).

    The codec libraries are a parameter: a [codec] says which bytes each codec emits when
    it is fed further input.  How the inner loops of the chunk functions drive the library
    calls is modelled separately in [CodecLoop]. *)
From Verif Require Import Base Utils DeltaComp.

(** [c_init comp level]: error of the initialisation, if any.
    [c_step comp level hist piece]: bytes emitted by the encoder when [piece] is fed after the
    pieces [hist].  [c_flush comp level hist]: bytes emitted when the encoder is finished.
    [d_step comp hist chunk]: bytes emitted by the decoder when [chunk] is fed after the chunks
    [hist], and the error it stops with, if any. *)
Record codec := mkcodec {
  c_init : Z -> Z -> option err;
  c_step : Z -> Z -> list (list Z) -> list Z -> list Z;
  c_flush : Z -> Z -> list (list Z) -> list Z;
  d_step : Z -> list (list Z) -> list Z -> list Z * option err
}.

Section Streams.
Variable cd : codec.

(** ** Compression stream *)

(** [struct compstrm]: [cs_fd] says whether output also goes to a file ([filedesc >= 0]);
    [cs_fed] is the list of pieces given so far (it stands for the state of the codec library). *)
Record cstrm := mkcs {
  cs_comp : Z; cs_level : Z; cs_fd : bool;
  cs_fed : list (list Z); cs_data : list Z; cs_pos : Z; cs_finished : bool
}.

(** [compstrm_init], drpm_compstrm.c lines 437-497. *)
Definition compstrm_init (fd : bool) (comp level : Z) : res cstrm :=
  if negb (level =? 0) && ((level <? 1) || (99 <? level)) then Err EProg
  else if comp =? COMP_NONE then Ok (mkcs comp level fd [] [] 0 false)
  else if (comp =? COMP_GZIP) || (comp =? COMP_BZIP2) || (comp =? COMP_LZMA)
          || (comp =? COMP_XZ) || (comp =? COMP_ZSTD)
       then match c_init cd comp level with
            | Some e => Err e
            | None => Ok (mkcs comp level fd [] [] 0 false)
            end
       else Err EProg.

(** [write_chunk] of the stream, drpm_compstrm.c lines 596-608 (no compression) and
    610-... (codecs): what is appended to [data]. *)
Definition write_chunk (s : cstrm) (piece : list Z) : list Z :=
  if cs_comp s =? COMP_NONE then piece else c_step cd (cs_comp s) (cs_level s) (cs_fed s) piece.

(** [compstrm_write], drpm_compstrm.c lines 563-591.  The second component is what is
    appended to the file. *)
Definition compstrm_write (s : cstrm) (piece : list Z) : res (cstrm * list Z) :=
  if cs_finished s then Err EProg
  else if zlen piece =? 0 then Ok (s, [])
  else
    let data := cs_data s ++ write_chunk s piece in
    out <- rd_range data (cs_pos s) (zlen data - cs_pos s) ;;
    Ok (mkcs (cs_comp s) (cs_level s) (cs_fd s) (cs_fed s ++ [piece]) data (zlen data) false,
        if cs_fd s then out else []).

(** [compstrm_write_be32], [compstrm_write_be64], drpm_compstrm.c lines 538-560. *)
Definition compstrm_write_be32 (s : cstrm) (n : Z) := compstrm_write s (create_be32 n).
Definition compstrm_write_be64 (s : cstrm) (n : Z) := compstrm_write s (create_be64 n).

(** [compstrm_finish], drpm_compstrm.c lines 502-536, with [data] and [data_len] not NULL:
    new state, bytes appended to the file, all compressed data.  [data_pos] is not advanced. *)
Definition compstrm_finish (s : cstrm) : res (cstrm * list Z * list Z) :=
  if cs_finished s then Err EProg
  else
    let '(data, out) :=
      if cs_comp s =? COMP_NONE then (cs_data s, [])
      else let d := cs_data s ++ c_flush cd (cs_comp s) (cs_level s) (cs_fed s) in
           (d, slice d (cs_pos s) (zlen d - cs_pos s)) in
    Ok (mkcs (cs_comp s) (cs_level s) (cs_fd s) (cs_fed s) data (cs_pos s) true,
        if cs_fd s then out else [], data).

(** ** Wrapper that leaves a prefix uncompressed, drpm_write.c lines 32-38 and 299-391 *)

(** [cw_uncomp]: what has been stored in [uncomp_data] so far (the buffer has size
    [cw_len]; bytes never stored are uninitialised). *)
Record cwrap := mkcw {
  cw_strm : cstrm; cw_len : Z; cw_left : Z; cw_uncomp : list Z
}.

(** [compstrm_wrapper_init], drpm_write.c lines 301-328. *)
Definition wrapper_init (uncomp_len comp level : Z) : res cwrap :=
  s <- compstrm_init true comp level ;;
  Ok (mkcw s uncomp_len uncomp_len []).

(** [compstrm_wrapper_write], drpm_write.c lines 342-366: new state and bytes appended to
    the file. *)
Definition wrapper_write (w : cwrap) (buffer : list Z) : res (cwrap * list Z) :=
  if 0 <? cw_left w then
    if zlen buffer =? 0 then Ok (w, [])
    else
      let n := Z.min (cw_left w) (zlen buffer) in
      let head := slice buffer 0 n in
      let rest := slice buffer n (zlen buffer - n) in
      '(s, out) <- compstrm_write (cw_strm w) rest ;;
      Ok (mkcw s (cw_len w) (cw_left w - n) (cw_uncomp w ++ head), head ++ out)
  else
    '(s, out) <- compstrm_write (cw_strm w) buffer ;;
    Ok (mkcw s (cw_len w) (cw_left w) (cw_uncomp w), out).

(** [compstrm_wrapper_finish], drpm_write.c lines 368-391: bytes appended to the file, and
    the returned data (uncompressed prefix followed by compressed data).  Copying
    [uncomp_len] bytes out of a buffer that was not filled reads uninitialised memory. *)
Definition wrapper_finish (w : cwrap) : res (list Z * list Z) :=
  '(s, out, data) <- compstrm_finish (cw_strm w) ;;
  if 0 <? cw_left w then Ub Uninit
  else Ok (out, cw_uncomp w ++ data).

(** ** Decompression stream *)

(** [struct decompstrm].  [ds_in] is the input not yet read (rest of file or buffer),
    [ds_fed] the chunks given to the codec, [ds_md5] what the MD5 context was updated with. *)
Record dstrm := mkds {
  ds_comp : Z; ds_in : list Z; ds_fed : list (list Z);
  ds_data : list Z; ds_pos : Z; ds_csize : Z; ds_md5 : list Z
}.

Definition CHUNK_SIZE : Z := 1024.   (** drpm_private.h line 35 *)

(** Detection of the compression method, drpm_decompstrm.c lines 43-48 and 294-333. *)
Definition detect_comp (magic : Z) : Z :=
  if Z.shiftr magic 48 =? 8075 then COMP_GZIP           (* 1F8B *)
  else if Z.shiftr magic 40 =? 4348520 then COMP_BZIP2  (* 425A68 *)
  else if Z.shiftr magic 16 =? 278414717639168 then COMP_XZ (* FD377A585A00 *)
  else if Z.shiftr magic 40 =? 6094848 then COMP_LZMA   (* 5D0000 *)
  else if Z.shiftr magic 32 =? 682962941 then COMP_ZSTD (* 28B52FFD *)
  else COMP_NONE.

(** [decompstrm_init], drpm_decompstrm.c lines 264-342: [file] tells whether input comes
    from a file ([filedesc >= 0]) or from a buffer.  Initialisation of the decoders only
    fails for lack of memory. *)
Definition decompstrm_init (file : bool) (input : list Z) : res dstrm :=
  if zlen input <? 8 then Err (if file then EFormat else EProg)
  else
    magic <- parse_be64_at input 0 ;;
    Ok (mkds (detect_comp magic) input [] [] 0 0 []).

(** [read_chunk], drpm_decompstrm.c lines 453-485 (no compression) and 487-780 (codecs):
    one chunk of at most 1024 bytes; end of input is the format error.  On a
    decoding error the output produced so far stays in the stream; size and MD5 are updated
    only on success. *)
Definition read_chunk (s : dstrm) : dstrm * option err :=
  let chunk := slice (ds_in s) 0 (Z.min CHUNK_SIZE (zlen (ds_in s))) in
  let rest := slice (ds_in s) (zlen chunk) (zlen (ds_in s) - zlen chunk) in
  if zlen chunk =? 0 then (s, Some EFormat)
  else
    let '(out, e) := if ds_comp s =? COMP_NONE then (chunk, None)
                     else d_step cd (ds_comp s) (ds_fed s) chunk in
    match e with
    | Some e => (mkds (ds_comp s) rest (ds_fed s ++ [chunk]) (ds_data s ++ out) (ds_pos s)
                      (ds_csize s) (ds_md5 s), Some e)
    | None => (mkds (ds_comp s) rest (ds_fed s ++ [chunk]) (ds_data s ++ out) (ds_pos s)
                    (ds_csize s + zlen chunk) (ds_md5 s ++ chunk), None)
    end.

(** Loop of [decompstrm_read], drpm_decompstrm.c lines 398-400. *)
Fixpoint fill_loop (fuel : nat) (s : dstrm) (n : Z) : res dstrm :=
  if ds_pos s + n <=? zlen (ds_data s) then Ok s
  else match fuel with
       | O => NoFuel
       | S f => match read_chunk s with
                | (s', None) => fill_loop f s' n
                | (_, Some e) => Err e
                end
       end.
(** Every iteration consumes input or fails. *)
Definition fill_fuel (s : dstrm) : nat := S (length (ds_in s)).

(** [decompstrm_read], drpm_decompstrm.c lines 388-408. *)
Definition decompstrm_read (s : dstrm) (n : Z) : res (dstrm * list Z) :=
  if u64 (zlen (ds_data s) + n) <? n then Err EOverflow
  else
    s <- fill_loop (fill_fuel s) s n ;;
    out <- rd_range (ds_data s) (ds_pos s) n ;;
    Ok (mkds (ds_comp s) (ds_in s) (ds_fed s) (ds_data s) (ds_pos s + n) (ds_csize s) (ds_md5 s), out).

(** [decompstrm_read_be32], [decompstrm_read_be64], drpm_decompstrm.c lines 355-385. *)
Definition decompstrm_read_be32 (s : dstrm) : res (dstrm * Z) :=
  '(s, b) <- decompstrm_read s 4 ;; v <- parse_be32_at b 0 ;; Ok (s, v).
Definition decompstrm_read_be64 (s : dstrm) : res (dstrm * Z) :=
  '(s, b) <- decompstrm_read s 8 ;; v <- parse_be64_at b 0 ;; Ok (s, v).

(** Loop of [decompstrm_read_until_eof], drpm_decompstrm.c lines 422-435: a format error
    counts as end of data.  (The overflow test of line 433 cannot fire: [data_len]
    never decreases below 2^64.) *)
Fixpoint eof_loop (fuel : nat) (s : dstrm) : res dstrm :=
  match fuel with
  | O => NoFuel
  | S f => match read_chunk s with
           | (s', None) => eof_loop f s'
           | (s', Some EFormat) => Ok s'
           | (_, Some e) => Err e
           end
  end.

(** [decompstrm_read_until_eof], drpm_decompstrm.c lines 412-448. *)
Definition decompstrm_read_until_eof (s : dstrm) : res (dstrm * list Z) :=
  s <- eof_loop (fill_fuel s) s ;;
  let out := slice (ds_data s) (ds_pos s) (zlen (ds_data s) - ds_pos s) in
  Ok (mkds (ds_comp s) (ds_in s) (ds_fed s) (ds_data s) (zlen (ds_data s)) (ds_csize s) (ds_md5 s), out).

End Streams.

Arguments compstrm_write cd s piece : simpl never.
