(** * CodecUse: which library a stream uses and how it is set up, /repo/src/drpm_compstrm.c lines 437-497 and
    /repo/src/drpm_decompstrm.c lines 144-241 and 294-333

    Configuration modelled: built with zstd, without lzlib.  What the libraries do is a parameter, see [CodecLoop].
    Failing allocations of drpm itself are not modelled. *)
From Verif Require Import Base DeltaComp Stream CodecLoop.

(** ** Writing *)

(** The encoding half of the libraries; [el_preset] is [lzma_lzma_preset]. *)
Record encoding := mkencoding {
  el_gzip : encoder; el_bzip2 : encoder; el_lzma : encoder; el_xz : encoder; el_zstd : encoder; el_preset : Z -> bool
}.

Section Writing.
Variable E : encoding.

(** The part of [struct compstrm] that depends on the method: the state of the library and, with it, the functions
    [write_chunk] and [finish]. *)
Inductive estate :=
| EPlain
| EGzip (s : option (e_state (el_gzip E)))
| EBzip2 (s : option (e_state (el_bzip2 E)))
| ELzma (s : option (e_state (el_lzma E)))
| EXz (s : option (e_state (el_xz E)))
| EZstd (s : option (e_state (el_zstd E))).

(** The choice in [compstrm_init], drpm_compstrm.c lines 453-488. *)
Definition open_encoder (comp level : Z) : res estate :=
  if comp =? COMP_NONE then Ok EPlain
  else if comp =? COMP_GZIP then s <- init_gzip (el_gzip E) level ;; Ok (EGzip s)
  else if comp =? COMP_BZIP2 then s <- init_bzip2 (el_bzip2 E) level ;; Ok (EBzip2 s)
  else if comp =? COMP_LZMA then s <- init_lzma (el_preset E) (el_lzma E) level ;; Ok (ELzma s)
  else if comp =? COMP_XZ then s <- init_xz (el_xz E) level ;; Ok (EXz s)
  else if comp =? COMP_ZSTD then s <- init_zstd (el_zstd E) level ;; Ok (EZstd s)
  else Err EProg.

(** [write_chunk], as set by the functions [init_*], drpm_compstrm.c lines 283-418 (and line 455); without compression it
    copies, lines 596-608. *)
Definition turn {St} (f : option St -> estate) (r : res (option St * list Z)) : res (estate * list Z) :=
  '(s, data) <- r ;; Ok (f s, data).
Definition encoder_chunk (fuel : nat) (s : estate) (data piece : list Z) : res (estate * list Z) :=
  match s with
  | EPlain => Ok (EPlain, data ++ piece)
  | EGzip s => turn EGzip (writechunk_gzip fuel (el_gzip E) s data piece)
  | EBzip2 s => turn EBzip2 (writechunk_bzip2 fuel (el_bzip2 E) s data piece)
  | ELzma s => turn ELzma (writechunk_lzma fuel (el_lzma E) s data piece)
  | EXz s => turn EXz (writechunk_lzma fuel (el_xz E) s data piece)
  | EZstd s => turn EZstd (writechunk_zstd fuel (el_zstd E) s data piece)
  end.

(** [finish], set at the same places. *)
Definition encoder_finish (fuel : nat) (s : estate) (data : list Z) : res (list Z) :=
  match s with
  | EPlain => Ok data
  | EGzip s => finish_gzip fuel (el_gzip E) s data
  | EBzip2 s => finish_bzip2 fuel (el_bzip2 E) s data
  | ELzma s => finish_lzma fuel (el_lzma E) s data
  | EXz s => finish_lzma fuel (el_xz E) s data
  | EZstd s => finish_zstd fuel (el_zstd E) s data
  end.
End Writing.
Arguments EPlain {E}. Arguments EGzip {E}. Arguments EBzip2 {E}. Arguments ELzma {E}. Arguments EXz {E}. Arguments EZstd {E}.

(** ** Reading *)

(** The decoding half of the libraries.  Arguments: BZ2_bzDecompressInit (verbosity, small), inflateInit2 (window bits),
    lzma_auto_decoder (memory limit, flags); ZSTD_createDCtx has none and returns NULL if it fails. *)
Record decoding := mkdecoding {
  dl_bzip2 : Type; dl_bzip2_init : Z -> Z -> Z * dl_bzip2; dl_bzip2_run : call dl_bzip2;
  dl_gzip : Type; dl_gzip_init : Z -> Z * dl_gzip; dl_gzip_run : call dl_gzip;
  dl_lzma : Type; dl_lzma_init : Z -> Z -> Z * dl_lzma; dl_lzma_run : call dl_lzma;
  dl_zstd : Type; dl_zstd_create : option dl_zstd; dl_zstd_run : call dl_zstd
}.

Section Reading.
Variable D : decoding.

(** The part of [struct decompstrm] that depends on the method, drpm_decompstrm.c lines 55-66 and 68: the state of the
    library, which is [None] where the library refused without drpm noticing, and with it [read_chunk]. *)
Inductive dstate :=
| DPlain
| DBzip2 (s : option (dl_bzip2 D))
| DGzip (s : option (dl_gzip D))
| DLzma (s : dl_lzma D)
| DZstd (s : dl_zstd D).

(** [init_bzip2], drpm_decompstrm.c lines 147-167: BZ_CONFIG_ERROR is -9, BZ_MEM_ERROR is -3. *)
Definition open_bzip2 : res dstate :=
  let '(ret, s) := dl_bzip2_init D 0 1 in
  if ret =? -9 then Err EConfig
  else if ret =? -3 then Err EMemory
  else Ok (DBzip2 (if ret =? 0 then Some s else None)).

(** [init_gzip], drpm_decompstrm.c lines 169-189: Z_VERSION_ERROR is -6, Z_MEM_ERROR is -4, MAX_WBITS is 15. *)
Definition open_gzip : res dstate :=
  let '(ret, s) := dl_gzip_init D (16 + 15) in
  if ret =? -6 then Err EConfig
  else if ret =? -4 then Err EMemory
  else Ok (DGzip (if ret =? 0 then Some s else None)).

(** [init_lzma], drpm_decompstrm.c lines 191-209: LZMA_MEM_ERROR is 5. *)
Definition open_lzma : res dstate :=
  let '(ret, s) := dl_lzma_init D (2 ^ 64 - 1) 0 in
  if ret =? 0 then Ok (DLzma s) else if ret =? 5 then Err EMemory else Err EFormat.

(** [init_zstd], drpm_decompstrm.c lines 231-240. *)
Definition open_zstd : res dstate :=
  match dl_zstd_create D with None => Err EMemory | Some s => Ok (DZstd s) end.

(** The choice in [decompstrm_init], drpm_decompstrm.c lines 294-333. *)
Definition open_decoder (comp : Z) : res dstate :=
  if comp =? COMP_GZIP then open_gzip
  else if comp =? COMP_BZIP2 then open_bzip2
  else if comp =? COMP_XZ then open_lzma
  else if comp =? COMP_LZMA then open_lzma
  else if comp =? COMP_ZSTD then open_zstd
  else Ok DPlain.
Definition open_stream (magic : Z) : res dstate := open_decoder (detect_comp magic).

(** [read_chunk] after a chunk has been read from the file or buffer, drpm_decompstrm.c lines 453-485 (no compression)
    and the functions of [CodecLoop]. *)
Definition wrap {St} (f : St -> dstate) (r : res (St * list Z * option err)) : res (dstate * list Z * option err) :=
  '(s, data, e) <- r ;; Ok (f s, data, e).
Definition decoder_chunk (fuel : nat) (s : dstate) (data chunk : list Z) : res (dstate * list Z * option err) :=
  match s with
  | DPlain => Ok (DPlain, data ++ chunk, None)
  | DBzip2 None | DGzip None => Ub Uninit
  | DBzip2 (Some s) => wrap (fun s => DBzip2 (Some s)) (readchunk_bzip2 fuel (mkdecoder _ s (dl_bzip2_run D)) s data chunk)
  | DGzip (Some s) => wrap (fun s => DGzip (Some s)) (readchunk_gzip fuel (mkdecoder _ s (dl_gzip_run D)) s data chunk)
  | DLzma s => wrap DLzma (readchunk_lzma fuel (mkdecoder _ s (dl_lzma_run D)) s data chunk)
  | DZstd s => wrap DZstd (readchunk_zstd fuel (mkdecoder _ s (dl_zstd_run D)) s data chunk)
  end.
End Reading.
Arguments DPlain {D}. Arguments DBzip2 {D}. Arguments DGzip {D}. Arguments DLzma {D}. Arguments DZstd {D}.
