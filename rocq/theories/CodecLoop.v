(** * CodecLoop: the loops that drive the codec libraries, /repo/src/drpm_compstrm.c lines
    102-164, 167-208, 248-279, 283-382, 403-418, 610-693, 735-760 and
    /repo/src/drpm_decompstrm.c lines 487-651, 733-780

    Configuration modelled: built with zstd, without lzlib.  The libraries are parameters: a
    [call] is one call of a streaming function (BZ2_bzCompress, deflate, lzma_code,
    ZSTD_compressStream2, ...).  Failing allocations are not modelled. *)
From Verif Require Import Base Stream.

(** State of the library, input offered, room in the output buffer; value returned, number of
    input bytes taken, bytes put into the output buffer, new state. *)
Definition call (St : Type) : Type := St -> list Z -> Z -> Z * Z * list Z * St.

(** One call on buffers: what it returns, the input that is left, its output, its state.  A
    library that takes more than offered or writes more than there is room for leaves the buffers. *)
Definition invoke {St} (f : call St) (s : St) (input : list Z) (room : Z) : res (Z * list Z * list Z * St) :=
  let '(ret, n, out, s') := f s input room in
  if room <? zlen out then Ub OobWrite
  else if (n <? 0) || (zlen input <? n) then Ub OobRead
  else Ok (ret, slice input n (zlen input - n), out, s').

(** An encoder: what its initialisation returns for a level, and its functions for running and
    finishing. *)
Record encoder := mkencoder {
  e_state : Type;
  e_init : Z -> Z * e_state;
  e_run : call e_state;
  e_finish : call e_state
}.

(** A decoder: state after its initialisation, and its decoding function. *)
Record decoder := mkdecoder { d_state : Type; d_start : d_state; d_run : call d_state }.

(** ** Initialisation of encoders

    The state of a stream is [None] where the initialisation failed without drpm noticing: the
    members of [strm->stream] were never set then, and using them is undefined. *)

(** [init_bzip2], drpm_compstrm.c lines 283-307: BZ_CONFIG_ERROR is -9, BZ_MEM_ERROR is -3. *)
Definition init_bzip2 (e : encoder) (level : Z) : res (option (e_state e)) :=
  let '(ret, s) := e_init e (if level =? 0 then 9 else level) in
  if ret =? -9 then Err EConfig
  else if ret =? -3 then Err EMemory
  else Ok (if ret =? 0 then Some s else None).

(** [init_gzip], drpm_compstrm.c lines 309-332: Z_BEST_COMPRESSION is 9, Z_VERSION_ERROR is -6,
    Z_MEM_ERROR is -4. *)
Definition init_gzip (e : encoder) (level : Z) : res (option (e_state e)) :=
  let '(ret, s) := e_init e (if level =? 0 then 9 else level) in
  if ret =? -6 then Err EConfig
  else if ret =? -4 then Err EMemory
  else Ok (if ret =? 0 then Some s else None).

(** [init_lzma], drpm_compstrm.c lines 334-358: [preset] says whether [lzma_lzma_preset] knows
    the level; otherwise the options stay uninitialised.  LZMA_MEM_ERROR is 5. *)
Definition init_lzma (preset : Z -> bool) (e : encoder) (level : Z) : res (option (e_state e)) :=
  let level := if level =? 0 then 2 else level in
  if negb (preset level) then Ub Uninit
  else
    let '(ret, s) := e_init e level in
    if ret =? 0 then Ok (Some s) else if ret =? 5 then Err EMemory else Err EFormat.

(** [init_xz], drpm_compstrm.c lines 360-382. *)
Definition init_xz (e : encoder) (level : Z) : res (option (e_state e)) :=
  let '(ret, s) := e_init e (if level =? 0 then 3 else level) in
  if ret =? 0 then Ok (Some s) else if ret =? 5 then Err EMemory else Err EFormat.

(** [ZSTD_isError]. *)
Definition zstd_error (ret : Z) : bool := 2 ^ 64 - 120 <? ret.

(** [init_zstd], drpm_compstrm.c lines 403-418. *)
Definition init_zstd (e : encoder) (level : Z) : res (option (e_state e)) :=
  let '(ret, s) := e_init e (if level =? 0 then 19 else level) in
  if zstd_error ret then Err EOther else Ok (Some s).

(** ** Writing *)

(** Loop of [writechunk_bzip2], [writechunk_gzip] and [writechunk_lzma]: it goes on as long as
    the output buffer is filled.  [bad] are the return values that end it with an error. *)
Fixpoint write_loop {St} (fuel : nat) (f : call St) (bad : Z -> option err) (s : St) (input data : list Z)
  : res (St * list Z) :=
  match fuel with
  | O => NoFuel
  | S fuel =>
      '(ret, input', out, s') <- invoke f s input CHUNK_SIZE ;;
      match bad ret with
      | Some e => Err e
      | None =>
          if CHUNK_SIZE - zlen out =? 0 then write_loop fuel f bad s' input' (data ++ out)
          else Ok (s', data ++ out)
      end
  end.

(** Errors of [lzma_code] in [writechunk_lzma], drpm_compstrm.c lines 674-681. *)
Definition lzma_run_error (ret : Z) : option err :=
  if ret =? 0 then None else if ret =? 5 then Some EMemory else Some EFormat.

(** [avail_in] of bzip2 and zlib is an unsigned int: so much of the input is offered. *)
Definition offered (input : list Z) : list Z := slice input 0 (u32 (zlen input)).

(** [writechunk_bzip2], drpm_compstrm.c lines 610-634, [writechunk_gzip], lines 636-660: what the
    library returns is ignored. *)
Definition writechunk_plain (fuel : nat) (e : encoder) (s : option (e_state e)) (data input : list Z)
  : res (option (e_state e) * list Z) :=
  match s with
  | None => Ub Uninit
  | Some s => '(s, data) <- write_loop fuel (e_run e) (fun _ => None) s (offered input) data ;; Ok (Some s, data)
  end.
Definition writechunk_bzip2 := writechunk_plain.
Definition writechunk_gzip := writechunk_plain.

(** [writechunk_lzma], drpm_compstrm.c lines 662-693. *)
Definition writechunk_lzma (fuel : nat) (e : encoder) (s : option (e_state e)) (data input : list Z)
  : res (option (e_state e) * list Z) :=
  match s with
  | None => Ub Uninit
  | Some s => '(s, data) <- write_loop fuel (e_run e) lzma_run_error s input data ;; Ok (Some s, data)
  end.

(** [ZSTD_CStreamOutSize()]: bound of a compressed block of 128 KiB, with header and checksum. *)
Definition ZSTD_OUT : Z := 131591.

(** Loop of [writechunk_zstd], drpm_compstrm.c lines 744-756: it ends when the input is used up. *)
Fixpoint zwrite_loop {St} (fuel : nat) (f : call St) (s : St) (input data : list Z) : res (St * list Z) :=
  match fuel with
  | O => NoFuel
  | S fuel =>
      '(ret, input', out, s') <- invoke f s input ZSTD_OUT ;;
      if zstd_error ret then Err EOther
      else if negb (zlen input' =? 0) then zwrite_loop fuel f s' input' (data ++ out)
      else Ok (s', data ++ out)
  end.

(** [writechunk_zstd], drpm_compstrm.c lines 735-760. *)
Definition writechunk_zstd (fuel : nat) (e : encoder) (s : option (e_state e)) (data input : list Z)
  : res (option (e_state e) * list Z) :=
  match s with
  | None => Ub Uninit
  | Some s => '(s, data) <- zwrite_loop fuel (e_run e) s input data ;; Ok (Some s, data)
  end.

(** ** Finishing *)

(** Loops of the finish functions: [bad] as above, [more ret out] says whether the loop goes on. *)
Fixpoint finish_loop {St} (fuel : nat) (f : call St) (size : Z) (bad : Z -> option err) (more : Z -> list Z -> bool)
  (s : St) (data : list Z) : res (list Z) :=
  match fuel with
  | O => NoFuel
  | S fuel =>
      '(ret, _, out, s') <- invoke f s [] size ;;
      match bad ret with
      | Some e => Err e
      | None => if more ret out then finish_loop fuel f size bad more s' (data ++ out) else Ok (data ++ out)
      end
  end.

(** A stream whose library state was never set. *)
Definition ready {St A} (s : option St) (k : St -> res A) : res A :=
  match s with None => Ub Uninit | Some s => k s end.

(** [finish_bzip2], drpm_compstrm.c lines 102-133: until BZ_STREAM_END (4). *)
Definition finish_bzip2 (fuel : nat) (e : encoder) (s : option (e_state e)) (data : list Z) : res (list Z) :=
  ready s (fun s => finish_loop fuel (e_finish e) CHUNK_SIZE (fun _ => None) (fun ret _ => negb (ret =? 4)) s data).

(** [finish_gzip], drpm_compstrm.c lines 135-165: until the output buffer is not filled. *)
Definition finish_gzip (fuel : nat) (e : encoder) (s : option (e_state e)) (data : list Z) : res (list Z) :=
  ready s (fun s => finish_loop fuel (e_finish e) CHUNK_SIZE (fun _ => None) (fun _ out => CHUNK_SIZE - zlen out =? 0) s data).

(** Errors of [lzma_code] in [finish_lzma], drpm_compstrm.c lines 181-191. *)
Definition lzma_finish_error (ret : Z) : option err :=
  if (ret =? 0) || (ret =? 1) then None else if ret =? 5 then Some EMemory else Some EFormat.

(** [finish_lzma], drpm_compstrm.c lines 167-208: until LZMA_STREAM_END (1). *)
Definition finish_lzma (fuel : nat) (e : encoder) (s : option (e_state e)) (data : list Z) : res (list Z) :=
  ready s (fun s => finish_loop fuel (e_finish e) CHUNK_SIZE lzma_finish_error (fun ret _ => negb (ret =? 1)) s data).

(** [finish_zstd], drpm_compstrm.c lines 248-279: until 0 is returned. *)
Definition finish_zstd (fuel : nat) (e : encoder) (s : option (e_state e)) (data : list Z) : res (list Z) :=
  ready s (fun s => finish_loop fuel (e_finish e) ZSTD_OUT (fun ret => if zstd_error ret then Some EOther else None)
                      (fun ret _ => negb (ret =? 0)) s data).

(** ** Reading *)

(** Loop of [readchunk_bzip2], [readchunk_gzip] and [readchunk_lzma]: as for writing; output that
    was appended before an error stays. *)
Fixpoint read_loop {St} (fuel : nat) (f : call St) (bad : Z -> option err) (s : St) (input data : list Z)
  : res (St * list Z * option err) :=
  match fuel with
  | O => NoFuel
  | S fuel =>
      '(ret, input', out, s') <- invoke f s input CHUNK_SIZE ;;
      match bad ret with
      | Some e => Ok (s', data, Some e)
      | None =>
          if CHUNK_SIZE - zlen out =? 0 then read_loop fuel f bad s' input' (data ++ out)
          else Ok (s', data ++ out, None)
      end
  end.

(** Errors of [BZ2_bzDecompress] in [readchunk_bzip2], drpm_decompstrm.c lines 514-520. *)
Definition bzip2_read_error (ret : Z) : option err :=
  if (ret =? -4) || (ret =? -5) then Some EFormat else if ret =? -3 then Some EMemory else None.

(** Errors of [inflate] in [readchunk_gzip], drpm_decompstrm.c lines 567-574. *)
Definition gzip_read_error (ret : Z) : option err :=
  if (ret =? -3) || (ret =? 2) || (ret =? -2) then Some EFormat else if ret =? -4 then Some EMemory else None.

(** Errors of [lzma_code] in [readchunk_lzma], drpm_decompstrm.c lines 621-634. *)
Definition lzma_read_error (ret : Z) : option err :=
  if (ret =? 0) || (ret =? 1) then None
  else if (ret =? 7) || (ret =? 8) || (ret =? 9) || (ret =? 10) then Some EFormat
  else if ret =? 5 then Some EMemory else Some EOther.

(** [readchunk_bzip2], [readchunk_gzip], [readchunk_lzma], drpm_decompstrm.c lines 487-651, from the
    point where a chunk has been read (reading the chunk and updating the size and the MD5 are in
    [Stream.read_chunk]). *)
Definition readchunk_bzip2 (fuel : nat) (d : decoder) (s : d_state d) (data chunk : list Z) :=
  read_loop fuel (d_run d) bzip2_read_error s chunk data.
Definition readchunk_gzip (fuel : nat) (d : decoder) (s : d_state d) (data chunk : list Z) :=
  read_loop fuel (d_run d) gzip_read_error s chunk data.
Definition readchunk_lzma (fuel : nat) (d : decoder) (s : d_state d) (data chunk : list Z) :=
  read_loop fuel (d_run d) lzma_read_error s chunk data.

(** [ZSTD_DStreamOutSize()]: a block, 128 KiB. *)
Definition ZSTD_DOUT : Z := 131072.

(** Loop of [readchunk_zstd], drpm_decompstrm.c lines 759-771: as long as there is input left. *)
Fixpoint zread_loop {St} (fuel : nat) (f : call St) (s : St) (input data : list Z) : res (St * list Z * option err) :=
  if zlen input =? 0 then Ok (s, data, None)
  else
    match fuel with
    | O => NoFuel
    | S fuel =>
        '(ret, input', out, s') <- invoke f s input ZSTD_DOUT ;;
        if zstd_error ret then Ok (s', data, Some EOther)
        else zread_loop fuel f s' input' (data ++ out)
    end.

(** [readchunk_zstd], drpm_decompstrm.c lines 733-780, from the point where a chunk has been read. *)
Definition readchunk_zstd (fuel : nat) (d : decoder) (s : d_state d) (data chunk : list Z) :=
  zread_loop fuel (d_run d) s chunk data.
