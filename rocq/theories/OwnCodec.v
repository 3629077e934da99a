(** Ownership in the compression and decompression streams (drpm_decompstrm.c,
    drpm_compstrm.c, and the wrapper in drpm_write.c). *)
Require Import ZArith List Bool.
Require Import Verif.Own.
Import ListNotations.
Open Scope Z_scope.
Open Scope own_scope.

(** [struct decompstrm], drpm_decompstrm.c lines 50-73: address, output so far, state of the
    codec library (null without compression), and whether that is zstd. *)
Record dstream : Type := mkds { ds_self : ptr; ds_data : ptr; ds_codec : ptr; ds_zstd : bool }.
Definition ds_null : dstream := mkds Null Null Null false.
Definition ds_junk : dstream := mkds Junk Null Null false.
Definition set_ds_data (d : dstream) (p : ptr) : dstream :=
  mkds (ds_self d) p (ds_codec d) (ds_zstd d).

(** [decompstrm_init], drpm_decompstrm.c lines 264-342; [old] is what the variable held
    before.  (The codecs release what they allocated if their initialisation fails, lines
    147-240.) *)
Definition decompstrm_init (old : dstream) : M (bool * dstream) :=
  ok <- call ;;                                      (* lines 270-280 *)
  if negb ok then ret (false, old)
  else
    self <- malloc ;;
    if isnull self then ret (false, ds_null)
    else
      plain <- call ;;
      if plain then ret (true, mkds self Null Null false)
      else
        zstd <- call ;;
        c <- tryn ;;
        if isnull c then free self ;; ret (false, ds_null)
        else ret (true, mkds self Null c zstd).

(** [decompstrm_destroy], drpm_decompstrm.c lines 244-257. *)
Definition decompstrm_destroy (d : dstream) : M dstream :=
  if isnull (ds_self d) then ret d
  else
    use (ds_self d) ;;
    free (ds_codec d) ;;
    free (ds_data d) ;;
    free (ds_self d) ;;
    ret ds_null.

(** Outcome of [read_chunk]: done, end of the input ([DRPM_ERR_FORMAT]), another error. *)
Inductive chunk : Type := CDone | CEnd | CFail.

(** One round of the loops of [readchunk_*]: the codec, then [realloc] of the data
    (drpm_decompstrm.c lines 509-530, 562-584, 616-644, 757-772).  The function without
    compression makes one round in which only [realloc] can fail (lines 472-478); the picks
    cover that. *)
Definition read_round (d : dstream) : M (bool * dstream) :=
  ok <- call ;;
  if negb ok then ret (false, d)
  else
    empty <- call ;;
    if negb empty then ret (true, d)                 (* no output: nothing to store *)
    else
      t <- realloc (ds_data d) ;;
      if isnull t then ret (false, d) else ret (true, set_ds_data d t).

(** [readchunk], [readchunk_bzip2], [readchunk_gzip], [readchunk_lzma], [readchunk_zstd],
    drpm_decompstrm.c lines 453-651 and 733-780.  Only the last one has an output buffer on
    the heap; its error returns do not release it. *)
Definition read_chunk (d : dstream) : M (chunk * dstream) :=
  use (ds_self d) ;;
  ok <- call ;;
  if negb ok then
    eof <- call ;; ret (if eof then CEnd else CFail, d)
  else
    buf <- (if ds_zstd d then malloc else ret Null) ;;
    if ds_zstd d && isnull buf then ret (CFail, d)
    else
      n <- pickn ;;
      '(ok, d) <- rounds n read_round d ;;
      if negb ok then ret (CFail, d)
      else
        ok <- gated e_hash ;;
        if negb ok then ret (CFail, d)
        else free buf ;; ret (CDone, d).

(** One round of [decompstrm_read]: the end of the input is an error here. *)
Definition want_chunk (d : dstream) : M (bool * dstream) :=
  '(c, d) <- read_chunk d ;;
  ret (match c with CDone => true | _ => false end, d).

(** [decompstrm_read], drpm_decompstrm.c lines 388-408. *)
Definition decompstrm_read (d : dstream) : M (bool * dstream) :=
  use (ds_self d) ;;
  ok <- call ;;
  if negb ok then ret (false, d)
  else n <- pickn ;; rounds n want_chunk d.

(** [decompstrm_read_until_eof], drpm_decompstrm.c lines 412-448, with both results wanted:
    the buffer is a new block.  [n] successful chunks, then the one that ends the loop. *)
Definition decompstrm_read_until_eof (d : dstream) : M (bool * dstream * ptr) :=
  n <- pickn ;;
  '(ok, d) <- rounds n want_chunk d ;;
  if negb ok then ret (false, d, Null)
  else
    '(c, d) <- read_chunk d ;;
    match c with
    | CFail => ret (false, d, Null)
    | _ => b <- malloc ;; ret (negb (isnull b), d, b)
    end.

(** [struct compstrm], drpm_compstrm.c lines 40-59. *)
Record cstream : Type := mkcs { cs_self : ptr; cs_data : ptr; cs_codec : ptr; cs_zstd : bool }.
Definition cs_null : cstream := mkcs Null Null Null false.
Definition cs_junk : cstream := mkcs Junk Null Null false.
Definition set_cs_data (c : cstream) (p : ptr) : cstream :=
  mkcs (cs_self c) p (cs_codec c) (cs_zstd c).
Definition end_codec (c : cstream) : cstream :=
  mkcs (cs_self c) (cs_data c) Null (cs_zstd c).

(** [compstrm_init], drpm_compstrm.c lines 437-497; [old] is what the variable held before.
    An unknown method is found after the allocation, and the block is left in the variable
    (lines 486-487).  [init_zstd] can fail after the context was created (lines 411-412).
    [checked]: the level was checked before, as that of an add block was when it became an
    option (drpm_options.c lines 205-207). *)
Definition compstrm_init (checked : bool) (old : cstream) : M (bool * cstream) :=
  ok <- (if checked then ret true else call) ;;      (* level, line 441 *)
  if negb ok then ret (false, old)
  else
    self <- malloc ;;
    if isnull self then ret (false, cs_null)
    else
      plain <- call ;;
      if plain then ret (true, mkcs self Null Null false)
      else
        known <- call ;;
        if negb known then ret (false, mkcs self Null Null false)
        else
          zstd <- call ;;
          c <- tryn ;;
          if isnull c then free self ;; ret (false, cs_null)
          else
            ok <- (if zstd then call else ret true) ;;
            if negb ok then free self ;; ret (false, cs_null)
            else ret (true, mkcs self Null c zstd).

(** [compstrm_destroy], drpm_compstrm.c lines 422-432: the state of the codec library is not
    released here. *)
Definition compstrm_destroy (c : cstream) : M cstream :=
  if isnull (cs_self c) then ret c
  else
    use (cs_self c) ;;
    free (cs_data c) ;;
    free (cs_self c) ;;
    ret cs_null.

(** One round of the loops of [writechunk_*] and [finish_*]: drpm_compstrm.c lines 111-127,
    144-159, 176-202, 257-272, 617-631, 643-657, 670-690, 743-757; [writechunk] (lines
    596-608) makes one. *)
Definition write_round (c : cstream) : M (bool * cstream) :=
  ok <- call ;;
  if negb ok then ret (false, c)
  else
    empty <- call ;;
    if negb empty then ret (true, c)
    else
      t <- realloc (cs_data c) ;;
      if isnull t then ret (false, c) else ret (true, set_cs_data c t).

(** [compstrm_write], drpm_compstrm.c lines 563-591, with [writechunk], [writechunk_bzip2],
    [writechunk_gzip], [writechunk_lzma], [writechunk_zstd] (lines 596-692, 735-762); the
    output buffer of the last one is not released by its error returns. *)
Definition compstrm_write (c : cstream) : M (bool * cstream) :=
  use (cs_self c) ;;
  ok <- call ;;                                      (* finished, or no data *)
  if negb ok then ret (false, c)
  else
    buf <- (if cs_zstd c then malloc else ret Null) ;;
    if cs_zstd c && isnull buf then ret (false, c)
    else
      n <- pickn ;;
      '(ok, c) <- rounds n write_round c ;;
      if negb ok then ret (false, c)
      else
        free buf ;;
        ok <- call ;;                                (* write, lines 582-586 *)
        ret (ok, c).

(** [finish_bzip2], [finish_gzip], [finish_lzma], [finish_zstd], drpm_compstrm.c lines
    102-208 and 248-277: the first three end the codec in any case, the last one only if
    nothing failed.  Nothing to do without compression. *)
Definition finish_codec (c : cstream) : M (bool * cstream) :=
  if isnull (cs_codec c) then ret (true, c)
  else if cs_zstd c then
    buf <- malloc ;;
    if isnull buf then ret (false, c)
    else
      n <- pickn ;;
      '(ok, c) <- rounds n write_round c ;;
      if negb ok then ret (false, c)
      else
        free buf ;;
        free (cs_codec c) ;;
        ret (true, end_codec c)
  else
    n <- pickn ;;
    '(ok, c) <- rounds n write_round c ;;
    free (cs_codec c) ;;
    ret (ok, end_codec c).

(** [compstrm_finish], drpm_compstrm.c lines 502-536, with the data wanted.  [old] is what
    [*data] held before; there is no block if there are no data. *)
Definition compstrm_finish (c : cstream) (old : ptr) : M (bool * cstream * ptr) :=
  use (cs_self c) ;;
  ok <- call ;;                                      (* finished before *)
  if negb ok then ret (false, c, old)
  else
    '(ok, c) <- finish_codec c ;;
    if negb ok then ret (false, c, Null)
    else
      ok <- call ;;                                  (* write, lines 520-523 *)
      if negb ok then ret (false, c, Null)
      else
        some <- call ;;
        if negb some then ret (true, c, Null)
        else d <- malloc ;; ret (negb (isnull d), c, d).

(** [struct compstrm_wrapper], drpm_private.h: address, the uncompressed part, the stream. *)
Record wrapper : Type := mkwr { wr_self : ptr; wr_data : ptr; wr_strm : cstream }.
Definition wr_null : wrapper := mkwr Null Null cs_null.
Definition set_wr_strm (w : wrapper) (c : cstream) : wrapper := mkwr (wr_self w) (wr_data w) c.

(** [compstrm_wrapper_init], drpm_write.c lines 301-328. *)
Definition wrapper_init : M (bool * wrapper) :=
  self <- malloc ;;
  if isnull self then ret (false, wr_null)
  else
    d <- malloc ;;
    if isnull d then free self ;; ret (false, wr_null)
    else
      '(ok, c) <- compstrm_init false cs_junk ;;
      if negb ok then free d ;; free self ;; ret (false, wr_null)
      else ret (true, mkwr self d c).

(** [compstrm_wrapper_destroy], drpm_write.c lines 330-340. *)
Definition wrapper_destroy (w : wrapper) : M unit :=
  if isnull (wr_self w) then ret tt
  else
    use (wr_self w) ;;
    compstrm_destroy (wr_strm w) ;;
    free (wr_data w) ;;
    free (wr_self w).

(** [compstrm_wrapper_write], drpm_write.c lines 342-366. *)
Definition wrapper_write (w : wrapper) : M (bool * wrapper) :=
  use (wr_self w) ;;
  ok <- call ;;                                      (* lines 346-358 *)
  if negb ok then ret (false, w)
  else '(ok, c) <- compstrm_write (wr_strm w) ;; ret (ok, set_wr_strm w c).

(** [compstrm_wrapper_finish], drpm_write.c lines 368-391: if [realloc] fails, [*data] is
    released and the variable keeps its value (lines 379-382). *)
Definition wrapper_finish (w : wrapper) (old : ptr) : M (bool * wrapper * ptr) :=
  use (wr_self w) ;;
  '(ok, c, d) <- compstrm_finish (wr_strm w) old ;;
  let w := set_wr_strm w c in
  if negb ok then ret (false, w, d)
  else
    t <- realloc d ;;
    if isnull t then free d ;; ret (false, w, d)
    else ret (true, w, t).
