(** Ownership in [drpm_apply] (drpm.c). *)
Require Import ZArith List Bool.
Require Import Verif.Own Verif.OwnCodec Verif.OwnRpm Verif.OwnRead Verif.OwnCheck Verif.OwnMake.
Require Import Verif.OwnBlocks.
Import ListNotations.
Open Scope Z_scope.
Open Scope own_scope.

(** Reading the old package, drpm.c lines 553-581: whether the function returns at once (lines
    574, 577), the result, and the package. *)
Definition apply_old (from : bool) (d : dlt) : M (bool * bool * rpm) :=
  if from then
    '(ok, r) <- rpm_read false false true true ;;
    if negb ok then ret (false, false, r)
    else if d_only d then
      ok <- rpm_signature_get_md5 r ;;
      if negb ok then ret (false, false, r)
      else use (d_seq d) ;; ok <- call ;; ret (false, ok, r)
    else ret (false, true, r)
  else if d_only d then ret (true, false, rpm_null)
  else
    use (r_self (d_rpm d)) ;;
    use (r_hdr (d_rpm d)) ;;
    binary <- call ;;
    if binary then
      '(ok, r) <- rpm_read_header ;; ret (false, ok, r)
    else ret (true, false, rpm_null).

(** Names, files and sequence, drpm.c lines 583-600: [old_rpm_nevr], [files], [cpio_files]. *)
Definition apply_files (d : dlt) (r : rpm) : M (bool * ptr * finfo * ptr) :=
  '(ok, nevr) <- rpm_get_nevr r ;;
  if negb ok then ret (false, nevr, fi_null, Null)
  else
    use (d_src d) ;;
    use nevr ;;
    same <- call ;;
    if negb same then ret (false, nevr, fi_null, Null)
    else if d_only d then ret (true, nevr, fi_null, Null)
    else
      '(ok, fi) <- rpm_get_file_info r fi_null ;;
      if negb ok then ret (false, nevr, fi, Null)
      else
        ok <- rpm_get_digest_algo r ;;
        if negb ok then ret (false, nevr, fi, Null)
        else '(ok, q) <- expand_sequence true CNone (d_seq d) fi ;; ret (ok, nevr, fi, q).

(** What the copying needs, drpm.c lines 616-671: [blks] with its lists and open files,
    [addblk_strm], [addblk_buf], [buffer], [header], [csw], [comp_data]. *)
Record parts : Type := mkparts
  { a_blks : blocks; a_pool : pool; a_open : list (ptr * ptr); a_strm : dstream; a_add : ptr;
    a_buf : ptr; a_hdr : ptr; a_csw : wrapper; a_comp : ptr }.
Definition no_parts : parts := mkparts b_null no_pool [] ds_null Null Null Null wr_null Null.

(** The add block, drpm.c lines 623-631. *)
Definition apply_add (add : bool) (d : dlt) : M (bool * dstream * ptr) :=
  if negb add then ret (true, ds_null, Null)
  else
    look (d_add d) ;;
    '(ok, s) <- decompstrm_init ds_null ;;
    if negb ok then ret (false, s, Null)
    else b <- malloc ;; ret (negb (isnull b), s, b).

(** Header of the target, drpm.c lines 653-666. *)
Definition apply_header (d : dlt) : M (bool * dlt * ptr) :=
  if d_only d then ret (true, d, Null)
  else
    '(ok, t) <- rpm_patch_payload_format (d_rpm d) ;;
    let d := set_d_rpm d t in
    if negb ok then ret (false, d, Null)
    else
      '(ok, h) <- rpm_fetch_header t ;;
      if negb ok then ret (false, d, h)
      else use h ;; ok <- call ;; ret (ok, d, h).

(** Lines 616-671 of drpm.c. *)
Definition apply_setup (from add : bool) (fd : ptr) (d : dlt) (r : rpm) : M (bool * dlt * parts) :=
  '(ok, b) <- blocks_create from (d_only d) r ;;
  if negb ok then ret (false, d, mkparts b no_pool [] ds_null Null Null Null wr_null Null)
  else
    '(ok, s, ab) <- apply_add add d ;;
    if negb ok then ret (false, d, mkparts b no_pool [] s ab Null Null wr_null Null)
    else
      buf <- malloc ;;
      if isnull buf then ret (false, d, mkparts b no_pool [] s ab buf Null wr_null Null)
      else
        ok <- gated e_hash ;;                        (* MD5_Init *)
        if negb ok then ret (false, d, mkparts b no_pool [] s ab buf Null wr_null Null)
        else
          use fd ;;
          use (d_lead d) ;;
          ok <- call ;;                              (* write, MD5_Update *)
          if negb ok then ret (false, d, mkparts b no_pool [] s ab buf Null wr_null Null)
          else
            '(ok, d, h) <- apply_header d ;;
            if negb ok then ret (false, d, mkparts b no_pool [] s ab buf h wr_null Null)
            else
              '(ok, w) <- wrapper_init ;;
              ret (ok, d, mkparts b no_pool [] s ab buf h w Null).

(** One piece of an external copy, drpm.c lines 695-717. *)
Definition ext_round (lim mo : Z) (from only add : bool) (r : rpm) (fi : finfo) (q : ptr)
  (a : parts) : M (bool * parts) :=
  let (b, p, fs, s, ab, buf, h, w, c) := a in
  '(ok, p, fs) <- blocks_next lim mo from only b r fi q buf p fs ;;
  if negb ok then ret (false, mkparts b p fs s ab buf h w c)
  else
    '(ok, s) <- (if add then use ab ;; decompstrm_read s else ret (true, s)) ;;
    if negb ok then ret (false, mkparts b p fs s ab buf h w c)
    else
      use buf ;;
      '(ok, w) <- wrapper_write w ;;
      ret (ok, mkparts b p fs s ab buf h w c).

(** One internal copy with the external ones before it, drpm.c lines 681-727. *)
Definition int_round (lim mo : Z) (from add : bool) (d : dlt) (r : rpm) (fi : finfo) (q : ptr)
  (a : parts) : M (bool * parts) :=
  look (d_int d) ;;
  look (d_ext d) ;;
  n <- pickn ;;
  '(ok, a) <- rounds n (ext_round lim mo from (d_only d) add r fi q) a ;;
  if negb ok then ret (false, a)
  else
    let (b, p, fs, s, ab, buf, h, w, c) := a in
    look (d_data d) ;;
    '(ok, w) <- wrapper_write w ;;
    ret (ok, mkparts b p fs s ab buf h w c).

(** Lines 673-737 of drpm.c. *)
Definition apply_copies (lim mo : Z) (from add : bool) (d : dlt) (r : rpm) (fi : finfo) (q : ptr)
  (a : parts) : M (bool * parts) :=
  n <- pickn ;;
  '(ok, a) <- rounds n (int_round lim mo from add d r fi q) a ;;
  if negb ok then ret (false, a)
  else
    let (b, p, fs, s, ab, buf, h, w, c) := a in
    '(ok, w, c) <- wrapper_finish w c ;;
    if negb ok then ret (false, mkparts b p fs s ab buf h w c)
    else use c ;; ok <- call ;; ret (ok, mkparts b p fs s ab buf h w c).

(** [final_check], drpm.c lines 739-755. *)
Definition apply_check (r : rpm) : M bool :=
  full <- call ;;
  if full then call
  else
    ok <- rpm_signature_get_md5 r ;;
    if negb ok then ret false else call.

(** Lines 602-755 of drpm.c. *)
Definition apply_write (lim mo : Z) (from add : bool) (fd : ptr) (d : dlt) (r : rpm) (fi : finfo)
  (q : ptr) : M (bool * dlt * rpm * parts) :=
  use (d_lead d) ;;
  '(ok, r) <- rpm_replace_lead_and_signature r ;;
  if negb ok then ret (false, d, r, no_parts)
  else
    nodiff <- (if d_only d then call else ret false) ;;
    if nodiff then
      ok <- rpm_write r ;;
      ok <- (if ok then apply_check r else ret false) ;;
      ret (ok, d, r, no_parts)
    else
      '(ok, d, a) <- apply_setup from add fd d r ;;
      if negb ok then ret (false, d, r, a)
      else
        '(ok, a) <- apply_copies lim mo from add d r fi q a ;;
        ok <- (if ok then apply_check r else ret false) ;;
        ret (ok, d, r, a).

(** [drpm_apply], drpm.c lines 498-781.  [from]: a file is named, so that the old package is
    not taken from the database; [add]: the delta has an add block; [lim] and [mo] stand for
    MAX_CORE_BLOCKS and MAX_OPEN_FILES (5000 and 50, drpm_block.c lines 37-38). *)
Definition drpm_apply (lim mo : Z) (from add : bool) : M bool :=
  fd <- tryn ;;
  if isnull fd then ret false
  else
    '(ok, d) <- read_deltarpm d_zero ;;
    '(early, ok, r) <- (if ok then apply_old from d else ret (false, false, rpm_null)) ;;
    if early then ret false                          (* lines 574, 577 *)
    else
      '(ok, nevr, fi, q) <- (if ok then apply_files d r else ret (false, Null, fi_null, Null)) ;;
      '(ok, d, r, a) <-
        (if ok then apply_write lim mo from add fd d r fi q else ret (false, d, r, no_parts)) ;;
      let (b, p, fs, s, ab, buf, h, w, c) := a in
      free fd ;;
      finfo_free fi ;;
      free_deltarpm d ;;
      rpm_destroy r ;;
      free nevr ;;
      blocks_destroy from b p fs ;;
      decompstrm_destroy s ;;
      wrapper_destroy w ;;
      free q ;;
      free ab ;;
      free buf ;;
      free h ;;
      free c ;;
      ret ok.
