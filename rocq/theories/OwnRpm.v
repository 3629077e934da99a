(** Ownership in drpm_rpm.c: packages, their headers and archives. *)
Require Import ZArith List Bool.
Require Import Verif.Own Verif.OwnCodec.
Import ListNotations.
Open Scope Z_scope.
Open Scope own_scope.

(** [struct rpm], drpm_rpm.c lines 42-50: address, two librpm headers, archive. *)
Record rpm : Type := mkrpm { r_self : ptr; r_sig : ptr; r_hdr : ptr; r_arch : ptr }.
Definition rpm_null : rpm := mkrpm Null Null Null Null.
Definition rpm_junk : rpm := mkrpm Junk Null Null Null.
Definition set_sig (r : rpm) (p : ptr) : rpm := mkrpm (r_self r) p (r_hdr r) (r_arch r).
Definition set_hdr (r : rpm) (p : ptr) : rpm := mkrpm (r_self r) (r_sig r) p (r_arch r).
Definition set_arch (r : rpm) (p : ptr) : rpm := mkrpm (r_self r) (r_sig r) (r_hdr r) p.

(** [rpm_free], drpm_rpm.c lines 75-85. *)
Definition rpm_free (r : rpm) : M rpm :=
  use (r_self r) ;;
  free (r_sig r) ;;
  free (r_hdr r) ;;
  free (r_arch r) ;;
  ret (mkrpm (r_self r) Null Null Null).

(** [rpm_destroy], drpm_rpm.c lines 356-366. *)
Definition rpm_destroy (r : rpm) : M rpm :=
  if isnull (r_self r) then ret r
  else
    r <- rpm_free r ;;
    free (r_self r) ;;
    ret rpm_null.

(** [rpm_export_signature] and [rpm_export_header], drpm_rpm.c lines 87-145: a block that
    [headerExport] made and a copy of it, which is what the caller gets (null on failure).
    [h] is the header exported. *)
Definition rpm_export (r : rpm) (h : ptr) : M (bool * ptr) :=
  use (r_self r) ;;
  use h ;;
  x <- malloc ;;
  if isnull x then ret (false, Null)
  else
    y <- malloc ;;
    free x ;;
    ret (negb (isnull y), y).

(** [rpm_header_unload_region], drpm_rpm.c lines 147-175.  The data of a tag are not a
    resource of the model, only the [rpmtd] is. *)
Definition rpm_unload_region (r : rpm) : M rpm :=
  td <- new ;;
  use (r_hdr r) ;;
  has <- call ;;
  if negb has then free td ;; ret r
  else
    free (r_hdr r) ;;
    h <- new ;;
    copy <- new ;;
    hdr <- new ;;
    iter <- new ;;
    use h ;;
    free iter ;;
    free hdr ;;
    free copy ;;
    free td ;;
    ret (set_hdr r h).

(** The loop that reads the archive as it is, drpm_rpm.c lines 206-220: the result of
    [realloc] is stored only after the sums were updated. *)
Definition archive_round (r : rpm) : M (bool * rpm) :=
  t <- realloc (r_arch r) ;;
  if isnull t then ret (false, r)
  else
    ok <- gated e_hash ;;
    if negb ok then ret (false, r) else ret (true, set_arch r t).

(** [rpm_read_archive], drpm_rpm.c lines 177-236. *)
Definition rpm_read_archive (r : rpm) (decomp : bool) : M (bool * rpm) :=
  fd <- tryn ;;
  if isnull fd then ret (false, r)
  else
    ok <- call ;;                                    (* lseek *)
    '(ok, d, r) <-
      (if negb ok then ret (false, ds_null, r)
       else if decomp then
         '(ok, d) <- decompstrm_init ds_null ;;
         if negb ok then ret (false, d, r)
         else
           '(ok, d, b) <- decompstrm_read_until_eof d ;;
           if negb ok then ret (false, d, r)
           else
             d <- decompstrm_destroy d ;;
             ret (true, d, set_arch r b)
       else
         n <- pickn ;;
         '(ok, r) <- rounds n archive_round r ;;
         if negb ok then ret (false, ds_null, r)
         else ok <- call ;; ret (ok, ds_null, r)) ;;
    decompstrm_destroy d ;;
    free fd ;;
    ret (ok, r).

(** [rpm_read] up to its first label, drpm_rpm.c lines 289-341: result, the struct, and the
    variables [signature] and [header]. *)
Definition rpm_read_body (r : rpm) (seq full include decomp : bool)
  : M (bool * rpm * ptr * ptr) :=
  ok <- call ;;                                      (* lead *)
  if negb ok then ret (false, r, Null, Null)
  else
    s <- tryn ;;
    let r := set_sig r s in
    if isnull s then ret (false, r, Null, Null)
    else
      ok <- call ;;                                  (* Ftell, Fseek *)
      if negb ok then ret (false, r, Null, Null)
      else
        h <- tryn ;;
        let r := set_hdr r h in
        if isnull h then ret (false, r, Null, Null)
        else
          '(ok, header) <-
            (if seq then
               '(ok, x) <- rpm_export r (r_hdr r) ;;
               if negb ok then ret (false, x)
               else ok <- gated e_hash ;; ret (ok, x)
             else ret (true, Null)) ;;
          if negb ok then ret (false, r, Null, header)
          else
            '(ok, signature, header) <-
              (if full then
                 '(ok, y) <- rpm_export r (r_sig r) ;;
                 if negb ok then ret (false, y, header)
                 else
                   '(ok, header) <-
                     (if isnull header then rpm_export r (r_hdr r) else ret (true, header)) ;;
                   if negb ok then ret (false, y, header)
                   else ok <- gated e_hash ;; ret (ok, y, header)
               else ret (true, Null, header)) ;;
            if negb ok then ret (false, r, signature, header)
            else
              '(ok, r) <-
                (if include then
                   ok <- call ;;                     (* Ftell *)
                   if negb ok then ret (false, r) else rpm_read_archive r decomp
                 else ret (true, r)) ;;
              if negb ok then ret (false, r, signature, header)
              else
                ok <- (if seq || full then gated e_hash else ret true) ;;
                ret (ok, r, signature, header).

(** [rpm_read], drpm_rpm.c lines 245-353; which sums are wanted and how the archive is read.
    When it fails the struct stays allocated, with empty members. *)
Definition rpm_read (seq full include decomp : bool) : M (bool * rpm) :=
  self <- malloc ;;
  if isnull self then ret (false, rpm_null)
  else
    let r := mkrpm self Null Null Null in
    f <- tryn ;;                                     (* Fopen *)
    if isnull f then ret (false, r)
    else
      '(ok, r, signature, header) <- rpm_read_body r seq full include decomp ;;
      r <- (if ok then ret r else rpm_free r) ;;
      free signature ;;
      free header ;;
      free f ;;
      ret (ok, r).

(** [rpm_archive_read_chunk], [rpm_archive_rewind], [rpm_size_full], [rpm_size_header],
    [rpm_is_sourcerpm], [rpm_get_comp], [rpm_get_comp_level], [rpm_get_payload_format]
    (drpm_rpm.c lines 369-417, 571-574, 589-637, 681-702): these own nothing; they can fail. *)
Definition rpm_look (r : rpm) : M bool := use (r_self r) ;; use (r_hdr r) ;; call.

(** [rpm_fetch_lead_and_signature], drpm_rpm.c lines 420-450. *)
Definition rpm_fetch_lead_and_signature (r : rpm) : M (bool * ptr) :=
  '(ok, y) <- rpm_export r (r_sig r) ;;
  if negb ok then free y ;; ret (false, Null)
  else
    l <- malloc ;;
    free y ;;
    ret (negb (isnull l), l).

(** [rpm_fetch_header], drpm_rpm.c lines 453-464. *)
Definition rpm_fetch_header (r : rpm) : M (bool * ptr) := rpm_export r (r_hdr r).

(** [rpm_fetch_archive], drpm_rpm.c lines 467-479. *)
Definition rpm_fetch_archive (r : rpm) : M (bool * ptr) :=
  use (r_self r) ;;
  a <- malloc ;;
  ret (negb (isnull a), a).

(** [rpm_write], drpm_rpm.c lines 485-547. *)
Definition rpm_write (r : rpm) : M bool :=
  use (r_self r) ;;
  f <- tryn ;;
  if isnull f then ret false
  else
    '(ok, s) <- rpm_export r (r_sig r) ;;
    '(ok, h) <- (if ok then rpm_export r (r_hdr r) else ret (false, Null)) ;;
    ok <- (if ok then call else ret false) ;;        (* writing, sums *)
    free f ;;
    free s ;;
    free h ;;
    ret ok.

(** [rpm_replace_lead_and_signature], drpm_rpm.c lines 550-568. *)
Definition rpm_replace_lead_and_signature (r : rpm) : M (bool * rpm) :=
  use (r_self r) ;;
  ok <- call ;;                                      (* lines 554-558 *)
  if negb ok then ret (false, r)
  else
    free (r_sig r) ;;
    s <- tryn ;;
    ret (negb (isnull s), set_sig r s).

(** [rpm_get_nevr], drpm_rpm.c lines 577-586: [headerGetAsString] makes a new string. *)
Definition rpm_get_nevr (r : rpm) : M (bool * ptr) :=
  use (r_self r) ;;
  use (r_hdr r) ;;
  n <- tryn ;;
  ret (negb (isnull n), n).

(** [rpm_get_digest_algo], drpm_rpm.c lines 640-678. *)
Definition rpm_get_digest_algo (r : rpm) : M bool :=
  use (r_self r) ;;
  td <- new ;;
  use (r_hdr r) ;;
  ok <- call ;;
  free td ;;
  ret ok.

(** [headerReload] of librpm: the old header is gone, the new one may be null without
    memory. *)
Definition header_reload (h : ptr) : M ptr := use h ;; free h ;; malloc.

(** [rpm_patch_payload_format], drpm_rpm.c lines 705-721. *)
Definition rpm_patch_payload_format (r : rpm) : M (bool * rpm) :=
  use (r_self r) ;;
  r <- rpm_unload_region r ;;
  use (r_hdr r) ;;
  ok <- call ;;                                      (* headerDel, headerPutString *)
  if negb ok then ret (false, r)
  else h <- header_reload (r_hdr r) ;; ret (true, set_hdr r h).

(** An array of [struct file_info] (drpm_private.h lines 320-330) with the strings of its
    elements. *)
Record finfo : Type := mkfi { fi_self : ptr; fi_strs : list ptr }.
Definition fi_null : finfo := mkfi Null [].

(** One element of the loop of [rpm_get_file_info], drpm_rpm.c lines 800-832: three strings,
    those that were obtained are in the array when it stops. *)
Definition file_round (l : list ptr) : M (bool * list ptr) :=
  ok <- call ;;                                      (* lines 801-814 *)
  if negb ok then ret (false, l)
  else
    a <- malloc ;;
    if isnull a then ret (false, l)
    else
      b <- malloc ;;
      if isnull b then ret (false, a :: l)
      else
        c <- malloc ;;
        if isnull c then ret (false, a :: b :: l)
        else ret (true, a :: b :: c :: l).

(** [rpm_get_file_info], drpm_rpm.c lines 724-873; [old] is what the variable held before: a
    package without files leaves it alone and reports no error (lines 764-774). *)
Definition rpm_get_file_info (r : rpm) (old : finfo) : M (bool * finfo) :=
  use (r_self r) ;;
  tds <- news 9 ;;
  use (r_hdr r) ;;
  has <- call ;;
  '(ok, fi) <-
    (if negb has then ret (true, old)
     else
       ok <- call ;;                                 (* counts *)
       if negb ok then ret (false, old)
       else
         a <- malloc ;;
         if isnull a then ret (false, old)
         else
           n <- pickn ;;
           '(ok, l) <- rounds n file_round [] ;;
           if negb ok then frees l ;; free a ;; ret (false, old)
           else ret (true, mkfi a l)) ;;
  frees tds ;;
  ret (ok, fi).

(** Releasing such an array, drpm_make.c lines 607-613 and drpm_apply.c lines 272-278 (and
    wherever else [struct file_info] is released): all strings, then the array. *)
Definition finfo_free (fi : finfo) : M unit := frees (fi_strs fi) ;; free (fi_self fi).

(** [rpm_find_payload_format_offset], drpm_rpm.c lines 876-906. *)
Definition rpm_find_payload_format_offset (r : rpm) : M bool :=
  '(ok, h) <- rpm_export r (r_hdr r) ;;
  if negb ok then ret false
  else
    ok <- call ;;
    free h ;;
    ret ok.

(** [rpm_signature_empty], drpm_rpm.c lines 909-918. *)
Definition rpm_signature_empty (r : rpm) : M rpm :=
  use (r_self r) ;;
  free (r_sig r) ;;
  s <- new ;;
  ret (set_sig r s).

(** [rpm_signature_set_size] and [rpm_signature_set_md5], drpm_rpm.c lines 922-964. *)
Definition rpm_signature_set (r : rpm) : M unit :=
  use (r_self r) ;;
  td <- new ;;
  use (r_sig r) ;;
  free td.

(** [rpm_signature_reload], drpm_rpm.c lines 967-972. *)
Definition rpm_signature_reload (r : rpm) : M rpm :=
  use (r_self r) ;;
  s <- header_reload (r_sig r) ;;
  ret (set_sig r s).

(** [rpm_signature_get_md5], drpm_rpm.c lines 975-998. *)
Definition rpm_signature_get_md5 (r : rpm) : M bool :=
  use (r_self r) ;;
  td <- new ;;
  use (r_sig r) ;;
  ok <- call ;;
  free td ;;
  ret ok.

(** [rpm_read_header], drpm_rpm.c lines 1002-1095.  The header that [rpmdbNextIterator]
    returns belongs to the iterator: [rpmdbFreeIterator] releases it.  The exported header
    (variable [header]) is released on no path. *)
Definition rpm_read_header : M (bool * rpm) :=
  self <- malloc ;;
  if isnull self then ret (false, rpm_null)
  else
    str <- malloc ;;
    if isnull str then                               (* before [rpm_init] *)
      rpm_free (mkrpm self Junk Junk Junk) ;;
      free self ;;
      ret (false, rpm_null)
    else
      let r := mkrpm self Null Null Null in
      ok <- call ;;                                  (* the name, lines 1027-1053 *)
      if negb ok then
        rpm_free r ;; free self ;; free str ;; ret (false, rpm_null)
      else
        trans <- new ;;
        iter <- tryn ;;
        h <- (if isnull iter then ret Null else tryn) ;;
        if isnull h then
          rpm_free r ;; free self ;; free iter ;; free trans ;; free str ;;
          ret (false, rpm_null)
        else
          '(ok, x) <- rpm_export (set_hdr r h) h ;;
          if negb ok then
            rpm_free (set_hdr r h) ;; free self ;;
            free h ;; free iter ;; free trans ;; free str ;;
            ret (false, rpm_null)
          else
            i <- tryn ;;
            if isnull i then
              rpm_free r ;; free self ;;
              free h ;; free iter ;; free trans ;; free str ;;
              ret (false, rpm_null)
            else
              free h ;; free iter ;; free trans ;; free str ;;
              ret (true, set_hdr r i).
