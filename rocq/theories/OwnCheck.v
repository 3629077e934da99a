(** Ownership in the checks of installed files (drpm_apply.c) and in the API functions that
    check deltas and sequences (drpm.c). *)
Require Import ZArith List Bool.
Require Import Verif.Own Verif.OwnCodec Verif.OwnRpm Verif.OwnRead.
Import ListNotations.
Open Scope Z_scope.
Open Scope own_scope.

(** [is_prelinked], drpm_apply.c lines 516-621: result and answer.  From line 581 to line 594
    the variable [strsect] points into [sects]; if the function gives up there it passes that
    pointer to [free]. *)
Definition is_prelinked : M (bool * bool) :=
  elf <- call ;;                                     (* lines 538-571 *)
  if negb elf then ret (true, false)
  else
    sects <- malloc ;;
    if isnull sects then ret (false, true)
    else
      '(ok, strsect, ans) <-
        (ok <- call ;;                               (* pread *)
         if negb ok then ret (true, Null, false)
         else
           use sects ;;
           ok <- gated e_elf ;;                      (* lines 582-594 *)
           if negb ok then ret (true, Junk, false)
           else
             t <- malloc ;;
             if isnull t then ret (false, Null, true)
             else
               ok <- call ;;                         (* pread *)
               if negb ok then ret (true, t, false)
               else
                 use sects ;;
                 use t ;;
                 undo <- call ;;
                 ret (true, t, undo)) ;;
      free strsect ;;
      free sects ;;
      ret (ok, ans).

(** [prelink_open], drpm_apply.c lines 623-660: the descriptor, null if it fails. *)
Definition prelink_open : M ptr :=
  ok <- gated e_undo ;;                              (* stat *)
  if negb ok then ret Null
  else
    ok <- gated e_undo ;;                            (* mkstemp *)
    if negb ok then ret Null
    else
      t <- new ;;
      free t ;;                                      (* close *)
      ok <- gated e_undo ;;                          (* fork, open *)
      if negb ok then ret Null else new.

(** [check_prelink], drpm_apply.c lines 383-424. *)
Definition check_prelink : M bool :=
  fd <- prelink_open ;;
  if isnull fd then ret false
  else
    ok <- call ;;                                    (* reading, sums, comparison *)
    free fd ;;
    ret ok.

(** [check_filesize], drpm_apply.c lines 285-320: lines 305-306 leave the file open. *)
Definition check_filesize : M bool :=
  ok <- call ;;                                      (* stat *)
  if negb ok then ret false
  else
    same <- call ;;
    if same then ret true
    else
      more <- call ;;
      if negb more then ret false
      else
        fd <- tryn ;;
        if isnull fd then ret false
        else
          some <- call ;;                            (* read *)
          if negb some then free fd ;; ret false
          else
            '(ok, pre) <- is_prelinked ;;
            if negb ok then ret false
            else if pre then free fd ;; check_prelink
            else free fd ;; ret false.

(** [check_full], drpm_apply.c lines 322-381: so do lines 349-350. *)
Definition check_full : M bool :=
  fd <- tryn ;;
  if isnull fd then ret false
  else
    ok <- call ;;                                    (* fstat, checksum_init *)
    if negb ok then free fd ;; ret false
    else
      more <- call ;;                                (* larger, and not empty *)
      if negb more then ok <- call ;; free fd ;; ret ok
      else
        '(ok, pre) <- is_prelinked ;;
        if negb ok then ret false
        else if pre then free fd ;; check_prelink
        else ok <- call ;; free fd ;; ret ok.

(** The check modes, drpm.h lines 155-157. *)
Inductive cmode : Type := CNone | CSize | CFull.

(** One entry in the second loop of [expand_sequence], drpm_apply.c lines 171-243.  The value
    passed on tells whether the array of entries is to be released (label [cleanup_fail]) or
    not (label [cleanup]).  Which element of [files] is accessed is not the matter of this
    model. *)
Definition entry_round (m : cmode) (fi : finfo) (_ : bool) : M (bool * bool) :=
  (if isnull (fi_self fi) then ret tt else use (fi_self fi)) ;;
  ok <- gated e_hash ;;
  if negb ok then ret (false, true)
  else
    ok <- call ;;                                    (* digests *)
    if negb ok then ret (false, true)
    else
      ok <- match m with CNone => ret true | CSize => check_filesize | CFull => check_full end ;;
      if negb ok then ret (false, false) else ret (true, true).

(** [expand_sequence], drpm_apply.c lines 61-281: result and array of entries (null if it is
    not wanted or nothing is returned). *)
Definition expand_sequence (want : bool) (m : cmode) (seq : ptr) (fi : finfo)
  : M (bool * ptr) :=
  ok <- call ;;                                      (* length *)
  if negb ok then ret (false, Null)
  else
    positions <- malloc ;;
    if isnull positions then ret (false, Null)
    else
      use seq ;;
      use positions ;;
      ok <- call ;;                                  (* the order *)
      '(ok, q) <-
        (if negb ok then ret (false, Null)
         else
           q <- (if want then malloc else ret Null) ;;
           if want && isnull q then ret (false, Null)
           else
             n <- pickn ;;
             ok <- gated e_hash ;;                   (* MD5_Init *)
             if negb ok then free q ;; ret (false, Null)
             else
               '(ok, rel) <- rounds n (entry_round m fi) true ;;
               if negb ok then (if rel then free q else ret tt) ;; ret (false, Null)
               else
                 use seq ;;
                 ok <- call ;;                       (* MD5_Final, comparison *)
                 if negb ok then free q ;; ret (false, Null)
                 else ret (true, q)) ;;
      free positions ;;
      ret (ok, q).

(** What [drpm_check] and [drpm_check_sequence] do with the files, drpm.c lines 814-821 and
    907-912: the result and the array to be released. *)
Definition check_files (m : cmode) (r : rpm) (seq : ptr) : M (bool * finfo) :=
  '(ok, fi) <- rpm_get_file_info r fi_null ;;
  if negb ok then ret (false, fi)
  else
    ok <- rpm_get_digest_algo r ;;
    if negb ok then ret (false, fi)
    else '(ok, _) <- expand_sequence false m seq fi ;; ret (ok, fi).

(** [drpm_check], drpm.c lines 783-835. *)
Definition drpm_check (m : cmode) : M bool :=
  '(ok, d) <- read_deltarpm d_zero ;;
  '(ok, r) <- (if ok then rpm_read_header else ret (false, rpm_null)) ;;
  '(ok, nevr) <- (if ok then rpm_get_nevr r else ret (false, Null)) ;;
  '(ok, fi) <-
    (if negb ok then ret (false, fi_null)
     else
       use (d_src d) ;;
       use nevr ;;
       same <- call ;;
       if negb same then ret (false, fi_null)
       else if d_only d then ret (true, fi_null)
       else check_files m r (d_seq d)) ;;
  finfo_free fi ;;
  free_deltarpm d ;;
  rpm_destroy r ;;
  free nevr ;;
  ret ok.

(** The old package in [drpm_check_sequence], drpm.c lines 885-899: result, package, and
    whether the sequence is that of an rpm-only delta.  [inst] means that no file was named,
    so that the header comes from the database. *)
Definition sequence_old (inst : bool) : M (bool * rpm * bool) :=
  if inst then '(ok, r) <- rpm_read_header ;; ret (ok, r, false)
  else
    '(ok, r) <- rpm_read false false false false ;;
    if negb ok then ret (false, r, false)
    else
      ok <- rpm_signature_get_md5 r ;;
      if negb ok then ret (false, r, false)
      else same <- call ;; ret (true, r, same).

(** [drpm_check_sequence], drpm.c lines 837-928. *)
Definition drpm_check_sequence (inst : bool) (m : cmode) : M bool :=
  ok <- call ;;                                      (* lines 855-869 *)
  if negb ok then ret false
  else
    nevr <- malloc ;;
    seq <- (if isnull nevr then ret Null else malloc) ;;
    '(ok, r, nevr2, fi) <-
      (if isnull seq then ret (false, rpm_null, Null, fi_null)
       else
         use nevr ;;
         use seq ;;
         ok <- call ;;                               (* parse_hex *)
         if negb ok then ret (false, rpm_null, Null, fi_null)
         else
           '(ok, r, only) <- sequence_old inst ;;
           if negb ok then ret (false, r, Null, fi_null)
           else
             '(ok, nevr2) <- rpm_get_nevr r ;;
             if negb ok then ret (false, r, nevr2, fi_null)
             else
               use nevr ;;
               use nevr2 ;;
               same <- call ;;
               if negb same then ret (false, r, nevr2, fi_null)
               else if only then ret (true, r, nevr2, fi_null)
               else '(ok, fi) <- check_files m r seq ;; ret (ok, r, nevr2, fi)) ;;
    finfo_free fi ;;
    free nevr ;;
    free seq ;;
    free nevr2 ;;
    rpm_destroy r ;;
    ret ok.
