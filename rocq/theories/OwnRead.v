(** Ownership in drpm_read.c, in the reading part of the API (drpm.c lines 64-290) and in
    drpm_options.c. *)
Require Import ZArith List Bool.
Require Import Verif.Own Verif.OwnCodec Verif.OwnRpm.
Import ListNotations.
Open Scope Z_scope.
Open Scope own_scope.

(** [struct deltarpm], drpm_private.h lines 280-318.  The two members of the union [head] are
    kept apart; [d_only] (member [type]) says which one is there. *)
Record dlt : Type := mkdlt
  { d_only : bool; d_rpm : rpm; d_nevr : ptr; d_src : ptr; d_seq : ptr; d_param : ptr;
    d_adj : ptr; d_lead : ptr; d_int : ptr; d_ext : ptr; d_add : ptr; d_data : ptr }.
Definition d_zero : dlt :=
  mkdlt false rpm_null Null Null Null Null Null Null Null Null Null Null.
Definition set_d_only (d : dlt) (b : bool) : dlt :=
  mkdlt b (d_rpm d) (d_nevr d) (d_src d) (d_seq d) (d_param d) (d_adj d) (d_lead d) (d_int d)
    (d_ext d) (d_add d) (d_data d).
Definition set_d_rpm (d : dlt) (r : rpm) : dlt :=
  mkdlt (d_only d) r (d_nevr d) (d_src d) (d_seq d) (d_param d) (d_adj d) (d_lead d) (d_int d)
    (d_ext d) (d_add d) (d_data d).
Definition set_d_nevr (d : dlt) (p : ptr) : dlt :=
  mkdlt (d_only d) (d_rpm d) p (d_src d) (d_seq d) (d_param d) (d_adj d) (d_lead d) (d_int d)
    (d_ext d) (d_add d) (d_data d).
Definition set_d_src (d : dlt) (p : ptr) : dlt :=
  mkdlt (d_only d) (d_rpm d) (d_nevr d) p (d_seq d) (d_param d) (d_adj d) (d_lead d) (d_int d)
    (d_ext d) (d_add d) (d_data d).
Definition set_d_seq (d : dlt) (p : ptr) : dlt :=
  mkdlt (d_only d) (d_rpm d) (d_nevr d) (d_src d) p (d_param d) (d_adj d) (d_lead d) (d_int d)
    (d_ext d) (d_add d) (d_data d).
Definition set_d_param (d : dlt) (p : ptr) : dlt :=
  mkdlt (d_only d) (d_rpm d) (d_nevr d) (d_src d) (d_seq d) p (d_adj d) (d_lead d) (d_int d)
    (d_ext d) (d_add d) (d_data d).
Definition set_d_adj (d : dlt) (p : ptr) : dlt :=
  mkdlt (d_only d) (d_rpm d) (d_nevr d) (d_src d) (d_seq d) (d_param d) p (d_lead d) (d_int d)
    (d_ext d) (d_add d) (d_data d).
Definition set_d_lead (d : dlt) (p : ptr) : dlt :=
  mkdlt (d_only d) (d_rpm d) (d_nevr d) (d_src d) (d_seq d) (d_param d) (d_adj d) p (d_int d)
    (d_ext d) (d_add d) (d_data d).
Definition set_d_int (d : dlt) (p : ptr) : dlt :=
  mkdlt (d_only d) (d_rpm d) (d_nevr d) (d_src d) (d_seq d) (d_param d) (d_adj d) (d_lead d) p
    (d_ext d) (d_add d) (d_data d).
Definition set_d_ext (d : dlt) (p : ptr) : dlt :=
  mkdlt (d_only d) (d_rpm d) (d_nevr d) (d_src d) (d_seq d) (d_param d) (d_adj d) (d_lead d)
    (d_int d) p (d_add d) (d_data d).
Definition set_d_add (d : dlt) (p : ptr) : dlt :=
  mkdlt (d_only d) (d_rpm d) (d_nevr d) (d_src d) (d_seq d) (d_param d) (d_adj d) (d_lead d)
    (d_int d) (d_ext d) p (d_data d).
Definition set_d_data (d : dlt) (p : ptr) : dlt :=
  mkdlt (d_only d) (d_rpm d) (d_nevr d) (d_src d) (d_seq d) (d_param d) (d_adj d) (d_lead d)
    (d_int d) (d_ext d) (d_add d) p.

(** [free_deltarpm], drpm_deltarpm.c lines 110-139. *)
Definition free_deltarpm (d : dlt) : M dlt :=
  (if d_only d then free (d_nevr d) else rpm_destroy (d_rpm d) ;; ret tt) ;;
  free (d_src d) ;;
  free (d_seq d) ;;
  free (d_param d) ;;
  free (d_adj d) ;;
  free (d_lead d) ;;
  free (d_int d) ;;
  free (d_ext d) ;;
  free (d_add d) ;;
  free (d_data d) ;;
  ret d_zero.

(** The steps of [readdelta_rest]: a read (or a loop of reads) into variables; a check; a
    block into which data are read; the same, if its length is not 0. *)
Definition rd_num (a : dstream * dlt) : M (bool * (dstream * dlt)) :=
  let (ds, d) := a in
  '(ok, ds) <- decompstrm_read ds ;; ret (ok, (ds, d)).
Definition rd_check (a : dstream * dlt) : M (bool * (dstream * dlt)) :=
  ok <- call ;; ret (ok, a).
Definition rd_block (set : dlt -> ptr -> dlt) (a : dstream * dlt)
  : M (bool * (dstream * dlt)) :=
  let (ds, d) := a in
  p <- malloc ;;
  if isnull p then ret (false, (ds, set d p)) else rd_num (ds, set d p).
Definition rd_opt (set : dlt -> ptr -> dlt) (a : dstream * dlt)
  : M (bool * (dstream * dlt)) :=
  some <- call ;; if some then rd_block set a else ret (true, a).
(** The add block, drpm_read.c lines 287-304: an error for rpm-only deltas. *)
Definition rd_add (a : dstream * dlt) : M (bool * (dstream * dlt)) :=
  some <- call ;;
  if negb some then ret (true, a)
  else if d_only (snd a) then ret (false, a)
  else rd_block set_d_add a.

(** [readdelta_rest], drpm_read.c lines 82-361. *)
Definition readdelta_rest (d : dlt) : M (bool * dlt) :=
  '(ok, ds) <- decompstrm_init ds_junk ;;
  if negb ok then ret (false, d)
  else
    '(ok, (ds, d)) <- chain
      [ rd_num; rd_check;                            (* version *)
        rd_num; rd_block set_d_src;
        rd_num; rd_check; rd_block set_d_seq;
        rd_num; rd_check;                            (* digest, size, compression *)
        rd_num; rd_opt set_d_param;
        rd_num; rd_opt set_d_adj;
        rd_check;
        rd_num; rd_check; rd_block set_d_lead;
        rd_num; rd_opt set_d_int; rd_opt set_d_ext;
        rd_num; rd_add;
        rd_num; rd_check; rd_opt set_d_data;
        rd_check ] (ds, d) ;;
    decompstrm_destroy ds ;;
    ret (ok, d).

(** [readdelta_rpmonly], drpm_read.c lines 364-408. *)
Definition readdelta_rpmonly (d : dlt) : M (bool * dlt) :=
  ok <- call ;;                                      (* lines 371-378 *)
  if negb ok then ret (false, d)
  else
    p <- malloc ;;
    let d := set_d_nevr d p in
    if isnull p then ret (false, d)
    else
      ok <- call ;;                                  (* lines 385-396 *)
      if negb ok then ret (false, d)
      else
        p <- malloc ;;
        let d := set_d_add d p in
        if isnull p then ret (false, d)
        else ok <- call ;; ret (ok, d).

(** [readdelta_standard], drpm_read.c lines 411-430: the package is stored in the delta last. *)
Definition readdelta_standard (d : dlt) : M (bool * dlt) :=
  '(ok, r) <- rpm_read false false false false ;;
  if negb ok then ret (false, d)
  else
    ok <- rpm_look r ;;                              (* rpm_get_comp, lseek *)
    if negb ok then ret (false, d)
    else ret (true, set_d_rpm d r).

(** [read_deltarpm], drpm_read.c lines 433-481. *)
Definition read_deltarpm (d : dlt) : M (bool * dlt) :=
  fd <- tryn ;;
  if isnull fd then ret (false, d)
  else
    ok <- call ;;                                    (* magic *)
    '(ok, d) <-
      (if negb ok then ret (false, d)
       else
         std <- call ;;
         if std then readdelta_standard (set_d_only d false)
         else readdelta_rpmonly (set_d_only d true)) ;;
    '(ok, d) <- (if ok then readdelta_rest d else ret (false, d)) ;;
    d <- (if ok then ret d else free_deltarpm d) ;;
    free fd ;;
    ret (ok, d).

(** [struct drpm], drpm_private.h lines 67-91, with the address of its block. *)
Record drpm : Type := mkdrpm
  { h_self : ptr; h_file : ptr; h_seq : ptr; h_src : ptr; h_tgt : ptr; h_param : ptr;
    h_lead : ptr; h_adj : ptr; h_int : ptr; h_ext : ptr }.
Definition drpm_null : drpm := mkdrpm Null Null Null Null Null Null Null Null Null Null.

(** [drpm_free], drpm_read.c lines 559-574. *)
Definition drpm_free (h : drpm) : M drpm :=
  use (h_self h) ;;
  free (h_file h) ;;
  free (h_src h) ;;
  free (h_tgt h) ;;
  free (h_seq h) ;;
  free (h_param h) ;;
  free (h_lead h) ;;
  free (h_adj h) ;;
  free (h_int h) ;;
  free (h_ext h) ;;
  ret (mkdrpm (h_self h) Null Null Null Null Null Null Null Null Null).

(** One allocation of [deltarpm_to_drpm]; one that is made only if its length is not 0. *)
Definition dup_one (set : drpm -> ptr -> drpm) (h : drpm) : M (bool * drpm) :=
  p <- malloc ;; ret (negb (isnull p), set h p).
Definition dup_opt (set : drpm -> ptr -> drpm) (h : drpm) : M (bool * drpm) :=
  some <- call ;; if some then dup_one set h else ret (true, h).
Definition set_h_file (h : drpm) (p : ptr) : drpm :=
  mkdrpm (h_self h) p (h_seq h) (h_src h) (h_tgt h) (h_param h) (h_lead h) (h_adj h) (h_int h)
    (h_ext h).
Definition set_h_seq (h : drpm) (p : ptr) : drpm :=
  mkdrpm (h_self h) (h_file h) p (h_src h) (h_tgt h) (h_param h) (h_lead h) (h_adj h) (h_int h)
    (h_ext h).
Definition set_h_src (h : drpm) (p : ptr) : drpm :=
  mkdrpm (h_self h) (h_file h) (h_seq h) p (h_tgt h) (h_param h) (h_lead h) (h_adj h) (h_int h)
    (h_ext h).
Definition set_h_tgt (h : drpm) (p : ptr) : drpm :=
  mkdrpm (h_self h) (h_file h) (h_seq h) (h_src h) p (h_param h) (h_lead h) (h_adj h) (h_int h)
    (h_ext h).
Definition set_h_param (h : drpm) (p : ptr) : drpm :=
  mkdrpm (h_self h) (h_file h) (h_seq h) (h_src h) (h_tgt h) p (h_lead h) (h_adj h) (h_int h)
    (h_ext h).
Definition set_h_lead (h : drpm) (p : ptr) : drpm :=
  mkdrpm (h_self h) (h_file h) (h_seq h) (h_src h) (h_tgt h) (h_param h) p (h_adj h) (h_int h)
    (h_ext h).
Definition set_h_adj (h : drpm) (p : ptr) : drpm :=
  mkdrpm (h_self h) (h_file h) (h_seq h) (h_src h) (h_tgt h) (h_param h) (h_lead h) p (h_int h)
    (h_ext h).
Definition set_h_int (h : drpm) (p : ptr) : drpm :=
  mkdrpm (h_self h) (h_file h) (h_seq h) (h_src h) (h_tgt h) (h_param h) (h_lead h) (h_adj h) p
    (h_ext h).
Definition set_h_ext (h : drpm) (p : ptr) : drpm :=
  mkdrpm (h_self h) (h_file h) (h_seq h) (h_src h) (h_tgt h) (h_param h) (h_lead h) (h_adj h)
    (h_int h) p.

(** [deltarpm_to_drpm], drpm_read.c lines 484-557; [self] is the block to be filled. *)
Definition deltarpm_to_drpm (d : dlt) (self : ptr) : M (bool * drpm) :=
  use self ;;
  let h := mkdrpm self Null Null Null Null Null Null Null Null Null in
  use (d_src d) ;;                                   (* strlen *)
  '(ok, h) <- chain
    [ dup_one set_h_file; dup_one set_h_seq; dup_one set_h_src; dup_opt set_h_param;
      dup_one set_h_lead; dup_opt set_h_adj; dup_opt set_h_int; dup_opt set_h_ext ] h ;;
  '(ok, h) <-
    (if negb ok then ret (false, h)
     else
       use (d_seq d) ;; use (d_lead d) ;;
       if d_only d then
         use (d_nevr d) ;; dup_one set_h_tgt h
       else '(ok, n) <- rpm_get_nevr (d_rpm d) ;; ret (ok, set_h_tgt h n)) ;;
  h <- (if ok then ret h else drpm_free h) ;;
  ret (ok, h).

(** [drpm_read], drpm.c lines 66-92: the variable of the caller is null if it fails. *)
Definition drpm_read : M (bool * drpm) :=
  '(ok, d) <- read_deltarpm d_zero ;;
  '(ok, h) <-
    (if negb ok then ret (false, drpm_null)
     else
       self <- malloc ;;
       if isnull self then ret (false, drpm_null)
       else deltarpm_to_drpm d self) ;;
  free_deltarpm d ;;
  ret (ok, if ok then h else drpm_null).

(** [drpm_destroy], drpm.c lines 94-105. *)
Definition drpm_destroy (h : drpm) : M drpm :=
  if isnull (h_self h) then ret h
  else
    h <- drpm_free h ;;
    free (h_self h) ;;
    ret drpm_null.

(** [drpm_get_uint], [drpm_get_ulong] and [drpm_get_ullong], drpm.c lines 107-207. *)
Definition drpm_get_num (h : drpm) : M bool :=
  if isnull (h_self h) then ret false else use (h_self h) ;; call.

(** [drpm_get_string] and [drpm_get_ulong_array], drpm.c lines 209-288: a new block for the
    caller, or null.  [f] is the member asked for. *)
Definition drpm_get_block (h : drpm) (f : drpm -> ptr) : M (bool * ptr) :=
  if isnull (h_self h) then ret (false, Null)
  else
    use (h_self h) ;;
    ok <- call ;;                                    (* the tag *)
    if negb ok then ret (false, Null)
    else if isnull (f h) then ret (true, Null)
    else
      p <- malloc ;;
      if isnull p then ret (false, Null)
      else use (f h) ;; ret (true, p).

(** [struct drpm_make_options], drpm_private.h lines 93-106: address and three strings. *)
Record opts : Type := mkopts { o_self : ptr; o_seq : ptr; o_print : ptr; o_patch : ptr }.
Definition opts_null : opts := mkopts Null Null Null Null.

(** [drpm_make_options_defaults], drpm_options.c lines 59-82. *)
Definition options_defaults (o : opts) : M opts :=
  use (o_self o) ;;
  free (o_seq o) ;;
  free (o_print o) ;;
  free (o_patch o) ;;
  ret (mkopts (o_self o) Null Null Null).

(** [drpm_make_options_init], drpm_options.c lines 28-43. *)
Definition options_init : M (bool * opts) :=
  self <- malloc ;;
  if isnull self then ret (false, opts_null)
  else o <- options_defaults (mkopts self Null Null Null) ;; ret (true, o).

(** [drpm_make_options_destroy], drpm_options.c lines 45-57: null is not accepted. *)
Definition options_destroy (o : opts) : M opts :=
  use (o_self o) ;;
  free (o_seq o) ;;
  free (o_print o) ;;
  free (o_patch o) ;;
  free (o_self o) ;;
  ret opts_null.

(** [drpm_make_options_set_type], [_set_version], [_set_delta_comp],
    [_get_delta_comp_from_rpm], [_forbid_addblk], [_set_addblk_comp], [_set_memlimit],
    drpm_options.c lines 127-228, 277-285. *)
Definition options_set (o : opts) : M bool :=
  if isnull (o_self o) then ret false else use (o_self o) ;; call.

(** A string of the copy, drpm_options.c lines 106-110 (112-116, 118-122). *)
Definition copy_str (src : ptr) : M (bool * ptr) :=
  if isnull src then ret (true, Null)
  else
    p <- malloc ;;
    if isnull p then ret (false, Null) else use src ;; ret (true, p).

(** [drpm_make_options_copy], drpm_options.c lines 84-125, for two different structs; it does
    not report lack of memory. *)
Definition options_copy (dst src : opts) : M opts :=
  use (o_self dst) ;;
  use (o_self src) ;;
  free (o_seq dst) ;;
  free (o_print dst) ;;
  free (o_patch dst) ;;
  '(ok, a) <- copy_str (o_seq src) ;;
  if negb ok then ret (mkopts (o_self dst) a Null Null)
  else
    '(ok, b) <- copy_str (o_print src) ;;
    if negb ok then ret (mkopts (o_self dst) a b Null)
    else
      '(ok, c) <- copy_str (o_patch src) ;;
      ret (mkopts (o_self dst) a b c).

(** A string that is made longer if it is too short, drpm_options.c lines 241-245 (259-263,
    264-268). *)
Definition grow_str (p : ptr) : M (bool * ptr) :=
  long <- (if isnull p then ret false else use p ;; call) ;;
  if long then ret (true, p)
  else
    t <- realloc p ;;
    if isnull t then ret (false, p) else use t ;; ret (true, t).

(** [drpm_make_options_set_seqfile], drpm_options.c lines 230-250; [some]: a name is given. *)
Definition options_seqfile (o : opts) (some : bool) : M (bool * opts) :=
  if isnull (o_self o) then ret (false, o)
  else
    use (o_self o) ;;
    if negb some then
      free (o_seq o) ;; ret (true, mkopts (o_self o) Null (o_print o) (o_patch o))
    else
      '(ok, p) <- grow_str (o_seq o) ;;
      ret (ok, mkopts (o_self o) p (o_print o) (o_patch o)).

(** [drpm_make_options_add_patches], drpm_options.c lines 252-274. *)
Definition options_patches (o : opts) : M (bool * opts) :=
  if isnull (o_self o) then ret (false, o)
  else
    use (o_self o) ;;
    '(ok, p) <- grow_str (o_print o) ;;
    let o := mkopts (o_self o) (o_seq o) p (o_patch o) in
    if negb ok then ret (false, o)
    else
      '(ok, q) <- grow_str (o_patch o) ;;
      ret (ok, mkopts (o_self o) (o_seq o) (o_print o) q).
