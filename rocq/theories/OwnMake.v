(** Ownership in drpm_make.c, drpm_diff.c, drpm_search.c, drpm_write.c and in [drpm_make]
    (drpm.c).  Lists of patched files (drpm_make.c lines 621-1013) are not part of it, see
    [OwnPatches]. *)
Require Import ZArith List Bool.
Require Import Verif.Own Verif.OwnCodec Verif.OwnRpm Verif.OwnRead.
Import ListNotations.
Open Scope Z_scope.
Open Scope own_scope.

(** An access through a pointer that may be null if there is nothing to access. *)
Definition look (p : ptr) : M unit := if isnull p then ret tt else use p.

(** [resize], drpm_utils.c lines 158-170: at first and now and then the block grows; if it
    cannot, the old one stays in the variable. *)
Definition grow (p : ptr) : M (bool * ptr) :=
  full <- (if isnull p then ret true else call) ;;
  if negb full then use p ;; ret (true, p)
  else
    t <- realloc p ;;
    if isnull t then ret (false, p) else ret (true, t).

(** [cpio_extend], drpm_make.c lines 170-193: the same, and the length may overflow. *)
Definition cpio_extend (p : ptr) : M (bool * ptr) :=
  ok <- call ;; if negb ok then ret (false, p) else grow p.

(** [seq_append], drpm_make.c lines 100-124: the same, but if the block cannot grow the
    variable is set to null. *)
Definition seq_append (p : ptr) : M (bool * ptr) :=
  full <- (if isnull p then ret true else call) ;;
  if negb full then use p ;; ret (true, p)
  else
    t <- realloc p ;;
    ret (negb (isnull t), t).

(** Variables of [parse_cpio_from_rpm_filedata]: [name_buffer], [cpio], [seq.data],
    [offadjs]. *)
Record parse : Type := mkpa { p_name : ptr; p_cpio : ptr; p_seq : ptr; p_adj : ptr }.

(** One entry of the archive, drpm_make.c lines 343-557.  How often things grow depends on
    data; [seq_add] (lines 127-152) appends up to three numbers.  The trailer is an entry that is
    not wanted.  (With an empty name at the beginning there is no name buffer, see C38.) *)
Definition cpio_round (v3 : bool) (r : rpm) (fi : finfo) (p : parse) : M (bool * parse) :=
  let (name, cpio, seq, adj) := p in
  use (r_self r) ;;
  ok <- call ;;                                      (* header *)
  if negb ok then ret (false, p)
  else
    '(ok, name) <- grow name ;;
    if negb ok then ret (false, mkpa name cpio seq adj)
    else
      ok <- call ;;                                  (* name, padding *)
      if negb ok then ret (false, mkpa name cpio seq adj)
      else
        look (fi_self fi) ;;
        wanted <- call ;;
        if negb wanted then ok <- call ;; ret (ok, mkpa name cpio seq adj)
        else
          n <- pickn ;;
          '(ok, adj) <- (if v3 then rounds n grow adj else ret (true, adj)) ;;
          if negb ok then ret (false, mkpa name cpio seq adj)
          else
            n <- pickn ;;
            '(ok, cpio) <- rounds n cpio_extend cpio ;;
            if negb ok then ret (false, mkpa name cpio seq adj)
            else
              ok <- gated e_hash ;;
              if negb ok then ret (false, mkpa name cpio seq adj)
              else
                ok <- call ;;                        (* digests *)
                if negb ok then ret (false, mkpa name cpio seq adj)
                else
                  n <- pickn ;;
                  '(ok, seq) <- rounds n seq_append seq ;;
                  if negb ok then ret (false, mkpa name cpio seq adj)
                  else
                    ok <- call ;;                    (* contents *)
                    if negb ok then ret (false, mkpa name cpio seq adj)
                    else
                      n <- pickn ;;
                      '(ok, cpio) <- rounds n cpio_extend cpio ;;
                      ret (ok, mkpa name cpio seq adj).

(** The rest, drpm_make.c lines 559-588: trailer, [seq_final], the sequence with its digest.
    The third result is the variable [seq_files]. *)
Definition cpio_end (p : parse) : M (bool * parse * ptr * ptr) :=
  let (name, cpio, seq, adj) := p in
  '(ok, cpio) <- rounds 3 cpio_extend cpio ;;
  if negb ok then ret (false, mkpa name cpio seq adj, Null, Null)
  else
    run <- call ;;
    '(ok, seq) <- (if run then seq_append seq else ret (true, seq)) ;;
    let p := mkpa name cpio seq adj in
    if negb ok then ret (false, p, Null, Null)
    else
      ok <- gated e_hash ;;
      if negb ok then ret (false, p, seq, Null)
      else
        q <- malloc ;;
        ret (negb (isnull q), p, seq, q).

(** [parse_cpio_from_rpm_filedata], drpm_make.c lines 265-619: archive, sequence, offset
    adjustments.  What [seq.data] holds is released only after [seq_final] has passed it on. *)
Definition parse_cpio (v3 : bool) (r : rpm) : M (bool * ptr * ptr * ptr) :=
  ok <- gated e_hash ;;
  if negb ok then ret (false, Null, Null, Null)
  else
    '(ok, fi) <- rpm_get_file_info r fi_null ;;
    if negb ok then ret (false, Null, Null, Null)
    else
      ok <- rpm_get_digest_algo r ;;
      '(ok, p, files, q) <-
        (let p := mkpa Null Null Null Null in
         if negb ok then ret (false, p, Null, Null)
         else
           n <- pickn ;;
           '(ok, p) <- rounds n (cpio_round v3 r fi) p ;;
           if negb ok then ret (false, p, Null, Null) else cpio_end p) ;;
      (if ok then ret tt else free (p_cpio p) ;; free q ;; if v3 then free (p_adj p) else ret tt) ;;
      finfo_free fi ;;
      free (p_name p) ;;
      free files ;;
      if ok then ret (true, p_cpio p, q, p_adj p) else ret (false, Null, Null, Null).

(** [hash_create] and [hash_free], drpm_search.c lines 153-206: the struct and its table.  If
    there is no memory for the table, the variable of the caller keeps the address of the
    struct, which was released. *)
Definition hash_create : M (bool * ptr * ptr) :=
  h <- malloc ;;
  if isnull h then ret (false, Null, Junk)
  else
    t <- malloc ;;
    if isnull t then free h ;; ret (false, h, Junk) else ret (true, h, t).
Definition hash_free (h t : ptr) : M unit := use h ;; free t ;; free h.

(** One round of the loop of [make_diff], drpm_diff.c lines 134-244: the stream of the add
    block and the array of copies. *)
Definition diff_round (add : bool) (old new h t : ptr) (a : cstream * ptr)
  : M (bool * (cstream * ptr)) :=
  let (c, q) := a in
  use h ;;
  use t ;;
  use old ;;
  use new ;;
  '(ok, q) <- grow q ;;
  if negb ok then ret (false, (c, q))
  else if negb add then ret (true, (c, q))
  else
    n <- pickn ;;
    '(ok, c) <- rounds n compstrm_write c ;;
    ret (ok, (c, q)).

(** [create_diff_copies], drpm_diff.c lines 283-386: arrays of external and of internal
    copies, null if it fails. *)
Definition copies_round (p : ptr * ptr) : M (bool * (ptr * ptr)) :=
  let (e, i) := p in
  '(ok, e) <- grow e ;;
  if negb ok then ret (false, (e, i))
  else '(ok, i) <- grow i ;; ret (ok, (e, i)).
Definition create_diff_copies (q : ptr) : M (bool * ptr * ptr) :=
  look q ;;
  n <- pickn ;;
  '(ok, (e, i)) <- rounds n copies_round (Null, Null) ;;
  if negb ok then free i ;; free e ;; ret (false, Null, Null) else ret (true, e, i).

(** The end of [make_diff], drpm_diff.c lines 246-257, with [create_int_data_array] (lines
    389-422). *)
Definition diff_results (add : bool) (d : dlt) (c : cstream) (q : ptr)
  : M (bool * dlt * cstream) :=
  '(ok, e, i) <- create_diff_copies q ;;
  if negb ok then ret (false, d, c)
  else
    let d := set_d_int (set_d_ext d e) i in
    a <- malloc ;;
    if isnull a then ret (false, d, c)
    else
      look q ;;
      look i ;;
      let d := set_d_data d a in
      if negb add then ret (true, d, c)
      else
        '(ok, c, p) <- compstrm_finish c (d_add d) ;;
        ret (ok, set_d_add d p, c).

(** [make_diff], drpm_diff.c lines 77-280.  The variables [hashtab] and [stream] are not
    initialised. *)
Definition make_diff (add : bool) (old new : ptr) (d : dlt) : M (bool * dlt) :=
  if isnull old || isnull new then ret (false, d)
  else
    let d := if add then set_d_add d Null else d in
    '(ok, h, t) <- hash_create ;;
    '(ok, c) <-
      (if negb ok then ret (false, cs_junk)
       else if add then compstrm_init true cs_junk else ret (true, cs_junk)) ;;
    '(ok, d, c, q) <-
      (if negb ok then ret (false, d, c, Null)
       else
         n <- pickn ;;
         '(ok, (c, q)) <- rounds n (diff_round add old new h t) (c, Null) ;;
         if negb ok then ret (false, d, c, q)
         else '(ok, d, c) <- diff_results add d c q ;; ret (ok, d, c, q)) ;;
    (if ok then ret tt else if add then free (d_add d) else ret tt) ;;
    free q ;;
    hash_free h t ;;
    (if add then compstrm_destroy c ;; ret tt else ret tt) ;;
    ret (ok, d).

(** The compressed part in [write_deltarpm], drpm_write.c lines 99-196: some number of writes
    from the members of the delta and from the archive of the target, into which the internal
    data points. *)
Definition write_part (d : dlt) (new : ptr) (c : cstream) : M (bool * cstream) :=
  use (d_src d) ;;
  use (d_seq d) ;;
  use (d_lead d) ;;
  look (d_adj d) ;;
  look (d_int d) ;;
  look (d_ext d) ;;
  look (d_add d) ;;
  look (d_data d) ;;
  look new ;;
  ok <- call ;;                                      (* deltarpm_encode_comp *)
  if negb ok then ret (false, c) else compstrm_write c.

(** The file of a standard delta up to its payload, drpm_write.c lines 201-222: the header,
    the delta, the file.  All failures return without any cleanup. *)
Definition write_standard (d : dlt) : M (bool * dlt * ptr * ptr) :=
  '(ok, h) <- rpm_fetch_header (d_rpm d) ;;
  if negb ok then ret (false, d, h, Null)
  else
    ok <- gated e_hash ;;
    if negb ok then ret (false, d, h, Null)
    else
      r <- rpm_signature_empty (d_rpm d) ;;
      rpm_signature_set r ;;
      rpm_signature_set r ;;
      r <- rpm_signature_reload r ;;
      let d := set_d_rpm d r in
      ok <- rpm_write r ;;
      if negb ok then ret (false, d, h, Null)
      else fd <- tryn ;; ret (negb (isnull fd), d, h, fd).

(** [write_deltarpm], drpm_write.c lines 67-272. *)
Definition write_deltarpm (new : ptr) (d : dlt) : M (bool * dlt) :=
  use (d_src d) ;;                                   (* strlen *)
  '(ok, c) <- compstrm_init false cs_null ;;
  n <- pickn ;;
  '(ok, c) <- (if ok then rounds n (write_part d new) c else ret (false, c)) ;;
  '(ok, c, data) <- (if ok then compstrm_finish c Null else ret (false, c, Null)) ;;
  if negb ok then compstrm_destroy c ;; free data ;; ret (false, d)
  else if negb (d_only d) then
    '(ok, d, h, fd) <- write_standard d ;;
    if negb ok then ret (false, d)
    else
      look data ;;
      ok <- call ;;                                  (* write *)
      compstrm_destroy c ;;
      free h ;;
      free data ;;
      free fd ;;
      ret (ok, d)
  else
    fd <- tryn ;;
    if isnull fd then ret (false, d)
    else
      use (d_nevr d) ;;
      look (d_add d) ;;
      look data ;;
      ok <- call ;;                                  (* all writes *)
      compstrm_destroy c ;;
      free data ;;
      free fd ;;
      ret (ok, d).

(** [write_seqfile], drpm_write.c lines 274-297. *)
Definition write_seqfile (d : dlt) : M bool :=
  f <- tryn ;;
  if isnull f then ret false
  else
    s <- malloc ;;
    (if isnull s then ret tt else use (d_seq d) ;; use (d_src d)) ;;
    free s ;;
    free f ;;
    ret (negb (isnull s)).

(** [fill_nodiff_deltarpm], drpm_make.c lines 1020-1063: the variable [solo_rpm] is not
    initialised. *)
Definition fill_nodiff (d : dlt) : M (bool * dlt) :=
  q <- malloc ;;
  let d := set_d_seq d q in
  if isnull q then rpm_destroy rpm_junk ;; ret (false, d)
  else
    '(ok, r) <- rpm_read true true true false ;;
    '(ok, d, nevr) <-
      (if negb ok then ret (false, d, Null)
       else
         '(ok, l) <- rpm_fetch_lead_and_signature r ;;
         let d := set_d_lead d l in
         if negb ok then ret (false, d, Null)
         else
           '(ok, nevr) <- rpm_get_nevr r ;;
           if negb ok then ret (false, d, nevr)
           else
             use nevr ;;
             a <- malloc ;;
             let d := set_d_src d a in
             if isnull a then ret (false, d, nevr)
             else
               b <- malloc ;;
               let d := set_d_nevr d b in
               if isnull b then ret (false, d, nevr)
               else use (r_self r) ;; ret (true, d, nevr)) ;;
    free nevr ;;
    rpm_destroy r ;;
    ret (ok, d).

(** The packages in [drpm_make], drpm.c lines 356-396, for all but RPM-only deltas of one
    package: result, delta, [old_rpm], [new_rpm].  A standard delta takes the target over
    (line 396: [head.tgt_rpm] is the same pointer as [new_rpm] or [solo_rpm]); here the
    package then is in the delta alone, and before that in the last result, which stands for
    [solo_rpm], too. *)
Definition make_packages (alone only : bool) (d : dlt) : M (bool * dlt * rpm * rpm) :=
  '(ok, d, old, new) <-
    (if alone then
       '(ok, r) <- rpm_read false true true true ;; ret (ok, d, rpm_null, r)
     else
       '(ok, d) <-
         (if only then q <- malloc ;; ret (negb (isnull q), set_d_seq d q) else ret (true, d)) ;;
       if negb ok then ret (false, d, rpm_null, rpm_null)
       else
         '(ok, old) <- rpm_read only false true true ;;
         if negb ok then ret (false, d, old, rpm_null)
         else '(ok, new) <- rpm_read false true true true ;; ret (ok, d, old, new)) ;;
  if negb ok then ret (false, d, old, new)
  else
    ok <- rpm_look new ;;                            (* payload format *)
    if negb ok then ret (false, d, old, new)
    else
      ok <- rpm_look new ;;                          (* compression level *)
      if negb ok then ret (false, d, old, new)
      else if only then ret (true, d, old, new)
      else ret (true, set_d_rpm d new, old, rpm_null).

(** The old package and the target, wherever they are (drpm.c: [alone ? solo_rpm : ...]). *)
Definition source (alone : bool) (d : dlt) (old : rpm) : rpm := if alone then d_rpm d else old.
Definition target (only : bool) (d : dlt) (new : rpm) : rpm := if only then new else d_rpm d.

(** Names, lead and signature, drpm.c lines 398-407. *)
Definition make_names (alone only : bool) (d : dlt) (old new : rpm) : M (bool * dlt) :=
  '(ok, n) <- rpm_get_nevr (source alone d old) ;;
  let d := set_d_src d n in
  if negb ok then ret (false, d)
  else
    '(ok, d) <-
      (if only then '(ok, n) <- rpm_get_nevr new ;; ret (ok, set_d_nevr d n)
       else ret (true, d)) ;;
    if negb ok then ret (false, d)
    else
      '(ok, l) <- rpm_fetch_lead_and_signature (target only d new) ;;
      ret (ok, set_d_lead d l).

(** [old_cpio], [new_cpio], [old_header], [new_header]. *)
Definition four : Type := (ptr * ptr * ptr * ptr)%type.

(** What is compared by an RPM-only delta, drpm.c lines 415-438: if the second block cannot
    grow, [old_cpio] still holds the address of the first before it grew. *)
Definition make_only (old new : rpm) : M (bool * four) :=
  '(ok, oh) <- rpm_fetch_header old ;;
  if negb ok then ret (false, (Null, Null, oh, Null))
  else
    '(ok, nh) <- rpm_fetch_header new ;;
    if negb ok then ret (false, (Null, Null, oh, nh))
    else
      '(ok, oc) <- rpm_fetch_archive old ;;
      if negb ok then ret (false, (oc, Null, oh, nh))
      else
        '(ok, nc) <- rpm_fetch_archive new ;;
        if negb ok then ret (false, (oc, nc, oh, nh))
        else
          t <- realloc oc ;;
          if isnull t then ret (false, (oc, nc, oh, nh))
          else
            u <- realloc nc ;;
            if isnull u then ret (false, (oc, nc, oh, nh))
            else
              use t ;; use u ;; use oh ;; use nh ;;
              ret (true, (t, u, oh, nh)).

(** The same for a standard delta, drpm.c lines 439-450. *)
Definition make_standard (alone v3 : bool) (d : dlt) (old : rpm) : M (bool * dlt * four) :=
  '(ok, oc, q, a) <- parse_cpio v3 (source alone d old) ;;
  let d := set_d_adj (set_d_seq d q) a in
  if negb ok then ret (false, d, (oc, Null, Null, Null))
  else
    '(ok, nc) <- rpm_fetch_archive (d_rpm d) ;;
    ret (ok, d, (oc, nc, Null, Null)).

(** The tag for the payload format, drpm.c lines 452-455. *)
Definition make_format (only : bool) (d : dlt) (new : rpm) : M (bool * dlt) :=
  '(ok, d) <-
    (if only then ret (true, d)
     else '(ok, r) <- rpm_patch_payload_format (d_rpm d) ;; ret (ok, set_d_rpm d r)) ;;
  if negb ok then ret (false, d)
  else ok <- rpm_find_payload_format_offset (target only d new) ;; ret (ok, d).

(** [drpm_make] from line 356 to the label [write_files] (line 469). *)
Definition make_body (alone only v3 add : bool) (d : dlt)
  : M (bool * dlt * rpm * rpm * four) :=
  let none := (Null, Null, Null, Null) in
  '(ok, d, old, new) <- make_packages alone only d ;;
  if negb ok then ret (false, d, old, new, none)
  else
    '(ok, d) <- make_names alone only d old new ;;
    if negb ok then ret (false, d, old, new, none)
    else
      use (r_self (target only d new)) ;;            (* rpm_size_full *)
      '(ok, d, f) <-
        (if only then '(ok, f) <- make_only old new ;; ret (ok, d, f)
         else make_standard alone v3 d old) ;;
      if negb ok then ret (false, d, old, new, f)
      else
        '(ok, d) <- make_format only d new ;;
        if negb ok then ret (false, d, old, new, f)
        else
          '(ok, d) <- make_diff add (fst (fst (fst f))) (snd (fst (fst f))) d ;;
          ret (ok, d, old, new, f).

(** [drpm_make], drpm.c lines 292-494; one or two packages, RPM-only or not, version 3 or
    older, with add block or not, with a file for the sequence or not.  A string of the
    options that is not used, since only both together have an effect, is copied, too. *)
Definition drpm_make (alone only v3 add seqfile : bool) : M bool :=
  sq <- (if seqfile then malloc else ret Null) ;;
  has <- call ;;
  pr <- (if has then malloc else ret Null) ;;
  if only && negb v3 then ret false
  else
    let d := set_d_only d_zero only in
    '(ok, d, old, new, f) <-
      (if alone && only then
         '(ok, d) <- fill_nodiff d ;;
         ret (ok, d, rpm_null, rpm_null, (Null, Null, Null, Null))
       else make_body alone only v3 add d) ;;
    '(oc, nc, oh, nh) <- ret f ;;
    '(ok, d) <- (if ok then write_deltarpm nc d else ret (false, d)) ;;
    ok <- (if ok && negb (isnull sq) then use sq ;; write_seqfile d else ret ok) ;;
    free_deltarpm d ;;
    rpm_destroy old ;;
    (if only then rpm_destroy new ;; ret tt else ret tt) ;;
    free oc ;;
    free nc ;;
    free oh ;;
    free nh ;;
    free sq ;;
    free pr ;;
    ret ok.
