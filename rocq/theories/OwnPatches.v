(** Ownership in the lists of patched files, drpm_make.c lines 621-987, and in the part of
    [drpm_make] (drpm.c) that uses them. *)
Require Import ZArith List Bool.
Require Import Verif.Own Verif.OwnCodec Verif.OwnRpm Verif.OwnRead Verif.OwnMake.
Import ListNotations.
Open Scope Z_scope.
Open Scope own_scope.

(** [struct patch_info], drpm_make.c lines 78-82: the array [files], the names in its first
    [file_count] elements ([None]: [file_count] was not initialised), [nevr]. *)
Record pinfo : Type := mkpin { n_files : ptr; n_names : option (list ptr); n_nevr : ptr }.
(** What [malloc] gives, and what it would give if the memory happened to be zero. *)
Definition pinfo_new (zeroed : bool) : pinfo :=
  if zeroed then mkpin Null (Some []) Null else mkpin Junk None Junk.
Definition set_files (i : pinfo) (p : ptr) : pinfo := mkpin p (n_names i) (n_nevr i).
Definition set_nevr (i : pinfo) (p : ptr) : pinfo := mkpin (n_files i) (n_names i) p.
Definition add_name (i : pinfo) (p : ptr) : pinfo :=
  mkpin (n_files i) (option_map (cons p) (n_names i)) (n_nevr i).

(** [rpml_get_string], drpm_make.c lines 649-667, into a variable that is null: a string that
    is cut is released, but stays in the variable. *)
Definition rpml_get_string : M (bool * ptr) :=
  ok <- call ;;
  if negb ok then ret (false, Null)
  else
    p <- malloc ;;
    if isnull p then ret (false, Null)
    else
      ok <- call ;;
      if ok then use p ;; ret (true, p) else free p ;; ret (false, p).

(** [rpml_get_filename], drpm_make.c lines 669-711: the variable of the caller is set at the
    end only.  Whether the block grows depends on a length that is not initialised. *)
Definition rpml_get_filename (f : ptr) : M (bool * ptr) :=
  ok <- call ;;
  if negb ok then ret (false, f)
  else
    more <- call ;;
    '(ok, g) <- (if more then g <- realloc f ;; ret (negb (isnull g), g) else ret (true, f)) ;;
    if negb ok then ret (false, f)
    else
      ok <- call ;;
      if negb ok then ret (false, f) else use g ;; ret (true, g).

(** One unpatched file, drpm_make.c lines 770-785: without memory for the name it goes on. *)
Definition unpatched_round (a : ptr * pinfo) : M (bool * (ptr * pinfo)) :=
  let (f, i) := a in
  '(ok, l) <- grow (n_files i) ;;
  let i := set_files i l in
  if negb ok then ret (false, (f, i))
  else
    '(ok, f) <- rpml_get_filename f ;;
    if negb ok then ret (false, (f, i))
    else
      use f ;;
      p <- malloc ;;
      use l ;;
      use p ;;                                       (* strcpy *)
      ret (true, (f, add_name i p)).

(** One file, drpm_make.c lines 788-851: the name counts only when all of it was read. *)
Definition patched_round (a : ptr * pinfo) : M (bool * (ptr * pinfo)) :=
  let (f, i) := a in
  '(ok, f) <- rpml_get_filename f ;;
  if negb ok then ret (false, (f, i))
  else
    use f ;;
    '(ok, l) <- grow (n_files i) ;;
    let i := set_files i l in
    if negb ok then ret (false, (f, i))
    else
      p <- malloc ;;
      if isnull p then ret (false, (f, i))
      else
        use l ;;
        ok <- call ;;
        if ok then ret (true, (f, add_name i p)) else ret (false, (f, i)).

(** The lists of files in [read_rpmlist], drpm_make.c lines 757-851; how many there are
    depends on data, the name after the last one is empty. *)
Definition list_files (i : pinfo) : M (bool * (ptr * pinfo)) :=
  ok <- call ;;
  if negb ok then ret (false, (Null, i))
  else
    n <- pickn ;;
    '(ok, a) <- rounds n unpatched_round (Null, i) ;;
    if negb ok then ret (false, a)
    else
      n <- pickn ;;
      '(ok, a) <- rounds n patched_round a ;;
      if negb ok then ret (false, a)
      else '(ok, f) <- rpml_get_filename (fst a) ;; ret (ok, (f, snd a)).

(** [read_rpmlist], drpm_make.c lines 723-859, after the magic. *)
Definition read_rpmlist (i : pinfo) : M (bool * pinfo) :=
  '(ok, name) <- rpml_get_string ;;
  '(ok, evr) <- (if ok then rpml_get_string else ret (false, Null)) ;;
  '(ok, (f, i)) <-
    (if negb ok then ret (false, (Null, i))
     else
       use name ;;
       use evr ;;
       n <- malloc ;;
       let i := set_nevr i n in
       if isnull n then ret (false, (Null, i)) else list_files i) ;;
  free f ;;
  free name ;;
  free evr ;;
  ret (ok, i).

(** [struct rpm_patches], drpm_make.c lines 84-87: its block, [rpmprint], [patchrpm]. *)
Record patches : Type := mkpat { t_self : ptr; t_print : pinfo; t_patch : pinfo }.
Definition patches_null : patches := mkpat Null (mkpin Null (Some []) Null) (mkpin Null (Some []) Null).

(** Releasing one of both, drpm_make.c lines 960-963 and 965-968. *)
Definition pinfo_free (i : pinfo) : M unit :=
  match n_names i with
  | Some l => (match l with [] => ret tt | _ => use (n_files i) end) ;; frees l
  | None => n <- pickn ;; rounds n (fun _ => use (n_files i) ;; ret (true, tt)) tt ;; ret tt
  end ;;
  free (n_files i) ;;
  free (n_nevr i).

(** [patches_destroy], drpm_make.c lines 955-975. *)
Definition patches_destroy (t : patches) : M unit :=
  if isnull (t_self t) then ret tt
  else use (t_self t) ;; pinfo_free (t_print t) ;; pinfo_free (t_patch t) ;; free (t_self t).

(** The names of the files of a package, drpm_make.c lines 918-933: [file_count] is set
    before the names are.  (The array is too short: C37_rpm_refuted.) *)
Fixpoint copy_names (fi : finfo) (n : nat) : M (bool * list ptr) :=
  match n with
  | O => ret (true, [])
  | S n =>
      use (fi_self fi) ;;
      p <- malloc ;;
      if isnull p then ret (false, Null :: repeat Junk n)
      else
        ok <- call ;;                                (* parse_md5 *)
        if negb ok then ret (false, p :: repeat Junk n)
        else '(ok, l) <- copy_names fi n ;; ret (ok, p :: l)
  end.

(** The print is a package, drpm_make.c lines 908-934.  Neither the package nor the table of its
    files is released.  [files] and [file_count] are not initialised. *)
Definition print_package (i : pinfo) : M (bool * pinfo) :=
  '(ok, r) <- rpm_read false false false false ;;
  if negb ok then ret (false, i)
  else
    '(ok, n) <- rpm_get_nevr r ;;
    let i := set_nevr i n in
    if negb ok then ret (false, i)
    else
      '(ok, fi) <- rpm_get_file_info r (mkfi Junk []) ;;
      if negb ok then ret (false, i)
      else
        l <- malloc ;;
        let i := set_files i l in
        if isnull l then ret (false, i)
        else
          n <- pickn ;;
          '(ok, names) <- copy_names fi n ;;
          ret (ok, mkpin l (Some names) (n_nevr i)).

(** The print, drpm_make.c lines 899-942: the result, the print and the descriptor. *)
Definition read_print (i : pinfo) : M (bool * pinfo * ptr) :=
  fd <- tryn ;;
  if isnull fd then ret (false, i, fd)
  else
    ok <- call ;;                                    (* read_be32 *)
    if negb ok then ret (false, i, fd)
    else
      kind <- pick ;;
      '(ok, i) <-
        (if kind =? 0 then read_rpmlist i
         else if kind =? 1 then print_package i
         else ret (false, i)) ;;
      ret (ok, i, fd).

(** [patches_read], drpm_make.c lines 862-953, if both names were given; first what it does
    with the new struct. *)
Definition patches_fill (zeroed : bool) (self : ptr) : M (bool * patches) :=
  let t := mkpat self (pinfo_new zeroed) (pinfo_new zeroed) in
  fd <- tryn ;;
  '(ok, t, fd) <-
    (if isnull fd then ret (false, t, fd)
     else
       ok <- call ;;                                 (* magic *)
       '(ok, i) <- (if ok then read_rpmlist (t_patch t) else ret (false, t_patch t)) ;;
       let t := mkpat self (t_print t) i in
       if negb ok then ret (false, t, fd)
       else
         free fd ;;
         '(ok, i, fd) <- read_print (t_print t) ;;
         ret (ok, mkpat self i (t_patch t), fd)) ;;
  t <- (if ok then ret t else patches_destroy t ;; ret patches_null) ;;
  free fd ;;
  ret (ok, t).
Definition patches_read (zeroed : bool) : M (bool * patches) :=
  self <- malloc ;;
  if isnull self then ret (false, patches_null) else patches_fill zeroed self.

(** [drpm_make] with lists of patched files, drpm.c lines 353, 402 and 487: [rest] is all that
    happens in between, with [patches_check_nevr] (drpm_make.c lines 978-987) at its
    beginning. *)
Definition make_patched (zeroed : bool) (rest : M bool) : M bool :=
  '(ok, t) <- patches_read zeroed ;;
  ok <- (if negb ok then ret false
         else
           use (t_self t) ;;
           use (n_nevr (t_print t)) ;;
           use (n_nevr (t_patch t)) ;;
           same <- call ;;
           if same then rest else ret false) ;;
  patches_destroy t ;;
  ret ok.
