(** * Options: model of /repo/src/drpm_options.c

    Strings are kept as the bytes that were allocated for them, so that writing a string that does not fit is
    [Ub OobWrite] and looking for the end of a string without a NUL is [Ub OobRead].  Failure of
    [malloc] is not modelled. *)
From Verif Require Import Base Utils DeltaComp Stream Rpm Delta Make.

(** A [char *]: NULL or an allocated buffer. *)
Definition buffer := option (list Z).

(** [strlen] of a buffer. *)
Fixpoint strlen (b : list Z) : res Z :=
  match b with
  | [] => Ub OobRead
  | c :: r => if c =? 0 then Ok 0 else n <- strlen r ;; Ok (n + 1)
  end.

(** [malloc] and [realloc]: what is behind the old contents is not initialised (value 170 here, so that the contents do not
    look like the end of a string). *)
Definition fresh (n : Z) : list Z := repeat 170 (Z.to_nat n).
Definition realloc (b : buffer) (n : Z) : list Z :=
  match b with
  | None => fresh n
  | Some old => slice old 0 (Z.min n (zlen old)) ++ fresh (n - zlen old)
  end.

(** [strcpy] of a C string (given without its NUL). *)
Definition strcpy (b : list Z) (s : list Z) : res (list Z) :=
  if zlen b <? zlen s + 1 then Ub OobWrite else Ok (s ++ 0 :: from b (zlen s + 1)).

(** The string in a buffer, as [strcpy] and [strlen] see it. *)
Definition contents (b : list Z) : res (list Z) := n <- strlen b ;; Ok (slice b 0 n).

(** [struct drpm_make_options], drpm_private.h lines 93-106. *)
Record options := mkoptions {
  mo_rpmonly : bool; mo_version : Z; mo_from_rpm : bool; mo_comp : Z; mo_level : Z;
  mo_addblk : bool; mo_acomp : Z; mo_alevel : Z;
  mo_seqfile : buffer; mo_print : buffer; mo_patch : buffer; mo_mbytes : Z
}.

(** [drpm_make_options_defaults], drpm_options.c lines 59-82. *)
Definition defaults : options := mkoptions false 3 true 65535 0 true COMP_BZIP2 0 None None None 0.

(** [drpm_make_options_set_type], drpm_options.c lines 127-144. *)
Definition set_type (o : options) (type : Z) : res options :=
  if type =? TYPE_STANDARD then
    Ok (mkoptions false (mo_version o) (mo_from_rpm o) (mo_comp o) (mo_level o) (mo_addblk o) (mo_acomp o) (mo_alevel o)
          (mo_seqfile o) (mo_print o) (mo_patch o) (mo_mbytes o))
  else if type =? TYPE_RPMONLY then
    Ok (mkoptions true (mo_version o) (mo_from_rpm o) (mo_comp o) (mo_level o) (mo_addblk o) (mo_acomp o) (mo_alevel o)
          (mo_seqfile o) (mo_print o) (mo_patch o) (mo_mbytes o))
  else Err EArgs.

(** [drpm_make_options_set_version], drpm_options.c lines 146-154. *)
Definition set_version (o : options) (version : Z) : res options :=
  if (version <? 1) || (3 <? version) then Err EArgs
  else Ok (mkoptions (mo_rpmonly o) version (mo_from_rpm o) (mo_comp o) (mo_level o) (mo_addblk o) (mo_acomp o) (mo_alevel o)
             (mo_seqfile o) (mo_print o) (mo_patch o) (mo_mbytes o)).

(** Test of the level, drpm_options.c lines 158-160 and 205-207. *)
Definition bad_level (level : Z) : bool := negb (level =? 0) && ((level <? 1) || (9 <? level)).
(** The labels of the switch, drpm_options.c lines 162-171 and 209-218 (built with zstd). *)
Definition known_comp (comp : Z) : bool :=
  (comp =? COMP_NONE) || (comp =? COMP_GZIP) || (comp =? COMP_BZIP2) || (comp =? COMP_LZMA) || (comp =? COMP_XZ) ||
  (comp =? COMP_LZIP) || (comp =? COMP_ZSTD).

(** [drpm_make_options_set_delta_comp], drpm_options.c lines 156-181. *)
Definition set_delta_comp (o : options) (comp level : Z) : res options :=
  if bad_level level then Err EArgs
  else if known_comp comp then
    Ok (mkoptions (mo_rpmonly o) (mo_version o) false comp level (mo_addblk o) (mo_acomp o) (mo_alevel o)
          (mo_seqfile o) (mo_print o) (mo_patch o) (mo_mbytes o))
  else Err EArgs.

(** [drpm_make_options_get_delta_comp_from_rpm], drpm_options.c lines 183-191. *)
Definition comp_from_rpm (o : options) : options :=
  mkoptions (mo_rpmonly o) (mo_version o) true (mo_comp o) (mo_level o) (mo_addblk o) (mo_acomp o) (mo_alevel o)
    (mo_seqfile o) (mo_print o) (mo_patch o) (mo_mbytes o).

(** [drpm_make_options_forbid_addblk], drpm_options.c lines 193-201. *)
Definition forbid_addblk (o : options) : options :=
  mkoptions (mo_rpmonly o) (mo_version o) (mo_from_rpm o) (mo_comp o) (mo_level o) false (mo_acomp o) (mo_alevel o)
    (mo_seqfile o) (mo_print o) (mo_patch o) (mo_mbytes o).

(** [drpm_make_options_set_addblk_comp], drpm_options.c lines 203-228. *)
Definition set_addblk_comp (o : options) (comp level : Z) : res options :=
  if bad_level level then Err EArgs
  else if known_comp comp then
    Ok (mkoptions (mo_rpmonly o) (mo_version o) (mo_from_rpm o) (mo_comp o) (mo_level o) true comp level
          (mo_seqfile o) (mo_print o) (mo_patch o) (mo_mbytes o))
  else Err EArgs.

(** Making room for a string, drpm_options.c lines 241-245, 259-263 and 264-268. *)
Definition make_room (b : buffer) (s : list Z) : res (list Z) :=
  match b with
  | None => Ok (realloc None (zlen s + 1))
  | Some old => n <- strlen old ;; if n <? zlen s then Ok (realloc b (zlen s + 1)) else Ok old
  end.

(** [drpm_make_options_set_seqfile], drpm_options.c lines 230-250. *)
Definition set_seqfile (o : options) (name : option (list Z)) : res options :=
  b <- match name with
       | None => Ok None
       | Some s => b <- make_room (mo_seqfile o) s ;; b <- strcpy b s ;; Ok (Some b)
       end ;;
  Ok (mkoptions (mo_rpmonly o) (mo_version o) (mo_from_rpm o) (mo_comp o) (mo_level o) (mo_addblk o) (mo_acomp o) (mo_alevel o)
        b (mo_print o) (mo_patch o) (mo_mbytes o)).

(** [drpm_make_options_add_patches], drpm_options.c lines 252-274. *)
Definition add_patches (o : options) (print patch : option (list Z)) : res options :=
  match print, patch with
  | Some s, Some t =>
      b <- make_room (mo_print o) s ;;
      c <- make_room (mo_patch o) t ;;
      b <- strcpy b s ;;
      c <- strcpy c t ;;
      Ok (mkoptions (mo_rpmonly o) (mo_version o) (mo_from_rpm o) (mo_comp o) (mo_level o) (mo_addblk o) (mo_acomp o) (mo_alevel o)
            (mo_seqfile o) (Some b) (Some c) (mo_mbytes o))
  | _, _ => Err EArgs
  end.

(** [drpm_make_options_set_memlimit], drpm_options.c lines 277-285. *)
Definition set_memlimit (o : options) (mbytes : Z) : options :=
  mkoptions (mo_rpmonly o) (mo_version o) (mo_from_rpm o) (mo_comp o) (mo_level o) (mo_addblk o) (mo_acomp o) (mo_alevel o)
    (mo_seqfile o) (mo_print o) (mo_patch o) mbytes.

(** Numbers copied and strings freed, drpm_options.c lines 89-104. *)
Definition copy_numbers (src : options) : options :=
  mkoptions (mo_rpmonly src) (mo_version src) (mo_from_rpm src) (mo_comp src) (mo_level src) (mo_addblk src) (mo_acomp src)
    (mo_alevel src) None None None (mo_mbytes src).
(** A string copied, drpm_options.c lines 106-110, 112-116 and 118-122. *)
Definition copy_string (b : buffer) : res buffer :=
  match b with
  | None => Ok None
  | Some src => s <- contents src ;; b <- strcpy (fresh (zlen s + 1)) s ;; Ok (Some b)
  end.

(** The program's variables of type [drpm_make_options *]; [None] is NULL.  No two of them hold the same pointer. *)
Definition vars := Z -> option options.
Definition assign (w : vars) (x : Z) (o : option options) : vars := fun y => if y =? x then o else w y.

(** Calls.  For [init] and [destroy] the argument is the address of a variable, or NULL. *)
Inductive call :=
| Init (x : option Z) | Destroy (x : option Z) | Defaults (x : Z) | Copy (dst src : Z)
| SetType (x type : Z) | SetVersion (x version : Z) | SetDeltaComp (x comp level : Z) | CompFromRpm (x : Z)
| ForbidAddblk (x : Z) | SetAddblkComp (x comp level : Z) | SetSeqfile (x : Z) (name : option (list Z))
| AddPatches (x : Z) (print patch : option (list Z)) | SetMemlimit (x mbytes : Z).

(** A function on the options that a variable points to; NULL is an argument error (drpm_options.c lines 61, 129, ...). *)
Definition on (w : vars) (x : Z) (f : options -> res options) : vars * res unit :=
  match w x with
  | None => (w, Err EArgs)
  | Some o => match f o with
              | Ok o => (assign w x (Some o), Ok tt)
              | Err e => (w, Err e) | Ub u => (w, Ub u) | NoFuel => (w, NoFuel)
              end
  end.

(** [drpm_make_options_copy], drpm_options.c lines 84-125.  The source is read again after the destination was changed, as
    both may be the same. *)
Definition copy (w : vars) (dst src : Z) : vars * res unit :=
  match w dst, w src with
  | Some _, Some s =>
      let w := assign w dst (Some (copy_numbers s)) in
      match w src with
      | None => (w, Err EProg)
      | Some s =>
          match (a <- copy_string (mo_seqfile s) ;; b <- copy_string (mo_print s) ;; c <- copy_string (mo_patch s) ;; Ok (a, b, c)) with
          | Ok (a, b, c) =>
              (assign w dst (Some (mkoptions (mo_rpmonly s) (mo_version s) (mo_from_rpm s) (mo_comp s) (mo_level s) (mo_addblk s)
                                     (mo_acomp s) (mo_alevel s) a b c (mo_mbytes s))), Ok tt)
          | Err e => (w, Err e) | Ub u => (w, Ub u) | NoFuel => (w, NoFuel)
          end
      end
  | _, _ => (w, Err EArgs)
  end.

(** A call: the variables afterwards and the return value. *)
Definition do_call (w : vars) (c : call) : vars * res unit :=
  match c with
  | Init None => (w, Err EArgs)                             (* drpm_options.c lines 28-43 *)
  | Init (Some x) => (assign w x (Some defaults), Ok tt)
  | Destroy None => (w, Err EArgs)                          (* lines 45-57: a variable that is NULL is dereferenced *)
  | Destroy (Some x) => match w x with None => (w, Ub NullDeref) | Some _ => (assign w x None, Ok tt) end
  | Defaults x => on w x (fun _ => Ok defaults)
  | Copy dst src => copy w dst src
  | SetType x type => on w x (fun o => set_type o type)
  | SetVersion x version => on w x (fun o => set_version o version)
  | SetDeltaComp x comp level => on w x (fun o => set_delta_comp o comp level)
  | CompFromRpm x => on w x (fun o => Ok (comp_from_rpm o))
  | ForbidAddblk x => on w x (fun o => Ok (forbid_addblk o))
  | SetAddblkComp x comp level => on w x (fun o => set_addblk_comp o comp level)
  | SetSeqfile x name => on w x (fun o => set_seqfile o name)
  | AddPatches x print patch => on w x (fun o => add_patches o print patch)
  | SetMemlimit x mbytes => on w x (fun o => Ok (set_memlimit o mbytes))
  end.

(** A history of calls: the variables at the end and the return values.  Nothing happens after undefined behaviour. *)
Fixpoint do_calls (w : vars) (cs : list call) : vars * list (res unit) :=
  match cs with
  | [] => (w, [])
  | c :: cs =>
      let '(w, r) := do_call w c in
      match r with
      | Ub _ | NoFuel => (w, [r])
      | _ => let '(w, rs) := do_calls w cs in (w, r :: rs)
      end
  end.

(** No variable is set. *)
Definition no_vars : vars := fun _ => None.

(** What [drpm_make] takes from the options given to it, drpm.c lines 299, 329-343, 389, 459-460 and 471 (it copies them first, drpm.c line 332). *)
Definition given (o : options) : make_options :=
  mkopts (mo_rpmonly o) (mo_version o) (mo_from_rpm o) (mo_comp o) (mo_level o) (mo_addblk o) (mo_acomp o) (mo_alevel o)
    (match mo_seqfile o with Some _ => true | None => false end).
