(** Ownership in the suffix sort, /repo/src/drpm_search.c lines 368-487 and 533-562. *)
Require Import ZArith List Bool.
Require Import Verif.Own.
Import ListNotations.
Open Scope Z_scope.

(** [bucketsort], drpm_search.c lines 533-562: the table of buckets. *)
Definition bucketsort (i v : ptr) : M bool :=
  b <- malloc ;;
  if isnull b then ret false
  else use v ;; use b ;; use i ;; free b ;; ret true.

(** [sfxsrt_create], drpm_search.c lines 376-480: the struct, which stays in the variable of the caller after it was released,
    and its member [I], which is set at the end (line 467).  [suffix_split] has no resources of its own. *)
Definition sfxsrt_create : M (bool * ptr * ptr) :=
  s <- malloc ;;
  i <- (if isnull s then ret Null else malloc) ;;
  v <- (if isnull i then ret Null else malloc) ;;
  ok <- (if isnull v then ret false else use v ;; bucketsort i v) ;;
  if negb ok then
    free s ;; free i ;; free v ;; ret (false, s, Junk)
  else
    use i ;; use v ;; use s ;; free v ;; ret (true, s, i).

(** [sfxsrt_free], drpm_search.c lines 482-487. *)
Definition sfxsrt_free (s i : ptr) : M unit := use s ;; free i ;; free s.

(** [sfxsrt_search], lines 488-531, as far as ownership goes. *)
Definition sfxsrt_search (a : ptr * ptr) : M (bool * (ptr * ptr)) :=
  let (s, i) := a in use s ;; use i ;; ret (true, (s, i)).

(** A caller, as [make_diff] is one of the hash variant; no code of the library calls these functions.  [always]: it
    releases the struct also if it was not made, as [make_diff] does with the hash table (drpm_diff.c line 270; line 269 has the call for the suffix sort, commented out). *)
Definition suffix_caller (always : bool) : M bool :=
  '(ok, s, i) <- sfxsrt_create ;;
  if negb ok then (if always then sfxsrt_free s i ;; ret false else ret false)
  else n <- pickn ;; '(_, (s, i)) <- rounds n sfxsrt_search (s, i) ;; sfxsrt_free s i ;; ret true.
