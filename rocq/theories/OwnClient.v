(** Programs that use the reading and the options part of the API, and the start and the end
    of an execution. *)
Require Import ZArith List Bool Arith.
Require Import Verif.Own Verif.OwnCodec Verif.OwnRpm Verif.OwnRead.
Import ListNotations.
Open Scope own_scope.

(** No resources; what can fail, and the outcomes of the calls. *)
Definition start (e : env) (ps : list Z) : st := mkst [] 0%Z ps e.

(** The variables of the program: handles from [drpm_read], options, blocks it was given by
    the functions of drpm.c lines 209-288; and whether a [drpm_read] has failed. *)
Record client : Type := mkcl
  { c_handles : list drpm; c_opts : list opts; c_given : list ptr; c_failed : bool }.
Definition nobody : client := mkcl [] [] [] false.

(** The members that [drpm_get_string] and [drpm_get_ulong_array] copy, drpm.c lines 216-239
    and 260-275; the digest is an array in the struct itself. *)
Inductive field : Type :=
| FFile | FSeq | FSrc | FTgt | FMd5 | FParam | FLead | FAdj | FInt | FExt.
Definition member (t : field) : drpm -> ptr :=
  match t with
  | FFile => h_file | FSeq => h_seq | FSrc => h_src | FTgt => h_tgt | FMd5 => h_self
  | FParam => h_param | FLead => h_lead | FAdj => h_adj | FInt => h_int | FExt => h_ext
  end.

(** The calls declared in drpm.h (lines 260-660) that concern handles and options, and [free] for a block
    that was given.  A number selects a variable. *)
Inductive req : Type :=
| RRead | RDestroy (i : nat) | RNum (i : nat) | RBlock (i : nat) (t : field)
| RFree (i : nat)
| OInit | ODestroy (i : nat) | ODefaults (i : nat) | OSet (i : nat)
| OSeqfile (i : nat) (some : bool) | OPatches (i : nat) | OCopy (i j : nat).

Fixpoint set_nth {A} (i : nat) (a : A) (l : list A) : list A :=
  match l, i with
  | [], _ => []
  | _ :: r, O => a :: r
  | b :: r, S i => b :: set_nth i a r
  end.

Definition hset (c : client) (i : nat) (h : drpm) : client :=
  mkcl (set_nth i h (c_handles c)) (c_opts c) (c_given c) (c_failed c).
Definition oset (c : client) (i : nat) (o : opts) : client :=
  mkcl (c_handles c) (set_nth i o (c_opts c)) (c_given c) (c_failed c).

(** One call.  Every call but [drpm_make_options_destroy] accepts a null pointer and returns
    an error; the program is required not to pass one there.  Copying options onto themselves
    (drpm_options.c lines 99-104) only releases the strings. *)
Definition exec (c : client) (q : req) : M client :=
  match q with
  | RRead =>
      '(ok, h) <- drpm_read ;;
      ret (mkcl (h :: c_handles c) (c_opts c) (c_given c) (c_failed c || negb ok))
  | RDestroy i =>
      match nth_error (c_handles c) i with
      | None => ret c
      | Some h => h <- drpm_destroy h ;; ret (hset c i h)
      end
  | RNum i =>
      match nth_error (c_handles c) i with
      | None => ret c
      | Some h => drpm_get_num h ;; ret c
      end
  | RBlock i t =>
      match nth_error (c_handles c) i with
      | None => ret c
      | Some h =>
          '(_, p) <- drpm_get_block h (member t) ;;
          ret (mkcl (c_handles c) (c_opts c) (p :: c_given c) (c_failed c))
      end
  | RFree i =>
      match nth_error (c_given c) i with
      | None => ret c
      | Some p =>
          free p ;;
          ret (mkcl (c_handles c) (c_opts c) (set_nth i Null (c_given c)) (c_failed c))
      end
  | OInit =>
      '(_, o) <- options_init ;;
      ret (mkcl (c_handles c) (o :: c_opts c) (c_given c) (c_failed c))
  | ODestroy i =>
      match nth_error (c_opts c) i with
      | None => ret c
      | Some o =>
          if isnull (o_self o) then ret c
          else o <- options_destroy o ;; ret (oset c i o)
      end
  | ODefaults i =>
      match nth_error (c_opts c) i with
      | None => ret c
      | Some o =>
          if isnull (o_self o) then ret c
          else o <- options_defaults o ;; ret (oset c i o)
      end
  | OSet i =>
      match nth_error (c_opts c) i with
      | None => ret c
      | Some o => options_set o ;; ret c
      end
  | OSeqfile i b =>
      match nth_error (c_opts c) i with
      | None => ret c
      | Some o => '(_, o) <- options_seqfile o b ;; ret (oset c i o)
      end
  | OPatches i =>
      match nth_error (c_opts c) i with
      | None => ret c
      | Some o => '(_, o) <- options_patches o ;; ret (oset c i o)
      end
  | OCopy i j =>
      match nth_error (c_opts c) i, nth_error (c_opts c) j with
      | Some o, Some o' =>
          if isnull (o_self o) || isnull (o_self o') then ret c
          else if Nat.eqb i j then o <- options_defaults o ;; ret (oset c i o)
          else o <- options_copy o o' ;; ret (oset c i o)
      | _, _ => ret c
      end
  end.

Fixpoint execs (c : client) (l : list req) : M client :=
  match l with
  | [] => ret c
  | q :: l => c <- exec c q ;; execs c l
  end.

(** Everything the program still has is released: the handles, the options that are not
    null, the blocks. *)
Fixpoint destroys (l : list drpm) : M unit :=
  match l with [] => ret tt | h :: r => drpm_destroy h ;; destroys r end.
Fixpoint odestroys (l : list opts) : M unit :=
  match l with
  | [] => ret tt
  | o :: r => (if isnull (o_self o) then ret o else options_destroy o) ;; odestroys r
  end.
Definition release (c : client) : M unit :=
  destroys (c_handles c) ;; odestroys (c_opts c) ;; frees (c_given c).
