(** Ownership of resources: the state, the failures and the primitive operations of a second,
    coarser model of the library, in which only blocks of memory, librpm objects, codec states
    and file descriptors exist.  The data are abstracted: a branch that depends on data, and a
    call that can fail, is decided by the next element of a list of picks, and the theorems
    quantify over all lists.  A struct is carried by value together with the address of its
    block, so that every access through the pointer can check that the block is still alive. *)
Require Import ZArith List.
Import ListNotations.
Open Scope Z_scope.

(** A pointer variable (or a file descriptor, with [Null] for -1): null, not initialised, or
    the number of a resource.  Numbers are never reused, so a resource that was released is
    recognised forever. *)
Inductive ptr : Type := Null | Junk | At (n : Z).

(** What must never happen: releasing something that was released before or that never was a
    resource, using such a pointer, using a null pointer. *)
Inductive bad : Type := FreeDead | FreeJunk | UseDead | UseJunk | UseNull.

(** Which rare failures can happen: of allocations; of the hash functions of libcrypto; of
    the temporary page file (drpm_block.c lines 482, 492); section tables of installed files
    on which [is_prelinked] gives up after line 581 of drpm_apply.c; of [prelink_open]. *)
Record env : Type := mkenv
  { e_oom : bool; e_hash : bool; e_page : bool; e_elf : bool; e_undo : bool }.
(** None of them, and all of them. *)
Definition calm : env := mkenv false false false false false.
Definition wild : env := mkenv true true true true true.

(** The resources that are alive, the next number, the picks that are left, and the failures
    that can happen. *)
Record st : Type := mkst { live : list Z; next : Z; picks : list Z; envs : env }.

Inductive out (A : Type) : Type := Done (a : A) (s : st) | Bad (b : bad).
Arguments Done {A}. Arguments Bad {A}.
Definition M (A : Type) : Type := st -> out A.

Definition ret {A} (a : A) : M A := fun s => Done a s.
Definition bind {A B} (m : M A) (k : A -> M B) : M B :=
  fun s => match m s with Done a s => k a s | Bad b => Bad b end.
Declare Scope own_scope.
Delimit Scope own_scope with own.
Notation "x <- e ;; k" := (bind e (fun x => k))
  (at level 61, e at next level, right associativity) : own_scope.
Notation "' p <- e ;; k" := (bind e (fun p => k))
  (at level 61, p pattern, e at next level, right associativity) : own_scope.
Notation "e ;; k" := (bind e (fun _ => k)) (at level 61, right associativity) : own_scope.
Open Scope own_scope.

Definition fail {A} (b : bad) : M A := fun _ => Bad b.

(** The next pick, 0 when there are none left. *)
Definition pick : M Z := fun s =>
  match picks s with
  | [] => Done 0 s
  | p :: r => Done p (mkst (live s) (next s) r (envs s))
  end.
(** A call that can fail, or a comparison of data: 0 stands for the good case. *)
Definition call : M bool := p <- pick ;; ret (p =? 0).
(** A number that depends on data. *)
Definition pickn : M nat := p <- pick ;; ret (Z.to_nat p).
(** A call that can only fail if the environment says so. *)
Definition gated (f : env -> bool) : M bool := fun s =>
  if f (envs s) then call s else Done true s.

(** A new resource. *)
Definition new : M ptr := fun s =>
  Done (At (next s)) (mkst (next s :: live s) (next s + 1) (picks s) (envs s)).
(** Something that is a new resource if the call succeeds ([open], [headerRead], ...). *)
Definition tryn : M ptr := ok <- call ;; if ok then new else ret Null.
(** [malloc] and [calloc]; also [headerExport], whose failure the code reports as lack of
    memory (drpm_rpm.c lines 95-98, 129-133).  [malloc(0)] does not return NULL. *)
Definition malloc : M ptr := ok <- gated e_oom ;; if ok then new else ret Null.

Fixpoint remove1 (n : Z) (l : list Z) : list Z :=
  match l with
  | [] => []
  | m :: r => if n =? m then r else m :: remove1 n r
  end.
(** [free], [headerFree], [close], ...: nothing for null (for -1). *)
Definition free (p : ptr) : M unit := fun s =>
  match p with
  | Null => Done tt s
  | Junk => Bad FreeJunk
  | At n => if existsb (Z.eqb n) (live s)
            then Done tt (mkst (remove1 n (live s)) (next s) (picks s) (envs s))
            else Bad FreeDead
  end.
(** An access through a pointer. *)
Definition use (p : ptr) : M unit := fun s =>
  match p with
  | Null => Bad UseNull
  | Junk => Bad UseJunk
  | At n => if existsb (Z.eqb n) (live s) then Done tt s else Bad UseDead
  end.
(** [realloc]: null if it fails, and then the old block stays. *)
Definition realloc (p : ptr) : M ptr :=
  match p with
  | Null => malloc
  | _ => use p ;; q <- malloc ;;
         match q with Null => ret Null | _ => free p ;; ret q end
  end.

Definition isnull (p : ptr) : bool := match p with Null => true | _ => false end.

(** [n] rounds that pass a value on; the first that fails is the last. *)
Fixpoint rounds {A} (n : nat) (f : A -> M (bool * A)) (a : A) : M (bool * A) :=
  match n with
  | O => ret (true, a)
  | S n => '(ok, a) <- f a ;; if ok then rounds n f a else ret (false, a)
  end.

(** Steps that pass a value on; the first that fails is the last. *)
Fixpoint chain {A} (l : list (A -> M (bool * A))) (a : A) : M (bool * A) :=
  match l with
  | [] => ret (true, a)
  | f :: l => '(ok, a) <- f a ;; if ok then chain l a else ret (false, a)
  end.

(** Releasing a list of pointers. *)
Fixpoint frees (l : list ptr) : M unit :=
  match l with
  | [] => ret tt
  | p :: r => free p ;; frees r
  end.
(** [n] new resources that are always obtained ([rpmtdNew], which does not return NULL). *)
Fixpoint news (n : nat) : M (list ptr) :=
  match n with
  | O => ret []
  | S n => p <- new ;; r <- news n ;; ret (p :: r)
  end.
