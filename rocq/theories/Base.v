(** * Base: outcomes, C integers, buffers

    Vocabulary shared by all model files.  Nothing here models a particular
    drpm function except where a comment cites one. *)
From Coq Require Export ZArith List Bool Lia.
From Coq Require Export ZifyBool ZifyNat.
Export ListNotations.
Open Scope Z_scope.

(** Error codes, /repo/src/drpm.h lines 48-58 ([DRPM_ERR_*]).  [DRPM_ERR_OK] is
    the constructor [Ok] of [res]. *)
Inductive err : Type :=
| EMemory | EArgs | EIo | EFormat | EConfig | EOther | EOverflow
| EProg | EMismatch | ENoInstall.

(** Kinds of undefined behaviour that the model distinguishes. *)
Inductive ub : Type :=
| OobRead | OobWrite | BadShift | NullDeref | BadFree | Uninit.

(** Outcome of a modelled C function. [NoFuel] is not a C outcome: it says that
    the bound given to a modelled loop was too small. *)
Inductive res (A : Type) : Type :=
| Ok (a : A)
| Err (e : err)
| Ub (u : ub)
| NoFuel.
Arguments Ok {A} a.
Arguments Err {A} e.
Arguments Ub {A} u.
Arguments NoFuel {A}.

Definition bind {A B} (x : res A) (k : A -> res B) : res B :=
  match x with
  | Ok a => k a
  | Err e => Err e
  | Ub u => Ub u
  | NoFuel => NoFuel
  end.

Declare Scope res_scope.
Delimit Scope res_scope with res.
Notation "x <- e ;; k" := (bind e (fun x => k))
  (at level 61, e at next level, right associativity) : res_scope.
Notation "' p <- e ;; k" := (bind e (fun p => k))
  (at level 61, p pattern, e at next level, right associativity) : res_scope.
Open Scope res_scope.

Definition is_ok {A} (x : res A) : Prop := exists a, x = Ok a.

(** ** C integers *)
Definition u8 (x : Z) : Z := x mod 2 ^ 8.
Definition u16 (x : Z) : Z := x mod 2 ^ 16.
Definition u32 (x : Z) : Z := x mod 2 ^ 32.
Definition u64 (x : Z) : Z := x mod 2 ^ 64.

(** Reinterpretation of an unsigned 32-bit pattern as [int32_t]. *)
Definition s32 (x : Z) : Z :=
  let y := u32 x in if y <? 2 ^ 31 then y else y - 2 ^ 32.

Definition INT32_MAX : Z := 2 ^ 31 - 1.
Definition UINT32_MAX : Z := 2 ^ 32 - 1.

(** ** Buffers *)
Definition byte (b : Z) : Prop := 0 <= b < 256.
Definition bytes (l : list Z) : Prop := Forall byte l.

Definition zlen {A} (l : list A) : Z := Z.of_nat (length l).

(** Checked read [l[i]]. *)
Definition rd {A} (l : list A) (i : Z) : res A :=
  if i <? 0 then Ub OobRead
  else match nth_error l (Z.to_nat i) with
       | Some b => Ok b
       | None => Ub OobRead
       end.

(** Unchecked read, only for specifications. *)
Definition getz (l : list Z) (i : Z) : Z := nth (Z.to_nat i) l 0.

(** The bytes [l[off .. off+len)]. *)
Definition slice {A} (l : list A) (off len : Z) : list A :=
  firstn (Z.to_nat len) (skipn (Z.to_nat off) l).

(** Checked read of a range. *)
Definition rd_range {A} (l : list A) (off len : Z) : res (list A) :=
  if (0 <=? off) && (0 <=? len) && (off + len <=? zlen l)
  then Ok (slice l off len) else Ub OobRead.

Fixpoint list_eqb (a b : list Z) : bool :=
  match a, b with
  | [], [] => true
  | x :: a', y :: b' => (x =? y) && list_eqb a' b'
  | _, _ => false
  end.
