(** Executions on which the theorems about ownership are tried. *)
Require Import ZArith List Bool.
Require Import Verif.Own Verif.OwnCodec Verif.OwnRpm Verif.OwnRead Verif.OwnClient Verif.OwnCheck.
Require Import Verif.SpecOwn.
Import ListNotations.
Open Scope Z_scope.

(** One kind of rare failure each. *)
Definition no_memory : env := mkenv true false false false false.
Definition odd_hash : env := mkenv false true false false false.
Definition no_page : env := mkenv false false true false false.
Definition odd_elf : env := mkenv false false false true false.
Definition no_undo : env := mkenv false false false false true.

Definition good (n : nat) : list Z := repeat 0 n.

(** A program that reads two deltas, asks about them, and makes two sets of options. *)
Definition program : list req :=
  [ RRead; RNum 0; RBlock 0 FSeq; RBlock 0 FTgt; RFree 0; OInit; OSeqfile 0 true; OPatches 0;
    OInit; OCopy 0 1; RRead; RBlock 1 FInt; RDestroy 0; ODefaults 1 ].
Definition whole (l : list req) : M bool :=
  bind (execs nobody l) (fun c => bind (release c) (fun _ => ret (c_failed c))).

(** Checking a sequence of an installed package with one file that is larger than recorded
    and looks like an ELF file, but not one with a good section table. *)
Definition odd_file : list Z := good 10 ++ [1; 0; 0; 0; 0; 1; 0; 0; 1; 0; 0; 0; 0; 0; 1].
(** The same with a file that is as recorded; with one that [prelink] has changed. *)
Definition same_file : list Z := good 10 ++ [1; 0; 0; 0; 0; 1; 0; 0; 0].
Definition prelinked_file : list Z := good 10 ++ [1; 0; 0; 0; 0; 1; 0; 0; 1; 0; 0; 0; 0; 0; 0; 0].
