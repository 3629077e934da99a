(** * SpecDisk: what a program can rely on when the disk is full *)
From Verif Require Import Base.

(** The file holds the beginning of what should be in it. *)
Definition begins (file whole : list Z) : Prop := exists rest, whole = file ++ rest.

(** [wanted]: what should be in the file; [planned]: the result if all writes succeed; [file], [result]: what there is;
    [short]: whether some write took less than it was given.  Nothing is said about the file if the behaviour is undefined
    anyway. *)
Definition all_or_error (wanted : list Z) (planned : res unit) (file : list Z) (result : res unit) (short : bool) : Prop :=
  if short then result = Err EIo /\ ((forall u, planned <> Ub u) -> begins file wanted)
  else result = planned /\ ((forall u, planned <> Ub u) -> file = wanted).
