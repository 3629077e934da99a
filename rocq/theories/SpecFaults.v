(** * SpecFaults: outcomes with nothing undefined but some named faults *)
From Verif Require Import Base.

(** Success, an error, or one of the faults listed; never an endless loop. *)
Definition only_faults {A} (faults : list ub) (r : res A) : Prop :=
  match r with Ok _ | Err _ => True | Ub u => In u faults | NoFuel => False end.

(** What a sequence that was not made by [drpm_make] can do (C10): a store behind the table of positions, a shift by too much, a read
    behind the table of files. *)
Definition sequence_faults : list ub := [OobWrite; BadShift; OobRead].
