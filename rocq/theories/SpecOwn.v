(** What is claimed about ownership. *)
Require Import ZArith List.
Require Import Verif.Own.
Import ListNotations.

(** From a process without resources, with these outcomes of the calls, the program ends:
    nothing is released twice, nothing is used after its release, no pointer is released or
    used that was not initialised, no null pointer is used. *)
Definition sound {A} (e : env) (ps : list Z) (m : M A) : Prop :=
  exists a s, m (mkst [] 0 ps e) = Done a s.

(** It ends, and if the result is as described, every resource was released. *)
Definition clean {A} (e : env) (ps : list Z) (m : M A) (when : A -> Prop) : Prop :=
  exists a s, m (mkst [] 0 ps e) = Done a s /\ (when a -> live s = []).

(** It ends with this result and something is left behind. *)
Definition leaks {A} (e : env) (ps : list Z) (m : M A) (a : A) : Prop :=
  exists s, m (mkst [] 0 ps e) = Done a s /\ live s <> [].

(** It does not end well. *)
Definition broken {A} (e : env) (ps : list Z) (m : M A) : Prop :=
  exists b, m (mkst [] 0 ps e) = Bad b.
