(** * Specification: external data in blocks *)
From Verif Require Import Base.

Definition BS : Z := 8192.

(** Block [i] of the data: the last one is filled up with zeros. *)
Definition block (ext : list Z) (i : Z) : list Z :=
  let s := slice ext (i * BS) BS in s ++ repeat 0 (Z.to_nat (BS - zlen s)).

(** The number of blocks for [len] bytes. *)
Definition block_count (len : Z) : Z := (len + BS - 1) / BS.

(** A source that produces these blocks one after the other. *)
Inductive yields {S : Type} (next : S -> res (S * list Z)) : S -> list (list Z) -> Prop :=
| y_nil : forall s, yields next s []
| y_cons : forall s s' x l, next s = Ok (s', x) -> yields next s' l -> yields next s (x :: l).

(** The blocks that hold the first [len] bytes. *)
Definition first_blocks (ext : list Z) (len : Z) : list (list Z) :=
  map (fun i => block ext (Z.of_nat i)) (seq 0 (Z.to_nat (block_count len))).

(** A copy inside of [len] bytes that does not end at offset 0. *)
Definition in_data (len : Z) (e : Z * Z) : Prop :=
  0 <= fst e /\ 0 <= snd e < 2 ^ 32 /\ 0 < fst e + snd e <= len.
