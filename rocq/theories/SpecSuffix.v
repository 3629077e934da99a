(** * SpecSuffix: sorted suffixes, independently of the code *)
From Verif Require Import Base.
From Coq Require Import Permutation Sorted.

(** The bytes from position [p] on. *)
Definition suffix (old : list Z) (p : Z) : list Z := skipn (Z.to_nat p) old.

(** The order of a dictionary. *)
Inductive lex : list Z -> list Z -> Prop :=
| lex_end b m : lex [] (b :: m)
| lex_less a l b m : a < b -> lex (a :: l) (b :: m)
| lex_same a l m : lex l m -> lex (a :: l) (a :: m).

(** All positions of [old], the one of the smallest suffix first. *)
Definition sorted_suffixes (old places : list Z) : Prop :=
  Permutation places (map Z.of_nat (seq 0 (length old))) /\
  StronglySorted (fun p q => lex (suffix old p) (suffix old q)) places.

(** How many bytes are less than [c]. *)
Definition smaller (old : list Z) (c : Z) : Z := zlen (filter (fun b => b <? c) old).

(** The number of bytes that are added to [old]. *)
Definition padding (old : list Z) : Z := if 16777216 <=? zlen old then 2 else 1.

(** The first bytes of [a] and [b] are the same. *)
Fixpoint common (a b : list Z) : Z :=
  match a, b with
  | x :: a, y :: b => if x =? y then 1 + common a b else 0
  | _, _ => 0
  end.

(** What the suffix sort makes of [old]: the places after the first ones hold the sorted
    suffixes; the first ones hold the positions behind the end.  [F] holds for every byte the
    place before the suffixes that start with it. *)
Definition suffix_index (old Ix F : list Z) : Prop :=
  zlen Ix = zlen old + 3 /\ zlen F = 257 /\
  sorted_suffixes old (slice Ix (padding old + 1) (zlen old)) /\
  (forall k, 0 <= k <= padding old -> getz Ix k = zlen old + padding old - k) /\
  (forall c, 0 <= c <= 256 -> getz F c = padding old + smaller old c).

(** The last byte of [old] is not in [new] from [scan] on. *)
Definition last_absent (old new : list Z) (scan : Z) : Prop :=
  forall i, scan <= i < zlen new -> getz new i <> getz old (zlen old - 1).

(** [pos] is where [len] bytes of [old] are those of [new] at [scan], and no more. *)
Definition fits_at (old new : list Z) (scan pos len : Z) : Prop :=
  0 <= pos < zlen old /\ common (suffix old pos) (suffix new scan) = len.

(** No position of [old] has more than [len] bytes of [new] at [scan]. *)
Definition at_most (old new : list Z) (scan len : Z) : Prop :=
  forall p, 0 <= p < zlen old -> common (suffix old p) (suffix new scan) <= len.
