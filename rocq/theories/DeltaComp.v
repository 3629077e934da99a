(** * DeltaComp: model of /repo/src/drpm_deltarpm.c lines 28-108 and of the
    sign-magnitude code for 32-bit offsets (drpm_write.c, drpm_read.c) *)
From Verif Require Import Base.

(** [DRPM_COMP_*], drpm.h (public compression identifiers). *)
Definition COMP_NONE : Z := 0.
Definition COMP_GZIP : Z := 1.
Definition COMP_BZIP2 : Z := 2.
Definition COMP_LZMA : Z := 3.
Definition COMP_XZ : Z := 4.
Definition COMP_LZIP : Z := 5.
Definition COMP_ZSTD : Z := 6.

(** [DELTARPM_COMPALGO], [DELTARPM_COMPLEVEL], [DELTARPM_MKCOMP],
    drpm_deltarpm.c lines 39-41. *)
Definition comp_algo (c : Z) : Z := Z.land c 255.
Definition comp_level (c : Z) : Z := Z.land (Z.shiftr c 8) 255.
Definition mkcomp (code level : Z) : Z := u32 (Z.lor code (Z.shiftl level 8)).

(** [deltarpm_decode_comp], drpm_deltarpm.c lines 44-77, built with zstd. *)
Definition decode_comp (c : Z) : option (Z * Z) :=
  let a := comp_algo c in
  let ret comp := Some (comp, comp_level c) in
  if a =? 0 then ret COMP_NONE
  else if (a =? 1) || (a =? 3) then ret COMP_GZIP
  else if (a =? 2) || (a =? 4) then ret COMP_BZIP2
  else if a =? 5 then ret COMP_LZMA
  else if a =? 6 then ret COMP_XZ
  else if a =? 7 then ret COMP_ZSTD
  else None.

(** [deltarpm_encode_comp], drpm_deltarpm.c lines 80-108, built with zstd. *)
Definition encode_comp (comp level : Z) : option Z :=
  if comp =? COMP_NONE then Some (mkcomp 0 level)
  else if comp =? COMP_GZIP then Some (mkcomp 1 level)
  else if comp =? COMP_BZIP2 then Some (mkcomp 2 level)
  else if comp =? COMP_LZMA then Some (mkcomp 5 level)
  else if comp =? COMP_XZ then Some (mkcomp 6 level)
  else if comp =? COMP_ZSTD then Some (mkcomp 7 level)
  else None.

(** [TWOS_COMPLEMENT], drpm_private.h line 53, on [uint32_t]: [~x + 1]. *)
Definition twos_complement (x : Z) : Z := u32 (u32 (Z.lnot x) + 1).

(** Writer of signed elements, drpm_write.c (offset adjustments and external
    copies): [(int32_t)x < 0] gives [TWOS_COMPLEMENT(x) | INT32_MIN].  Argument
    and result are the 32-bit patterns. *)
Definition sm_encode (x : Z) : Z :=
  if s32 x <? 0 then Z.lor (twos_complement x) (2 ^ 31) else x.

(** Reader of signed elements, drpm_read.c lines 205 and 267. *)
Definition sm_decode (x : Z) : Z :=
  if Z.testbit x 31 then twos_complement (Z.land x (2 ^ 31 - 1)) else x.
