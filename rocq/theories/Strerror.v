(** * Strerror: model of [drpm_strerror], /repo/src/drpm.c *)
From Coq Require Import String.
From Verif Require Import Base.

(** [drpm_strerror], drpm.c lines 34-62, on the numeric code; texts as strings. *)
Definition drpm_strerror (e : Z) : string :=
  if e =? 0 then "no error"%string
  else if e =? 1 then "memory allocation error"%string
  else if e =? 2 then "bad arguments"%string
  else if e =? 3 then "I/O error"%string
  else if e =? 4 then "wrong file format"%string
  else if e =? 5 then "misconfigured external library"%string
  else if e =? 6 then "unspecified/unknown error"%string
  else if e =? 7 then "file too large"%string
  else if e =? 8 then "internal programming error"%string
  else if e =? 9 then "file changed"%string
  else if e =? 10 then "old RPM not installed"%string
  else "(undefined error value)"%string.
