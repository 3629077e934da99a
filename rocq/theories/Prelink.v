(** * Prelink: model of the detection of prelinked files, /repo/src/drpm_apply.c lines 488-621 *)
From Verif Require Import Base Utils FileSys.

(** Little-endian value at [o]: [buf[0] | buf[1] << 8 | ...].  As in [parse_be32], the bit pattern of
    [buf[3] << 24] is taken. *)
Definition le16_at (l : list Z) (o : Z) : res Z :=
  b0 <- rd l o ;; b1 <- rd l (o + 1) ;; Ok (Z.lor b0 (Z.shiftl b1 8)).
Definition le32_at (l : list Z) (o : Z) : res Z :=
  b0 <- rd l o ;; b1 <- rd l (o + 1) ;; b2 <- rd l (o + 2) ;; b3 <- rd l (o + 3) ;;
  Ok (Z.lor (Z.lor (Z.lor b0 (Z.shiftl b1 8)) (Z.shiftl b2 16)) (Z.shiftl b3 24)).

(** [elf16], [elf32], drpm_apply.c lines 488-500. *)
Definition elf16 (l : list Z) (o : Z) (le : bool) : res Z := if le then le16_at l o else parse_be16_at l o.
Definition elf32 (l : list Z) (o : Z) (le : bool) : res Z := if le then le32_at l o else parse_be32_at l o.

(** [elf64], drpm_apply.c lines 502-514: the result is [uint64_t]; a little-endian value is an [int] before, so that
    its sign is extended. *)
Definition elf64 (l : list Z) (o : Z) (le is64 : bool) : res Z :=
  let low o := if le then v <- le32_at l o ;; Ok (u64 (s32 v)) else parse_be32_at l o in
  if is64 then
    let high := if le then o + 4 else o in
    b0 <- rd l high ;; b1 <- rd l (high + 1) ;; b2 <- rd l (high + 2) ;; b3 <- rd l (high + 3) ;;
    if (0 <? b0) || (0 <? b1) || (0 <? b2) || (0 <? b3) then Ok (2 ^ 64 - 1)
    else low (if le then o else o + 4)
  else low o.

(** Conversion of [uint64_t] to [off_t]. *)
Definition off_t (x : Z) : Z := if x <? 2 ^ 63 then x else x - 2 ^ 64.

(** ".gnu.prelink_undo" with its NUL, drpm_apply.c line 609. *)
Definition UNDO_NAME : list Z := [46; 103; 110; 117; 46; 112; 114; 101; 108; 105; 110; 107; 95; 117; 110; 100; 111; 0].

(** The loop of drpm_apply.c lines 605-611 from section [i] on: whether it is left by [break]. *)
Fixpoint undo_loop (n : nat) (sects strs : list Z) (ssiz i : Z) (le : bool) : res bool :=
  match n with
  | O => Ok false
  | S n =>
      o <- elf32 sects (i * ssiz) le ;;
      if zlen strs <? o then undo_loop n sects strs ssiz (i + 1) le
      else if u32 (o + 18) <=? zlen strs then
        name <- rd_range strs o 18 ;;
        if list_eqb name UNDO_NAME then Ok true else undo_loop n sects strs ssiz (i + 1) le
      else undo_loop n sects strs ssiz (i + 1) le
  end.

(** [is_prelinked], drpm_apply.c lines 516-621.  [data] is the file behind the descriptor, [buf] what was read of it
    before (not NULL, and the read did not fail).  At the end [strsect] and [sects] are freed; as long as [strsect]
    points to a section header inside [sects] (lines 582-594), freeing it is undefined: inside the block, or the block
    itself, which is freed again in the next line. *)
Definition is_prelinked (data buf : list Z) : res bool :=
  if zlen buf <? 52 then Ok false else
  m <- rd_range buf 0 4 ;;
  if negb (list_eqb m [127; 69; 76; 70]) then Ok false else
  c <- rd buf 4 ;;
  d <- rd buf 5 ;;
  let is64 := c =? 2 in
  let le := negb (d =? 2) in
  if is64 && (zlen buf <? 64) then Ok false else
  soff <- elf64 buf (if is64 then 40 else 32) le is64 ;;
  if off_t soff =? -1 then Ok false else
  ssiz <- elf16 buf (if is64 then 58 else 46) le ;;
  if (ssiz <? (if is64 then 64 else 40)) || (32768 <=? ssiz) then Ok false else
  snum <- elf16 buf (if is64 then 60 else 48) le ;;
  stridx <- elf16 buf (if is64 then 62 else 50) le ;;
  if snum <=? stridx then Ok false else
  match pread data (snum * ssiz) (off_t soff) with
  | None => Ok false
  | Some sects =>
      let strsect := stridx * ssiz in
      type <- elf32 sects (strsect + 4) le ;;
      if negb (type =? 3) then Ub BadFree else
      soff <- elf64 sects (strsect + (if is64 then 24 else 16)) le is64 ;;
      slen <- elf64 sects (strsect + (if is64 then 32 else 20)) le is64 ;;
      let slen := u32 slen in
      if (off_t soff =? -1) || (slen =? 2 ^ 32 - 1) || (2 ^ 31 <=? slen) then Ub BadFree else
      match pread data slen (off_t soff) with
      | None => Ok false
      | Some strs => undo_loop (Z.to_nat snum) sects strs ssiz 0 le
      end
  end.
