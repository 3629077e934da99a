(** * Expand: model of [expand_sequence], /repo/src/drpm_apply.c lines 61-281 *)
From Verif Require Import Base Utils CpioHeader Rpm Seq.

(** File types in [st_mode] (<sys/stat.h>). *)
Definition fmt (mode : Z) : Z := Z.land mode 61440.
Definition S_ISREG (mode : Z) : bool := fmt mode =? 32768.
Definition S_ISLNK (mode : Z) : bool := fmt mode =? 40960.
Definition S_ISBLK (mode : Z) : bool := fmt mode =? 24576.
Definition S_ISCHR (mode : Z) : bool := fmt mode =? 8192.

(** [CPIO_TRAILER] "TRAILER!!!", drpm_private.h line 63. *)
Definition CPIO_TRAILER : list Z := [84; 82; 65; 73; 76; 69; 82; 33; 33; 33].

(** [struct cpio_file], drpm_private.h lines 258-263. *)
Record cpio_file := mkcf { cf_index : Z; cf_hlen : Z; cf_clen : Z; cf_off : Z }.

(** A name without one leading slash, drpm_apply.c lines 195-197. *)
Definition skip_slash (name : list Z) : list Z :=
  match name with 47 :: r => r | _ => name end.

(** [filesize] of a file, drpm_apply.c lines 183-188 ([uint32_t]). *)
Definition entry_size (f : file_info) : Z :=
  if S_ISREG (fi_mode f) then fi_size f
  else if S_ISLNK (fi_mode f) then u32 (zlen (fi_linkto f)) else 0.
(** [rdev], drpm_apply.c lines 190-193. *)
Definition entry_rdev (f : file_info) : Z :=
  if S_ISBLK (fi_mode f) || S_ISCHR (fi_mode f) then fi_rdev f else 0.

(** Parsing the recorded digest into [digest[32]], drpm_apply.c lines 213-233; [sha] is the
    digest algorithm ([true] for SHA-256). *)
Definition file_digest (sha : bool) (md5 : list Z) : res (list Z) :=
  r <- (if sha then parse_sha256 md5 32 else parse_md5 md5 32) ;;
  match r with None => Err EFormat | Some d => Ok d end.

Section Expand.
Variable L : libs.
(** [check], drpm_apply.c lines 92-105; [None] for [DRPM_CHECK_NONE]. *)
Variable check : option (list Z -> bool -> list Z -> Z -> res unit).

(** Body of the loop of drpm_apply.c lines 180-251 for one file: what the MD5 is updated with. *)
Definition expand_file (sha : bool) (f : file_info) : res (list Z) :=
  let filesize := entry_size f in
  let head := (skip_slash (fi_name f) ++ [0]) ++ create_be32 (fi_mode f)
                ++ create_be32 filesize ++ create_be32 (entry_rdev f) in
  if S_ISLNK (fi_mode f) then Ok (head ++ fi_linkto f ++ [0])
  else if S_ISREG (fi_mode f) && (0 <? filesize) then
    d <- file_digest sha (fi_md5 f) ;;
    _ <- match check with None => Ok tt | Some c => c (fi_name f) sha d filesize end ;;
    Ok (head ++ d)
  else Ok head.

(** The entry for the index of CPIO entries, drpm_apply.c lines 239-250.  [filesize] is
    [uint32_t], so that its sum with the padding wraps. *)
Definition expand_entry (i off : Z) (f : file_info) : cpio_file :=
  let header_len := CPIO_HEADER_SIZE + zlen (skip_slash (fi_name f)) + 3 in
  mkcf i (header_len + padding header_len 4) (u32 (entry_size f + padding (entry_size f) 4)) off.

(** The loop of drpm_apply.c lines 180-251. *)
Fixpoint expand_loop (sha : bool) (files : list file_info) (positions : list Z) (off : Z) (md5 : list Z)
  : res (list cpio_file * Z * list Z) :=
  match positions with
  | [] => Ok ([], off, md5)
  | i :: positions =>
      f <- rd files i ;;
      m <- expand_file sha f ;;
      let e := expand_entry i off f in
      '(l, off, md5) <- expand_loop sha files positions (u64 (off + (cf_hlen e + cf_clen e))) (md5 ++ m) ;;
      Ok (e :: l, off, md5)
  end.

(** [expand_sequence], drpm_apply.c lines 61-281, with a valid check mode.  The model always
    builds the index of entries ([want_seq] only decides whether it is returned).  [sequence]
    is [None] for NULL. *)
Definition expand_sequence (sequence : option (list Z)) (files : list file_info) (sha : bool)
  : res (list cpio_file) :=
  match sequence with
  | None => Err EProg
  | Some sequence =>
      if zlen sequence <? 16 then Err EProg else
      positions <- seq_positions sequence (zlen files) ;;
      '(l, off, md5) <- expand_loop sha files positions 0 [] ;;
      if negb (list_eqb (slice sequence 0 16) (lb_md5 L md5)) then Err EMismatch
      else
        let header_len := CPIO_HEADER_SIZE + zlen CPIO_TRAILER + 1 in
        Ok (l ++ [mkcf (-1) (header_len + padding header_len 4) 0 off])
  end.

End Expand.
