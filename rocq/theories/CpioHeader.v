(** * CpioHeader: model of [cpio_header_read]/[cpio_header_write],
    /repo/src/drpm_make.c lines 195-253 *)
From Verif Require Import Base Utils.

(** [struct cpio_header], drpm_private.h lines 265-278: [uint16_t] for ino, mode,
    uid, gid, nlink, namesize; [uint32_t] for mtime, filesize; [uint8_t] for the
    device numbers. *)
Record cpio_header := mkch {
  ch_ino : Z; ch_mode : Z; ch_uid : Z; ch_gid : Z; ch_nlink : Z;
  ch_mtime : Z; ch_filesize : Z;
  ch_devmajor : Z; ch_devminor : Z; ch_rdevmajor : Z; ch_rdevminor : Z;
  ch_namesize : Z
}.

(** [CPIO_MAGIC] "070701", drpm_private.h line 62. *)
Definition CPIO_MAGIC : list Z := [48; 55; 48; 55; 48; 49].
(** [CPIO_HEADER_SIZE], drpm_private.h line 64. *)
Definition CPIO_HEADER_SIZE : Z := 110.

(** [cpio_header_read], drpm_make.c lines 196-241: magic compared on 6
    characters, then twelve 8-digit fields (the thirteenth, the checksum, is not
    read); the assignments to the struct truncate. *)
Definition cpio_field (buffer : list Z) (o : Z) : res Z :=
  v <- parse_hexnum buffer o 8 ;;
  match v with None => Err EFormat | Some x => Ok x end.

Definition cpio_header_read (buffer : list Z) : res cpio_header :=
  m <- rd_range buffer 0 6 ;;
  if negb (list_eqb m CPIO_MAGIC) then Err EFormat else
  ino <- cpio_field buffer 6 ;;
  mode <- cpio_field buffer 14 ;;
  uid <- cpio_field buffer 22 ;;
  gid <- cpio_field buffer 30 ;;
  nlink <- cpio_field buffer 38 ;;
  mtime <- cpio_field buffer 46 ;;
  filesize <- cpio_field buffer 54 ;;
  devmajor <- cpio_field buffer 62 ;;
  devminor <- cpio_field buffer 70 ;;
  rdevmajor <- cpio_field buffer 78 ;;
  rdevminor <- cpio_field buffer 86 ;;
  namesize <- cpio_field buffer 94 ;;
  Ok (mkch (u16 ino) (u16 mode) (u16 uid) (u16 gid) (u16 nlink) (u32 mtime) (u32 filesize)
           (u8 devmajor) (u8 devminor) (u8 rdevmajor) (u8 rdevminor) (u16 namesize)).

(** Lower-case hexadecimal digit, as printed by [%x]. *)
Definition xdigit (n : Z) : Z := if n <? 10 then 48 + n else 87 + n.

(** [%08x] of a 32-bit value: eight digits, most significant first (libc). *)
Definition sprintf_08x (v : Z) : list Z :=
  map (fun k => xdigit ((v / 16 ^ k) mod 16)) [7; 6; 5; 4; 3; 2; 1; 0].

(** [cpio_header_write], drpm_make.c lines 244-253 (the result excludes the NUL). *)
Definition cpio_header_write (h : cpio_header) : list Z :=
  CPIO_MAGIC ++
  sprintf_08x (ch_ino h) ++ sprintf_08x (ch_mode h) ++ sprintf_08x (ch_uid h) ++
  sprintf_08x (ch_gid h) ++ sprintf_08x (ch_nlink h) ++ sprintf_08x (ch_mtime h) ++
  sprintf_08x (ch_filesize h) ++ sprintf_08x (ch_devmajor h) ++
  sprintf_08x (ch_devminor h) ++ sprintf_08x (ch_rdevmajor h) ++
  sprintf_08x (ch_rdevminor h) ++ sprintf_08x (ch_namesize h) ++ sprintf_08x 0.
