(** * Fill: model of the block sources that read an old RPM, /repo/src/drpm_block.c lines 520-563 and 675-911

    A call of [fill_block] makes blocks until the wanted one; [next_rpmonly] and [next_standard] make one block,
    [Blocks.fill_loop] is the loop around them.  What a call leaves behind for the next one are the fields
    of the states below. *)
From Verif Require Import Base Utils CpioHeader Rpm Seq Expand Archive Blocks.

(** ** Rpm-only deltas *)

(** The part of [struct blocks] used by [fillblock_rpm_rpmonly]. *)
Record rsrc := mkrs { rs_rpm : rpm; rs_header : list Z; rs_hoff : Z; rs_left : Z }.

(** [blocks_create], drpm_block.c lines 166-173. *)
Definition rpmonly_source (old : rpm) (ext_data_len : Z) : rsrc := mkrs old (rpm_export_header old) 0 ext_data_len.

(** One round of the loop of [fillblock_rpm_rpmonly], drpm_block.c lines 864-887. *)
Definition next_rpmonly (s : rsrc) : res (rsrc * list Z) :=
  let read_len := Z.min (rs_left s) BLOCK_SIZE in
  let size := zlen (rs_header s) in
  '(r, hoff, d) <-
    (if rs_hoff s <? size then
       if size <? rs_hoff s + read_len then
         let n := size - rs_hoff s in
         '(r, x) <- rpm_archive_read_chunk (rs_rpm s) (read_len - n) ;;
         h <- rd_range (rs_header s) (rs_hoff s) n ;;
         Ok (r, rs_hoff s + n, h ++ x)
       else
         h <- rd_range (rs_header s) (rs_hoff s) read_len ;;
         Ok (rs_rpm s, rs_hoff s + read_len, h)
     else
       '(r, x) <- rpm_archive_read_chunk (rs_rpm s) read_len ;;
       Ok (r, rs_hoff s, x)) ;;
  Ok (mkrs r (rs_header s) hoff (rs_left s - read_len), d ++ zeros (BLOCK_SIZE - read_len)).

(** ** Standard deltas *)

(** A buffer obtained from [malloc]: [None] is an uninitialised byte. *)
Definition poke (buf : list (option Z)) (off : Z) (l : list Z) : res (list (option Z)) :=
  if (0 <=? off) && (off + zlen l <=? zlen buf)
  then Ok (slice buf 0 off ++ map Some l ++ from buf (off + zlen l))
  else Ub OobWrite.
Fixpoint all_set (l : list (option Z)) : res (list Z) :=
  match l with
  | [] => Ok []
  | None :: _ => Ub Uninit
  | Some x :: l => r <- all_set l ;; Ok (x :: r)
  end.
Definition peek (buf : list (option Z)) (off len : Z) : res (list Z) :=
  x <- rd_range buf off len ;; all_set x.

(** The part of [struct blocks] used by [fillblock_rpm_standard]; [ss_link] is [None] for NULL. *)
Record ssrc := mkss { ss_rpm : rpm; ss_left : Z; ss_idx : Z; ss_buf : list (option Z); ss_link : option (list Z) }.

(** Size of the header buffer, [blocks_create], drpm_block.c lines 210-214. *)
Definition max_header (cpio : list cpio_file) : Z :=
  fold_left (fun m c => Z.max m (cf_hlen c)) cpio (111 + zlen CPIO_TRAILER + padding (111 + zlen CPIO_TRAILER) 4).

(** [blocks_create], drpm_block.c lines 148-152, 175-180 and 210-219. *)
Definition standard_source (old : rpm) (cpio : list cpio_file) : ssrc :=
  mkss old 0 (-1) (repeat None (Z.to_nat (max_header cpio))) None.

Section Standard.
Variable files : list file_info.
Variable cpio : list cpio_file.

(** [fill_cpio_header], drpm_block.c lines 520-563.  [cpio_header_write] ends with [sprintf], which stores
    a NUL after the header; so does [strcpy].  [namesize] is [uint16_t]. *)
Definition fill_header (buf : list (option Z)) (link : option (list Z)) (index : Z) : res (list (option Z) * option (list Z)) :=
  if index <? 0 then
    let namesize := zlen CPIO_TRAILER + 1 in
    buf <- poke buf 0 (cpio_header_write (mkch 0 0 0 0 1 0 0 0 0 0 0 namesize) ++ [0]) ;;
    buf <- poke buf CPIO_HEADER_SIZE (CPIO_TRAILER ++ [0]) ;;
    buf <- poke buf (CPIO_HEADER_SIZE + namesize) (zeros (padding (CPIO_HEADER_SIZE + namesize) 4)) ;;
    Ok (buf, link)
  else
    f <- rd files index ;;
    let name := skip_slash (fi_name f) in
    let filesize := if S_ISREG (fi_mode f) then fi_size f
                    else if S_ISLNK (fi_mode f) then u32 (zlen (fi_linkto f)) else 0 in
    let link := if negb (S_ISREG (fi_mode f)) && S_ISLNK (fi_mode f) then Some (fi_linkto f) else link in
    let dev := S_ISBLK (fi_mode f) || S_ISCHR (fi_mode f) in
    let namesize := u16 (zlen name + 3) in
    buf <- poke buf 0 (cpio_header_write
             (mkch 0 (fi_mode f) 0 0 1 0 filesize 0 0
                (if dev then u8 (major (fi_rdev f)) else 0) (if dev then u8 (minor (fi_rdev f)) else 0) namesize) ++ [0]) ;;
    buf <- poke buf CPIO_HEADER_SIZE ([46; 47] ++ [0]) ;;
    buf <- poke buf (CPIO_HEADER_SIZE + 2) (name ++ [0]) ;;
    buf <- poke buf (CPIO_HEADER_SIZE + namesize) (zeros (padding (CPIO_HEADER_SIZE + namesize) 4)) ;;
    Ok (buf, link).

(** [strncpy] of a string into [n] bytes. *)
Definition strncpy (s : list Z) (n : Z) : list Z := slice s 0 n ++ zeros (n - zlen (slice s 0 n)).

(** What is left of the current entry goes into the [len] bytes left of the block, drpm_block.c lines
    704-727: the data and the new state.  All sums are of lengths below 2^33. *)
Definition drain (s : ssrc) (len : Z) : res (ssrc * list Z) :=
  if 0 <? ss_left s then
    c <- rd cpio (ss_idx s) ;;
    '(s, d) <-
      (if cf_clen c <? ss_left s then
         let off := cf_hlen c + cf_clen c - ss_left s in
         let read_len := Z.min (ss_left s - cf_clen c) len in
         d <- peek (ss_buf s) off read_len ;;
         Ok (mkss (ss_rpm s) (ss_left s - read_len) (ss_idx s) (ss_buf s) (ss_link s), d)
       else Ok (s, [])) ;;
    let len := len - zlen d in
    if (0 <? len) && (0 <? ss_left s) then
      let read_len := Z.min len (ss_left s) in
      f <- rd files (cf_index c) ;;
      if S_ISLNK (fi_mode f) then
        match ss_link s with
        | None => Ub NullDeref
        | Some l =>
            Ok (mkss (ss_rpm s) (ss_left s - read_len) (ss_idx s) (ss_buf s) (Some (from l (Z.min (zlen l) read_len))),
                d ++ strncpy l read_len)
        end
      else
        '(r, x) <- rpm_archive_read_chunk (ss_rpm s) read_len ;;
        Ok (mkss r (ss_left s - read_len) (ss_idx s) (ss_buf s) (ss_link s), d ++ x)
    else Ok (s, d)
  else Ok (s, []).

(** Search of the member with a name in the archive, drpm_block.c lines 768-813: the size of its data with
    the padding.  The name buffer holds at least [c_namesize] bytes, so that the store of line 789 is out of
    bounds exactly when [c_namesize] is zero. *)
Fixpoint scan (fuel : nat) (r : rpm) (wanted : list Z) : res (rpm * Z) :=
  match fuel with
  | O => NoFuel
  | Datatypes.S fu =>
      '(r, b) <- rpm_archive_read_chunk r CPIO_HEADER_SIZE ;;
      h <- cpio_header_read b ;;
      let c_namesize := ch_namesize h in
      let c_filesize := ch_filesize h + padding (ch_filesize h) 4 in
      '(r, nb) <- rpm_archive_read_chunk r c_namesize ;;
      if c_namesize =? 0 then Ub OobWrite else
      let name := cstring (firstn (Z.to_nat (c_namesize - 1)) nb) in
      if list_eqb name CPIO_TRAILER then Err EFormat else
      let name := if prefix_of [46; 47] name then skipn 2 name else name in
      '(r, _) <- rpm_archive_read_chunk r (padding (CPIO_HEADER_SIZE + c_namesize) 4) ;;
      if list_eqb name wanted then Ok (r, c_filesize)
      else
        '(r, _) <- rpm_archive_read_chunk r c_filesize ;;
        scan fu r wanted
  end.

(** The next entry, drpm_block.c lines 757-828. *)
Definition advance (s : ssrc) : res ssrc :=
  let idx := ss_idx s + 1 in
  c <- rd cpio idx ;;
  let i := cf_index c in
  if i <? 0 then
    '(buf, link) <- fill_header (ss_buf s) (ss_link s) i ;;
    Ok (mkss (ss_rpm s) (cf_hlen c + cf_clen c) idx buf link)
  else
    f <- rd files i ;;
    (* every round consumes at least 110 bytes of the archive *)
    '(r, c_filesize) <- scan (Datatypes.S (length (rp_archive (ss_rpm s)))) (ss_rpm s) (skip_slash (fi_name f)) ;;
    '(buf, link) <- fill_header (ss_buf s) (ss_link s) i ;;
    r <- (if negb (S_ISREG (fi_mode f)) then '(r, _) <- rpm_archive_read_chunk r c_filesize ;; Ok r
          else if negb (c_filesize =? cf_clen c) then Err EMismatch
          else Ok r) ;;
    Ok (mkss r (cf_hlen c + cf_clen c) idx buf link).

(** Rounds of the loop of [fillblock_rpm_standard] until a block is complete, drpm_block.c lines 703-829;
    [len] bytes are missing.  All rounds but the last go on to a new entry. *)
Fixpoint standard_rounds (fuel : nat) (s : ssrc) (len : Z) : res (ssrc * list Z) :=
  match fuel with
  | O => NoFuel
  | Datatypes.S fu =>
      '(s, d) <- drain s len ;;
      let len := len - zlen d in
      fin <- (if (0 <? len) && (0 <=? ss_idx s) then c <- rd cpio (ss_idx s) ;; Ok (cf_index c <? 0) else Ok false) ;;
      if fin : bool then Ok (s, d ++ zeros len)
      else if len =? 0 then Ok (s, d)
      else
        s <- advance s ;;
        '(s, x) <- standard_rounds fu s len ;;
        Ok (s, d ++ x)
  end.

Definition next_standard (s : ssrc) : res (ssrc * list Z) :=
  standard_rounds (Datatypes.S (Datatypes.S (length cpio))) s BLOCK_SIZE.

End Standard.
