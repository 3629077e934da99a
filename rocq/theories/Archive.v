(** * Archive: model of [parse_cpio_from_rpm_filedata],
    /repo/src/drpm_make.c lines 170-193 and 255-619 *)
From Verif Require Import Base Utils CpioHeader Rpm Seq Expand.

(** [BUFFER_SIZE], [CPIO_ALLOC_SIZE], drpm_make.c lines 40 and 46. *)
Definition BUFFER_SIZE : Z := 4096.
Definition CPIO_ALLOC_SIZE : Z := 65536.

(** The bytes of a buffer up to the first NUL. *)
Fixpoint cstring (l : list Z) : list Z :=
  match l with
  | [] => []
  | x :: r => if x =? 0 then [] else x :: cstring r
  end.

(** [strstr (path, pat) != NULL]. *)
Fixpoint prefix_of (pat l : list Z) : bool :=
  match pat, l with
  | [], _ => true
  | p :: pat, x :: l => (p =? x) && prefix_of pat l
  | _, [] => false
  end.
Fixpoint strstr (l pat : list Z) : bool :=
  prefix_of pat l || match l with [] => false | _ :: r => strstr r pat end.

(** [IN_MULTILIB_DIR], drpm_make.c lines 42-44: "lib/", "lib32/" or "lib64/". *)
Definition IN_MULTILIB_DIR (path : list Z) : bool :=
  strstr path [108; 105; 98; 47] || strstr path [108; 105; 98; 51; 50; 47]
  || strstr path [108; 105; 98; 54; 52; 47].

(** [major], [minor], [makedev] of <sys/sysmacros.h> (glibc) for numbers below 2^32. *)
Definition major (dev : Z) : Z := Z.land (Z.shiftr dev 8) 4095.
Definition minor (dev : Z) : Z := Z.lor (Z.land dev 255) (Z.land (Z.shiftr dev 12) 4294967040).
Definition makedev (ma mi : Z) : Z :=
  Z.lor (Z.lor (Z.shiftl (Z.land ma 4095) 8) (Z.land mi 255)) (Z.shiftl (Z.land mi 4294967040) 12).

(** The growing archive buffer: contents and allocated size. *)
Record gbuf := mkgb { gb_data : list Z; gb_cap : Z }.

(** [cpio_extend], drpm_make.c lines 170-193; allocation succeeds. *)
Definition cpio_extend (g : gbuf) (seq : list Z) : res gbuf :=
  let len := zlen seq in
  let old_len := zlen (gb_data g) in
  let new_len := u64 (old_len + len) in
  let old_padding := padding old_len CPIO_ALLOC_SIZE in
  let new_padding := padding new_len CPIO_ALLOC_SIZE in
  if (new_len <? len) || (u64 (new_len + new_padding) <? new_padding) then Err EOverflow
  else
    let cap := if old_padding <? len then u64 (new_len + new_padding) else gb_cap g in
    if old_len + len <=? cap then Ok (mkgb (gb_data g ++ seq) cap) else Ub OobWrite.

Fixpoint cpio_extends (g : gbuf) (l : list (list Z)) : res gbuf :=
  match l with
  | [] => Ok g
  | x :: l => g <- cpio_extend g x ;; cpio_extends g l
  end.

(** Loop of drpm_make.c lines 431-467.  [adj]: the adjustments so far; [cap]: allocated elements
    of the array; [len], [prev], [pos]: [cpio_len], [cpio_len_prev], [cpio_pos_before_hdrname].
    [TWOS_COMPLEMENT] (drpm_private.h line 53) is taken modulo 2^32. *)
Fixpoint offadj_loop (fuel : nat) (adj : list (Z * Z)) (cap len prev pos : Z) : res (list (Z * Z) * Z) :=
  match fuel with
  | O => NoFuel
  | S f =>
      let n := 2 * zlen adj in
      let cap := resize32 cap n in
      if cap <=? n + 1 then Ub OobWrite
      else if 2 ^ 31 <=? u32 (len - prev) then
        offadj_loop f (adj ++ [(INT32_MAX, 0)]) cap len (prev + INT32_MAX) pos
      else
        let d := u32 (len - prev) in
        if pos <? len then
          let offset := len - pos in
          if 2 ^ 31 <=? offset
          then offadj_loop f (adj ++ [(d, u32 (- INT32_MAX))]) cap len len (pos + INT32_MAX)
          else Ok (adj ++ [(d, u32 (- offset))], cap)
        else
          let offset := pos - len in
          if 2 ^ 31 <=? offset
          then offadj_loop f (adj ++ [(d, INT32_MAX)]) cap len len (pos - INT32_MAX)
          else Ok (adj ++ [(d, u32 offset)], cap)
  end.

(** Iterations that suffice: at most two for the gap, the rest for the offset. *)
Definition offadj_fuel (len pos : Z) : nat := Z.to_nat (5 + Z.abs (len - pos) / INT32_MAX).

(** State of the main loop: the RPM (with its archive offset), the new archive, [cpio_pos],
    the adjustments (array, its capacity, [cpio_len_prev]), the bytes hashed so far, the sequence. *)
Record ast := mkas {
  as_rpm : rpm; as_cpio : gbuf; as_pos : Z;
  as_adj : list (Z * Z); as_adjcap : Z; as_prev : Z;
  as_md5 : list Z; as_seq : fseq
}.

(** Search of drpm_make.c lines 386-390: the first file with that name. *)
Fixpoint find_file (name : list Z) (files : list file_info) (i : Z) : option (Z * file_info) :=
  match files with
  | [] => None
  | f :: files => if list_eqb name (skip_slash (fi_name f)) then Some (i, f) else find_file name files (i + 1)
  end.

Section Archive.
Variable L : libs.
(** [is_unpatched], with the patches, if there are any. *)
Variable unpatched : option (list Z -> list Z -> bool).
(** Whether offset adjustments are wanted. *)
Variable offadj : bool.
Variable files : list file_info.
Variable colors : bool.
Variable sha : bool.

(** Decision to skip a regular file, drpm_make.c lines 396-405. *)
Definition skip_regular (f : file_info) (name : list Z) (c_filesize : Z) : bool :=
  negb (c_filesize =? fi_size f)
  || negb (Z.land (fi_flags f) (1 + 8 + 64) =? 0)
  || ((Z.land (fi_verify f) 1 =? 0) || (Z.land (fi_verify f) 2 =? 0))
  || (colors && negb (Z.land (fi_color f) 3 =? 0) && negb (IN_MULTILIB_DIR name)).

(** Whether a file found in the header is skipped, drpm_make.c lines 396-412. *)
Definition skip_file (f : file_info) (name : list Z) (c_filesize : Z) : bool :=
  let unp := match unpatched with Some u => S_ISREG (fi_mode f) && u name (fi_md5 f) | None => false end in
  if unp then true
  else if S_ISREG (fi_mode f) then skip_regular f name c_filesize
  else false.

(** The new header, drpm_make.c lines 394, 406-419 (for a file that is not skipped); [filesize]
    is [uint32_t], [namesize] [uint16_t], [mode] [uint16_t], device numbers [uint8_t]. *)
Definition new_header (f : file_info) (name : list Z) : cpio_header :=
  let filesize := if S_ISREG (fi_mode f) then fi_size f
                  else if S_ISLNK (fi_mode f) then u32 (zlen (fi_linkto f)) else 0 in
  let dev := negb (S_ISREG (fi_mode f)) && negb (S_ISLNK (fi_mode f))
             && (S_ISBLK (fi_mode f) || S_ISCHR (fi_mode f)) in
  mkch 0 (fi_mode f) 0 0 1 0 filesize 0 0
    (if dev then u8 (major (fi_rdev f)) else 0) (if dev then u8 (minor (fi_rdev f)) else 0)
    (u16 (zlen name + 1 + 2)).

(** An entry that is kept, drpm_make.c lines 421-535: adjustments, header, name, link target,
    MD5 and sequence. *)
Definition keep_entry (s : ast) (i : Z) (f : file_info) (name : list Z) (hdrname_len pos_before : Z) : res ast :=
  let h := new_header f name in
  let len := zlen (gb_data (as_cpio s)) in
  '(adj, cap, prev, pos) <-
    (if negb (len =? pos_before) then
       '(adj, cap, prev) <-
         (if offadj then
            '(adj, cap) <- offadj_loop (offadj_fuel len pos_before) (as_adj s) (as_adjcap s) len (as_prev s) pos_before ;;
            Ok (adj, cap, len)
          else Ok (as_adj s, as_adjcap s, as_prev s)) ;;
       Ok (adj, cap, prev, u64 (len + hdrname_len))
     else Ok (as_adj s, as_adjcap s, as_prev s, as_pos s)) ;;
  g <- cpio_extends (as_cpio s)
         [cpio_header_write h; [46; 47]; name ++ [0]; zeros (padding (CPIO_HEADER_SIZE + ch_namesize h) 4)] ;;
  let md5 := as_md5 s ++ (name ++ [0]) ++ create_be32 (ch_mode h) ++ create_be32 (ch_filesize h)
               ++ create_be32 (makedev (ch_rdevmajor h) (ch_rdevminor h)) in
  '(g, md5) <-
    (if S_ISLNK (fi_mode f) then
       link <- rd_range (fi_linkto f) 0 (ch_filesize h) ;;
       g <- cpio_extends g [link; zeros (padding (ch_filesize h) 4)] ;;
       link0 <- rd_range (fi_linkto f ++ [0]) 0 (ch_filesize h + 1) ;;
       Ok (g, md5 ++ link0)
     else if S_ISREG (fi_mode f) && negb (ch_filesize h =? 0) then
       d <- file_digest sha (fi_md5 f) ;;
       Ok (g, md5 ++ d)
     else Ok (g, md5)) ;;
  sq <- seq_add (as_seq s) i ;;
  Ok (mkas (as_rpm s) g pos adj cap prev md5 sq).

(** Copying the file data, drpm_make.c lines 540-554; [copy] is false for links and skipped
    entries. *)
Fixpoint data_loop (fuel : nat) (r : rpm) (g : gbuf) (pos data_len : Z) (copy : bool) : res (rpm * gbuf * Z) :=
  if 0 <? data_len then
    match fuel with
    | O => NoFuel
    | S fu =>
        let read_len := Z.min data_len BUFFER_SIZE in
        '(r, b) <- rpm_archive_read_chunk r read_len ;;
        g <- (if copy then cpio_extend g b else Ok g) ;;
        data_loop fu r g (u64 (pos + read_len)) (data_len - read_len) copy
    end
  else Ok (r, g, pos).

Definition copy_data (s : ast) (c_filesize : Z) (copy : bool) : res ast :=
  '(r, g, pos) <- data_loop (S (Z.to_nat (c_filesize / BUFFER_SIZE))) (as_rpm s) (as_cpio s) (as_pos s) c_filesize copy ;;
  let p := padding c_filesize 4 in
  '(r, g, pos) <-
    (if 0 <? p then
       '(r, _) <- rpm_archive_read_chunk r p ;;
       g <- (if copy then cpio_extend g (zeros p) else Ok g) ;;
       Ok (r, g, u64 (pos + p))
     else Ok (r, g, pos)) ;;
  Ok (mkas r g pos (as_adj s) (as_adjcap s) (as_prev s) (as_md5 s) (as_seq s)).

(** One round of the main loop, drpm_make.c lines 343-562; [None] at the trailer.  The name buffer
    holds at least [c_namesize] bytes, so that the store of line 370 is out of bounds exactly
    when [c_namesize] is zero. *)
Definition parse_entry (s : ast) : res (option ast) :=
  '(r, b) <- rpm_archive_read_chunk (as_rpm s) CPIO_HEADER_SIZE ;;
  h <- cpio_header_read b ;;
  let c_filesize := ch_filesize h in
  let c_namesize := ch_namesize h in
  '(r, nb) <- rpm_archive_read_chunk r c_namesize ;;
  if c_namesize =? 0 then Ub OobWrite else
  let name := cstring (firstn (Z.to_nat (c_namesize - 1)) nb) in
  if list_eqb name CPIO_TRAILER then Ok None else
  let name := if prefix_of [46; 47] name then skipn 2 name else name in
  let pad := padding (CPIO_HEADER_SIZE + c_namesize) 4 in
  '(r, _) <- rpm_archive_read_chunk r pad ;;
  let hdrname_len := CPIO_HEADER_SIZE + c_namesize + pad in
  let before := as_pos s in
  let s := mkas r (as_cpio s) (u64 (before + hdrname_len)) (as_adj s) (as_adjcap s) (as_prev s) (as_md5 s) (as_seq s) in
  match find_file name files 0 with
  | Some (i, f) =>
      if skip_file f name c_filesize then s <- copy_data s c_filesize false ;; Ok (Some s)
      else
        s <- keep_entry s i f name hdrname_len before ;;
        s <- copy_data s c_filesize (negb (S_ISLNK (fi_mode f))) ;;
        Ok (Some s)
  | None => s <- copy_data s c_filesize false ;; Ok (Some s)
  end.

(** The loop, drpm_make.c lines 343-562. *)
Fixpoint parse_loop (fuel : nat) (s : ast) : res ast :=
  match fuel with
  | O => NoFuel
  | S f =>
      r <- parse_entry s ;;
      match r with
      | None => Ok s
      | Some s => parse_loop f s
      end
  end.

(** The trailer, drpm_make.c lines 566-577. *)
Definition trailer_header : cpio_header := mkch 0 0 0 0 1 0 0 0 0 0 0 (zlen CPIO_TRAILER + 1).
Definition add_trailer (g : gbuf) : res gbuf :=
  cpio_extends g [cpio_header_write trailer_header; CPIO_TRAILER ++ [0];
                  zeros (padding (CPIO_HEADER_SIZE + ch_namesize trailer_header) 4)].

(** The function after the file list and the digest algorithm have been read: archive, sequence and adjustments.
    Every round of the loop consumes at least 110 bytes of the archive. *)
Definition parse_cpio_files (r : rpm) : res (list Z * list Z * list (Z * Z)) :=
  let s := mkas (rpm_archive_rewind r) (mkgb [] 0) 0 [] 0 0 [] SEQ_INIT in
  s <- parse_loop (S (length (rp_archive r))) s ;;
  g <- add_trailer (as_cpio s) ;;
  sq <- seq_final (as_seq s) ;;
  if 2 ^ 32 <=? 16 + zlen sq then Ub OobWrite
  else Ok (gb_data g, lb_md5 L (as_md5 s) ++ sq, as_adj s).

End Archive.

(** [parse_cpio_from_rpm_filedata], drpm_make.c lines 255-619. *)
Definition parse_cpio (L : libs) (unpatched : option (list Z -> list Z -> bool)) (offadj : bool) (r : rpm)
  : res (list Z * list Z * list (Z * Z)) :=
  '(files, colors) <- rpm_get_file_info L true r ;;
  sha <- rpm_get_digest_algo L r ;;
  parse_cpio_files L unpatched offadj files colors sha r.
