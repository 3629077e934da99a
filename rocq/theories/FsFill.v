(** * FsFill: model of the block source that reads installed files, /repo/src/drpm_block.c lines 565-672 and 912-1211

    A call of [fill_block] makes the wanted block, whatever was made before; if it meets a prelinked file, it makes all
    blocks with contents of this file and stores those still needed in the cache. *)
From Verif Require Import Base Utils CpioHeader Rpm Seq Expand Archive FileSys Prelink Blocks Fill.

(** drpm_block.c line 37. *)
Definition MAX_OPEN_FILES : Z := 50.

(** [struct open_file], drpm_block.c lines 49-56: what is read from the descriptor, its position, and the field
    [offset].  Pointers to such a structure are indices into [fx_nodes]. *)
Record ofile := mkof { of_data : list Z; of_pos : Z; of_off : Z }.

(** The part of [struct blocks] used by this source: structures allocated ([file_count] is their number), the list from
    [files_head] to [files_tail], the array [open_files], and the current entry as in [ssrc]. *)
Record fsrc := mkfx {
  fx_nodes : list ofile; fx_list : list nat; fx_open : list (option nat);
  fx_idx : Z; fx_buf : list (option Z); fx_link : option (list Z)
}.

(** [blocks_create], drpm_block.c lines 148-152, 182-190 and 210-219. *)
Definition fs_source (cpio : list cpio_file) : fsrc :=
  mkfx [] [] (repeat None (length cpio)) (-1) (repeat None (Z.to_nat (max_header cpio))) None.

Section Source.
Variable fs : fsys.
(** [prelink_open], drpm_apply.c lines 623-663: the output of "prelink -u" for a file. *)
Variable unprelinked : list Z -> res (list Z).
Variable files : list file_info.
Variable cpio : list cpio_file.

(** An opened file whose size on disk is not the recorded one, drpm_block.c lines 591, 1050 and 1132-1133. *)
Definition other_size (f : file_info) : bool :=
  match fs_stat fs (fi_name f) with Some size => negb (size =? fi_size f) | None => false end.

(** [open_new_file], drpm_block.c lines 566-636: the new state, or [None] for a prelinked file.  [index] comes from
    [cpio->index], but is used here as the number of an entry. *)
Definition open_new_file (s : fsrc) (index : Z) : res (option fsrc) :=
  c <- rd cpio index ;;
  f <- rd files (cf_index c) ;;
  match fs_open fs (fi_name f) with
  | None => Err EIo
  | Some data =>
      prelinked <- (if other_size f then is_prelinked data (slice data 0 128) else Ok false) ;;
      if prelinked : bool then Ok None
      else
        let new := mkof data 0 0 in
        '(nodes, l, k) <-
          (if zlen (fx_nodes s) <? MAX_OPEN_FILES
           then Ok (fx_nodes s ++ [new], fx_list s ++ [length (fx_nodes s)], length (fx_nodes s))
           else match fx_list s with
                | [] => Ub NullDeref
                | k :: l => nodes <- store (fx_nodes s) (Z.of_nat k) new ;; Ok (nodes, l ++ [k], k)
                end) ;;
        open <- store (fx_open s) index (Some k) ;;
        Ok (Some (mkfx nodes l open (fx_idx s) (fx_buf s) (fx_link s)))
  end.

(** [get_open_file], drpm_block.c lines 639-670: the structure, moved to the end of the list. *)
Definition get_open_file (s : fsrc) (index : Z) : res (fsrc * option nat) :=
  p <- rd (fx_open s) index ;;
  Ok (match p with
      | None => (s, None)
      | Some k =>
          (mkfx (fx_nodes s) (filter (fun j => negb (Nat.eqb j k)) (fx_list s) ++ [k]) (fx_open s) (fx_idx s) (fx_buf s) (fx_link s),
           Some k)
      end).

(** End of the header and of the contents of an entry; the sums are [size_t]. *)
Definition head_end (c : cpio_file) : Z := u64 (cf_off c + cf_hlen c).
Definition body_end (c : cpio_file) : Z := u64 (u64 (cf_off c + cf_hlen c) + cf_clen c).

(** Search of the entry with the byte at [off], drpm_block.c lines 938-945: first backwards, then forwards. *)
Fixpoint back (i : nat) (off : Z) : res nat :=
  match i with
  | O => Ok O
  | S j => c <- rd cpio (Z.of_nat i) ;; if off <? cf_off c then back j off else Ok i
  end.
Fixpoint ahead (l : list cpio_file) (i off : Z) : option Z :=
  match l with
  | [] => None
  | c :: l => if (cf_off c <=? off) && (off <? body_end c) then Some i else ahead l (i + 1) off
  end.

(** Making [i] the current entry: [fill_cpio_header]. *)
Definition enter (s : fsrc) (i : Z) : res fsrc :=
  c <- rd cpio i ;;
  '(buf, link) <- fill_header files (fx_buf s) (fx_link s) (cf_index c) ;;
  Ok (mkfx (fx_nodes s) (fx_list s) (fx_open s) i buf link).

(** [read_len] bytes at [file_off] of the regular file [index], drpm_block.c lines 975-999; [None] for a prelinked file. *)
Definition read_installed (s : fsrc) (index file_off read_len : Z) : res (option (fsrc * list Z)) :=
  '(s, p) <- get_open_file s index ;;
  o <- match p with
       | Some k => Ok (Some (s, k))
       | None =>
           n <- open_new_file s index ;;
           match n with
           | None => Ok None
           | Some s =>
               '(s, p) <- get_open_file s index ;;
               match p with Some k => Ok (Some (s, k)) | None => Ub NullDeref end
           end
       end ;;
  match o with
  | None => Ok None
  | Some (s, k) =>
      file <- rd (fx_nodes s) (Z.of_nat k) ;;
      let pos := if of_off file =? file_off then of_pos file else file_off in
      match pread (of_data file) read_len pos with
      | None => Err EFormat
      | Some x =>
          nodes <- store (fx_nodes s) (Z.of_nat k) (mkof (of_data file) (pos + read_len) (file_off + read_len)) ;;
          Ok (Some (mkfx nodes (fx_list s) (fx_open s) (fx_idx s) (fx_buf s) (fx_link s), x))
      end
  end.

(** What a round of filling ends with: contents, or the number of an entry whose file is prelinked. *)
Inductive filled := Contents (x : list Z) | Prelinked (i : Z).
Definition after (x : list Z) (f : filled) : filled := match f with Contents y => Contents (x ++ y) | Prelinked i => Prelinked i end.

(** The loop of [fillblock_filesystem], drpm_block.c lines 954-1011, from offset [off] on with [len] bytes to fill. *)
Fixpoint fs_rounds (fuel : nat) (s : fsrc) (off len : Z) : res (fsrc * filled) :=
  match fuel with
  | O => NoFuel
  | S fuel =>
      if len =? 0 then Ok (s, Contents [])
      else
        c <- rd cpio (fx_idx s) ;;
        if off <? head_end c then
          let file_off := u64 (off - cf_off c) in
          let read_len := Z.min len (u64 (cf_hlen c - file_off)) in
          x <- peek (fx_buf s) file_off read_len ;;
          '(s, r) <- fs_rounds fuel s (u64 (off + read_len)) (len - read_len) ;;
          Ok (s, after x r)
        else if cf_index c <? 0 then Ok (s, Contents (zeros len))
        else if off <? body_end c then
          let file_off := u64 (off - head_end c) in
          f <- rd files (cf_index c) ;;
          o <- (if S_ISLNK (fi_mode f) then
                  let read_len := Z.min len (u64 (cf_clen c - file_off)) in
                  match fx_link s with
                  | None => Ub NullDeref
                  | Some l => Ok (Some (s, if zlen l <? file_off then zeros read_len else strncpy (from l file_off) read_len))
                  end
                else if file_off <? fi_size f then read_installed s (cf_index c) file_off (Z.min len (fi_size f - file_off))
                else Ok (Some (s, zeros (Z.min len (u64 (cf_clen c - file_off)))))) ;;
          match o with
          | None => Ok (s, Prelinked (fx_idx s))
          | Some (s, x) =>
              '(s, r) <- fs_rounds fuel s (u64 (off + zlen x)) (len - zlen x) ;;
              Ok (s, after x r)
          end
        else
          s <- enter s (fx_idx s + 1) ;;
          fs_rounds fuel s off len
  end.
(** Every round fills at least a byte or goes on to the next entry. *)
Definition fs_fuel : nat := S (Z.to_nat BLOCK_SIZE + length cpio).

(** ** Prelinked files *)

(** drpm_block.c lines 1039-1040; [i] is the number of the entry. *)
Fixpoint back_all (i : nat) (off : Z) : res nat :=
  c <- rd cpio (Z.of_nat i) ;;
  if off <? cf_off c then match i with O => Ub OobRead | S j => back_all j off end else Ok i.

(** drpm_block.c lines 1062-1065: the last block before [id] that starts at [start] or before. *)
Fixpoint block_before (id : nat) (start : Z) : res nat :=
  match id with
  | O => NoFuel
  | S id => if start <? Z.of_nat id * BLOCK_SIZE then block_before id start else Ok id
  end.

(** An open descriptor: what is read from it, and its position. *)
Definition fdesc : Type := list Z * Z.

(** Where to start, drpm_block.c lines 1038-1066: entry, block, descriptor, and the flag [prelinked], which is [None]
    before it is set. *)
Fixpoint start_block (fuel : nat) (i id : nat) (prelinked : option bool) : res (nat * nat * option fdesc * option bool) :=
  match fuel with
  | O => NoFuel
  | S fuel =>
      let off := Z.of_nat id * BLOCK_SIZE in
      i <- back_all i off ;;
      c <- rd cpio (Z.of_nat i) ;;
      if (cf_index c <? 0) || (cf_clen c =? 0) || (off <=? head_end c) then Ok (i, id, None, prelinked)
      else
        f <- rd files (cf_index c) ;;
        if S_ISLNK (fi_mode f) then Ok (i, id, None, prelinked)
        else
          match fs_open fs (fi_name f) with
          | None => Err EIo
          | Some data =>
              if negb (other_size f) then Ok (i, id, Some (data, 0), prelinked)
              else
                p <- is_prelinked data (slice data 0 128) ;;
                if negb p then Ok (i, id, Some (data, 0), Some false)
                else
                  id <- block_before id (head_end c) ;;
                  start_block fuel i id (Some true)
          end
  end.

(** The first entry that ends behind [off], drpm_block.c lines 1082-1088: entries and number of the first of them, and
    whether there was a step. *)
Fixpoint skip_entries (l : list cpio_file) (i : nat) (off : Z) : res (cpio_file * nat) :=
  match l with
  | [] => Ub OobRead
  | c :: l => if body_end c <=? off then skip_entries l (S i) off else Ok (c, i)
  end.

(** State while filling: entry, header buffer, link, descriptor, flag. *)
Record pstate := mkps { ps_i : nat; ps_buf : list (option Z); ps_link : option (list Z); ps_fd : option fdesc; ps_flag : option bool }.

(** Reading from the contents of an entry that is a regular file, drpm_block.c lines 1120-1157, and filling up with
    zeros, lines 1159-1170; [off] is behind the header. *)
Definition prelink_body (s : pstate) (c : cpio_file) (f : file_info) (off len : Z) : res (pstate * list Z) :=
  let file_off := u64 (off - head_end c) in
  '(s, x) <-
    (if file_off <? fi_size f then
       let read_len := Z.min len (fi_size f - file_off) in
       '(fd, flag) <-
         match ps_fd s with
         | Some fd => Ok (fd, ps_flag s)
         | None =>
             match fs_open fs (fi_name f) with
             | None => Err EIo
             | Some data =>
                 p <- (if other_size f then is_prelinked data (slice data 0 128) else Ok false) ;;
                 if p : bool then data <- unprelinked (fi_name f) ;; Ok ((data, 0), Some true)
                 else Ok ((data, 0), Some false)
             end
         end ;;
       let '(data, pos) := fd in
       match pread data read_len pos with
       | None => Err EIo
       | Some x => Ok (mkps (ps_i s) (ps_buf s) (ps_link s) (Some (data, pos + read_len)) flag, x)
       end
     else Ok (s, [])) ;;
  let file_off := u64 (file_off + zlen x) in
  if fi_size f <=? file_off then
    Ok (mkps (ps_i s) (ps_buf s) (ps_link s) None (ps_flag s), x ++ zeros (Z.min (len - zlen x) (u64 (cf_clen c - file_off))))
  else Ok (s, x).

(** The contents of a symbolic link, drpm_block.c lines 1101-1119: [read_len] is not reduced by [file_off]. *)
Definition prelink_link (c : cpio_file) (f : file_info) (off len : Z) : res (list Z) :=
  let file_off := u64 (off - head_end c) in
  let target := fi_linkto f in
  let read_len := Z.min len (if zlen target <? file_off then 0 else zlen target) in
  x <- (if read_len =? 0 then Ok [] else rd_range (target ++ [0]) file_off read_len) ;;
  let file_off := u64 (file_off + zlen x) in
  Ok (x ++ (if file_off <? cf_clen c then zeros (Z.min (len - zlen x) (cf_clen c - file_off)) else [])).

(** One block, drpm_block.c lines 1077-1172. *)
Fixpoint prelink_rounds (fuel : nat) (s : pstate) (off len : Z) : res (pstate * list Z) :=
  match fuel with
  | O => NoFuel
  | S fuel =>
      if len =? 0 then Ok (s, [])
      else
        '(c, i) <- skip_entries (from cpio (Z.of_nat (ps_i s))) (ps_i s) off ;;
        let s := mkps i (ps_buf s) (ps_link s) (if Nat.eqb i (ps_i s) then ps_fd s else None) (ps_flag s) in
        '(s, h) <-
          (if off <? head_end c then
             let file_off := u64 (off - cf_off c) in
             '(buf, link) <- fill_header files (ps_buf s) (ps_link s) (cf_index c) ;;
             x <- peek buf file_off (Z.min len (u64 (cf_hlen c - file_off))) ;;
             Ok (mkps i buf link (ps_fd s) (ps_flag s), x)
           else Ok (s, [])) ;;
        let off := u64 (off + zlen h) in
        let len := len - zlen h in
        if len =? 0 then Ok (s, h)
        else
          '(s, x) <-
            (if cf_index c <? 0 then Ok (s, zeros len)
             else
               f <- rd files (cf_index c) ;;
               if S_ISLNK (fi_mode f) then x <- prelink_link c f off len ;; Ok (s, x)
               else if 0 <? cf_clen c then prelink_body s c f off len
               else Ok (s, [])) ;;
          '(s, y) <- prelink_rounds fuel s (u64 (off + zlen x)) (len - zlen x) ;;
          Ok (s, h ++ x ++ y)
  end.

Section Cache.
(** [MAX_CORE_BLOCKS], drpm_block.c line 38. *)
Variable capacity : Z.
Notation st := (blocks fsrc).

(** The source after the header buffer and the link were changed by [fillblock_prelink]; [cpio_files_index] is -1 then
    (line 982). *)
Definition set_head (b : st) (s : pstate) : st :=
  let x := bk_src b in set_src fsrc b (bk_rid b) (mkfx (fx_nodes x) (fx_list x) (fx_open x) (-1) (ps_buf s) (ps_link s)).

(** Blocks from [id] on until the prelinked file ends, drpm_block.c lines 1077-1194, and the end, lines 1196-1203;
    [saved] is [blk_buf], [None] before it is set. *)
Fixpoint prelink_blocks (fuel : nat) (b : st) (k : nat) (s : pstate) (id wanted copy_cnt : Z) (saved : option (list Z)) : res st :=
  match fuel with
  | O => NoFuel
  | S fuel =>
      '(s, x) <- prelink_rounds fs_fuel s (id * BLOCK_SIZE) BLOCK_SIZE ;;
      b <- put_slot fsrc (set_head b s) k (mksl BCore (Some (u32 id)) (Some x)) ;;
      '(b, saved) <-
        (if id =? wanted then Ok (b, Some x)
         else
           m <- rd (bk_max b) id ;;
           b <- (if (copy_cnt <? m) || ((m =? copy_cnt) && (wanted <? id)) then push_block fsrc capacity b k copy_cnt else Ok b) ;;
           Ok (b, saved)) ;;
      more <- match ps_fd s with
              | None => Ok false
              | Some _ => match ps_flag s with Some p => Ok p | None => Ub Uninit end
              end ;;
      if more : bool then prelink_blocks fuel b k s (id + 1) wanted copy_cnt saved
      else if id <? wanted then Err EProg
      else
        x <- match saved with Some x => Ok x | None => Ub Uninit end ;;
        put_slot fsrc b k (mksl BCore (Some (u32 wanted)) (Some x))
  end.

(** [fillblock_prelink], drpm_block.c lines 1020-1211, called for entry [i]. *)
Definition fill_prelink (b : st) (k : nat) (id copy_cnt : Z) (i : Z) : res st :=
  '(i, first, fd, flag) <- start_block (S (Z.to_nat id)) (Z.to_nat i) (Z.to_nat id) None ;;
  c <- rd cpio (Z.of_nat i) ;;
  fd <- match fd with
        | None => Ok None
        | Some (data, pos) =>
            f <- rd files (cf_index c) ;;
            let file_off := u64 (Z.of_nat first * BLOCK_SIZE - head_end c) in
            Ok (Some (data, if (0 <? file_off) && (file_off <? fi_size f) then file_off else pos))
        end ;;
  let x := bk_src b in
  prelink_blocks (S (S (length (bk_max b)))) b k (mkps i (fx_buf x) (fx_link x) fd flag) (Z.of_nat first) id copy_cnt None.

(** [fillblock_filesystem], drpm_block.c lines 916-1017. *)
Definition fill_filesystem (b : st) (k : nat) (id copy_cnt : Z) : res st :=
  let s := bk_src b in
  let off := u64 (id * BLOCK_SIZE) in
  i <- back (if 0 <=? fx_idx s then Z.to_nat (fx_idx s) else O) off ;;
  match ahead (from cpio (Z.of_nat i)) (Z.of_nat i) off with
  | None => Err EProg
  | Some i =>
      s <- (if i =? fx_idx s then Ok s else enter s i) ;;
      '(s, r) <- fs_rounds fs_fuel s off BLOCK_SIZE ;;
      let b := set_src fsrc b (bk_rid b) s in
      match r with
      | Contents x => put_slot fsrc b k (mksl BNopage (Some (u32 id)) (Some x))
      | Prelinked i =>
          fill_prelink (set_src fsrc b (bk_rid b) (mkfx (fx_nodes s) (fx_list s) (fx_open s) (-1) (fx_buf s) (fx_link s))) k id copy_cnt i
      end
  end.
End Cache.
End Source.
