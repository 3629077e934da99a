(** Ownership in drpm_block.c: the blocks from which external data are copied. *)
Require Import ZArith List Bool.
Require Import Verif.Own Verif.OwnCodec Verif.OwnRpm Verif.OwnRead Verif.OwnCheck Verif.OwnMake.
Import ListNotations.
Open Scope Z_scope.
Open Scope own_scope.

(** [struct blocks], drpm_block.c lines 72-113, as far as it is set by [blocks_create], with
    the address of its block: [blocks_table], [blocks_max], [cpio_buffer], and of the union
    [old_header] or [open_files]. *)
Record blocks : Type := mkblks
  { b_self : ptr; b_table : ptr; b_max : ptr; b_cpio : ptr; b_hdr : ptr; b_open : ptr }.
Definition b_null : blocks := mkblks Null Null Null Null Null Null.

(** The lists of blocks in it: [core_blocks] and [free_core_blocks] (a struct and its buffer),
    [page_blocks] (structs), [page_filedesc].  The entries of [blocks_table] and [last_block]
    point to blocks of these lists; which one is a pick. *)
Record pool : Type := mkpool
  { k_core : list (ptr * ptr); k_idle : list (ptr * ptr); k_page : list ptr; k_fd : ptr }.
Definition no_pool : pool := mkpool [] [] [] Null.

(** Element [k] of a list, and the others. *)
Fixpoint pull {A} (k : nat) (l : list A) : option (A * list A) :=
  match l, k with
  | [], _ => None
  | a :: r, O => Some (a, r)
  | a :: r, S k => match pull k r with Some (b, r) => Some (b, a :: r) | None => None end
  end.

(** Releasing a list of structs with a buffer or a descriptor, drpm_block.c lines 247-252 and
    260-268. *)
Fixpoint freepairs (l : list (ptr * ptr)) : M unit :=
  match l with
  | [] => ret tt
  | (b, d) :: r => use b ;; free d ;; free b ;; freepairs r
  end.
(** The same for structs of page blocks, which have no buffer. *)
Fixpoint freepages (l : list ptr) : M unit :=
  match l with
  | [] => ret tt
  | b :: r => use b ;; free b ;; freepages r
  end.

(** [blocks_create], drpm_block.c lines 139-231.  If something fails after the struct was
    allocated, the caller's variable still points to it. *)
Definition blocks_create (from only : bool) (r : rpm) : M (bool * blocks) :=
  ok <- call ;;                                      (* number of blocks *)
  if negb ok then ret (false, b_null)
  else
    '(ok, h) <- (if from && only then rpm_fetch_header r else ret (true, Null)) ;;
    if negb ok then ret (false, b_null)
    else
      o <- (if from then ret Null else malloc) ;;
      if negb from && isnull o then ret (false, b_null)
      else
        self <- malloc ;;
        table <- (if isnull self then ret Null else malloc) ;;
        max <- (if isnull table then ret Null else malloc) ;;
        cpio <- (if isnull max then ret Null else malloc) ;;
        if isnull cpio then
          free self ;; free table ;; free max ;; free cpio ;;
          ret (false, mkblks self Null Null Null Null Null)
        else ret (true, mkblks self table max cpio h o).

(** [blocks_destroy], drpm_block.c lines 234-282; [fs] is the list of open files (a struct and
    its descriptor). *)
Definition blocks_destroy (from : bool) (b : blocks) (p : pool) (fs : list (ptr * ptr)) : M unit :=
  if isnull (b_self b) then ret tt
  else
    use (b_self b) ;;
    (if from then free (b_hdr b) else freepairs fs ;; free (b_open b)) ;;
    freepairs (k_core p) ;;
    freepairs (k_idle p) ;;
    freepages (k_page p) ;;
    free (k_fd p) ;;
    free (b_table b) ;;
    free (b_max b) ;;
    free (b_cpio b) ;;
    free (b_self b).

(** Fewer than [lim] (MAX_CORE_BLOCKS) blocks have a buffer; [core_blocks_count] counts free
    ones, too. *)
Definition below (lim : Z) (p : pool) : bool :=
  Z.of_nat (length (k_core p) + length (k_idle p)) <? lim.

(** [new_core_block], drpm_block.c lines 384-405: result, and the new block is the first. *)
Definition new_core_block (p : pool) : M (bool * pool) :=
  b <- malloc ;;
  d <- (if isnull b then ret Null else malloc) ;;
  if isnull d then free b ;; ret (false, p)
  else ret (true, mkpool ((b, d) :: k_core p) (k_idle p) (k_page p) (k_fd p)).

(** [get_free_core_block], drpm_block.c lines 408-421: the block becomes the first. *)
Definition take_free (p : pool) : option pool :=
  match k_idle p with
  | [] => None
  | x :: r => Some (mkpool (x :: k_core p) r (k_page p) (k_fd p))
  end.

(** The page block that is used in [write_page_block], drpm_block.c lines 468-487: one that is
    no longer needed, or a new one, which is in the list before the file is created. *)
Definition page_for (p : pool) : M (bool * ptr * pool) :=
  again <- call ;;
  k <- pickn ;;
  match (if again then pull k (k_page p) else None) with
  | Some (q, _) => use q ;; ret (true, q, p)
  | None =>
    q <- malloc ;;
    if isnull q then ret (false, Null, p)
    else
      let l := q :: k_page p in
      if negb (isnull (k_fd p)) then
        ret (true, q, mkpool (k_core p) (k_idle p) l (k_fd p))
      else
        ok <- gated e_page ;;                        (* mkstemp *)
        if negb ok then free q ;; ret (false, Null, mkpool (k_core p) (k_idle p) l Null)
        else fd <- new ;; ret (true, q, mkpool (k_core p) (k_idle p) l fd)
  end.

(** [write_page_block], drpm_block.c lines 454-500: if the block cannot be written its struct
    is released although it is still in the list. *)
Definition write_page_block (p : pool) : M (bool * pool) :=
  known <- call ;;
  if known then ret (true, p)
  else
    '(ok, q, p) <- page_for p ;;
    if negb ok then ret (false, p)
    else
      use q ;;
      look (k_fd p) ;;
      ok <- gated e_page ;;                          (* pwrite *)
      if negb ok then free q ;; ret (false, p) else ret (true, p).

(** [push_block], drpm_block.c lines 424-451, for the block [x]. *)
Definition push_block (lim : Z) (x : ptr * ptr) (p : pool) : M (bool * pool) :=
  let (b, d) := x in
  use b ;;
  match take_free p with
  | Some p => use d ;; ret (true, p)
  | None =>
    if below lim p then '(ok, p) <- new_core_block p ;; use d ;; ret (ok, p)
    else
      paged <- call ;;                               (* BLK_CORE *)
      if paged then use d ;; write_page_block p else ret (true, p)
  end.

(** The block that is to be filled in [get_block], drpm_block.c lines 328-368.  The loop that
    looks for blocks that are no longer needed (lines 333-344) moves at most one to the empty
    list of free ones, since it goes on in that list; it is then the one that is taken.  With
    the limit reached the last one of the list is used again. *)
Definition next_block (lim : Z) (p : pool) : M (bool * pool) :=
  match take_free p with
  | Some p => ret (true, p)
  | None =>
    early <- call ;;
    if below lim p && early then new_core_block p
    else
      some <- call ;;
      k <- pickn ;;
      match (if some then pull k (k_core p) else None) with
      | Some (x, r) => ret (true, mkpool (x :: r) (k_idle p) (k_page p) (k_fd p))
      | None =>
        if below lim p then new_core_block p
        else
          match pull (length (k_core p) - 1) (k_core p) with
          | None => use Null ;; ret (false, p)       (* line 356: the list is empty *)
          | Some (x, r) =>
            let p := mkpool (x :: r) (k_idle p) (k_page p) (k_fd p) in
            paged <- call ;;                         (* BLK_CORE *)
            if paged then use (snd x) ;; write_page_block p else ret (true, p)
          end
      end
  end.

(** [rpm_archive_read_chunk], drpm_rpm.c lines 369-384. *)
Definition read_archive (r : rpm) : M bool := use (r_self r) ;; look (r_arch r) ;; call.

(** One step of [fillblock_rpm_standard], drpm_block.c lines 705-829: data of an entry are
    copied, the block is full, or the next entry is looked for. *)
Definition standard_round (lim : Z) (b : blocks) (r : rpm) (fi : finfo) (q : ptr) (x : ptr * ptr)
  (a : ptr * pool) : M (bool * (ptr * pool)) :=
  let (name, p) := a in
  use (b_self b) ;;
  use (b_cpio b) ;;
  look q ;;
  use (fst x) ;;
  use (snd x) ;;
  copies <- call ;;
  ok <- (if copies then read_archive r else ret true) ;;
  if negb ok then ret (false, (name, p))
  else
    full <- call ;;
    if full then
      wanted <- call ;;
      if negb wanted then ret (true, (name, p))
      else use (b_max b) ;; '(ok, p) <- push_block lim x p ;; ret (ok, (name, p))
    else
      n <- pickn ;;                                  (* entries that are passed *)
      '(ok, name) <-
        rounds n (fun name => ok <- read_archive r ;;
                              if negb ok then ret (false, name) else grow name) name ;;
      if negb ok then ret (false, (name, p))
      else
        look (fi_self fi) ;;
        ok <- read_archive r ;;
        ret (ok, (name, p)).

(** [fillblock_rpm_standard], drpm_block.c lines 675-837. *)
Definition fill_standard (lim : Z) (b : blocks) (r : rpm) (fi : finfo) (q : ptr) (x : ptr * ptr)
  (p : pool) : M (bool * pool) :=
  n <- pickn ;;
  '(ok, (name, p)) <- rounds n (standard_round lim b r fi q x) (Null, p) ;;
  free name ;;
  ret (ok, p).

(** [fillblock_rpm_rpmonly], drpm_block.c lines 841-911. *)
Definition only_round (lim : Z) (b : blocks) (r : rpm) (x : ptr * ptr) (p : pool) : M (bool * pool) :=
  use (fst x) ;;
  use (snd x) ;;
  use (b_hdr b) ;;
  ok <- read_archive r ;;
  if negb ok then ret (false, p)
  else
    use (b_max b) ;;
    wanted <- call ;;
    if wanted then push_block lim x p else ret (true, p).
Definition fill_only (lim : Z) (b : blocks) (r : rpm) (x : ptr * ptr) (p : pool) : M (bool * pool) :=
  n <- pickn ;; rounds n (only_round lim b r x) p.

(** [open_new_file], drpm_block.c lines 566-636: result, whether the file is prelinked, and
    the list of open files; [mo] is MAX_OPEN_FILES. *)
Definition open_new_file (mo : Z) (b : blocks) (fi : finfo) (q : ptr) (fs : list (ptr * ptr))
  : M (bool * bool * list (ptr * ptr)) :=
  look (fi_self fi) ;;
  look q ;;
  fd <- tryn ;;
  if isnull fd then ret (false, false, fs)
  else
    differs <- call ;;
    '(ok, pre) <- (if differs then is_prelinked else ret (true, false)) ;;
    if negb ok then free fd ;; ret (false, false, fs)
    else if pre then free fd ;; ret (true, true, fs)
    else if Z.of_nat (length fs) <? mo then
      f <- malloc ;;
      if isnull f then free fd ;; ret (false, false, fs)
      else use (b_open b) ;; ret (true, false, fs ++ [(f, fd)])
    else
      match fs with
      | [] => use Null ;; ret (false, false, fs)     (* line 608: the list is empty *)
      | (f, d) :: l =>
        use f ;; free d ;; use (b_open b) ;; ret (true, false, l ++ [(f, fd)])
      end.

(** [get_open_file], drpm_block.c lines 639-668: if the file is open it becomes the last. *)
Definition get_open_file (b : blocks) (fs : list (ptr * ptr)) : M (bool * list (ptr * ptr)) :=
  use (b_open b) ;;
  there <- call ;;
  k <- pickn ;;
  match (if there then pull k fs else None) with
  | Some ((f, d), l) => use f ;; use d ;; ret (true, l ++ [(f, d)])
  | None => ret (false, fs)
  end.

(** The state of [fillblock_prelink] while it looks for the first block that must be filled,
    drpm_block.c lines 1039-1069: the descriptor, and whether all went well.  The result says
    whether the loop goes on. *)
Definition back_round (fi : finfo) (a : ptr * bool) : M (bool * (ptr * bool)) :=
  look (fi_self fi) ;;
  stop <- call ;;
  if stop then ret (false, (Null, true))
  else
    fd <- tryn ;;
    if isnull fd then ret (false, (Null, false))
    else
      same <- call ;;
      if same then ret (false, (fd, true))
      else
        '(ok, pre) <- is_prelinked ;;
        if negb ok then ret (false, (fd, false))
        else if negb pre then ret (false, (fd, true))
        else free fd ;; ret (true, (Null, true)).

(** A file is opened by [fillblock_prelink], drpm_block.c lines 1136-1151.  The descriptor that
    was closed stays in the variable if [prelink_open] fails. *)
Definition prelink_file : M (bool * ptr) :=
  fd <- tryn ;;
  if isnull fd then ret (false, fd)
  else
    differs <- call ;;
    '(ok, pre) <- (if differs then is_prelinked else ret (true, false)) ;;
    if negb ok then ret (false, fd)
    else if negb pre then ret (true, fd)
    else
      free fd ;;
      t <- prelink_open ;;
      if isnull t then ret (false, fd) else ret (true, t).

(** One step of the loops of [fillblock_prelink], drpm_block.c lines 1080-1194: data of an
    entry are copied, and the block may then be full. *)
Definition prelink_round (lim : Z) (b : blocks) (fi : finfo) (x : ptr * ptr) (a : ptr * pool)
  : M (bool * (ptr * pool)) :=
  let (fd, p) := a in
  use (fst x) ;;
  use (snd x) ;;
  past <- call ;;
  (if past then free fd else ret tt) ;;
  let fd := if past then Null else fd in
  use (b_cpio b) ;;
  look (fi_self fi) ;;
  data <- call ;;
  '(ok, fd) <-
    (if negb data then ret (true, fd)
     else
       '(ok, fd) <- (if isnull fd then prelink_file else ret (true, fd)) ;;
       if negb ok then ret (false, fd)
       else use fd ;; ok <- call ;; ret (ok, fd)) ;;
  if negb ok then ret (false, (fd, p))
  else
    ends <- call ;;
    (if ends then free fd else ret tt) ;;
    let fd := if ends then Null else fd in
    full <- call ;;
    if negb full then ret (true, (fd, p))
    else
      use (b_max b) ;;
      '(ok, p) <- push_block lim x p ;;
      ret (ok, (fd, p)).

(** [fillblock_prelink], drpm_block.c lines 1020-1211. *)
Definition fill_prelink (lim : Z) (b : blocks) (fi : finfo) (x : ptr * ptr) (p : pool)
  : M (bool * pool) :=
  n <- pickn ;;
  '(_, (fd, ok)) <- rounds n (back_round fi) (Null, true) ;;
  if negb ok then free fd ;; ret (false, p)
  else
    ok <- call ;;                                    (* lseek *)
    if negb ok then free fd ;; ret (false, p)
    else
      n <- pickn ;;
      '(ok, (fd, p)) <- rounds n (prelink_round lim b fi x) (fd, p) ;;
      ok2 <- call ;;                                 (* line 1197 *)
      free fd ;;
      ret (ok && ok2, p).

(** One step of the loop of [fillblock_filesystem], drpm_block.c lines 951-1011: the open
    files, and whether a prelinked one was found. *)
Definition fs_round (mo : Z) (b : blocks) (fi : finfo) (q : ptr) (x : ptr * ptr)
  (a : list (ptr * ptr) * bool) : M (bool * (list (ptr * ptr) * bool)) :=
  let (fs, _) := a in
  use (fst x) ;;
  use (snd x) ;;
  use (b_cpio b) ;;
  look q ;;
  data <- call ;;
  if negb data then ret (true, (fs, false))
  else
    '(there, fs) <- get_open_file b fs ;;
    '(ok, pre, fs) <-
      (if there then ret (true, false, fs)
       else
         '(ok, pre, fs) <- open_new_file mo b fi q fs ;;
         if negb ok || pre then ret (ok, pre, fs)
         else '(_, fs) <- get_open_file b fs ;; ret (true, false, fs)) ;;
    if negb ok || pre then ret (false, (fs, pre))
    else ok <- call ;; ret (ok, (fs, false)).

(** [fillblock_filesystem], drpm_block.c lines 916-1017. *)
Definition fill_files (lim mo : Z) (b : blocks) (fi : finfo) (q : ptr) (x : ptr * ptr) (p : pool)
  (fs : list (ptr * ptr)) : M (bool * pool * list (ptr * ptr)) :=
  ok <- call ;;                                      (* line 943 *)
  if negb ok then ret (false, p, fs)
  else
    n <- pickn ;;
    '(ok, (fs, pre)) <- rounds n (fs_round mo b fi q x) (fs, false) ;;
    if negb ok && pre then '(ok, p) <- fill_prelink lim b fi x p ;; ret (ok, p, fs)
    else ret (ok, p, fs).

(** [get_block], drpm_block.c lines 310-381, for a block that is not in memory. *)
Definition get_block (lim mo : Z) (from only : bool) (b : blocks) (r : rpm) (fi : finfo) (q : ptr)
  (p : pool) (fs : list (ptr * ptr)) : M (bool * pool * list (ptr * ptr)) :=
  use (b_self b) ;;
  use (b_table b) ;;
  '(ok, p) <- next_block lim p ;;
  if negb ok then ret (false, p, fs)
  else
    match k_core p with
    | [] => ret (false, p, fs)                       (* cannot be *)
    | x :: _ =>
      paged <- call ;;
      if paged then                                  (* read_page_block, lines 503-517 *)
        use (fst x) ;; use (snd x) ;; look (k_fd p) ;; ok <- call ;; ret (ok, p, fs)
      else if from then
        '(ok, p) <- (if only then fill_only lim b r x p else fill_standard lim b r fi q x p) ;;
        ret (ok, p, fs)
      else fill_files lim mo b fi q x p fs
    end.

(** [blocks_next], drpm_block.c lines 285-307, with the buffer of the caller: data of a block
    that is in memory, or of a new one.  A block in memory is one of the two lists. *)
Definition blocks_next (lim mo : Z) (from only : bool) (b : blocks) (r : rpm) (fi : finfo) (q : ptr)
  (buffer : ptr) (p : pool) (fs : list (ptr * ptr)) : M (bool * pool * list (ptr * ptr)) :=
  use (b_self b) ;;
  use (b_table b) ;;
  there <- call ;;
  k <- pickn ;;
  match (if there then pull k (k_core p) else None) with
  | Some (x, _) => use (fst x) ;; use (snd x) ;; use buffer ;; ret (true, p, fs)
  | None =>
    '(ok, p, fs) <- get_block lim mo from only b r fi q p fs ;;
    if negb ok then ret (false, p, fs)
    else use buffer ;; ret (true, p, fs)
  end.
