(** * Blocks: model of the block cache, /repo/src/drpm_block.c lines 37-517

    Pointers to core blocks are indices into [bk_slots] (in order of allocation), pointers to page blocks
    are indices into [bk_pageid].  Allocation and the temporary file never fail. *)
From Verif Require Import Base Rpm Seq.

(** drpm_block.c line 40. *)
Definition BLOCK_SIZE : Z := 8192.
(** drpm_block.c line 47, on [uint64_t]. *)
Definition BLOCKS (size : Z) : Z := u64 (1 + u64 (size - 1) / BLOCK_SIZE).

(** drpm_block.c lines 42-44; page blocks are kept apart. *)
Inductive btype := BFree | BCore | BNopage.
(** [struct block] with a buffer, drpm_block.c lines 59-70.  The fields are not initialised by
    [new_core_block]; [None] stands for that. *)
Record slot := mksl { sl_type : btype; sl_id : option Z; sl_data : option (list Z) }.
(** A pointer to a block. *)
Inductive ptr := PCore (k : nat) | PPage (p : nat).

(** [struct blocks], drpm_block.c lines 72-113.  A page block is given by its number, which is also
    its offset in the temporary file; [bk_pageid] and [bk_file] give its id and its contents.
    [bk_clean] is the static counter of line 312, [bk_src] whatever [fill_block] works on, [bk_rid]
    the field [rpm_id]. *)
Record blocks (S : Type) := mkbk {
  bk_slots : list slot; bk_core : list nat; bk_free : list nat;
  bk_pages : list nat; bk_pageid : list Z; bk_file : list (list Z);
  bk_table : list (option ptr); bk_max : list Z;
  bk_last : option ptr; bk_clean : Z; bk_rid : Z; bk_src : S
}.
Arguments mkbk {S}.
Arguments bk_slots {S}. Arguments bk_core {S}. Arguments bk_free {S}. Arguments bk_pages {S}.
Arguments bk_pageid {S}. Arguments bk_file {S}. Arguments bk_table {S}. Arguments bk_max {S}.
Arguments bk_last {S}. Arguments bk_clean {S}. Arguments bk_rid {S}. Arguments bk_src {S}.

Section Cache.
Variable S : Type.
(** [MAX_CORE_BLOCKS], drpm_block.c line 38. *)
Variable capacity : Z.
Notation st := (blocks S).

Definition set_slots (b : st) x := mkbk x (bk_core b) (bk_free b) (bk_pages b) (bk_pageid b) (bk_file b) (bk_table b) (bk_max b) (bk_last b) (bk_clean b) (bk_rid b) (bk_src b).
Definition set_lists (b : st) core free := mkbk (bk_slots b) core free (bk_pages b) (bk_pageid b) (bk_file b) (bk_table b) (bk_max b) (bk_last b) (bk_clean b) (bk_rid b) (bk_src b).
Definition set_pages (b : st) pages ids file := mkbk (bk_slots b) (bk_core b) (bk_free b) pages ids file (bk_table b) (bk_max b) (bk_last b) (bk_clean b) (bk_rid b) (bk_src b).
Definition set_tab (b : st) x := mkbk (bk_slots b) (bk_core b) (bk_free b) (bk_pages b) (bk_pageid b) (bk_file b) x (bk_max b) (bk_last b) (bk_clean b) (bk_rid b) (bk_src b).
Definition set_last (b : st) x := mkbk (bk_slots b) (bk_core b) (bk_free b) (bk_pages b) (bk_pageid b) (bk_file b) (bk_table b) (bk_max b) x (bk_clean b) (bk_rid b) (bk_src b).
Definition set_clean (b : st) x := mkbk (bk_slots b) (bk_core b) (bk_free b) (bk_pages b) (bk_pageid b) (bk_file b) (bk_table b) (bk_max b) (bk_last b) x (bk_rid b) (bk_src b).
Definition set_src (b : st) rid (src : S) := mkbk (bk_slots b) (bk_core b) (bk_free b) (bk_pages b) (bk_pageid b) (bk_file b) (bk_table b) (bk_max b) (bk_last b) (bk_clean b) rid src.

(** [blk->...] for a core block. *)
Definition slot_at (b : st) (k : nat) : res slot := rd (bk_slots b) (Z.of_nat k).
Definition put_slot (b : st) (k : nat) (s : slot) : res st :=
  x <- store (bk_slots b) (Z.of_nat k) s ;; Ok (set_slots b x).
(** [blk->id] and [blk->data.buffer] of a core block; reading them before they are stored is [Uninit]. *)
Definition slot_id (s : slot) : res Z := match sl_id s with Some i => Ok i | None => Ub Uninit end.
Definition slot_data (s : slot) : res (list Z) := match sl_data s with Some d => Ok d | None => Ub Uninit end.

(** [blks->blocks_table[id] = p]. *)
Definition put_table (b : st) (id : Z) (p : option ptr) : res st :=
  x <- store (bk_table b) id p ;; Ok (set_tab b x).

(** [new_core_block], drpm_block.c lines 384-405. *)
Definition new_core_block (b : st) : st * nat :=
  let k := length (bk_slots b) in
  (set_lists (set_slots b (bk_slots b ++ [mksl BFree None None])) (k :: bk_core b) (bk_free b), k).

(** [get_free_core_block], drpm_block.c lines 408-421. *)
Definition get_free_core_block (b : st) : st * option nat :=
  match bk_free b with
  | [] => (b, None)
  | k :: free => (set_lists b (k :: bk_core b) free, Some k)
  end.

(** Number of core blocks ever allocated: [core_blocks_count] only grows. *)
Definition core_count (b : st) : Z := zlen (bk_slots b).

(** First page block with a given property of its id; drpm_block.c lines 462-471. *)
Fixpoint find_page (f : Z -> res bool) (ids : list Z) (pages : list nat) : res (option nat) :=
  match pages with
  | [] => Ok None
  | p :: pages =>
      id <- rd ids (Z.of_nat p) ;;
      t <- f id ;;
      if t : bool then Ok (Some p) else find_page f ids pages
  end.

(** [write_page_block], drpm_block.c lines 454-500, for a core block with id [id] and contents [data]. *)
Definition write_page_block (b : st) (id : Z) (data : option (list Z)) (copy_cnt : Z) : res st :=
  same <- find_page (fun i => Ok (i =? id)) (bk_pageid b) (bk_pages b) ;;
  match same with
  | Some p => put_table b id (Some (PPage p))
  | None =>
      old <- find_page (fun i => m <- rd (bk_max b) i ;; Ok (m <? copy_cnt)) (bk_pageid b) (bk_pages b) ;;
      d <- match data with Some d => Ok d | None => Ub Uninit end ;;
      match old with
      | Some p =>
          ids <- store (bk_pageid b) (Z.of_nat p) id ;;
          file <- store (bk_file b) (Z.of_nat p) d ;;
          put_table (set_pages b (bk_pages b) ids file) id (Some (PPage p))
      | None =>
          let p := length (bk_pageid b) in
          put_table (set_pages b (p :: bk_pages b) (bk_pageid b ++ [id]) (bk_file b ++ [d])) id (Some (PPage p))
      end
  end.

(** [push_block], drpm_block.c lines 424-451, for the core block [k]. *)
Definition push_block (b : st) (k : nat) (copy_cnt : Z) : res st :=
  s <- slot_at b k ;;
  id <- slot_id s ;;
  let '(b, new) := get_free_core_block b in
  let place :=
    match new with
    | Some n => Some (b, n)
    | None => if core_count b <? capacity then Some (new_core_block b) else None
    end in
  match place with
  | Some (b, n) =>
      b <- put_slot b n s ;;
      put_table b id (Some (PCore n))
  | None =>
      match sl_type s with
      | BCore => write_page_block b id (sl_data s) copy_cnt
      | _ => put_table b id None
      end
  end.

Section Order.
(** The next block of the external data, see [Fill]. *)
Variable next : S -> res (S * list Z).

(** [fill_block] for the RPM variants, drpm_block.c lines 726-748 and 885-902 (with [next] the rest of the
    loops): blocks are produced in order until the wanted one; those used by a later copy are stored.
    [blk->id] and [rpm_id] are [unsigned]. *)
Fixpoint fill_loop (fuel : nat) (b : st) (k : nat) (id copy_cnt : Z) : res st :=
  match fuel with
  | O => NoFuel
  | Datatypes.S f =>
      '(src, data) <- next (bk_src b) ;;
      let rid := u32 (bk_rid b) in
      b <- put_slot (set_src b (u32 (bk_rid b + 1)) src) k (mksl BCore (Some rid) (Some data)) ;;
      if rid =? id then Ok b
      else if id <? rid then Err EProg
      else
        m <- rd (bk_max b) rid ;;
        b <- (if copy_cnt <? m then push_block b k copy_cnt else Ok b) ;;
        fill_loop f b k id copy_cnt
  end.
(** The wanted block comes at the latest after all before it. *)
Definition in_order (b : st) (k : nat) (id copy_cnt : Z) : res st :=
  fill_loop (Datatypes.S (Z.to_nat id)) b k id copy_cnt.
End Order.

(** First core block that is not needed any more and the list without it, drpm_block.c lines 333-344.
    The list of free blocks is empty there, so that the walk, which goes on in that list, ends with the
    first block removed. *)
Fixpoint evict (b : st) (id copy_cnt : Z) (core : list nat) : res (option (nat * Z * list nat)) :=
  match core with
  | [] => Ok None
  | k :: core =>
      s <- slot_at b k ;;
      i <- slot_id s ;;
      m <- rd (bk_max b) i ;;
      if (m <? copy_cnt) || ((i <? id) && (m =? copy_cnt)) then Ok (Some (k, i, core))
      else
        r <- evict b id copy_cnt core ;;
        Ok (match r with Some (e, i, l) => Some (e, i, k :: l) | None => None end)
  end.

(** A core block to be filled, drpm_block.c lines 328-368. *)
Definition core_block (b : st) (id copy_cnt : Z) : res (st * nat) :=
  let '(b, blk) := get_free_core_block b in
  match blk with
  | Some k => Ok (b, k)
  | None =>
      let room := core_count b <? capacity in
      let b' := if room then set_clean b (u64 (bk_clean b + 1)) else b in
      if room && negb (bk_clean b' mod 8 =? 0) then Ok (new_core_block b')
      else
        let b := b' in
        e <- evict b id copy_cnt (bk_core b) ;;
        b <- match e with
             | None => Ok b
             | Some (k, i, core) =>
                 s <- slot_at b k ;;
                 b <- put_table (set_lists b core (k :: bk_free b)) i None ;;
                 put_slot b k (mksl BFree (sl_id s) (sl_data s))
             end ;;
        let '(b, blk) := get_free_core_block b in
        match blk with
        | Some k => Ok (b, k)
        | None =>
            if core_count b <? capacity then Ok (new_core_block b)
            else
              match rev (bk_core b) with
              | [] => Ub NullDeref
              | k :: front =>
                  let b := set_lists b (k :: rev front) (bk_free b) in
                  s <- slot_at b k ;;
                  i <- slot_id s ;;
                  b <- match sl_type s with
                       | BCore => write_page_block b i (sl_data s) copy_cnt
                       | _ => put_table b i None
                       end ;;
                  b <- put_slot b k (mksl BFree (sl_id s) (sl_data s)) ;;
                  Ok (b, k)
              end
        end
  end.

(** [fill_block], drpm_block.c line 112: fills the core block [k] with block [id] for copy [copy_cnt]. *)
Variable fill : st -> nat -> Z -> Z -> res st.

(** [get_block], drpm_block.c lines 310-381, with [read_page_block] (lines 503-517).  On success the
    result is a core block. *)
Definition get_block (b : st) (id copy_cnt : Z) : res (st * nat) :=
  p <- rd (bk_table b) id ;;
  have <- match p with
          | Some (PCore k) => s <- slot_at b k ;; Ok (match sl_type s with BFree => None | _ => Some k end)
          | _ => Ok None
          end ;;
  match have with
  | Some k => Ok (b, k)
  | None =>
      '(b, k) <- core_block b id copy_cnt ;;
      p <- rd (bk_table b) id ;;
      b <- put_table b id (Some (PCore k)) ;;
      match p with
      | Some (PPage q) =>
          i <- rd (bk_pageid b) (Z.of_nat q) ;;
          d <- rd (bk_file b) (Z.of_nat q) ;;
          b <- put_slot b k (mksl BCore (Some i) (Some d)) ;;
          b <- put_table b i (Some (PCore k)) ;;
          Ok (b, k)
      | _ =>
          b <- fill b k id copy_cnt ;;
          Ok (b, k)
      end
  end.

(** [blocks_next], drpm_block.c lines 285-307: the piece of data handed out. *)
Definition blocks_next (b : st) (offset copy_len copy_cnt id : Z) : res (st * list Z) :=
  hit <- match bk_last b with
         | Some (PCore k) => s <- slot_at b k ;; i <- slot_id s ;; Ok (if i =? id then Some k else None)
         | Some (PPage p) => i <- rd (bk_pageid b) (Z.of_nat p) ;; if i =? id then Ub OobRead else Ok None
         | None => Ok None
         end ;;
  '(b, k) <- match hit with
             | Some k => Ok (b, k)
             | None =>
                 p <- rd (bk_table b) id ;;
                 match p with
                 | Some (PCore k) => Ok (set_last b (Some (PCore k)), k)
                 | _ =>
                     '(b, k) <- get_block b id copy_cnt ;;
                     Ok (set_last b (Some (PCore k)), k)
                 end
             end ;;
  let off := offset mod BLOCK_SIZE in
  let len := if BLOCK_SIZE <? u64 (off + copy_len) then BLOCK_SIZE - off else copy_len in
  s <- slot_at b k ;;
  d <- slot_data s ;;
  x <- rd_range d off len ;;
  Ok (b, x).

(** Marking the blocks of one copy, drpm_block.c lines 202-206. *)
Fixpoint mark (n : nat) (max : list Z) (blk_i i : Z) : res (list Z) :=
  match n with
  | O => Ok max
  | Datatypes.S n => max <- store max blk_i i ;; mark n max (blk_i + 1) i
  end.
(** drpm_block.c lines 200-207. *)
Fixpoint mark_all (copies : list (Z * Z)) (i off : Z) (max : list Z) : res (list Z) :=
  match copies with
  | [] => Ok max
  | (d, l) :: copies =>
      let off := u64 (off + s32 d) in
      let first := off / BLOCK_SIZE in
      let off := u64 (off + l) in
      max <- mark (Z.to_nat (BLOCKS off - first)) max first i ;;
      mark_all copies (i + 1) off max
  end.

(** [blocks_create], drpm_block.c lines 139-231; [src] as set up at lines 160-191,
    [clean] the current value of the static counter. *)
Definition blocks_create (ext_data_len : Z) (copies : list (Z * Z)) (src : S) (clean : Z) : res st :=
  let block_count := BLOCKS ext_data_len in
  if UINT32_MAX <=? block_count then Err EOverflow
  else
    max <- mark_all copies 0 0 (repeat 0 (Z.to_nat block_count)) ;;
    Ok (mkbk [] [] [] [] [] [] (repeat None (Z.to_nat block_count)) max None clean 0 src).

(** The external copies of drpm_apply, drpm.c lines 692-722, without what is done with the pieces:
    the copy of [len] bytes at [off] with number [cnt]; [id] is the block. *)
Fixpoint copy_pieces (fuel : nat) (b : st) (off len cnt id : Z) : res (st * list (list Z)) :=
  if 0 <? len then
    match fuel with
    | O => NoFuel
    | Datatypes.S f =>
        '(b, x) <- blocks_next b off len cnt id ;;
        '(b, r) <- copy_pieces f b (u64 (off + zlen x)) (len - zlen x) cnt (id + 1) ;;
        Ok (b, x :: r)
    end
  else Ok (b, []).
Definition copy_fuel (len : Z) : nat := Z.to_nat (len / BLOCK_SIZE + 2).

(** All external copies in order: the data of each. *)
Fixpoint read_copies (b : st) (copies : list (Z * Z)) (off cnt : Z) : res (st * list (list Z)) :=
  match copies with
  | [] => Ok (b, [])
  | (d, l) :: copies =>
      let off := u64 (off + s32 d) in
      '(b, x) <- copy_pieces (copy_fuel l) b off l cnt (off / BLOCK_SIZE) ;;
      '(b, r) <- read_copies b copies (u64 (off + l)) (cnt + 1) ;;
      Ok (b, concat x :: r)
  end.

End Cache.
