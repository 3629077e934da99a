(** * Model of the diff step: /repo/src/drpm_diff.c

    As in [Search], buffer lengths are below 2^63, so sums of positions do not
    wrap; subtractions are reduced modulo 2^64. *)
From Verif Require Import Base Search.

(** [struct diff_copy], drpm_diff.c lines 52-57. *)
Record diff_copy : Type := mkdc {
  dc_old_off : Z; dc_old_len : Z; dc_new_off : Z; dc_new_len : Z }.

(** drpm_diff.c line 50. *)
Definition BUFFER_SIZE : Z := 4096.

Section MakeDiff.
  Context (old new : list Z).
  Let old_len : Z := zlen old.
  Let new_len : Z := zlen new.

  (** Forward extension with an add block, drpm_diff.c lines 144-156; [n] rounds
      are left, returns len_forward. *)
  Fixpoint fwd_loop (n : nat) (op np i count best lf : Z) : res Z :=
    match n with
    | O => Ok lf
    | S n' =>
        x <- rd old (op + i) ;;
        y <- rd new (np + i) ;;
        if x =? y then
          let count := count + 1 in
          let i := i + 1 in
          if best + i <=? 2 * count
          then fwd_loop n' op np i count (2 * count - i) i
          else fwd_loop n' op np i count best lf
        else fwd_loop n' op np (i + 1) count best lf
    end.

  (** Forward extension, drpm_diff.c lines 142-163.  Without add block it is the
      length of the exact common prefix. *)
  Definition len_forward_of (addblk : bool) (op np new_pos : Z) : res Z :=
    let max_len := Z.min (u64 (old_len - op)) (u64 (new_pos - np)) in
    if addblk then fwd_loop (Z.to_nat max_len) op np 0 0 0 0
    else match_len_loop (Z.to_nat max_len) old op new np.

  (** Backward extension, drpm_diff.c lines 167-177; [n] rounds are left. *)
  Fixpoint back_loop (n : nat) (old_pos new_pos i count best lb : Z) : res Z :=
    match n with
    | O => Ok lb
    | S n' =>
        x <- rd old (old_pos - i) ;;
        y <- rd new (new_pos - i) ;;
        if x =? y then
          let count := count + 1 in
          if best + i <=? 2 * count
          then back_loop n' old_pos new_pos (i + 1) count (2 * count - i) i
          else back_loop n' old_pos new_pos (i + 1) count best lb
        else back_loop n' old_pos new_pos (i + 1) count best lb
    end.

  (** drpm_diff.c lines 166-181. *)
  Definition len_back_of (addblk : bool) (np old_pos new_pos : Z) : res Z :=
    if addblk && (new_pos <? new_len) then
      let max_len := Z.min old_pos (u64 (new_pos - np)) in
      back_loop (Z.to_nat max_len) old_pos new_pos 1 0 0 0
    else Ok 0.

  (** Place to split overlapping extensions, drpm_diff.c lines 187-197.  [a] and
      [b] are the positions of the overlap in the old data seen from the forward
      and from the backward extension, [c] its position in the new data seen from
      the forward one and [d] from the backward one. *)
  Fixpoint split_loop (n : nat) (a c b d i cf cb best sp : Z) : res Z :=
    match n with
    | O => Ok sp
    | S n' =>
        x <- rd old (a + i) ;;
        y <- rd new (c + i) ;;
        x' <- rd old (b + i) ;;
        y' <- rd new (d + i) ;;
        let cf := if x =? y then cf + 1 else cf in
        let cb := if x' =? y' then cb + 1 else cb in
        if (cb <? cf) && (best <? cf - cb)
        then split_loop n' a c b d (i + 1) cf cb (cf - cb) (i + 1)
        else split_loop n' a c b d (i + 1) cf cb best sp
    end.

  (** drpm_diff.c lines 183-200: the adjusted (len_forward, len_back). *)
  Definition resolve_overlap (op np old_pos new_pos lf lb : Z) : res (Z * Z) :=
    if u64 (new_pos - lb) <? np + lf then
      let ov := u64 (np + lf - u64 (new_pos - lb)) in
      sp <- split_loop (Z.to_nat ov)
              (u64 (op + lf - ov)) (u64 (np + lf - ov))
              (u64 (old_pos - lb)) (u64 (new_pos - lb)) 0 0 0 0 0 ;;
      Ok (u64 (lf - (ov - sp)), u64 (lb - sp))
    else Ok (lf, lb).

  (** One buffer of add block data, drpm_diff.c lines 236-237:
      [buffer[i] = new[np + i] - old[op + i]] on [unsigned char]. *)
  Fixpoint sub_loop (n : nat) (op np : Z) : res (list Z) :=
    match n with
    | O => Ok []
    | S n' =>
        y <- rd new np ;;
        x <- rd old op ;;
        r <- sub_loop n' (op + 1) (np + 1) ;;
        Ok (u8 (y - x) :: r)
    end.

  (** drpm_diff.c lines 234-243: the buffers written to the add block stream. *)
  Fixpoint add_loop (fuel : nat) (op np lf : Z) : res (list (list Z)) :=
    if lf <=? 0 then Ok []
    else match fuel with
         | O => NoFuel
         | S f =>
             let wl := Z.min lf BUFFER_SIZE in
             b <- sub_loop (Z.to_nat wl) op np ;;
             r <- add_loop f (op + wl) (np + wl) (lf - wl) ;;
             Ok (b :: r)
         end.

  (** Main loop of [make_diff], drpm_diff.c lines 134-248.  Returns the diff
      copies and the buffers written to the add block stream, in order. *)
  Fixpoint make_diff_loop (fuel : nat) (h : htab) (addblk : bool)
           (op np new_pos len : Z) : res (list diff_copy * list (list Z)) :=
    if new_len <=? np then Ok ([], [])
    else match fuel with
         | O => NoFuel
         | S f =>
             '(new_pos, old_pos, len) <-
                hash_search h old new (if addblk then u64 (op - np) else old_len)
                            (new_pos + len) ;;
             lf <- len_forward_of addblk op np new_pos ;;
             lb <- len_back_of addblk np old_pos new_pos ;;
             '(lf, lb) <- resolve_overlap op np old_pos new_pos lf lb ;;
             let dc := mkdc op lf (np + lf) (u64 (u64 (new_pos - lb) - (np + lf))) in
             adds <- (if addblk then add_loop (Z.to_nat lf) op np lf else Ok []) ;;
             '(dcs, adds') <- make_diff_loop f h addblk
                                (u64 (old_pos - lb)) (u64 (new_pos - lb)) new_pos len ;;
             Ok (dc :: dcs, adds ++ adds')
         end.

  (** [make_diff] up to line 248, with the number of rounds that suffices. *)
  Definition make_diff_copies (addblk : bool) : res (list diff_copy * list (list Z)) :=
    h <- hash_create old ;;
    make_diff_loop (Z.to_nat (new_len + 1)) h addblk 0 0 0 0.
End MakeDiff.

(** ** Copies: drpm_diff.c lines 282-386

    The C arrays hold pairs of [uint32_t]; here they are lists of pairs, oldest
    first.  Array indices are 32-bit in C ([ext_copies_count * 2]); the model does
    not wrap them, i.e. it assumes fewer than 2^31 copies. *)

Definition TWO31 : Z := 2 ^ 31.

(** Inner loop over one old extent, drpm_diff.c lines 307-339.  Returns the
    external copies appended and the new value of [offset]. *)
Fixpoint ext_loop (fuel : nat) (old_off old_len offset : Z) : res (list (Z * Z) * Z) :=
  match fuel with
  | O => NoFuel
  | S f =>
      if (offset <? old_off) && (TWO31 <=? u64 (old_off - offset)) then
        '(r, o) <- ext_loop f old_off old_len (u64 (offset + INT32_MAX)) ;;
        Ok ((INT32_MAX, 0) :: r, o)
      else if (old_off <? offset) && (TWO31 <=? u64 (offset - old_off)) then
        '(r, o) <- ext_loop f old_off old_len (u64 (offset - INT32_MAX)) ;;
        Ok ((u32 (- INT32_MAX), 0) :: r, o)
      else if TWO31 <=? old_len then
        let offset' := u64 (offset + INT32_MAX) in
        '(r, o) <- ext_loop f offset' (old_len - INT32_MAX) offset' ;;
        Ok ((u32 (old_off - offset), INT32_MAX) :: r, o)
      else Ok ([(u32 (old_off - offset), old_len)], u64 (old_off + old_len))
  end.

(** Number of rounds that suffices for [ext_loop]. *)
Definition ext_fuel (old_off old_len offset : Z) : nat :=
  Z.to_nat ((Z.abs (old_off - offset) + old_len) / INT32_MAX + 2).

(** Inner loop over one new extent, drpm_diff.c lines 343-360.  [cnt] is
    ext_copies_count - last_ext_copies_count (0 after the first round). *)
Fixpoint int_loop (fuel : nat) (cnt new_len : Z) : res (list (Z * Z)) :=
  match fuel with
  | O => NoFuel
  | S f =>
      if TWO31 <=? new_len then
        r <- int_loop f 0 (new_len - INT32_MAX) ;;
        Ok ((u32 cnt, INT32_MAX) :: r)
      else Ok [(u32 cnt, new_len)]
  end.

Definition int_fuel (new_len : Z) : nat := Z.to_nat (new_len / INT32_MAX + 2).

(** Loop over the diff copies, drpm_diff.c lines 301-372.  [cnt] is the number of
    external copies made since the last internal copy. *)
Fixpoint diff_copies_loop (dcs : list diff_copy) (offset cnt : Z)
  : res (list (Z * Z) * list (Z * Z)) :=
  match dcs with
  | [] => Ok ([], if 0 <? u32 cnt then [(u32 cnt, 0)] else [])
  | d :: dcs' =>
      '(exts, offset') <-
         (if dc_old_len d =? 0 then Ok ([], offset)
          else ext_loop (ext_fuel (dc_old_off d) (dc_old_len d) offset)
                        (dc_old_off d) (dc_old_len d) offset) ;;
      let cnt' := cnt + zlen exts in
      '(ints, cnt'') <-
         (if dc_new_len d =? 0 then Ok ([], cnt')
          else r <- int_loop (int_fuel (dc_new_len d)) cnt' (dc_new_len d) ;; Ok (r, 0)) ;;
      '(exts', ints') <- diff_copies_loop dcs' offset' cnt'' ;;
      Ok (exts ++ exts', ints ++ ints')
  end.

(** [create_diff_copies], drpm_diff.c lines 283-386: (external copies, internal
    copies). *)
Definition create_diff_copies (dcs : list diff_copy) : res (list (Z * Z) * list (Z * Z)) :=
  diff_copies_loop dcs 0 0.

(** drpm_diff.c lines 406-410: skip diff copies until [left] is not 0. *)
Fixpoint next_left (dcs : list diff_copy) (left offset : Z) : res (list diff_copy * Z * Z) :=
  if left =? 0 then
    match dcs with
    | [] => Ub OobRead
    | d :: dcs' => next_left dcs' (dc_new_len d) (dc_new_off d)
    end
  else Ok (dcs, left, offset).

(** Loop of [create_int_data_array], drpm_diff.c lines 403-416.  Returns for each
    internal copy the offset of its data in the new bytes. *)
Fixpoint int_array_loop (dcs : list diff_copy) (ints : list (Z * Z)) (offset left : Z)
  : res (list Z) :=
  match ints with
  | [] => Ok []
  | (_, todo) :: ints' =>
      '(dcs, left, offset) <-
         (if 0 <? todo then next_left dcs left offset else Ok (dcs, left, offset)) ;;
      r <- int_array_loop dcs ints' (u64 (offset + todo)) (u64 (left - todo)) ;;
      Ok (offset :: r)
  end.

(** [create_int_data_array], drpm_diff.c lines 389-422: (offsets of the pieces,
    int_data_len). *)
Definition create_int_data_array (dcs : list diff_copy) (ints : list (Z * Z))
  : res (list Z * Z) :=
  offs <- int_array_loop dcs ints 0 0 ;;
  Ok (offs, u64 (fold_left Z.add (map snd ints) 0)).

(** Result of [make_diff] before compression of the add block. *)
Record diff_result : Type := mkdr {
  dr_ext : list (Z * Z);        (** external copies *)
  dr_int : list (Z * Z);        (** internal copies *)
  dr_int_off : list Z;          (** position in [new] of each internal piece *)
  dr_int_len : Z;               (** int_data_len *)
  dr_add : list (list Z) }.     (** buffers written to the add block stream *)

(** [make_diff], drpm_diff.c lines 77-280.  The add block is returned as the
    sequence of buffers given to [compstrm_write]; compression is modelled in
    [Stream]. *)
Definition make_diff (old new : list Z) (addblk : bool) : res diff_result :=
  '(dcs, adds) <- make_diff_copies old new addblk ;;
  '(exts, ints) <- create_diff_copies dcs ;;
  '(offs, len) <- create_int_data_array dcs ints ;;
  Ok (mkdr exts ints offs len adds).

(** The internal data that ends up in the delta: piece by piece,
    drpm_write.c lines 195-198 ([int_data.ptrs] with the lengths of the internal
    copies). *)
Fixpoint int_data_of (new : list Z) (offs : list Z) (ints : list (Z * Z)) : res (list Z) :=
  match offs, ints with
  | o :: offs', (_, l) :: ints' =>
      p <- rd_range new o l ;;
      r <- int_data_of new offs' ints' ;;
      Ok (p ++ r)
  | _, _ => Ok []
  end.
