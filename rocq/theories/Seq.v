(** * Seq: the compressed file order

    Encoding: /repo/src/drpm_make.c lines 55-67 and 100-167; decoding: /repo/src/drpm_apply.c
    lines 107-166. *)
From Verif Require Import Base.

(** ** Encoding *)

(** [struct files_seq], drpm_make.c lines 61-67.  The buffer [fs_data] has as many elements
    as [alloc_len]; [None] is a byte that was allocated but not stored yet.  [last_seq] is
    signed. *)
Record fseq := mkfs { fs_data : list (option Z); fs_index : Z; fs_start : Z; fs_last : Z }.

(** [SEQ_INIT], drpm_make.c lines 55-56. *)
Definition SEQ_INIT : fseq := mkfs [] 0 0 (-1).
(** drpm_make.c lines 57-58. *)
Definition SEQ_ALLOC_SIZE : nat := 32.
Definition SEQ_BYTE_LEN (index : Z) : Z := (index + 1) / 2.

(** Store [l[i] = x]. *)
Definition store {A} (l : list A) (i : Z) (x : A) : res (list A) :=
  if (0 <=? i) && (i <? zlen l)
  then Ok (firstn (Z.to_nat i) l ++ x :: skipn (S (Z.to_nat i)) l)
  else Ub OobWrite.

(** Number of 3-bit digits of a 32-bit value, drpm_make.c lines 102-108. *)
Fixpoint digit_count (fuel : nat) (tmp : Z) : nat :=
  match fuel with
  | O => 1
  | S f => if 8 <=? tmp then S (digit_count f (Z.shiftr tmp 3)) else 1
  end.

(** Loop of drpm_make.c lines 116-121: [len] nibbles, bit 3 set on all but the last. *)
Fixpoint append_loop (len : nat) (data : list (option Z)) (index val : Z) : res (list (option Z) * Z) :=
  match len with
  | O => Ok (data, index)
  | S len' =>
      let nib := Z.lor (Z.land val 7) (match len' with O => 0 | _ => 8 end) in
      data <- (if index mod 2 =? 0 then store data (index / 2) (Some (u8 (Z.shiftl nib 4)))
               else
                 b <- rd data (index / 2) ;;
                 match b with
                 | None => Ub Uninit
                 | Some b => store data (index / 2) (Some (Z.lor b nib))
                 end) ;;
      append_loop len' data (index + 1) (Z.shiftr val 3)
  end.

(** [seq_append], drpm_make.c lines 100-124; the buffer grows at most once.  A 32-bit
    value has at most 11 digits. *)
Definition seq_append (s : fseq) (val : Z) : res fseq :=
  let len := digit_count 11 val in
  let data := if zlen (fs_data s) <? SEQ_BYTE_LEN (fs_index s + Z.of_nat len)
              then fs_data s ++ repeat None SEQ_ALLOC_SIZE else fs_data s in
  '(data, index) <- append_loop len data (fs_index s) val ;;
  Ok (mkfs data index (fs_start s) (fs_last s)).

(** [seq_add], drpm_make.c lines 127-153; [val] is [unsigned]. *)
Definition seq_add (s : fseq) (index : Z) : res fseq :=
  if index =? fs_last s + 1 then Ok (mkfs (fs_data s) (fs_index s) (fs_start s) (fs_last s + 1))
  else
    let val := u32 (fs_last s - fs_start s + 1) in
    s <- (if 0 <? val then seq_append s val else Ok s) ;;
    s <- (if (0 <=? fs_last s) && (fs_last s + 1 <? index)
          then seq_append s (u32 (index - (fs_last s + 1)))
          else s <- seq_append s 0 ;; seq_append s index) ;;
    Ok (mkfs (fs_data s) (fs_index s) index index).

(** The stored bytes of a buffer; copying a byte that was never stored is [Uninit]. *)
Fixpoint stored (l : list (option Z)) : res (list Z) :=
  match l with
  | [] => Ok []
  | Some b :: r => r <- stored r ;; Ok (b :: r)
  | None :: _ => Ub Uninit
  end.

(** [seq_final], drpm_make.c lines 156-167, with the copy of line 566. *)
Definition seq_final (s : fseq) : res (list Z) :=
  let val := u32 (fs_last s - fs_start s + 1) in
  s <- (if 0 <? val then seq_append s val else Ok s) ;;
  data <- rd_range (fs_data s) 0 (SEQ_BYTE_LEN (fs_index s)) ;;
  stored data.

(** Adding the indices of all files kept, in archive order (drpm_make.c line 534). *)
Fixpoint seq_add_all (s : fseq) (l : list Z) : res fseq :=
  match l with
  | [] => Ok s
  | i :: l => s <- seq_add s i ;; seq_add_all s l
  end.
Definition seq_encode (l : list Z) : res (list Z) :=
  s <- seq_add_all SEQ_INIT l ;; seq_final s.

(** ** Decoding *)

(** State of the loop of drpm_apply.c lines 110-161.  The table [positions] has room for
    [file_count] elements; [dq_out] is what has been stored so far. *)
Record dseq := mkdq {
  dq_jump : bool; dq_toggle : bool; dq_shift : Z; dq_num : Z; dq_pos : Z; dq_out : list Z
}.
Definition DSEQ_INIT : dseq := mkdq false true 0 0 0 [].

(** Inner loop, drpm_apply.c lines 151-157: [number] may be huge, but the check stops it. *)
Fixpoint run_loop (fuel : nat) (count number pos : Z) (out : list Z) : res (Z * list Z) :=
  if 0 <? number then
    match fuel with
    | O => NoFuel
    | S f =>
        if (count <? zlen out) || (count <? pos) then Err EFormat
        else if count <=? zlen out then Ub OobWrite
        else run_loop f count (number - 1) (u64 (pos + 1)) (out ++ [pos])
    end
  else Ok (pos, out).

(** A complete number, drpm_apply.c lines 137-160. *)
Definition seq_number (count number : Z) (s : dseq) : res dseq :=
  if dq_jump s then Ok (mkdq false true 0 0 number (dq_out s))
  else if number =? 0 then Ok (mkdq true (dq_toggle s) 0 0 (dq_pos s) (dq_out s))
  else if negb (dq_toggle s) then Ok (mkdq false true 0 0 (u64 (dq_pos s + number)) (dq_out s))
  else
    '(pos, out) <- run_loop (S (Z.to_nat count)) count number (dq_pos s) (dq_out s) ;;
    Ok (mkdq false false 0 0 pos out).

(** [num_buf <<= shift] on [size_t], drpm_apply.c lines 120-121 and 126-127. *)
Definition shl64 (x shift : Z) : res Z :=
  if shift =? 0 then Ok x else if 64 <=? shift then Ub BadShift else Ok (u64 (Z.shiftl x shift)).

(** One nibble, drpm_apply.c lines 118-160; [shift] is [unsigned]. *)
Definition seq_nibble (count nib : Z) (s : dseq) : res dseq :=
  if negb (Z.land nib 8 =? 0) then
    b <- shl64 (Z.lxor nib 8) (dq_shift s) ;;
    Ok (mkdq (dq_jump s) (dq_toggle s) (u32 (dq_shift s + 3)) (Z.lor (dq_num s) b) (dq_pos s) (dq_out s))
  else
    b <- shl64 nib (dq_shift s) ;;
    seq_number count (Z.lor (dq_num s) b) s.

(** The loop over the bytes after the digest, drpm_apply.c lines 111-117: high nibble first. *)
Fixpoint seq_loop (count : Z) (l : list Z) (s : dseq) : res dseq :=
  match l with
  | [] => Ok s
  | b :: l =>
      s <- seq_nibble count (Z.shiftr b 4) s ;;
      s <- seq_nibble count (Z.land b 15) s ;;
      seq_loop count l s
  end.

(** Decompression of the file order, drpm_apply.c lines 107-166. *)
Definition seq_positions (sequence : list Z) (count : Z) : res (list Z) :=
  s <- seq_loop count (skipn 16 sequence) DSEQ_INIT ;;
  if negb (dq_shift s =? 0) then Err EFormat else Ok (dq_out s).
