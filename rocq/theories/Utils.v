(** * Utils: model of /repo/src/drpm_utils.c

    Strings are lists of character codes without the terminating NUL.  *)
From Verif Require Import Base.

(** [parse_be16], drpm_utils.c lines 37-40.  The two bytes are [b0], [b1]. *)
Definition parse_be16 (b0 b1 : Z) : Z :=
  Z.lor (Z.land 65280 (Z.shiftl b0 8)) (Z.land 255 b1).

(** [parse_be32], drpm_utils.c lines 43-49.  [buffer[0] << 24] is computed on
    [int]; like every supported compiler the model takes the bit pattern (the mask
    makes the operand unsigned). *)
Definition parse_be32 (b0 b1 b2 b3 : Z) : Z :=
  Z.lor (Z.lor (Z.lor (Z.land 4278190080 (Z.shiftl b0 24))
                      (Z.land 16711680 (Z.shiftl b1 16)))
               (Z.land 65280 (Z.shiftl b2 8)))
        (Z.land 255 b3).

(** [parse_be64], drpm_utils.c lines 52-62. *)
Definition parse_be64 (b0 b1 b2 b3 b4 b5 b6 b7 : Z) : Z :=
  Z.lor (Z.lor (Z.lor (Z.lor (Z.lor (Z.lor (Z.lor
    (Z.land 18374686479671623680 (Z.shiftl b0 56))
    (Z.land 71776119061217280 (Z.shiftl b1 48)))
    (Z.land 280375465082880 (Z.shiftl b2 40)))
    (Z.land 1095216660480 (Z.shiftl b3 32)))
    (Z.land 4278190080 (Z.shiftl b4 24)))
    (Z.land 16711680 (Z.shiftl b5 16)))
    (Z.land 65280 (Z.shiftl b6 8)))
    (Z.land 255 b7).

(** The parsers applied to a buffer, with checked reads. *)
Definition parse_be16_at (l : list Z) (o : Z) : res Z :=
  b0 <- rd l o ;; b1 <- rd l (o + 1) ;; Ok (parse_be16 b0 b1).
Definition parse_be32_at (l : list Z) (o : Z) : res Z :=
  b0 <- rd l o ;; b1 <- rd l (o + 1) ;; b2 <- rd l (o + 2) ;; b3 <- rd l (o + 3) ;;
  Ok (parse_be32 b0 b1 b2 b3).
Definition parse_be64_at (l : list Z) (o : Z) : res Z :=
  b0 <- rd l o ;; b1 <- rd l (o + 1) ;; b2 <- rd l (o + 2) ;; b3 <- rd l (o + 3) ;;
  b4 <- rd l (o + 4) ;; b5 <- rd l (o + 5) ;; b6 <- rd l (o + 6) ;; b7 <- rd l (o + 7) ;;
  Ok (parse_be64 b0 b1 b2 b3 b4 b5 b6 b7).

(** [create_be32], drpm_utils.c lines 65-71: each assignment to an
    [unsigned char] truncates. *)
Definition create_be32 (x : Z) : list Z :=
  [u8 (Z.shiftr x 24); u8 (Z.shiftr x 16); u8 (Z.shiftr x 8); u8 x].

(** [create_be64], drpm_utils.c lines 74-84. *)
Definition create_be64 (x : Z) : list Z :=
  [u8 (Z.shiftr x 56); u8 (Z.shiftr x 48); u8 (Z.shiftr x 40); u8 (Z.shiftr x 32);
   u8 (Z.shiftr x 24); u8 (Z.shiftr x 16); u8 (Z.shiftr x 8); u8 x].

(** The table [digits] of drpm_utils.c line 100. *)
Definition digits : list Z :=
  [48; 49; 50; 51; 52; 53; 54; 55; 56; 57; 97; 98; 99; 100; 101; 102].

(** [dump_hex], drpm_utils.c lines 98-108: the loop runs from the last byte to the
    first and fills two characters per byte; [acc] is what has been written. *)
Fixpoint dump_hex_loop (count : nat) (source acc : list Z) : res (list Z) :=
  match count with
  | O => Ok acc
  | S c =>
      b <- rd source (Z.of_nat c) ;;
      hi <- rd digits (Z.land (Z.shiftr b 4) 15) ;;
      lo <- rd digits (Z.land b 15) ;;
      dump_hex_loop c source (hi :: lo :: acc)
  end.
Definition dump_hex (source : list Z) (count : Z) : res (list Z) :=
  dump_hex_loop (Z.to_nat count) source [].

(** [isdigit], [isxdigit], [toupper] of the C locale (libc). *)
Definition isdigit (c : Z) : bool := (48 <=? c) && (c <=? 57).
Definition isxdigit (c : Z) : bool :=
  isdigit c || ((65 <=? c) && (c <=? 70)) || ((97 <=? c) && (c <=? 102)).
Definition toupper (c : Z) : Z :=
  if (97 <=? c) && (c <=? 122) then c - 32 else c.

(** [parse_hexnum], drpm_utils.c lines 130-145: loop at lines 134-142 reading
    [str[i]] for [i < size] with accumulator [ret]; [None] is the result -1.
    [str] is the buffer, [o] the position of the first digit; reading past the
    buffer is undefined behaviour (never happens for NUL-terminated strings,
    as the terminator, code 0, is not a digit and is part of the buffer). *)
Fixpoint hexnum_loop (size : nat) (str : list Z) (o : Z) (ret : Z) : res (option Z) :=
  match size with
  | O => Ok (Some ret)
  | S n =>
      c <- rd str o ;;
      if isdigit c then hexnum_loop n str (o + 1) (u64 (ret * 16 + (c - 48)))
      else if isxdigit c
           then hexnum_loop n str (o + 1) (u64 (ret * 16 + (toupper c - 65 + 10)))
           else Ok None
  end.
Definition parse_hexnum (str : list Z) (o size : Z) : res (option Z) :=
  hexnum_loop (Z.to_nat size) str o 0.

(** [parse_hex], drpm_utils.c lines 114-128.  [str] excludes the NUL, so
    [strlen(source)] is [zlen str]; [acc] is [dest] so far, and [cap] the size
    of the destination, which the function does not check. *)
Fixpoint parse_hex_loop (count : nat) (str : list Z) (o : Z) (cap : Z) (acc : list Z)
  : res (option (list Z)) :=
  match count with
  | O => Ok (Some acc)
  | S n =>
      v <- parse_hexnum str o 2 ;;
      match v with
      | None => Ok None
      | Some b =>
          if zlen acc <? cap
          then parse_hex_loop n str (o + 2) cap (acc ++ [u8 b])
          else Ub OobWrite
      end
  end.
Definition parse_hex (str : list Z) (cap : Z) : res (option (list Z)) :=
  parse_hex_loop (Z.to_nat (zlen str / 2)) str 0 cap [].

(** [parse_md5] and [parse_sha256], drpm_utils.c lines 147-155: success means that
    exactly 16, respectively 32, bytes were stored.  [cap] is the size of the
    buffer the caller passes. *)
Definition parse_md5 (str : list Z) (cap : Z) : res (option (list Z)) :=
  r <- parse_hex str cap ;;
  Ok (match r with Some d => if zlen d =? 16 then Some d else None | None => None end).
Definition parse_sha256 (str : list Z) (cap : Z) : res (option (list Z)) :=
  r <- parse_hex str cap ;;
  Ok (match r with Some d => if zlen d =? 32 then Some d else None | None => None end).

(** [resize], drpm_utils.c lines 158-170, as the new capacity (in members) of a
    buffer of capacity [cap] holding [members_count] members. *)
Definition resize (cap members_count threshold : Z) : Z :=
  if members_count mod threshold =? 0 then members_count + threshold else cap.
(** [resize16], [resize32], drpm_utils.c lines 172-180. *)
Definition resize16 (cap members_count : Z) : Z := resize cap members_count 16.
Definition resize32 (cap members_count : Z) : Z := resize cap members_count 32.
