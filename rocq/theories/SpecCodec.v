(** * SpecCodec: what the byte-level encodings mean, independently of the code *)
From Verif Require Import Base.

(** Value of a byte string in network byte order: most significant byte first. *)
Definition be_val (l : list Z) : Z := fold_left (fun a b => a * 256 + b) l 0.

(** Value of a hexadecimal digit character ('0'-'9', 'A'-'F', 'a'-'f'). *)
Definition hex_digit (c : Z) : option Z :=
  if (48 <=? c) && (c <=? 57) then Some (c - 48)
  else if (65 <=? c) && (c <=? 70) then Some (c - 55)
  else if (97 <=? c) && (c <=? 102) then Some (c - 87)
  else None.

(** Value of a string of hexadecimal digits, continuing from [a]. *)
Fixpoint hex_val_from (a : Z) (s : list Z) : option Z :=
  match s with
  | [] => Some a
  | c :: r => match hex_digit c with
              | Some d => hex_val_from (a * 16 + d) r
              | None => None
              end
  end.

(** The bytes denoted by a string of pairs of hexadecimal digits. *)
Fixpoint hex_bytes (s : list Z) : option (list Z) :=
  match s with
  | [] => Some []
  | a :: b :: r =>
      match hex_digit a, hex_digit b, hex_bytes r with
      | Some x, Some y, Some l => Some (x * 16 + y :: l)
      | _, _, _ => None
      end
  | _ => None
  end.

(** Sign-magnitude form of a signed 32-bit number: bit 31 is the sign. *)
Definition sign_magnitude (v : Z) : Z := if v <? 0 then 2 ^ 31 + - v else v.

(** Public compression identifiers that have a code in the delta format: none,
    gzip, bzip2, lzma, xz, zstd (not lzip = 5). *)
Definition supported_comp (c : Z) : Prop := In c [0; 1; 2; 3; 4; 6].
