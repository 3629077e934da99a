(** * DeltaRead: model of /repo/src/drpm_read.c

    [readdelta_rest] is written over an arbitrary source of bytes; the code uses it with the
    decompression stream ([decompstrm_read]).  Sizes handed to [malloc] are computed in 32 bits
    as in C; a store outside of the allocated buffer is [Ub OobWrite].  [malloc(0)] is taken
    to return a pointer (glibc). *)
From Verif Require Import Base Utils DeltaComp Stream Rpm Delta.

(** A C string: the bytes before the first NUL. *)
Fixpoint cstr (l : list Z) : list Z :=
  match l with
  | [] => []
  | c :: r => if c =? 0 then [] else c :: cstr r
  end.

Section Rest.
Variable S : Type.
Variable rdS : S -> Z -> res (S * list Z).

(** [decompstrm_read_be32], [decompstrm_read_be64] over the source. *)
Definition r_be32 (s : S) : res (S * Z) :=
  '(s, b) <- rdS s 4 ;; v <- parse_be32_at b 0 ;; Ok (s, v).
Definition r_be64 (s : S) : res (S * Z) :=
  '(s, b) <- rdS s 8 ;; v <- parse_be64_at b 0 ;; Ok (s, v).

(** Loops like drpm_read.c lines 199-201: [n] numbers stored at indices [i], [i+2], ... of
    an array of [cap] bytes; each number goes through [f]. *)
Fixpoint r_elems (n : nat) (f : Z -> Z) (cap i : Z) (s : S) : res (S * list Z) :=
  match n with
  | O => Ok (s, [])
  | Datatypes.S n =>
      '(s, v) <- r_be32 s ;;
      if cap <? 4 * (i + 1) then Ub OobWrite
      else '(s, r) <- r_elems n f cap (i + 2) s ;; Ok (s, f v :: r)
  end.

(** An array of pairs, e.g. drpm_read.c lines 193-208: first numbers, then second numbers.
    [count * 2] and [size * 4] are 32-bit products. *)
Definition r_pairs (f g : Z -> Z) (count : Z) (s : S) : res (S * list (Z * Z)) :=
  let size := u32 (count * 2) in
  let cap := u32 (size * 4) in
  let n := Z.to_nat (size / 2) in
  '(s, a) <- r_elems n f cap 0 s ;;
  '(s, b) <- r_elems n g cap 1 s ;;
  Ok (s, combine a b).

(** Version, drpm_read.c lines 103-117. *)
Definition r_version (type : Z) (s : S) : res (S * Z) :=
  '(s, v) <- r_be32 s ;;
  if negb (Z.shiftr v 8 =? 4475988) then Err EFormat  (* 444C54 "DLT" *)
  else
    let version := u16 (v mod 256 - 48) in
    if (version <? 3) && (type =? TYPE_RPMONLY) then Err EFormat
    else Ok (s, version).

(** Length of the source NEVR, drpm_read.c line 121. *)
Definition r_nevr_len (s : S) : res (S * Z) := r_be32 s.
(** Source NEVR, drpm_read.c lines 124-132: buffer of [src_nevr_len + 1] bytes. *)
Definition r_nevr (len : Z) (s : S) : res (S * list Z) :=
  '(s, b) <- rdS s len ;;
  if u32 (len + 1) <? len + 1 then Ub OobWrite else Ok (s, cstr b).

(** Sequence and target MD5, drpm_read.c lines 136-158. *)
Definition r_seq (type : Z) (s : S) : res (S * (list Z * list Z)) :=
  '(s, len) <- r_be32 s ;;
  if (len <? 16) || (negb (len =? 16) && (type =? TYPE_RPMONLY)) then Err EFormat
  else
    '(s, seq) <- rdS s len ;;
    '(s, md5) <- rdS s 16 ;;
    Ok (s, (seq, md5)).

(** Size and compression of the target, drpm_read.c lines 160-184 (version 2 and later):
    size, compression, level, parameters. *)
Definition r_target (s : S) : res (S * (Z * Z * Z * list Z)) :=
  '(s, size) <- r_be32 s ;;
  '(s, c) <- r_be32 s ;;
  match decode_comp c with
  | None => Err EFormat
  | Some (comp, level) =>
      '(s, len) <- r_be32 s ;;
      '(s, param) <- (if 0 <? len then rdS s len else Ok (s, [])) ;;
      Ok (s, (size, comp, level, param))
  end.

(** Target header length and number of offset adjustments, drpm_read.c lines 186-191. *)
Definition r_hlen (s : S) : res (S * (Z * Z)) :=
  '(s, hlen) <- r_be32 s ;; '(s, n) <- r_be32 s ;; Ok (s, (hlen, n)).

(** Offset adjustments, drpm_read.c lines 193-208. *)
Definition r_offadj (n : Z) (s : S) : res (S * list (Z * Z)) :=
  if 0 <? n then r_pairs (fun x => x) sm_decode n s else Ok (s, []).

(** Lead and signature, payload format offset, counts, drpm_read.c lines 218-241. *)
Definition r_leadsig (s : S) : res (S * (list Z * Z * Z * Z)) :=
  '(s, len) <- r_be32 s ;;
  if len <? RPM_LEADSIG_MIN_LEN then Err EFormat
  else
    '(s, leadsig) <- rdS s len ;;
    '(s, fmtoff) <- r_be32 s ;;
    '(s, intn) <- r_be32 s ;;
    '(s, extn) <- r_be32 s ;;
    Ok (s, (leadsig, fmtoff, intn, extn)).

(** Internal and external copies, drpm_read.c lines 246-273. *)
Definition r_int (n : Z) (s : S) : res (S * list (Z * Z)) := r_pairs (fun x => x) (fun x => x) n s.
Definition r_ext (n : Z) (s : S) : res (S * list (Z * Z)) := r_pairs sm_decode (fun x => x) n s.

(** Data lengths: 64 bits in version 3 only, drpm_read.c lines 276-283 and 306-313. *)
Definition r_len (version : Z) (s : S) : res (S * Z) :=
  if version =? 3 then r_be64 s else r_be32 s.

(** Add data, drpm_read.c lines 287-303. *)
Definition r_add (type : Z) (s : S) : res (S * list Z) :=
  '(s, len) <- r_be32 s ;;
  if 0 <? len then
    if type =? TYPE_RPMONLY then Err EFormat else rdS s len
  else Ok (s, []).

(** Internal data, drpm_read.c lines 320-328. *)
Definition r_data (len : Z) (s : S) : res (S * list Z) :=
  if 0 <? len then rdS s len else Ok (s, []).

(** Check of the internal copies, drpm_read.c lines 333-340. *)
Fixpoint check_int (ints : list (Z * Z)) (off intlen : Z) : bool :=
  match ints with
  | [] => true
  | (_, l) :: r => let off := u64 (off + l) in
                   if intlen <? off then false else check_int r off intlen
  end.

(** Check of the external copies, drpm_read.c lines 343-355. *)
Fixpoint check_ext (exts : list (Z * Z)) (off extlen : Z) : bool :=
  match exts with
  | [] => true
  | (d, l) :: r =>
      let off := u64 (off + s32 d) in
      if extlen <? off then false
      else let off := u64 (off + l) in
           if (off =? 0) || (extlen <? off) then false else check_ext r off extlen
  end.

(** [readdelta_rest], drpm_read.c lines 82-361, after the decompression is initialised.
    [comp] is the detected compression, [tcomp] the target compression known so far; [head] and
    [add] come from the part read before. *)
Definition readdelta_rest (type comp tcomp : Z) (head : dhead) (add : list Z) (s : S)
  : res (S * deltarpm) :=
  '(s, version) <- r_version type s ;;
  '(s, len) <- r_nevr_len s ;;
  '(s, nevr) <- r_nevr len s ;;
  '(s, (seq, md5)) <- r_seq type s ;;
  '(s, (size, tcomp, tlevel, param)) <-
     (if 2 <=? version then r_target s else Ok (s, (0, tcomp, 0, []))) ;;
  '(s, (hlen, offn)) <- (if version =? 3 then r_hlen s else Ok (s, (0, 0))) ;;
  '(s, offadj) <- r_offadj offn s ;;
  if (hlen =? 0) && (type =? TYPE_RPMONLY) then Err EFormat
  else
    '(s, (leadsig, fmtoff, intn, extn)) <- r_leadsig s ;;
    '(s, ints) <- r_int intn s ;;
    '(s, exts) <- r_ext extn s ;;
    '(s, extlen) <- r_len version s ;;
    '(s, add2) <- r_add type s ;;
    '(s, intlen) <- r_len version s ;;
    '(s, data) <- r_data intlen s ;;
    if negb (check_int ints 0 intlen) then Err EFormat
    else if negb (check_ext exts 0 extlen) then Err EFormat
    else Ok (s, mkdelta type comp 0 head version nevr seq md5 size tcomp tlevel param hlen offn
                        offadj leadsig fmtoff intn extn ints exts extlen
                        (if type =? TYPE_RPMONLY then add else add2) intlen (IBytes data)).
End Rest.

Section Read.
Variable L : libs.

(** [read_be32], drpm_read.c lines 43-59: value and rest of the file. *)
Definition read_be32 (f : list Z) : res (Z * list Z) :=
  if zlen f <? 4 then Err EFormat else v <- parse_be32_at f 0 ;; Ok (v, from f 4).

(** [read] of [n] bytes into a buffer of [cap] bytes, compared with the wanted number
    afterwards (drpm_read.c lines 383-387, 400-405): everything that is left in the
    file, up to [n] bytes, is stored.  (Linux returns at most 0x7ffff000 bytes per
    call; not modelled.) *)
Definition read_buf (f : list Z) (n cap : Z) : res (list Z * list Z) :=
  let got := Z.min n (zlen f) in
  if cap <? got then Ub OobWrite
  else if got <? n then Err EFormat
  else Ok (slice f 0 n, from f n).

(** [readdelta_rpmonly], drpm_read.c lines 364-408: target NEVR, add data, rest. *)
Definition readdelta_rpmonly (f : list Z) : res (list Z * list Z * list Z) :=
  '(version, f) <- read_be32 f ;;
  if negb (version =? 1145852979) then Err EFormat   (* 444C5433 "DLT3" *)
  else
    '(len, f) <- read_be32 f ;;
    '(nevr, f) <- read_buf f len (u32 (len + 1)) ;;
    if u32 (len + 1) <? len + 1 then Ub OobWrite
    else
      '(alen, f) <- read_be32 f ;;
      '(add, f) <- read_buf f alen alen ;;
      Ok (cstr nevr, add, f).

(** [readdelta_standard], drpm_read.c lines 411-430: the RPM, its compression, and the rest of
    the file from [rpm_size_full] on. *)
Definition readdelta_standard (file : list Z) : res (rpm * Z * list Z) :=
  '(r, _, _, _) <- rpm_read L file DontRead false ;;
  comp <- rpm_get_comp L r ;;
  Ok (r, comp, from file (rpm_size_full r)).

(** Decompression of the payload and its contents, drpm_read.c lines 100-361. *)
Definition read_payload (type tcomp : Z) (head : dhead) (add payload : list Z) : res deltarpm :=
  s <- decompstrm_init true payload ;;
  '(_, d) <- readdelta_rest dstrm (decompstrm_read (lb_codec L)) type (ds_comp s) tcomp head add s ;;
  Ok d.

(** [read_deltarpm], drpm_read.c lines 433-481. *)
Definition read_deltarpm (file : list Z) : res deltarpm :=
  '(magic, f) <- read_be32 file ;;
  if magic =? 1685221485 then  (* 6472706D "drpm" *)
    '(nevr, add, f) <- readdelta_rpmonly f ;;
    read_payload TYPE_RPMONLY 0 (HNevr nevr) add f
  else if magic =? 3987467995 then (* EDABEEDB *)
    '(r, tcomp, f) <- readdelta_standard file ;;
    read_payload TYPE_STANDARD tcomp (HRpm r) [] f
  else Err EFormat.
End Read.
