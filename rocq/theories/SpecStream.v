(** * SpecStream: what is assumed of the codec libraries, and what a decoded byte
    string is, independently of the stream code *)
From Verif Require Import Base DeltaComp SpecCodec Stream.

(** Everything an encoder emits for a list of pieces, from its start to its finish. *)
Fixpoint enc_run (cd : codec) (comp level : Z) (hist ps : list (list Z)) : list Z :=
  match ps with
  | [] => c_flush cd comp level hist
  | p :: r => c_step cd comp level hist p ++ enc_run cd comp level (hist ++ [p]) r
  end.

(** Everything a decoder emits for a list of chunks, until the first error. *)
Fixpoint dec_run (cd : codec) (comp : Z) (hist cs : list (list Z)) : list Z * option err :=
  match cs with
  | [] => ([], None)
  | c :: r =>
      match d_step cd comp hist c with
      | (o, Some e) => (o, Some e)
      | (o, None) => let '(o', e) := dec_run cd comp (hist ++ [c]) r in (o ++ o', e)
      end
  end.

(** [b] is a complete encoding of [x]: whatever way [b] is cut into chunks, the decoder
    emits [x] without error; on a part of [b] it emits a prefix of [x]. *)
Definition decodes (cd : codec) (comp : Z) (b x : list Z) : Prop :=
  if comp =? COMP_NONE then b = x
  else forall cs rest, concat cs ++ rest = b -> Forall (fun c => c <> []) cs ->
    exists y e, dec_run cd comp [] cs = (y, e) /\
      (exists z, y ++ z = x) /\ (rest = [] -> e = None /\ y = x).

(** The codecs that are built in: gzip, bzip2, lzma, xz, zstd. *)
Definition real_comp (comp : Z) : Prop := In comp [1; 2; 3; 4; 6].

(** First bytes by which a codec's output is recognised. *)
Definition magic_of (comp : Z) : list Z :=
  if comp =? 1 then [31; 139]
  else if comp =? 2 then [66; 90; 104]
  else if comp =? 3 then [93; 0; 0]
  else if comp =? 4 then [253; 55; 122; 88; 90; 0]
  else if comp =? 6 then [40; 181; 47; 253]
  else [].

(** What is assumed of the libraries: initialisation works for level 0 (default) to 9; the
    output is bytes, at least 8 of them, starts with the codec's magic, and decodes to
    what was put in. *)
Record codec_ok (cd : codec) : Prop := {
  ok_init : forall comp level, real_comp comp -> 0 <= level <= 9 -> c_init cd comp level = None;
  ok_bytes : forall comp level ps, real_comp comp -> 0 <= level <= 9 ->
    Forall bytes ps -> bytes (enc_run cd comp level [] ps);
  ok_magic : forall comp level ps, real_comp comp -> 0 <= level <= 9 ->
    8 <= zlen (enc_run cd comp level [] ps) /\
    exists r, enc_run cd comp level [] ps = magic_of comp ++ r;
  ok_decodes : forall comp level ps, real_comp comp -> 0 <= level <= 9 ->
    decodes cd comp (enc_run cd comp level [] ps) (concat ps)
}.

(** Several writes to a stream in a row; the bytes appended to the file are collected. *)
Fixpoint write_all (cd : codec) (s : cstrm) (ps : list (list Z)) : res (cstrm * list Z) :=
  match ps with
  | [] => Ok (s, [])
  | p :: r => '(s, o) <- compstrm_write cd s p ;; '(s, o') <- write_all cd s r ;; Ok (s, o ++ o')
  end.

(** The same through the wrapper that leaves a prefix uncompressed. *)
Fixpoint wrapper_all (cd : codec) (w : cwrap) (ps : list (list Z)) : res (cwrap * list Z) :=
  match ps with
  | [] => Ok (w, [])
  | p :: r => '(w, o) <- wrapper_write cd w p ;; '(w, o') <- wrapper_all cd w r ;; Ok (w, o ++ o')
  end.

(** Several reads from a stream in a row. *)
Fixpoint read_all (cd : codec) (s : dstrm) (ns : list Z) : res (dstrm * list (list Z)) :=
  match ns with
  | [] => Ok (s, [])
  | n :: r => '(s, o) <- decompstrm_read cd s n ;; '(s, o') <- read_all cd s r ;; Ok (s, o :: o')
  end.

(** Sum of a list of sizes. *)
Definition zsum (l : list Z) : Z := fold_right Z.add 0 l.

(** Recognising a codec by the first bytes, in the order of the format documentation. *)
Definition starts_with (m b : list Z) : bool := list_eqb (slice b 0 (zlen m)) m.
Definition sniff (b : list Z) : Z :=
  if starts_with (magic_of 1) b then 1
  else if starts_with (magic_of 2) b then 2
  else if starts_with (magic_of 4) b then 4
  else if starts_with (magic_of 3) b then 3
  else if starts_with (magic_of 6) b then 6
  else 0.
