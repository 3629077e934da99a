(** * SpecLoop: what the documentation of the codec libraries promises about a single call, and
    what compressing and decompressing mean

    [valid b x]: [b] is a complete encoded stream of the bytes [x]. *)
From Verif Require Import Base Stream CodecLoop.

(** A view of an encoder: [ev_live s c p]: [s] is a state reached by taking [c] and putting out
    [p]; [ev_closing]: the same after finishing has begun; [ev_stuck s]: the last call made no
    progress; [ev_left s input]: a bound of what can be put out from now on if [input] is given. *)
Record enc_view (St : Type) := mkev {
  ev_live : St -> list Z -> list Z -> Prop;
  ev_closing : St -> list Z -> list Z -> Prop;
  ev_stuck : St -> Prop;
  ev_left : St -> list Z -> Z
}.
Arguments mkev {St}. Arguments ev_live {St}. Arguments ev_closing {St}. Arguments ev_stuck {St}.
Arguments ev_left {St}.

(** Contract of an encoder: a call takes input and gives output until the input is used up or the
    output buffer is full; finishing is over when [ended] says so, which is the case at the
    latest when the output buffer was not filled; then the whole output is a stream of the whole
    input.  Return values other than [fine] only come when twice in a row there was no progress,
    which cannot happen in the first call for finishing. *)
Record encodes {St} (valid : list Z -> list Z -> Prop) (fine : Z -> Prop) (fine_end : Z -> Prop) (ended : Z -> bool)
  (run finish : call St) (v : enc_view St) : Prop := {
  en_run : forall s c p input room ret n out s', ev_live v s c p -> 0 < room ->
    run s input room = (ret, n, out, s') ->
    0 <= n <= zlen input /\ zlen out <= room /\
    ev_live v s' (c ++ slice input 0 n) (p ++ out) /\
    (zlen out < room -> n = zlen input) /\
    0 <= ev_left v s' (slice input n (zlen input - n)) /\
    ev_left v s' (slice input n (zlen input - n)) + zlen out <= ev_left v s input /\
    (n = 0 /\ out = [] \/ ~ ev_stuck v s') /\
    (fine ret \/ ev_stuck v s /\ n = 0 /\ out = []);
  en_finish : forall s c p room ret n out s', ev_live v s c p \/ ev_closing v s c p -> 0 < room ->
    finish s [] room = (ret, n, out, s') ->
    n = 0 /\ zlen out <= room /\
    ev_closing v s' c (p ++ out) /\
    (zlen out < room -> ended ret = true) /\
    (ended ret = true -> valid (p ++ out) c) /\
    0 <= ev_left v s' [] /\ ev_left v s' [] + zlen out <= ev_left v s [] /\
    (out = [] \/ ~ ev_stuck v s') /\
    (fine_end ret \/ ~ ev_live v s c p /\ ev_stuck v s /\ out = [])
}.

(** A view of a decoder, as above. *)
Record dec_view (St : Type) := mkdv {
  dv_live : St -> list Z -> list Z -> Prop;
  dv_stuck : St -> Prop;
  dv_left : St -> list Z -> Z
}.
Arguments mkdv {St}. Arguments dv_live {St}. Arguments dv_stuck {St}. Arguments dv_left {St}.

(** Contract of a decoder that is given part of a stream [b] of [x]: its output is a part of [x]; a
    call that does not fill the output buffer has taken all input, and has put out everything
    when that was the end of the stream.  (Documentation of ZSTD_decompressStream: if the output
    buffer was filled, some data may be left within internal buffers, even though all input
    was taken.) *)
Record decodes_stream (valid : list Z -> list Z -> Prop) (fine : Z -> Prop) (d : decoder) (v : dec_view (d_state d)) : Prop := {
  de_start : dv_live v (d_start d) [] [];
  de_run : forall b x s c p input rest room ret n out s', valid b x -> dv_live v s c p ->
    c ++ input ++ rest = b -> 0 < room -> d_run d s input room = (ret, n, out, s') ->
    0 <= n <= zlen input /\ zlen out <= room /\
    dv_live v s' (c ++ slice input 0 n) (p ++ out) /\
    (exists z, p ++ out ++ z = x) /\
    (zlen out < room -> n = zlen input /\ (rest = [] -> p ++ out = x)) /\
    0 <= dv_left v s' (slice input n (zlen input - n)) /\
    dv_left v s' (slice input n (zlen input - n)) + zlen out <= dv_left v s input /\
    (n = 0 /\ out = [] \/ ~ dv_stuck v s') /\
    (fine ret \/ dv_stuck v s /\ n = 0 /\ out = [])
}.

(** Writing several pieces and finishing, starting from a library state. *)
Fixpoint compress {St} (write : option St -> list Z -> list Z -> res (option St * list Z))
  (finish : option St -> list Z -> res (list Z)) (s : option St) (data : list Z) (pieces : list (list Z)) : res (list Z) :=
  match pieces with
  | [] => finish s data
  | p :: r => '(s, data) <- write s data p ;; compress write finish s data r
  end.

(** Reading several chunks; all that was appended and the error that ended it, if any. *)
Fixpoint decompress {St} (read : St -> list Z -> list Z -> res (St * list Z * option err)) (s : St) (data : list Z)
  (chunks : list (list Z)) : res (list Z * option err) :=
  match chunks with
  | [] => Ok (data, None)
  | c :: r =>
      '(s, data, e) <- read s data c ;;
      match e with Some e => Ok (data, Some e) | None => decompress read s data r end
  end.

(** A loop that ends with [r]: it does so for all but finitely many amounts of fuel. *)
Definition ends_with {A} (f : nat -> res A) (r : A) : Prop := exists n, forall fuel, (n <= fuel)%nat -> f fuel = Ok r.

(** Pieces as [compstrm_write] gives them to the loops. *)
Definition pieces_ok (ps : list (list Z)) : Prop := Forall (fun p => p <> []) ps.

(** An encoder whose initialisation accepts the levels from 1 to [hi], and may reject others. *)
Definition starts (e : encoder) (v : enc_view (e_state e)) (hi : Z) : Prop :=
  forall level, 1 <= level <= hi -> exists s, e_init e level = (0, s) /\ ev_live v s [] [].

(** Return values: any; those of a stream that goes on, or also of one that has ended. *)
Definition any_value (ret : Z) : Prop := True.
Definition lzma_going (ret : Z) : Prop := ret = 0.
Definition lzma_good (ret : Z) : Prop := ret = 0 \/ ret = 1.
Definition zstd_good (ret : Z) : Prop := 0 <= ret <= 2 ^ 64 - 120.
(** BZ_OK, BZ_STREAM_END and BZ_SEQUENCE_ERROR (called again after the end). *)
Definition bzip2_good (ret : Z) : Prop := In ret [0; 4; -1].
(** Z_OK, Z_STREAM_END and Z_BUF_ERROR (no progress possible). *)
Definition gzip_good (ret : Z) : Prop := In ret [0; 1; -5].
