(** * Properties C04, C23, C24, C28, C36: byte-level encodings

    Specification vocabulary: [SpecCodec]. *)
From Coq Require Import String.
From Verif Require Import Base BaseLemmas Utils Strerror DeltaComp SpecCodec
     CpioHeader CpioHeaderProofs Diff CodecFinal.

(** C04: every 32-bit pattern other than that of -2^31 is written in
    sign-magnitude form, fits the field, and is read back unchanged... *)
Theorem C04_signed_codec : forall x : Z, 0 <= x < 2 ^ 32 -> x <> 2 ^ 31 ->
  0 <= sm_encode x < 2 ^ 32 /\ sm_encode x = sign_magnitude (s32 x) /\
  sm_decode (sm_encode x) = x.
Proof. exact sm_all. Qed.
Print Assumptions C04_signed_codec.

Example C04_case : s32 4294967295 = -1 /\ sm_encode 4294967295 = 2147483649 /\
  sm_decode 2147483649 = 4294967295.
Proof. repeat split. Qed.

(** ... -2^31 itself is not preserved: it comes back as 0 ... *)
Theorem C04_int_min_lost : sm_decode (sm_encode (2 ^ 31)) = 0.
Proof. exact eq_refl. Qed.
Print Assumptions C04_int_min_lost.

(** ... but the diff step never emits it (external copies). *)
Theorem C04_ext_never_int_min : forall old new addblk d,
  bytes new -> zlen old < 2 ^ 63 -> zlen new < 2 ^ 31 -> new = [] \/ 16 <= zlen new ->
  make_diff old new addblk = Ok d -> zlen (dr_ext d) < 2 ^ 32 ->
  Forall (fun c => 0 <= fst c < 2 ^ 32 /\ s32 (fst c) <> - 2 ^ 31 /\ 0 <= snd c < 2 ^ 31)
         (dr_ext d).
Proof. exact ext_never_int_min. Qed.
Print Assumptions C04_ext_never_int_min.

(** C23: network byte order. *)
Theorem C23_be_roundtrip : forall x,
  (0 <= x < 2 ^ 32 -> be_val (create_be32 x) = x /\ parse_be32_at (create_be32 x) 0 = Ok x) /\
  (0 <= x < 2 ^ 64 -> be_val (create_be64 x) = x /\ parse_be64_at (create_be64 x) 0 = Ok x).
Proof. exact be_codec. Qed.
Print Assumptions C23_be_roundtrip.

Theorem C23_be_parse : forall l o, bytes l -> 0 <= o ->
  (o + 2 <= zlen l -> parse_be16_at l o = Ok (be_val (slice l o 2))) /\
  (o + 4 <= zlen l -> parse_be32_at l o = Ok (be_val (slice l o 4))) /\
  (o + 8 <= zlen l -> parse_be64_at l o = Ok (be_val (slice l o 8))).
Proof. exact be_parse. Qed.
Print Assumptions C23_be_parse.

Example C23_be_case : parse_be32_at [222; 173; 190; 239] 0 = Ok 3735928559 /\
  create_be64 72623859790382856 = [1; 2; 3; 4; 5; 6; 7; 8].
Proof. split; reflexivity. Qed.

(** C23: hexadecimal. *)
Theorem C23_hex_roundtrip : forall l cap, bytes l -> zlen l <= cap ->
  exists s, dump_hex l (zlen l) = Ok s /\ hex_bytes s = Some l /\
            parse_hex s cap = Ok (Some l).
Proof. exact hex_roundtrip. Qed.
Print Assumptions C23_hex_roundtrip.

(** Parsing a string of even length succeeds exactly if it consists of pairs of
    hexadecimal digits, with the value they denote. *)
Theorem C23_hex_exact : forall s cap, Z.even (zlen s) = true -> zlen s <= 2 * cap ->
  parse_hex s cap = Ok (hex_bytes s).
Proof. exact hex_exact. Qed.
Print Assumptions C23_hex_exact.

(** "Accepts exactly pairs of hexadecimal digits" fails for odd lengths: any last
    character is dropped unseen. *)
Theorem C23_hex_odd_ignored : forall s cap c, Z.even (zlen s) = true -> zlen s <= 2 * cap ->
  parse_hex (s ++ [c]) cap = Ok (hex_bytes s).
Proof. exact hex_odd. Qed.
Print Assumptions C23_hex_odd_ignored.

Example C23_hex_case : dump_hex [0; 171; 255] 3 = Ok [48; 48; 97; 98; 102; 102] /\
  parse_hex [48; 48; 65; 66; 102; 70] 3 = Ok (Some [0; 171; 255]) /\
  parse_hex [48; 103] 1 = Ok None.
Proof. repeat split. Qed.

(** The digest parsers do not check the destination size: a header digest of 33
    bytes written into the 32-byte digest buffer overruns it. *)
Theorem C23_digest_overflow_refuted : exists s l, hex_bytes s = Some l /\ zlen l = 33 /\
  parse_sha256 s 32 = Ub OobWrite /\ parse_md5 s 32 = Ub OobWrite.
Proof. exact digest_overflow. Qed.
Print Assumptions C23_digest_overflow_refuted.

(** C24: CPIO headers. *)
Theorem C24_header_roundtrip : forall h rest, header_range h ->
  zlen (cpio_header_write h) = 110 /\
  cpio_header_read (cpio_header_write h ++ rest) = Ok h.
Proof. exact (fun h rest R => conj (header_len h) (header_roundtrip h rest R)). Qed.
Print Assumptions C24_header_roundtrip.

(** A 110-byte header is accepted exactly if it has the magic and hexadecimal digits
    in the twelve fields; otherwise the format error is returned. *)
Theorem C24_header_accept : forall buffer, 110 <= zlen buffer ->
  match cpio_header_read buffer with
  | Ok _ => slice buffer 0 6 = [48; 55; 48; 55; 48; 49] /\
            forall k, 0 <= k < 12 -> hex_val_from 0 (slice buffer (6 + 8 * k) 8) <> None
  | Err e => e = EFormat /\
             (slice buffer 0 6 <> [48; 55; 48; 55; 48; 49] \/
              exists k, 0 <= k < 12 /\ hex_val_from 0 (slice buffer (6 + 8 * k) 8) = None)
  | _ => False
  end.
Proof. exact header_read_cases. Qed.
Print Assumptions C24_header_accept.

Example C24_case : header_range (mkch 1 33188 0 0 1 1577836800 12345 0 0 0 0 12) /\
  cpio_header_read (cpio_header_write (mkch 1 33188 0 0 1 1577836800 12345 0 0 0 0 12)) =
  Ok (mkch 1 33188 0 0 1 1577836800 12345 0 0 0 0 12).
Proof. split; [unfold header_range; cbn; lia|vm_compute; reflexivity]. Qed.

(** C28: target compression code. *)
Theorem C28_comp_code : forall comp level, supported_comp comp -> 0 <= level < 256 ->
  exists c, encode_comp comp level = Some c /\ 0 <= c < 2 ^ 32 /\
            decode_comp c = Some (comp, level).
Proof. exact comp_code. Qed.
Print Assumptions C28_comp_code.

(** Decoding accepts exactly the codes 0-7 in the low byte (3 and 4 are the
    rsyncable gzip and old bzip2 variants). *)
Theorem C28_decode_exact : forall c, 0 <= c < 2 ^ 32 ->
  decode_comp c =
  match nth_error [0; 1; 2; 1; 2; 3; 4; 6] (Z.to_nat (c mod 256)) with
  | Some comp => Some (comp, (c / 256) mod 256)
  | None => None
  end.
Proof. exact decode_exact. Qed.
Print Assumptions C28_decode_exact.

(** Lzip has no code. *)
Theorem C28_lzip_none : forall level, encode_comp 5 level = None.
Proof. exact (fun level => eq_refl). Qed.
Print Assumptions C28_lzip_none.

Example C28_case : encode_comp COMP_XZ 6 = Some 1542 /\ decode_comp 1542 = Some (COMP_XZ, 6).
Proof. split; reflexivity. Qed.

(** C36: error texts. *)
Theorem C36_strerror : (forall e, drpm_strerror e <> EmptyString) /\
  (forall a b, 0 <= a <= 10 -> drpm_strerror a = drpm_strerror b -> a = b) /\
  (forall e, ~ (0 <= e <= 10) -> drpm_strerror e = "(undefined error value)"%string).
Proof. exact strerror_all. Qed.
Print Assumptions C36_strerror.

Example C36_case : drpm_strerror 4 = "wrong file format"%string /\
  drpm_strerror (-7) = drpm_strerror 11.
Proof. split; reflexivity. Qed.
