(** * Properties C05, C06, C07, C08, C30: the delta file format *)
From Verif Require Import Base BaseLemmas Utils SpecCodec SpecDelta SpecStream SpecFormat Stream ToyCodec
  Rpm Delta DeltaWrite DeltaRead FormatFinal FormatSafe ToyLibs FormatCases.

(** C05: what is written reads back, field for field. *)
Theorem C05_delta_roundtrip : forall L d, codec_ok (lb_codec L) -> wf_delta L d ->
  exists file d', write_deltarpm L d = Ok file /\ read_deltarpm L file = Ok d' /\ reads_back L d d'.
Proof. exact roundtrip_final. Qed.
Print Assumptions C05_delta_roundtrip.

(** A standard delta of version 3, compressed, with adjustments, copies and add data. *)
Example C05_case_standard : wf_delta toylibs delta_std /\ codec_ok (lb_codec toylibs) /\
  is_ok (file <- write_deltarpm toylibs delta_std ;; read_deltarpm toylibs file).
Proof. exact case_std. Qed.

(** An rpm-only delta, not compressed, whose internal data are pointers into the new archive. *)
Example C05_case_rpmonly : wf_delta toylibs delta_only /\ codec_ok (lb_codec toylibs) /\
  is_ok (file <- write_deltarpm toylibs delta_only ;; read_deltarpm toylibs file).
Proof. exact case_only. Qed.

(** C06: a cut file is rejected, or (only possible when the cut removes nothing but the end
    of the compressed stream) reads as exactly the same delta. *)
Theorem C06_truncation_rejected : forall L d file dd n,
  codec_ok (lb_codec L) -> header_cut L -> wf_delta L d ->
  write_deltarpm L d = Ok file -> read_deltarpm L file = Ok dd -> 0 <= n < zlen file ->
  (exists e, read_deltarpm L (slice file 0 n) = Err e) \/
  d_comp d <> 0 /\ read_deltarpm L (slice file 0 n) = Ok dd.
Proof. exact cut_final. Qed.
Print Assumptions C06_truncation_rejected.

Example C06_case : header_cut toylibs /\ codec_ok (lb_codec toylibs) /\ wf_delta toylibs delta_std /\
  exists file dd, write_deltarpm toylibs delta_std = Ok file /\ read_deltarpm toylibs file = Ok dd /\
                  read_deltarpm toylibs (slice file 0 (zlen file - 1)) = Err EFormat.
Proof. exact case_cut. Qed.

(** C07: whatever the bytes, an accepted file is consistent. *)
Theorem C07_accepted_consistent : forall L file d, read_deltarpm L file = Ok d -> consistent d.
Proof. exact accepted_consistent. Qed.
Print Assumptions C07_accepted_consistent.

Example C07_case : exists file d, write_deltarpm toylibs delta_std = Ok file /\
  read_deltarpm toylibs file = Ok d /\ d_ext d <> [] /\ d_int d <> [].
Proof. exact case_accepted. Qed.

(** C07 is limited to external data below 2^63 bytes: a file that declares 2^64-1 bytes of
    external data is accepted with a copy that starts two bytes before them. *)
Theorem C07_external_bounds_refuted : exists file d,
  bytes file /\ read_deltarpm toylibs file = Ok d /\ d_extlen d = 2 ^ 64 - 1 /\
  Exists (fun e => fst e < 0) (extents 0 (d_ext d)).
Proof. exact wild_copy. Qed.
Print Assumptions C07_external_bounds_refuted.

(** C08: reading any file never does anything undefined, unless the file declares a name of
    2^32-1 bytes or an array of 2^29 or more pairs; then, too, the only thing that can go
    wrong is a store outside of a buffer. *)
Theorem C08_reader_safe_partial : forall L file, bytes file -> decodes_bytes (lb_codec L) ->
  match read_deltarpm L file with
  | Ok _ | Err _ => True
  | Ub u => u = OobWrite /\ huge_file (lb_codec L) file
  | NoFuel => False
  end.
Proof. exact reader_safe. Qed.
Print Assumptions C08_reader_safe_partial.

Example C08_case : decodes_bytes (lb_codec toylibs) /\ bytes (repeat 237 200) /\
  read_deltarpm toylibs (repeat 237 200) = Err EFormat.
Proof. exact case_garbage. Qed.

(** C08 is false without the exception: the name of an rpm-only delta ... *)
Theorem C08_name_overflow_refuted : exists file, bytes file /\ zlen file = 17 /\
  read_deltarpm toylibs file = Ub OobWrite.
Proof. exact name_overflow. Qed.
Print Assumptions C08_name_overflow_refuted.

(** ... and the internal copies of any delta. *)
Theorem C08_count_overflow_refuted : exists file, bytes file /\ zlen file < 300 /\
  read_deltarpm toylibs file = Ub OobWrite.
Proof. exact count_overflow. Qed.
Print Assumptions C08_count_overflow_refuted.

(** C30: versions 1 and 2 carry data lengths below 4 GiB. *)
Theorem C30_old_versions_lengths_partial : forall L d, codec_ok (lb_codec L) -> wf_delta L d ->
  d_version d < 3 ->
  d_extlen d < 2 ^ 32 /\ d_intlen d < 2 ^ 32 /\
  exists file d', write_deltarpm L d = Ok file /\ read_deltarpm L file = Ok d' /\
    d_extlen d' = d_extlen d /\ d_intlen d' = d_intlen d.
Proof. exact old_lengths. Qed.
Print Assumptions C30_old_versions_lengths_partial.

Example C30_case : wf_delta toylibs delta_v2 /\ d_version delta_v2 = 2.
Proof. exact case_v2. Qed.

(** C30 is false at 4 GiB and above: the length of the external data is truncated. *)
Theorem C30_truncated_length_refuted : exists file d',
  d_version delta_v2_big = 2 /\ d_extlen delta_v2_big = 2 ^ 32 + 5 /\
  write_deltarpm toylibs delta_v2_big = Ok file /\ read_deltarpm toylibs file = Ok d' /\
  d_extlen d' = 5.
Proof. exact truncated_length. Qed.
Print Assumptions C30_truncated_length_refuted.
