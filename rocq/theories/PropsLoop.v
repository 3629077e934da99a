(** * PropsLoop: C41, the loops that drive the codec libraries lose nothing — except with zstd *)
From Verif Require Import Base DeltaComp Stream CodecLoop SpecLoop LoopCases LoopProofs LoopFinal.

(** Whatever pieces are written: the loops end, and what was collected is a complete stream of the
    pieces, if the library keeps its contract.  (gzip and bzip2 take at most 4 GiB at a time.) *)
Theorem C41_gzip_writes : forall valid e v level pieces,
  starts e v 9 -> encodes valid any_value any_value (fun ret => ret =? 1) (e_run e) (e_finish e) v ->
  0 <= level <= 9 -> pieces_ok pieces -> Forall (fun p => zlen p < 2 ^ 32) pieces ->
  exists s data, init_gzip e level = Ok (Some s) /\
    ends_with (fun fuel => compress (writechunk_gzip fuel e) (finish_gzip fuel e) (Some s) [] pieces) data /\
    valid data (concat pieces).
Proof. exact gzip_writes_lemma. Qed.
Print Assumptions C41_gzip_writes.

Theorem C41_bzip2_writes : forall valid e v level pieces,
  starts e v 9 -> encodes valid any_value any_value (fun ret => ret =? 4) (e_run e) (e_finish e) v ->
  0 <= level <= 9 -> pieces_ok pieces -> Forall (fun p => zlen p < 2 ^ 32) pieces ->
  exists s data, init_bzip2 e level = Ok (Some s) /\
    ends_with (fun fuel => compress (writechunk_bzip2 fuel e) (finish_bzip2 fuel e) (Some s) [] pieces) data /\
    valid data (concat pieces).
Proof. exact bzip2_writes_lemma. Qed.
Print Assumptions C41_bzip2_writes.

Theorem C41_lzma_writes : forall valid e v preset level pieces,
  starts e v 9 -> (forall l, 1 <= l <= 9 -> preset l = true) ->
  encodes valid lzma_going lzma_good (fun ret => ret =? 1) (e_run e) (e_finish e) v ->
  0 <= level <= 9 -> pieces_ok pieces ->
  exists s data, init_lzma preset e level = Ok (Some s) /\
    ends_with (fun fuel => compress (writechunk_lzma fuel e) (finish_lzma fuel e) (Some s) [] pieces) data /\
    valid data (concat pieces).
Proof. exact lzma_writes_lemma. Qed.
Print Assumptions C41_lzma_writes.

Theorem C41_xz_writes : forall valid e v level pieces,
  starts e v 9 -> encodes valid lzma_going lzma_good (fun ret => ret =? 1) (e_run e) (e_finish e) v ->
  0 <= level <= 9 -> pieces_ok pieces ->
  exists s data, init_xz e level = Ok (Some s) /\
    ends_with (fun fuel => compress (writechunk_lzma fuel e) (finish_lzma fuel e) (Some s) [] pieces) data /\
    valid data (concat pieces).
Proof. exact xz_writes_lemma. Qed.
Print Assumptions C41_xz_writes.

Theorem C41_zstd_writes : forall valid e v level pieces,
  starts e v 22 -> encodes valid zstd_good zstd_good (fun ret => ret =? 0) (e_run e) (e_finish e) v ->
  0 <= level <= 22 -> pieces_ok pieces ->
  exists s data, init_zstd e level = Ok (Some s) /\
    ends_with (fun fuel => compress (writechunk_zstd fuel e) (finish_zstd fuel e) (Some s) [] pieces) data /\
    valid data (concat pieces).
Proof. exact zstd_writes_lemma. Qed.
Print Assumptions C41_zstd_writes.

(** Whatever chunks a stream [b] of [x] is read in: the loops end without error, all that was
    collected belongs to [x], and after the last chunk it is all of [x]. *)
Theorem C41_gzip_reads : forall valid d v b x chunks rest,
  decodes_stream valid gzip_good d v -> valid b x -> b <> [] -> concat chunks ++ rest = b -> pieces_ok chunks ->
  exists y, ends_with (fun fuel => decompress (readchunk_gzip fuel d) (d_start d) [] chunks) (y, None) /\
    (exists z, y ++ z = x) /\ (rest = [] -> y = x).
Proof. exact (fun valid d v b x chunks rest H => reads_lemma valid gzip_good d v gzip_read_error b x chunks rest H gzip_good_error). Qed.
Print Assumptions C41_gzip_reads.

Theorem C41_bzip2_reads : forall valid d v b x chunks rest,
  decodes_stream valid bzip2_good d v -> valid b x -> b <> [] -> concat chunks ++ rest = b -> pieces_ok chunks ->
  exists y, ends_with (fun fuel => decompress (readchunk_bzip2 fuel d) (d_start d) [] chunks) (y, None) /\
    (exists z, y ++ z = x) /\ (rest = [] -> y = x).
Proof. exact (fun valid d v b x chunks rest H => reads_lemma valid bzip2_good d v bzip2_read_error b x chunks rest H bzip2_good_error). Qed.
Print Assumptions C41_bzip2_reads.

Theorem C41_lzma_reads : forall valid d v b x chunks rest,
  decodes_stream valid lzma_good d v -> valid b x -> b <> [] -> concat chunks ++ rest = b -> pieces_ok chunks ->
  exists y, ends_with (fun fuel => decompress (readchunk_lzma fuel d) (d_start d) [] chunks) (y, None) /\
    (exists z, y ++ z = x) /\ (rest = [] -> y = x).
Proof. exact (fun valid d v b x chunks rest H => reads_lemma valid lzma_good d v lzma_read_error b x chunks rest H lzma_good_error). Qed.
Print Assumptions C41_lzma_reads.

(** With zstd all of [x] is only guaranteed if [x] has less than 128 KiB ... *)
Theorem C41_zstd_reads_partial : forall valid d v b x chunks rest,
  decodes_stream valid zstd_good d v -> valid b x -> b <> [] -> concat chunks ++ rest = b -> pieces_ok chunks ->
  exists y, ends_with (fun fuel => decompress (readchunk_zstd fuel d) (d_start d) [] chunks) (y, None) /\
    (exists z, y ++ z = x) /\ (rest = [] -> zlen x < 131072 -> y = x).
Proof. exact zstd_reads_lemma. Qed.
Print Assumptions C41_zstd_reads_partial.

(** ... because the loop ends with the input, although the library may hold more output. *)
Theorem C41_zstd_reads_refuted : exists valid d v b x y,
  decodes_stream valid zstd_good d v /\ valid b x /\ b <> [] /\
  ends_with (fun fuel => decompress (readchunk_zstd fuel d) (d_start d) [] [b]) (y, None) /\
  zlen y = 131072 /\ zlen x = 200000.
Proof. exact (ex_intro _ (repeated 200000) zstd_loses). Qed.
Print Assumptions C41_zstd_reads_refuted.

(** Levels from 10 to 99 pass the test of [compstrm_init]; deltas can ask for them.  gzip and bzip2
    reject them, which is not noticed: the first write uses a stream that was never set up. *)
Theorem C41_gzip_level_refuted : exists e v, starts e v 9 /\
  encodes copied any_value any_value (fun ret => ret =? 1) (e_run e) (e_finish e) v /\
  forall level, 10 <= level <= 99 -> exists s, init_gzip e level = Ok s /\
    forall fuel data piece, writechunk_gzip fuel e s data piece = Ub Uninit.
Proof. exact gzip_level_final. Qed.
Print Assumptions C41_gzip_level_refuted.

Theorem C41_bzip2_level_refuted : exists e v, starts e v 9 /\
  encodes copied any_value any_value (fun ret => ret =? 4) (e_run e) (e_finish e) v /\
  forall level, 10 <= level <= 99 -> exists s, init_bzip2 e level = Ok s /\
    forall fuel data piece, writechunk_bzip2 fuel e s data piece = Ub Uninit.
Proof. exact bzip2_level_final. Qed.
Print Assumptions C41_bzip2_level_refuted.

(** Such levels come out of deltas: the level is the second lowest byte of the stored word. *)
Theorem C41_level_reachable : forall level, 10 <= level <= 99 ->
  exists word, 0 <= word < 2 ^ 32 /\ decode_comp word = Some (1, level).
Proof. exact level_reachable. Qed.
Print Assumptions C41_level_reachable.

(** A piece of 4 GiB is silently dropped by gzip (and bzip2): the size is cut to 32 bits. *)
Theorem C41_big_piece_refuted : exists e v piece s data,
  starts e v 9 /\ encodes copied any_value any_value (fun ret => ret =? 1) (e_run e) (e_finish e) v /\
  zlen piece = 2 ^ 32 /\ init_gzip e 9 = Ok (Some s) /\
  ends_with (fun fuel => compress (writechunk_gzip fuel e) (finish_gzip fuel e) (Some s) [] [piece]) data /\
  ~ copied data piece.
Proof. exact gzip_big_piece_lemma. Qed.
Print Assumptions C41_big_piece_refuted.

(** The hypotheses are met by a copying encoder and a repeating decoder; several rounds of the
    loops are needed, one of them with an output buffer that is filled exactly. *)
Example C41_case_contracts :
  starts (fifo (-2) 1 0) fifo_view 9 /\
  encodes copied any_value any_value (fun ret => ret =? 1) (e_run (fifo (-2) 1 0)) (e_finish (fifo (-2) 1 0)) fifo_view /\
  encodes copied any_value any_value (fun ret => ret =? 4) (e_run (fifo (-2) 4 3)) (e_finish (fifo (-2) 4 3)) fifo_view /\
  encodes copied lzma_going lzma_good (fun ret => ret =? 1) (e_run (fifo 8 1 0)) (e_finish (fifo 8 1 0)) fifo_view /\
  encodes copied zstd_good zstd_good (fun ret => ret =? 0) (e_run (fifo 0 0 1)) (e_finish (fifo 0 0 1)) fifo_view /\
  decodes_stream (repeated 3) gzip_good (repeater 3) (repeater_view 3) /\
  decodes_stream (repeated 3) bzip2_good (repeater 3) (repeater_view 3) /\
  decodes_stream (repeated 3) lzma_good (repeater 3) (repeater_view 3) /\
  decodes_stream (repeated 3) zstd_good (repeater 3) (repeater_view 3).
Proof. exact case_contracts. Qed.

Example C41_case_write :
  let pieces := [repeat 5 (Z.to_nat 2048); [1; 2; 3]; repeat 6 (Z.to_nat 1500)] in
  compress (writechunk_gzip 9 (fifo (-2) 1 0)) (finish_gzip 9 (fifo (-2) 1 0)) (Some []) [] pieces = Ok (concat pieces).
Proof. vm_compute. reflexivity. Qed.

Example C41_case_read :
  let chunks := [repeat 5 (Z.to_nat 1024); repeat 6 (Z.to_nat 1000)] in
  decompress (readchunk_gzip 9 (repeater 3)) (d_start (repeater 3)) [] chunks =
  Ok (repeat 5 (Z.to_nat 3072) ++ repeat 6 (Z.to_nat 3000), None).
Proof. vm_compute. reflexivity. Qed.
