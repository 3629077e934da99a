(** * Properties C25, C26, C27: compression and decompression streams *)
From Verif Require Import Base BaseLemmas Stream SpecStream ToyCodec StreamFinal.

(** C25, writing: whatever the pieces, the codec gets their concatenation; the file gets
    exactly the bytes that finishing returns; nothing can be written afterwards. *)
Theorem C25_write_transparent : forall cd fd comp level ps s,
  compstrm_init cd fd comp level = Ok s ->
  exists s1 out1 s2 out2 data qs,
    write_all cd s ps = Ok (s1, out1) /\ compstrm_finish cd s1 = Ok (s2, out2, data) /\
    (fd = true -> out1 ++ out2 = data) /\
    concat qs = concat ps /\
    data = (if comp =? 0 then concat ps else enc_run cd comp level [] qs) /\
    (forall p, compstrm_write cd s2 p = Err EProg).
Proof. exact write_transparent. Qed.
Print Assumptions C25_write_transparent.

Example C25_write_case : exists s s1 out1,
  compstrm_init toy true 2 9 = Ok s /\
  write_all toy s [[1; 2]; []; [3]] = Ok (s1, out1) /\ out1 = toy_head 2 ++ [1; 2; 3].
Proof. do 3 eexists. split; [reflexivity|]. split; [vm_compute; reflexivity|]. reflexivity. Qed.

(** C25, wrapper used for the rebuilt RPM: the first [n] bytes stay as they are, the rest
    is compressed, wherever the pieces are cut. *)
Theorem C25_wrapper_transparent : forall cd n comp level ps w,
  0 <= n <= zlen (concat ps) -> wrapper_init cd n comp level = Ok w ->
  exists w' out1 out2 data qs,
    wrapper_all cd w ps = Ok (w', out1) /\ wrapper_finish cd w' = Ok (out2, data) /\
    out1 ++ out2 = data /\
    concat qs = slice (concat ps) n (zlen (concat ps) - n) /\
    data = slice (concat ps) 0 n ++ (if comp =? 0 then concat qs else enc_run cd comp level [] qs).
Proof. exact wrapper_transparent_final. Qed.
Print Assumptions C25_wrapper_transparent.

Example C25_wrapper_case : exists w w' out1 data,
  wrapper_init toy 3 1 0 = Ok w /\ wrapper_all toy w [[1]; [2; 3; 4]; [5]] = Ok (w', out1) /\
  wrapper_finish toy w' = Ok ([], data) /\ data = [1; 2; 3] ++ toy_head 1 ++ [4; 5].
Proof.
  do 4 eexists. split; [reflexivity|]. split; [vm_compute; reflexivity|].
  split; vm_compute; reflexivity.
Qed.

(** C25, reading: any sequence of read sizes gives consecutive slices of the decoded data;
    reading past the end is the format error. *)
Theorem C25_read_transparent : forall cd file b x s ns,
  decompstrm_init file b = Ok s -> decodes cd (ds_comp s) b x ->
  Forall (fun n => 0 <= n) ns -> zlen x + zsum ns < 2 ^ 64 ->
  if zsum ns <=? zlen x
  then exists s' outs, read_all cd s ns = Ok (s', outs) /\ map zlen outs = ns /\
                       concat outs = slice x 0 (zsum ns)
  else read_all cd s ns = Err EFormat.
Proof. exact read_transparent. Qed.
Print Assumptions C25_read_transparent.

(** C25, reading to the end: all decoded data, the size and the MD5 input are those of the
    whole input. *)
Theorem C25_read_until_eof : forall cd file b x s,
  decompstrm_init file b = Ok s -> decodes cd (ds_comp s) b x ->
  exists s', decompstrm_read_until_eof cd s = Ok (s', x) /\ ds_csize s' = zlen b /\ ds_md5 s' = b.
Proof. exact eof_transparent. Qed.
Print Assumptions C25_read_until_eof.

Example C25_read_case :
  let b := toy_head 4 ++ repeat 5 3000 in
  decodes toy 4 b (repeat 5 3000) /\
  (exists s s', decompstrm_init true b = Ok s /\ ds_comp s = 4 /\
     read_all toy s [1000; 0; 1500] = Ok (s', [repeat 5 1000; []; repeat 5 1500]) /\
     read_all toy s [1000; 2001] = Err EFormat).
Proof.
  cbv zeta. split.
  - rewrite <- (app_nil_r (repeat 5 3000)) at 1. change (repeat 5 3000 ++ []) with (concat [repeat 5 3000]).
    rewrite <- (toy_enc 4 9). replace (repeat 5 3000) with (concat [repeat 5 3000]) at 2 by (cbn [concat]; apply app_nil_r).
    apply (ok_decodes _ toy_ok); [unfold real_comp; cbn; auto|lia].
  - do 2 eexists. split; [vm_compute; reflexivity|]. split; [reflexivity|].
    split; vm_compute; reflexivity.
Qed.

(** C26 is false: an archive cut in the middle reads as a shorter archive without error. *)
Theorem C26_cut_archive_refuted : exists cd comp level x b1 b2 s s' y,
  codec_ok cd /\ real_comp comp /\ enc_run cd comp level [] [x] = b1 ++ b2 /\ b2 <> [] /\
  decompstrm_init true b1 = Ok s /\ decompstrm_read_until_eof cd s = Ok (s', y) /\ y <> x.
Proof. exact cut_accepted. Qed.
Print Assumptions C26_cut_archive_refuted.

(** C26 is also false for corruption that the decoder itself detects: the decoder reports a
    format error, the reader takes it for the end of the data. *)
Theorem C26_detected_corruption_refuted : exists s s' y,
  let good := toy_head 1 ++ repeat 7 2000 in
  let bad := toy_head 1 ++ repeat 7 1500 ++ [200] ++ repeat 7 499 in
  zlen bad = zlen good /\
  dec_run toy7 1 [] [good] = (repeat 7 2000, None) /\
  dec_run toy7 1 [] [bad] = ([], Some EFormat) /\
  decompstrm_init true bad = Ok s /\ decompstrm_read_until_eof toy7 s = Ok (s', y) /\ zlen y = 1014.
Proof. exact corrupt_accepted. Qed.
Print Assumptions C26_detected_corruption_refuted.

(** What remains of C26: a cut archive never yields anything but a prefix of the data, and
    errors other than the format error are reported. *)
Theorem C26_cut_is_prefix_partial : forall cd file b1 b2 x s,
  decompstrm_init file b1 = Ok s -> decodes cd (ds_comp s) (b1 ++ b2) x ->
  (exists s' y z, decompstrm_read_until_eof cd s = Ok (s', y) /\ y ++ z = x) \/
  (exists e, decompstrm_read_until_eof cd s = Err e /\ e <> EFormat).
Proof. exact eof_cut. Qed.
Print Assumptions C26_cut_is_prefix_partial.

(** C26, C25: what reading to the end gives for any input and any decoder, given the input in some chunks: everything that
    was decoded before the first format error or the end of the input; any other error of the decoder is reported. *)
Theorem C26_result_exact : forall cd file b s, decompstrm_init file b = Ok s -> ds_comp s <> 0 ->
  exists cs, concat cs = b /\ Forall (fun c => c <> []) cs /\
    match dec_run cd (ds_comp s) [] cs with
    | (y, None) | (y, Some EFormat) => exists s', decompstrm_read_until_eof cd s = Ok (s', y)
    | (_, Some e) => decompstrm_read_until_eof cd s = Err e
    end.
Proof. exact eof_exact. Qed.
Print Assumptions C26_result_exact.

(** A decoder out of memory is reported. *)
Example C26_result_case : exists s, let cd := mkcodec (c_init toy) (c_step toy) (c_flush toy) (fun _ _ _ => ([], Some EMemory)) in
  decompstrm_init true (toy_head 1) = Ok s /\ ds_comp s = 1 /\ decompstrm_read_until_eof cd s = Err EMemory.
Proof. eexists. split; [vm_compute; reflexivity|]. split; vm_compute; reflexivity. Qed.

(** C27: detection looks at the magic bytes only, and exactly at those. *)
Theorem C27_detect_exact : forall file b, bytes b ->
  (zlen b < 8 -> decompstrm_init file b = Err (if file then EFormat else EProg)) /\
  (8 <= zlen b -> exists s, decompstrm_init file b = Ok s /\ ds_comp s = sniff b).
Proof. exact detect_exact_final. Qed.
Print Assumptions C27_detect_exact.

(** C27: data written with a codec is recognised as that codec. *)
Theorem C27_detect_codec : forall cd comp level ps file,
  codec_ok cd -> real_comp comp -> 0 <= level <= 9 -> Forall bytes ps ->
  exists s, decompstrm_init file (enc_run cd comp level [] ps) = Ok s /\ ds_comp s = comp.
Proof. exact detect_codec. Qed.
Print Assumptions C27_detect_codec.

Example C27_codec_case : codec_ok toy /\ real_comp 6 /\
  exists s, decompstrm_init false (enc_run toy 6 3 [] [[1]; [2; 3]]) = Ok s /\ ds_comp s = 6.
Proof. split; [exact toy_ok|]. split; [unfold real_comp; cbn; auto 10|]. eexists. split; vm_compute; reflexivity. Qed.

(** C27: an uncompressed delta payload, which starts with "DLT", is recognised as such. *)
Theorem C27_detect_payload : forall file r, bytes r -> 5 <= zlen r ->
  exists s, decompstrm_init file ([68; 76; 84] ++ r) = Ok s /\ ds_comp s = 0.
Proof. exact detect_payload. Qed.
Print Assumptions C27_detect_payload.

(** C27 is false for uncompressed add blocks: short ones give an error, and arbitrary data
    can look like another codec. *)
Theorem C27_addblk_refuted :
  (exists b, zlen b = 7 /\ decompstrm_init false b = Err EProg) /\
  (exists b s, bytes b /\ zlen b = 8 /\ decompstrm_init false b = Ok s /\ ds_comp s = 1).
Proof.
  split.
  - exists (repeat 0 7). split; reflexivity.
  - exists [31; 139; 0; 0; 0; 0; 0; 0]. eexists. split; [apply bytesb_ok; reflexivity|].
    split; [reflexivity|]. split; vm_compute; reflexivity.
Qed.
Print Assumptions C27_addblk_refuted.
