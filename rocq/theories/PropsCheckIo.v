(** * Property C54: checks of installed files with failing and short reads

    Specification vocabulary: [sound_files], [hashes_ok], [right_digest] of [SpecCheck]. *)
From Verif Require Import Base BaseLemmas FileSys Stream Rpm Prelink SpecPrelink Check SpecCheck CheckCases CheckIo CheckIoProofs.

(** C54: however [read] splits a file, and if no call fails, the full check decides what it decides for whole reads.  If calls do
    fail, it reports an error of reading the output of prelink as such, and otherwise decides by the digest of what it read: a part
    of the file, not more than the recorded size.  Partial: the first call returns at least 64 bytes, the length of an ELF header, or
    the whole file, if the file is longer than recorded (C54_short_refuted). *)
Theorem C54_reads_partial : forall L fs unprelinked, hashes_ok L ->
  forall outs outs' name sha digest filesize data, zlen digest = digest_len sha -> 0 < filesize ->
  fs_open fs name = Some data -> SpecCheck.sound_files fs -> (filesize < zlen data -> forall n rest, outs = Some n :: rest -> 64 <= n) ->
  let r := io_check_full L fs unprelinked outs outs' name sha digest filesize in
  r = check_full L fs unprelinked name sha digest filesize \/
  (In None outs' /\ r = Err EIo) \/
  (In None outs /\ exists m, m <= filesize /\ r = right_digest L sha digest data m).
Proof. exact full_io. Qed.
Print Assumptions C54_reads_partial.

(** C54: the same for prelinked files; here every failing call that is reached is reported. *)
Theorem C54_prelink : forall L unprelinked, hashes_ok L ->
  forall outs name sha digest filesize, zlen digest = digest_len sha -> 0 < filesize ->
  let r := io_check_prelink L unprelinked outs name sha digest filesize in
  r = check_prelink L unprelinked name sha digest filesize \/ (In None outs /\ r = Err EIo).
Proof. exact prelink_io. Qed.
Print Assumptions C54_prelink.

(** "/b" with "hello", the digest of which is known; "/a" is prelinked. *)
Example C54_case :
  hashes_ok klibs /\ SpecCheck.sound_files p_fs /\ zlen k_digest = digest_len false /\ fs_open p_fs [47; 98] = Some k_hello /\
  io_check_full klibs p_fs p_undo [Some 2; Some 1; Some 9] [] [47; 98] false k_digest 5 = Ok tt /\
  io_check_full klibs p_fs p_undo [Some 70] [Some 1; Some 3] [47; 97] false k_digest 5 = Ok tt /\
  io_check_full klibs p_fs p_undo [Some 70] [Some 1; None] [47; 97] false k_digest 5 = Err EIo /\
  io_check_full klibs p_fs p_undo [None] [] [47; 97] false k_digest 5 = Err EMismatch /\
  io_check_prelink klibs p_undo [Some 4; None] [47; 97] false k_digest 5 = Err EIo.
Proof. split; [exact k_hashes|]. split; [exact p_sound|]. vm_compute. repeat split. Qed.

(** C54 is false of the full check: a failing call in the middle of an unchanged file is reported as a changed file, not as an
    error of reading (the result of the last [read], drpm_apply.c line 361, is not looked at). *)
Theorem C54_error_refuted : exists L fs unprelinked outs name digest,
  hashes_ok L /\ SpecCheck.sound_files fs /\
  check_full L fs unprelinked name false digest 5 = Ok tt /\
  io_check_full L fs unprelinked outs [] name false digest 5 = Err EMismatch /\ In None outs.
Proof.
  exists klibs, p_fs, p_undo, [Some 2; None], [47; 98], k_digest. split; [exact k_hashes|]. split; [exact p_sound|].
  split; [vm_compute; reflexivity|]. split; [vm_compute; reflexivity|cbn; auto].
Qed.
Print Assumptions C54_error_refuted.

(** C54 is false if the first call returns less than an ELF header although there is more, or if it fails: a prelinked file that
    would pass is reported as changed. *)
Theorem C54_short_refuted : exists L fs unprelinked name digest,
  hashes_ok L /\ SpecCheck.sound_files fs /\
  check_full L fs unprelinked name false digest 5 = Ok tt /\
  io_check_full L fs unprelinked [Some 63] [] name false digest 5 = Err EMismatch /\
  io_check_full L fs unprelinked [None] [] name false digest 5 = Err EMismatch.
Proof.
  exists klibs, p_fs, p_undo, [47; 97], k_digest. split; [exact k_hashes|]. split; [exact p_sound|].
  split; [vm_compute; reflexivity|]. split; vm_compute; reflexivity.
Qed.
Print Assumptions C54_short_refuted.
