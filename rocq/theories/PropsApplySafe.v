(** * Property C40: applying any accepted delta to any old RPM is defined

    Specification vocabulary: [output_length], [signature_inside], [lists_files] and [sound_files] of [SpecApply]. *)
From Verif Require Import Base FileSys BaseLemmas Utils DeltaComp Stream Rpm Seq Delta DeltaWrite DeltaRead Expand SeqFinal Blocks Fill SpecCodec SpecArchive SpecApply
     Apply ApplySafe ToyLibs FormatCases ArchiveCases ApplyCases ApplySafeCases.

(** C40: whatever an accepted delta says and whatever is in the old RPM, applying the one to the other ends, with success or an
    error.  Partial: less than 2^31 copies of each kind, an output not shorter than the header in front of it, a signature that
    ends where it should and, for standard deltas, a sequence that lists files and an archive whose headers declare names.  Each
    of these is needed: see the refutations below, C17_short_output_refuted, those of C10, and C38_apply_empty_name_refuted. *)
Theorem C40_apply_defined_partial : forall L clean installed fs unprelinked old delta d,
  read_deltarpm L delta = Ok d ->
  d_intn d < 2 ^ 31 -> d_extn d < 2 ^ 31 -> d_hlen d <= output_length d -> bytes (d_leadsig d) -> signature_inside (d_leadsig d) ->
  (forall r comp m1 m2, rpm_read L old ReadDecomp false = Ok (r, comp, m1, m2) -> zlen (rp_archive r) < 2 ^ 62 /\
     (d_type d <> TYPE_RPMONLY -> forall files colors, rpm_get_file_info L false r = Ok (files, colors) ->
        sound_files (rp_archive r) files /\ lists_files files (d_seq d))) ->
  defined (snd (drpm_apply L installed fs unprelinked clean (Some old) delta)).
Proof. exact apply_defined. Qed.
Print Assumptions C40_apply_defined_partial.

(** A standard delta that is applied... *)
Example C40_case : exists d, read_deltarpm filelibs (written std_delta) = Ok d /\
  d_intn d < 2 ^ 31 /\ d_extn d < 2 ^ 31 /\ d_hlen d <= output_length d /\ bytes (d_leadsig d) /\ signature_inside (d_leadsig d) /\
  d_type d <> TYPE_RPMONLY /\
  (exists r comp m1 m2 colors, rpm_read filelibs std_old ReadDecomp false = Ok (r, comp, m1, m2) /\ zlen (rp_archive r) < 2 ^ 62 /\
     rpm_get_file_info filelibs false r = Ok (ex_files, colors) /\ sound_files (rp_archive r) ex_files /\ lists_files ex_files (d_seq d)) /\
  file_apply (Some std_old) (written std_delta) = (std_new, Ok tt).
Proof.
  eexists. split; [vm_compute; reflexivity|]. split; [reflexivity|]. split; [reflexivity|]. split; [vm_compute; discriminate|].
  split; [repeat constructor; try lia; vm_compute; intuition discriminate|]. split; [vm_compute; discriminate|]. split; [discriminate|]. split.
  - do 5 eexists. split; [vm_compute; reflexivity|]. split; [reflexivity|]. split; [vm_compute; reflexivity|]. split; [exact ex_sound|].
    exists [0; 3; 2], (slice std_seq 0 16), (from std_seq 16).
    split; [repeat constructor; vm_compute; intuition discriminate|]. split; [vm_compute; discriminate|]. split; [reflexivity|].
    split; [vm_compute; reflexivity|vm_compute; reflexivity].
  - vm_compute; reflexivity.
Qed.

(** ... and an rpm-only delta that needs more data than the old package has. *)
Example C40_case_missing : exists d, read_deltarpm toylibs (written (with_ext [(19, 10); (12, 25)] 99 good_delta)) = Ok d /\
  d_hlen d <= output_length d /\ d_type d = TYPE_RPMONLY /\
  snd (toy_apply (Some old_file) (written (with_ext [(19, 10); (12, 25)] 99 good_delta))) = Err EFormat.
Proof.
  eexists. split; [vm_compute; reflexivity|]. split; [vm_compute; discriminate|]. split; [reflexivity|vm_compute; reflexivity].
Qed.

(** C40 is false of deltas that declare 2^31 internal copies more than they have: the array is too short for the number of copies,
    which the reader does not notice as it computes the size of the array in 32 bits. *)
Theorem C40_internal_count_refuted : exists old delta d,
  read_deltarpm toylibs delta = Ok d /\ d_intn d = 2 ^ 31 + zlen (d_int d) /\ snd (toy_apply (Some old) delta) = Ub OobRead.
Proof.
  exists old_file, (written (with_counts (2 ^ 31 + 3) 2 good_delta)). eexists.
  split; [vm_compute; reflexivity|]. split; [vm_compute; reflexivity|vm_compute; reflexivity].
Qed.
Print Assumptions C40_internal_count_refuted.

(** The same for external copies. *)
Theorem C40_external_count_refuted : exists old delta d,
  read_deltarpm toylibs delta = Ok d /\ d_extn d = 2 ^ 31 + zlen (d_ext d) /\ snd (toy_apply (Some old) delta) = Ub OobRead.
Proof.
  exists old_file, (written (with_counts 3 (2 ^ 31 + 2) good_delta)). eexists.
  split; [vm_compute; reflexivity|]. split; [vm_compute; reflexivity|vm_compute; reflexivity].
Qed.
Print Assumptions C40_external_count_refuted.

(** C40 is false of deltas whose lead and signature are cut off: librpm is not told where they end. *)
Theorem C40_signature_refuted : exists old delta d,
  read_deltarpm toylibs delta = Ok d /\ ~ signature_inside (d_leadsig d) /\ snd (toy_apply (Some old) delta) = Ub OobRead.
Proof.
  exists old_file, (written (with_leadsig long_signature good_delta)). eexists.
  split; [vm_compute; reflexivity|]. split; [vm_compute; intuition discriminate|vm_compute; reflexivity].
Qed.
Print Assumptions C40_signature_refuted.
