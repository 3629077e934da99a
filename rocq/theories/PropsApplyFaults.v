(** * Property C40: what a sequence that lists no files can do when a delta is applied

    Specification vocabulary: [output_length], [signature_inside] and [sound_files] of [SpecApply], [only_faults] and [sequence_faults] of
    [SpecFaults]. *)
From Verif Require Import Base FileSys BaseLemmas Utils UtilsProofs DeltaComp Stream Rpm Seq Delta DeltaWrite DeltaRead Expand SeqFinal Blocks Fill SpecCodec SpecArchive SpecApply
     Apply ToyLibs FormatCases ArchiveCases ApplyCases ApplySafeCases SpecFaults ApplyFaults.

(** C40: C40_apply_defined_partial without anything assumed about the sequence.  The three faults of C10 are then the only ones
    possible, so that nothing is read before it is set, no wrong pointer is freed or followed, and applying ends.  Partial:
    as for that theorem, and the faults do happen (C40_sequence_refuted). *)
Theorem C40_apply_faults_partial : forall L clean installed fs unprelinked old delta d,
  read_deltarpm L delta = Ok d -> bytes (d_seq d) ->
  d_intn d < 2 ^ 31 -> d_extn d < 2 ^ 31 -> d_hlen d <= output_length d -> bytes (d_leadsig d) -> signature_inside (d_leadsig d) ->
  (forall r comp m1 m2, rpm_read L old ReadDecomp false = Ok (r, comp, m1, m2) -> zlen (rp_archive r) < 2 ^ 62 /\
     (d_type d <> TYPE_RPMONLY -> forall files colors, rpm_get_file_info L false r = Ok (files, colors) ->
        SpecApply.sound_files (rp_archive r) files)) ->
  only_faults sequence_faults (snd (drpm_apply L installed fs unprelinked clean (Some old) delta)).
Proof. exact apply_faults. Qed.
Print Assumptions C40_apply_faults_partial.

(** The delta of C40_case with another sequence. *)
Definition with_sequence (sequence : list Z) (d : deltarpm) : list Z :=
  written (mkdelta (d_type d) (d_comp d) (d_level d) (d_head d) (d_version d) (d_src_nevr d) sequence (d_md5 d) (d_size d)
    (d_tcomp d) (d_tlevel d) (d_param d) (d_hlen d) (d_offn d) (d_off d) (d_leadsig d) (d_fmtoff d)
    (d_intn d) (d_extn d) (d_int d) (d_ext d) (d_extlen d) (d_add d) (d_intlen d) (d_idata d)).
Definition hostile_codes : list (list Z) := [[80]; [4; 16]; repeat 136 12; [16]].

(** All conditions of C40_apply_faults_partial are met by four such deltas.  Three of them cause one fault each; the files that the last one
    lists are not those of its digest. *)
Example C40_case_faults : forall code, In code hostile_codes ->
  exists d, read_deltarpm filelibs (with_sequence (slice std_seq 0 16 ++ code) std_delta) = Ok d /\ d_seq d = slice std_seq 0 16 ++ code /\ bytes (d_seq d) /\
  d_intn d < 2 ^ 31 /\ d_extn d < 2 ^ 31 /\ d_hlen d <= output_length d /\ bytes (d_leadsig d) /\ signature_inside (d_leadsig d) /\
  d_type d <> TYPE_RPMONLY /\
  exists r comp m1 m2 colors, rpm_read filelibs std_old ReadDecomp false = Ok (r, comp, m1, m2) /\ zlen (rp_archive r) < 2 ^ 62 /\
     rpm_get_file_info filelibs false r = Ok (ex_files, colors) /\ SpecApply.sound_files (rp_archive r) ex_files.
Proof.
  intros code H. cbn [In hostile_codes] in H. repeat destruct H as [<-|H]; [| | | |contradiction];
  (eexists; split; [vm_compute; reflexivity|]; split; [reflexivity|]; split; [apply bytesb_ok; vm_compute; reflexivity|]; split; [reflexivity|]; split; [reflexivity|];
   split; [vm_compute; discriminate|]; split; [apply bytesb_ok; vm_compute; reflexivity|]; split; [vm_compute; discriminate|]; split; [discriminate|];
   do 5 eexists; split; [vm_compute; reflexivity|]; split; [reflexivity|]; split; [vm_compute; reflexivity|exact ex_sound]).
Qed.

(** C40 is false of deltas with such a sequence. *)
Theorem C40_sequence_refuted : exists old d codes,
  map (fun code => snd (file_apply (Some old) (with_sequence (slice (d_seq d) 0 16 ++ code) d))) codes = [Ub OobWrite; Ub OobRead; Ub BadShift; Err EMismatch] /\
  snd (file_apply (Some old) (written d)) = Ok tt.
Proof. exists std_old, std_delta, hostile_codes. split; vm_compute; reflexivity. Qed.
Print Assumptions C40_sequence_refuted.
