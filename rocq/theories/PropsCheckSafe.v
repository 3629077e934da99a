(** * Property C53: checking any accepted delta against any installed files is defined

    Specification vocabulary: [sound_files] and [hashes_ok] of [SpecCheck], [sound_table] of [SpecApplySafe], [lists_files] of [SpecApply],
    [only_faults] and [sequence_faults] of [SpecFaults]. *)
From Verif Require Import Base BaseLemmas UtilsProofs FileSys Prelink SpecCheck Check CheckCases Rpm Seq Delta DeltaRead Stream SeqFinal SpecCodec SpecArchive SpecApply SpecFs SpecApplySafe Archive ArchiveCases
     Make SpecMake MakeCases FsCases SpecInstalled InstalledCases Apply InstalledSafeCases ApplyCases SpecFaults CheckSafe.

(** C53: whatever an accepted delta says and whatever is on disk, checking the one against the other ends, with success or an error,
    with both levels of checking.  Files may be missing, too short, too long, changed or prelinked, and the program that undoes
    prelinking may fail.  Partial: no file is an ELF file whose section names cannot be read (C53_names_refuted), and the
    sequence is one that lists files (C10_table_overflow_refuted). *)
Theorem C53_check_defined_partial : forall L fs unprelinked,
  SpecCheck.sound_files fs -> hashes_ok L -> (forall name, defined (unprelinked name)) ->
  forall installed delta d c,
  read_deltarpm L delta = Ok d -> defined (installed (d_src_nevr d)) ->
  (forall r files colors, installed (d_src_nevr d) = Ok r -> d_type d = TYPE_STANDARD -> rpm_get_file_info L false r = Ok (files, colors) ->
     sound_table files /\ lists_files files (d_seq d)) ->
  c = check_full L fs unprelinked \/ c = check_filesize L fs unprelinked ->
  defined (drpm_check L installed delta (Some c)).
Proof. exact check_defined. Qed.
Print Assumptions C53_check_defined_partial.

(** The delta of C31_case_whole. *)
Definition c_delta : list Z := Eval vm_compute in k_delta.

(** It is checked against a file that is prelinked, one that is prelinked and cannot be undone, a missing one, a short one. *)
Example C53_case : exists d r, read_deltarpm klibs c_delta = Ok d /\ d_type d = TYPE_STANDARD /\ k_installed (d_src_nevr d) = Ok r /\
  rpm_get_file_info klibs false r = Ok (ex_files, false) /\ sound_table ex_files /\ lists_files ex_files (d_seq d) /\
  SpecCheck.sound_files p_fs /\ hashes_ok klibs /\ (forall name, defined (p_undo name)) /\
  drpm_check klibs k_installed c_delta (Some (check_full klibs p_fs p_undo)) = Ok tt /\
  drpm_check klibs k_installed c_delta (Some (check_filesize klibs p_fs (fun _ => Err EIo))) = Err EIo /\
  drpm_check klibs k_installed c_delta (Some (check_full klibs s_none p_undo)) = Err EIo /\
  drpm_check klibs k_installed c_delta (Some (check_full klibs s_short p_undo)) = Err EMismatch.
Proof.
  do 2 eexists. split; [vm_compute; reflexivity|]. split; [reflexivity|]. split; [reflexivity|]. split; [vm_compute; reflexivity|].
  split; [constructor; [exact ex_wf|repeat constructor; vm_compute; discriminate|reflexivity]|]. split.
  { cbv [d_seq]. match goal with |- lists_files _ ?s => exists [0; 3; 2], (slice s 0 16), (from s 16) end.
    split; [repeat constructor; vm_compute; intuition discriminate|]. split; [vm_compute; discriminate|]. split; [reflexivity|].
    split; vm_compute; reflexivity. }
  split; [exact p_sound|]. split; [exact k_hashes|]. split; [intros name; unfold p_undo; destruct (list_eqb _ _); exact I|].
  vm_compute. repeat split.
Qed.

(** C53: with any sequence at all, the faults of C10 are the only ones that can be added: nothing is used before it is set, no wrong
    pointer is freed or followed, and the check ends.  Partial: the faults do happen (C53_sequence_refuted). *)
Theorem C53_check_faults_partial : forall L fs unprelinked,
  SpecCheck.sound_files fs -> hashes_ok L -> (forall name, defined (unprelinked name)) ->
  forall installed delta d c,
  read_deltarpm L delta = Ok d -> bytes (d_seq d) -> defined (installed (d_src_nevr d)) ->
  (forall r files colors, installed (d_src_nevr d) = Ok r -> rpm_get_file_info L false r = Ok (files, colors) -> sound_table files) ->
  c = check_full L fs unprelinked \/ c = check_filesize L fs unprelinked ->
  only_faults sequence_faults (drpm_check L installed delta (Some c)).
Proof. exact check_faults. Qed.
Print Assumptions C53_check_faults_partial.

(** C53 is false with a file on disk whose section of names has another type, whatever the level of checking: the pointer to the
    section header is freed.  The delta and the package are sound. *)
Theorem C53_names_refuted : exists L installed fs unprelinked delta,
  is_ok (read_deltarpm L delta) /\ hashes_ok L /\ (forall name, defined (unprelinked name)) /\
  drpm_check L installed delta (Some (check_full L fs unprelinked)) = Ub BadFree /\
  drpm_check L installed delta (Some (check_filesize L fs unprelinked)) = Ub BadFree.
Proof.
  exists klibs, k_installed, (k_fs (elf_case 1 text_name)), p_undo, c_delta. split; [vm_compute; eexists; reflexivity|].
  split; [exact k_hashes|]. split; [intros name; unfold p_undo; destruct (list_eqb _ _); exact I|]. vm_compute. split; reflexivity.
Qed.
Print Assumptions C53_names_refuted.

(** C53 is false with a sequence that was made for a package of the same name with one file more: the table of files is read behind
    its end.  All that is on disk is sound. *)
Definition klibs_fewer : libs := mklibs (lb_codec klibs) (lb_md5 klibs) (lb_sha256 klibs) (lb_read klibs) (lb_import klibs) (lb_string klibs)
  (lb_nevr klibs) (lb_algo klibs) (lb_sig_md5 klibs) (lb_mksig klibs) (lb_setfmt klibs) (fun _ => ex_tags (firstn 3 ex_files)).
Theorem C53_sequence_refuted : exists L fs unprelinked installed delta d r files colors,
  SpecCheck.sound_files fs /\ hashes_ok L /\ (forall name, defined (unprelinked name)) /\
  read_deltarpm L delta = Ok d /\ bytes (d_seq d) /\ installed (d_src_nevr d) = Ok r /\
  rpm_get_file_info L false r = Ok (files, colors) /\ sound_table files /\
  drpm_check L installed delta (Some (check_full L fs unprelinked)) = Ub OobRead.
Proof.
  exists klibs_fewer, p_fs, p_undo, k_installed, c_delta. do 4 eexists.
  split; [exact p_sound|]. split; [exact k_hashes|]. split; [intros name; unfold p_undo; destruct (list_eqb _ _); exact I|].
  split; [vm_compute; reflexivity|]. split; [apply bytesb_ok; vm_compute; reflexivity|]. split; [reflexivity|]. split; [vm_compute; reflexivity|].
  split; [|vm_compute; reflexivity]. constructor; [|repeat constructor; vm_compute; discriminate|reflexivity].
  pose proof ex_wf as W. rewrite <- (firstn_skipn 3 ex_files) in W. apply Forall_app in W as [W _]. exact W.
Qed.
Print Assumptions C53_sequence_refuted.
