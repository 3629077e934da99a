(** * Property C44: making a delta of any two packages is defined

    Specification vocabulary: [SpecMakeSafe]; [sound_files] of [SpecApply]. *)
From Verif Require Import Base FileSys BaseLemmas Utils DeltaComp Stream Rpm Delta Diff DeltaWrite Archive SpecArchive SpecApply SeqFinal Make SpecMake SpecMakeSafe MakeCases
  MakeSafe MakeSafeCases.

(** C44: whatever is in the files and the options, [drpm_make] ends, with a delta or an error; for one or two packages, and for
    standard and rpm-only deltas.  Partial: archives of less than 4 GiB for standard deltas; the old one declares no empty
    names, its file list has names of less than 64 KiB and no digests longer than 65 characters, and the new one is not
    of 1 to 15 bytes.  All but the sizes of archive and names are needed: see the refutations below. *)
Theorem C44_make_defined_partial : forall L o old new named,
  librpm_sane L -> md5_16 L ->
  let only := match o with Some o => o_rpmonly o | None => false end in
  (forall file, source_file old new = Some file -> of_package L file (if only then fun archive _ => zlen archive < 2 ^ 62 else sound_source)) ->
  (forall file, target_file old new = Some file -> of_package L file (if only then fun archive _ => zlen archive < 2 ^ 62 else sound_target)) ->
  defined (drpm_make L o old new named).
Proof. intros L o old new named H1 H2. exact (make_defined L H1 H2 o old new named). Qed.
Print Assumptions C44_make_defined_partial.

(** The packages of C19. *)
Example C44_case : librpm_sane slibs /\ md5_16 slibs /\ of_package slibs (package_file m_old) sound_source /\ of_package slibs (package_file m_new) sound_target /\
  (exists delta seq, s_make std_options m_old m_new = Ok (delta, Some seq) /\ zlen delta = 1092).
Proof.
  split; [exact slibs_sane|]. split; [apply toy_md5_16; reflexivity|]. split; [exact m_old_sound|]. split; [exact m_new_sound|].
  do 2 eexists. split; [vm_compute; reflexivity|]. vm_compute. reflexivity.
Qed.

(** C44 is false of new packages with an archive of 15 bytes... *)
Theorem C44_short_archive_refuted : exists old new,
  of_package slibs (package_file old) sound_source /\ zlen (p_archive new) = 15 /\ s_make std_options old new = Ub OobRead.
Proof. exists m_old, short_new. split; [exact m_old_sound|]. split; vm_compute; reflexivity. Qed.
Print Assumptions C44_short_archive_refuted.

(** ... of old packages whose archives declare empty names... *)
Theorem C44_empty_name_refuted : exists old new,
  of_package slibs (package_file new) sound_target /\ header_at (p_archive old) 0 0 0 /\ s_make std_options old new = Ub OobWrite.
Proof. exists nameless_old, m_new. split; [exact m_new_sound|]. split; [exact nameless_header|]. vm_compute; reflexivity. Qed.
Print Assumptions C44_empty_name_refuted.

(** ... and of those whose file lists have long digests. *)
Theorem C44_long_digest_refuted : exists old new,
  of_package slibs (package_file new) sound_target /\
  (exists r c m1 m2 files, rpm_read slibs (package_file old) ReadDecomp false = Ok (r, c, m1, m2) /\
     rpm_get_file_info slibs true r = Ok (files, false) /\ Forall (fun f => zlen (fi_md5 f) = 70) files) /\
  s_make std_options old new = Ub OobWrite.
Proof.
  exists digests_old, m_new. split; [exact m_new_sound|]. split; [|vm_compute; reflexivity].
  do 5 eexists. split; [vm_compute; reflexivity|]. split; [vm_compute; reflexivity|]. repeat constructor.
Qed.
Print Assumptions C44_long_digest_refuted.
