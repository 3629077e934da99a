(** * Property C40: applying any accepted delta to any installed package is defined

    Specification vocabulary: [output_length] and [signature_inside] of [SpecApply], [sound_table] and [lists_placed] of
    [SpecApplySafe], [plain_files] of [SpecCheck]. *)
From Verif Require Import Base BaseLemmas UtilsProofs FileSys Prelink SpecCheck Rpm Seq Delta DeltaRead Stream SeqFinal SpecCodec SpecArchive SpecApply SpecFs SpecApplySafe Archive ArchiveCases
     Make SpecMake MakeCases CheckCases FsCases SpecInstalled InstalledCases Apply ApplyInstalledSafe InstalledSafeCases.

(** C40: whatever an accepted delta says and whatever is on disk, applying the one to the other ends, with success or an error.
    Files may be missing, too short, too long or changed, and there may be more of them than are kept open.  Partial: besides
    the limits of C40_apply_defined_partial, no file is prelinked or an ELF file whose section names cannot be read
    (C35_memory_refuted), and the sequence lists files such that the index of each with contents is less than their number
    (C40_place_refuted). *)
Theorem C40_apply_installed_defined_partial : forall L clean installed fs unprelinked delta d,
  read_deltarpm L delta = Ok d ->
  d_intn d < 2 ^ 31 -> d_extn d < 2 ^ 31 -> d_hlen d <= output_length d -> bytes (d_leadsig d) -> signature_inside (d_leadsig d) ->
  plain_files fs -> defined (installed (d_src_nevr d)) ->
  (forall r files colors, installed (d_src_nevr d) = Ok r -> rpm_get_file_info L false r = Ok (files, colors) ->
     sound_table files /\ lists_placed files (d_seq d)) ->
  defined (snd (drpm_apply L installed fs unprelinked clean None delta)).
Proof. exact apply_installed_defined. Qed.
Print Assumptions C40_apply_installed_defined_partial.

(** A delta applied to files that are as they were, missing, too short, and too long. *)
Definition s_delta : list Z := Eval vm_compute in made_with mlibs (m_options false 3 true true) (package_file m_old) (package_file m_new).
Example C40_installed_case : exists d r, made_with mlibs (m_options false 3 true true) (package_file m_old) (package_file m_new) = s_delta /\
  read_deltarpm mlibs s_delta = Ok d /\
  d_intn d < 2 ^ 31 /\ d_extn d < 2 ^ 31 /\ d_hlen d <= output_length d /\ bytes (d_leadsig d) /\ signature_inside (d_leadsig d) /\
  plain_files i_disk /\ plain_files s_none /\ plain_files s_short /\ plain_files s_long /\
  has_header m_old (d_src_nevr d) = Ok r /\ rpm_get_file_info mlibs false r = Ok (ex_files, false) /\ sound_table ex_files /\ lists_placed ex_files (d_seq d) /\
  map (fun fs => i_apply_delta mlibs fs no_prelink s_delta m_old m_new) [i_disk; s_none; s_short; s_long] =
    [Ok true; Err EIo; Err EFormat; Ok true].
Proof.
  do 2 eexists. split; [vm_compute; reflexivity|]. split; [vm_compute; reflexivity|]. split; [reflexivity|]. split; [reflexivity|]. split; [vm_compute; discriminate|].
  split; [apply bytesb_ok; vm_compute; reflexivity|]. split; [vm_compute; discriminate|].
  split; [exact j_plain|]. split; [apply disk_plain; constructor|]. split; [apply disk_plain; repeat constructor|]. split; [apply disk_plain; repeat constructor|].
  split; [vm_compute; reflexivity|]. split; [vm_compute; reflexivity|].
  split; [constructor; [exact ex_wf|repeat constructor; vm_compute; discriminate|reflexivity]|]. split.
  - cbv [d_seq]. match goal with |- lists_placed _ ?s => exists [0; 3; 2], (slice s 0 16), (from s 16) end.
    split; [repeat constructor; vm_compute; intuition discriminate|]. split; [vm_compute; discriminate|]. split; [reflexivity|].
    split; [vm_compute; reflexivity|]. split; [vm_compute; reflexivity|].
    intros i f [<-|[<-|[<-|[]]]] Hf [Hr _]; [reflexivity| |reflexivity]. exfalso. vm_compute in Hf. injection Hf as <-. vm_compute in Hr. discriminate.
  - vm_compute. reflexivity.
Qed.

(** C40 is false of packages whose sequence lists a file with contents that has an index not less than the length of the list: the
    index is used as the number of an entry.  Here a delta made of two sound packages is applied to the files of the first
    one, none of which was changed. *)
Theorem C40_place_refuted : exists L old new files es o fs,
  package_ok L old /\ package_ok L new /\ standard_source_ok L old files false false es /\
  options_ok L o (zlen (p_archive new)) /\ header_installed L (has_header old) old files false /\
  let ks := kept None files false es in
  (forall k, In k ks -> has_data (ke_file k) ->
     fs_open fs (fi_name (ke_file k)) = Some (en_data (p_archive old) (ke_entry k)) /\ fs_stat fs (fi_name (ke_file k)) = Some (fi_size (ke_file k))) /\
  is_ok (drpm_make L (Some o) (Some (package_file old)) (Some (package_file new)) true) /\
  i_apply L fs no_prelink o old new = Ub OobRead.
Proof.
  exists llibs, m_last, m_new, last_files, ex_entries, (m_options false 3 true true), i_disk.
  split; [exact m_last_ok|]. split; [exact l_new_ok|]. split; [exact m_last_source|].
  split; [exact l_options_ok|]. split; [exact l_header_ok|]. cbn zeta.
  split; [intros k Hk Hd; rewrite (l_kept_data k Hk Hd); split; vm_compute; reflexivity|].
  split; [vm_compute; eexists; reflexivity|]. vm_compute. reflexivity.
Qed.
Print Assumptions C40_place_refuted.
