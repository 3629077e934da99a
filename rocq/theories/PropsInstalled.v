(** * Properties C42 and C43: deltas applied to what is installed

    Specification vocabulary: [SpecInstalled], [SpecMake], [SpecFs], [SpecArchive], [SpecCheck]. *)
From Verif Require Import SpecPrelink SpecCheck Check CheckProofs Base BaseLemmas SpecCodec SpecStream SpecFormat FileSys Prelink CheckCases Stream Rpm Seq Expand Archive SpecArchive
  ArchiveCases SpecFs FsCases ToyCodec Delta DeltaRead Diff Make SpecMake MakeCases Apply SpecInstalled MakeInstalled InstalledCases.

(** C42: a standard delta recreates the new package from the installed files of the old one, prelinked or not.  Missing: the
    files with contents must have the places among the entries that they have in the package, and the other conditions of
    [files_installed] that are not about contents. *)
Theorem C42_make_apply_installed_partial : forall L old new files colors sha es h level o,
  codec_ok (lb_codec L) -> md5_16 L -> package_ok L old -> package_ok L new ->
  standard_source_ok L old files colors sha es -> cpio_target L new level -> standard_target_ok L new h ->
  let ks := kept None files colors es in
  zlen (p_archive old) < 2 ^ 31 -> zlen (altered (p_archive old) ks) < 2 ^ 31 -> 16 <= zlen (p_archive new) < 2 ^ 31 ->
  few_copies (altered (p_archive old) ks) (p_archive new) (o_addblk o) -> few_adjustments L old ->
  options_ok L o (zlen (p_archive new)) -> o_rpmonly o = false ->
  forall solo, (solo = true -> old = new) -> forall installed fs unprelinked clean,
  header_installed L installed old files sha ->
  recompresses L new (if 2 <=? o_version o then level else 0) ->
  (o_version o = 1 -> rpm_get_comp L (mkrpm (p_lead new) (p_sig new) h (p_archive new) 0 (zlen (p_payload new))) = Ok (p_comp new)) ->
  lb_md5 L (package_file new) <> zeros 16 ->
  lb_string L h 1044 <> None -> files_installed fs unprelinked (p_archive old) ks ->
  exists delta d seq,
    drpm_make L (Some o) (Some (package_file old)) (if solo then None else Some (package_file new)) true = Ok (delta, seq) /\
    read_deltarpm L delta = Ok d /\ d_type d = TYPE_STANDARD /\
    drpm_apply L installed fs unprelinked clean None delta = (package_file new, Ok tt).
Proof. exact installed_apply. Qed.
Print Assumptions C42_make_apply_installed_partial.

(** The packages of C39, the old one with its files unchanged and prelinked.  The third version is for one package. *)
Example C42_case :
  header_installed mlibs (has_header m_old) m_old ex_files false /\
  lb_string mlibs (slice (p_hdr m_new) 0 24 ++ str_drpm ++ from (p_hdr m_new) 28) 1044 <> None /\
  files_installed i_disk no_prelink ex_archive (kept None ex_files false ex_entries) /\
  files_installed i_prelinked i_undo ex_archive (kept None ex_files false ex_entries) /\
  (exists k, In k (kept None ex_files false ex_entries) /\ has_data (ke_file k) /\ looks_prelinked i_prelinked (ke_file k) = true) /\
  i_apply mlibs i_disk no_prelink (m_options false 3 true true) m_old m_new = Ok true /\
  i_apply mlibs i_prelinked i_undo (m_options false 2 false false) m_old m_new = Ok true /\
  i_apply mlibs i_disk no_prelink (m_options false 1 true true) m_old m_old = Ok true.
Proof.
  split; [exact i_header_ok|]. split; [vm_compute; discriminate|]. split; [exact i_disk_ok|]. split; [exact i_prelinked_ok|].
  split.
  { eexists. exact i_one_prelinked. }
  split; [vm_compute; reflexivity|]. split; vm_compute; reflexivity.
Qed.

(** C42 is false of a package whose first file is a configuration file: everything is installed as it was packed, but
    a link is opened instead of the second file. *)
Theorem C42_configuration_refuted : exists old new files es o fs,
  package_ok mlibs old /\ package_ok mlibs new /\ standard_source_ok mlibs old files false false es /\
  options_ok mlibs o (zlen (p_archive new)) /\ header_installed mlibs (has_header old) old files false /\
  let ks := kept None files false es in
  (forall k, In k ks -> has_data (ke_file k) ->
     fs_open fs (fi_name (ke_file k)) = Some (en_data (p_archive old) (ke_entry k)) /\ fs_stat fs (fi_name (ke_file k)) = Some (fi_size (ke_file k))) /\
  is_ok (drpm_make mlibs (Some o) (Some (package_file old)) (Some (package_file new)) true) /\
  i_apply mlibs fs no_prelink o old new = Err EIo.
Proof.
  exists m_conf, m_new, conf_files, ex_entries, (m_options false 3 true true), i_disk.
  split; [exact m_conf_ok|]. split; [exact m_new_ok|]. split; [exact m_conf_source|].
  split; [apply m_options_ok; [lia|vm_compute; reflexivity]|]. split; [exact c_header_ok|]. cbn zeta.
  split; [intros k Hk Hd; rewrite (c_kept_data k Hk Hd); split; vm_compute; reflexivity|].
  split; [vm_compute; eexists; reflexivity|]. vm_compute. reflexivity.
Qed.
Print Assumptions C42_configuration_refuted.

(** C43: files that are as they were packed, or prelinked files made of them, pass both checks. *)
Theorem C43_unchanged_passes : forall L old new files colors sha es h level o,
  codec_ok (lb_codec L) -> md5_16 L -> package_ok L old -> package_ok L new ->
  standard_source_ok L old files colors sha es -> cpio_target L new level -> standard_target_ok L new h ->
  let ks := kept None files colors es in
  zlen (p_archive old) < 2 ^ 31 -> zlen (altered (p_archive old) ks) < 2 ^ 31 -> 16 <= zlen (p_archive new) < 2 ^ 31 ->
  few_copies (altered (p_archive old) ks) (p_archive new) (o_addblk o) -> few_adjustments L old ->
  options_ok L o (zlen (p_archive new)) -> o_rpmonly o = false ->
  forall solo, (solo = true -> old = new) -> forall installed fs unprelinked,
  header_installed L installed old files sha ->
  hashes_ok L -> digests_right L sha (p_archive old) ks -> unchanged fs unprelinked (p_archive old) ks ->
  forall delta seq,
  drpm_make L (Some o) (Some (package_file old)) (if solo then None else Some (package_file new)) true = Ok (delta, seq) ->
  drpm_check L installed delta (Some (check_full L fs unprelinked)) = Ok tt /\
  drpm_check L installed delta (Some (check_filesize L fs unprelinked)) = Ok tt.
Proof. exact unchanged_accepted. Qed.
Print Assumptions C43_unchanged_passes.

(** C43: if the full check succeeds, so does applying, with the right result.  Missing: as in C42, places and number of the
    files, links that do not cross blocks beside prelinked files; and ELF files whose section names cannot be read. *)
Theorem C43_checked_applies_partial : forall L old new files colors sha es h level o,
  codec_ok (lb_codec L) -> md5_16 L -> package_ok L old -> package_ok L new ->
  standard_source_ok L old files colors sha es -> cpio_target L new level -> standard_target_ok L new h ->
  let ks := kept None files colors es in
  zlen (p_archive old) < 2 ^ 31 -> zlen (altered (p_archive old) ks) < 2 ^ 31 -> 16 <= zlen (p_archive new) < 2 ^ 31 ->
  few_copies (altered (p_archive old) ks) (p_archive new) (o_addblk o) -> few_adjustments L old ->
  options_ok L o (zlen (p_archive new)) -> o_rpmonly o = false ->
  forall solo, (solo = true -> old = new) -> forall installed fs unprelinked clean,
  header_installed L installed old files sha ->
  recompresses L new (if 2 <=? o_version o then level else 0) ->
  (o_version o = 1 -> rpm_get_comp L (mkrpm (p_lead new) (p_sig new) h (p_archive new) 0 (zlen (p_payload new))) = Ok (p_comp new)) ->
  lb_md5 L (package_file new) <> zeros 16 -> lb_string L h 1044 <> None ->
  sound_files fs -> hashes_ok L -> digests_right L sha (p_archive old) ks -> no_twins L sha fs unprelinked (p_archive old) ks ->
  (forall k, In k ks -> has_data (ke_file k) -> rd (map ke_index ks) (ke_index k) = Ok (ke_index k)) ->
  (exists open, zlen open <= 50 /\ forall k, In k ks -> has_data (ke_file k) -> looks_prelinked fs (ke_file k) = false -> In (ke_index k) open) ->
  ((exists k, In k ks /\ has_data (ke_file k) /\ looks_prelinked fs (ke_file k) = true) -> whole_links fs unprelinked (map ke_file ks)) ->
  forall delta seq,
  drpm_make L (Some o) (Some (package_file old)) (if solo then None else Some (package_file new)) true = Ok (delta, seq) ->
  drpm_check L installed delta (Some (check_full L fs unprelinked)) = Ok tt ->
  drpm_apply L installed fs unprelinked clean None delta = (package_file new, Ok tt).
Proof. exact checked_applies. Qed.
Print Assumptions C43_checked_applies_partial.

(** The packages of C42, the file unchanged and prelinked; then a file of the right size, but other contents, which does not
    pass, and a prelinked file that was made of another one. *)
Definition j_delta : list Z := Eval vm_compute in made_with jlibs (m_options false 3 true true) (package_file m_old) (package_file m_new).
Example C43_case :
  let ks := kept None ex_files false ex_entries in
  let delta := j_delta in
  let full := fun fs undo => drpm_check jlibs (has_header m_old) delta (Some (check_full jlibs fs undo)) in
  let sizes := fun fs undo => drpm_check jlibs (has_header m_old) delta (Some (check_filesize jlibs fs undo)) in
  let apply := fun fs undo => i_apply_delta jlibs fs undo delta m_old m_new in
  let wrong := [1; 2; 3; 4; 5] in
  made_with jlibs (m_options false 3 true true) (package_file m_old) (package_file m_new) = delta /\
  codec_ok (lb_codec jlibs) /\ md5_16 jlibs /\ package_ok jlibs m_old /\ package_ok jlibs m_new /\
  standard_source_ok jlibs m_old ex_files false false ex_entries /\
  standard_target_ok jlibs m_new (slice (p_hdr m_new) 0 24 ++ str_drpm ++ from (p_hdr m_new) 28) /\ few_adjustments jlibs m_old /\
  header_installed jlibs (has_header m_old) m_old ex_files false /\ hashes_ok jlibs /\ digests_right jlibs false ex_archive ks /\
  (sound_files i_disk /\ no_twins jlibs false i_disk no_prelink ex_archive ks /\ unchanged i_disk no_prelink ex_archive ks /\
   full i_disk no_prelink = Ok tt /\ sizes i_disk no_prelink = Ok tt /\ apply i_disk no_prelink = Ok true) /\
  (sound_files i_prelinked /\ no_twins jlibs false i_prelinked i_undo ex_archive ks /\ unchanged i_prelinked i_undo ex_archive ks /\
   whole_links i_prelinked i_undo (map ke_file ks) /\
   full i_prelinked i_undo = Ok tt /\ sizes i_prelinked i_undo = Ok tt /\ apply i_prelinked i_undo = Ok true) /\
  full (disk [([47; 97], wrong)]) no_prelink = Err EMismatch /\ sizes (disk [([47; 97], wrong)]) no_prelink = Ok tt /\
  apply (disk [([47; 97], wrong)]) no_prelink = Err EMismatch /\
  full i_prelinked (fun _ => Ok wrong) = Err EMismatch /\ sizes i_prelinked (fun _ => Ok wrong) = Err EMismatch.
Proof.
  cbn zeta. split; [vm_compute; reflexivity|]. split; [exact toy_ok|]. split; [exact j_md5_16|]. split; [exact (j_package _ m_old_ok)|]. split; [exact (j_package _ m_new_ok)|].
  split; [exact j_source|]. split; [exact j_target|]. split; [exact j_adjustments|]. split; [exact j_header|].
  split; [exact j_hashes|]. split; [exact j_digests|]. split; [|split].
  - split; [exact j_sound|]. split; [exact j_twins|]. split; [exact j_unchanged|].
    split; [vm_compute; reflexivity|]. split; vm_compute; reflexivity.
  - split; [exact j_sound_prelinked|]. split; [exact j_twins_prelinked|]. split; [exact j_unchanged_prelinked|].
    split; [exact (ins_links _ _ _ _ i_prelinked_ok (ex_intro _ (nth 0 i_kept (mken 0 [] 0 0, 0, mkfi [] 0 [] 0 0 0 0 [] 0)) i_one_prelinked))|].
    split; [vm_compute; reflexivity|]. split; vm_compute; reflexivity.
  - split; [vm_compute; reflexivity|]. split; [vm_compute; reflexivity|]. split; [vm_compute; reflexivity|]. split; vm_compute; reflexivity.
Qed.
