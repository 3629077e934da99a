(** * Properties C19, C20, C33, C39: making deltas and applying what was made

    Specification vocabulary: [SpecMake], [SpecArchive], [codec_ok] of [SpecStream]. *)
From Verif Require Import Base BaseLemmas SpecCodec SpecStream SpecFormat Stream DeltaComp Rpm Delta Diff DeltaRead Archive SpecArchive Expand Apply
  ToyCodec ToyLibs ArchiveCases Make SpecMake MakeOnly MakeStd MakeFinal MakeCases.

(** C19: an rpm-only delta made from two packages recreates the second one from the first. *)
Theorem C19_make_apply : forall L old new level o,
  codec_ok (lb_codec L) -> md5_16 L -> package_ok L old -> package_ok L new -> package_has_md5 L old ->
  cpio_target L new level -> recompresses L new level -> zlen (package_data old) < 2 ^ 31 -> zlen (package_data new) < 2 ^ 31 ->
  few_copies (package_data old) (package_data new) (o_addblk o) ->
  options_ok L o (zlen (package_data new)) -> o_rpmonly o = true -> o_version o = 3 ->
  forall installed fs unprelinked clean, lb_md5 L (package_file new) <> zeros 16 ->
  exists delta d seq, drpm_make L (Some o) (Some (package_file old)) (Some (package_file new)) true = Ok (delta, seq) /\
    read_deltarpm L delta = Ok d /\ d_type d = TYPE_RPMONLY /\
    drpm_apply L installed fs unprelinked clean (Some (package_file old)) delta = (package_file new, Ok tt).
Proof. exact make_apply. Qed.
Print Assumptions C19_make_apply.

(** C19: there are always few copies if the new data has less than 2^29 - 2 bytes. *)
Theorem C19_make_apply_small : forall L old new level o installed fs unprelinked clean,
  codec_ok (lb_codec L) -> md5_16 L -> package_ok L old -> package_ok L new -> package_has_md5 L old ->
  cpio_target L new level -> recompresses L new level -> zlen (package_data old) < 2 ^ 31 -> zlen (package_data new) < 2 ^ 29 - 2 ->
  options_ok L o (zlen (package_data new)) -> o_rpmonly o = true -> o_version o = 3 -> lb_md5 L (package_file new) <> zeros 16 ->
  exists delta d seq, drpm_make L (Some o) (Some (package_file old)) (Some (package_file new)) true = Ok (delta, seq) /\
    read_deltarpm L delta = Ok d /\ d_type d = TYPE_RPMONLY /\
    drpm_apply L installed fs unprelinked clean (Some (package_file old)) delta = (package_file new, Ok tt).
Proof. exact make_apply_small. Qed.
Print Assumptions C19_make_apply_small.

(** Packages and options that meet the hypotheses; the delta is smaller than the package; with and without add block,
    with and without compression of the target. *)
Example C19_case :
  codec_ok (lb_codec mlibs) /\ md5_16 mlibs /\ package_ok mlibs m_old /\ package_ok mlibs m_new /\ package_ok mlibs m_plain /\
  package_has_md5 mlibs m_old /\ cpio_target mlibs m_new 9 /\ cpio_target mlibs m_plain 9 /\
  recompresses mlibs m_new 9 /\ recompresses mlibs m_plain 9 /\ zlen (package_data m_old) = 765 /\ zlen (package_data m_new) = 650 /\
  (forall from_rpm addblk, options_ok mlibs (m_options true 3 from_rpm addblk) (zlen (package_data m_new))) /\
  lb_md5 mlibs (package_file m_new) <> zeros 16 /\
  m_roundtrip (m_options true 3 true true) m_old m_new = true /\ m_roundtrip (m_options true 3 false false) m_old m_new = true /\
  m_roundtrip (m_options true 3 false true) m_old m_plain = true /\
  zlen (m_make (m_options true 3 false false) m_old m_new) < zlen (package_file m_new).
Proof.
  split; [exact toy_ok|]. split; [apply toy_md5_16; reflexivity|]. split; [exact m_old_ok|]. split; [exact m_new_ok|]. split; [exact m_plain_ok|].
  split; [vm_compute; reflexivity|]. split; [apply (m_target 1 1 2 [1; 2; 4; 5] m_new_archive); apply bytesb_ok; reflexivity|].
  split; [apply (m_target 0 1 2 [1; 2; 4; 5; 6] m_new_archive); apply bytesb_ok; reflexivity|].
  split; [apply (m_recompresses 1 (p_hdr m_new) m_new_archive); auto|]. split; [left; reflexivity|].
  split; [vm_compute; reflexivity|]. split; [vm_compute; reflexivity|].
  split; [intros; apply m_options_ok; [lia|vm_compute; reflexivity]|]. split; [vm_compute; discriminate|].
  split; [vm_compute; reflexivity|]. split; [vm_compute; reflexivity|]. split; [vm_compute; reflexivity|vm_compute; reflexivity].
Qed.

(** C39: a standard delta recreates the new package from the file of the old one.  [h] is the header in the delta.  Format
    version 1 keeps neither level nor codec: the codec is taken from the header. *)
Theorem C39_make_apply_standard : forall L old new files colors sha es h level o,
  codec_ok (lb_codec L) -> md5_16 L -> package_ok L old -> package_ok L new ->
  standard_source_ok L old files colors sha es -> cpio_target L new level -> standard_target_ok L new h ->
  zlen (p_archive old) < 2 ^ 31 -> zlen (altered (p_archive old) (kept None files colors es)) < 2 ^ 31 -> 16 <= zlen (p_archive new) < 2 ^ 31 ->
  few_copies (altered (p_archive old) (kept None files colors es)) (p_archive new) (o_addblk o) -> few_adjustments L old ->
  options_ok L o (zlen (p_archive new)) -> o_rpmonly o = false ->
  forall solo, (solo = true -> old = new) -> forall installed fs unprelinked clean,
  recompresses L new (if 2 <=? o_version o then level else 0) ->
  (o_version o = 1 -> rpm_get_comp L (mkrpm (p_lead new) (p_sig new) h (p_archive new) 0 (zlen (p_payload new))) = Ok (p_comp new)) ->
  lb_md5 L (package_file new) <> zeros 16 ->
  exists delta d seq,
    drpm_make L (Some o) (Some (package_file old)) (if solo then None else Some (package_file new)) true = Ok (delta, seq) /\
    read_deltarpm L delta = Ok d /\ d_type d = TYPE_STANDARD /\
    drpm_apply L installed fs unprelinked clean (Some (package_file old)) delta = (package_file new, Ok tt).
Proof. exact make_std_apply. Qed.
Print Assumptions C39_make_apply_standard.

(** The same packages, three versions; the last one is the same package twice. *)
Example C39_case :
  standard_source_ok mlibs m_old ex_files false false ex_entries /\
  standard_target_ok mlibs m_new (slice (p_hdr m_new) 0 24 ++ str_drpm ++ from (p_hdr m_new) 28) /\ few_adjustments mlibs m_old /\
  zlen (altered (p_archive m_old) (kept None ex_files false ex_entries)) = 484 /\ zlen (p_archive m_new) = 608 /\
  few_copies (altered (p_archive m_old) (kept None ex_files false ex_entries)) (p_archive m_new) true /\
  (forall v from_rpm addblk, 1 <= v <= 3 -> options_ok mlibs (m_options false v from_rpm addblk) (zlen (p_archive m_new))) /\
  recompresses mlibs m_new 0 /\
  m_roundtrip (m_options false 3 true true) m_old m_new = true /\ m_roundtrip (m_options false 2 false false) m_old m_new = true /\
  m_roundtrip (m_options false 1 true true) m_old m_new = true /\ m_roundtrip (m_options false 3 true true) m_old m_old = true.
Proof.
  split; [exact m_source|]. split; [exact m_new_target|]. split; [exact m_adjustments|].
  assert (E1 : zlen (altered (p_archive m_old) (kept None ex_files false ex_entries)) = 484) by (vm_compute; reflexivity).
  assert (E2 : zlen (p_archive m_new) = 608) by (vm_compute; reflexivity).
  split; [exact E1|]. split; [exact E2|].
  split; [apply m_few; [apply bytesb_ok; vm_compute; reflexivity|lia|lia]|].
  split; [intros; apply m_options_ok; [lia|lia]|].
  split. { right. intros ps Hps _. cbn [lb_codec mlibs]. change (p_comp m_new) with 1. rewrite toy_enc, Hps. vm_compute. reflexivity. }
  split; [vm_compute; reflexivity|]. split; [vm_compute; reflexivity|]. split; vm_compute; reflexivity.
Qed.

(** C20: what applying an rpm-only delta of a single package does.  It always writes the archive without compression; that
    is the package if it was not compressed, else the digest tells. *)
Theorem C20_identity_delta : forall L p o installed fs unprelinked clean (first : bool),
  codec_ok (lb_codec L) -> md5_16 L -> package_ok L p -> zlen (p_hdr p) < 2 ^ 32 - 8 ->
  o_from_rpm o = true \/ ((o_comp o = 0 \/ real_comp (o_comp o)) /\ 0 <= o_level o <= 9) -> o_rpmonly o = true -> o_version o = 3 ->
  package_has_md5 L p -> lb_import L (p_sig p) = Some (p_sig p) -> lb_md5 L (package_file p) <> zeros 16 ->
  exists delta seq,
    drpm_make L (Some o) (if first then Some (package_file p) else None) (if first then None else Some (package_file p)) true = Ok (delta, seq) /\
    let '(out, result) := drpm_apply L installed fs unprelinked clean (Some (package_file p)) delta in
    out = package_front p ++ HEADER_MAGIC ++ p_hdr p ++ p_archive p /\
    (p_comp p = 0 -> out = package_file p /\ result = Ok tt) /\
    (p_archive p <> p_payload p -> out <> package_file p) /\
    (lb_md5 L out <> lb_md5 L (package_file p) -> result = Err EMismatch).
Proof. exact nodiff_applied. Qed.
Print Assumptions C20_identity_delta.

(** C20 is false of a package with compression. *)
Theorem C20_compressed_refuted : exists p delta seq out,
  package_ok mlibs p /\ package_has_md5 mlibs p /\
  drpm_make mlibs (Some (m_options true 3 true true)) (Some (package_file p)) None true = Ok (delta, seq) /\
  m_apply (Some (package_file p)) delta = (out, Err EMismatch).
Proof.
  assert (H : match drpm_make mlibs (Some (m_options true 3 true true)) (Some (package_file m_new)) None true with
              | Ok (delta, _) => match m_apply (Some (package_file m_new)) delta with (_, Err EMismatch) => true | _ => false end
              | _ => false
              end = true) by (vm_compute; reflexivity).
  destruct (drpm_make _ _ _ _ _) as [[delta seq]|?|?|] eqn:E; [|discriminate H|discriminate H|discriminate H].
  destruct (m_apply (Some (package_file m_new)) delta) as [out [?|[]|?|]] eqn:Er; try discriminate H.
  exists m_new, delta, seq, out. split; [exact m_new_ok|]. split; [vm_compute; reflexivity|]. split; [exact E|exact Er].
Qed.
Print Assumptions C20_compressed_refuted.

Example C20_case :
  package_has_md5 mlibs m_plain /\ p_comp m_plain = 0 /\ lb_import mlibs (p_sig m_plain) = Some (p_sig m_plain) /\
  lb_md5 mlibs (package_file m_plain) <> zeros 16 /\
  match drpm_make mlibs (Some (m_options true 3 true true)) None (Some (package_file m_plain)) true with
  | Ok (delta, _) => m_apply (Some (package_file m_plain)) delta = (package_file m_plain, Ok tt)
  | _ => False
  end.
Proof.
  split; [vm_compute; reflexivity|]. split; [reflexivity|]. split; [reflexivity|]. split; [vm_compute; discriminate|vm_compute; reflexivity].
Qed.

(** C33: rpm-only deltas that are made can be read, and say which packages they are for. *)
Theorem C33_rpmonly_readable : forall L old new level o,
  codec_ok (lb_codec L) -> md5_16 L -> package_ok L old -> package_ok L new -> cpio_target L new level ->
  zlen (package_data old) < 2 ^ 31 -> zlen (package_data new) < 2 ^ 31 -> few_copies (package_data old) (package_data new) (o_addblk o) ->
  options_ok L o (zlen (package_data new)) -> o_rpmonly o = true -> o_version o = 3 ->
  exists delta d seq, drpm_make L (Some o) (Some (package_file old)) (Some (package_file new)) true = Ok (delta, seq) /\
    read_deltarpm L delta = Ok d /\ d_type d = TYPE_RPMONLY /\ d_head d = HNevr (lb_nevr L (p_hdr new)) /\
    d_src_nevr d = lb_nevr L (p_hdr old) /\ d_seq d = lb_md5 L (package_signed old) /\ d_md5 d = lb_md5 L (package_file new).
Proof. exact only_readable. Qed.
Print Assumptions C33_rpmonly_readable.

(** C33: there are no RPM-only deltas of the versions 1 and 2, whatever the packages are. *)
Theorem C33_rpmonly_versions : forall L o old new named,
  o_rpmonly o = true -> o_version o < 3 -> drpm_make L (Some o) old new named = Err EArgs.
Proof. exact only_versions. Qed.
Print Assumptions C33_rpmonly_versions.

(** Packages for which version 3 works, as seen below. *)
Example C33_versions_case :
  match drpm_make mlibs (Some (m_options true 2 true true)) (Some (package_file m_old)) (Some (package_file m_new)) true with
  | Err EArgs => True | _ => False end.
Proof. vm_compute. exact I. Qed.

(** C33: the same for the delta of a single package. *)
Theorem C33_identity_readable : forall L p o (first : bool),
  codec_ok (lb_codec L) -> md5_16 L -> package_ok L p -> zlen (p_hdr p) < 2 ^ 32 - 8 ->
  o_from_rpm o = true \/ ((o_comp o = 0 \/ real_comp (o_comp o)) /\ 0 <= o_level o <= 9) -> o_rpmonly o = true -> o_version o = 3 ->
  exists delta d seq,
    drpm_make L (Some o) (if first then Some (package_file p) else None) (if first then None else Some (package_file p)) true = Ok (delta, seq) /\
    read_deltarpm L delta = Ok d /\ d_type d = TYPE_RPMONLY /\ d_head d = HNevr (lb_nevr L (p_hdr p)) /\
    d_src_nevr d = lb_nevr L (p_hdr p) /\ d_seq d = lb_md5 L (package_signed p) /\ d_md5 d = lb_md5 L (package_file p) /\
    d_int d = [] /\ d_ext d = [].
Proof. exact nodiff_reads. Qed.
Print Assumptions C33_identity_readable.

(** C33: the same for standard deltas, if the header says with which codec the target is compressed ([ta_comp]). *)
Theorem C33_standard_readable : forall L old new files colors sha es h level o solo,
  codec_ok (lb_codec L) -> md5_16 L -> package_ok L old -> package_ok L new ->
  standard_source_ok L old files colors sha es -> cpio_target L new level -> standard_target_ok L new h ->
  let cpio := altered (p_archive old) (kept None files colors es) in
  zlen (p_archive old) < 2 ^ 31 -> zlen cpio < 2 ^ 31 -> 16 <= zlen (p_archive new) < 2 ^ 31 ->
  few_copies cpio (p_archive new) (o_addblk o) -> few_adjustments L old -> options_ok L o (zlen (p_archive new)) -> o_rpmonly o = false ->
  (solo = true -> old = new) ->
  exists delta d seq, drpm_make L (Some o) (Some (package_file old)) (if solo then None else Some (package_file new)) true = Ok (delta, seq) /\
    read_deltarpm L delta = Ok d /\ d_type d = TYPE_STANDARD /\ d_version d = o_version o /\
    d_src_nevr d = lb_nevr L (p_hdr old) /\ d_md5 d = lb_md5 L (package_file new) /\
    exists t, d_head d = HRpm t /\ rp_hdr t = h.
Proof. exact std_readable. Qed.
Print Assumptions C33_standard_readable.

(** C33 is false without that: the delta is made, but nothing can read it. *)
Theorem C33_untagged_refuted : exists old new delta seq,
  package_ok mlibs old /\ package_ok mlibs new /\
  drpm_make mlibs (Some (m_options false 3 true true)) (Some (package_file old)) (Some (package_file new)) true = Ok (delta, seq) /\
  read_deltarpm mlibs delta = Err EFormat.
Proof.
  assert (H : match drpm_make mlibs (Some (m_options false 3 true true)) (Some (package_file m_old)) (Some (package_file m_untagged)) true with
              | Ok (delta, _) => match read_deltarpm mlibs delta with Err EFormat => true | _ => false end
              | _ => false
              end = true) by (vm_compute; reflexivity).
  destruct (drpm_make _ _ _ _ _) as [[delta seq]|?|?|] eqn:E; [|discriminate H|discriminate H|discriminate H].
  destruct (read_deltarpm mlibs delta) as [?|[]|?|] eqn:Er; try discriminate H.
  exists m_old, m_untagged, delta, seq. split; [exact m_old_ok|]. split; [exact m_untagged_ok|]. split; [exact E|exact Er].
Qed.
Print Assumptions C33_untagged_refuted.
