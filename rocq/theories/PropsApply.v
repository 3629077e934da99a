(** * Properties C17 and C18: applying a delta

    Specification vocabulary: [SpecApply], [meta] of [SpecArchive]. *)
From Verif Require Import Base BaseLemmas Utils DeltaComp Stream Rpm Seq Delta DeltaWrite DeltaRead Expand Blocks Fill SpecArchive SpecApply
     Apply ApplyProofs ApplyRefuse ApplyCases ArchiveSeq ArchiveCases FormatCases ToyLibs.

(** C17: after success, the file has the digest that the delta declares, if it declares one. *)
Theorem C17_declared_digest : forall L installed fs unprelinked clean old delta file d,
  drpm_apply L installed fs unprelinked clean old delta = (file, Ok tt) -> read_deltarpm L delta = Ok d ->
  d_md5 d <> zeros 16 -> lb_md5 L file = d_md5 d.
Proof. exact apply_full_md5. Qed.
Print Assumptions C17_declared_digest.

(** C17: if it declares none, everything after lead and signature has the digest in the signature, if there is one in
    it; the signature is the one in the delta. *)
Theorem C17_signature_digest : forall L installed fs unprelinked clean old delta file d,
  drpm_apply L installed fs unprelinked clean old delta = (file, Ok tt) -> read_deltarpm L delta = Ok d ->
  d_md5 d = zeros 16 ->
  exists n sig body, lb_import L (slice (d_leadsig d) 104 n) = Some sig /\
    (file = d_leadsig d ++ body \/
     file = slice (d_leadsig d) 0 96 ++ (HEADER_MAGIC ++ sig ++ zeros (padding (8 + zlen sig) 8)) ++ body) /\
    forall m, lb_sig_md5 L sig = Some m -> lb_md5 L body = m.
Proof. exact apply_signature_md5. Qed.
Print Assumptions C17_signature_digest.

(** An rpm-only and a standard delta that recreate the new file; the same delta with another digest is refused after
    the file is written, with no digest at all the one in the signature counts. *)
Example C17_case :
  toy_apply (Some old_file) (written good_delta) = (new_file, Ok tt) /\
  (exists d, read_deltarpm toylibs (written good_delta) = Ok d /\ d_md5 d = toy_md5 new_file /\ d_md5 d <> zeros 16) /\
  file_apply (Some std_old) (written std_delta) = (std_new, Ok tt) /\
  toy_apply (Some old_file) (written (with_target (zeros 16) 20 good_delta)) = (new_file, Ok tt) /\
  toy_apply (Some old_file) (written (with_target (repeat 1 16) 20 good_delta)) = (new_file, Err EMismatch).
Proof.
  split; [vm_compute; reflexivity|]. split.
  - eexists. split; [vm_compute; reflexivity|]. split; [vm_compute; reflexivity|]. discriminate.
  - split; [vm_compute; reflexivity|]. split; vm_compute; reflexivity.
Qed.

(** A delta whose output is shorter than the header length in it makes apply hash memory that was never written. *)
Theorem C17_short_output_refuted : exists old delta d file,
  read_deltarpm toylibs delta = Ok d /\ toy_apply (Some old) delta = (file, Ub Uninit).
Proof.
  exists old_file, (written (with_target (d_md5 good_delta) 90 good_delta)). do 2 eexists.
  split; [vm_compute; reflexivity|vm_compute; reflexivity].
Qed.
Print Assumptions C17_short_output_refuted.

(** C18: success implies that the old package is the one that the delta is for. *)
Theorem C18_right_source : forall L installed fs unprelinked clean old delta file d,
  drpm_apply L installed fs unprelinked clean (Some old) delta = (file, Ok tt) -> read_deltarpm L delta = Ok d ->
  exists r comp m1 m2, rpm_read L old ReadDecomp false = Ok (r, comp, m1, m2) /\ right_source L d r.
Proof. exact apply_right_source. Qed.
Print Assumptions C18_right_source.

(** C18: the same for a package that is installed; rpm-only deltas and deltas of source packages are never applied so. *)
Theorem C18_right_installed : forall L installed fs unprelinked clean delta file d,
  drpm_apply L installed fs unprelinked clean None delta = (file, Ok tt) -> read_deltarpm L delta = Ok d ->
  exists r t, installed (d_src_nevr d) = Ok r /\ right_source L d r /\ d_type d <> TYPE_RPMONLY /\
    d_head d = HRpm t /\ lb_string L (rp_hdr t) 1044 <> None.
Proof. exact installed_right_source. Qed.
Print Assumptions C18_right_installed.

(** C18: an old package with another name, and for an rpm-only delta the right signature, is a mismatch; the file is left empty. *)
Theorem C18_other_name : forall L installed fs unprelinked clean old delta d r comp m1 m2,
  read_deltarpm L delta = Ok d -> rpm_read L old ReadDecomp false = Ok (r, comp, m1, m2) ->
  (d_type d = TYPE_RPMONLY -> same_signature L d r) -> d_src_nevr d <> lb_nevr L (rp_hdr r) ->
  drpm_apply L installed fs unprelinked clean (Some old) delta = ([], Err EMismatch).
Proof. exact refused_nevr. Qed.
Print Assumptions C18_other_name.

(** C18: an rpm-only delta and a package with another digest, or none, in its signature. *)
Theorem C18_other_signature : forall L installed fs unprelinked clean old delta d r comp m1 m2,
  read_deltarpm L delta = Ok d -> d_type d = TYPE_RPMONLY ->
  rpm_read L old ReadDecomp false = Ok (r, comp, m1, m2) -> ~ same_signature L d r ->
  drpm_apply L installed fs unprelinked clean (Some old) delta =
    ([], Err (match lb_sig_md5 L (rp_sig r) with
              | Some m => if zlen m =? 16 then EMismatch else EFormat
              | None => EFormat end)).
Proof. exact refused_signature. Qed.
Print Assumptions C18_other_signature.

(** C18: a standard delta and a package whose files do not have the digest. *)
Theorem C18_other_files : forall L installed fs unprelinked clean old delta d r comp m1 m2 files colors,
  read_deltarpm L delta = Ok d -> d_type d <> TYPE_RPMONLY ->
  rpm_read L old ReadDecomp false = Ok (r, comp, m1, m2) -> d_src_nevr d = lb_nevr L (rp_hdr r) ->
  rpm_get_file_info L false r = Ok (files, colors) -> Forall wf_file files -> ~ same_files L d files ->
  fst (drpm_apply L installed fs unprelinked clean (Some old) delta) = [] /\
  snd (drpm_apply L installed fs unprelinked clean (Some old) delta) <> Ok tt.
Proof. exact refused_files. Qed.
Print Assumptions C18_other_files.

(** C18: from the file system, rpm-only deltas and deltas of source packages are refused. *)
Theorem C18_not_installed : forall L installed fs unprelinked clean delta d, read_deltarpm L delta = Ok d ->
  (d_type d = TYPE_RPMONLY \/ exists t, d_head d = HRpm t /\ lb_string L (rp_hdr t) 1044 = None) ->
  drpm_apply L installed fs unprelinked clean None delta = ([], Err EArgs).
Proof. exact refused_installed. Qed.
Print Assumptions C18_not_installed.

(** Each of the refusals. *)
Example C18_case :
  toy_apply (Some old_file) (written (with_source [97] old_sig_md5 good_delta)) = ([], Err EMismatch) /\
  toy_apply (Some old_file) (written (with_source (d_src_nevr good_delta) (repeat 1 16) good_delta)) = ([], Err EMismatch) /\
  toy_apply (Some new_file) (written good_delta) = ([], Err EMismatch) /\
  toy_apply None (written good_delta) = ([], Err EArgs) /\
  file_apply None (written std_delta) = ([], Err EArgs) /\
  (exists d r comp m1 m2, read_deltarpm filelibs (written std_delta) = Ok d /\
    rpm_read filelibs std_other ReadDecomp false = Ok (r, comp, m1, m2) /\ d_src_nevr d = lb_nevr filelibs (rp_hdr r) /\
    rpm_get_file_info filelibs false r = Ok (other_files, false) /\ Forall wf_file other_files /\ ~ same_files filelibs d other_files) /\
  file_apply (Some std_other) (written std_delta) = ([], Err EMismatch).
Proof.
  split; [vm_compute; reflexivity|]. split; [vm_compute; reflexivity|]. split; [vm_compute; reflexivity|].
  split; [vm_compute; reflexivity|]. split; [vm_compute; reflexivity|]. split; [|vm_compute; reflexivity].
  do 5 eexists. split; [vm_compute; reflexivity|]. split; [vm_compute; reflexivity|]. split; [vm_compute; reflexivity|].
  split; [vm_compute; reflexivity|]. split.
  { repeat constructor; cbn [fi_mode fi_size fi_rdev fi_name fi_linkto]; try lia; vm_compute; reflexivity. }
  intros (ix & fs & Hp & Hf & Hm).
  match type of Hp with ?t = _ => let v := eval vm_compute in t in change t with v in Hp end. apply ok_inj in Hp. subst ix.
  inversion Hf as [|? f1 ? l1 [_ H1] F1]; subst. inversion F1 as [|? f2 ? l2 [_ H2] F2]; subst.
  inversion F2 as [|? f3 ? l3 [_ H3] F3]; subst. inversion F3; subst. vm_compute in H1, H2, H3.
  apply some_inj in H1, H2, H3. subst f1 f2 f3. vm_compute in Hm. discriminate Hm.
Qed.
