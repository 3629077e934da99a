(** * PropsDisk: writing when the disk is full (C52) *)
From Verif Require Import Base FileSys Utils DeltaComp Stream Rpm Delta DeltaWrite DeltaRead Make Apply SpecMake SpecDisk DiskOut DiskProofs
  ToyLibs ApplyCases MakeCases DiskCases.

(** C52: whatever the writes of [drpm_apply] take, either all of them took everything, and then the file and the result are
    those of the model without errors; or one did not, and then the I/O error is returned and the file holds the beginning
    of what should be in it. *)
Theorem C52_apply : forall L installed fs unprelinked clean old delta grants,
  let '(wanted, planned) := drpm_apply L installed fs unprelinked clean old delta in
  let '(k, result) := disk_apply L installed fs unprelinked clean old delta (mkdisk [] grants false) in
  all_or_error wanted planned (dk_file k) result (dk_short k) /\ (grants = [] -> dk_short k = false).
Proof. exact apply_all_or_error. Qed.
Print Assumptions C52_apply.

(** C52: after success, what is in the file (and not only what was given to be written) has the digest that the delta
    declares. *)
Theorem C52_digest : forall L installed fs unprelinked clean old delta grants k d,
  disk_apply L installed fs unprelinked clean old delta (mkdisk [] grants false) = (k, Ok tt) ->
  read_deltarpm L delta = Ok d -> d_md5 d <> zeros 16 -> lb_md5 L (dk_file k) = d_md5 d.
Proof. exact apply_disk_digest. Qed.
Print Assumptions C52_digest.

(** C52: after success of [drpm_make], the delta file is whole, and so is the sequence file if no write to it failed; if a write
    to the delta file took too little, the I/O error is returned and no sequence file is begun; otherwise the result is
    that of the model without errors.  Missing: errors in writing the sequence file, see below. *)
Theorem C52_make_partial : forall L o old new named delta_grants seq_grants,
  let '(k, q, result) := disk_make L o old new named delta_grants seq_grants in
  (result = Ok tt -> exists file seq, drpm_make L o old new named = Ok (file, seq) /\ dk_file k = file /\
     (q = None <-> seq = None) /\ (~ In Fails seq_grants -> option_map dk_file q = seq)) /\
  (dk_short k = true -> result = Err EIo /\ q = None) /\
  (delta_grants = [] -> dk_short k = false) /\
  (dk_short k = false -> match drpm_make L o old new named with
                         | Ok _ => result = Ok tt | Err e => result = Err e | Ub u => result = Ub u | NoFuel => result = NoFuel end) /\
  (forall file seq, drpm_make L o old new named = Ok (file, seq) -> begins (dk_file k) file).
Proof. exact make_disk. Qed.
Print Assumptions C52_make_partial.

(** The disk gets full when the sequence file is written: [drpm_make] returns success, and the file is empty. *)
Theorem C52_seqfile_refuted : exists o p k q text,
  drpm_make mlibs (Some o) (Some (package_file p)) None true = Ok (dk_file k, Some text) /\ 2 <= zlen text /\
  disk_make mlibs (Some o) (Some (package_file p)) None true [] [Fails] = (k, Some q, Ok tt) /\ dk_file q = [].
Proof.
  exists (m_options true 3 true true), m_plain, self_delta, (mkdisk [] [] true), self_text.
  split; [vm_compute; reflexivity|]. split; [vm_compute; discriminate|]. split; [vm_compute; reflexivity|reflexivity].
Qed.
Print Assumptions C52_seqfile_refuted.

(** The delta of ApplyCases on disks that take everything, in which the second write fails, and in which the third takes one
    byte only. *)
Example C52_case :
  disk_toy [] = (zlen new_file, Ok tt, false) /\
  disk_toy [Takes 1000; Fails] = (zlen (toy_front new_hdr new_archive), Err EIo, true) /\
  disk_toy [Takes 1000; Takes 1000; Takes 1] = (zlen (toy_front new_hdr new_archive) + 21, Err EIo, true) /\
  snd (self_make [Takes 4; Takes 3] []) = Err EIo /\
  snd (self_make [] [Takes 5; Takes 0; Takes 9]) = Ok tt.
Proof. vm_compute. repeat split. Qed.
