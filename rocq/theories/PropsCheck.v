(** * Properties C31 and C35: checks of installed files, detection of prelinked files

    Specification vocabulary: [SpecCheck], [SpecPrelink]. *)
From Verif Require Import Base BaseLemmas SpecCodec SpecArchive ToyLibs Stream Rpm Seq Delta DeltaRead Expand Apply FileSys Prelink SpecPrelink PrelinkProofs Check SpecCheck CheckProofs CheckCases ArchiveCases Make SpecMake MakeCases.

(** C31: the check of sizes. *)
Theorem C31_filesize : forall L fs unprelinked name sha digest filesize, plain_files fs ->
  check_filesize L fs unprelinked name sha digest filesize =
  match fs_stat fs name with
  | None => Err ENoInstall
  | Some size => if size =? filesize then Ok tt
                 else if (filesize <? size) && negb (readable fs name) then Err EIo else Err EMismatch
  end.
Proof. exact filesize_exact. Qed.
Print Assumptions C31_filesize.

(** C31: the full check.  What follows the recorded size does not matter. *)
Theorem C31_full : forall L fs unprelinked name sha digest filesize,
  plain_files fs -> hashes_ok L -> zlen digest = digest_len sha -> 0 <= filesize ->
  check_full L fs unprelinked name sha digest filesize =
  match fs_open fs name with
  | None => Err EIo
  | Some data => if list_eqb (hash L sha (slice data 0 filesize)) digest then Ok tt else Err EMismatch
  end.
Proof. exact full_exact. Qed.
Print Assumptions C31_full.

(** C31: a sequence that passes had every regular file with content in it checked with its recorded digest and size. *)
Theorem C31_covers : forall L c seq files sha idx, expand_sequence L (Some c) (Some seq) files sha = Ok idx ->
  exists positions, seq_positions seq (zlen files) = Ok positions /\
  forall i f, In i positions -> rd files i = Ok f -> S_ISREG (fi_mode f) = true -> 0 < fi_size f ->
  exists d, file_digest sha (fi_md5 f) = Ok d /\ c (fi_name f) sha d (fi_size f) = Ok tt.
Proof. exact expand_checked. Qed.
Print Assumptions C31_covers.

(** C31: what [drpm_check] guarantees when it succeeds with a full check of a standard delta. *)
Theorem C31_check_full : forall L installed fs unprelinked delta d,
  drpm_check L installed delta (Some (check_full L fs unprelinked)) = Ok tt -> read_deltarpm L delta = Ok d -> d_type d = TYPE_STANDARD ->
  plain_files fs -> hashes_ok L ->
  exists r files colors sha positions, installed (d_src_nevr d) = Ok r /\ d_src_nevr d = lb_nevr L (rp_hdr r) /\
    rpm_get_file_info L false r = Ok (files, colors) /\ rpm_get_digest_algo L r = Ok sha /\
    seq_positions (d_seq d) (zlen files) = Ok positions /\
    forall i f, In i positions -> rd files i = Ok f -> S_ISREG (fi_mode f) = true -> 0 < fi_size f ->
    exists data, fs_open fs (fi_name f) = Some data /\ hex_bytes (even_part (fi_md5 f)) = Some (hash L sha (slice data 0 (fi_size f))).
Proof. exact check_full_whole. Qed.
Print Assumptions C31_check_full.

(** C31: and with a check of sizes. *)
Theorem C31_check_sizes : forall L installed fs unprelinked delta d,
  drpm_check L installed delta (Some (check_filesize L fs unprelinked)) = Ok tt -> read_deltarpm L delta = Ok d -> d_type d = TYPE_STANDARD ->
  plain_files fs ->
  exists r files colors positions, installed (d_src_nevr d) = Ok r /\ d_src_nevr d = lb_nevr L (rp_hdr r) /\
    rpm_get_file_info L false r = Ok (files, colors) /\ seq_positions (d_seq d) (zlen files) = Ok positions /\
    forall i f, In i positions -> rd files i = Ok f -> S_ISREG (fi_mode f) = true -> 0 < fi_size f -> fs_stat fs (fi_name f) = Some (fi_size f).
Proof. exact check_sizes_whole. Qed.
Print Assumptions C31_check_sizes.

(** C31: one file that is not prelinked, or not bigger than recorded, whatever the others are. *)
Theorem C31_full_file : forall L fs unprelinked name sha digest filesize data size,
  hashes_ok L -> zlen digest = digest_len sha -> 0 <= filesize ->
  fs_open fs name = Some data -> fs_stat fs name = Some size -> bytes data -> (filesize < size -> plain data) ->
  check_full L fs unprelinked name sha digest filesize = if list_eqb (hash L sha (slice data 0 filesize)) digest then Ok tt else Err EMismatch.
Proof. exact full_plain. Qed.
Print Assumptions C31_full_file.

(** C31: a prelinked file, bigger than recorded: both checks look at what "prelink -u" makes of it. *)
Theorem C31_prelinked : forall L fs unprelinked name sha digest filesize data size,
  hashes_ok L -> zlen digest = digest_len sha -> 0 < filesize ->
  fs_open fs name = Some data -> fs_stat fs name = Some size -> bytes data -> has_table data -> has_undo data -> ~ bad_names data -> filesize < size ->
  let verdict := u <- unprelinked name ;; if list_eqb (hash L sha (slice u 0 filesize)) digest then Ok tt else Err EMismatch in
  check_full L fs unprelinked name sha digest filesize = verdict /\ check_filesize L fs unprelinked name sha digest filesize = verdict.
Proof. exact prelinked_checks. Qed.
Print Assumptions C31_prelinked.

(** C31: what [drpm_check] guarantees with prelinked files. *)
Theorem C31_check_full_prelinked : forall L installed fs unprelinked delta d,
  drpm_check L installed delta (Some (check_full L fs unprelinked)) = Ok tt -> read_deltarpm L delta = Ok d -> d_type d = TYPE_STANDARD ->
  sound_files fs -> hashes_ok L ->
  exists r files colors sha positions, installed (d_src_nevr d) = Ok r /\ d_src_nevr d = lb_nevr L (rp_hdr r) /\
    rpm_get_file_info L false r = Ok (files, colors) /\ rpm_get_digest_algo L r = Ok sha /\
    seq_positions (d_seq d) (zlen files) = Ok positions /\
    forall i f, In i positions -> rd files i = Ok f -> S_ISREG (fi_mode f) = true -> 0 < fi_size f ->
    exists contents, stands_for fs unprelinked (fi_name f) (fi_size f) contents /\
      hex_bytes (even_part (fi_md5 f)) = Some (hash L sha (slice contents 0 (fi_size f))).
Proof. exact check_full_sound. Qed.
Print Assumptions C31_check_full_prelinked.

Theorem C31_check_sizes_prelinked : forall L installed fs unprelinked delta d,
  drpm_check L installed delta (Some (check_filesize L fs unprelinked)) = Ok tt -> read_deltarpm L delta = Ok d -> d_type d = TYPE_STANDARD ->
  sound_files fs -> hashes_ok L ->
  exists r files colors sha positions, installed (d_src_nevr d) = Ok r /\ d_src_nevr d = lb_nevr L (rp_hdr r) /\
    rpm_get_file_info L false r = Ok (files, colors) /\ rpm_get_digest_algo L r = Ok sha /\
    seq_positions (d_seq d) (zlen files) = Ok positions /\
    forall i f, In i positions -> rd files i = Ok f -> S_ISREG (fi_mode f) = true -> 0 < fi_size f ->
    fs_stat fs (fi_name f) = Some (fi_size f) \/
    exists data contents, fs_open fs (fi_name f) = Some data /\ fi_size f < zlen data /\ has_table data /\ has_undo data /\
      unprelinked (fi_name f) = Ok contents /\ hex_bytes (even_part (fi_md5 f)) = Some (hash L sha (slice contents 0 (fi_size f))).
Proof. exact check_sizes_sound. Qed.
Print Assumptions C31_check_sizes_prelinked.

(** "/a" is prelinked, "/b" has what "/a" had before. *)
Example C31_case_prelinked :
  let sizes := check_filesize toylibs p_fs p_undo in let full := check_full toylibs p_fs p_undo in
  let a := [47; 97] in let b := [47; 98] in let d := toy_md5 k_hello in let raw := toy_md5 (elf_case 3 UNDO_NAME) in
  sound_files p_fs /\ bytes (elf_case 3 UNDO_NAME) /\ has_table (elf_case 3 UNDO_NAME) /\ has_undo (elf_case 3 UNDO_NAME) /\ ~ bad_names (elf_case 3 UNDO_NAME) /\
  full a false d 5 = Ok tt /\ sizes a false d 5 = Ok tt /\ full a false d 4 = Err EMismatch /\ sizes a false d 4 = Err EMismatch /\
  full a false raw 210 = Ok tt /\ sizes a false d 210 = Ok tt /\ full a false raw 209 = Err EMismatch /\
  full b false d 5 = Ok tt /\ full b false d 6 = Ok tt /\ sizes b false d 6 = Err EMismatch /\
  check_full toylibs p_fs (fun _ => Err EIo) a false d 5 = Err EIo.
Proof. cbn zeta. split; [exact p_sound|]. destruct elf_prelinked as (A & B & C & D). repeat (split; [assumption|]). vm_compute. repeat split. Qed.

(** A file of 5000 bytes: right size and digest; wrong size; wrong digest; missing; not readable.  The full check accepts the
    digest of its first 4100 bytes for a recorded size of 4100. *)
Example C31_case :
  let sizes := check_filesize toylibs c_fs (fun _ => Err EOther) in let full := check_full toylibs c_fs (fun _ => Err EOther) in
  let a := [47; 97] in let d := toy_md5 c_data in
  plain_files c_fs /\ hashes_ok toylibs /\
  sizes a false d 5000 = Ok tt /\ sizes a false d 4999 = Err EMismatch /\ sizes a false d 5001 = Err EMismatch /\
  sizes [47; 99] false d 5000 = Err ENoInstall /\ sizes [47; 98] false d 6 = Err EIo /\
  full a false d 5000 = Ok tt /\ full a true (lb_sha256 toylibs c_data) 5000 = Ok tt /\ full a false d 4999 = Err EMismatch /\
  full a false (toy_md5 (slice c_data 0 4100)) 4100 = Ok tt /\ full a false (toy_md5 (slice c_data 0 4100)) 5000 = Err EMismatch /\
  full [47; 99] false d 5000 = Err EIo.
Proof. split; [exact c_plain|]. split; [exact toy_hashes|]. vm_compute. repeat split. Qed.

(** A standard delta made for packages with "/a", which has "hello" as content; five other files. *)
Example C31_case_whole :
  let delta := k_delta in
  plain_files (k_fs k_hello) /\ hashes_ok klibs /\
  match read_deltarpm klibs delta with Ok d => d_type d = TYPE_STANDARD /\ seq_positions (d_seq d) 4 = Ok [0; 3; 2] | _ => False end /\
  drpm_check klibs k_installed delta (Some (check_full klibs (k_fs k_hello) (fun _ => Err EOther))) = Ok tt /\
  drpm_check klibs k_installed delta (Some (check_filesize klibs (k_fs [1; 2; 3; 4; 5]) (fun _ => Err EOther))) = Ok tt /\
  drpm_check klibs k_installed delta (Some (check_full klibs (k_fs [1; 2; 3; 4; 5]) (fun _ => Err EOther))) = Err EMismatch /\
  drpm_check klibs k_installed delta (Some (check_filesize klibs (k_fs [1; 2; 3; 4]) (fun _ => Err EOther))) = Err EMismatch /\
  drpm_check klibs k_installed delta None = Err EArgs.
Proof. split; [apply k_plain; [apply bytesb_ok; reflexivity|reflexivity]|]. split; [exact k_hashes|]. vm_compute. repeat split. Qed.

(** C35: what the detection computes.  The only undefined behaviour is that the pointer to the section header is freed; that
    happens for the files with [bad_names].  For all others the answer is right. *)
Theorem C35_detection : forall data n, bytes data -> 64 <= n ->
  let r := is_prelinked data (slice data 0 n) in
  (has_table data /\ bad_names data /\ r = Ub BadFree) \/
  (~ (has_table data /\ bad_names data) /\ exists b, r = Ok b /\ (b = true <-> has_table data /\ has_undo data)).
Proof. exact is_prelinked_exact. Qed.
Print Assumptions C35_detection.

(** C35 is false: a file whose section of names has another type. *)
Theorem C35_memory_refuted : exists data, bytes data /\ is_prelinked data (slice data 0 128) = Ub BadFree.
Proof. exists (elf_case 1 text_name). split; [apply bytesb_ok; vm_compute; reflexivity|vm_compute; reflexivity]. Qed.
Print Assumptions C35_memory_refuted.

(** Files with and without the section. *)
Example C35_case :
  bytesb (elf_case 3 UNDO_NAME) = true /\ is_prelinked (elf_case 3 UNDO_NAME) (slice (elf_case 3 UNDO_NAME) 0 128) = Ok true /\
  is_prelinked (elf_case 3 text_name) (slice (elf_case 3 text_name) 0 128) = Ok false /\
  has_table (elf_case 3 UNDO_NAME) /\ has_undo (elf_case 3 UNDO_NAME).
Proof.
  split; [vm_compute; reflexivity|]. split; [vm_compute; reflexivity|]. split; [vm_compute; reflexivity|].
  split.
  - unfold has_table, is_elf, follows. vm_compute. repeat split; discriminate.
  - unfold has_undo, follows. split; [vm_compute; reflexivity|]. split; [vm_compute; discriminate|].
    exists 0. split; [vm_compute; split; [discriminate|reflexivity]|]. vm_compute. split; [discriminate|reflexivity].
Qed.
