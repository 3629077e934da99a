(** * ApplyCases: concrete packages and deltas for the properties of applying *)
From Verif Require Import Base FileSys BaseLemmas Utils UtilsProofs SpecCodec SpecDelta SpecStream SpecFormat Stream ToyCodec
  DeltaComp Rpm Delta DeltaWrite DeltaRead Seq Expand Blocks Archive Fill SpecArchive SpecApply Apply ApplyProofs ToyLibs FormatCases ArchiveCases.

(** An RPM file with the given header data and archive; the payload is compressed with gzip. *)
Definition toy_payload (archive : list Z) : list Z := toy_head COMP_GZIP ++ archive.
Definition toy_front (hdr archive : list Z) : list Z :=
  let body := HEADER_MAGIC ++ toy_header hdr ++ toy_payload archive in
  toy_lead ++ HEADER_MAGIC ++ toy_mksig (zlen body) (toy_md5 body) ++ zeros 4.
Definition toy_file (hdr archive : list Z) : list Z :=
  toy_front hdr archive ++ HEADER_MAGIC ++ toy_header hdr ++ toy_payload archive.

Definition old_hdr : list Z := [1; 2; 3].
Definition old_archive : list Z := repeat 11 20 ++ repeat 12 30.
Definition new_hdr : list Z := [1; 2; 4; 5].
Definition new_archive : list Z := repeat 11 10 ++ [99; 98] ++ repeat 12 25.
Definition old_file : list Z := Eval vm_compute in toy_file old_hdr old_archive.
Definition new_file : list Z := Eval vm_compute in toy_file new_hdr new_archive.

(** The digest in the signature of [old_file]. *)
Definition old_sig_md5 : list Z := Eval vm_compute in
  toy_md5 (HEADER_MAGIC ++ toy_header old_hdr ++ toy_payload old_archive).

(** An rpm-only delta from [old_file] to [new_file], not compressed.  Old data: 19 bytes of header, then the archive. *)
Definition good_delta : deltarpm := Eval vm_compute in
  mkdelta TYPE_RPMONLY 0 0 (HNevr [97; 45; 50; 45; 49]) 3 (lb_nevr toylibs (toy_header old_hdr)) old_sig_md5 (toy_md5 new_file)
    (zlen new_file) COMP_GZIP 9 [] 20 0 [] (toy_front new_hdr new_archive) 0
    3 2 [(0, 20); (1, 2); (1, 0)] [(19, 10); (12, 25)] 69 [] 22
    (IBytes (HEADER_MAGIC ++ toy_header new_hdr ++ [99; 98])).

Definition written (d : deltarpm) : list Z := match write_deltarpm toylibs d with Ok f => f | _ => [] end.
(** No package is installed. *)
Definition toy_apply := drpm_apply toylibs (fun _ => Err ENoInstall) no_files (fun _ => Err EIo) 0.


Definition with_source (nevr seq : list Z) (d : deltarpm) : deltarpm :=
  mkdelta (d_type d) (d_comp d) (d_level d) (d_head d) (d_version d) nevr seq (d_md5 d) (d_size d)
    (d_tcomp d) (d_tlevel d) (d_param d) (d_hlen d) (d_offn d) (d_off d) (d_leadsig d) (d_fmtoff d)
    (d_intn d) (d_extn d) (d_int d) (d_ext d) (d_extlen d) (d_add d) (d_intlen d) (d_idata d).
Definition with_target (md5 : list Z) (hlen : Z) (d : deltarpm) : deltarpm :=
  mkdelta (d_type d) (d_comp d) (d_level d) (d_head d) (d_version d) (d_src_nevr d) (d_seq d) md5 (d_size d)
    (d_tcomp d) (d_tlevel d) (d_param d) hlen (d_offn d) (d_off d) (d_leadsig d) (d_fmtoff d)
    (d_intn d) (d_extn d) (d_int d) (d_ext d) (d_extlen d) (d_add d) (d_intlen d) (d_idata d).

(** [toylibs] with file lists: headers made from [old_hdr] list [ex_files], others the same with another mode. *)
Definition other_files : list file_info :=
  map (fun f => mkfi (fi_name f) (fi_flags f) (fi_md5 f) (fi_rdev f) (fi_size f) (fi_mode f + 1) (fi_verify f) (fi_linkto f) 0) ex_files.
Definition ex_tags (files : list file_info) : file_tags :=
  mkft (Some (map fi_name files)) (Some (map fi_flags files)) (Some (map fi_md5 files)) (Some (map fi_rdev files))
       (Some (map fi_size files)) (Some (map fi_mode files)) (Some (map fi_verify files)) (Some (map fi_linkto files)) None.
Definition filelibs : libs :=
  mklibs (lb_codec toylibs) (lb_md5 toylibs) (lb_sha256 toylibs) (lb_read toylibs) (lb_import toylibs) (lb_string toylibs) (lb_nevr toylibs)
    (lb_algo toylibs) (lb_sig_md5 toylibs) (lb_mksig toylibs) (lb_setfmt toylibs)
    (fun h => if list_eqb h (toy_header old_hdr) then ex_tags ex_files else ex_tags other_files).

(** A standard delta: the old package has [ex_archive], the new one an archive of which two parts are in the old one. *)
Definition std_old : list Z := Eval vm_compute in toy_file old_hdr ex_archive.
(** The same name, but other files. *)
Definition std_other : list Z := Eval vm_compute in toy_file [1; 2; 9] ex_archive.
Definition std_seq : list Z := Eval vm_compute in
  match parse_cpio_files filelibs None false ex_files false false ex_rpm with Ok (_, s, _) => s | _ => [] end.
Definition std_cpio : list Z := Eval vm_compute in
  match parse_cpio_files filelibs None false ex_files false false ex_rpm with Ok (c, _, _) => c | _ => [] end.
Definition std_archive : list Z := Eval vm_compute in slice std_cpio 200 100 ++ [1; 2; 3] ++ slice std_cpio 20 150.
Definition std_new : list Z := Eval vm_compute in toy_file new_hdr std_archive.
Definition std_delta : deltarpm := Eval vm_compute in
  mkdelta TYPE_STANDARD COMP_GZIP 9 (HRpm (mkrpm toy_lead (toy_header [7]) (toy_header new_hdr) [] 0 0)) 3
    (lb_nevr filelibs (toy_header old_hdr)) std_seq (toy_md5 std_new)
    (zlen std_new) COMP_GZIP 9 [] 0 0 [] (toy_front new_hdr std_archive) 0
    2 2 [(1, 3); (1, 0)] [(200, 100); (u32 (-280), 150)] (zlen std_cpio) [] 3 (IBytes [1; 2; 3]).
Definition file_apply := drpm_apply filelibs (fun _ => Err ENoInstall) no_files (fun _ => Err EIo) 0.
