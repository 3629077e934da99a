(** * SpecInstalled: a package that is installed as it was packed *)
From Verif Require Import SpecPrelink SpecCheck Base SpecCodec Stream Rpm Expand SpecArchive FileSys SpecFs SpecMake.

(** The files of the entries that a delta can use: they are installed with the contents that they have in the package, or
    as prelinked files made of them. *)
Record files_installed (fs : fsys) (unprelinked : list Z -> res (list Z)) (archive : list Z) (ks : list kept_entry) : Prop := {
  ins_data : forall k, In k ks -> has_data (ke_file k) ->
    readable_file fs unprelinked (ke_file k) /\ installed_data fs unprelinked (ke_file k) = en_data archive (ke_entry k);
  (** Each has the place among the entries that it has in the package. *)
  ins_place : forall k, In k ks -> has_data (ke_file k) -> rd (map ke_index ks) (ke_index k) = Ok (ke_index k);
  (** Not more than 50 are to be opened other than through "prelink -u". *)
  ins_few : exists open, zlen open <= 50 /\
    forall k, In k ks -> has_data (ke_file k) -> looks_prelinked fs (ke_file k) = false -> In (ke_index k) open;
  (** If one is prelinked, then no block starts inside the target of a link. *)
  ins_links : (exists k, In k ks /\ has_data (ke_file k) /\ looks_prelinked fs (ke_file k) = true) ->
    whole_links fs unprelinked (map ke_file ks)
}.

(** The package database knows the package with the same name, version, release and files. *)
Record header_installed (L : libs) (installed : list Z -> res rpm) (p : package) (files : list file_info) (sha : bool) : Prop := {
  hi_header : exists r colors, installed (lb_nevr L (p_hdr p)) = Ok r /\ lb_nevr L (rp_hdr r) = lb_nevr L (p_hdr p) /\
    rpm_get_file_info L false r = Ok (files, colors) /\ rpm_get_digest_algo L r = Ok sha
}.

(** The recorded digests are those of the contents in the package. *)
Definition digests_right (L : libs) (sha : bool) (archive : list Z) (ks : list kept_entry) : Prop :=
  forall k, In k ks -> has_data (ke_file k) -> hex_bytes (even_part (fi_md5 (ke_file k))) = Some (hash L sha (en_data archive (ke_entry k))).
(** No installed file has other contents with the same digest. *)
Definition no_twins (L : libs) (sha : bool) (fs : fsys) (unprelinked : list Z -> res (list Z)) (archive : list Z) (ks : list kept_entry) : Prop :=
  forall k contents, In k ks -> stands_for fs unprelinked (fi_name (ke_file k)) (fi_size (ke_file k)) contents ->
  let part := slice contents 0 (fi_size (ke_file k)) in
  hash L sha part = hash L sha (en_data archive (ke_entry k)) -> part = en_data archive (ke_entry k).
(** The files are installed with their contents and sizes, or as longer files of which "prelink -u" makes their contents. *)
Definition unchanged (fs : fsys) (unprelinked : list Z -> res (list Z)) (archive : list Z) (ks : list kept_entry) : Prop :=
  forall k, In k ks -> has_data (ke_file k) -> exists data size,
  fs_open fs (fi_name (ke_file k)) = Some data /\ fs_stat fs (fi_name (ke_file k)) = Some size /\
  ((size = fi_size (ke_file k) /\ data = en_data archive (ke_entry k)) \/
   (fi_size (ke_file k) < size /\ bytes data /\ has_table data /\ has_undo data /\ ~ bad_names data /\
    unprelinked (fi_name (ke_file k)) = Ok (en_data archive (ke_entry k)))).
