(** * Specification: the package a delta is for *)
From Verif Require Import Base Rpm Seq Delta SpecCodec SpecStream SpecArchive.

(** The digest in an rpm-only delta is the one in the signature of the old package. *)
Definition same_signature (L : libs) (d : deltarpm) (r : rpm) : Prop := lb_sig_md5 L (rp_sig r) = Some (d_seq d).

(** The digest at the start of the sequence of a standard delta is the one of the metadata of those files in the header
    of the old package that the rest of the sequence lists (the decoder is the subject of C09). *)
Definition same_files (L : libs) (d : deltarpm) (files : list file_info) : Prop :=
  exists indices fs, seq_positions (d_seq d) (zlen files) = Ok indices /\
    Forall2 (fun i f => 0 <= i /\ nth_error files (Z.to_nat i) = Some f) indices fs /\
    lb_md5 L (concat (map meta fs)) = slice (d_seq d) 0 16.

(** The old package is the one that the delta was made from, as far as a delta records it. *)
Definition right_source (L : libs) (d : deltarpm) (r : rpm) : Prop :=
  d_src_nevr d = lb_nevr L (rp_hdr r) /\
  (d_type d = TYPE_RPMONLY -> same_signature L d r) /\
  (d_type d <> TYPE_RPMONLY -> exists files colors, rpm_get_file_info L false r = Ok (files, colors) /\
     (Forall wf_file files -> same_files L d files)).

(** The number of bytes that the instructions of a delta put out: the data in it and the external copies in use. *)
Definition output_length (d : deltarpm) : Z :=
  zsum (map snd (d_int d)) + zsum (map snd (firstn (Z.to_nat (zsum (map fst (d_int d)))) (d_ext d))).

(** The signature header, of [il] entries and [dl] bytes of data, ends inside of lead and signature; it starts with these
    two numbers after the lead and eight bytes of magic. *)
Definition signature_inside (leadsig : list Z) : Prop :=
  let il := be_val (slice leadsig 104 4) in
  let dl := be_val (slice leadsig 108 4) in
  104 + 8 + 16 * il + dl <= zlen leadsig.

(** A sequence that some list of the files, none more often than there are files, is encoded to. *)
Definition lists_files (files : list file_info) (sequence : list Z) : Prop :=
  exists l digest code, Forall (fun i => 0 <= i < zlen files) l /\ zlen l <= zlen files /\
    zlen digest = 16 /\ seq_encode l = Ok code /\ sequence = digest ++ code.

(** File table and archive of an old package for a standard delta: sizes of RPM, digests no longer than in any RPM, and
    no archive header that declares an empty name. *)
Record sound_files (archive : list Z) (files : list file_info) : Prop := {
  sf_wf : Forall wf_file files;
  sf_md5 : Forall (fun f => zlen (fi_md5 f) <= 65) files;
  sf_count : zlen files < 2 ^ 32;
  sf_named : forall o size, ~ header_at archive o 0 size
}.
