(** * SpecMake: RPM files and what must hold of two of them for a delta to be useful *)
From Verif Require Import Base SpecCodec SpecStream SpecFormat Stream Rpm Diff Make Archive SpecArchive.

(** The parts of an RPM file: lead, signature and header (without magic), payload as it is in the file, the codec of
    the payload, and the archive in it. *)
Record package := mkpkg {
  p_lead : list Z; p_sig : list Z; p_hdr : list Z; p_comp : Z; p_payload : list Z; p_archive : list Z
}.

(** The signature is padded to a multiple of 8 bytes. *)
Definition sig_pad (n : Z) : Z := (- n) mod 8.
Definition package_front (p : package) : list Z :=
  p_lead p ++ HEADER_MAGIC ++ p_sig p ++ repeat 0 (Z.to_nat (sig_pad (zlen (p_sig p)))).
Definition package_file (p : package) : list Z := package_front p ++ HEADER_MAGIC ++ p_hdr p ++ p_payload p.

(** What the digest in the signature is taken of, and what a delta is made from. *)
Definition package_signed (p : package) : list Z := HEADER_MAGIC ++ p_hdr p ++ p_payload p.
Definition package_data (p : package) : list Z := HEADER_MAGIC ++ p_hdr p ++ p_archive p.

(** A header says how many index entries of 16 bytes and how many bytes of data it has. *)
Definition whole_header (h : list Z) : Prop :=
  bytes h /\ 8 <= zlen h /\ zlen h = 8 + 16 * be_val (slice h 0 4) + be_val (slice h 4 4).

(** A well-formed RPM file. *)
Record package_ok (L : libs) (p : package) : Prop := {
  pk_lead : bytes (p_lead p) /\ zlen (p_lead p) = 96 /\ slice (p_lead p) 0 4 = [237; 171; 238; 219];
  pk_sig : whole_header (p_sig p) /\ readable L (p_sig p) /\ zlen (p_sig p) < 2 ^ 31;
  pk_hdr : whole_header (p_hdr p) /\ readable L (p_hdr p);
  pk_payload : bytes (p_payload p) /\ 8 <= zlen (p_payload p) /\ sniff (p_payload p) = p_comp p;
  pk_archive : bytes (p_archive p) /\ decodes (lb_codec L) (p_comp p) (p_payload p) (p_archive p);
  pk_nevr : c_string (lb_nevr L (p_hdr p)) /\ zlen (lb_nevr L (p_hdr p)) < 2 ^ 32 - 2
}.

(** The package as librpm and drpm hold it in memory. *)
Definition rpm_of (p : package) : rpm := mkrpm (p_lead p) (p_sig p) (p_hdr p) (p_archive p) 0 (zlen (p_payload p)).

(** The signature has the digest of the header and payload. *)
Definition package_has_md5 (L : libs) (p : package) : Prop :=
  lb_sig_md5 L (p_sig p) = Some (lb_md5 L (package_signed p)).

(** The header has an index entry for the payload format, a cpio archive is in the payload, compressed with the level
    that the header says, and librpm loads the signature. *)
Definition has_format_entry (h : list Z) : Prop := exists k, 0 <= k < be_val (slice h 0 4) /\ be_val (slice h (8 + 16 * k) 4) = 1124.
Definition cpio_target (L : libs) (p : package) (level : Z) : Prop :=
  has_format_entry (p_hdr p) /\ lb_string L (p_hdr p) 1124 = Some [99; 112; 105; 111] /\
  0 <= level <= 9 /\ lb_string L (p_hdr p) 1126 = Some [48 + level] /\
  lb_import L (p_sig p) <> None.

(** Compressing the archive again gives the payload, however it is handed to the codec. *)
Definition recompresses (L : libs) (p : package) (level : Z) : Prop :=
  p_comp p = 0 \/ forall ps, concat ps = p_archive p -> Forall (fun x => x <> []) ps ->
    enc_run (lb_codec L) (p_comp p) level [] ps = p_payload p.

(** The digest function gives 16 bytes. *)
Definition md5_16 (L : libs) : Prop := forall x, bytes (lb_md5 L x) /\ zlen (lb_md5 L x) = 16.

(** Options for deltas with a codec that is built in and a level from 0 (default) to 9; the add block
    for [n] bytes of data does not grow beyond 32 bits when it is compressed. *)
Record options_ok (L : libs) (o : make_options) (n : Z) : Prop := {
  op_version : 1 <= o_version o <= 3;
  op_comp : o_from_rpm o = true \/ ((o_comp o = 0 \/ real_comp (o_comp o)) /\ 0 <= o_level o <= 9);
  op_add : o_addblk o = true -> real_comp (o_acomp o) /\ 0 <= o_alevel o <= 9 /\
    forall ps, Forall bytes ps -> zlen (concat ps) <= n -> zlen (enc_run (lb_codec L) (o_acomp o) (o_alevel o) [] ps) < 2 ^ 32
}.

(** The copies of the diff can be counted in the delta: the sizes of the arrays of pairs are computed in 32 bits. *)
Definition few_copies (old new : list Z) (addblk : bool) : Prop :=
  forall r, make_diff old new addblk = Ok r -> zlen (dr_int r) < 2 ^ 29 /\ zlen (dr_ext r) < 2 ^ 29.

(** The old package of a standard delta: its files, whether they have colors, the digests used, and the entries of its
    archive, each once, of which those that are kept have proper digests, sizes and padding. *)
Record standard_source_ok (L : libs) (p : package) (files : list file_info) (colors sha : bool) (es : list entry) : Prop := {
  st_info : rpm_get_file_info L true (rpm_of p) = Ok (files, colors);
  st_algo : rpm_get_digest_algo L (rpm_of p) = Ok sha;
  st_files : zlen files < 2 ^ 32 /\ Forall wf_file files;
  st_entries : listing (p_archive p) 0 es /\ NoDup (map en_name es);
  st_digests : Forall (fun k => digest_ok sha (ke_file k)) (kept None files colors es);
  st_plain : Forall plain_entry (kept None files colors es) /\ Forall (zero_padded (p_archive p)) (kept None files colors es)
}.

(** [h] is the header of the target with the payload format changed: librpm can change it to and fro, and store it with
    a signature of its own. *)
Record standard_target_ok (L : libs) (p : package) (h : list Z) : Prop := {
  ta_to : lb_setfmt L (p_hdr p) [100; 114; 112; 109] = Some h;
  ta_fro : lb_setfmt L h [99; 112; 105; 111] = Some (p_hdr p);
  ta_readable : readable L h /\ whole_header h /\ has_format_entry h /\ zlen h + 8 < 2 ^ 31;
  ta_comp : exists s, lb_string L h 1125 = Some s /\
    In s [[103; 122; 105; 112]; [98; 122; 105; 112; 50]; [108; 122; 105; 112]; [108; 122; 109; 97]; [120; 122]; [122; 115; 116; 100]];
  ta_sig : forall size md5, readable L (lb_mksig L size md5) /\ zlen (lb_mksig L size md5) + zlen h < 2 ^ 32 - 200
}.

(** The adjustments of the offsets can be counted, too. *)
Definition few_adjustments (L : libs) (p : package) : Prop :=
  forall cpio sequence adjs, parse_cpio L None true (rpm_of p) = Ok (cpio, sequence, adjs) -> zlen adjs < 2 ^ 29.
