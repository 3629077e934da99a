(** * Rpm: model of /repo/src/drpm_rpm.c

    librpm and the digest functions are parameters.  A librpm [Header] object is represented by
    the bytes [headerExport] gives for it (without the 8 magic bytes); [headerSizeof] with
    magic is then 8 plus their number.  Files are byte strings.  Lack of memory and input/output
    errors are not modelled. *)
From Verif Require Import Base Utils DeltaComp Stream.

(** File entries, drpm_private.h lines 320-330. *)
Record file_info := mkfi {
  fi_name : list Z; fi_flags : Z; fi_md5 : list Z; fi_rdev : Z; fi_size : Z;
  fi_mode : Z; fi_verify : Z; fi_linkto : list Z; fi_color : Z
}.

(** The file tags of a header; [None] when a tag is missing. *)
Record file_tags := mkft {
  ft_names : option (list (list Z)); ft_flags : option (list Z); ft_md5s : option (list (list Z));
  ft_rdevs : option (list Z); ft_sizes : option (list Z); ft_modes : option (list Z);
  ft_verify : option (list Z); ft_linktos : option (list (list Z)); ft_colors : option (list Z)
}.

(** External libraries.
    [lb_read]: [headerRead] with magic on the given input: the header and the number of
    bytes consumed.  [lb_import]: [headerImport] of a blob.  [lb_string]: [headerGetString].
    [lb_nevr]: [headerGetAsString] of the NEVR.  [lb_algo]: first value of FILEDIGESTALGO, if the
    tag is there.  [lb_sig_md5]: the data of the MD5 tag of a signature.  [lb_mksig size md5]: a
    reloaded signature with just these two tags.  [lb_setfmt]: the header with its payload format
    replaced (unloading and reloading the immutable region). *)
Record libs := mklibs {
  lb_codec : codec;
  lb_md5 : list Z -> list Z;
  lb_sha256 : list Z -> list Z;
  lb_read : list Z -> option (list Z * Z);
  lb_import : list Z -> option (list Z);
  lb_string : list Z -> Z -> option (list Z);
  lb_nevr : list Z -> list Z;
  lb_algo : list Z -> option Z;
  lb_sig_md5 : list Z -> option (list Z);
  lb_mksig : Z -> list Z -> list Z;
  lb_setfmt : list Z -> list Z -> option (list Z);
  lb_files : list Z -> file_tags
}.

(** [struct rpm], drpm_rpm.c lines 44-52. *)
Record rpm := mkrpm {
  rp_lead : list Z; rp_sig : list Z; rp_hdr : list Z;
  rp_archive : list Z; rp_off : Z; rp_csize : Z
}.

Definition RPMLEAD_SIZE : Z := 96.                      (** drpm_rpm.c line 42 *)
Definition HEADER_MAGIC : list Z := [142; 173; 232; 1; 0; 0; 0; 0].  (** librpm's [rpm_header_magic] *)
Definition MAGIC_RPM_BYTES : list Z := [237; 171; 238; 219].         (** drpm_rpm.c line 251 *)
Definition RPM_LEADSIG_MIN_LEN : Z := 112.              (** drpm_private.h line 60 *)

(** [PADDING], drpm_private.h line 57. *)
Definition padding (offset align : Z) : Z := (align - offset mod align) mod align.

Definition zeros (n : Z) : list Z := repeat 0 (Z.to_nat n).

(** [rpm_export_signature], drpm_rpm.c lines 87-121. *)
Definition rpm_export_signature (r : rpm) : list Z :=
  HEADER_MAGIC ++ rp_sig r ++ zeros (padding (8 + zlen (rp_sig r)) 8).

(** [rpm_export_header], drpm_rpm.c lines 123-145. *)
Definition rpm_export_header (r : rpm) : list Z := HEADER_MAGIC ++ rp_hdr r.

(** Everything from [off] on. *)
Definition from {A} (l : list A) (off : Z) : list A := skipn (Z.to_nat off) l.

Section Rpm.
Variable L : libs.

(** Archive modes, drpm_private.h lines 46-48. *)
Inductive archive_mode := DontRead | ReadUncomp | ReadDecomp.

(** [rpm_read_archive], drpm_rpm.c lines 177-236: archive, its size on disk, detected codec, and
    what the two MD5 contexts are updated with (when decompressing, the full MD5 is only updated
    if no sequence MD5 is wanted). *)
Definition rpm_read_archive (file : list Z) (offset : Z) (decompress want_seq : bool)
  : res (list Z * Z * Z * list Z * list Z) :=
  if decompress then
    s <- decompstrm_init true (from file offset) ;;
    '(s', archive) <- decompstrm_read_until_eof (lb_codec L) s ;;
    let m := ds_md5 s' in
    Ok (archive, ds_csize s', ds_comp s, if want_seq then m else [], if want_seq then [] else m)
  else
    let a := from file offset in Ok (a, zlen a, COMP_NONE, a, a).

(** [rpm_read], drpm_rpm.c lines 245-353.  Results: the RPM, the codec (only meaningful when
    decompressing), the MD5 of header and archive, the MD5 of everything. *)
Definition rpm_read (file : list Z) (mode : archive_mode) (want_seq : bool)
  : res (rpm * Z * list Z * list Z) :=
  let lead := slice file 0 RPMLEAD_SIZE in
  if negb (zlen lead =? RPMLEAD_SIZE) || negb (list_eqb (slice lead 0 4) MAGIC_RPM_BYTES)
  then Err EFormat
  else match lb_read L (from file RPMLEAD_SIZE) with
  | None => Err EFormat
  | Some (sig, n) =>
      let pos := RPMLEAD_SIZE + n in
      let pos := pos + padding pos 8 in
      match lb_read L (from file pos) with
      | None => Err EFormat
      | Some (hdr, m) =>
          let r := mkrpm lead sig hdr [] 0 0 in
          '(archive, csize, comp, sm, fm) <-
            match mode with
            | DontRead => Ok ([], 0, COMP_NONE, [], [])
            | ReadUncomp => rpm_read_archive file (pos + m) false want_seq
            | ReadDecomp => rpm_read_archive file (pos + m) true want_seq
            end ;;
          Ok (mkrpm lead sig hdr archive 0 csize, comp,
              lb_md5 L (rpm_export_header r ++ sm),
              lb_md5 L (lead ++ rpm_export_signature r ++ rpm_export_header r ++ fm))
      end
  end.

(** [rpm_archive_read_chunk], drpm_rpm.c lines 369-383. *)
Definition rpm_archive_read_chunk (r : rpm) (count : Z) : res (rpm * list Z) :=
  if zlen (rp_archive r) <? u64 (rp_off r + count) then Err EFormat
  else
    b <- rd_range (rp_archive r) (rp_off r) count ;;
    Ok (mkrpm (rp_lead r) (rp_sig r) (rp_hdr r) (rp_archive r) (u64 (rp_off r + count)) (rp_csize r), b).

(** [rpm_archive_rewind], drpm_rpm.c lines 386-394. *)
Definition rpm_archive_rewind (r : rpm) : rpm :=
  mkrpm (rp_lead r) (rp_sig r) (rp_hdr r) (rp_archive r) 0 (rp_csize r).

(** [rpm_size_full], drpm_rpm.c lines 398-408: the result is [uint32_t]. *)
Definition rpm_size_full (r : rpm) : Z :=
  let sig_size := 8 + zlen (rp_sig r) in
  u32 (RPMLEAD_SIZE + sig_size + padding sig_size 8 + (8 + zlen (rp_hdr r)) + rp_csize r).

(** [rpm_size_header], drpm_rpm.c lines 411-417. *)
Definition rpm_size_header (r : rpm) : Z := u32 (8 + zlen (rp_hdr r)).

(** [rpm_fetch_lead_and_signature], drpm_rpm.c lines 420-450; [rpm_fetch_header], lines 453-464;
    [rpm_fetch_archive], lines 467-479. *)
Definition rpm_fetch_lead_and_signature (r : rpm) : list Z := rp_lead r ++ rpm_export_signature r.
Definition rpm_fetch_header (r : rpm) : list Z := rpm_export_header r.
Definition rpm_fetch_archive (r : rpm) : list Z := rp_archive r.

(** [rpm_write], drpm_rpm.c lines 485-547: content of the file and MD5 of what was written
    (without lead and signature unless [full_md5]). *)
Definition rpm_write (r : rpm) (include_archive full_md5 : bool) : list Z * list Z :=
  let a := if include_archive then rp_archive r else [] in
  (rp_lead r ++ rpm_export_signature r ++ rpm_export_header r ++ a,
   lb_md5 L ((if full_md5 then rp_lead r ++ rpm_export_signature r else [])
             ++ rpm_export_header r ++ a)).

(** [rpm_replace_lead_and_signature], drpm_rpm.c lines 550-568.  [headerImport] without a size
    takes the size of the blob from its first eight bytes (number of entries, size of
    data). *)
Definition rpm_replace_lead_and_signature (r : rpm) (leadsig : list Z) : res rpm :=
  if zlen leadsig <? RPM_LEADSIG_MIN_LEN then Err EProg
  else if negb (list_eqb (slice leadsig RPMLEAD_SIZE 4) (slice HEADER_MAGIC 0 4)) then Err EFormat
  else
    il <- parse_be32_at leadsig 104 ;;
    dl <- parse_be32_at leadsig 108 ;;
    blob <- rd_range leadsig 104 (8 + il * 16 + dl) ;;
    match lb_import L blob with
    | None => Err EFormat
    | Some sig => Ok (mkrpm (slice leadsig 0 RPMLEAD_SIZE) sig (rp_hdr r) (rp_archive r)
                            (rp_off r) (rp_csize r))
    end.

(** Tags, librpm. *)
Definition RPMTAG_SOURCERPM : Z := 1044.
Definition RPMTAG_PAYLOADFORMAT : Z := 1124.
Definition RPMTAG_PAYLOADCOMPRESSOR : Z := 1125.
Definition RPMTAG_PAYLOADFLAGS : Z := 1126.

(** [rpm_is_sourcerpm], drpm_rpm.c lines 571-574. *)
Definition rpm_is_sourcerpm (r : rpm) : bool :=
  match lb_string L (rp_hdr r) RPMTAG_SOURCERPM with None => true | Some _ => false end.

(** [rpm_get_nevr], drpm_rpm.c lines 577-586. *)
Definition rpm_get_nevr (r : rpm) : list Z := lb_nevr L (rp_hdr r).

Definition str_gzip : list Z := [103; 122; 105; 112].
Definition str_bzip2 : list Z := [98; 122; 105; 112; 50].
Definition str_lzip : list Z := [108; 122; 105; 112].
Definition str_lzma : list Z := [108; 122; 109; 97].
Definition str_xz : list Z := [120; 122].
Definition str_zstd : list Z := [122; 115; 116; 100].
Definition str_drpm : list Z := [100; 114; 112; 109].
Definition str_cpio : list Z := [99; 112; 105; 111].
Definition str_xar : list Z := [120; 97; 114].

(** [rpm_get_comp], drpm_rpm.c lines 589-616. *)
Definition rpm_get_comp (r : rpm) : res Z :=
  match lb_string L (rp_hdr r) RPMTAG_PAYLOADCOMPRESSOR with
  | None => Err EFormat
  | Some s =>
      if list_eqb s str_gzip then Ok COMP_GZIP
      else if list_eqb s str_bzip2 then Ok COMP_BZIP2
      else if list_eqb s str_lzip then Ok COMP_LZIP
      else if list_eqb s str_lzma then Ok COMP_LZMA
      else if list_eqb s str_xz then Ok COMP_XZ
      else if list_eqb s str_zstd then Ok COMP_ZSTD
      else Err EFormat
  end.

(** [atoi] on strings of at most two characters: optional white space and sign, then digits. *)
Fixpoint atoi_digits (acc : Z) (s : list Z) : Z :=
  match s with
  | c :: r => if isdigit c then atoi_digits (acc * 10 + (c - 48)) r else acc
  | [] => acc
  end.
Definition isspace (c : Z) : bool := (c =? 32) || ((9 <=? c) && (c <=? 13)).
Fixpoint atoi (s : list Z) : Z :=
  match s with
  | c :: r =>
      if isspace c then atoi r
      else if c =? 45 then - atoi_digits 0 r
      else if c =? 43 then atoi_digits 0 r
      else atoi_digits 0 s
  | [] => 0
  end.

(** [rpm_get_comp_level], drpm_rpm.c lines 619-637: the level is stored in an
    [unsigned short]. *)
Definition rpm_get_comp_level (r : rpm) : res Z :=
  match lb_string L (rp_hdr r) RPMTAG_PAYLOADFLAGS with
  | None => Err EFormat
  | Some s => if 2 <? zlen s then Err EFormat else Ok (u16 (atoi s))
  end.

(** [rpm_get_digest_algo], drpm_rpm.c lines 640-678: false is MD5, true is SHA-256. *)
Definition rpm_get_digest_algo (r : rpm) : res bool :=
  match lb_algo L (rp_hdr r) with
  | None => Ok false
  | Some a => if a =? 1 then Ok false else if a =? 8 then Ok true else Err EFormat
  end.

(** [rpm_get_payload_format], drpm_rpm.c lines 681-702; 0 drpm, 1 cpio, 2 xar. *)
Definition rpm_get_payload_format (r : rpm) : res Z :=
  match lb_string L (rp_hdr r) RPMTAG_PAYLOADFORMAT with
  | None => Err EMemory
  | Some s => if list_eqb s str_drpm then Ok 0 else if list_eqb s str_cpio then Ok 1
              else if list_eqb s str_xar then Ok 2 else Err EFormat
  end.

(** [rpm_patch_payload_format], drpm_rpm.c lines 705-721. *)
Definition rpm_patch_payload_format (r : rpm) (fmt : list Z) : res rpm :=
  match lb_setfmt L (rp_hdr r) fmt with
  | None => Err EFormat
  | Some h => Ok (mkrpm (rp_lead r) (rp_sig r) h (rp_archive r) (rp_off r) (rp_csize r))
  end.

(** Loop of [rpm_get_file_info], drpm_rpm.c lines 795-834. *)
Fixpoint file_infos (names : list (list Z)) (flags : list Z) (md5s : list (list Z))
  (rdevs sizes modes verify : list Z) (linktos : list (list Z)) (colors : list Z) : list file_info :=
  match names, flags, md5s, rdevs, sizes, modes, verify, linktos with
  | n :: names, f :: flags, m :: md5s, d :: rdevs, z :: sizes, o :: modes, v :: verify, l :: linktos =>
      mkfi n f m d z o v l (hd 0 colors)
      :: file_infos names flags md5s rdevs sizes modes verify linktos (tl colors)
  | _, _, _, _, _, _, _, _ => []
  end.

(** [rpm_get_file_info], drpm_rpm.c lines 724-873: files and whether there are colors; [want] tells that
    the pointer to where the latter goes is not NULL, otherwise the colors are not looked at.  Simplified: the
    colors of the files are set even then (they are 0 in the code; no caller without [want] reads them). *)
Definition rpm_get_file_info (want : bool) (r : rpm) : res (list file_info * bool) :=
  let t := lb_files L (rp_hdr r) in
  match ft_names t, ft_flags t, ft_md5s t, ft_rdevs t, ft_sizes t, ft_modes t, ft_verify t, ft_linktos t with
  | Some names, Some flags, Some md5s, Some rdevs, Some sizes, Some modes, Some verify, Some linktos =>
      let n := zlen names in
      let colors := want && match ft_colors t with Some _ => true | None => false end in
      let cl := match ft_colors t with Some c => c | None => [] end in
      if negb (n =? zlen flags) || negb (n =? zlen md5s) || negb (n =? zlen rdevs)
         || negb (n =? zlen sizes) || negb (n =? zlen modes) || negb (n =? zlen verify)
         || negb (n =? zlen linktos) || (colors && negb (n =? zlen cl))
      then Err EFormat
      else Ok (file_infos names flags md5s rdevs sizes modes verify linktos cl, colors)
  | _, _, _, _, _, _, _, _ => Ok ([], false)
  end.

(** Loop of [rpm_find_payload_format_offset], drpm_rpm.c lines 893-901; [i], [off] are
    [uint32_t]. *)
Fixpoint payload_format_loop (fuel : nat) (header : list Z) (count i off : Z) : res Z :=
  if (i <? count) && (u32 (off + 16) <=? zlen header) then
    match fuel with
    | O => NoFuel
    | S f =>
        tag <- parse_be32_at header off ;;
        if tag =? RPMTAG_PAYLOADFORMAT then parse_be32_at header (off + 8)
        else payload_format_loop f header count (u32 (i + 1)) (u32 (off + 16))
    end
  else Err EFormat.

(** [rpm_find_payload_format_offset], drpm_rpm.c lines 876-906. *)
Definition rpm_find_payload_format_offset (r : rpm) : res Z :=
  let header := rpm_export_header r in
  count <- parse_be32_at header 8 ;;
  payload_format_loop (S (length header)) header count 0 16.

(** [rpm_signature_empty], [rpm_signature_set_size], [rpm_signature_set_md5],
    [rpm_signature_reload], drpm_rpm.c lines 909-971, always called in this order. *)
Definition rpm_signature_make (r : rpm) (size : Z) (md5 : list Z) : rpm :=
  mkrpm (rp_lead r) (lb_mksig L (u32 size) md5) (rp_hdr r) (rp_archive r) (rp_off r) (rp_csize r).

(** [rpm_signature_get_md5], drpm_rpm.c lines 974-998. *)
Definition rpm_signature_get_md5 (r : rpm) : res (option (list Z)) :=
  match lb_sig_md5 L (rp_sig r) with
  | None => Ok None
  | Some m => if zlen m =? 16 then Ok (Some m) else Err EFormat
  end.

End Rpm.
