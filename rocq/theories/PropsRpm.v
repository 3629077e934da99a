(** * PropsRpm: the parts of an RPM file and what its header says (C50) *)
From Coq Require Import String.
From Verif Require Import Base SpecCodec Rpm SpecMake TextCases SpecRpm RpmProofs RpmCases.

(** C50: reading a file without decompression succeeds exactly if it has the parts that RPM files have, and returns just
    these; the two digests are those of header and payload, and of the whole file. *)
Theorem C50_parts : forall L, headers_inside L -> forall file mode want r comp seq full, mode <> ReadDecomp ->
  rpm_read L file mode want = Ok (r, comp, seq, full) <->
  exists payload, let archive := match mode with ReadUncomp => payload | _ => [] end in
    parts L file (rp_lead r) (rp_sig r) (rp_hdr r) payload /\ rp_archive r = archive /\
    rp_off r = 0 /\ rp_csize r = zlen archive /\ comp = 0 /\
    seq = lb_md5 L (mark ++ rp_hdr r ++ archive) /\
    full = lb_md5 L (front (rp_lead r) (rp_sig r) ++ mark ++ rp_hdr r ++ archive).
Proof. exact read_split. Qed.
Print Assumptions C50_parts.

(** C50: every other file is refused as malformed. *)
Theorem C50_refused : forall L file mode want, mode <> ReadDecomp ->
  (exists x, rpm_read L file mode want = Ok x) \/ rpm_read L file mode want = Err EFormat.
Proof. exact read_or_refuse. Qed.
Print Assumptions C50_refused.

Example C50_parts_case : headers_inside text_libs /\
  (exists r seq full, rpm_read text_libs text_rpm ReadUncomp false = Ok (r, 0, seq, full) /\
     rp_archive r = text "payload" /\ rp_csize r = 7 /\ slice (rp_hdr r) 24 3 = text "hdr" /\ slice (rp_sig r) 8 3 = text "sig") /\
  rpm_read text_libs (217 :: tl text_rpm) ReadUncomp false = Err EFormat /\
  rpm_read text_libs (slice text_rpm 0 150) ReadUncomp false = Err EFormat.
Proof. exact parts_case. Qed.

(** C50: the compressor is what tag 1125 names, out of six; everything else is an error. *)
Theorem C50_compressor : forall L r code, rpm_get_comp L r = Ok code <-> named L (rp_hdr r) 1125 compressors code.
Proof. exact comp_table. Qed.
Print Assumptions C50_compressor.
Theorem C50_compressor_refused : forall L r, (exists code, rpm_get_comp L r = Ok code) \/ rpm_get_comp L r = Err EFormat.
Proof. exact comp_refused. Qed.
Print Assumptions C50_compressor_refused.

(** C50: the payload format is what tag 1124 names, out of three. *)
Theorem C50_format : forall L r code, rpm_get_payload_format L r = Ok code <-> named L (rp_hdr r) 1124 formats code.
Proof. exact format_table. Qed.
Print Assumptions C50_format.

(** C50: the level is the number that tag 1126 gives with one or two digits; longer texts are refused. *)
Theorem C50_level_partial : forall L r,
  (forall a, digit a -> lb_string L (rp_hdr r) 1126 = Some [a] -> rpm_get_comp_level L r = Ok (a - 48)) /\
  (forall a b, digit a -> digit b -> lb_string L (rp_hdr r) 1126 = Some [a; b] -> rpm_get_comp_level L r = Ok (10 * (a - 48) + (b - 48))) /\
  (forall s, 2 < zlen s -> lb_string L (rp_hdr r) 1126 = Some s -> rpm_get_comp_level L r = Err EFormat) /\
  (lb_string L (rp_hdr r) 1126 = None -> rpm_get_comp_level L r = Err EFormat).
Proof. exact level_digits. Qed.
Print Assumptions C50_level_partial.

(** C50 is false for short texts that are not numbers (no error, level 0 or one that wrapped around) and for the texts of
    packages compressed by several threads, such as "19T8" (an error). *)
Theorem C50_level_refuted : exists L r1 r2 r3,
  lb_string L (rp_hdr r1) 1126 = Some (text "T0") /\ rpm_get_comp_level L r1 = Ok 0 /\
  lb_string L (rp_hdr r2) 1126 = Some (text "-1") /\ rpm_get_comp_level L r2 = Ok 65535 /\
  lb_string L (rp_hdr r3) 1126 = Some (text "19T8") /\ rpm_get_comp_level L r3 = Err EFormat.
Proof. exact level_case. Qed.
Print Assumptions C50_level_refuted.

(** C50: the position of the payload format is the one in the first index entry with tag 1124; without such an entry there
    is an error. *)
Theorem C50_entry : forall r, whole_header (rp_hdr r) -> zlen (rp_hdr r) < 2 ^ 31 - 8 ->
  (forall k, 0 <= k < entries (rp_hdr r) -> entry_tag (rp_hdr r) k = 1124 -> (forall j, 0 <= j < k -> entry_tag (rp_hdr r) j <> 1124) ->
     rpm_find_payload_format_offset r = Ok (entry_pos (rp_hdr r) k)) /\
  ((forall k, 0 <= k < entries (rp_hdr r) -> entry_tag (rp_hdr r) k <> 1124) -> rpm_find_payload_format_offset r = Err EFormat).
Proof. exact format_entry. Qed.
Print Assumptions C50_entry.

Example C50_entry_case : whole_header (rp_hdr three_entries) /\ entries (rp_hdr three_entries) = 3 /\
  entry_tag (rp_hdr three_entries) 0 <> 1124 /\ entry_tag (rp_hdr three_entries) 1 = 1124 /\ entry_tag (rp_hdr three_entries) 2 = 1124 /\
  rpm_find_payload_format_offset three_entries = Ok 7.
Proof. exact entry_case. Qed.

(** C50: the table of files has one row for each file, put together from the eight columns; columns of different lengths
    are an error, a missing column means that there are no files.  Colors are looked at only when they are asked for. *)
Theorem C50_files : forall L want r, let t := lb_files L (rp_hdr r) in
  (forall n, columns t n -> (want = true -> forall l, ft_colors t = Some l -> zlen l = n) ->
     exists files, rpm_get_file_info L want r = Ok (files, want && match ft_colors t with Some _ => true | None => false end) /\
       zlen files = n /\ forall k f, nth_error files k = Some f <-> same_row t k f) /\
  (complete t -> (~ exists n, columns t n) -> rpm_get_file_info L want r = Err EFormat) /\
  (forall n l, columns t n -> want = true -> ft_colors t = Some l -> zlen l <> n -> rpm_get_file_info L want r = Err EFormat) /\
  (~ complete t -> rpm_get_file_info L want r = Ok ([], false)).
Proof. exact files_table. Qed.
Print Assumptions C50_files.

Example C50_files_case : columns (lb_files text_libs [2]) 2 /\ ft_colors (lb_files text_libs [2]) = Some [1] /\
  rpm_get_file_info text_libs true (mkrpm [] [] [2] [] 0 0) = Err EFormat /\
  (exists f g, rpm_get_file_info text_libs false (mkrpm [] [] [2] [] 0 0) = Ok ([f; g], false) /\ fi_name g = text "/b" /\ fi_size g = 9) /\
  ~ complete (lb_files text_libs [3]) /\ rpm_get_file_info text_libs true (mkrpm [] [] [3] [] 0 0) = Ok ([], false).
Proof. exact files_case. Qed.
