(** * Properties C04 (rest), C11, C29, C34, C38: parsing an archive while making a standard delta

    Specification vocabulary: [SpecArchive]. *)
From Coq Require Import String.
From Verif Require Import Base BaseLemmas Utils CpioHeader Rpm Seq Expand SeqFinal Archive SpecArchive
     ArchiveProofs ArchiveSafe ArchiveSeq ArchiveCases TextCases ToyLibs SpecApply ApplySafeCases.

(** C11: the parser computes the altered archive, the digest of the metadata of the files kept, and
    their encoded indices. *)
Theorem C11_parser_result : forall L unpatched offadj files colors sha r es,
  zlen (rp_archive r) < 2 ^ 32 -> zlen files < 2 ^ 32 -> Forall wf_file files ->
  listing (rp_archive r) 0 es ->
  let ks := kept unpatched files colors es in
  Forall (fun k => digest_ok sha (ke_file k)) ks ->
  (offadj = true -> close 0 0 (offsets (rp_archive r) 0 ks)) ->
  exists code adjs, seq_encode (map ke_index ks) = Ok code /\
    parse_cpio_files L unpatched offadj files colors sha r =
      Ok (altered (rp_archive r) ks, lb_md5 L (concat (map (fun k => meta (ke_file k)) ks)) ++ code, adjs) /\
    (offadj = false -> adjs = []) /\
    (offadj = true -> Forall (fun p => fst p = snd p + adj_sum 0 adjs (snd p)) (offsets (rp_archive r) 0 ks)).
Proof. exact parse_small. Qed.
Print Assumptions C11_parser_result.

(** The first two conditions on the archive are necessary. *)
Theorem C11_parser_accepts_only_listings : forall L unpatched offadj files colors sha r x,
  zlen (rp_archive r) < 2 ^ 32 -> zlen files < 2 ^ 32 -> Forall wf_file files ->
  parse_cpio_files L unpatched offadj files colors sha r = Ok x ->
  exists es, listing (rp_archive r) 0 es /\ Forall (fun k => digest_ok sha (ke_file k)) (kept unpatched files colors es).
Proof. exact parse_listed. Qed.
Print Assumptions C11_parser_accepts_only_listings.

(** C11: what making stores is accepted for the same file list, and the index obtained describes the
    altered archive. *)
Theorem C11_sequence_accepted : forall L unpatched offadj files colors sha r es,
  zlen (rp_archive r) < 2 ^ 32 -> zlen files < 2 ^ 32 -> Forall wf_file files ->
  (forall l, zlen (lb_md5 L l) = 16) ->
  listing (rp_archive r) 0 es ->
  let ks := kept unpatched files colors es in
  Forall (fun k => digest_ok sha (ke_file k)) ks ->
  (offadj = true -> close 0 0 (offsets (rp_archive r) 0 ks)) ->
  zlen ks <= zlen files -> Forall plain_entry ks ->
  exists cpio sequence adjs, parse_cpio_files L unpatched offadj files colors sha r = Ok (cpio, sequence, adjs) /\
    expand_sequence L None (Some sequence) files sha = Ok (layout (rp_archive r) 0 ks).
Proof. exact make_accepted. Qed.
Print Assumptions C11_sequence_accepted.

(** C11: a sequence that is accepted, with whatever check of the installed files, carries the digest of the
    metadata of the files it lists, and the check has passed for each of them that has contents. *)
Theorem C11_acceptance_meaning : forall L check sequence files sha idx, Forall wf_file files ->
  expand_sequence L check (Some sequence) files sha = Ok idx ->
  exists fs, Forall2 (fun i f => 0 <= i /\ nth_error files (Z.to_nat i) = Some f) (removelast (map cf_index idx)) fs /\
    seq_positions sequence (zlen files) = Ok (removelast (map cf_index idx)) /\
    lb_md5 L (concat (map meta fs)) = slice sequence 0 16 /\
    Forall (fun f => forall c, check = Some c -> S_ISREG (fi_mode f) = true -> fi_size f <> 0 ->
              c (fi_name f) sha (recorded f) (fi_size f) = Ok tt) fs.
Proof. exact accepted_inv. Qed.
Print Assumptions C11_acceptance_meaning.

(** Five members, three of them kept: a file, a link and a directory. *)
Example C11_case :
  Forall wf_file ex_files /\ listing ex_archive 0 ex_entries /\ zlen ex_entries = 5 /\
  map ke_index (kept None ex_files false ex_entries) = [0; 3; 2] /\
  Forall (fun k => digest_ok false (ke_file k)) (kept None ex_files false ex_entries) /\
  close 0 0 (offsets ex_archive 0 (kept None ex_files false ex_entries)) /\
  Forall plain_entry (kept None ex_files false ex_entries) /\
  offsets ex_archive 0 (kept None ex_files false ex_entries) = [(120, 0); (244, 124); (484, 244)] /\
  exists sequence,
    parse_cpio_files toylibs None true ex_files false false ex_rpm
      = Ok (altered ex_archive (kept None ex_files false ex_entries), sequence, [(0, 120); (244, 120)]) /\
    expand_sequence toylibs None (Some sequence) ex_files false
      = Ok [mkcf 0 116 8 0; mkcf 3 116 4 124; mkcf 2 116 0 244; mkcf (-1) 124 0 360] /\
    expand_sequence toylibs None (Some (0 :: tl sequence)) ex_files false = Err EMismatch.
Proof.
  split; [exact ex_wf|]. split; [exact ex_listing|]. split; [vm_compute; reflexivity|]. split; [vm_compute; reflexivity|].
  split; [|split; [|split; [|split; [vm_compute; reflexivity|]]]].
  - assert (E : map ke_file (kept None ex_files false ex_entries) = [nth 0 ex_files (ke_file (mken 0 [] 0 0, 0, mkfi [] 0 [] 0 0 0 0 [] 0)); nth 3 ex_files (mkfi [] 0 [] 0 0 0 0 [] 0); nth 2 ex_files (mkfi [] 0 [] 0 0 0 0 [] 0)])
      by (vm_compute; reflexivity).
    rewrite <- (Forall_map ke_file (digest_ok false)), E. cbn [nth ex_files]. repeat constructor.
    + intros _ _. exists (repeat 17 16). split; vm_compute; reflexivity.
    + intros H. discriminate H.
    + intros H. discriminate H.
  - assert (E : offsets ex_archive 0 (kept None ex_files false ex_entries) = [(120, 0); (244, 124); (484, 244)]) by (vm_compute; reflexivity).
    rewrite E. cbn [close]. change (120 - 0 =? 0) with false. cbn iota. split; [lia|]. change (244 - 124 =? 120 - 0) with true. cbn iota.
    change (484 - 244 =? 120 - 0) with false. cbn iota. split; [lia|exact I].
  - apply Forall_forall. intros k Hk.
    assert (H : forallb (fun k => if S_ISREG (fi_mode (ke_file k)) then fi_size (ke_file k) <=? 2 ^ 32 - 4
                                  else if S_ISLNK (fi_mode (ke_file k)) then zlen (fi_linkto (ke_file k)) <=? 2 ^ 32 - 4
                                  else en_size (ke_entry k) =? 0) (kept None ex_files false ex_entries) = true)
      by (vm_compute; reflexivity).
    rewrite forallb_forall in H. specialize (H k Hk). unfold plain_entry.
    destruct (S_ISREG _); [lia|]. destruct (S_ISLNK _); lia.
  - eexists. split; [vm_compute; reflexivity|]. split; vm_compute; reflexivity.
Qed.

(** C11: library directories, for files with a color. *)
Theorem C11_library_directories : forall path, IN_MULTILIB_DIR path = true <-> in_dir "lib/" path \/ in_dir "lib32/" path \/ in_dir "lib64/" path.
Proof. exact multilib_spec. Qed.
Print Assumptions C11_library_directories.

(** The bytes of an archive, and what becomes of them if colors count: all but "/bin/b" are kept. *)
Example C11_case_text :
  match parse_cpio_files toylibs None false text_files true false (mkrpm [] [] [] text_archive 0 0) with
  | Ok (cpio, _, _) => cpio = text (
      "070701" ++ "00000000" ++ "000081a4" ++ "00000000" ++ "00000000" ++ "00000001" ++ "00000000" ++ "00000002" ++ "00000000" ++ "00000000" ++ "00000000" ++ "00000000" ++ "0000000e" ++ "00000000"
      ++ "./usr/lib32/a~" ++ "xy~~" ++
      "070701" ++ "00000000" ++ "000081a4" ++ "00000000" ++ "00000000" ++ "00000001" ++ "00000000" ++ "00000002" ++ "00000000" ++ "00000000" ++ "00000000" ++ "00000000" ++ "0000000e" ++ "00000000"
      ++ "./usr/lib64/c~" ++ "vw~~" ++
      "070701" ++ "00000000" ++ "000081a4" ++ "00000000" ++ "00000000" ++ "00000001" ++ "00000000" ++ "00000002" ++ "00000000" ++ "00000000" ++ "00000000" ++ "00000000" ++ "00000008" ++ "00000000"
      ++ "./lib/d~~~" ++ "pq~~" ++
      "070701" ++ "00000000" ++ "0000a1ff" ++ "00000000" ++ "00000000" ++ "00000001" ++ "00000000" ++ "00000003" ++ "00000000" ++ "00000000" ++ "00000000" ++ "00000000" ++ "00000004" ++ "00000000"
      ++ "./e~~~" ++ "lnk~" ++
      "070701" ++ "00000000" ++ "000061a4" ++ "00000000" ++ "00000000" ++ "00000001" ++ "00000000" ++ "00000000" ++ "00000000" ++ "00000000" ++ "00000008" ++ "00000001" ++ "00000004" ++ "00000000"
      ++ "./f~~~" ++
      "070701" ++ "00000000" ++ "00000000" ++ "00000000" ++ "00000000" ++ "00000001" ++ "00000000" ++ "00000000" ++ "00000000" ++ "00000000" ++ "00000000" ++ "00000000" ++ "0000000b" ++ "00000000"
      ++ "TRAILER!!!~~~~")%string
  | _ => False
  end.
Proof. vm_compute. reflexivity. Qed.

(** C11, C15: false for a directory entry that has contents: making copies them into the
    altered archive, but the index obtained from the sequence does not account for them. *)
Theorem C11_directory_contents_refuted : exists files r es,
  Forall wf_file files /\ listing (rp_archive r) 0 es /\
  exists cpio sequence idx, parse_cpio_files toylibs None false files false false r = Ok (cpio, sequence, []) /\
    expand_sequence toylibs None (Some sequence) files false = Ok idx /\
    cpio = altered (rp_archive r) (kept None files false es) /\
    idx <> layout (rp_archive r) 0 (kept None files false es).
Proof.
  exists ex_files, odd_rpm, [mken 0 [100] 116 4]. split; [exact ex_wf|].
  split; [apply (read_listing_ok _ 10); vm_compute; reflexivity|].
  do 3 eexists. split; [vm_compute; reflexivity|]. split; [vm_compute; reflexivity|]. split; vm_compute; [reflexivity|discriminate].
Qed.
Print Assumptions C11_directory_contents_refuted.

(** C29: every kept entry's original offset is its altered offset plus the adjustments recorded up to there. *)
Theorem C29_offset_adjustments : forall L unpatched files colors sha r es,
  zlen (rp_archive r) < 2 ^ 32 -> zlen files < 2 ^ 32 -> Forall wf_file files ->
  listing (rp_archive r) 0 es ->
  let ks := kept unpatched files colors es in
  Forall (fun k => digest_ok sha (ke_file k)) ks ->
  close 0 0 (offsets (rp_archive r) 0 ks) ->
  exists cpio sequence adjs, parse_cpio_files L unpatched true files colors sha r = Ok (cpio, sequence, adjs) /\
    forall original a, In (original, a) (offsets (rp_archive r) 0 ks) -> original = a + adj_sum 0 adjs a.
Proof. exact offsets_recovered. Qed.
Print Assumptions C29_offset_adjustments.

Example C29_case : adj_sum 0 [(0, 120); (244, 120)] 0 = 120 /\ adj_sum 0 [(0, 120); (244, 120)] 124 = 120 /\
  adj_sum 0 [(0, 120); (244, 120)] 244 = 240 /\
  (** shrinking: the second component is a 32-bit pattern *)
  offadj_loop (offadj_fuel 50 20) [] 0 50 0 20 = Ok ([(50, 2 ^ 32 - 30)], 32) /\
  (** more than 2 GiB at once *)
  offadj_loop (offadj_fuel (2 ^ 31 + 7) (2 ^ 33)) [] 0 (2 ^ 31 + 7) 0 (2 ^ 33)
    = Ok ([(2 ^ 31 - 1, 0); (8, 2 ^ 31 - 1); (0, 2 ^ 31 - 1); (0, 2 ^ 31 - 5)], 32).
Proof. vm_compute. repeat split; reflexivity. Qed.

(** C29: without the bound on the gap it is false: the gap is taken modulo 2^32. *)
Theorem C29_large_gap_refuted : exists len prev pos adjs cap,
  prev <= len /\ offadj_loop (offadj_fuel len pos) [] 0 len prev pos = Ok (adjs, cap) /\
  fold_right Z.add 0 (map fst adjs) <> len - prev /\ adj_sum prev adjs (len - 1) <> 0.
Proof.
  exists (2 ^ 32 + 5), 0, 0, [(5, 1 + 2 ^ 31); (0, 1 + 2 ^ 31); (0, u32 (-7))], 32.
  split; [lia|]. split; [vm_compute; reflexivity|]. split; vm_compute; discriminate.
Qed.
Print Assumptions C29_large_gap_refuted.

(** C04: every adjustment the parser emits is preserved by the encoding of the format. *)
Theorem C04_adjustments_survive : forall L unpatched offadj files colors sha r cpio sequence adjs,
  zlen (rp_archive r) < 2 ^ 32 -> zlen files < 2 ^ 32 -> Forall wf_file files ->
  parse_cpio_files L unpatched offadj files colors sha r = Ok (cpio, sequence, adjs) ->
  Forall (fun a => 0 <= fst a < 2 ^ 31 /\ 0 <= snd a < 2 ^ 32 /\ s32 (snd a) <> - 2 ^ 31) adjs.
Proof. exact adjustments_survive. Qed.
Print Assumptions C04_adjustments_survive.

(** C38: nothing undefined happens while parsing any archive below 4 GiB in which no header
    declares an empty name (and digests fit their buffer). *)
Theorem C38_parser_safe_partial : forall L unpatched offadj files colors sha r,
  zlen (rp_archive r) < 2 ^ 32 -> zlen files < 2 ^ 32 -> Forall wf_file files -> Forall (fun f => zlen (fi_md5 f) <= 65) files ->
  (forall o size, ~ header_at (rp_archive r) o 0 size) ->
  defined (parse_cpio_files L unpatched offadj files colors sha r).
Proof. exact parse_defined. Qed.
Print Assumptions C38_parser_safe_partial.

(** An archive that is parsed, and its first 500 bytes, which are not. *)
Example C38_case : zlen ex_archive < 2 ^ 32 /\ zlen ex_files < 2 ^ 32 /\ Forall wf_file ex_files /\ Forall (fun f => zlen (fi_md5 f) <= 65) ex_files /\
  (forall o size, ~ header_at ex_archive o 0 size) /\
  (exists cpio sequence adjs, parse_cpio_files toylibs None true ex_files false false (mkrpm [] [] [] ex_archive 0 0) = Ok (cpio, sequence, adjs) /\ zlen cpio = 484) /\
  parse_cpio_files toylibs None true ex_files false false (mkrpm [] [] [] (slice ex_archive 0 500) 0 0) = Err EFormat.
Proof.
  destruct ex_sound as [S1 S2 S3 S4]. split; [vm_compute; reflexivity|]. split; [exact S3|]. split; [exact S1|]. split; [exact S2|]. split; [exact S4|].
  split; [do 3 eexists; split; vm_compute; reflexivity|vm_compute; reflexivity].
Qed.

(** C38 is false for a header that declares an empty name. *)
Theorem C38_empty_name_refuted : exists files r,
  parse_cpio_files toylibs None false files false false r = Ub OobWrite.
Proof. exists ex_files, nameless_rpm. vm_compute. reflexivity. Qed.
Print Assumptions C38_empty_name_refuted.

(** C34: an array that grows by the threshold whenever its length is a multiple of it has room for the next
    element (of [width] words). *)
Theorem C34_grown_array : forall threshold width k,
  0 < width -> 0 < threshold -> threshold mod width = 0 ->
  width * Z.of_nat k + width <= caps threshold width (S k).
Proof. exact caps_ok. Qed.
Print Assumptions C34_grown_array.

Example C34_case : map (caps 16 2) [1; 8; 9; 17]%nat = [16; 16; 32; 48] /\ (2 * Z.of_nat 8 + 2 <= caps 16 2 9).
Proof. split; vm_compute; [reflexivity|discriminate]. Qed.

(** C34: the archive buffer has room for every history of appends. *)
Theorem C34_archive_buffer : forall parts, zlen (concat parts) < 2 ^ 63 ->
  exists cap, cpio_extends (mkgb [] 0) parts = Ok (mkgb (concat parts) cap) /\ zlen (concat parts) <= cap.
Proof. exact buffer_ok. Qed.
Print Assumptions C34_archive_buffer.

(** C34: so have the sequence buffer ... *)
Theorem C34_sequence_buffer : forall l, Forall (fun i => 0 <= i < 2 ^ 32) l ->
  exists code, seq_encode l = Ok code /\ 2 * zlen code <= 36 * zlen l + 13.
Proof. exact encode_bound. Qed.
Print Assumptions C34_sequence_buffer.

(** ... and the adjustment array, for every history of displacements. *)
Theorem C34_adjustment_array : forall calls, exists adj cap, adjust_all calls [] 0 = Ok (adj, cap).
Proof. exact adjust_ok. Qed.
Print Assumptions C34_adjustment_array.

Example C34_buffers :
  match cpio_extends (mkgb [] 0) [repeat 1 500; [2]; repeat 3 (Z.to_nat 65036)] with Ok g => gb_cap g | _ => 0 end = 131072 /\
  adjust_all (repeat (10, 0, 30) 17) [] 0 = Ok (repeat (10, 20) 17, 64).
Proof. split; vm_compute; reflexivity. Qed.
