{"claims": [
 {"property": "C01", "status": "proved", "theorems": ["C01_diff_patch_roundtrip", "C01_diff_patch_roundtrip_large_old"], "note": "new data below 2 GiB"},
 {"property": "C02", "status": "proved", "theorems": ["C02_search_sound", "C02_diff_total", "C02_short_new_refuted"], "note": "new data of 1 to 15 bytes is out of range and reads out of bounds"},
 {"property": "C03", "status": "partial", "theorems": ["C03_extents_denoted_partial", "C03_two_gib_extent_refuted"], "note": "false for old extents of 2 GiB or more"},
 {"property": "C04", "status": "proved", "theorems": ["C04_signed_codec", "C04_int_min_lost", "C04_ext_never_int_min", "C04_adjustments_survive"], "note": ""},
 {"property": "C05", "status": "proved", "theorems": ["C05_delta_roundtrip", "C05_layout", "C05_reader"], "note": "all versions, both types, every codec meeting codec_ok; librpm's re-reading of an exported header is the hypothesis 'readable' inside wf_delta; C05_layout gives the bytes, C05_reader reads them from any writer"},
 {"property": "C06", "status": "proved", "theorems": ["C06_truncation_rejected"], "note": "a cut file either errors or, if only the tail of a compressed stream is missing, reads as exactly the same delta"},
 {"property": "C07", "status": "proved", "theorems": ["C07_accepted_consistent", "C07_external_bounds_refuted"], "note": "external bounds hold below 2^63 bytes of external data; the witness shows they fail at 2^64-1"},
 {"property": "C08", "status": "partial", "theorems": ["C08_reader_safe_partial", "C08_name_overflow_refuted", "C08_count_overflow_refuted"], "note": "false as stated (two witnesses); proved that nothing undefined happens unless a name of 2^32-1 bytes or an array of 2^29 pairs is declared"},
 {"property": "C09", "status": "proved", "theorems": ["C09_sequence_roundtrip"], "note": "every list of indices below the file count with at most file-count members; lists with more members than files overflow the decoder's table (see C10)"},
 {"property": "C10", "status": "partial", "theorems": ["C10_decode_bounds_partial", "C10_generated_safe_partial", "C10_table_overflow_refuted", "C10_file_overread_refuted", "C10_shift_refuted", "C10_repeated_file_refuted"], "note": "false in general: off-by-one store, read of files[file_count], shift by 64 or more; holds for sequences the encoder makes; for arbitrary sequences the possible faults are bounded"},
 {"property": "C11", "status": "proved", "theorems": ["C11_parser_result", "C11_parser_accepts_only_listings", "C11_sequence_accepted", "C11_acceptance_meaning", "C11_directory_contents_refuted", "C11_library_directories"], "note": "archives below 4 GiB; needs contents only where the entry type calls for them (witness: a directory entry with contents); MD5 is any 16-byte function; C11_case_text is an archive written as text"},
 {"property": "C12", "status": "proved", "theorems": ["C12_line_parses_back", "C12_identifiers", "C12_malformed", "C12_accepted_for_source", "C12_same_as_check"], "note": "concrete case C12_case"},
 {"property": "C13", "status": "proved", "theorems": ["C13_cache_transparent"], "note": "for every capacity, cleaning counter, list of copies inside the data and source that yields the blocks in order; allocation and temporary-file failures not modelled"},
 {"property": "C14", "status": "proved", "theorems": ["C14_rpmonly_external_data"], "note": "for every capacity and list of copies inside the data"},
 {"property": "C15", "status": "proved", "theorems": ["C15_standard_external_data", "C15_padding_refuted", "C15_duplicate_refuted"], "note": "archives below 4 GiB whose members have distinct names, zero padding and no contents for special files; false without zero padding or with duplicate names (witnesses)"},
 {"property": "C16", "status": "partial", "theorems": ["C16_installed_external_data_partial", "C16_order_refuted", "C16_skipped_refuted", "C16_handles_refuted", "C16_link_refuted", "C16_short_refuted"], "note": "Proved, with prelinking undone where files are prelinked, for named files with contents that have the same place in the sequence as in the package, at most 50 of them not prelinked; with a prelinked file also no block may start inside a link target and the recorded length must give as many blocks as the archive has. False otherwise, a witness for each: a moved or skipped file makes the reader use the wrong file or read outside a table, with 51 files a recycled handle answers for the file it was taken from, a block that starts inside a link target or a short recorded length makes the reading of a prelinked file read outside memory."},
 {"property": "C17", "status": "proved", "theorems": ["C17_declared_digest", "C17_signature_digest", "C17_short_output_refuted"], "note": "Every successful apply, any old package, codec and hash; the refutation shows that output shorter than the declared header length makes the code hash uninitialised memory."},
 {"property": "C18", "status": "proved", "theorems": ["C18_right_source", "C18_right_installed", "C18_other_name", "C18_other_signature", "C18_other_files", "C18_not_installed"], "note": "Success implies the right source; each kind of mismatch is refused with an empty output file."},
 {"property": "C19", "status": "proved", "theorems": ["C19_make_apply", "C19_make_apply_small"], "note": "Packages in the RPM file layout, sizes below 2^31, format version 3. few_copies (32-bit array sizes) is an explicit hypothesis, shown to hold always for new data below 2^29-2 bytes. Codec, hash and librpm are parameters."},
 {"property": "C20", "status": "proved", "theorems": ["C20_identity_delta", "C20_compressed_refuted"], "note": "False as stated for compressed payloads (witness). C20_identity_delta says exactly what apply writes and returns for every package, and that it succeeds for uncompressed payloads."},
 {"property": "C21", "status": "partial", "theorems": ["C21_history_partial", "C21_refused", "C21_range", "C21_make", "C21_fresh", "C21_self_copy_refuted", "C21_destroy_twice_refuted"], "note": "The history theorem covers every sequence of calls except copying an options object onto itself and destroying one twice; for these two the claim is refuted."},
 {"property": "C22", "status": "proved", "theorems": ["C22_getters", "C22_written", "C22_agree", "C22_one_kind", "C22_null", "C22_read_exact", "C22_long_parameters_refuted", "C22_destroyed"], "note": "Every getter, every integer tag, every handle drpm_read can return. The refuted theorem is about building the handle when a parameter block has 2^63 bytes."},
 {"property": "C23", "status": "proved", "theorems": ["C23_be_roundtrip", "C23_be_parse", "C23_hex_roundtrip", "C23_hex_exact", "C23_hex_odd_ignored", "C23_digest_overflow_refuted"], "note": "an odd trailing hex digit is ignored; a digest longer than the buffer overflows it"},
 {"property": "C24", "status": "proved", "theorems": ["C24_header_roundtrip", "C24_header_accept"], "note": ""},
 {"property": "C25", "status": "proved", "theorems": ["C25_write_transparent", "C25_wrapper_transparent", "C25_read_transparent", "C25_read_until_eof"], "note": "codec libraries are a parameter"},
 {"property": "C26", "status": "partial", "theorems": ["C26_cut_archive_refuted", "C26_detected_corruption_refuted", "C26_cut_is_prefix_partial", "C26_result_exact"], "note": "false as stated"},
 {"property": "C27", "status": "proved", "theorems": ["C27_detect_exact", "C27_detect_codec", "C27_detect_payload", "C27_addblk_refuted"], "note": "false for uncompressed add blocks"},
 {"property": "C28", "status": "proved", "theorems": ["C28_comp_code", "C28_decode_exact", "C28_lzip_none"], "note": ""},
 {"property": "C29", "status": "proved", "theorems": ["C29_offset_adjustments", "C29_large_gap_refuted"], "note": "gaps below 4 GiB; archives below 4 GiB"},
 {"property": "C30", "status": "partial", "theorems": ["C30_old_versions_lengths_partial", "C30_truncated_length_refuted"], "note": "false at 4 GiB and above (witness); proved below"},
 {"property": "C31", "status": "proved", "theorems": ["C31_filesize", "C31_full", "C31_covers", "C31_check_full", "C31_check_sizes", "C31_full_file", "C31_prelinked", "C31_check_full_prelinked", "C31_check_sizes_prelinked"], "note": "The last four are about file systems with prelinked files, which the property leaves out; ELF files whose section names cannot be read are excluded (C35). Concrete cases C31_case, C31_case_whole, C31_case_prelinked."},
 {"property": "C32", "status": "proved", "theorems": ["C32_identifiers", "C32_malformed"], "note": "concrete case C32_case"},
 {"property": "C33", "status": "partial", "theorems": ["C33_rpmonly_readable", "C33_rpmonly_versions", "C33_identity_readable", "C33_standard_readable", "C33_untagged_refuted"], "note": "False as stated for standard deltas of targets whose header does not name a known codec (witness). Readability is proved for well-formed packages of all three kinds; not for packages that librpm accepts but that are not well-formed in the sense of package_ok, nor for copy arrays of 2^29 entries and more."},
 {"property": "C34", "status": "proved", "theorems": ["C34_grown_array", "C34_archive_buffer", "C34_sequence_buffer", "C34_adjustment_array"], "note": ""},
 {"property": "C35", "status": "partial", "theorems": ["C35_detection", "C35_memory_refuted"], "note": "false as stated (witness); proved exactly when a wrong pointer is freed, and that otherwise nothing undefined happens and the answer is right"},
 {"property": "C36", "status": "proved", "theorems": ["C36_strerror"], "note": ""},
 {"property": "C37", "status": "partial", "theorems": ["C37_reading_refuted", "C37_host_refuted", "C37_md5_refuted", "C37_name_refuted", "C37_rpm_refuted", "C37_unpatched_partial"], "note": "False of the code: whatever the lists of patched files contain, reading them uses memory that was never set, so no list is ever read successfully (C37_reading_refuted), and further statements fail even if that memory happens to be zero (C37_host_refuted, C37_md5_refuted, C37_name_refuted, C37_rpm_refuted). Proved: the decision taken for one file of the new package, given lists as they are meant to be read (C37_unpatched_partial)."},
 {"property": "C38", "status": "partial", "theorems": ["C38_parser_safe_partial", "C38_empty_name_refuted", "C38_blocks_safe_partial", "C38_apply_empty_name_refuted"], "note": "false as stated (empty names, both when making and applying); proved for archives without a header declaring an empty name"},
 {"property": "C39", "status": "proved", "theorems": ["C39_make_apply_standard"], "note": "Old archive: distinct entries, zero padding, no contents in special files (without these C15 is false, see its refutations). few_copies and few_adjustments (32-bit array sizes) are explicit hypotheses."},
 {"property": "C40", "status": "partial", "theorems": ["C40_apply_defined_partial", "C40_apply_installed_defined_partial", "C40_apply_faults_partial", "C40_internal_count_refuted", "C40_external_count_refuted", "C40_signature_refuted", "C40_place_refuted", "C40_sequence_refuted"], "note": "False of the code for copy counts of 2^31 and more, for signatures that declare to be longer than they are, and for installed packages whose sequence lists a file with contents by a number not below the length of the list (refutations). Proved for every other accepted delta and every old RPM, given what C10, C17 and C38 need (a sequence that lists files, an output not shorter than its header, no empty names in the archive), and for everything that can be on disk instead of the installed files, as long as no file is prelinked. With an old RPM and any sequence at all, the three faults of C10 are the only ones possible (C40_apply_faults_partial)."},
 {"property": "C41", "status": "partial", "theorems": ["C41_gzip_writes", "C41_bzip2_writes", "C41_lzma_writes", "C41_xz_writes", "C41_zstd_writes", "C41_gzip_reads", "C41_bzip2_reads", "C41_lzma_reads", "C41_zstd_reads_partial", "C41_zstd_reads_refuted", "C41_gzip_level_refuted", "C41_bzip2_level_refuted", "C41_level_reachable", "C41_big_piece_refuted", "C41_writes", "C41_opens_partial", "C41_refused", "C41_codec_partial", "C41_lzma_level_refuted"], "note": "writing proved for all five codecs and reading for all but zstd; reading zstd proved below 128 KiB and refuted above; levels above 9 and pieces of 4 GiB refuted; choosing and setting up the libraries proved, and that the abstract codec of the other theorems is what the loops compute"},
 {"property": "C42", "status": "partial", "theorems": ["C42_make_apply_installed_partial", "C42_configuration_refuted"], "note": "Proved for all packages, options and file systems under files_installed: contents as packed or prelinked, files with contents at the places they have in the package, at most 50 of them not prelinked, and no link across blocks if one is prelinked. False otherwise (witness: a configuration file comes first)."},
 {"property": "C43", "status": "partial", "theorems": ["C43_unchanged_passes", "C43_checked_applies_partial"], "note": "The first theorem is complete, prelinked files included. The second one has the restrictions of C42 on places and number of files and on links beside prelinked files, which C42_configuration_refuted and the refutations of C16 show to be needed; and no ELF files whose section names cannot be read (C35)."},
 {"property": "C44", "status": "partial", "theorems": ["C44_make_defined_partial", "C44_short_archive_refuted", "C44_empty_name_refuted", "C44_long_digest_refuted"], "note": "False of the code for the three kinds of packages in the refutations. Proved for all others, given archives below 4 GiB and names below 64 KiB for standard deltas, which C38 needs, too."},
 {"property": "C45", "status": "partial", "theorems": ["C45_clients", "C45_sequence_package", "C45_sequence_installed_partial", "C45_check_partial", "C45_make_partial", "C45_make_identity_partial", "C45_apply_partial", "C45_apply_installed_partial", "C45_header_junk_refuted", "C45_header_twice_refuted", "C45_section_table_refuted", "C45_options_destroy_refuted", "C45_make_table_refuted", "C45_make_grow_refuted", "C45_make_junk_refuted", "C45_make_hash_refuted", "C45_patches_refuted", "C45_patches_cut_refuted", "C45_patches_package_refuted", "C45_apply_memory_refuted", "C45_apply_page_refuted", "C45_apply_prelink_refuted", "C45_suffix_refuted"], "note": "In the ownership model. Proved for all failures for reading deltas, getters, options and sequences of packages; for checks of installed packages, and for applying deltas to them, without the rare failures; for making deltas as long as memory is there; for applying deltas to packages as long as there is memory and a temporary file for blocks; beyond that it is false (witnesses). With lists of patched files drpm_make goes wrong in every execution. For the suffix sort, which nothing calls, it is proved for callers that release it only if it was made (C46_suffix)."},
 {"property": "C46", "status": "partial", "theorems": ["C46_clients_partial", "C46_sequence_package", "C46_make_partial", "C46_make_identity_partial", "C46_apply_partial", "C46_read_refuted", "C46_sequence_installed_refuted", "C46_check_refuted", "C46_make_refuted", "C46_patches_cut_refuted", "C46_patches_refuted", "C46_apply_installed_refuted", "C46_apply_installed_case_refuted", "C46_apply_early_refuted", "C46_apply_refuted", "C46_suffix"], "note": "In the ownership model. Proved for programs in which no drpm_read fails, for sequences of packages, for making deltas that succeeds, and for applying them to packages that succeeds; false for drpm_read, drpm_make and drpm_apply that fail, and for every check of an installed package and every delta applied to one. The suffix sort releases everything."},
 {"property": "C47", "status": "partial", "theorems": ["C47_create", "C47_buckets", "C47_empty_refuted"], "note": "Proved for texts of 1 to 2^62 - 1 bytes; refuted for the empty text. Failing allocations: C46_suffix."},
 {"property": "C48", "status": "partial", "theorems": ["C48_search", "C48_longest_partial", "C48_first_partial", "C48_longest_refuted"], "note": "Bounds, end and reality of matches for all texts; longest matches and the first long match if the last byte of the old text is not in the new one from the position on; refuted without this."},
 {"property": "C49", "status": "partial", "theorems": ["C49_result", "C49_left_partial", "C49_left_refuted", "C49_status_refuted", "C49_checks"], "note": "False as stated: the exit status is not looked at, so that an empty or unfinished file counts as output (witness), and the temporary file stays if fork fails or the file cannot be opened (witness). Proved: what the result is in all cases, exactly when the file stays, and that the checks report a prelinked file as changed if prelink cannot be run."},
 {"property": "C50", "status": "partial", "theorems": ["C50_parts", "C50_refused", "C50_compressor", "C50_compressor_refused", "C50_format", "C50_level_partial", "C50_level_refuted", "C50_entry", "C50_files"], "note": "Proved: a file is read exactly if it has the parts of an RPM file (without decompression; for the compressed archive see C19, C26), compressors, payload formats, rows of the file table, the index entry of the payload format. The level is proved for one or two digits (partial) and refuted for other texts."},
 {"property": "C51", "status": "partial", "theorems": ["C51_history_partial", "C51_plenty", "C51_copy", "C51_copy_refuted", "C51_patches_refuted"], "note": "True for all histories and all outcomes of allocations except for two cases, which are refuted with witnesses: drpm_make_options_copy returns success although strings are missing when memory runs out (drpm_options.c lines 108, 114, 120); drpm_make_options_add_patches leaves a buffer that was never written when only the second allocation fails (lines 259-268), and the next call reads it."},
 {"property": "C52", "status": "partial", "theorems": ["C52_apply", "C52_digest", "C52_make_partial", "C52_seqfile_refuted"], "note": "Proved for drpm_apply and for the delta file of drpm_make; false for the sequence file. Errors reported only by close are not represented."},
 {"property": "C53", "status": "partial", "theorems": ["C53_check_defined_partial", "C53_check_faults_partial", "C53_names_refuted", "C53_sequence_refuted"], "note": "Proved for all files on disk but ELF files whose section names cannot be read (refuted for these, as in C35), for both levels of checking, prelinked files included, with sequences that list files of the package. With any other sequence only the three faults of C10 can be added, and one of them is shown to happen in drpm_check."},
 {"property": "C54", "status": "partial", "theorems": ["C54_reads_partial", "C54_prelink", "C54_error_refuted", "C54_short_refuted"], "note": "Proved for check_prelink; for check_full that the result is that of whole reads, or an error, or decided by the digest of what was read. False for check_full: failing reads are reported as changed files, and a first read that fails or is short hides prelinking. Reads by position in is_prelinked are taken not to fail."}
]}
