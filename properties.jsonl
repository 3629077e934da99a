{"id": "C01", "title": "Diff then patch reproduces the new bytes exactly", "statement": "For every old byte string and every new byte string of at least 16 bytes (or empty), with or without an add block, the copy instructions, internal data and add data produced by the diff step of drpm_make, when interpreted over the old bytes the way drpm_apply interprets them, yield exactly the new byte string. The result does not depend on how good the matches are.", "quantifier": "all pairs (old, new) of byte strings with lengths below 2^31 (longer extents are C03), add block on and off", "why_tests_cant": "The byte-string space is infinite; the interesting cases are coincidences between match extension, overlap splitting and copy splitting that fixed sample RPMs do not hit.", "anchors": ["src/drpm_diff.c: make_diff, create_diff_copies, create_int_data_array", "src/drpm_search.c: hash_create, hash_search, match_len", "src/drpm.c: drpm_apply (reconstruction loop, lines 675-727)"]}
{"id": "C02", "title": "The diff step terminates and stays inside its buffers", "statement": "For every old and new byte string (new empty or at least 16 bytes) the diff step of drpm_make reads only bytes inside the two inputs, finds only genuine matches (the reported old and new ranges are in bounds and byte-for-byte equal), makes strict progress on each round and therefore terminates.", "quantifier": "all pairs (old, new), add block on and off, every hash table content the code can build", "why_tests_cant": "Out-of-bounds reads of a few bytes and non-termination depend on exact lengths and hash collisions; a test sees only the sizes it tries.", "anchors": ["src/drpm_search.c: buzhash, hash_create, hash_search", "src/drpm_diff.c: make_diff"]}
{"id": "C03", "title": "Copy instructions denote exactly the intended extents", "statement": "The list of external copies (signed offset delta, length) and internal copies (external-copy count, length) created by drpm_make, decoded with a running offset as every reader of the format does, denotes exactly the list of old extents and new extents computed by the diff, in order, also when offsets or lengths exceed 2^31-1 and must be split. (Found false when a single old extent is 2 GiB or longer and does not start at the running offset.)", "quantifier": "all lists of (old offset, old length, new offset, new length) with non-negative 63-bit entries", "why_tests_cant": "Only multi-gigabyte inputs reach the splitting branches; no test uploads such RPMs.", "anchors": ["src/drpm_diff.c: create_diff_copies, create_int_data_array"]}
{"id": "C04", "title": "Signed offsets survive the on-disk sign-magnitude encoding", "statement": "Each external-copy offset and each offset adjustment written into a delta is read back as the same signed 32-bit value, for every value the diff step and the archive parser can emit; the only value not preserved by the encoding is -2^31, which is never emitted.", "quantifier": "all 32-bit values; all outputs of the diff step and of the archive parser", "why_tests_cant": "Exhausting 2^32 values is not done by unit tests, and the claim that -2^31 is never emitted is a statement about every input of the diff.", "anchors": ["src/drpm_write.c: write_deltarpm (lines 126-168)", "src/drpm_read.c: readdelta_rest (lines 193-273)", "src/drpm_private.h: TWOS_COMPLEMENT"]}
{"id": "C05", "title": "A written delta has the bytes of the format and reads back field for field", "statement": "For every delta description that drpm_make can produce (format versions 1, 2, 3, standard and rpm-only, any compression), reading the written file with drpm_read/drpm_apply returns the same version, type, source and target NEVR, sequence, target MD5, size, target compression and level, header length, offset adjustments, lead and signature, payload format offset, internal and external copies, external data length, add data and internal data that were written (fields absent from older versions come back as 0). The written file is, byte for byte, the documented sequence of fields (big-endian numbers, sign-and-magnitude offsets, columns of the copy tables, 8-byte lengths in version 3 only), and every file with these bytes is read as that record, whoever wrote it.", "quantifier": "all deltas within the 32-bit field widths of their format version, all codecs whose decompressor inverts their compressor", "why_tests_cant": "The record space is infinite and the reader and writer are separate hand-written functions; samples only cover a few shapes of record.", "anchors": ["src/drpm_write.c: write_deltarpm", "src/drpm_read.c: read_deltarpm, readdelta_rest, readdelta_rpmonly, readdelta_standard, deltarpm_to_drpm"]}
{"id": "C06", "title": "A truncated delta is never accepted", "statement": "If a delta file whose payload is complete is accepted by drpm_read, then the same file cut anywhere before the end of its internal data is rejected with an error, never accepted with different contents.", "quantifier": "all accepted delta payloads and all cut points (crash during download or write)", "why_tests_cant": "The number of (file, cut point) pairs is unbounded; tests at most try a handful.", "anchors": ["src/drpm_read.c: read_deltarpm, readdelta_rest", "src/drpm_decompstrm.c: decompstrm_read"]}
{"id": "C07", "title": "Every accepted delta obeys the format's consistency rules", "statement": "Whatever bytes are in the file, if drpm_read accepts it then: the sequence has at least 16 bytes (exactly 16 for rpm-only), rpm-only deltas have version 3 or higher and a non-zero target header length, the lead and signature has at least 112 bytes, internal copies never run past the internal data, and every external copy lies inside the external data.", "quantifier": "all byte strings offered as a delta payload with copy counts below 2^31", "why_tests_cant": "A property of every possible input file, including hostile ones.", "anchors": ["src/drpm_read.c: readdelta_rest (lines 106-355)"]}
{"id": "C08", "title": "Reading a delta never writes outside the buffers allocated for it", "statement": "For every byte string offered as a delta file, drpm_read stores incoming data only inside the buffers it allocated. (Found false: declared counts are multiplied and incremented in 32-bit arithmetic before allocation; the property holds when declared counts are below 2^29 and name lengths below 2^32-1.)", "quantifier": "all byte strings offered as a delta file", "why_tests_cant": "Needs hostile length fields; the allocation size and the loop bound are separate expressions that agree on all benign files.", "anchors": ["src/drpm_read.c: readdelta_rest (lines 121-132, 193-207, 243-273), readdelta_rpmonly (lines 377-391)"]}
{"id": "C09", "title": "The file-order sequence decodes to the order that was encoded", "statement": "For every list of file indices (any order, any gaps, repeats allowed), encoding it while making a delta and expanding it while applying or checking gives back the same list.", "quantifier": "all finite lists of file indices below 2^31", "why_tests_cant": "Run/skip/jump encoding with variable-length nibbles has unboundedly many shapes, and odd nibble counts leave a padding nibble that the decoder also reads.", "anchors": ["src/drpm_make.c: seq_append, seq_add, seq_final", "src/drpm_apply.c: expand_sequence (lines 110-161)"]}
{"id": "C10", "title": "Expanding a sequence stays inside its tables for every input", "statement": "For every sequence string and every file list, expanding the sequence writes only inside the table of positions and reads only existing file entries, and never performs an undefined shift. (Found false: the bound check is off by one, and long continuation runs shift by 64 or more; it holds for every sequence that drpm_make generates.)", "quantifier": "all sequence byte strings, all file lists", "why_tests_cant": "Hostile or corrupted sequences are not sampled by tests; a one-element overflow is silent in most runs.", "anchors": ["src/drpm_apply.c: expand_sequence (lines 110-178)", "src/drpm.c: drpm_check_sequence, drpm_apply"]}
{"id": "C11", "title": "A sequence made for a package verifies against the same package, and only against matching metadata", "statement": "The sequence that drpm_make stores is accepted by drpm_apply, drpm_check and drpm_check_sequence when the old package's file list is the one it was made from; acceptance implies that the MD5 over (name, mode, size, device, link target or digest) of the listed files equals the stored one.", "quantifier": "all file lists, all archives, any 16-byte hash function in place of MD5", "why_tests_cant": "Producer and consumer build the hashed byte string by different code; equality has to hold for every mix of file types, device numbers and names.", "anchors": ["src/drpm_make.c: parse_cpio_from_rpm_filedata (lines 486-531)", "src/drpm_apply.c: expand_sequence (lines 176-256)"]}
{"id": "C12", "title": "The sequence file line parses back", "statement": "The line written to the sequence file requested in the make options is split by drpm_check_sequence into exactly the source NEVR and the sequence bytes it was written from, trailing newline included or not.", "quantifier": "all NEVR strings (non-empty, NUL free) and all sequences of at least 16 bytes", "why_tests_cant": "NEVRs contain dashes, sequences are arbitrary bytes; the parse relies on the last dash and on rounding of odd lengths.", "anchors": ["src/drpm_write.c: write_seqfile", "src/drpm.c: drpm_check_sequence (lines 861-882)", "src/drpm_utils.c: dump_hex, parse_hex"]}
{"id": "C13", "title": "The block cache is transparent", "statement": "While applying a delta from an old RPM, each piece of external data handed to the reconstruction equals the corresponding slice of the old data, regardless of the history of block loads, evictions, page-outs, page-ins and slot reuse, and no block that is still needed is ever lost.", "quantifier": "all sequences of external copies accepted by the reader, all external data, all cache capacities at least 1, all initial values of the process-wide clean-up counter", "why_tests_cant": "The cache only starts evicting after 5000 blocks (40 MB) and depends on call history; the counter persists between library calls.", "anchors": ["src/drpm_block.c: blocks_create, blocks_next, get_block, get_free_core_block, new_core_block, push_block, write_page_block, read_page_block"]}
{"id": "C14", "title": "Applying from an old RPM sees the same external data as making did (rpm-only)", "statement": "For rpm-only deltas the external data streamed out of the old RPM during drpm_apply is the old header followed by the old uncompressed archive, i.e. byte for byte the data drpm_make diffed against, in whatever order blocks are requested.", "quantifier": "all old RPM headers and archives, all block requests", "why_tests_cant": "Depends on block boundaries relative to the header length for every size.", "anchors": ["src/drpm_block.c: fillblock_rpm_rpmonly", "src/drpm.c: drpm_make (lines 412-436)"]}
{"id": "C15", "title": "Applying from an old RPM sees the same external data as making did (standard)", "statement": "For standard deltas the altered archive that drpm_make diffs against (skipped files removed, symlink contents replaced, headers normalised) is regenerated byte for byte by drpm_apply from the same old RPM, including entry offsets and lengths computed when expanding the sequence.", "quantifier": "all old archives in cpio newc format with zero padding and all file lists with distinct names", "why_tests_cant": "Two independent generators must agree on every combination of file types, sizes modulo 4 and name lengths, across every block boundary.", "anchors": ["src/drpm_make.c: parse_cpio_from_rpm_filedata", "src/drpm_block.c: fillblock_rpm_standard, fill_cpio_header", "src/drpm_apply.c: expand_sequence (lines 235-266)"]}
{"id": "C16", "title": "Applying from the file system reads the files the sequence names", "statement": "When no old RPM is given, the external data used by drpm_apply consists of the installed contents of exactly the files listed by the sequence, in that order, whatever the order and whatever the history of previously opened files. (Found false: table indices are confused when the sequence is not 0,1,2,..., and a recycled handle keeps answering for the file it was evicted from.)", "quantifier": "all sequences, all file lists, all histories of block requests", "why_tests_cant": "Tests use one package applied from an RPM; the handle table only recycles after 50 files and only history exposes it.", "anchors": ["src/drpm_block.c: fillblock_filesystem, open_new_file, get_open_file"]}
{"id": "C17", "title": "A successful apply leaves the file the delta promised", "statement": "If drpm_apply returns success for a delta that stores a target MD5, then the MD5 of the bytes in the output file equals the stored MD5 (if it stores none, the MD5 of everything after lead and signature equals the MD5 in the new signature, when present). Requires that the reconstructed data is at least as long as the declared target header length; found false otherwise.", "quantifier": "all delta files, all old packages, any hash function, any codec", "why_tests_cant": "A universally quantified safety property over inputs, including hostile deltas; the digest is computed over an in-memory copy rather than over the file.", "anchors": ["src/drpm.c: drpm_apply (lines 638-755)", "src/drpm_write.c: compstrm_wrapper_write, compstrm_wrapper_finish", "src/drpm_compstrm.c: compstrm_write, compstrm_finish"]}
{"id": "C18", "title": "A delta is refused for the wrong source package", "statement": "drpm_apply never reports success if the old package's NEVR differs from the delta's source NEVR, or (rpm-only) the old package's signature MD5 is missing or differs from the delta's sequence, or (standard) the file list does not hash to the sequence; each case gives the documented error.", "quantifier": "all deltas and all old packages", "why_tests_cant": "A property of all mismatching pairs.", "anchors": ["src/drpm.c: drpm_apply (lines 554-600)"]}
{"id": "C19", "title": "End-to-end: make then apply gives back the new RPM (rpm-only)", "statement": "For any two RPM files, drpm_make with type rpm-only followed by drpm_apply on the same old RPM returns success and writes a file identical to the new RPM, provided the codec recompresses the new payload identically and the old RPM's signature MD5 is correct.", "quantifier": "all old and new RPMs (sizes below 2^31), all option settings valid for rpm-only, all codecs", "why_tests_cant": "Composition of every stage for every pair of packages.", "anchors": ["src/drpm.c: drpm_make, drpm_apply", "src/drpm_diff.c", "src/drpm_write.c", "src/drpm_read.c", "src/drpm_block.c"]}
{"id": "C20", "title": "Rpm-only identity deltas can be applied", "statement": "A delta made with type rpm-only from a single RPM (no diff) and applied to that RPM returns success and recreates it. (Found false whenever the payload is compressed: apply writes the decompressed payload and then fails its own MD5 check; holds for uncompressed payloads.)", "quantifier": "all RPMs", "why_tests_cant": "The test suite makes and reads such a delta but never applies it; the claim is about every RPM.", "anchors": ["src/drpm_make.c: fill_nodiff_deltarpm", "src/drpm.c: drpm_apply (lines 602-614)", "src/drpm_rpm.c: rpm_write, rpm_read_archive"]}
{"id": "C21", "title": "Make options behave as a record under any call history", "statement": "After any sequence of option calls, the options equal those of a plain record updated by the successful calls; calls with invalid arguments change nothing and return the argument error; string options never overrun their buffer however their lengths change; drpm_make with fresh options behaves as with no options.", "quantifier": "all finite sequences of option calls with arbitrary arguments", "why_tests_cant": "A property of call histories: buffer capacity depends on all earlier lengths.", "anchors": ["src/drpm_options.c: all functions", "src/drpm.c: drpm_make (lines 329-344)"]}
{"id": "C22", "title": "Getters return what was read and reject everything else", "statement": "For every delta handle and every integer tag, each getter returns the field documented for the tag or the argument error, numeric getters agree with each other on shared tags, and no getter changes the handle.", "quantifier": "all handles, all integer tags", "why_tests_cant": "All integers as tags, all field values.", "anchors": ["src/drpm.c: drpm_get_uint, drpm_get_ulong, drpm_get_ullong, drpm_get_string, drpm_get_ulong_array"]}
{"id": "C23", "title": "Big-endian and hexadecimal codecs are inverse to each other", "statement": "Integers written in network byte order read back unchanged, byte strings dumped as hexadecimal parse back unchanged, and parsing accepts exactly pairs of hexadecimal digits.", "quantifier": "all 16/32/64-bit integers, all byte strings, all character strings", "why_tests_cant": "2^64 values and unbounded strings.", "anchors": ["src/drpm_utils.c: parse_be16, parse_be32, parse_be64, create_be32, create_be64, dump_hex, parse_hex, parse_hexnum"]}
{"id": "C24", "title": "CPIO headers survive writing and reading", "statement": "Every CPIO header record written as text is 110 bytes long and reads back as the same record; headers with a wrong magic or a non-hexadecimal digit are rejected.", "quantifier": "all header records within their field widths, all 110-byte strings", "why_tests_cant": "All values of twelve fields.", "anchors": ["src/drpm_make.c: cpio_header_read, cpio_header_write"]}
{"id": "C25", "title": "Compression streams are transparent to chunking", "statement": "Data written to a compression stream in any number of pieces reaches the codec as the concatenation of the pieces, and the bytes in the output file are exactly the bytes returned at finish; data read from a decompression stream in any sequence of read sizes is consecutive slices of the decompressed data, independent of the 1024-byte input chunking.", "quantifier": "all sequences of writes and reads of any sizes, all codecs", "why_tests_cant": "A property of all schedules of reads and writes relative to internal chunk boundaries.", "anchors": ["src/drpm_compstrm.c: compstrm_write, compstrm_finish, writechunk", "src/drpm_decompstrm.c: decompstrm_read, readchunk"]}
{"id": "C26", "title": "Corrupted compressed payloads are reported", "statement": "Reading an RPM whose compressed archive is corrupt or cut short reports an error. (Found false: the read-until-end loop treats a format error from the decoder as end of data, so corruption yields a silently shortened archive.)", "quantifier": "all compressed archives and all corruption points", "why_tests_cant": "Quantifies over every corruption; tests use intact RPMs.", "anchors": ["src/drpm_decompstrm.c: decompstrm_read_until_eof, readchunk_gzip", "src/drpm_rpm.c: rpm_read_archive"]}
{"id": "C27", "title": "Compression type detection is right for deltas and add blocks", "statement": "A delta payload written without compression is always recognised as uncompressed and one written with a codec is recognised as that codec; the same holds for add blocks. (Found false for uncompressed add blocks that are shorter than 8 bytes or start with a codec's magic bytes.)", "quantifier": "all delta payloads, all add blocks", "why_tests_cant": "Depends on the first bytes of arbitrary data.", "anchors": ["src/drpm_decompstrm.c: decompstrm_init", "src/drpm_write.c: write_deltarpm", "src/drpm.c: drpm_apply (lines 623-631)"]}
{"id": "C28", "title": "Target compression code is preserved", "statement": "The compression method and level recorded for the target survive encoding and decoding for every method the format supports and every level from 0 to 255; decoding accepts exactly the codes listed in the format. Lzip has no code, so making a version 2 or 3 delta for an lzip target always fails.", "quantifier": "all methods, levels and 32-bit codes", "why_tests_cant": "All 2^32 codes and the composition of the two functions.", "anchors": ["src/drpm_deltarpm.c: deltarpm_encode_comp, deltarpm_decode_comp", "src/drpm_write.c: write_deltarpm (lines 105-109)"]}
{"id": "C29", "title": "Offset adjustments map altered to original archive offsets", "statement": "For version 3 standard deltas, for every entry kept in the altered archive, the entry's offset in the original archive equals its offset in the altered archive plus the sum of all adjustments recorded up to that point. (Needs gaps below 4 GiB.)", "quantifier": "all archives and file lists", "why_tests_cant": "A cumulative property over arbitrarily many skipped and altered entries.", "anchors": ["src/drpm_make.c: parse_cpio_from_rpm_filedata (lines 384-473)"]}
{"id": "C30", "title": "Version 1 and 2 deltas describe their data sizes correctly", "statement": "A version 1 or 2 delta written by drpm_make reads back with the external and internal data lengths it was made with. (Found false at 4 GiB and above: the 32-bit fields silently truncate.)", "quantifier": "all lengths", "why_tests_cant": "Needs data sizes no test can afford.", "anchors": ["src/drpm_write.c: write_deltarpm (lines 170-193)"]}
{"id": "C31", "title": "drpm_check's file checks decide what they document", "statement": "The file-size check accepts a listed regular file exactly when its installed size equals the recorded one, the full check exactly when the digest of its first recorded-size bytes equals the recorded digest, missing files are reported, and a passing check covers every non-empty regular file in the sequence (prelink not involved).", "quantifier": "all file systems, file lists and sequences", "why_tests_cant": "All file contents, sizes relative to the 4096-byte read buffer.", "anchors": ["src/drpm_apply.c: check_filesize, check_full, expand_sequence (line 231)"]}
{"id": "C32", "title": "Package identifiers are split correctly for the database lookup", "statement": "For every name, optional epoch, version and release that contain no separator characters of their own (names may contain dashes), the NEVR string is split into exactly those parts; malformed identifiers are reported as format errors.", "quantifier": "all NEVR strings", "why_tests_cant": "All strings with any number of dashes and colons.", "anchors": ["src/drpm_rpm.c: rpm_read_header (lines 1026-1054)"]}
{"id": "C33", "title": "Every delta that drpm_make writes can be read", "statement": "Any delta file produced successfully by drpm_make is accepted by drpm_read. (Found false for standard deltas when the target RPM has no recognised payload compressor tag, e.g. uncompressed payloads: making succeeds, reading always fails.)", "quantifier": "all RPMs and options", "why_tests_cant": "All packages, including those built with unusual compression settings.", "anchors": ["src/drpm_read.c: readdelta_standard", "src/drpm_rpm.c: rpm_get_comp", "src/drpm.c: drpm_make"]}
{"id": "C34", "title": "Growing arrays are never overrun", "statement": "The copy and adjustment arrays that grow in steps of 16 or 32 elements, the archive buffer that grows in steps of its allocation unit and the sequence buffer that grows by 32 bytes always have room for the element about to be stored.", "quantifier": "all numbers of elements and all append sizes", "why_tests_cant": "Overruns would appear only at particular counts.", "anchors": ["src/drpm_utils.c: resize16, resize32", "src/drpm_make.c: cpio_extend, seq_append", "src/drpm_diff.c: create_diff_copies"]}
{"id": "C35", "title": "Prelink detection is memory safe", "statement": "For every installed file, testing whether it is a prelinked ELF file reads and frees only memory it owns. (Found false: several early exits free a pointer into the middle of the section table.)", "quantifier": "all file contents", "why_tests_cant": "Needs crafted ELF headers.", "anchors": ["src/drpm_apply.c: is_prelinked"]}
{"id": "C36", "title": "Error codes have distinct texts", "statement": "drpm_strerror returns a text for every integer, distinct for the eleven documented codes and a single fixed text for all other integers.", "quantifier": "all integers", "why_tests_cant": "All integers.", "anchors": ["src/drpm.c: drpm_strerror"]}
{"id": "C37", "title": "Patch lists are read as written", "statement": "An old-patch RPM list given to drpm_make_options_add_patches yields the names, modes and MD5 sums stored in it. (Found false: host and patch strings are not skipped, and the MD5 is read only if the size could not be read.)", "quantifier": "all patch list files", "why_tests_cant": "No test uses patches; the format is a stream where one misread field corrupts everything after it.", "anchors": ["src/drpm_make.c: read_rpmlist, rpml_get_string, rpml_get_filename, is_unpatched"]}
{"id": "C38", "title": "Archive parsing never leaves its name buffer", "statement": "For every archive content, parsing the archive while making or applying a standard delta accesses only the name buffer it allocated. (Found false for a header whose name size is zero.)", "quantifier": "all archives", "why_tests_cant": "Needs a crafted header.", "anchors": ["src/drpm_make.c: parse_cpio_from_rpm_filedata (lines 353-369)", "src/drpm_block.c: fillblock_rpm_standard (lines 776-793)"]}
{"id": "C39", "title": "End-to-end: make then apply gives back the new RPM (standard deltas)", "statement": "For any two RPM files, drpm_make with type standard followed by drpm_apply on the file of the old RPM returns success and writes a file identical to the new RPM, provided the codec recompresses the new payload identically, the old archive is a listing of distinct regular entries with zero padding, and the new header names its codec.", "quantifier": "all old and new RPMs (archives below 2^31), format versions 1 to 3, all other option settings, all codecs; also the delta of a package to itself", "why_tests_cant": "Composition of parsing, sequence coding, diff, format, reading blocks and writing for every pair of packages.", "anchors": ["src/drpm.c: drpm_make, drpm_apply", "src/drpm_make.c: parse_cpio_from_rpm_filedata", "src/drpm_apply.c: expand_sequence", "src/drpm_block.c: fillblock_rpm_standard", "src/drpm_diff.c", "src/drpm_write.c", "src/drpm_read.c"]}
{"id": "C40", "title": "Applying an accepted delta is defined", "statement": "Once the reader has accepted a delta, applying it to any old RPM file or to any installed files ends with success or an error: no read or write outside of a buffer, no use of memory that was never set, no endless loop, whatever the copies in the delta say and whatever the archive of the old RPM or the files on disk contain. (Found false: copy counts of 2^31 and more, a signature that declares to be longer than it is, installed packages whose sequence lists a file by a number not below the length of the list; see also C10, C17 and C38.)", "quantifier": "all delta files that the reader accepts, all old RPM files, all contents of the disk, all behaviours of the codec, hash and librpm functions", "why_tests_cant": "Tests apply deltas made by the library itself or a few broken ones; a hostile delta can combine any instructions with any package.", "anchors": ["src/drpm.c: drpm_apply", "src/drpm_block.c: blocks_create, blocks_next, get_block, fillblock_rpm_rpmonly, fillblock_rpm_standard, fillblock_filesystem, open_new_file, get_open_file", "src/drpm_rpm.c: rpm_replace_lead_and_signature", "src/drpm_write.c: compstrm_wrapper_*"]}
{"id": "C41", "title": "Driving the codec libraries loses no data", "statement": "The loops around deflate, BZ2_bzCompress, lzma_code, ZSTD_compressStream2 and their decoding counterparts end, report no error, and collect all output: whatever pieces are written, the result is a complete stream of them, and whatever chunks a complete stream is read in, the result is all the data, provided that the library keeps its documented contract for single calls. The library that is chosen and set up for a stream is the one for its method, and a library that cannot be set up is noticed. Compression levels that reach a library are levels it accepts. (Found false: reading zstd ends with the input although the library may hold more output; levels above 9; pieces of 4 GiB.)", "quantifier": "all libraries that keep the contract, all lists of pieces and chunks, all levels", "why_tests_cant": "Where output buffers are filled exactly or left full depends on the data; tests meet such alignments by chance only.", "anchors": ["src/drpm_compstrm.c: compstrm_init, init_*, writechunk_*, finish_*", "src/drpm_decompstrm.c: decompstrm_init, init_*, readchunk_*"]}
{"id": "C42", "title": "A standard delta can be applied to the installed files", "statement": "If the package database has the header of the old package and the files that the delta uses are installed with the contents they have in the old package, or as prelinked files that prelink can restore to them, then applying a standard delta made from the two packages without the old RPM file writes exactly the file of the new package and succeeds. (Found false: for a package with, say, a configuration file before another file, the reader opens the wrong file.)", "quantifier": "all pairs of packages, all options, all file systems", "why_tests_cant": "Tests apply one delta to one RPM file; applying to installed files needs a package database, and the failure depends on which files of a package a delta leaves out.", "anchors": ["src/drpm.c: drpm_make, drpm_apply", "src/drpm_block.c: fillblock_filesystem, fillblock_prelink", "src/drpm_apply.c: expand_sequence"]}
{"id": "C43", "title": "What the check of a delta accepts can be applied", "statement": "For a standard delta made from two packages, drpm_check accepts, in both modes, installed files that are as they were packed or that prelink has made of them; and if it accepts the installed files in the full mode, then drpm_apply on them succeeds and writes exactly the new package, unless a file on disk has the recorded digest with other contents.", "quantifier": "all pairs of packages, all options, all file systems", "why_tests_cant": "It is a relation between two functions over all states of the disk.", "anchors": ["src/drpm.c: drpm_check, drpm_apply", "src/drpm_apply.c: expand_sequence, check_full, check_filesize"]}
{"id": "C44", "title": "Making a delta never runs into undefined behaviour", "statement": "Whatever the two package files contain and whatever the options say, drpm_make returns with a delta or an error code; it never reads or writes outside a buffer, and always ends. (Found false: for a new package whose archive has 1 to 15 bytes, and for old packages with an archive entry that declares an empty name or with a digest that is too long.)", "quantifier": "all contents of one or two files, all options, all behaviours of codecs and of librpm with headers of 8 bytes to 2 GiB", "why_tests_cant": "Packages come from elsewhere; a test tries a few of them, while one odd archive is enough to crash a build service that makes deltas.", "anchors": ["src/drpm.c: drpm_make", "src/drpm_make.c: parse_cpio_from_rpm_filedata, fill_nodiff_deltarpm", "src/drpm_diff.c: make_diff", "src/drpm_write.c: write_deltarpm, write_seqfile"]}
{"id": "C45", "title": "Resources are released once and not used afterwards", "statement": "In every execution of the API functions, and of programs that call them in any order, no block of memory, librpm object, codec state or file descriptor is released twice or used after its release, no uninitialised pointer is released or used, and no null pointer is followed; also if allocations, reads, codecs or librpm fail at any point. (Found false: without memory, for odd section tables of installed files, for options that were destroyed before, for RPM-only deltas of one package if hash functions fail, and, for applying deltas, if there is no temporary file for blocks or prelink cannot undo its work; always, if drpm_make is given lists of patched files.)", "quantifier": "all executions: all outcomes of all calls that can fail, all branches on data, all numbers of rounds of loops, all sequences of API calls", "why_tests_cant": "Every allocation and every call can fail, in combination; each failure takes another path through the cleanup code, which tests hardly ever run.", "anchors": ["src/drpm.c", "src/drpm_rpm.c", "src/drpm_read.c: read_deltarpm", "src/drpm_deltarpm.c: free_deltarpm", "src/drpm_apply.c: expand_sequence, check_full, check_filesize", "src/drpm_options.c", "src/drpm_make.c", "src/drpm_block.c", "src/drpm_write.c"]}
{"id": "C46", "title": "Nothing is leaked", "statement": "When an API function returns, every resource it obtained is released or belongs to the caller; and a caller that releases all it was given leaves nothing behind. (Found false: for checks of installed packages and deltas applied to them, which leak a header each time, for some deltas that cannot be read, made or applied, and for patch lists that are packages.)", "quantifier": "all executions: all outcomes of all calls that can fail, all branches on data, all numbers of rounds of loops, all sequences of API calls", "why_tests_cant": "A leak is not visible in any result; and the number of paths through the error handling is out of reach.", "anchors": ["src/drpm.c", "src/drpm_rpm.c: rpm_read_header", "src/drpm_read.c: read_deltarpm, readdelta_standard", "src/drpm_deltarpm.c: free_deltarpm", "src/drpm_options.c", "src/drpm_make.c", "src/drpm_block.c", "src/drpm_write.c"]}
{"id": "C47", "title": "The suffix sort sorts", "statement": "For every text, sfxsrt_create ends without reading or writing outside its arrays; the array then holds the positions of all suffixes in the order of a dictionary, behind the positions of the padding, and the table tells for every byte the places of the suffixes that start with it. (Found false for the empty text, whose first byte is read.)", "quantifier": "all texts below 2^62 bytes", "why_tests_cant": "The order depends on repetitions of any length and on the sizes of the groups that are split; a wrong place is not visible in a delta, only in its size.", "anchors": ["src/drpm_search.c: sfxsrt_create, bucketsort, suffix_split"]}
{"id": "C48", "title": "The search in the suffix array finds real and longest matches", "statement": "For every sorted text, every new text, every position in it and every offset that diffing can ask for, sfxsrt_search ends inside of both texts and reports a position and a length such that exactly these bytes are the same; no other position has more, and without a previous match it stops at the first position with more than 32 bytes in common. (Found false: matches are missed if the old text ends with what the new one starts with; true if the last byte of the old text is not in the new one.)", "quantifier": "all pairs of texts below 2^62 bytes, all positions, all offsets from -position to the length of the old text", "why_tests_cant": "A missed match only makes deltas larger; the inputs for which halving goes wrong depend on the order of all suffixes.", "anchors": ["src/drpm_search.c: suffix_search, sfxsrt_search, match_len"]}
{"id": "C49", "title": "Undoing prelink yields the output of the program or an error", "statement": "prelink_open gives a descriptor from which exactly the output of a successful run of 'prelink -u' can be read, reports an error in every other case, and leaves no temporary file behind.", "quantifier": "all answers of the system to stat, mkstemp, fork and open, all ends of the child process", "why_tests_cant": "The prelink program is missing on the systems where tests run, and failures of fork cannot be provoked.", "anchors": ["src/drpm_apply.c: prelink_open (lines 623-663), check_prelink"]}
{"id": "C50", "title": "RPM files are cut into their parts and headers are asked for the right tags", "statement": "A file is accepted as an RPM exactly if it has a lead with the RPM magic, a signature padded to a multiple of 8 bytes and a header; what is returned are these parts and the rest of the file, with digests of exactly these bytes. Compressor, payload format, compression level, table of files and position of the payload format are those that the header states, anything else is an error. (Found false for the compression level: short texts that are not numbers are accepted as level 0 or as a level that wrapped around.)", "quantifier": "all files, all answers of librpm, all headers below 2 GiB", "why_tests_cant": "Tests read a handful of packages made by rpmbuild, all with well-formed headers.", "anchors": ["src/drpm_rpm.c: rpm_read (lines 245-353), rpm_get_comp, rpm_get_comp_level, rpm_get_payload_format, rpm_get_file_info, rpm_find_payload_format_offset"]}
{"id": "C51", "title": "Make options survive a lack of memory", "statement": "Whichever allocations fail during a history of option calls, nothing undefined happens; a call that cannot get memory returns the memory error and changes nothing (options that could not be created are NULL), and all other calls return and do what they would with enough memory. (Found false: drpm_make_options_copy returns success without the strings it had no memory for, so drpm_make silently leaves out the sequence file or the patches; drpm_make_options_add_patches leaves a string that was never written if only its first allocation succeeds, which the next call reads.)", "quantifier": "all histories of option calls, all outcomes of all allocations", "why_tests_cant": "Tests run with enough memory; the failing allocation has to be the second of one particular call.", "anchors": ["src/drpm_options.c: drpm_make_options_init, drpm_make_options_copy (lines 106-122), drpm_make_options_set_seqfile, drpm_make_options_add_patches (lines 259-268)"]}
{"id": "C52", "title": "A full disk is noticed", "statement": "Whatever the system takes of each write (all, part, or nothing with an error), drpm_apply and drpm_make return success only if the files they wrote are complete; after a write that took too little they return the I/O error and the file holds the beginning of what should be in it. In particular, after success of drpm_apply the digest in the delta is that of the file on disk. (Found false for the sequence file of drpm_make: neither fprintf nor fclose is checked, so success is returned with an empty or cut file.)", "quantifier": "all libraries, packages, deltas and options, all outcomes of all writes", "why_tests_cant": "Tests write to disks with room; the digest that drpm_apply compares is computed from memory, not from the file, so it does not show what is missing in the file.", "anchors": ["src/drpm_compstrm.c: compstrm_write (lines 582-586), compstrm_finish (lines 520-524)", "src/drpm_write.c: write_deltarpm (lines 222-259), write_seqfile (lines 274-297), compstrm_wrapper_write (line 357)", "src/drpm_rpm.c: rpm_write (lines 506-532)", "src/drpm.c: drpm_apply (lines 607-741), drpm_make (lines 468-474)"]}
{"id": "C53", "title": "Checking an accepted delta is defined", "statement": "Once the reader has accepted a delta, checking it against the installed files ends with success or an error, with both levels of checking: no read outside of a buffer, no use of memory that was never set, no release of a pointer twice or of one that was not allocated, whatever is on disk and whether or not prelinking can be undone. (Found false: an ELF file on disk whose section names cannot be read; see also C10 for hostile sequences.)", "quantifier": "all delta files that the reader accepts, all installed packages, all contents of the disk, all behaviours of the codec, hash, librpm and prelink programs", "why_tests_cant": "Tests check one or two packages with unchanged files; what lies on disk can be anything, and the failing case needs an ELF file that is damaged in a certain field.", "anchors": ["src/drpm.c: drpm_check", "src/drpm_apply.c: expand_sequence, check_full, check_filesize, check_prelink, is_prelinked"]}
{"id": "C54", "title": "Failing and short reads do not mislead checks", "statement": "The full check of an installed file decides the same however the operating system splits the reads, and a read that fails is reported as such; it never makes the check accept anything but data with the recorded digest. (Found false: check_full does not look at the result of its last read, so that a failing read is reported as a changed file, and a first read that fails or is shorter than an ELF header makes a prelinked file look changed.)", "quantifier": "all files, sizes and digests, all lists of outcomes of successive calls of read (failure, or any number of bytes)", "why_tests_cant": "Reads of local files neither fail nor are short in tests; the outcomes and their combinations are unbounded.", "anchors": ["src/drpm_apply.c: check_full, check_prelink"]}
