# Formal model of drpm: design

Source: `rpm-software-management/drpm`, C, `/repo` at the pinned commit.  Model
and proofs: Rocq/Coq 8.16.1 in `rocq/theories`.

## Conventions of the model

* A byte is a `Z` in `[0,256)`; a buffer is a `list Z`.  C integers are `Z`
  with explicit reduction (`u8`, `u16`, `u32`, `u64`) wherever the C code does
  arithmetic that can wrap and the property depends on it.
* Every modelled C function returns `res A`:
  `Ok a` | `Err e` (a `DRPM_ERR_*` code) | `Ub u` (the C program has undefined
  behaviour here: out-of-bounds read or write, bad shift, bad free,
  use of uninitialised memory, null dereference) | `NoFuel` (the loop bound
  given to the Coq function ran out; theorems show this does not happen).
  Memory accesses go through checked accessors, so "the result is not `Ub`" is
  memory safety of the modelled accesses.
* Loops are functions on an explicit state with fuel; each theorem gives the fuel
  that is enough, so termination is part of what is proved.
* Things outside the source tree are parameters of the theorems, never axioms:
  codecs (zlib, bz2, lzma, zstd), MD5/SHA-256, librpm header parsing, the
  content of the file system.  What a theorem needs of them is a
  hypothesis visible in its statement.

## Trusted base

* The Coq 8.16.1 kernel (including `vm_compute`, used for concrete examples and
  witnesses).
* Axioms: none.  `Print Assumptions` stands beneath every property theorem and
  says "Closed under the global context" for all of them.
* That the model says what the C code says.  Every definition cites file and
  lines; where it simplifies, its comment says how.
* Hypotheses about things outside the source tree, visible in each statement:
  `codec_ok` (a codec decodes what it encoded however both are cut into pieces,
  output starts with the codec's magic), `md5_16` (16 bytes), `readable`
  (librpm reads back a header it wrote), `librpm_sane` (headers of 8 bytes to 2 GiB), `standard_target_ok` (librpm changes
  the payload format to and fro).  The toy libraries in `ToyCodec`, `ToyLibs`, `MakeCases`
  and `MakeSafeCases` meet all of them, so that they are not contradictory.

## Modelled code

Build configuration: with zstd, without lzlib.

| file of /repo/src | model | not modelled |
|---|---|---|
| `drpm_search.c` | `Search` (hash variant), `Suffix` (suffix sort variant, compiled but not called) | |
| `drpm_diff.c` | `Diff` | which blocks are freed in cleanup |
| `drpm_deltarpm.c` | `DeltaComp` | |
| `drpm_utils.c` | `Utils`, `CpioHeader` | |
| `drpm_compstrm.c`, `drpm_decompstrm.c` | `Stream`: a chunk goes to an abstract codec; `CodecLoop`: initialisation of encoders, loops around `deflate`, `inflate`, `lzma_code` etc. over an abstract library; `CodecUse`: initialisation of decoders, choice of the library | lzip (not built in); failing allocations |
| `drpm_write.c` | `DeltaWrite`, wrapper in `Stream` | |
| `drpm_read.c` | `DeltaRead`, `Handle` (`deltarpm_to_drpm`) | |
| `drpm_options.c` | `Options`; with failing allocations: `OptionsScarce` | |
| `drpm_rpm.c` | `Rpm`, `Ident` (look-up of the installed package) | librpm itself |
| `drpm_make.c` | `Seq` (order coding), `Archive` (parser), `Make` (no-diff delta), `Patches` (lists of patched files) | |
| `drpm_apply.c` | `Expand`, `Check` (checks of installed files), `CheckIo` (the same with failing and short reads), `Prelink` (`is_prelinked`), `PrelinkOpen` (`prelink_open`; what the prelink program does is a parameter) | |
| `drpm_block.c` | `Blocks` (cache), `Fill` (old RPM as source), `FsFill` (installed files and prelinked files as source) | release of memory |
| `drpm.c` | `Make`, `Apply`, `Ident` (`drpm_check_sequence`), `Handle` (`drpm_read`, getters), `Strerror` | |

Also not modelled in these files: failure of `malloc`/`realloc` (allocation *sizes* are modelled
where they matter; for failures see `OptionsScarce` and the next section), errors of `read` and `lseek` other than end of file (but see `CheckIo`) and errors reported only by
`close` (for failing and short writes see `DiskOut`), the C compiler.

## The second model: ownership

`Own*.v` are a second, coarser model of the same code, in which only resources exist: blocks of memory, librpm objects, codec
states, file descriptors.  `Own` has the state (which resources are alive) and the operations: obtaining, releasing, using a
pointer; a release or a use of something that is not alive is the distinct outcome `Bad`.  Data are abstracted: every
branch that depends on data and every call that can fail is decided by the next number of a list, over which the theorems
quantify, so that they hold for more executions than the program has.  Unlike in the first model, allocations can fail.
`env` says which rare failures can happen: of allocations, of the hash functions, of the page file, of section tables of ELF
files that `is_prelinked` gives up on late, of `prelink`; `calm` is none, `wild` is all.

| file of /repo/src | model |
|---|---|
| `drpm_decompstrm.c`, `drpm_compstrm.c`, wrapper of `drpm_write.c` | `OwnCodec` |
| `drpm_rpm.c` | `OwnRpm` |
| `drpm_read.c`, `drpm_options.c`, `drpm_deltarpm.c` (`free_deltarpm`), `drpm.c` (`drpm_read`, `drpm_destroy`, getters) | `OwnRead`; programs that call these in any order: `OwnClient` |
| `drpm_apply.c`, `drpm.c` (`drpm_check`, `drpm_check_sequence`) | `OwnCheck` |
| `drpm_make.c` (without patches), `drpm_diff.c`, `drpm_search.c` (`hash_create`, `hash_free`), `drpm_write.c`, `drpm.c` (`drpm_make`) | `OwnMake` |
| `drpm_make.c` (patches), `drpm.c` (`drpm_make`, as far as it is about patches) | `OwnPatches` |
| `drpm_search.c` (suffix sort) | `OwnSuffix` |
| `drpm_block.c` | `OwnBlocks`; MAX_CORE_BLOCKS and MAX_OPEN_FILES are parameters |
| `drpm.c` (`drpm_apply`) | `OwnApply` |

Two simplifications: numbers of resources are never used again (an address may be, which hides errors, never makes them);
`malloc(0)` is taken to succeed.

## Where the properties are

`Props*.v` hold the property theorems and their concrete cases, `Spec*.v` the vocabulary of their statements, the
model files are those in the table above, everything else is proof.

* `PropsDiff`: C01-C04.  `PropsCodec`: C23, C24, C28, C36.  `PropsStream`: C25-C27.
* `PropsFormat`: C05-C08, C30; `PropsWire`: the bytes of the format for C05.  `PropsSeq`: C09, C10.
* `PropsArchive`: C11, C29, C34, C38 and the offsets of C04.
* `PropsBlocks`: C13.  `PropsFill`: C14, C15, C38.  `PropsApply`: C17, C18.  `PropsApplySafe`, `PropsInstalledSafe`, `PropsApplyFaults`: C40.  `PropsCheckSafe`: C53.  `PropsCheckIo`: C54.
  `PropsMakeSafe`: C44.
  `PropsLoop`, `PropsUse`: C41.
  `PropsOwn`, `PropsOwnMake`, `PropsOwnApply`, `PropsOwnPatches`, `PropsOwnSuffix`: C45, C46.
  `PropsFs`: C16.
* `PropsMake`: C19, C20, C33, C39.  `PropsIdent`: C12, C32.  `PropsCheck`: C31, C35.  `PropsPrelinkOpen`: C49.  `PropsRpm`: C50.
* `PropsInstalled`: C42, C43.  `PropsHandle`: C22.  `PropsOptions`: C21.  `PropsScarce`: C51.  `PropsDisk`: C52.  `PropsPatches`: C37.
* `PropsSuffix`: C47, C48.

## Findings

Claims that are false of the code have a theorem ending in `_refuted` with a concrete witness.  The causes found so far:

* C03: `create_diff_copies` cannot express distances of 2 GiB and more.
* C08: sizes of the arrays of pairs are computed in 32 bits (a crafted delta makes the reader write outside them).
* C10: the expansion of a crafted sequence writes behind its table, or shifts by 64 and more.
* C11, C15: contents of directory entries, padding that is not zero and repeated entries are treated differently when
  making and applying.
* C16: the reader of installed files uses the number of a file as the number of an entry of the sequence (a file skipped or
  moved by the sequence makes it read the wrong file or outside a table), and does not clear the reference to a handle
  that it takes for another file (wrong contents with more than 50 files).  Making the blocks around a prelinked file
  copies from behind a link target if a block starts inside it, and reads behind the table of blocks if the
  recorded length of the archive is too short.
* C17: a delta whose output is shorter than the declared header makes apply hash uninitialised memory.
* C20: the delta of a single package is applied by writing the archive without compression.
* C21: copying options onto themselves loses their strings; destroying them twice dereferences NULL.
* C22: the buffers of a handle for a delta with parameters of 2^63 bytes and more are too short (the size wraps).
* C26: a format error of the decoder counts as the end of the archive.
* C27: an add block that is not compressed is misread if it is shorter than 8 bytes or starts with a codec's magic.
* C29: one offset adjustment cannot express gaps of 2^32 and more.
* C30: format versions 1 and 2 cut lengths to 32 bits without an error.
* C33: a standard delta for a target that does not name its codec can be made but not read.
* C31: the full check accepts a file longer than recorded; a missing file is an I/O error there, while the file size check
  reports it as not installed.
* C49: if prelink fails, the temporary file made for its output is taken as the output: a prelinked file is then reported as
  changed, not as unreadable.
* C50: a compression level in the header that is no number counts as 0 or wraps around; the one of packages compressed by
  several threads ("19T8") makes `drpm_make` fail.
* C52: `write_seqfile` checks neither `fprintf` nor `fclose`; on a full disk `drpm_make` returns success with an empty or cut
  sequence file.
* C51: when memory runs out, `drpm_make_options_copy` returns success without the rest of the strings, so that `drpm_make`
  leaves out the sequence file or the patches; `drpm_make_options_add_patches` can leave a string that was never written.
* C35: `is_prelinked` frees a pointer into the middle of the section table if the section of names is unusable.
* C37: reading patch lists is undefined whatever they contain (`struct rpm_patches` and `filename_len` are never set); even
  with zeroed memory strings are not skipped, MD5 sums are not read and names are not copied.
* C47: `sfxsrt_create` reads the first byte of a text that has none (no caller, as the hash variant is in use).
* C48: the comparison in `suffix_search` looks at the length of the shorter text only, so a suffix with which the rest of the
  new text starts counts as not smaller, and halving goes to the wrong side: in a text of one byte repeated, the
  search finds matches of two bytes at most.
* C38: an archive entry without a name makes the parser read before the name.
* C41: the loop of `readchunk_zstd` ends when the input is used up.  If the last call filled the output buffer of 128 KiB, what
  the library still holds is lost: the last chunk of a payload that ends with a full block and a short one, say.  So
  the assumption `codec_ok` of C05, C24, C25, C33 and C39 is justified by `C41_codec_partial` for gzip, bzip2, lzma and xz, and pieces below 4 GiB, but
  for zstd only for less than 128 KiB.  Also: levels 10 to 99 (a delta may ask for them) leave the options of lzma uninitialised, and are rejected by gzip and bzip2 without
  drpm noticing, and a stream is used that was never set up (`Stream` and so C40 treat every initialisation as a success or an error); a
  piece of 2^32 bytes given to gzip or bzip2 is dropped.
* C42: a consequence of the first cause for C16: deltas from packages with a configuration file (or another file that deltas do not
  use) before a file with contents cannot be applied to what is installed.
* C53: one ELF file on disk with a section of names of another type is enough for `drpm_check` to free a pointer into the middle of an
  allocation, with a sound delta and package (`C53_names_refuted`; the cause is that of C35).  A delta made for a package of the same name with one file more
  makes it read behind the table of files (`C53_sequence_refuted`).
* C54: `check_full` does not look at the result of its last `read` (line 361; `check_prelink` does): an error of reading is reported as
  a changed file (`C54_error_refuted`).  If the first `read` fails (line 346), the file is not looked at for prelinking (`C54_short_refuted`).
* C40: a delta that declares 2^31 copies more than it has makes apply read behind the array of copies; the size of the
  signature in a delta is taken from the signature alone, and data behind it is read.
  With installed files there is more: the order of the files is an array with one element for each file that the sequence lists, but
  `fillblock_filesystem` passes numbers of files of the package to `get_open_file` and `open_new_file`, which take them for places in
  the list (a cause of C16 and C42).  If a file with contents has a number not below the length of the list, the array is read behind its
  end (`C40_place_refuted`: a delta that `drpm_make` wrote for two sound packages, applied to unchanged files).

* C44: three of these reach `drpm_make` from the files it is given: archives of 1 to 15 bytes (C02), empty names (C38), long
  digests (C10).

* C45: without memory `rpm_read_header` calls `rpm_free` on a struct it has not initialised (drpm_rpm.c line 1021), and, if the header
  cannot be exported, releases the header that belongs to the iterator, which is then released again; `is_prelinked` passes a pointer into
  a block to `free` (C35); `drpm_make_options_destroy` does not accept the null pointer it leaves behind.
  `drpm_make` without memory: `make_diff` calls `hash_free` after `hash_create` failed (a null pointer or a released struct is
  followed); the old archive of an RPM-only delta is released twice if the new one cannot grow (drpm.c lines 421-425);
  `fill_nodiff_deltarpm` destroys a package variable it has not set; with a failing hash function it releases the archive
  twice (`rpm_read_archive` stores the result of `realloc` too late).
  With lists of patched files `drpm_make` goes wrong in every execution, since `patches_read` never sets the members of its
  struct (C37); and if that memory is zero, names that end too early are released twice, and so are blocks of file names.
  `drpm_apply` without memory: `blocks_destroy` follows the struct that `blocks_create` released; a header that could not be
  reloaded is passed to librpm; `compstrm_wrapper_finish` leaves a pointer to data it has released.  Without a temporary file
  (or space in it) `write_page_block` releases a block that stays in its list.  If `prelink` cannot undo its work
  `fillblock_prelink` closes a descriptor twice.
* C46: every successful check of an installed package leaks the exported header; a `drpm_read` that fails while it reads
  the header of the target (a truncated delta, say) leaks a package, and one that fails at the end its handle; zstd buffers are not
  released after a decompression error.  `drpm_make` leaks its copy of the options if their version does not fit, the new
  package of a standard delta if it cannot be read or its header is not as expected, and all of `write_deltarpm` if it returns early.
  `patches_read` leaks a package given as print, and names of files that end too early.
  `drpm_apply` returns without releasing anything if no package is given and the delta is RPM-only or of a source package; with
  an installed package it always leaks the exported header.

## Plan by property

| id | what is modelled | how it is proved |
|----|------------------|------------------|
| C01 | `make_diff`, `create_diff_copies`, `create_int_data_array`, reconstruction loop of `drpm_apply` | loop invariant "copies so far reproduce `new[0..new_pos_prev)`", then decode lemma for the copy arrays |
| C02 | `buzhash`, `hash_create`, `hash_search`, `match_len` with checked reads | invariant on the hash table (entries in bounds) and on the search state; lexicographic measure for termination |
| C03 | `create_diff_copies` with signed/unsigned 32/64 bit arithmetic | induction over the diff list; `_refuted` witness for extents of 2 GiB and more |
| C04 | sign-magnitude code of writer and reader | arithmetic; invariant "never -2^31" over `create_diff_copies` and the offset adjustments |
| C05 | `write_deltarpm`, `read_deltarpm`, `readdelta_*` over a byte stream + codec parameters | serialise/parse round trip; the format written out as a list of fields (`SpecWire`), so that a change made to reader and writer alike is not a round trip of the wrong format |
| C06 | as C05 | monotonicity of the parser in its input: success on a prefix implies same result on the whole, and consumption count |
| C07 | `readdelta_rest` | inversion of the parser |
| C08 | `readdelta_rest`, `readdelta_rpmonly` with allocation sizes and checked writes | `_refuted` by witness files, `_partial` theorem under bounds |
| C09 | `seq_append/add/final`, nibble decoder of `expand_sequence` | induction over the index list with a decoder-state invariant |
| C10 | nibble decoder with checked table | `_refuted` witness; safety for sequences from make |
| C11 | digest input of both sides | equality of the two byte strings, hash as parameter |
| C12 | `write_seqfile`, parsing part of `drpm_check_sequence` | string lemmas |
| C13 | `blocks_create`, `blocks_next`, `get_block` and the cache primitives | refinement to a direct slice of the external data; invariant on cache + table |
| C14 | `fillblock_rpm_rpmonly` | block arithmetic; instance of C13 |
| C15 | `parse_cpio_from_rpm_filedata`, `fillblock_rpm_standard`, offsets in `expand_sequence` | both are shown equal to one altered-archive specification |
| C16 | `fillblock_filesystem`, `open_new_file`, `get_open_file` | `_refuted` witnesses; `_partial` for files in place and few open ones, with prelinked files (`fillblock_prelink` makes all blocks of the file at once and the cache must agree with the archive after each) |
| C17 | stages of `drpm_apply`, `compstrm_wrapper_*`, `compstrm_*` | invariant "bytes in file = bytes hashed" |
| C18 | head of `drpm_apply` | case analysis |
| C19 | composition of all of the above for rpm-only | composition of C01, C05, C13, C14, C25 |
| C20 | `fill_nodiff_deltarpm`, no-diff branch of `drpm_apply`, `rpm_write` | `_refuted` for compressed payloads, `_partial` for uncompressed |
| C21 | `drpm_options.c` | refinement of a record, invariant on buffer capacities over call histories |
| C22 | getters of `drpm.c` | case analysis over all integers |
| C23 | `drpm_utils.c` codecs | arithmetic, induction |
| C24 | `cpio_header_read/write` | induction on hex digits |
| C25 | `compstrm_*`, `decompstrm_*` | induction over the schedule of calls |
| C26 | `decompstrm_read_until_eof` | `_refuted` witness |
| C27 | `decompstrm_init` magic detection | arithmetic on leading bytes; `_refuted` for add blocks |
| C28 | `deltarpm_encode_comp/decode_comp` | case analysis + arithmetic |
| C29 | offset adjustment part of `parse_cpio_from_rpm_filedata` | invariant over the entry loop |
| C30 | length fields of `write_deltarpm` | `_refuted` witness (arithmetic), round trip below 2^32 |
| C31 | `check_filesize`, `check_full` | induction over read chunks; with C35 for prelinked files |
| C32 | splitting code of `rpm_read_header` | string lemmas |
| C33 | `rpm_get_comp`, `readdelta_standard`, `drpm_make` | `_refuted` |
| C34 | `resize16/32`, `cpio_extend`, `seq_append` | invariant on capacity |
| C35 | `is_prelinked` allocation discipline | `_refuted` |
| C36 | `drpm_strerror` | case analysis |
| C37 | `read_rpmlist`, `patches_read`, `is_unpatched` | `_refuted` for all lists; `is_unpatched` by case analysis |
| C38 | name handling of the archive parsers | `_refuted` |
| C39 | as C19, for standard deltas | composition of C01, C05, C11, C15, C25, C29 |
| C41 | `CodecLoop` and `CodecUse` over libraries that keep the contracts of `SpecLoop` and `SpecUse` | invariant of the contract, bound of the output still to come; the abstract codec of `Stream` is what these loops compute |
| C40 | `drpm_apply` with an old RPM | the source of blocks is replaced by one that yields zeros after an error, which refines the code up to errors; C07, C10, C13, C38 |
| C40 | `drpm_apply` with installed files | cache and open files over a disk that may hold anything (`DirectSafe`, `FsSafe`); `_refuted` for files listed by a number not below the length of the list |
| C40 | `drpm_apply` with any sequence | `ApplyFaults`: after `expand_sequence` the proof of C40 applies; before it the bounds of C10 (`SpecFaults`) |
| C53 | `drpm_check` | a check that refuses what `expand_sequence` never asks for (digests of another length, size 0) gives the same result; the two checks are defined on all else (`CheckSafe`); for any sequence only the faults in `SpecFaults`; `_refuted` for ELF files with unreadable section names |
| C54 | `CheckIo`: the checks with a list of outcomes of `read` | induction over the reads: what is hashed is a beginning of the file, all of it unless a read fails; `_refuted` for errors and short first reads |
| C42 | as C39, with installed files | composition of C39 and C16; `_refuted` for a package with a configuration file in front |
| C43 | as C42, with `drpm_check` | composition of C42 and C31 |

The status of every property is in `MANIFEST.json`.
| C44 | `drpm_make` | composition of C02, C34, C38; fuel and bounds of the diff for data of any size; `_refuted` for short archives, empty names, long digests |
| C45, C46 | `Own*.v` | weakest preconditions that count, for every resource, how often it is alive and how often the variables own it |
| C47 | `sfxsrt_create`: `bucketsort`, `suffix_split`, the passes over the array | classes of positions that agree in the first `h` bytes of the padded text, refined until all are alone |
| C48 | `suffix_search`, `sfxsrt_search` | neighbours of the place of the new text; `_refuted` for texts that end like the new one starts |
| C49 | `prelink_open` | cases of what the system answers; `_refuted` for failures of the program |
| C50 | `rpm_read`, `rpm_get_comp`, `rpm_get_comp_level`, `rpm_get_payload_format`, `rpm_get_file_info`, `rpm_find_payload_format_offset` | the format written out with literals (`SpecRpm`); `_refuted` for levels that are no numbers |
| C51 | `OptionsScarce`; the same calls with the outcome of every allocation | replay of the returned codes on plain records (`SpecScarce`); with enough memory the calls are those of C21; `_refuted` for copies and for patches given the first time |
| C52 | `DiskOut`; the writing parts of the model with the outcome of every write | a relation between programs with and without failing writes, kept by sequencing (`sim` in `DiskProofs`); statement in `SpecDisk`; `_refuted` for the sequence file |
