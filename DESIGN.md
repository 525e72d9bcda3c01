# Design of the model and of the proofs

Subject: davitkalantaryan/zlib_with_tools, sources in /repo (read as text, never built or run).
The Unix (Linux, LP64, glibc) build is modelled, and the `#ifdef _WIN32` / `_MSC_VER` branches of the extraction, of the
archiving and of the programs (files Win*.v, Icon.v, AptGet.v); what is left out is named under "Modelled / not modelled".

## Modelling decisions

* **Bytes and sizes.** Bytes are `Coq.Init.Byte.byte`, memory contents are lists of bytes,
  sizes are `N`.  Casts to `uInt`/`uint32_t` are explicit (`mod 2^32`), `uint64_t`/`size_t`
  subtraction wraps explicitly (`mod 2^64`).
* **Host byte order** is a parameter; `htole*`/`le*toh` and loads/stores are modelled over it.
* **zlib** is an external library (the submodule is empty in /repo).  It enters as a record of
  functions (`deflateInit`, `deflate`, `inflateInit`, `inflate`, each seeing the bytes available and
  the output room) and a contract record that states what zlib's manual promises: bounds on
  consumption and production, output order, prefix property, completeness when the output
  buffer was not filled, progress, error codes.  For deflate the flush value is the one the library passes
  (Z_PARTIAL_FLUSH); zlib's own allocations inside of inflate do not fail, and streams that need a
  preset dictionary count as damaged.  The theorems are for *every* implementation meeting the contract.  A small
  concrete codec is shown to meet it (so the contract is satisfiable) and it serves as the
  witness for refuted statements.  Nothing about zlib is an axiom: it is a hypothesis of the
  theorem, discharged for the concrete codec.
* **Loops and recursion** run on fuel; running out of fuel is a distinct outcome, never a normal
  result.  "Returns" = some fuel gives a result (and more fuel gives the same);
  "does not return" = every fuel runs out.
* **Undefined behaviour, failed assertions, NULL dereferences** are a distinct outcome (`UB`).
* **User callbacks** are recorded as events in call order.  High level (file system) callbacks are
  interpreters of these events over a file system model.
* **External results** that the code cannot control (allocation success, contents of
  uninitialised memory, file open/stat/read failures, filter answers, disk space) are
  parameters over which the theorems quantify.
* **File system.** A map from absolute paths (lists of names) to inodes (directory with mode,
  file with mode and bytes, symbolic link), with path-string resolution (`/`-splitting, `.`, `..`,
  symbolic links with a 40 link limit, search permission, PATH_MAX, NAME_MAX), a working directory, a
  umask, a privilege flag and open descriptors.  Every inode belongs to the
  process owner, so only the owner permission bits matter; hard links are not modelled.

## Files (rocq/theories)

| file | contents |
|---|---|
| Base.v | byte lists, takeN/dropN, little endian codecs, outcomes |
| Format.v | archive constants, padded lengths, header and record images, host byte order |
| Zlib.v | zlib interface and contract |
| RleZlib.v | concrete codec meeting the contract |
| LLCompress.v | zlibwt_ll_compression_routines.c |
| CompressFacts.v, CompressExamples.v | lemmas on compression sessions, concrete sessions |
| Parser.v, ParserProofs.v, ParserFacts.v | zlibwt_decompress_routines_version_0000.c (directory decoder) and lemmas |
| Decompress.v, DecompressProofs.v, DecompressFacts.v | zlibwt_ll_decompress_routines.c, zlibwt_decompress_routines.c and lemmas |
| MidProofs.v, MidFacts.v, DecompressExamples.v | lemmas on whole decompression sessions, concrete sessions |
| Compress.v | zlibwt_compression_routines.c |
| ArchiveSpec.v | specification: traversal, records, what callbacks present |
| ArchiveFacts.v, ArchiveDecode.v, ArchiveEntry.v, ArchiveProps.v, ArchiveExamples.v | lemmas on archives, concrete archives |
| FS.v, FSFacts.v | file system and system calls, programs over them |
| HL.v | zlibwt_hl_decompress_routines.c |
| HLSpec.v | specification: trees on disk, overlay, what can be extracted |
| HLFacts.v, HLDrive.v, HLProps.v | extraction of complete archives |
| HLSafe.v, HLTame.v, HLMore.v | extraction of arbitrary archives |
| MkdirFacts.v, HLMkdir.v | recursive directory creation |
| HLExamples.v | concrete extractions |
| ArgParser.v | common_argument_parser.cpp |
| ArgSpec.v | specification: reading arguments from left to right, help lines, names of registrations |
| ArgFacts.v, ArgMore.v, ArgExamples.v, ArgPlain.v | lemmas on the command line parser, concrete option sets |
| Tools.v | main_self_extract.c, main_compressdir.cpp |
| ToolsSpec.v | specification: what an archive unpacks to, what the self extract tool must leave out |
| ToolsFacts.v, ToolsMore.v, ToolsExamples.v | lemmas on the tools, concrete runs |
| Conc.v | two threads: interleaved system calls |
| ConcFacts.v, ConcTame.v | frame conditions, simulation of an interleaving by two runs alone |
| Sessions.v, SessionsFacts.v | any number of sessions, independence of the contents of buffers |
| ConcExamples.v | concrete schedules and histories |
| SelfRun.v, SelfRunFacts.v, SelfRunExamples.v | running a self extracting file (main_self_extract.c), compressdir followed by extraction |
| HaltFacts.v | termination of sessions and extractions |
| RobustFacts.v, RobustExamples.v | damaged data, failing calls and allocations |
| LinkFacts.v, LinkMore.v, LinkExamples.v, LinkMoreExamples.v | symbolic links on disk |
| AptGet.v, AptGetFacts.v, AptGetExamples.v | main_apt-get.cpp: memory of byte cells that may be unwritten, downloads and files as parameters |
| Icon.v, IconFacts.v | resource_handler_windows.c, resource_handler_unix.c over a model of the resource update functions |
| FlushFacts.v | flush values of decompress calls |
| InitFacts.v, InitExamples.v | two runs with different uninitialised memory |
| Properties_*.v | only the property theorems, each `exact lemma.`, with `Print Assumptions` |
| TestTools.v | programs in src/tests |
| TestToolsFacts.v, TestToolsProps.v, TestToolsSafe.v, TestToolsExamples.v | lemmas on them, concrete runs |
| Properties_Tests.v | properties C92–C98 |
| CutSpec.v, CutFacts.v, CutRun.v, CutProps.v, CutExamples.v | extraction of a beginning of an archive, full disk, read errors |
| Unique.v | archives of different directories are different |
| Crash.v, CrashExamples.v | states in which a running extraction can be killed |
| CopySpec.v, CopyFacts.v, CopyExamples.v | specification: listing of a directory of the file system, copy; archiving followed by extraction |
| ToolsCut.v, CutTools.v | compressdir killed or with a full disk |
| SelfBoot.v, SelfBootFacts.v | main_self_extract.c: argument vector and name of the executable |
| StackFacts.v, BlockFacts.v, ResourceFacts.v, ResourceExamples.v | nesting, memory, size of archives |
| PathWalk.v | zlibwt_compression_routines.c: traversal with its path strings over the file system |
| PathFacts.v, PathExamples.v | lemmas on it, concrete directories |
| LiveWalk.v | zlibwt_compression_routines.c and main_compressdir.cpp with the output file in the archived folder |
| LiveFacts.v, LiveProps.v, LiveEndless.v, LiveExamples.v | lemmas on it, a codec that stores bytes, concrete folders |
| FormatSpec.v | no code: the layout of an archive with literal numbers |
| FormatFacts.v, FormatExamples.v | equivalence of the layout with what is written and read |
| WinTools.v | Windows branches of zlibwt_hl_decompress_routines.c:78-172 and main_self_extract.c:326-341 |
| WinFacts.v, WinExamples.v | lemmas on them, concrete paths |
| DamageFacts.v, DamageExamples.v | lemmas on changed archives of files |
| MkdirMore.v, MkdirMoreExamples.v | results of `mkdir_recurse` |
| WinExtract.v | Windows: zlibwt_hl_decompress_routines.c:78-172, 195-468 over a Windows file system |
| WinExtractSpec.v, WinExtractFacts.v, WinExtractTame.v, WinExtractExamples.v | specification and proofs |
| WinCase.v | names that differ only in the case of letters |
| Hostile.v, HostileWin.v, HostileExamples.v | specification and proofs |
| WinKeep.v, Keep.v, KeepExamples.v | specification and proofs |
| Fds.v, WinFds.v, Report.v, ReportExamples.v | proofs |
| WinArchive.v | archiving on Windows: zlibwt_compression_routines.c with `_WIN32` |
| WinArchiveSpec.v | specifications of C135-C137 |
| WinArchiveFacts.v, WinArchiveProps.v, WinCopy.v, WinArchiveExamples.v | proofs, concrete runs |
| Env.v | other processes: changes of the file system between two system calls |
| EnvFacts.v, EnvExamples.v | proofs, concrete runs |
| WinCd.v | main_compressdir.cpp with `_WIN32` |
| WinCdSpec.v | specification of C139 |
| WinCdFacts.v, WinCdExamples.v | proofs, concrete runs |
| WinSelf.v | main_self_extract.c with `_WIN32`: build and run |
| WinSelfFacts.v, WinSelfRunFacts.v, WinSelfExamples.v | proofs for build and run, concrete runs |
| FuelFacts.v | a run that ends has the same result with more fuel |
| AgainFacts.v, AgainExamples.v | archiving a directory that was extracted, concrete runs |
| AptMore.v | command lines of the installer, icons on Unix |
| BothFacts.v, BothExamples.v | one archive extracted on Unix and on Windows, concrete runs |
| CrossFacts.v, CrossExamples.v | directories taken from one system to the other, concrete cases |
| WellFormed.v, WellFormedExamples.v | extraction leaves the file system a tree, concrete cases |
| WinParents.v, WinParentsExamples.v | missing parents of the target on Windows, concrete cases |
| ReadFacts.v, ReadExamples.v | archiving with missing permissions, concrete cases |
| SameFacts.v, SameExamples.v, SameWin.v | archives of one directory, concrete cases |
| BehindFacts.v, BehindExamples.v | bytes behind an archive, concrete cases |
| LevelFacts.v | archiving with an invalid level |
| NoneFacts.v | extracting files that are not archives |
| GrowFacts.v | what the callbacks stand for, and the space taken |
| GrowExamples.v | examples for C155 |
| WinMore.v | C43, C44 and C101 for the Windows branch of the extraction, with examples |
| Properties_WinMore.v | the theorems |
| ArgNames.v | C57: the keys and the help entry that a registration text stands for, with an example |
| Properties_ArgNames.v | the theorems |
| WinReport.v | C134 for the Windows branch of the extraction, with examples |
| Properties_WinReport.v | the theorems |
| JunkMore.v | C04: every record of an archive has uninitialised bytes of its own |
| Properties_Junk.v | the theorem |
| WinCut.v | C127 for archives of files that are cut off, with an example |
| Properties_WinCut.v | the theorem |
| WinCutDir.v | C99 on Windows: beginnings of archives of directories, with an example |
| Properties_WinCutDir.v | the theorem |
| ReadCopy.v | C150: extraction of an archive of a directory of which not everything could be read; its example |

## Per property plan

"proved": statement proved as given.  "refuted+partial": the statement is false of the code; a
`_refuted` theorem exhibits a witness in the model and a `_partial` theorem proves the strongest
true version.

| id | model | how |
|---|---|---|
| C01 | `norm_len32/64` with the C wrap-around | arithmetic (`lia`), all values |
| C02, C03 | `header_image`, `item_image`, stores/loads per byte order | codec lemmas for both byte orders |
| C04 | `compress_dir` with an uninitialised-memory oracle | refuted (two oracles, different bytes) + partial: the difference is confined to unused bytes |
| C05 | `csess_run` over call histories | invariant with zlib ghost (input so far, output so far) |
| C06 | same | refuted with the concrete codec + partial = C05 |
| C07 | callback log of `compress` | induction on the loop and on the history |
| C08 | `compress` fuel | well-founded measure from the contract |
| C09 | `compress` with room 0 | refuted: for every fuel out of fuel |
| C10 | `compress` casts size | refuted for length 2^32 (generic in the list) + partial below 2^32 |
| C11 | `create_session` | case analysis + C05 |
| C12 | `run` loop with user callback | invariant: delivered = prefix of decoded |
| C13, C14 | same | refuted with the concrete codec; partial = C12 |
| C15 | same | contract clause on invalid prefixes lifted to histories |
| C16 | same | measure |
| C17 | `decompress_call` histories, header callback | invariant: header bytes = first 128 plaintext bytes |
| C18 | `dir_parse` | refinement to a byte-at-a-time automaton |
| C19 | same | refuted + partial (target inside one chunk) |
| C20 | `dir_parse` with bounds checks giving `UB` | invariant preservation |
| C21 | events of `dir_parse` | invariant over the automaton |
| C22 | same | fold over bytes is a prefix fold |
| C23 | `header_cb` | refuted (second call reaches `UB`) + partial (single call) |
| C24, C25 | `version_0000_cb`, blob callback | case analysis, invariants over histories |
| C26 | `dir_parse` fuel | ranking function |
| C27 | `compress_file` ∘ decoder | C05 + C12 + C25 |
| C28 | `compress_file` | refuted (`UB` outcome) + partial for valid levels |
| C29 | `walk` ∘ `dir_parse` | induction on the tree, both for plaintext and for sessions |
| C30–C33 | `walk` with stateful filter | induction on the tree against a small specification of the traversal |
| C34 | `walk` with status size ≠ content length | refuted + partial |
| C35–C37 | extra buffer functions | parse of the written bytes; C37 refuted + partial |
| C38 | allocation ledger of the four entry points | refuted + partial |
| C39, C40 | `extract` over FS | refuted (empty directory, empty file) + partial: induction on the tree with a frame condition |
| C41, C45, C53 | same | refuted by concrete archives + partial: invariant over callback sequences with plain names (`tame`) |
| C42 | same | refuted + partial: after a failed start nothing succeeds, calls never remove entries |
| C43 | same | refuted (truncated archive) + partial: the first callback decides the result (also on Windows: `xextract`) |
| C44 | `extract_loop`, `xextract` | induction on the input |
| C46, C47 | `mkdir_recurse` over FS | induction on missing levels; C47 refuted + partial |
| C48 | `cb_sym` | refuted + partial: case analysis, induction over events |
| C49 | `interleave`: two `extract` programs over one FS, one system call at a time | refuted by two schedules + partial: each system call of a run alone keeps to its target, hence the runs commute |
| C50 | `run_all`: histories of creating, using, destroying sessions, buffers overwritten in between | the state of a session without the contents of its buffers determines what it does (relational invariant of `run`), then projection |
| C51 | FS with limited space | refuted + partial |
| C52 | unprivileged owner | refuted + partial for privileged processes |
| C54, C55 | archives with extra buffers | refuted + partial: C39 generalised to arbitrary record lists |
| C56 | `parse`: argument cells, moved in place, with a log of the cells read; NULL cell = `UB` | refuted (read of the NULL, read of a stale cell) + partial: every unknown argument is followed by a known one |
| C57 | same | simulation of the in-place loop by `scan` (a left to right reading of the argument list) |
| C58 | same | measure: argument count minus index |
| C59 | `help_string` over sequences of registrations | invariant: widest name so far |
| C60 | `add_option`, `clear` over a heap of option objects; deleting a dead object = `UB` | refuted (three witnesses) + partial: invariant that keys of live objects are disjoint |
| C61 | `add_option`, `parse`, `value_right`, `value_left` | refuted + partial: defaults of each kind of option, through C57 |
| C62 | `se_main`: copy loop with arbitrary short reads, writes at an offset, `compress_dir` | loop invariants, offsets |
| C63 | `se_filter` (two flags) in `compress_dir` | refuted (two witnesses) + partial: the filter with memory is simulated by one without |
| C64 | `cd_main`: options, parser, `compress_dir`, limited disk space | refuted (three witnesses) + partial: case analysis, C29 for the contents |
| C65 | same | refuted (for every long enough folder name) + partial by symbolic execution of the parser |
| C66, C67 | `se_main` with arbitrary results of fread and write | refuted; C66 partial: the run with failing writes is compared with one without; C67 partial by a measure |
| C68 | `se_main` then `se_go`: extraction to .out_dir, starting programs (arbitrary results) | refuted (nothing packed) + partial: C62, C63 and C39 composed |
| C69–C72 | `se_go` | refuted by concrete runs + partial: case analysis; C72 by the result of `extract` (C43) |
| C73 | `cd_main` then `extract` | refuted (empty folder) + partial: C64 and C39 composed |
| C74 | `run_dops` | refuted + partial: invariant of C12 with the state of zlib after each call |
| C75 | same | after an error zlib's stream is stuck: no call produces output |
| C76 | `extract`, `cb_fl_begin`, `cb_fl_read` | refuted (one run; then for all such runs) + partial |
| C77 | `run_dops`, `extract` | measures: input left, output room left; adding fuel does not change a result that did not run out |
| C78 | `extract`, `h_dp` (the path buffer) | refuted (one run; then all) + partial: induction over callbacks |
| C79 | `destroy` | every call leaves either no input or a filled buffer, then inflate has nothing to deliver |
| C80 | `extract` with failing allocations | refuted + partial |
| C81 | `compress_dir` without listing | refuted (one run; then all) + partial: equality |
| C82 | `compress_dir`, links | refuted + partial: induction over the tree |
| C83 | `extract`, `cb_sym` over FS | refuted (two witnesses) + partial: C39 generalised to trees with links; either all callbacks come from one output buffer, or no target was split (splitting only cuts off beginnings of targets, LinkMore.v) |
| C84 | `apt_main` over cells (unwritten = `None`) | refuted (one run; every run in strict C; long names) + partial: zero bytes behind the two delimiter arrays, invariant on the buffers |
| C85, C86 | same, log of the calls made | refuted + partial: case analysis; C86 by symbolic execution of the tokenizer |
| C87–C89 | `set_icon` over a model of BeginUpdateResource, UpdateResource and EndUpdateResource | refuted + partial: case analysis |
| C90 | `run_llops`, contract: Z_FINISH does not return Z_OK | refuted (one run; then all) + partial (C12) |
| C91 | `create`, `run_dops`, `extract` | refuted (two witnesses) + partial: relation between two runs (unread header bytes, unread record bytes, buffer contents) |
| C92 | `hlt_main`, `llt_main` | refuted (three runs, one statement for all runs of the low level program) + partial: C39, C40; for the low level program the same induction over its own callbacks |
| C93, C94 | same, limited disk space, uninitialised mode as parameter | refuted + partial: C29 through `compress_dir` |
| C95 | same | refuted + partial: C37, uniqueness of the split at slashes |
| C96 | `llt_main`: callbacks `lt_cb` over FS | refuted + partial: C39 repeated for these callbacks (paths printed into 4095 bytes) |
| C97 | same | refuted (three runs) + partial: invariant on the path buffer (at least as many slashes as open directories) for all results of system calls |
| C98 | `it_main` | refuted + partial: last backslash |
| C99, C100 | `extract` over FS with `o_free` bytes | proved: induction over the records that were presented (`run_begun`), relation between the records, the open directories and the entries written so far; C22 for the beginning of the callbacks |
| C101 | `extract_loop`, `xextract` | proved: induction on the loop |
| C102 | `archives_dir`, `archives_file`, spec `encodes` | proved: fields of the items determine each record and its length; induction over trees |
| C103 | `extract` over FS, `reach`: states in which the process can be killed | proved: every killed run is the run with a shorter input or with less space (C99); for single files by the invariant that the target holds a beginning |
| C104 | `archives_dir`, `extract`; spec `lists`, `copy` on file systems | proved: a listing of a sane file system is `extractable` (C39, C83), and the layout of the listing is the directory |
| C105 | `cd_main` with a disk of `room` bytes, `extract` | proved from C99 and C73 |
| C106 | `se_boot`: argument vector, array for argv[0], strdup, then `se_main` | three refutations; partial: `se_boot` is `se_main`, no step of which is undefined |
| C107 | `dir_parse`, whose fuel is the number of nested invocations | refuted by a family of archives; exact depth for empty files; partial: bound by the size of the buffer |
| C108 | `close_header`: size of the block `p_name` | refuted by a record; partial: invariant of the decoder on archives the library writes |
| C109 | `extract_led`, `dsession_led`, `csession_led`: malloc and free in the order of the code, tied to `extract` by C109_paths | two refutations; partial by cases over the outcomes of malloc and inflateInit |
| C110 | `archives_dir`; spec `tree_size` | proved by induction over the records of the archive (C36) |
| C111 | `compress_path`: traversal with the path strings over the file system (`namei`); spec `lists` | refuted by a directory with a path of 4092 bytes; partial: the traversal is that of Compress.v on the tree of the file system |
| C112 | `p_walk`: nested iterations on fuel | refuted (a general theorem for paths of 4093 bytes and a witness); partial from `compress_dir_total` |
| C113 | `compress_path` followed by `extract` | proved from C111 and C104 |
| C114 | `live_compress`: traversal that reads its own output (the calls of deflate are made where the code makes them; stdio buffering is a parameter) | refuted by a codec that stores bytes, and by a general theorem for chunks that do not get shorter; partial: induction over the traversal, the file bounded |
| C115 | the same run; spec `snaps` (folder with a file in place of the output file), `archives_dir` | refuted by a run of 3 files; partial: the run is that of Compress.v on the folder as it was read |
| C116 | spec `laid`, `dir_layout`, `file_layout`, `blob_layout`: the format with literal numbers | every field that the writer stores is rewritten to the bytes of the layout, and the records of Archive*.v are shown equivalent to it, so C25, C29, C39 and the extraction theorems carry over |
| C117 | `wmkdir_recurse` (Windows branch) on a Windows file system with both separators | refuted by d/a\b; partial: induction over the missing directories, at most 62 |
| C118 | the same | refuted by a file; partial: cases of the first CreateDirectoryA |
| C119 | `wremove`: SHFileOperationA as a reader of a list of names ended by two NULs | refuted by what may follow the literal; partial: a NUL follows |
| C120 | `extract` on changed archives; `zc_fin`: the data contain the end of the stream | refuted by one changed byte; no archive is finished, from the specification of compression; partial: the callbacks of a file session |
| C121 | `mkdir_recurse` on any file system with links and permissions; spec `is_dir`: stat of the path | refuted by a\b; partial: invariants of the loops over the separators: what is cut and put back is the path again |
| C122 | the same; spec `only_dirs` | every system call of the loops is a mkdir; the result follows from the last one |
| C123 | the same | refuted by a name that is too long; partial: the first mkdir below an existing directory decides |
| C124 | `xextract`: `extract` with the system calls of Windows (names without case, both separators, read-only files); spec `win_tree` | refuted by a and A; partial: C39 repeated for these system calls |
| C125 | the same | refuted by ..\x; partial: invariant over the callbacks (path of the directory below the target, open file below the target) for all results of system calls |
| C126 | the same, `w_dead`: the process was terminated | refuted by e and E; partial: the same invariant |
| C127 | the same | proved, C40 repeated for these system calls |
| C128 | `extract` (HL.v); spec `leaves`, `lists_sound`, `sound_recs` | refuted by two archives; partial: invariant over the callbacks (the path buffer holds the path as appended) for any state of the file system, in both directions |
| C129 | `xextract` (WinExtract.v); the same spec | refuted by the same archives; partial: the same invariant |
| C130 | `xextract` (WinExtract.v) | refuted by target \W; partial: the result can only be set by the start callback |
| C131 | the same; spec `nothing_lost` | proved, invariant of every system call |
| C132 | `extract` (HL.v); spec `obeys` | proved, invariant of every system call; the permission checks are those of the file system model (FS.v) |
| C133 | `extract` (HL.v), `xextract` (WinExtract.v); spec `one_more` | proved, invariant of every callback along the protocol of C21 |
| C134 | `extract`, `mkdir_recurse` (HL.v) | proved: the result is set by the first callback only |
| C135 | `wcompress_dir` (WinArchive.v); spec `unlinked`, `archives_dir` | refuted by a run that leaves out a link; partial: simulation by the Unix code on a listing without links |
| C136 | `wcompress_dir`; spec `wsound` | proved, by the same simulation and C32 |
| C137 | `wcompress_dir`, `xextract` (WinExtract.v); spec `wsees`, `wcopy` | proved from C135 and C124 |
| C138 | `extract` (HL.v), `disturbed` (Env.v): changes by others between the system calls | refuted by a run with a link placed in the target; partial: simulation as for C49 |
| C139 | `wcd_main` (WinCd.v), `wcompress_dir`; spec `unpacks`, `file_at` | refuted by a run that leaves out a link; partial: `wcd_main` equals `cd_main` on a listing without links (`compress_win`), then C64 and C136 |
| C140 | `wse_main` (WinSelf.v); spec `without_own`, `preorder`, `dir_archive` | refuted by an icon that makes the executable too large; partial: the position of all writes (`wse_main_wrote`), then C135 and C62 |
| C141 | `wse_main`, `DirCompressFilterFunction` as `se_filter`; spec `wsound`, `below_free` | refuted by two runs; partial: C136 with the filter's effect from C63 |
| C142 | `wse_go`: `xremove`, extraction, `start`; spec `win_tree` | refuted by a run; partial: C140, then `xremove_one` and C124 |
| C143 | `wse_go`, `xremove` with entries in use | refuted by a run; partial: `mkdir` fails, so the extraction ends with an error |
| C144 | `wse_go` | case analysis over the run |
| C145 | `compress_path` (PathWalk.v) and `extract` (HL.v); spec `settled`, `copy` | refuted by a file of mode 0666; partial: C113's copy is again `archivable` (`copy_archivable`), and both runs walk the same tree (`tree_same`, `path_is_dir`) |
| C146 | `apt_main` (AptGet.v); spec `package_url`, `package_dir` in strings | case analysis of the run; an address that does not fit is never read as a string (`print_whole`) |
| C147 | `extract` (HL.v) and `xextract` (WinExtract.v); spec `same_tree`, `alike` | refuted by files a and A; partial: C39 and C124 give both trees, `both_trees` relates them by induction on the path |
| C148 | `wcompress_dir` (WinArchive.v), then `extract` (HL.v); spec `wlists`, `same_tree`, `dir_modes` | the archive holds the listing (C135), its tree on Unix (C39) is that of the listing, which is that of the file system (`wsees_tree`) |
| C149 | `compress_dir` (Compress.v), then `xextract` (WinExtract.v); spec `lists`, `win_ready`, `same_tree` | as C148, with `lists_tree` and C124; there and back: `alike` determines the entry of Windows |
| C150 | `compress_path` (PathWalk.v); spec `hidden`, `shown`, `files_readable` | refuted by a directory of mode 0; partial: the traversal is that of the tree the process sees (`p_walk_seen`), which is the tree of `shown` if the files can be read (`seen_tree`); status by C32; `copied`: C104's copy of the tree without the hidden entries, on a second machine |
| C151 | `extract` (HL.v) twice; spec `lists` | refuted by a file of 524183 bytes before or after a link; partial: both results are the tree that C39 gives, and `lists_tree` makes it a function of the directory; with links (`same_links`), under C83's condition that no target was split; `same_windows` by C149 twice |
| C152 | `extract` (HL.v), `xextract` (WinExtract.v) twice | refuted by the continuation of an archive; partial: with a size no read is short, so the runs are equal step by step (`behind_loop`) |
| C153 | `compress_dir` (Compress.v), `compress_path` (PathWalk.v), `wcompress_dir` (WinArchive.v) | no session is created (C11), so the runs end before the traversal |
| C154 | `extract` (HL.v), `xextract` (WinExtract.v), the session (Decompress.v) | the session calls nothing back before and without a valid header (C17, C23, C24), so no system call is made |
| C155 | the session (Decompress.v, Parser.v), `extract` (HL.v), the file system (FS.v) | a potential (the bytes of the current record read so far) makes up for records completed later; each write takes at most its length |

## Trusted base

* Coq 8.16.1 kernel (including `vm_compute`).
* What `Print Assumptions` lists under each theorem in the Properties files: "Closed under the
  global context" under every one.
* The correspondence of the definitions with the C sources (each definition cites file and lines) and the external contracts:
  zlib's manual, POSIX file calls, C library string/memory functions, the directory iterator (a list of entries per
  directory in arbitrary order, stopped by 387).

## Modelled / not modelled

Modelled: all of src/core (two threads: system calls are atomic, memory is not shared except buffers between calls); common_argument_parser.cpp;
the complete control flow of main_self_extract.c, main_compressdir.cpp, main_apt-get.cpp and of the test programs
main_zlibwt_hl_test.cpp, main_zlibwt_ll_test.cpp and main_change_or_add_icon_test.cpp.  For main_apt-get.cpp and
resource_handler_windows.c the Windows functions and the download library are parameters.
On Windows: the creation and removal of directories (WinTools.v) and the extraction (WinExtract.v; one drive, no alternate streams, no device names,
only the case of A to Z ignored; a write that the C runtime rejects terminates the process, which is the default handler),
archiving (WinArchive.v; which files are in use is a parameter), main_compressdir.cpp (WinCd.v) and main_self_extract.c (WinSelf.v).
Files written through `FILE*` are modelled as written by each `fwrite` (the code closes them before it returns; a run that is killed may lose the
buffered end), the counter `nIndex` of chunks (`int`) is taken as unbounded (it would overflow after 2^31 chunks).
Not modelled: other `_WIN32` branches (console, the directory iterator), main_unzip_from_net.cpp (one call of a
function that is not in the repository),
what process creation and directory removal in main_self_extract.c do (parameters; the Unix removal code does not compile:
undeclared `a_data`, unbalanced braces), logging, the remaining tests (they call nothing of the library or only print).
