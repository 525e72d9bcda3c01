{
 "claims": [
  {
   "property": "C01",
   "status": "proved",
   "theorems": [
    "C01_padding"
   ],
   "note": "Both field widths, all lengths."
  },
  {
   "property": "C02",
   "status": "proved",
   "theorems": [
    "C02_header",
    "C02_records"
   ],
   "note": "Header and all four record kinds, all byte order pairs, all unused bytes."
  },
  {
   "property": "C03",
   "status": "proved",
   "theorems": [
    "C03_host_independent"
   ],
   "note": "Header and all four record kinds."
  },
  {
   "property": "C04",
   "status": "partial",
   "theorems": [
    "C04_deterministic_refuted",
    "C04_deterministic_partial",
    "C04_each_record_refuted"
   ],
   "note": "Full statement is false: uninitialised stack bytes of record headers are archived. Partial: two archives of the same tree decode to the same records."
  },
  {
   "property": "C05",
   "status": "proved",
   "theorems": [
    "C05_lossless"
   ],
   "note": "All call histories, every zlib meeting the contract."
  },
  {
   "property": "C06",
   "status": "partial",
   "theorems": [
    "C06_nothing_lost_refuted",
    "C06_nothing_lost_partial"
   ],
   "note": "Full statement is false: deflate output still pending when the last output buffer was filled is never delivered. Partial: holds when the last callback received less than the buffer size."
  },
  {
   "property": "C07",
   "status": "proved",
   "theorems": [
    "C07_callback_contract"
   ],
   "note": "Callback bytes equal the log of deflate's output; per call settings."
  },
  {
   "property": "C08",
   "status": "proved",
   "theorems": [
    "C08_compress_returns",
    "C08_session_returns"
   ],
   "note": "Every call and every history finishes."
  },
  {
   "property": "C09",
   "status": "partial",
   "theorems": [
    "C09_zero_buffer_refuted",
    "C09_zero_buffer_never_returns"
   ],
   "note": "Full statement is false: a buffer size that is 0 modulo 2^32 makes every call on non-empty data loop forever."
  },
  {
   "property": "C10",
   "status": "partial",
   "theorems": [
    "C10_all_consumed_refuted",
    "C10_all_consumed_partial"
   ],
   "note": "Full statement is false: lengths are cast to 32 bits. Partial: below 2^32 bytes everything is consumed."
  },
  {
   "property": "C11",
   "status": "proved",
   "theorems": [
    "C11_creation_fails",
    "C11_creation_null",
    "C11_creation_succeeds"
   ],
   "note": "Failure cases and success case with the header contents."
  },
  {
   "property": "C12",
   "status": "proved",
   "theorems": [
    "C12_prefix",
    "C12_complete"
   ],
   "note": "All histories of decompress, set-buffer and set-callback calls; prefix always, everything if the last callback received less than the buffer size."
  },
  {
   "property": "C13",
   "status": "partial",
   "theorems": [
    "C13_all_delivered_refuted",
    "C13_all_delivered_partial"
   ],
   "note": "Full statement is false: output that does not fit into the last buffer stays inside inflate. Partial: holds if the last callback received less than the buffer size."
  },
  {
   "property": "C14",
   "status": "partial",
   "theorems": [
    "C14_terminated_delivered_refuted",
    "C14_terminated_delivered_partial"
   ],
   "note": "Full statement is false: the output of the inflate call that returns Z_STREAM_END is dropped. Partial: at most one buffer's worth is missing."
  },
  {
   "property": "C15",
   "status": "proved",
   "theorems": [
    "C15_corrupt_reported",
    "C15_stays_failed"
   ],
   "note": "Histories; also nothing is delivered after an error and every later call with data fails."
  },
  {
   "property": "C16",
   "status": "proved",
   "theorems": [
    "C16_ll_returns",
    "C16_session_returns"
   ],
   "note": "Low level: any data and flush value. Archive level: supported archives (C23 covers the others)."
  },
  {
   "property": "C17",
   "status": "proved",
   "theorems": [
    "C17_before_header",
    "C17_directory"
   ],
   "note": "Nothing before the header; the decoder gets exactly the plaintext from byte 129."
  },
  {
   "property": "C18",
   "status": "proved",
   "theorems": [
    "C18_split_independent",
    "C18_session"
   ],
   "note": "Decoder: same final state and callbacks for any two splittings ending with a non-empty output (link targets aside, C19). Session: callback sequences comparable."
  },
  {
   "property": "C19",
   "status": "partial",
   "theorems": [
    "C19_link_target_refuted",
    "C19_link_target_partial"
   ],
   "note": "Full statement is false: a target split over two inflate outputs is delivered in part. Partial: delivered whole when it lies inside one output."
  },
  {
   "property": "C20",
   "status": "proved",
   "theorems": [
    "C20_memory_safe",
    "C20_session_safe"
   ],
   "note": "Decoder alone on every input with any allocation failures; whole session for supported archives."
  },
  {
   "property": "C21",
   "status": "proved",
   "theorems": [
    "C21_protocol",
    "C21_session"
   ],
   "note": "Automaton accepts every callback sequence; decoder and session."
  },
  {
   "property": "C22",
   "status": "proved",
   "theorems": [
    "C22_truncated"
   ],
   "note": "All plaintexts, cut points and splittings of both."
  },
  {
   "property": "C23",
   "status": "partial",
   "theorems": [
    "C23_version_refuted",
    "C23_version_partial"
   ],
   "note": "Full statement is false: bytes after the unsupported header overwrite it and an assertion can fail. Partial: no callback in any execution that does not reach it."
  },
  {
   "property": "C24",
   "status": "proved",
   "theorems": [
    "C24_unknown_type"
   ],
   "note": "All histories."
  },
  {
   "property": "C25",
   "status": "proved",
   "theorems": [
    "C25_file_content"
   ],
   "note": "File and blob archives, all histories."
  },
  {
   "property": "C26",
   "status": "proved",
   "theorems": [
    "C26_progress"
   ],
   "note": "Every reachable decoder state and every buffer."
  },
  {
   "property": "C27",
   "status": "proved",
   "theorems": [
    "C27_file_round_trip",
    "C27_returns"
   ],
   "note": "All contents and splittings; also termination."
  },
  {
   "property": "C28",
   "status": "partial",
   "theorems": [
    "C28_invalid_level_refuted",
    "C28_invalid_level_partial"
   ],
   "note": "Full statement is false: the NULL session is dereferenced (also an assertion). Partial: if the call returns it failed and delivered nothing."
  },
  {
   "property": "C29",
   "status": "proved",
   "theorems": [
    "C29_directory_round_trip",
    "C29_archiving_returns"
   ],
   "note": "All trees of files, directories, links and other entries (the bytes of link targets are not compared, see C19); also termination for every tree, filter and failure."
  },
  {
   "property": "C30",
   "status": "proved",
   "theorems": [
    "C30_filter",
    "C30_any_filter"
   ],
   "note": "Stateless filters against a direct recursive specification, arbitrary stateful filters against a traversal relation."
  },
  {
   "property": "C31",
   "status": "proved",
   "theorems": [
    "C31_stop"
   ],
   "note": "All filters and trees."
  },
  {
   "property": "C32",
   "status": "proved",
   "theorems": [
    "C32_failures_reported"
   ],
   "note": "All filters, trees, extra buffers. A source directory that cannot be opened is not an input failure in this sense (see C81)."
  },
  {
   "property": "C33",
   "status": "proved",
   "theorems": [
    "C33_balanced"
   ],
   "note": "All runs that return, including failed ones."
  },
  {
   "property": "C34",
   "status": "partial",
   "theorems": [
    "C34_changed_file_refuted",
    "C34_changed_file_partial"
   ],
   "note": "Full statement is false: entries after the changed file are lost. Partial: everything before the first changed file decodes."
  },
  {
   "property": "C35",
   "status": "proved",
   "theorems": [
    "C35_extra_root"
   ],
   "note": "All extra buffers."
  },
  {
   "property": "C36",
   "status": "proved",
   "theorems": [
    "C36_extra_nested"
   ],
   "note": "All extra buffers and depths; modes left open (see C37)."
  },
  {
   "property": "C37",
   "status": "partial",
   "theorems": [
    "C37_extra_mode_refuted",
    "C37_extra_mode_partial"
   ],
   "note": "Full statement is false: stored mode is always 0644, directories get mode 0. Partial states what is stored."
  },
  {
   "property": "C38",
   "status": "partial",
   "theorems": [
    "C38_released_refuted",
    "C38_released_partial",
    "C38_file_released"
   ],
   "note": "Full statement is false: when the session cannot be created the two buffers leak. Partial: all other return paths; ZlibWtCompressFileEx releases everything whenever it returns."
  },
  {
   "property": "C39",
   "status": "partial",
   "theorems": [
    "C39_directory_on_disk_refuted",
    "C39_directory_on_disk_partial"
   ],
   "note": "Full statement is false: an archive of an empty directory extracts to nothing. Partial: all trees of files and directories with at least one entry, writable directories, enough space, every splitting of the archive by the read loop; trees with links are the subject of C83."
  },
  {
   "property": "C40",
   "status": "partial",
   "theorems": [
    "C40_file_on_disk_refuted",
    "C40_file_on_disk_partial"
   ],
   "note": "Full statement is false: an archive of an empty file extracts to nothing. Partial: all non-empty contents, free and existing target files."
  },
  {
   "property": "C41",
   "status": "partial",
   "theorems": [
    "C41_stays_below_refuted",
    "C41_stays_below_partial",
    "C41_own_archives"
   ],
   "note": "Full statement is false: names with '..' and '/' are used as they are. Partial: archives whose callbacks have plain names, including truncated and damaged ones; beginnings of archives written by the library are shown to be of this kind."
  },
  {
   "property": "C42",
   "status": "partial",
   "theorems": [
    "C42_existing_target_refuted",
    "C42_existing_target_partial"
   ],
   "note": "Full statement is false: entries are created in the root directory. Partial: the call fails if it returns, and nothing is removed."
  },
  {
   "property": "C43",
   "status": "partial",
   "theorems": [
    "C43_success_is_complete_refuted",
    "C43_success_is_complete_partial",
    "C43_type_windows_partial"
   ],
   "note": "Full statement is false: truncated archives are reported as complete. Partial: the reported type is that of the archive header. C134 says what the result does mean. Also for extraction on Windows."
  },
  {
   "property": "C44",
   "status": "proved",
   "theorems": [
    "C44_archive_size_limit",
    "C44_archive_size_limit_windows"
   ],
   "note": "All limits, inputs, read errors and outcomes; every archive. Also for extraction on Windows."
  },
  {
   "property": "C45",
   "status": "partial",
   "theorems": [
    "C45_files_closed_refuted",
    "C45_files_closed_partial",
    "C45_complete_archive"
   ],
   "note": "Full statement is false: a truncated archive leaves a descriptor open. Partial: at most one stays open, none if every file begun is ended, none after a complete archive. C133 extends this to all archives."
  },
  {
   "property": "C46",
   "status": "proved",
   "theorems": [
    "C46_missing_parents",
    "C46_directory_exists",
    "C46_file_exists"
   ],
   "note": "Up to 62 missing levels; existing directory; existing file."
  },
  {
   "property": "C47",
   "status": "partial",
   "theorems": [
    "C47_any_depth_refuted",
    "C47_any_spelling_refuted",
    "C47_any_depth_partial"
   ],
   "note": "Full statement is false: 63 missing levels, and a trailing separator. Partial: up to 62 levels with single separators."
  },
  {
   "property": "C48",
   "status": "partial",
   "theorems": [
    "C48_working_directory_refuted",
    "C48_working_directory_partial"
   ],
   "note": "Full statement is false if a parent of the working directory is not searchable. Partial: every archive, if all parents of the working directory are searchable."
  },
  {
   "property": "C49",
   "status": "partial",
   "theorems": [
    "C49_two_extractions_refuted",
    "C49_common_parent_refuted",
    "C49_two_extractions_partial",
    "C49_two_own_archives_partial"
   ],
   "note": "Full statement is false: a link makes one thread change the current directory of both (chdir), and creating a common missing parent at the same time fails. Partial: archives that keep to their targets (no links), parents of the targets exist, and disk space for both; then for every schedule the same files as alone."
  },
  {
   "property": "C50",
   "status": "proved",
   "theorems": [
    "C50_sessions_independent",
    "C50_sessions_undisturbed"
   ],
   "note": "Full statement, for any number of sessions, also if they share output buffers or others write to the buffers between calls. Calls are atomic (no call from within a callback)."
  },
  {
   "property": "C51",
   "status": "partial",
   "theorems": [
    "C51_write_failure_refuted",
    "C51_write_failure_partial"
   ],
   "note": "Full statement is false: results of write are ignored. Partial: failure to create the target directory is reported."
  },
  {
   "property": "C52",
   "status": "partial",
   "theorems": [
    "C52_read_only_directories_refuted",
    "C52_read_only_directories_partial"
   ],
   "note": "Full statement is false for unprivileged users. Partial: privileged users, every tree."
  },
  {
   "property": "C53",
   "status": "partial",
   "theorems": [
    "C53_name_lengths_refuted",
    "C53_name_lengths_partial"
   ],
   "note": "Full statement is false: lengths that wrap when rounded are not rejected. Partial: archives whose name lengths are consistent extract without undefined behaviour."
  },
  {
   "property": "C54",
   "status": "partial",
   "theorems": [
    "C54_later_entry_refuted",
    "C54_later_entry_partial"
   ],
   "note": "Full statement is false: the file is not truncated. Partial: exact resulting contents for every pair of contents."
  },
  {
   "property": "C55",
   "status": "partial",
   "theorems": [
    "C55_extra_buffers_on_disk_refuted",
    "C55_extra_buffers_on_disk_partial"
   ],
   "note": "Full statement is false: directory records of extra buffers have mode 0. Partial: extra buffers with plain names."
  },
  {
   "property": "C56",
   "status": "partial",
   "theorems": [
    "C56_refuted",
    "C56_stale_refuted",
    "C56_lone_unknown_argument",
    "C56_partial",
    "C56_last_option"
   ],
   "note": "Full statement is false: the NULL behind the vector or an argument no longer in it is read whenever the last argument to be examined names no option. Partial: every read is inside the vector if each argument naming no option has one naming an option behind it."
  },
  {
   "property": "C57",
   "status": "proved",
   "theorems": [
    "C57_names_of_an_option",
    "C57_keys_of_a_text",
    "C57_parse_extracts_options",
    "C57_plain_options"
   ],
   "note": "For every option set and vector; the specification scan is a left to right reading of the arguments."
  },
  {
   "property": "C58",
   "status": "proved",
   "theorems": [
    "C58_parse_terminates"
   ],
   "note": "For every vector and any contents of the cells behind it."
  },
  {
   "property": "C59",
   "status": "proved",
   "theorems": [
    "C59_help_is_aligned"
   ],
   "note": "For every sequence of registrations (also with replaced options, parses and clears between them)."
  },
  {
   "property": "C60",
   "status": "partial",
   "theorems": [
    "C60_refuted",
    "C60_different_names_refuted",
    "C60_use_after_free_refuted",
    "C60_partial",
    "C60_registers_partial"
   ],
   "note": "Full statement is false: registering a name again deletes an object twice. Partial: registrations with different keys."
  },
  {
   "property": "C61",
   "status": "partial",
   "theorems": [
    "C61_refuted",
    "C61_both_refuted",
    "C61_right_partial",
    "C61_left_partial"
   ],
   "note": "Full statement is false: declaration and definition disagree about the order of the defaults, and the right default of options with two arguments is lost. Partial: what each kind of option returns."
  },
  {
   "property": "C62",
   "status": "proved",
   "theorems": [
    "C62_layout"
   ],
   "note": "For every tool size up to the limit and every directory, with complete writes (C66 for incomplete ones); reading may be split anyhow. The Unix icon function does nothing; the Windows one is not modelled."
  },
  {
   "property": "C63",
   "status": "partial",
   "theorems": [
    "C63_refuted",
    "C63_no_directory_refuted",
    "C63_partial"
   ],
   "note": "Full statement is false: the first files of these names, in any directory, are left out, and a path without delimiter names no directory. Partial: no file in a subdirectory has one of the two names."
  },
  {
   "property": "C64",
   "status": "partial",
   "theorems": [
    "C64_refuted",
    "C64_disk_full_refuted",
    "C64_no_folder_refuted",
    "C64_partial"
   ],
   "note": "Full statement is false: -cf does nothing, write errors and missing folders are not noticed. Partial: complete list of the ways to return 0."
  },
  {
   "property": "C65",
   "status": "partial",
   "theorems": [
    "C65_refuted",
    "C65_folder_last_crashes",
    "C65_partial"
   ],
   "note": "Full statement is false: a folder name of three or more bytes after the output file crashes the program. Partial: the folder comes first."
  },
  {
   "property": "C66",
   "status": "partial",
   "theorems": [
    "C66_refuted",
    "C66_partial"
   ],
   "note": "The statement is false. On a disk that fills up (after an incomplete write nothing is stored) the status is that of a run with enough space and the file is a beginning of the file written then."
  },
  {
   "property": "C67",
   "status": "partial",
   "theorems": [
    "C67_refuted",
    "C67_partial"
   ],
   "note": "The statement is false if fread delivers nothing. Partial: every fread delivers at least one byte."
  },
  {
   "property": "C68",
   "status": "partial",
   "theorems": [
    "C68_self_extraction_refuted",
    "C68_self_extraction_partial"
   ],
   "note": "Full statement is false: a directory with nothing but the tool gives a file whose run creates no .out_dir. Partial: both stages together, for every tool size, directory with something to pack, byte order, split of reading, and results of starting programs. Conditions: those of C39, C63; strdup succeeds; zlib's last steps did not fill their buffers (C06, C13)."
  },
  {
   "property": "C69",
   "status": "partial",
   "theorems": [
    "C69_exit_status_refuted",
    "C69_not_started_refuted",
    "C69_exit_status_partial"
   ],
   "note": "Full statement is false: the status is 0 whenever starting a program was tried. Partial: 0 iff starting a program was tried, else 1."
  },
  {
   "property": "C70",
   "status": "partial",
   "theorems": [
    "C70_one_program_refuted",
    "C70_programs_partial"
   ],
   "note": "Full statement is false: main.exe is also started if maind.exe ended with a status other than 0. Partial: exactly which programs are started in which state."
  },
  {
   "property": "C71",
   "status": "partial",
   "theorems": [
    "C71_removed_refuted",
    "C71_removed_partial"
   ],
   "note": "Full statement is false: .out_dir is left if main.exe was started. Partial: removed if maind.exe ended with 0 (the removal itself is a parameter: its Unix code does not compile)."
  },
  {
   "property": "C72",
   "status": "partial",
   "theorems": [
    "C72_complete_before_start_refuted",
    "C72_complete_before_start_partial"
   ],
   "note": "Full statement is false: a truncated archive starts a program (C43). Partial: the archive is one of a directory."
  },
  {
   "property": "C73",
   "status": "partial",
   "theorems": [
    "C73_compressdir_round_trip_refuted",
    "C73_compressdir_round_trip_partial"
   ],
   "note": "Full statement is false: an empty folder is archived with status 0 and extracts to nothing. Partial: conditions as C39; the output file was not cut (C64)."
  },
  {
   "property": "C74",
   "status": "partial",
   "theorems": [
    "C74_damage_reported_refuted",
    "C74_damage_reported_partial"
   ],
   "note": "Full statement is false: bytes following the header within the same call are decoded by an inner call whose result is dropped (zlibwt_decompress_routines.c:62). Partial: the last call comes after the header and the last inflate step did not fill its buffer (the contract of zlib allows the error to wait otherwise)."
  },
  {
   "property": "C75",
   "status": "proved",
   "theorems": [
    "C75_silent_after_error"
   ],
   "note": "Full statement."
  },
  {
   "property": "C76",
   "status": "partial",
   "theorems": [
    "C76_unopened_target_refuted",
    "C76_unopened_target_never",
    "C76_unopened_target_partial"
   ],
   "note": "Full statement is false: fwrite is called with NULL; proved for every archive of a file with contents and every target that cannot be opened. Partial: targets that can be opened."
  },
  {
   "property": "C77",
   "status": "proved",
   "theorems": [
    "C77_session_ends",
    "C77_extract_ends"
   ],
   "note": "Full statement; ending includes reaching undefined behaviour (which C20, C23, C53 and C76 treat)."
  },
  {
   "property": "C78",
   "status": "partial",
   "theorems": [
    "C78_memory_released_refuted",
    "C78_memory_released_never",
    "C78_memory_released_partial"
   ],
   "note": "Full statement is false: the path buffer is never freed; proved for every run that reports a directory. Partial: archives of files."
  },
  {
   "property": "C79",
   "status": "proved",
   "theorems": [
    "C79_destroy_writes_nothing"
   ],
   "note": "Full statement."
  },
  {
   "property": "C80",
   "status": "partial",
   "theorems": [
    "C80_no_memory_refuted",
    "C80_no_memory_dir_refuted",
    "C80_no_memory_partial"
   ],
   "note": "Full statement is false: if the allocation of the path buffer fails, entries are created in the root directory; if that of the path of a directory fails, later entries are created next to the target. Partial: failures before the first callback change nothing."
  },
  {
   "property": "C81",
   "status": "partial",
   "theorems": [
    "C81_missing_source_refuted",
    "C81_missing_source_never",
    "C81_missing_source_partial"
   ],
   "note": "Full statement is false: 0 is returned for every directory that cannot be read (proved for all settings). Partial: what is written is the archive of an empty directory."
  },
  {
   "property": "C82",
   "status": "partial",
   "theorems": [
    "C82_archiving_returns_refuted",
    "C82_archiving_returns_partial"
   ],
   "note": "Full statement is false: a link whose target is longer than announced by lstat, or cannot be read, calls exit. Partial: no such link."
  },
  {
   "property": "C83",
   "status": "partial",
   "theorems": [
    "C83_links_on_disk_refuted",
    "C83_links_split_refuted",
    "C83_links_on_disk_partial",
    "C83_links_whole_partial"
   ],
   "note": "Full statement is false: in a working directory with a path longer than 1023 bytes the links are lost, and a target across the end of the 512 KB output buffer is cut. Partial: trees of files, directories and links in a working directory with a short path, for archives of any size if no target was split (a condition on the callbacks of the run), without this condition for archives and contents below 512 KB."
  },
  {
   "property": "C84",
   "status": "partial",
   "theorems": [
    "C84_installer_safe_refuted",
    "C84_installer_safe_never",
    "C84_long_name_refuted",
    "C84_installer_safe_partial"
   ],
   "note": "Full statement is false: strspn and strcspn get arrays without NUL (undefined for every package with a root entry), and a long package name leaves the address unterminated. Partial: a NUL behind each array and an address below 1023 bytes; then no undefined behaviour for any steps file and any results of the calls."
  },
  {
   "property": "C85",
   "status": "partial",
   "theorems": [
    "C85_exit_status_refuted",
    "C85_not_moved_refuted",
    "C85_exit_status_partial"
   ],
   "note": "Full statement is false: every failure after the download gives exit status 0. Partial: the exit status is 0 exactly when the download succeeded."
  },
  {
   "property": "C86",
   "status": "partial",
   "theorems": [
    "C86_program_started_refuted",
    "C86_program_started_partial"
   ],
   "note": "Full statement is false: the command line is cut at 1021 bytes. Partial: values of at most 1012 bytes together, steps file of at most 1023 bytes, NUL behind the arrays."
  },
  {
   "property": "C87",
   "status": "partial",
   "theorems": [
    "C87_icon_safe_refuted",
    "C87_icon_safe_partial"
   ],
   "note": "Full statement is false for files shorter than 22 bytes. Partial: all other files and all results of the calls."
  },
  {
   "property": "C88",
   "status": "partial",
   "theorems": [
    "C88_icon_unchanged_refuted",
    "C88_icon_not_written_refuted",
    "C88_icon_unchanged_partial",
    "C88_icon_result",
    "C88_icon_unix"
   ],
   "note": "Full statement is false: a failure of the second update writes the first one, and a failure to write is reported as success. Partial: every other failure."
  },
  {
   "property": "C89",
   "status": "partial",
   "theorems": [
    "C89_icon_described_refuted",
    "C89_icon_memory_refuted",
    "C89_icon_described_partial"
   ],
   "note": "Full statement is false: the entry always says 32 by 32 pixels, and unread memory may be stored. Partial: image, size and number are right."
  },
  {
   "property": "C90",
   "status": "partial",
   "theorems": [
    "C90_flush_refuted",
    "C90_flush_never_refuted",
    "C90_flush_partial",
    "C90_flush_session_partial"
   ],
   "note": "Full statement is false: a low level call with Z_FINISH and at least one byte never returns 0 and never calls the callback. Partial: the other flush values; archive sessions ignore the flush value once the header has been read."
  },
  {
   "property": "C91",
   "status": "partial",
   "theorems": [
    "C91_uninitialised_refuted",
    "C91_uninitialised_past_refuted",
    "C91_uninitialised_extract_partial",
    "C91_uninitialised_session_partial"
   ],
   "note": "Full statement is false: an input that ends behind the target of a symbolic link gives a link whose target continues with the old contents of the output buffer, or a read past its end. Partial: uninitialised session fields never matter; old buffer contents never reach the callbacks' arguments (the memory behind a link target excepted)."
  },
  {
   "property": "C92",
   "status": "partial",
   "theorems": [
    "C92_low_level_status_refuted",
    "C92_low_level_status_never",
    "C92_high_level_status_refuted",
    "C92_high_level_folder_partial",
    "C92_high_level_file_partial"
   ],
   "note": "Full statement is false for both programs: the low level one always returns 1 (proved for every run), the high level one returns 0 for a truncated archive. Partial: a complete archive of the library extracted to a free place gives 0 and the complete tree or file."
  },
  {
   "property": "C93",
   "status": "partial",
   "theorems": [
    "C93_status_of_compressing_refuted",
    "C93_missing_folder_refuted",
    "C93_high_level_partial",
    "C93_low_level_partial"
   ],
   "note": "Full statement is false: a full disk and a missing folder give 0. Partial: for existing folders and enough space status 0 implies that the file written is an archive of the input, for options a, c, d (e: see C95)."
  },
  {
   "property": "C94",
   "status": "partial",
   "theorems": [
    "C94_option_d_determined_refuted",
    "C94_option_d_partial"
   ],
   "note": "Full statement is false: the mode of the extra buffer is never set. Partial: for every value it had, the archive holds the folder and the buffer with that mode; extraction by C92."
  },
  {
   "property": "C95",
   "status": "partial",
   "theorems": [
    "C95_option_e_extractable_refuted",
    "C95_option_e_partial"
   ],
   "note": "Full statement is false: the directories of the buffers are archived with mode 0, an unprivileged extraction loses the buffers and returns 0. Partial: decoding presents all buffers and the folder, with the directories at mode 0."
  },
  {
   "property": "C96",
   "status": "partial",
   "theorems": [
    "C96_low_level_round_trip_refuted",
    "C96_low_level_folder_partial",
    "C96_low_level_file_partial"
   ],
   "note": "Full statement is false: a symbolic link becomes an empty file and a descriptor stays open. Partial: trees of files and directories, and files, below a target that is free; paths of at most 4094 bytes."
  },
  {
   "property": "C97",
   "status": "partial",
   "theorems": [
    "C97_low_level_safe_refuted",
    "C97_existing_folder_refuted",
    "C97_unterminated_name_refuted",
    "C97_low_level_file_partial",
    "C97_low_level_folder_partial"
   ],
   "note": "Full statement is false in three ways (target not opened, existing target folder, name without NUL). Partial: file and blob archives, also damaged ones, if the target opens; folder archives of the library if the target is created, whatever other calls fail; strdup and realloc succeed."
  },
  {
   "property": "C98",
   "status": "partial",
   "theorems": [
    "C98_icon_test_path_refuted",
    "C98_icon_test_path_partial"
   ],
   "note": "Full statement is false: a program name without backslash ends in a failed assertion, or a null pointer with NDEBUG. Partial: every name with a backslash."
  },
  {
   "property": "C99",
   "status": "proved",
   "theorems": [
    "C99_interrupted",
    "C99_interrupted_windows"
   ],
   "note": "For every beginning of the archive of a directory, every disk size and read errors; the records whose bytes were all in the input are extracted (last buffer not full, no read error). Destination free, allocations succeed, trees as for C39 (no symbolic links). Also on Windows (C99_interrupted_windows), under the conditions of C124, without a limit on disk space."
  },
  {
   "property": "C100",
   "status": "proved",
   "theorems": [
    "C100_full_disk"
   ],
   "note": "The value returned is that of a complete extraction (see C51). Destination free, allocations succeed, trees as for C39."
  },
  {
   "property": "C101",
   "status": "proved",
   "theorems": [
    "C101_read_error",
    "C101_read_error_windows"
   ],
   "note": "For every input, also damaged. [h_err]: a callback had failed before. Also for extraction on Windows."
  },
  {
   "property": "C102",
   "status": "proved",
   "theorems": [
    "C102_unique"
   ],
   "note": "Decompressed contents are compared, so level and host do not matter. Directories that do not change while they are read, every entry archived."
  },
  {
   "property": "C103",
   "status": "proved",
   "theorems": [
    "C103_killed",
    "C103_killed_file"
   ],
   "note": "Killed between two system calls or in a write of which a part was done. Destination free, allocations succeed, trees as for C39 (no symbolic links). fwrite is modelled without a buffer of its own, so the bytes still in that buffer are counted as written."
  },
  {
   "property": "C104",
   "status": "proved",
   "theorems": [
    "C104_copied",
    "C104_copied_links",
    "C104_copied_links_whole",
    "C104_copied_again"
   ],
   "note": "Without symbolic links for all sizes; with them for archives below 512 KB, and for larger ones if no target was split (C83). Special files are excluded, the destination is free, the disk has enough space."
  },
  {
   "property": "C105",
   "status": "proved",
   "theorems": [
    "C105_cut_archive"
   ],
   "note": "Every beginning of what compressdir writes, disk of any size; trees as for C39."
  },
  {
   "property": "C106",
   "status": "partial",
   "theorems": [
    "C106_no_arguments_refuted",
    "C106_long_name_refuted",
    "C106_no_memory_refuted",
    "C106_start_partial"
   ],
   "note": "False for argc = 0, for names of 4191 bytes or more and if strdup fails. What holds: shorter names, strdup succeeding; up to and without the extraction of an appended archive (C68 to C73 for that part)."
  },
  {
   "property": "C107",
   "status": "partial",
   "theorems": [
    "C107_stack_refuted",
    "C107_stack_exact",
    "C107_stack_partial",
    "C107_stack_extraction"
   ],
   "note": "False for the archive as a whole: four nested invocations for each empty file that lies in one buffer. What holds: at most 4*(n/40)+5 for a buffer of n bytes, 52433 with the buffer of the high level function. Invocations are counted, not bytes of stack."
  },
  {
   "property": "C108",
   "status": "partial",
   "theorems": [
    "C108_memory_refuted",
    "C108_memory_partial",
    "C108_memory_32"
   ],
   "note": "False for damaged archives: a record of 40 bytes makes the decoder allocate 4294967288 bytes. What holds: for what the library writes the block is at most the longest name and 8 bytes, always below 4 GiB."
  },
  {
   "property": "C109",
   "status": "partial",
   "theorems": [
    "C109_buffers_refuted",
    "C109_name_block_refuted",
    "C109_buffers_partial",
    "C109_paths",
    "C109_compress_session"
   ],
   "note": "False if inflateInit fails (session not freed) and if realloc fails (block of the name lost). What holds: every other path. The internal allocations of zlib are not modelled."
  },
  {
   "property": "C110",
   "status": "proved",
   "theorems": [
    "C110_content_size"
   ],
   "note": "For trees that do not change while they are archived; extra buffers are not counted."
  },
  {
   "property": "C111",
   "status": "partial",
   "theorems": [
    "C111_archived_by_path_refuted",
    "C111_archived_by_path_partial"
   ],
   "note": "False: paths are cut to 4094 bytes, and a cut path can name another file, whose contents are archived. What holds: if no path is cut, the archive holds the directory. The file system does not change meanwhile."
  },
  {
   "property": "C112",
   "status": "partial",
   "theorems": [
    "C112_archiving_ends_refuted",
    "C112_archiving_endless",
    "C112_archiving_ends_partial"
   ],
   "note": "False: in a directory with a path of 4093 bytes the cut path of a subdirectory is the directory itself, so that the recursion does not end (in practice the stack overflows). What holds: if no path is cut, the function returns."
  },
  {
   "property": "C113",
   "status": "proved",
   "theorems": [
    "C113_copied_by_path"
   ],
   "note": "For uncut paths; links as in C83 (targets that are not split)."
  },
  {
   "property": "C114",
   "status": "partial",
   "theorems": [
    "C114_ends_refuted",
    "C114_endless_refuted",
    "C114_ends_partial"
   ],
   "note": "False: the output file is read while it grows; if chunks of 524288 bytes of it are not compressed to less, the loop at zlibwt_compression_routines.c:324-331 never sees the end of the file (in practice the disk fills up). What holds: if the file cannot get longer than some bound, the function returns."
  },
  {
   "property": "C115",
   "status": "partial",
   "theorems": [
    "C115_archive_refuted",
    "C115_archive_partial"
   ],
   "note": "False: the record of the output file can make it longer between fstat and fread; then more is stored than announced and the records after it are lost. What holds: if as much is read as was recorded, the archive is that of the folder."
  },
  {
   "property": "C116",
   "status": "proved",
   "theorems": [
    "C116_written",
    "C116_read",
    "C116_extracted"
   ],
   "note": "The layout (FormatSpec.v) is written with literal numbers, independently of the constants of the model: an edit that changes writer and reader in the same way breaks it."
  },
  {
   "property": "C117",
   "status": "partial",
   "theorems": [
    "C117_spelling_refuted",
    "C117_spelling_partial",
    "C117_top_partial",
    "C117_extraction_partial"
   ],
   "note": "False: the separator that is cut is looked for as '/' first, so with d/a\\b the parent tried is d instead of d/a; then b is created in a directory that is missing and -1 is returned. What holds: with one kind of separator (or no '\\' after the '/' of the missing part) up to 62 missing directories are created, and nothing else. Also proved for the function as the extraction calls it (C117_extraction_partial)."
  },
  {
   "property": "C118",
   "status": "partial",
   "theorems": [
    "C118_exists_refuted",
    "C118_exists_partial",
    "C118_made_partial"
   ],
   "note": "False: ERROR_ALREADY_EXISTS is also what CreateDirectoryA sets for a file. What holds: 1 means that something has this name and that nothing was changed; 0 means that the path is a directory; whatever is returned, only directories are added."
  },
  {
   "property": "C119",
   "status": "partial",
   "theorems": [
    "C119_removes_only_refuted",
    "C119_memory_refuted",
    "C119_removes_only_partial"
   ],
   "note": "False: pFrom of SHFILEOPSTRUCTA has to end with two NULs, the argument is a string literal with one; the bytes after it are taken as further names to delete, or memory outside is read. What holds: if the next byte is a NUL, exactly .out_dir is removed."
  },
  {
   "property": "C120",
   "status": "partial",
   "theorems": [
    "C120_damage_noticed_refuted",
    "C120_check_value_refuted",
    "C120_damage_noticed_partial"
   ],
   "note": "False: the stream is never finished (deflate with Z_FINISH is commented out at zlibwt_ll_compression_routines.c:72-75), so no archive contains zlib's check value, and ZlibWtDecompressFileOrDirEx ignores the result of decompression (zlibwt_hl_decompress_routines.c:292). What holds for archives of files: the extraction returns and stores a beginning of what the data stand for."
  },
  {
   "property": "C121",
   "status": "partial",
   "theorems": [
    "C121_result_zero_refuted",
    "C121_result_zero_partial"
   ],
   "note": "False: on Unix OsCreateStatic returns 2 for every error except EEXIST, and a backslash in a path without '/' counts as a separator: in a working directory that cannot be written and has the directory a, the path a\\b makes a/b and 0 is returned. What holds: paths without a backslash."
  },
  {
   "property": "C122",
   "status": "proved",
   "theorems": [
    "C122_only_directories"
   ],
   "note": "For every file system with links, permissions and modes."
  },
  {
   "property": "C123",
   "status": "partial",
   "theorems": [
    "C123_failed_refuted",
    "C123_failed_partial"
   ],
   "note": "False: the parents that were created stay (the todo at zlibwt_hl_decompress_routines.c:124), e.g. x for x/ and a name of 256 bytes. What holds: if the parent directory exists, a call that does not return 0 changes nothing."
  },
  {
   "property": "C124",
   "status": "partial",
   "theorems": [
    "C124_windows_directory_refuted",
    "C124_windows_directory_partial",
    "C124_names_in_case",
    "C124_windows_parents_partial"
   ],
   "note": "False: files a and A of one directory become one file with a mixture of both contents (there is no _O_TRUNC), and the result is that of success. What holds: names that mean the same on Windows, no two that differ only in case, paths within the limits. Also proved for targets below missing directories (C124_windows_parents_partial)."
  },
  {
   "property": "C125",
   "status": "partial",
   "theorems": [
    "C125_windows_stays_below_refuted",
    "C125_windows_stays_below_partial",
    "C125_windows_own_partial"
   ],
   "note": "False: a file ..\\x, an ordinary name on Unix, is created outside the target. What holds: archives with names that mean the same on Windows, whatever else is wrong with them and whatever fails."
  },
  {
   "property": "C126",
   "status": "partial",
   "theorems": [
    "C126_windows_returns_refuted",
    "C126_windows_returns_partial"
   ],
   "note": "False: a file that cannot be created (here E, next to the directory e) leaves the descriptor -1, and _write terminates the process (invalid parameter handler). What holds: for archives with names that mean the same on Windows the process is terminated only after such a failure."
  },
  {
   "property": "C127",
   "status": "proved",
   "theorems": [
    "C127_windows_file_cut",
    "C127_windows_file"
   ],
   "note": "For every content and every target that is a file or free. Also for archives that are cut off: the file gets a beginning of its contents."
  },
  {
   "property": "C128",
   "status": "partial",
   "theorems": [
    "C128_any_directory_refuted",
    "C128_balanced_refuted",
    "C128_any_directory_partial",
    "C128_necessary_partial",
    "C128_records_partial",
    "C128_records_necessary_partial",
    "C128_own_partial"
   ],
   "note": "False: an end of a directory without a directory makes strrchr return NULL, which is written to; so does an archive in which every directory is left once, if a name has a NUL in it, because strrchr stops there and directoryPathLen does not. What holds is exact: extraction returns if names are as long as announced, paths fit on the stack, links end with NUL and every end of a directory finds a '/' in the path as shown; otherwise (but for links) it does not, unless it gave up before with its error flag set. Archives of the library, also cut, meet it for every target and file system."
  },
  {
   "property": "C129",
   "status": "partial",
   "theorems": [
    "C129_windows_any_directory_refuted",
    "C129_windows_any_directory_partial",
    "C129_windows_necessary_partial"
   ],
   "note": "False with the archives of C128. What holds: the same condition suffices and is necessary on Windows; the process may be terminated as in C126."
  },
  {
   "property": "C130",
   "status": "partial",
   "theorems": [
    "C130_windows_existing_target_refuted",
    "C130_windows_existing_target_partial"
   ],
   "note": "False: as on Unix (C42), the entries that follow in the same chunk are created in the root directory of the drive. What holds: failure is reported, or the process is terminated as in C126; nothing is lost (C131)."
  },
  {
   "property": "C131",
   "status": "proved",
   "theorems": [
    "C131_windows_nothing_lost",
    "C131_windows_tree_kept"
   ],
   "note": "Invariant of every system call of the model; holds for every archive and zlib implementation, without a contract."
  },
  {
   "property": "C132",
   "status": "proved",
   "theorems": [
    "C132_permissions_obeyed",
    "C132_tree_kept"
   ],
   "note": "Invariant of every system call of the model; holds for every archive and zlib implementation, without a contract. The process is taken to own all entries (mode bits 0200 and 0100) or to be privileged."
  },
  {
   "property": "C133",
   "status": "proved",
   "theorems": [
    "C133_one_file_left_open",
    "C133_one_file_left_open_windows"
   ],
   "note": "Says more than C45: any archive, any target and any failure, and also Windows."
  },
  {
   "property": "C134",
   "status": "proved",
   "theorems": [
    "C134_directory_reported",
    "C134_file_reported",
    "C134_no_archive",
    "C134_directory_reported_windows",
    "C134_file_reported_windows"
   ],
   "note": "The last inflate step must not have filled its buffer (room_left), otherwise the end of the plaintext can be missing. Also for extraction on Windows."
  },
  {
   "property": "C135",
   "status": "partial",
   "theorems": [
    "C135_windows_archive_refuted",
    "C135_windows_archive_partial",
    "C135_windows_to_unix_partial"
   ],
   "note": "False: symbolic links are left out and success is reported (zlibwt_compression_routines.c:427). Remains: everything else is archived as on Unix, so what is proved about extracting holds for such archives (shown for extraction on Unix)."
  },
  {
   "property": "C136",
   "status": "proved",
   "theorems": [
    "C136_file_in_use",
    "C136_returns"
   ],
   "note": "Files of 2 GiB and more cannot be archived on Windows either (st_size has 32 bits, fstat fails)."
  },
  {
   "property": "C137",
   "status": "proved",
   "theorems": [
    "C137_windows_copy"
   ],
   "note": "The last inflate step must not have filled its buffer (room_left)."
  },
  {
   "property": "C138",
   "status": "partial",
   "theorems": [
    "C138_other_processes_refuted",
    "C138_other_processes_partial",
    "C138_own_archives_partial"
   ],
   "note": "False for processes that write below the target (a link placed there redirects a file: files are opened by path, with open without O_EXCL or O_NOFOLLOW, zlibwt_hl_decompress_routines.c:397). Proved for processes that work at and below any other path the target does not depend on, with disk space left for the extraction, for archives that keep to their target (so without links, whose creation changes the current directory) and targets with an existing parent."
  },
  {
   "property": "C139",
   "status": "partial",
   "theorems": [
    "C139_windows_compressdir_refuted",
    "C139_windows_compressdir_partial"
   ],
   "note": "False for links (left out, C135), for -cf, for a full disk and for a folder that cannot be opened (as C64 on Unix). Remains: what the status 0 means, including that no file of the folder is in use."
  },
  {
   "property": "C140",
   "status": "partial",
   "theorems": [
    "C140_build_refuted",
    "C140_too_large_partial",
    "C140_build_partial"
   ],
   "note": "False if setting the icon makes the executable larger than MAX_EXE_SIZE: the size is checked before. Proved what is written then. Remains: the executable fits with its icon."
  },
  {
   "property": "C141",
   "status": "partial",
   "theorems": [
    "C141_finds_itself_refuted",
    "C141_finds_itself_partial"
   ],
   "note": "False if the tool is started with its name in another case, or a folder has a file named like the output. Remains: no folder has a file with the name the tool was started with or the output's name."
  },
  {
   "property": "C142",
   "status": "partial",
   "theorems": [
    "C142_run_refuted",
    "C142_run_partial"
   ],
   "note": "False: the list of names given to SHFileOperation is not ended, so the memory behind .out_dir is used as further names. Remains: the byte in memory happens to be NUL, legal paths that are short enough, nothing of .out_dir in use."
  },
  {
   "property": "C143",
   "status": "partial",
   "theorems": [
    "C143_second_run_refuted",
    "C143_second_run_partial"
   ],
   "note": "False: files that are not in use are deleted, and the archive is extracted into the root directory. Remains: no program is started and the status is not 0."
  },
  {
   "property": "C144",
   "status": "proved",
   "theorems": [
    "C144_programs"
   ],
   "note": ""
  },
  {
   "property": "C145",
   "status": "partial",
   "theorems": [
    "C145_archived_again_refuted",
    "C145_archived_again_partial",
    "C145_copy_is_settled"
   ],
   "note": "False if the umask takes permissions away or the mode has bits that are not restored. Remains: the permissions are those that a copy has (every extracted directory has such permissions), the filter does not look at the directory, and the directory iterator keeps the order."
  },
  {
   "property": "C146",
   "status": "proved",
   "theorems": [
    "C146_no_command",
    "C146_other_command",
    "C146_first_download"
   ],
   "note": "Holds for every package name without a NUL; a name that does not fit is undefined behaviour (C84), not a wrong download."
  },
  {
   "property": "C147",
   "status": "partial",
   "theorems": [
    "C147_both_systems_refuted",
    "C147_both_systems_partial"
   ],
   "note": "False if two names of a directory differ only in case. Remains: the conditions of C39 and of C124 together (files and directories, names that mean the same on Windows, paths within the limits, enough space), a umask that lets owners write."
  },
  {
   "property": "C148",
   "status": "proved",
   "theorems": [
    "C148_windows_to_unix"
   ],
   "note": "The conditions are part of the statement; the archive is complete (C06) and its last inflate step left room (C13)."
  },
  {
   "property": "C149",
   "status": "proved",
   "theorems": [
    "C149_unix_to_windows",
    "C149_there_and_back"
   ],
   "note": "The conditions are part of the statement; C147 shows that names differing only in case are lost. The archive is complete (C06) and its last inflate step left room (C13)."
  },
  {
   "property": "C150",
   "status": "partial",
   "theorems": [
    "C150_unread_reported_refuted",
    "C150_unsearchable_refuted",
    "C150_unread_reported_partial",
    "C150_copied_partial"
   ],
   "note": "False: a directory that cannot be listed is archived as an empty directory and 0 is returned; a link in a directory that can be listed but not searched makes the process exit. Proved: if what can be listed can be searched, 0 is returned exactly if every file outside of unlistable directories can be read, and the archive then holds all of these."
  },
  {
   "property": "C151",
   "status": "partial",
   "theorems": [
    "C151_same_refuted",
    "C151_same_partial",
    "C151_same_links_partial",
    "C151_same_windows_partial"
   ],
   "note": "False: a link whose target lies across the end of the output buffer is damaged, which depends on the order of the entries. Proved for directories without links, and for directories with links if no target was split; on Windows without links."
  },
  {
   "property": "C152",
   "status": "partial",
   "theorems": [
    "C152_behind_refuted",
    "C152_behind_partial",
    "C152_behind_windows_partial"
   ],
   "note": "False if the size of the archive is not passed: the stream has no end mark, so further data are decoded. Proved if the size is passed, for any bytes as archive."
  },
  {
   "property": "C153",
   "status": "proved",
   "theorems": [
    "C153_invalid_level",
    "C153_invalid_level_path",
    "C153_invalid_level_windows"
   ],
   "note": "Proved for trees, for paths on Unix, and for Windows. (For files: C28. The buffers that are not freed then: C38.)"
  },
  {
   "property": "C154",
   "status": "proved",
   "theorems": [
    "C154_not_an_archive",
    "C154_not_an_archive_windows",
    "C154_returns",
    "C154_returns_windows"
   ],
   "note": "Proved for extractions that return; it is proved that they return, except for a version other than 0, where an assertion may fail (C23)."
  },
  {
   "property": "C155",
   "status": "proved",
   "theorems": [
    "C155_callbacks",
    "C155_disk"
   ],
   "note": "Proved for the callbacks of a session and for the extraction to disk on Unix. The size of the archive file itself is no bound, since zlib compresses."
  }
 ]
}