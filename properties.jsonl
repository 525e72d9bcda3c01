{"id": "C01", "title": "Padding of names and contents", "statement": "For every length a record can describe (names up to 2^32-9 bytes, contents up to 2^64-9 bytes) the padded length stored in the archive is a multiple of 8, strictly larger than the real length and at most 8 larger, so 1 to 8 zero bytes of padding are always written and the 9 byte padding source is never over-read.", "quantifier": "all lengths below 2^32-8 (32 bit fields) resp. 2^64-8 (64 bit fields)", "why_tests_cant": "the statement ranges over every 32/64 bit length, including the values next to the wrap-around", "anchors": ["src/include/private/zlib_with_tools/zlibwt_compress_decompress_common.h:ZLIBWT_NORM_LEN", "src/core/zlibwt_compression_routines.c:s_vcDummyBuffer", "src/core/zlibwt_compression_routines.c:CompressArbitraryBufferAsFileInline"]}
{"id": "C02", "title": "Archive header and record fields survive the round trip on any host", "statement": "Whatever values the writer puts in the version, content type, size, padded size, name length, padded name length, mode and kind fields, a reader recovers exactly those values, for every combination of writer and reader byte order and whatever the unused bytes of the structures contain.", "quantifier": "all field values of the field width, all contents of the unused bytes, both byte orders on either side", "why_tests_cant": "infinitely many field values and no test host of the other byte order", "anchors": ["src/include/private/zlib_with_tools/zlibwt_compress_decompress_common.h:SCompressDecompressHeader", "include/zlib_with_tools/zlibwt_compress_decompress_common.h:SFileItem", "src/core/zlibwt_ll_compression_routines.c:ZlibWtCreateTypedCompressSession", "src/core/zlibwt_decompress_routines_version_0000.c:FileHeaderClosingStat", "src/core/zlibwt_decompress_routines.c:ZlibWtDecompressCallbackStatHeader"]}
{"id": "C03", "title": "Archive bytes are the same on every host", "statement": "A little-endian and a big-endian host writing the same header or record (same values, same unused bytes) put byte-for-byte the same image in the stream.", "quantifier": "all field values, all unused bytes, both byte orders", "why_tests_cant": "needs both kinds of host and every value", "anchors": ["src/core/zlibwt_ll_compression_routines.c:ZlibWtCreateTypedCompressSession", "src/core/zlibwt_compression_routines.c:CompressArbitraryBufferAsFileInline"]}
{"id": "C04", "title": "Archiving is deterministic", "statement": "Archiving the same directory twice with the same filter and level feeds the same bytes to the compressor, i.e. no byte of the archive depends on anything but the arguments and the file system contents.", "quantifier": "all directories and all contents of uninitialised stack memory", "why_tests_cant": "a test sees one stack content per run and it usually repeats", "anchors": ["src/core/zlibwt_ll_compression_routines.c:ZlibWtCreateTypedCompressSession", "src/core/zlibwt_compression_routines.c:ZlibWtFolderCompressDirIterCallbackStatic"]}
{"id": "C05", "title": "Streaming compression is lossless once flushed", "statement": "For every sequence of compress calls on one session (any split of the data, any output buffer sizes of at least 1 byte, buffer and callback replaced between calls) inflating the concatenation of everything handed to the callbacks gives the 128 byte header followed by exactly the bytes passed in, provided the last deflate step did not fill its output buffer completely.", "quantifier": "all histories of compress/set-buffer/set-callback calls, all data, every deflate implementation meeting zlib's documented contract", "why_tests_cant": "all call histories, buffer sizes and data, and every legal internal buffering of deflate", "anchors": ["src/core/zlibwt_ll_compression_routines.c:ZlibWtCreateTypedCompressSession", "src/core/zlibwt_ll_compression_routines.c:ZlibWtCompressBufferToCallback", "src/core/zlibwt_ll_compression_routines.c:ZlibWtSetBufferForCompressSession"]}
{"id": "C06", "title": "Nothing is lost when a compression session is destroyed", "statement": "After any sequence of successful compress calls and a destroy, the bytes delivered to the callback decode to everything that was passed in, with no proviso about the output buffer.", "quantifier": "all histories of compress calls followed by destroy, every contract-conforming deflate", "why_tests_cant": "loss needs a data dependent coincidence of output size and buffer size", "anchors": ["src/core/zlibwt_ll_compression_routines.c:ZlibWtDestroyCompressSession", "src/core/zlibwt_ll_compression_routines.c:ZlibWtCompressBufferToCallback"]}
{"id": "C07", "title": "Compression callback contract", "statement": "Each callback invocation of a compression session receives at most as many bytes as the output buffer set last, goes to the callback set last, and the invocations in order carry the deflate output exactly once, in order, with nothing added or repeated.", "quantifier": "all histories of session calls", "why_tests_cant": "ranges over all histories", "anchors": ["src/core/zlibwt_ll_compression_routines.c:ZlibWtCompressBufferToCallback", "src/core/zlibwt_ll_compression_routines.c:ZlibWtSetCallbackForCompressSession"]}
{"id": "C08", "title": "Compress calls return", "statement": "With an output buffer of at least one byte every compress call finishes after finitely many deflate steps and returns 0, for every input.", "quantifier": "all inputs, all buffer sizes in 1..2^32-1, every contract-conforming deflate state", "why_tests_cant": "termination for all inputs", "anchors": ["src/core/zlibwt_ll_compression_routines.c:ZlibWtCompressBufferToCallback"]}
{"id": "C09", "title": "Compress calls return even for an unusable output buffer", "statement": "A compress call on a non-empty input returns (possibly with an error) also when the session's output buffer has size 0 or its size_t size is a multiple of 2^32.", "quantifier": "all non-empty inputs with output buffer size congruent 0 modulo 2^32", "why_tests_cant": "non-termination cannot be observed by a test", "anchors": ["src/core/zlibwt_ll_compression_routines.c:ZlibWtCompressBufferToCallback", "src/core/zlibwt_ll_compression_routines.c:ZlibWtSetBufferForCompressSession"]}
{"id": "C10", "title": "Every byte passed to a compress call is compressed", "statement": "A compress call that returns 0 has consumed all of the bytes it was given, for every size_t length.", "quantifier": "all lengths 0..2^64-1", "why_tests_cant": "needs inputs of 4 GiB and more", "anchors": ["src/core/zlibwt_ll_compression_routines.c:ZlibWtCompressBufferToCallback"]}
{"id": "C11", "title": "Compression session creation", "statement": "Creating a session with a level outside -1..9 (or when deflate cannot be initialised), or with a NULL output buffer, returns NULL and calls no callback with data; otherwise the session is usable and the plaintext of its stream starts with a 128 byte header carrying version 0 and the requested content type.", "quantifier": "all levels, all content types, all buffer sizes at least 1", "why_tests_cant": "all levels and all deflate failures", "anchors": ["src/core/zlibwt_ll_compression_routines.c:ZlibWtCreateTypedCompressSession"]}
{"id": "C12", "title": "Streaming decompression delivers a prefix of the content, whatever the splitting", "statement": "For every compressed input (valid or not), every splitting of it over decompress calls and every sequence of output buffer sizes of at least 1, the concatenation of what the callback receives is a prefix of the decoded content, each invocation carries at most the current buffer size, and it is the whole decoded content if the last inflate step did not fill its buffer and no error was reported.", "quantifier": "all inputs, all splittings, all buffer sizes, every contract-conforming inflate", "why_tests_cant": "all splittings and all inputs", "anchors": ["src/core/zlibwt_ll_decompress_routines.c:ZlibWtLLDecompressBufferToCallback", "src/core/zlibwt_ll_decompress_routines.c:ZlibWtSetBufferForLLDecompressSession"]}
{"id": "C13", "title": "All content is delivered once all compressed bytes have been passed in", "statement": "When every compressed byte of a stream has been passed to decompress calls that all returned 0, everything the stream contains has been delivered to the callback, also if the last output buffer was filled exactly.", "quantifier": "all streams and all output buffer sizes", "why_tests_cant": "depends on data dependent coincidence between content size and buffer size", "anchors": ["src/core/zlibwt_ll_decompress_routines.c:ZlibWtLLDecompressBufferToCallback", "src/core/zlibwt_decompress_routines.c:ZlibWtDecompressBufferToCallback"]}
{"id": "C14", "title": "Properly terminated streams are delivered completely", "statement": "If the compressed stream is complete (has an end-of-stream mark, as produced by any standard zlib writer), its whole content is delivered to the callback.", "quantifier": "all terminated zlib streams", "why_tests_cant": "the project's own writer never terminates a stream, so its round trip tests cannot show it", "anchors": ["src/core/zlibwt_ll_decompress_routines.c:ZlibWtLLDecompressBufferToCallback"]}
{"id": "C15", "title": "Corrupt input is reported by the streaming API", "statement": "If the compressed bytes passed so far are not a prefix of a valid stream, then a decompress call that received the offending bytes and whose output buffer was not filled returns non-zero; once inflate reports an error nothing from that step is delivered.", "quantifier": "all corrupt inputs and splittings", "why_tests_cant": "all corruptions", "anchors": ["src/core/zlibwt_ll_decompress_routines.c:ZlibWtLLDecompressBufferToCallback"]}
{"id": "C16", "title": "Decompress calls return", "statement": "With an output buffer of at least one byte every decompress call returns after finitely many steps, for every input, valid or not.", "quantifier": "all inputs, all buffer sizes at least 1", "why_tests_cant": "termination for all inputs", "anchors": ["src/core/zlibwt_ll_decompress_routines.c:ZlibWtLLDecompressBufferToCallback", "src/core/zlibwt_ll_decompress_routines.c:ZlibWtLLDecompressBufferToCallbackNoTouchOut", "src/core/zlibwt_ll_decompress_routines.c:ZlibWtLLDecompressBufferToCallbackReadOldIn"]}
{"id": "C17", "title": "Header recognition does not depend on the splitting of the input", "statement": "However the first compressed bytes are split over calls, the archive header is recognised after exactly 128 plaintext bytes, no user callback runs before, and content delivery starts with plaintext byte 129.", "quantifier": "all splittings of all archives", "why_tests_cant": "all splittings", "anchors": ["src/core/zlibwt_decompress_routines.c:ZlibWtDecompressCallbackStatHeader", "src/core/zlibwt_decompress_routines.c:ZlibWtDecompressBufferToCallback", "src/core/zlibwt_ll_decompress_routines.c:ZlibWtLLDecompressBufferToCallbackNoTouchOut"]}
{"id": "C18", "title": "Directory callbacks do not depend on the splitting of the plaintext", "statement": "For every plaintext (well-formed or not) and any two splittings of it into inflate outputs whose last output is not empty, the sequence of callbacks (adjacent fileRead calls merged, link targets aside) and the final decoder state are the same.", "quantifier": "all byte strings, all splittings", "why_tests_cant": "exponentially many splittings of unboundedly many inputs", "anchors": ["src/core/zlibwt_decompress_routines_version_0000.c:ZlibWtDecompressCallbackStatData_dir"]}
{"id": "C19", "title": "Symbolic link targets are delivered whole", "statement": "The symLinkCreate callback receives the complete target path stored in the archive, however the stream is split.", "quantifier": "all archives with symbolic links, all splittings", "why_tests_cant": "fails only if a buffer boundary falls inside a target", "anchors": ["src/core/zlibwt_decompress_routines_version_0000.c:ZlibWtDecompressCallbackStatData_dir"]}
{"id": "C20", "title": "The directory decoder is memory safe on arbitrary input", "statement": "For every plaintext, every splitting and every pattern of allocation failures the decoder writes only inside its record structure and its name buffer, never dereferences a missing name buffer and never violates an assertion.", "quantifier": "all byte strings, all splittings, all allocation outcomes", "why_tests_cant": "hostile inputs", "anchors": ["src/core/zlibwt_decompress_routines_version_0000.c:ZlibWtDecompressCallbackStatData_dir", "src/core/zlibwt_decompress_routines_version_0000.c:FileHeaderClosingStat"]}
{"id": "C21", "title": "Callback protocol for directory archives", "statement": "For every plaintext: fileRead is only called between the dirOrFileStart of a file entry and its fileEnd, the bytes passed in between add up to exactly the size announced in that dirOrFileStart, and fileEnd is called exactly once per completed file entry.", "quantifier": "all byte strings, all splittings", "why_tests_cant": "hostile inputs and all splittings", "anchors": ["src/core/zlibwt_decompress_routines_version_0000.c:ZlibWtDecompressCallbackStatData_dir"]}
{"id": "C22", "title": "A truncated archive produces a prefix of the callbacks", "statement": "Cutting a plaintext at any point (download interrupted, crash while writing) gives a callback sequence that is a prefix of the one of the full plaintext, where the last fileRead may be shorter.", "quantifier": "all byte strings, all cut points, all splittings", "why_tests_cant": "all crash points", "anchors": ["src/core/zlibwt_decompress_routines_version_0000.c:ZlibWtDecompressCallbackStatData_dir", "src/core/zlibwt_decompress_routines.c:ZlibWtDecompressBufferToCallback"]}
{"id": "C23", "title": "Archives of an unsupported version are ignored", "statement": "If the version field is not 0, no user callback is ever invoked and no memory error occurs, whatever follows and however it is split over calls.", "quantifier": "all archives with version not 0, all splittings", "why_tests_cant": "needs a hostile continuation and a second call", "anchors": ["src/core/zlibwt_decompress_routines.c:ZlibWtDecompressCallbackStatHeader"]}
{"id": "C24", "title": "Archives with an unknown content type are ignored", "statement": "If the version is 0 and the content type is none of directory, file, blob, no user callback is ever invoked, whatever follows and however it is split.", "quantifier": "all archives with such a header, all splittings", "why_tests_cant": "all inputs and splittings", "anchors": ["src/core/zlibwt_decompress_routines_version_0000.c:ZlibWtDecompressCallbackStatData_version_0000"]}
{"id": "C25", "title": "Single file and blob archives deliver exactly the content", "statement": "For content type file or blob the start callback is called exactly once before any data, then the concatenation of the read callbacks is exactly the plaintext after the header, for every splitting.", "quantifier": "all contents, all splittings", "why_tests_cant": "all contents and splittings", "anchors": ["src/core/zlibwt_decompress_routines_version_0000.c:ZlibWtDecompressCallbackStatData_blob_and_file", "src/core/zlibwt_decompress_routines_version_0000.c:ZlibWtDecompressCallbackStatData_version_0000"]}
{"id": "C26", "title": "The directory decoder makes progress", "statement": "Each decoder invocation on n bytes finishes after at most 4n+4 nested invocations, for every state and input.", "quantifier": "all states and buffers", "why_tests_cant": "termination and stack depth for hostile inputs", "anchors": ["src/core/zlibwt_decompress_routines_version_0000.c:ZlibWtDecompressCallbackStatData_dir"]}
{"id": "C27", "title": "Single file round trip", "statement": "Compressing a readable file and feeding the delivered bytes, split arbitrarily, to a decompression session delivers exactly the file's bytes, provided the final deflate and inflate steps did not fill their buffers.", "quantifier": "all file contents, all splittings, every contract-conforming zlib", "why_tests_cant": "all contents and sizes", "anchors": ["src/core/zlibwt_compression_routines.c:ZlibWtCompressFileEx", "src/core/zlibwt_compression_routines.c:CompressSingleFileFromFile"]}
{"id": "C28", "title": "Compressing a file with an invalid level returns an error", "statement": "ZlibWtCompressFileEx returns a non-zero value, without undefined behaviour, when no session can be created for the level.", "quantifier": "all levels outside -1..9", "why_tests_cant": "ranges over all levels and over allocation failures", "anchors": ["src/core/zlibwt_compression_routines.c:ZlibWtCompressFileEx"]}
{"id": "C29", "title": "Directory archive round trip at callback level", "statement": "Archiving any directory tree of regular files and directories and decoding the result calls back, for every splitting, exactly the pre-order traversal of the selected entries with their names, modes, sizes and contents, and one directory end per directory, whatever the uninitialised bytes in the archive are. (Proviso: the last deflate and inflate steps did not fill their buffers, see C06 and C13.)", "quantifier": "all trees, filters, splittings and contents of uninitialised memory", "why_tests_cant": "all trees and splittings", "anchors": ["src/core/zlibwt_compression_routines.c:ZlibWtFolderCompressDirIterCallbackStatic", "src/core/zlibwt_compression_routines.c:ZlibWtCompressDirectoryEx", "src/core/zlibwt_decompress_routines_version_0000.c:ZlibWtDecompressCallbackStatData_dir"]}
{"id": "C30", "title": "Filter semantics", "statement": "The filter is called exactly once for every entry except . and .., in pre-order and never inside a skipped directory; entries for which it returns non-zero (and their subtrees) are absent from the archive and all others up to the stop are present. (Proviso: the last deflate and inflate steps did not fill their buffers, see C06 and C13.)", "quantifier": "all trees and all (stateful) filters", "why_tests_cant": "all trees and filters", "anchors": ["src/core/zlibwt_compression_routines.c:ZlibWtFolderCompressDirIterCallbackStatic"]}
{"id": "C31", "title": "Stopping from the filter gives a well-formed archive", "statement": "If the filter returns 387 the remaining entries are neither archived nor filtered, the open directories are still closed in the archive, and the archive decodes to exactly the entries accepted before; the call returns 0. (Proviso: the last deflate and inflate steps did not fill their buffers, see C06 and C13.)", "quantifier": "all trees and all stop points", "why_tests_cant": "all stop points in all trees", "anchors": ["src/core/zlibwt_compression_routines.c:ZlibWtFolderCompressDirIterCallbackStatic"]}
{"id": "C32", "title": "Input failures are reported and stop the run", "statement": "If a file cannot be opened, its status cannot be read, or reading it fails, ZlibWtCompressDirectoryEx returns 2 and archives no further entry; it returns 0 if and only if no such failure was met.", "quantifier": "all trees and all failure points", "why_tests_cant": "all failure points", "anchors": ["src/core/zlibwt_compression_routines.c:ZlibWtFolderCompressDirIterCallbackStatic", "src/core/zlibwt_compression_routines.c:ZlibWtCompressDirectoryEx"]}
{"id": "C33", "title": "Directory markers are balanced", "statement": "In every archive written without input failure, directory starts and ends are properly nested, for every filter and stop point.", "quantifier": "all trees, filters", "why_tests_cant": "all trees", "anchors": ["src/core/zlibwt_compression_routines.c:ZlibWtFolderCompressDirIterCallbackStatic"]}
{"id": "C34", "title": "A file that changes while it is archived damages only itself", "statement": "If a file's length at reading time differs from the size reported when it was opened, all other entries of the archive still decode correctly.", "quantifier": "all trees with one file whose content length differs from its status size", "why_tests_cant": "needs a race between writer and archiver", "anchors": ["src/core/zlibwt_compression_routines.c:CompressArbitraryBufferAsFileInline", "src/core/zlibwt_compression_routines.c:CompressSingleFileFromFile"]}
{"id": "C35", "title": "Extra buffers at the archive root", "statement": "ZlibWtCompressDirectoryWithBufferExRoot archives each extra buffer, in order and before the directory's entries, as a file with the given name, mode and bytes. (Proviso: the last deflate and inflate steps did not fill their buffers, see C06 and C13.)", "quantifier": "all buffer lists, all trees", "why_tests_cant": "all buffers", "anchors": ["src/core/zlibwt_compression_routines.c:ZlibWtCompressDirectoryWithBufferExRoot", "src/core/zlibwt_compression_routines.c:ZlibWtFolderCompressBufferAsDirRootFileInline"]}
{"id": "C36", "title": "Extra buffers below directories", "statement": "ZlibWtCompressDirectoryWithBufferEx archives an extra buffer with path d1/.../dn/f as file f with the given bytes inside nested directories d1..dn, properly closed. (Proviso: the last deflate and inflate steps did not fill their buffers, see C06 and C13.)", "quantifier": "all paths and buffers", "why_tests_cant": "all paths", "anchors": ["src/core/zlibwt_compression_routines.c:ZlibWtFolderCompressBufferAsFileInlineRaw"]}
{"id": "C37", "title": "Extra buffers keep their mode", "statement": "The mode given with an extra buffer to ZlibWtCompressDirectoryWithBufferEx is the mode stored in the archive.", "quantifier": "all modes", "why_tests_cant": "ranges over all modes and paths", "anchors": ["src/core/zlibwt_compression_routines.c:ZlibWtFolderCompressBufferAsFileInline", "src/core/zlibwt_compression_routines.c:ZlibWtFolderCompressBufferAsFileInlineRaw"]}
{"id": "C38", "title": "Compression releases what it allocates", "statement": "On every return path ZlibWtCompressDirectoryEx and its variants release both work buffers and the session.", "quantifier": "all outcomes of allocation and session creation", "why_tests_cant": "needs failing allocations or invalid levels", "anchors": ["src/core/zlibwt_compression_routines.c:ZlibWtCompressDirectoryEx", "src/core/zlibwt_compression_routines.c:ZlibWtCompressDirectoryWithBufferEx", "src/core/zlibwt_compression_routines.c:ZlibWtCompressDirectoryWithBufferExRoot", "src/core/zlibwt_compression_routines.c:ZlibWtCompressFileEx"]}
{"id": "C39", "title": "Directory round trip on disk", "statement": "Archiving a tree of files and directories and extracting the archive to a path that does not exist yet recreates below that path exactly the tree (names, contents, permission bits restricted by the umask) and leaves everything else in the file system unchanged; the call returns the directory content type.", "quantifier": "all trees, all target paths, all splittings, all file systems, given writable directories", "why_tests_cant": "all trees and file systems", "anchors": ["src/core/zlibwt_hl_decompress_routines.c:ZlibWtDecompressFileOrDirEx", "src/core/zlibwt_hl_decompress_routines.c:DecompressDirFileOrDirStartCallback", "src/core/zlibwt_hl_decompress_routines.c:DecompressDirDirEndCallback"]}
{"id": "C40", "title": "Single file round trip on disk", "statement": "Extracting a single file archive to a writable path makes that path a file with exactly the original bytes, changes nothing else and returns the file content type.", "quantifier": "all contents, all paths", "why_tests_cant": "all contents and sizes", "anchors": ["src/core/zlibwt_hl_decompress_routines.c:ZlibWtDecompressFileOrDirEx", "src/core/zlibwt_hl_decompress_routines.c:DecompressFileStartCallback", "src/core/zlibwt_hl_decompress_routines.c:DecompressFileAndBlobCallback"]}
{"id": "C41", "title": "Extraction stays below the target", "statement": "Whatever the archive contains, extraction creates or modifies nothing outside the target path.", "quantifier": "all archives including hostile ones", "why_tests_cant": "hostile archives", "anchors": ["src/core/zlibwt_hl_decompress_routines.c:DecompressDirFileOrDirStartCallback", "src/core/zlibwt_hl_decompress_routines.c:DecompressDirDirEndCallback", "src/core/zlibwt_hl_decompress_routines.c:SymLinkCreateCallback"]}
{"id": "C42", "title": "Extraction to an existing path fails cleanly", "statement": "If the target of a directory archive exists already, extraction fails and the file system is unchanged.", "quantifier": "all archives, all file systems where the target exists", "why_tests_cant": "the damage is done outside the directory a test would look at", "anchors": ["src/core/zlibwt_hl_decompress_routines.c:DecompressDirStartCallback", "src/core/zlibwt_hl_decompress_routines.c:DecompressDirFileOrDirStartCallback"]}
{"id": "C43", "title": "Success is only reported for complete extraction", "statement": "ZlibWtDecompressFileOrDir returns a content type other than none only if the whole archive was decoded without error and every entry was written.", "quantifier": "all inputs, truncations, corruptions, write failures", "why_tests_cant": "all truncation points and corruptions", "anchors": ["src/core/zlibwt_hl_decompress_routines.c:ZlibWtDecompressFileOrDirEx"]}
{"id": "C44", "title": "Archive size limit", "statement": "With a non-zero archive size n the extraction reads exactly min(n, available) bytes from the input (unless it stops early on an error) and never a byte beyond; with 0 it reads to the end of the file; it always passes on the bytes in order.", "quantifier": "all limits, all inputs", "why_tests_cant": "all sizes relative to the 524288 byte chunk", "anchors": ["src/core/zlibwt_hl_decompress_routines.c:NextSizeToReadInline", "src/core/zlibwt_hl_decompress_routines.c:ZlibWtDecompressFileOrDirEx"]}
{"id": "C45", "title": "Extraction closes the files it opens", "statement": "When ZlibWtDecompressFileOrDirEx returns, every descriptor it opened is closed, for every input.", "quantifier": "all inputs including truncated ones", "why_tests_cant": "all truncation points", "anchors": ["src/core/zlibwt_hl_decompress_routines.c:ZlibWtDecompressFileOrDirEx", "src/core/zlibwt_hl_decompress_routines.c:DecompressDirFileEndCallback"]}
{"id": "C46", "title": "Creating missing parent directories", "statement": "For a target path whose first k missing ancestors are creatable (k at most 60, no repeated or trailing separators) the recursive directory creation creates exactly the missing directories and returns 0; it returns 1 and changes nothing if the path is already a directory, and -1 and changes nothing if it is a file.", "quantifier": "all paths, all file systems", "why_tests_cant": "all depths", "anchors": ["src/core/zlibwt_hl_decompress_routines.c:MkdirRecurseInlineRaw", "src/core/zlibwt_hl_decompress_routines.c:OsCreateStatic"]}
{"id": "C47", "title": "Recursive directory creation works for any depth and spelling", "statement": "Recursive directory creation succeeds whenever all missing ancestors could be created one by one, for any number of missing levels and also with a trailing separator.", "quantifier": "all depths, all spellings of the path", "why_tests_cant": "depth limit far above what tests use", "anchors": ["src/core/zlibwt_hl_decompress_routines.c:MkdirRecurseInlineRaw"]}
{"id": "C48", "title": "Extraction preserves the working directory", "statement": "When extraction returns, the process working directory is the one it had at the call, for every archive (also if symbolic links were created).", "quantifier": "all archives, all working directories", "why_tests_cant": "all archives", "anchors": ["src/core/zlibwt_hl_decompress_routines.c:SymLinkCreateCallback"]}
{"id": "C49", "title": "Concurrent extractions do not disturb each other", "statement": "Two extractions to different relative target paths running in two threads produce, for every interleaving, the same files as running one after the other.", "quantifier": "all interleavings of the system calls of two extractions", "why_tests_cant": "needs one particular schedule", "anchors": ["src/core/zlibwt_hl_decompress_routines.c:SymLinkCreateCallback"]}
{"id": "C50", "title": "Sessions are independent", "statement": "For every interleaving of calls on several compression and decompression sessions, each session produces the callbacks it would produce if used alone.", "quantifier": "all interleavings of calls on any number of sessions", "why_tests_cant": "all interleavings", "anchors": ["src/core/zlibwt_ll_compression_routines.c:ZlibWtCompressBufferToCallback", "src/core/zlibwt_decompress_routines.c:ZlibWtDecompressBufferToCallback"]}
{"id": "C51", "title": "Write failures are reported", "statement": "If the file system cannot store all bytes of an extracted file, extraction reports an error.", "quantifier": "all archives, all points at which the disk fills up", "why_tests_cant": "all failure points", "anchors": ["src/core/zlibwt_hl_decompress_routines.c:DecompressDirFileReadCallback", "src/core/zlibwt_hl_decompress_routines.c:DecompressFileAndBlobCallback"]}
{"id": "C52", "title": "Read-only directories survive the round trip", "statement": "A tree containing a directory without owner write permission is restored completely also by an unprivileged user.", "quantifier": "all trees", "why_tests_cant": "depends on modes and privileges, tests run privileged or with ordinary modes", "anchors": ["src/core/zlibwt_hl_decompress_routines.c:DecompressDirFileOrDirStartCallback"]}
{"id": "C53", "title": "Name lengths in records are validated", "statement": "No archive makes the extraction read outside the name buffer of a record.", "quantifier": "all archives including hostile ones", "why_tests_cant": "hostile archives", "anchors": ["src/core/zlibwt_hl_decompress_routines.c:DecompressDirFileOrDirStartCallback", "src/core/zlibwt_decompress_routines_version_0000.c:FileHeaderClosingStat"]}
{"id": "C54", "title": "A later entry with the same name replaces the earlier one", "statement": "If an archive contains two file entries with the same path (for example an extra buffer and a directory entry) the extracted file has exactly the bytes of the later entry.", "quantifier": "all pairs of contents", "why_tests_cant": "only visible when the later entry is shorter", "anchors": ["src/core/zlibwt_hl_decompress_routines.c:DecompressDirFileOrDirStartCallback", "include/zlib_with_tools/utils/io_zlibandtls.h:ZLIBWT_O_CREAT"]}
{"id": "C55", "title": "Extra buffers sharing a directory can be extracted", "statement": "An archive written with several extra buffers below the same directory can be extracted completely.", "quantifier": "all buffer lists", "why_tests_cant": "all lists of paths", "anchors": ["src/core/zlibwt_compression_routines.c:ZlibWtFolderCompressBufferAsFileInlineRaw", "src/core/zlibwt_hl_decompress_routines.c:DecompressDirFileOrDirStartCallback"]}
{"id": "C56", "title": "Command line parsing is memory safe", "statement": "For every registered option set and every argument vector, parsing never reads an argument at or beyond the end of the vector.", "quantifier": "all option sets and argument vectors", "why_tests_cant": "all argument vectors", "anchors": ["src/utils/common_argument_parser.cpp:ParseCommandLine"]}
{"id": "C57", "title": "Command line parsing extracts options and keeps the rest", "statement": "When parsing stays inside the argument vector, every option's value is the argument that followed its first occurrence (unless that starts with '-', then it has none), later occurrences and unknown arguments remain in the vector in their original order, and the argument count is the number of remaining arguments.", "quantifier": "all option sets and argument vectors", "why_tests_cant": "all argument vectors", "anchors": ["src/utils/common_argument_parser.cpp:ParseCommandLine", "src/utils/common_argument_parser.cpp:operator[]"]}
{"id": "C58", "title": "Parsing terminates", "statement": "Parsing finishes for every argument vector.", "quantifier": "all option sets and argument vectors", "why_tests_cant": "all argument vectors", "anchors": ["src/utils/common_argument_parser.cpp:ParseCommandLine"]}
{"id": "C59", "title": "Help text is aligned", "statement": "For every set of registered options all explanations in the help text start at the same column and no padding length underflows.", "quantifier": "all sequences of option registrations", "why_tests_cant": "all registrations", "anchors": ["src/utils/common_argument_parser.cpp:HelpString", "src/utils/common_argument_parser.cpp:AddOption"]}
{"id": "C60", "title": "Registering an option again is safe", "statement": "Registering an option name that exists already and then using or destroying the parser frees every option object exactly once and never uses a freed one.", "quantifier": "all sequences of registrations", "why_tests_cant": "double frees need not crash", "anchors": ["src/utils/common_argument_parser.cpp:AddOption", "src/utils/common_argument_parser.cpp:Clear"]}
{"id": "C61", "title": "Option defaults are honoured", "statement": "An option registered with default values returns these defaults when it is given on the command line without values.", "quantifier": "all option kinds and defaults", "why_tests_cant": "all kinds of options", "anchors": ["src/utils/common_argument_parser.cpp:AddOption"]}
{"id": "C62", "title": "Self extracting file layout", "statement": "The file built by the self extract tool starts with the bytes of the tool itself and has the archive at offset 524288 (2097152 in debug builds), so that running it extracts exactly that archive.", "quantifier": "all tool sizes up to the limit, all archives", "why_tests_cant": "all sizes", "anchors": ["src/tools/main_self_extract.c:main"]}
{"id": "C63", "title": "Self extract tool packs everything but itself", "statement": "The archive built by the self extract tool contains every file of the directory tree except the tool's own executable and the output file.", "quantifier": "all trees and all directory iteration orders", "why_tests_cant": "depends on the directory iteration order", "anchors": ["src/tools/main_self_extract.c:DirCompressFilterFunction"]}
{"id": "C64", "title": "compressdir exit status", "statement": "compressdir returns 0 only if help was requested or an archive of the requested input was written.", "quantifier": "all argument vectors and inputs", "why_tests_cant": "all argument vectors", "anchors": ["src/tools/main_compressdir.cpp:main"]}
{"id": "C65", "title": "compressdir accepts the folder as a plain argument", "statement": "compressdir called with an output file option and the name of the input folder as the only other argument archives that folder, wherever the folder name stands.", "quantifier": "all folder names, all positions of the argument", "why_tests_cant": "memory error that depends on the length of the folder name", "anchors": ["src/tools/main_compressdir.cpp:main", "src/utils/common_argument_parser.cpp:ParseCommandLine"]}
{"id": "C66", "title": "Self extract tool reports write failures", "statement": "If the output file cannot be written completely the self extract tool does not return 0.", "quantifier": "all failure points", "why_tests_cant": "all failure points", "anchors": ["src/tools/main_self_extract.c:main", "src/tools/main_self_extract.c:CompressFileAndBlobCallback"]}
{"id": "C67", "title": "Building a self extracting file terminates", "statement": "The self extract tool finishes copying its executable whatever reading it delivers.", "quantifier": "all results of reading the executable", "why_tests_cant": "read errors are rare", "anchors": ["src/tools/main_self_extract.c:main"]}
{"id": "C68", "title": "Self extraction round trip", "statement": "Running a file built by the self extract tool, in a directory where .out_dir can be created, creates .out_dir with exactly the packed files, directories and permissions before a program is started.", "quantifier": "all directories packed, all tool sizes up to the limit, all states of the file system", "why_tests_cant": "needs the two stages of the tool together, all trees", "anchors": ["src/tools/main_self_extract.c:main", "src/core/zlibwt_hl_decompress_routines.c:ZlibWtDecompressFileOrDirEx"]}
{"id": "C69", "title": "Exit status of a self extracting file", "statement": "A self extracting file ends with the exit status of the program it started, and with a status other than 0 if no program could be started.", "quantifier": "all archives, all results of starting the programs", "why_tests_cant": "depends on the results of other programs", "anchors": ["src/tools/main_self_extract.c:main"]}
{"id": "C70", "title": "One program is started", "statement": "A self extracting file starts main.exe only if maind.exe could not be started.", "quantifier": "all archives, all results of starting the programs", "why_tests_cant": "depends on the results of other programs", "anchors": ["src/tools/main_self_extract.c:main"]}
{"id": "C71", "title": "Temporary directory is removed", "statement": "When a self extracting file ends after the program ended normally, .out_dir is removed.", "quantifier": "all archives, all results of starting the programs", "why_tests_cant": "depends on the results of other programs", "anchors": ["src/tools/main_self_extract.c:main"]}
{"id": "C72", "title": "Nothing is started from an incomplete archive", "statement": "A self extracting file starts a program only if the complete archive was unpacked.", "quantifier": "all archives, also damaged ones, all results of starting the programs", "why_tests_cant": "all damaged inputs", "anchors": ["src/tools/main_self_extract.c:main", "src/core/zlibwt_hl_decompress_routines.c:ZlibWtDecompressFileOrDirEx"]}
{"id": "C73", "title": "compressdir round trip", "statement": "Extracting the output file of a run of compressdir that returned 0 recreates exactly the files and directories of the input folder.", "quantifier": "all argument vectors, folders and states of the file system", "why_tests_cant": "needs both tools together, all trees", "anchors": ["src/tools/main_compressdir.cpp:main", "src/core/zlibwt_hl_decompress_routines.c:ZlibWtDecompressFileOrDirEx"]}
{"id": "C74", "title": "Damaged data are reported", "statement": "If the compressed data fed to a decompression session so far are not the beginning of a valid stream, at least one call returned an error.", "quantifier": "all data, all splits into calls, all output buffers", "why_tests_cant": "all positions of the damage and all splits", "anchors": ["src/core/zlibwt_decompress_routines.c:ZlibWtDecompressBufferToCallback", "src/core/zlibwt_decompress_routines.c:ZlibWtDecompressCallbackStatHeader"]}
{"id": "C75", "title": "Nothing is delivered after an error", "statement": "After a call on a decompression session returned an error no callback is called any more, whatever data or buffers are passed.", "quantifier": "all data, all later calls", "why_tests_cant": "all sequences of calls", "anchors": ["src/core/zlibwt_decompress_routines.c:ZlibWtDecompressBufferToCallback"]}
{"id": "C76", "title": "A target that cannot be opened is reported", "statement": "Extracting an archive of a file to a target that cannot be opened returns without undefined behaviour.", "quantifier": "all archives of files, all targets and states of the file system", "why_tests_cant": "needs a failing file system and all archives", "anchors": ["src/core/zlibwt_hl_decompress_routines.c:ZlibWtDecompressFileOrDirEx", "src/core/zlibwt_hl_decompress_routines.c:DecompressFileStartCallback"]}
{"id": "C77", "title": "Decompression always ends", "statement": "Every sequence of calls on a decompression session, and every extraction of an archive to disk, ends after finitely many steps, also for damaged archives and unsupported versions.", "quantifier": "all data, all states of the file system", "why_tests_cant": "termination for all inputs", "anchors": ["src/core/zlibwt_decompress_routines.c:ZlibWtDecompressBufferToCallback", "src/core/zlibwt_hl_decompress_routines.c:ZlibWtDecompressFileOrDirEx"]}
{"id": "C78", "title": "Memory of an extraction is released", "statement": "When ZlibWtDecompressFileOrDirEx returns, the path buffer allocated by its callbacks has been freed.", "quantifier": "all archives and states of the file system", "why_tests_cant": "leaks do not change results", "anchors": ["src/core/zlibwt_hl_decompress_routines.c:ZlibWtDecompressFileOrDirEx", "src/core/zlibwt_hl_decompress_routines.c:DecompressDirStartCallback"]}
{"id": "C79", "title": "Destroying a session writes nothing", "statement": "Destroying a decompression session that was fed undamaged data of a supported version, complete or not, does not write to the caller's output buffer.", "quantifier": "all data, all splits and output buffers", "why_tests_cant": "all splits and buffer sizes", "anchors": ["src/core/zlibwt_decompress_routines.c:ZlibWtDestroyDecompressSession"]}
{"id": "C80", "title": "Allocation failures are contained", "statement": "If a memory allocation fails during the extraction of an archive written by the library, nothing outside the target is created or changed.", "quantifier": "all archives, all allocations that may fail", "why_tests_cant": "allocations rarely fail in tests", "anchors": ["src/core/zlibwt_hl_decompress_routines.c:DecompressDirStartCallback", "src/core/zlibwt_hl_decompress_routines.c:ZlibWtDecompressFileOrDirEx"]}
{"id": "C81", "title": "A missing source directory is reported", "statement": "Archiving a directory that cannot be read does not return 0.", "quantifier": "all settings, filters and compression levels", "why_tests_cant": "all settings", "anchors": ["src/core/zlibwt_compression_routines.c:ZlibWtCompressDirectoryEx"]}
{"id": "C82", "title": "Archiving returns to the caller", "statement": "Archiving a directory tree never ends the calling process.", "quantifier": "all trees, filters and settings", "why_tests_cant": "all trees, also special file systems and links changing meanwhile", "anchors": ["src/core/zlibwt_compression_routines.c:ZlibWtCompressDirectoryEx", "src/core/zlibwt_compression_routines.c:ZlibWtFolderCompressDirIterCallbackStatic"]}
{"id": "C83", "title": "Symbolic links survive the round trip on disk", "statement": "Archiving a tree of files, directories and symbolic links and extracting it to a free target recreates the tree, every link with its target.", "quantifier": "all trees, targets and states of the file system", "why_tests_cant": "all positions of a target in the content and all working directories", "anchors": ["src/core/zlibwt_hl_decompress_routines.c:SymLinkCreateCallback", "src/core/zlibwt_decompress_routines_version_0000.c:ZlibWtDecompressCallbackStatData_dir"]}
{"id": "C84", "title": "The installer tool is memory safe", "statement": "Installing a package, whatever its name, the contents of its steps file and the results of the calls made, never reads or writes outside of a buffer or memory that was not written.", "quantifier": "all package names, steps files, results of calls", "why_tests_cant": "all contents of a downloaded file; reads behind an array often go unnoticed", "anchors": ["src/tools/main_apt-get.cpp:main"]}
{"id": "C85", "title": "A failed installation is reported", "statement": "If the package could not be downloaded, has no usable steps file, could not be moved to its place or its program could not be started, the exit status is not 0.", "quantifier": "all results of the calls made", "why_tests_cant": "needs a failing network and file system", "anchors": ["src/tools/main_apt-get.cpp:main"]}
{"id": "C86", "title": "The installer starts the program named in the steps file", "statement": "After a download the package is moved to the directory behind root: and the program behind run: in it is started with the argument /Install.", "quantifier": "all steps files", "why_tests_cant": "all contents and lengths", "anchors": ["src/tools/main_apt-get.cpp:main"]}
{"id": "C87", "title": "Setting an icon is memory safe", "statement": "ResourceHandlerSecIconToApp reads only memory it has allocated, for every icon file.", "quantifier": "all files, all results of calls", "why_tests_cant": "all files", "anchors": ["src/core/resource_handler_windows.c:ResourceHandlerSecIconToApp"]}
{"id": "C88", "title": "A failed icon update leaves the program unchanged", "statement": "If the icon could not be set, ResourceHandlerSecIconToApp returns an error and the program is as before.", "quantifier": "all failures", "why_tests_cant": "needs failing system calls", "anchors": ["src/core/resource_handler_windows.c:ResourceHandlerSecIconToApp"]}
{"id": "C89", "title": "The icon in the program is the icon of the file", "statement": "After success the icon resource is the image of the file, and the group resource describes it: width, height, planes, bits, size and number.", "quantifier": "all icon files with one image", "why_tests_cant": "all icons", "anchors": ["src/core/resource_handler_windows.c:ResourceHandlerSecIconToApp"]}
{"id": "C90", "title": "Every flush value may be passed to a decompress call", "statement": "What the callback of a decompression session receives depends on the compressed bytes passed in and the buffer sizes only, not on the flush value of the calls.", "quantifier": "all streams, splits, buffers and flush values", "why_tests_cant": "all streams and splits", "anchors": ["src/core/zlibwt_ll_decompress_routines.c:ZlibWtLLDecompressBufferToCallback", "src/core/zlibwt_decompress_routines.c:ZlibWtDecompressBufferToCallback"]}
{"id": "C91", "title": "Uninitialised memory has no influence on decompression", "statement": "What a decompression session passes to its callbacks and what an extraction writes to disk does not depend on the fields of the session that are not initialised, nor on the previous contents of the output buffer.", "quantifier": "all inputs, also damaged or incomplete ones, all previous contents of memory", "why_tests_cant": "a test sees one content of uninitialised memory; two runs have to be compared", "anchors": ["src/core/zlibwt_decompress_routines.c:ZlibWtCreateDecompressSession", "src/core/zlibwt_decompress_routines_version_0000.c:ZlibWtDecompressCallbackStatData_version_0000", "src/core/zlibwt_hl_decompress_routines.c:SymLinkCreateCallback"]}
{"id": "C92", "title": "Exit status of the decompressing option of the test programs", "statement": "Option b of the two test programs returns 0 exactly if everything in the archive was extracted.", "quantifier": "all archives, targets and states of the file system", "why_tests_cant": "the status of all inputs, among them damaged ones", "anchors": ["src/tests/main_zlibwt_hl_test.cpp:main", "src/tests/main_zlibwt_ll_test.cpp:main"]}
{"id": "C93", "title": "Exit status of the compressing options of the test programs", "statement": "If options a, c, d or e of a test program return 0, the output file is a complete archive of the input.", "quantifier": "all inputs, sizes of the disk and argument vectors", "why_tests_cant": "needs a full disk and unreadable inputs", "anchors": ["src/tests/main_zlibwt_hl_test.cpp:main", "src/tests/main_zlibwt_ll_test.cpp:main"]}
{"id": "C94", "title": "Option d of the high level test writes a determined archive", "statement": "The archive written by option d depends on the folder only, not on memory that was not initialised, and contains the folder and the extra buffer.", "quantifier": "all folders and contents of memory", "why_tests_cant": "a test sees one content of uninitialised memory", "anchors": ["src/tests/main_zlibwt_hl_test.cpp:main"]}
{"id": "C95", "title": "Option b extracts what option e wrote", "statement": "Extracting the archive written by option e with option b recreates the folder and the three extra buffers below their directories.", "quantifier": "all folders, unprivileged processes included", "why_tests_cant": "all folders and permissions", "anchors": ["src/tests/main_zlibwt_hl_test.cpp:main", "src/core/zlibwt_compression_routines.c:ZlibWtFolderCompressBufferAsFileInlineRaw"]}
{"id": "C96", "title": "Round trip of the low level test program", "statement": "Extracting with option b of the low level test program what option a or c wrote recreates the file or the tree of files, directories and symbolic links and leaves no descriptor open.", "quantifier": "all files and trees, targets and states of the file system", "why_tests_cant": "all trees and file system states", "anchors": ["src/tests/main_zlibwt_ll_test.cpp:main", "src/tests/main_zlibwt_ll_test.cpp:DecompressDirFileOrDirStartCallback", "src/tests/main_zlibwt_ll_test.cpp:DecompressCallbackForSymLinksStatic"]}
{"id": "C97", "title": "The low level test program is memory safe", "statement": "Option b of the low level test program never uses a null pointer and never reads outside of a buffer, for every archive and target.", "quantifier": "all archives, targets and failing calls", "why_tests_cant": "all damaged archives and failing calls", "anchors": ["src/tests/main_zlibwt_ll_test.cpp:DecompressFileAndBlobCallback", "src/tests/main_zlibwt_ll_test.cpp:DecompressDirFileOrDirStartCallback", "src/tests/main_zlibwt_ll_test.cpp:DecompressDirDirEndCallback"]}
{"id": "C98", "title": "The icon test edits the program beside it", "statement": "The icon test program changes hello_world_test.exe in the directory it was started from, however it was started.", "quantifier": "all argument vectors", "why_tests_cant": "all spellings of the program name", "anchors": ["src/tests/main_change_or_add_icon_test.cpp:main"]}
{"id": "C99", "title": "An interrupted extraction leaves a beginning of the directory", "statement": "If only a beginning of the archive of a directory (of files and directories, without symbolic links) is extracted to a free target, what is found below the target is a beginning of the directory in the order of the archive: complete entries, and of the last file perhaps only the first bytes. Every entry all of whose bytes were in the input is there, nothing outside of the target is changed.", "quantifier": "all directories without symbolic links whose modes let their owner work in them, all beginnings of their archives, read errors, sizes of the disk", "why_tests_cant": "needs every cut of every archive", "anchors": ["src/core/zlibwt_hl_decompress_routines.c:ZlibWtDecompressFileOrDirEx", "src/core/zlibwt_hl_decompress_routines.c:DecompressDirFileOrDirStartCallback", "src/core/zlibwt_decompress_routines_version_0000.c:ZlibWtDecompressCallbackStatData_dir"]}
{"id": "C100", "title": "A full disk cuts contents only", "statement": "Extraction of a directory without symbolic links to a disk with too little space creates every directory and every file with its mode; contents are written in the order of the archive until the space is used. It returns success all the same.", "quantifier": "all directories without symbolic links, sizes of the disk", "why_tests_cant": "needs disks of every size", "anchors": ["src/core/zlibwt_hl_decompress_routines.c:ZlibWtDecompressFileOrDirEx", "src/core/zlibwt_hl_decompress_routines.c:DecompressDirFileReadCallback"]}
{"id": "C101", "title": "A read error of the archive file is reported", "statement": "If the archive file cannot be read up to its end, the extraction returns failure, unless it had stopped before because an entry could not be created.", "quantifier": "all archives, targets and states of the file system, all positions of the error", "why_tests_cant": "needs failing reads", "anchors": ["src/core/zlibwt_hl_decompress_routines.c:ZlibWtDecompressFileOrDirEx"]}
{"id": "C102", "title": "An archive determines what was archived", "statement": "If the archives of two directories, without changes while they are read, have the same decompressed content, the directories are equal: names, order, modes, contents and link targets. The same holds for archives of single files, and no archive is both.", "quantifier": "all directories whose entries are directories, files and symbolic links, all files, hosts and levels", "why_tests_cant": "compares all pairs of directories", "anchors": ["src/core/zlibwt_compression_routines.c:ZlibWtFolderCompressDirIterCallbackStatic", "src/core/zlibwt_compression_routines.c:ZlibWtCompressFileEx", "include/zlib_with_tools/zlibwt_compress_decompress_common.h:SFileItem"]}
{"id": "C103", "title": "A killed extraction leaves a beginning of the directory", "statement": "If the extraction of the archive of a directory without symbolic links, or of a part of it, is killed at any moment, what is found below the target is a beginning of the directory in the order of the archive; nothing outside of the target is changed. For the archive of a file the target holds a beginning of the file.", "quantifier": "all directories without symbolic links, all files, all moments, all sizes of the disk", "why_tests_cant": "needs a kill after every system call and inside of every write", "anchors": ["src/core/zlibwt_hl_decompress_routines.c:ZlibWtDecompressFileOrDirEx", "src/core/zlibwt_hl_decompress_routines.c:DecompressDirFileOrDirStartCallback", "src/core/zlibwt_hl_decompress_routines.c:DecompressFileAndBlobCallback"]}
{"id": "C104", "title": "Archiving and extracting copies a directory", "statement": "If a directory of the file system is archived and the archive extracted to a free place, the place then holds a copy: the same names, contents and link targets, the permissions that the umask leaves, and nothing else changes. A copy of the copy is equal to the first copy.", "quantifier": "all file systems, all orders in which a directory is listed, all directories without symbolic links; with links those none of whose targets is cut by the end of a buffer (see C83)", "why_tests_cant": "all file systems", "anchors": ["src/core/zlibwt_compression_routines.c:ZlibWtFolderCompressDirIterCallbackStatic", "src/core/zlibwt_hl_decompress_routines.c:ZlibWtDecompressFileOrDirEx"]}
{"id": "C105", "title": "A cut archive of compressdir is usable up to the cut", "statement": "What compressdir has written when it is killed or when the disk is full can be extracted, and gives a beginning of the folder, if the folder has no symbolic links.", "quantifier": "all folders without symbolic links, command lines and positions of the cut", "why_tests_cant": "needs every cut of every archive", "anchors": ["src/tools/main_compressdir.cpp:main", "src/core/zlibwt_hl_decompress_routines.c:ZlibWtDecompressFileOrDirEx"]}
{"id": "C106", "title": "The self extract tool starts safely", "statement": "From its start to the end of the archive it appends, the self extract tool never uses a null pointer and never reads or writes outside of an array.", "quantifier": "all argument vectors, files and failing allocations", "why_tests_cant": "needs names longer than any usual path and failing allocations", "anchors": ["src/tools/main_self_extract.c:main"]}
{"id": "C107", "title": "The stack used by the directory decoder is bounded", "statement": "The number of nested invocations of the directory decoder has a bound that does not depend on the archive.", "quantifier": "all archives, buffer sizes and chunkings", "why_tests_cant": "the depth grows with the number of small files in one buffer", "anchors": ["src/core/zlibwt_decompress_routines_version_0000.c:ZlibWtDecompressCallbackStatData_dir"]}
{"id": "C108", "title": "The block for names is as long as the names", "statement": "At every moment of decoding the block for the file name is not longer than the longest name of the archive and its padding; its size is bounded by the size of the input.", "quantifier": "all archives, chunkings and moments", "why_tests_cant": "needs records with wrong sizes of names", "anchors": ["src/core/zlibwt_decompress_routines_version_0000.c:FileHeaderClosingStat"]}
{"id": "C109", "title": "Extraction frees its buffers", "statement": "However it ends, ZlibWtDecompressFileOrDirEx frees its two work buffers and the session, and the decoder does not lose the block for names. A compression session that is not created leaves nothing allocated.", "quantifier": "all outcomes of malloc, realloc, inflateInit, deflateInit", "why_tests_cant": "needs failing allocations at every place", "anchors": ["src/core/zlibwt_hl_decompress_routines.c:ZlibWtDecompressFileOrDirEx", "src/core/zlibwt_ll_decompress_routines.c:ZlibWtLLCreateDecompressSession", "src/core/zlibwt_decompress_routines_version_0000.c:FileHeaderClosingStat", "src/core/zlibwt_ll_compression_routines.c:ZlibWtCreateTypedCompressSession"]}
{"id": "C110", "title": "Size of an archive before compression", "statement": "The decompressed content of the archive of a directory has 128 bytes, 40 for each entry, 40 more for each directory, and the names and contents filled up to the next multiple of eight.", "quantifier": "all directories", "why_tests_cant": "all directories and sizes", "anchors": ["src/core/zlibwt_compression_routines.c:ZlibWtFolderCompressDirIterCallbackStatic", "include/zlib_with_tools/zlibwt_compress_decompress_common.h:SFileItem"]}
{"id": "C111", "title": "A directory is archived by its path", "statement": "If everything below a directory can be read and the filter accepts all, ZlibWtCompressDirectoryEx returns 0 and the archive holds the entries of that directory, each with its own contents.", "quantifier": "all file systems, path strings and orders of the directory iterator", "why_tests_cant": "needs paths of more than four thousand bytes", "anchors": ["src/core/zlibwt_compression_routines.c:ZlibWtFolderCompressDirIterCallbackStatic", "src/core/zlibwt_compression_routines.c:ZlibWtCompressDirectoryEx"]}
{"id": "C112", "title": "Archiving a directory ends", "statement": "ZlibWtCompressDirectoryEx returns for every finite directory tree.", "quantifier": "all file systems, path strings and orders of the directory iterator", "why_tests_cant": "needs paths of more than four thousand bytes", "anchors": ["src/core/zlibwt_compression_routines.c:ZlibWtFolderCompressDirIterCallbackStatic"]}
{"id": "C113", "title": "Archiving by path and extracting copies the directory", "statement": "The archive that is made for a path of a directory is extracted to a directory with the same entries, contents and link targets and the permissions that the umask leaves; the rest of the file system is unchanged.", "quantifier": "all file systems, paths, orders of the iterator and targets", "why_tests_cant": "all directory trees and both halves of the library together", "anchors": ["src/core/zlibwt_compression_routines.c:ZlibWtCompressDirectoryEx", "src/core/zlibwt_hl_decompress_routines.c:ZlibWtDecompressFileOrDirEx"]}
{"id": "C114", "title": "compressdir ends wherever its output file lies", "statement": "compressdir returns also if the archive it writes lies in the folder that it archives.", "quantifier": "all folders, codecs, buffering of stdio and sizes", "why_tests_cant": "the failure is a run that never ends; it needs more than half a megabyte of output", "anchors": ["src/core/zlibwt_compression_routines.c:CompressSingleFileFromFile", "src/core/zlibwt_compression_routines.c:ZlibWtFolderCompressDirIterCallbackStatic", "src/tools/main_compressdir.cpp:main"]}
{"id": "C115", "title": "The archive holds the folder wherever its output file lies", "statement": "If compressdir succeeds with its output file in the archived folder, the archive is that of the folder, with a beginning of the archive as the contents of the output file.", "quantifier": "all folders, codecs and buffering of stdio", "why_tests_cant": "depends on when stdio writes its buffer", "anchors": ["src/core/zlibwt_compression_routines.c:CompressSingleFileFromFile", "src/core/zlibwt_compression_routines.c:CompressArbitraryBufferAsFileInline", "src/tools/main_compressdir.cpp:CompressFileAndBlobCallback"]}
{"id": "C116", "title": "The archive format is fixed, byte by byte", "statement": "What is written is the documented sequence of little endian fields, names, contents and padding at fixed places, on both byte orders; whatever follows this layout, whoever wrote it, is read back and extracted.", "quantifier": "all archives, codecs, splittings of the input, byte orders", "why_tests_cant": "writer and reader can be wrong in the same way, so that round trips pass while archives of other versions or machines cannot be read", "anchors": ["src/core/zlibwt_compression_routines.c:CompressArbitraryBufferAsFileInline", "src/core/zlibwt_compression_routines.c:ZlibWtFolderCompressDirIterCallbackStatic", "src/core/zlibwt_compression_routines.c:ZlibWtCompressFileEx", "src/core/zlibwt_decompress_routines.c:ZlibWtDecompressCallbackStatHeader", "src/core/zlibwt_decompress_routines_version_0000.c:ZlibWtDecompressCallbackStatData_dir", "src/core/zlibwt_decompress_routines_version_0000.c:ZlibWtDecompressCallbackStatData_blob_and_file", "include/zlib_with_tools/zlibwt_compress_decompress_common.h:SFileItem"]}
{"id": "C117", "title": "Missing parent directories are created on Windows however the path is spelled", "statement": "On Windows MkdirRecurseInline creates the missing parents of a path whether it is written with '/' or '\\'.", "quantifier": "all paths and file systems", "why_tests_cant": "Windows only; mixed separators are rare in tests", "anchors": ["src/core/zlibwt_hl_decompress_routines.c:MkdirRecurseInlineRaw", "src/core/zlibwt_hl_decompress_routines.c:GetFileDelimeterInline", "src/core/zlibwt_hl_decompress_routines.c:OsCreateStatic"]}
{"id": "C118", "title": "A directory that is reported as existing is a directory (Windows)", "statement": "On Windows MkdirRecurseInline returns 1 (directory exists) only if the path is a directory.", "quantifier": "all paths and file systems", "why_tests_cant": "Windows only; needs a file in place of the directory", "anchors": ["src/core/zlibwt_hl_decompress_routines.c:MkdirRecurseInline", "src/core/zlibwt_hl_decompress_routines.c:OsCreateStatic"]}
{"id": "C119", "title": "Removing the temporary directory removes nothing else (Windows)", "statement": "On Windows RemoveNonEmptyDirectory removes the directory .out_dir with its contents and nothing else, and reads no memory outside its argument.", "quantifier": "all file systems and all contents of the memory after the string", "why_tests_cant": "depends on the placement of string literals by the linker", "anchors": ["src/tools/main_self_extract.c:RemoveNonEmptyDirectory"]}
{"id": "C120", "title": "Damage of an archive is noticed", "statement": "If bytes of an archive were changed, its extraction does not report success with other contents.", "quantifier": "all archives, codecs and changes", "why_tests_cant": "depends on which byte is changed; most changes make the compressed data invalid", "anchors": ["src/core/zlibwt_hl_decompress_routines.c:ZlibWtDecompressFileOrDirEx", "src/core/zlibwt_ll_compression_routines.c:ZlibWtDestroyCompressSession", "src/core/zlibwt_ll_compression_routines.c:ZlibWtCompressBufferToCallback"]}
{"id": "C121", "title": "A directory that is reported as created is there", "statement": "If MkdirRecurseInline returns 0 or 1 then the path it was given leads to a directory.", "quantifier": "all paths, file systems, permissions and modes", "why_tests_cant": "names with a backslash and directories without permission to write are rare in tests", "anchors": ["src/core/zlibwt_hl_decompress_routines.c:MkdirRecurseInline", "src/core/zlibwt_hl_decompress_routines.c:MkdirRecurseInlineRaw", "src/core/zlibwt_hl_decompress_routines.c:GetFileDelimeterInline", "src/core/zlibwt_hl_decompress_routines.c:OsCreateStatic"]}
{"id": "C122", "title": "Creating a directory changes nothing but directories that were missing", "statement": "MkdirRecurseInline returns 0, 1 or -1; what exists stays as it is, only directories with the given mode appear; after 1 nothing has changed and the path leads to a directory, after 0 there is a new directory.", "quantifier": "all paths, file systems, permissions and modes", "why_tests_cant": "every path and every state of the file system", "anchors": ["src/core/zlibwt_hl_decompress_routines.c:MkdirRecurseInline", "src/core/zlibwt_hl_decompress_routines.c:MkdirRecurseInlineRaw", "src/core/zlibwt_hl_decompress_routines.c:OsCreateStatic"]}
{"id": "C123", "title": "A directory that cannot be created leaves nothing behind", "statement": "If MkdirRecurseInline does not return 0, the file system is as before.", "quantifier": "all paths, file systems, permissions and modes", "why_tests_cant": "needs parents that can be created for a directory that cannot", "anchors": ["src/core/zlibwt_hl_decompress_routines.c:MkdirRecurseInlineRaw"]}
{"id": "C124", "title": "An archive of a directory extracted on Windows gives the directory", "statement": "On Windows, extracting an archive of a directory to a name that is free makes this directory there (without links, which are not extracted on Windows; files without write permission read-only) and changes nothing else.", "quantifier": "all trees, archives, targets and states of the file system", "why_tests_cant": "needs Windows and archives made on Unix with names that differ only in case", "anchors": ["src/core/zlibwt_hl_decompress_routines.c:DecompressDirFileOrDirStartCallback", "src/core/zlibwt_hl_decompress_routines.c:DecompressDirFileReadCallback", "src/core/zlibwt_hl_decompress_routines.c:ZlibWtDecompressFileOrDirEx", "include/zlib_with_tools/utils/io_zlibandtls.h:sopen_zlibandtls"]}
{"id": "C125", "title": "Extraction on Windows changes nothing outside the target", "statement": "On Windows, extracting an archive to a name that is free changes nothing outside that name.", "quantifier": "all archives, also damaged and truncated ones, all targets, limits and permissions", "why_tests_cant": "names with a backslash are ordinary on Unix, where tests run", "anchors": ["src/core/zlibwt_hl_decompress_routines.c:DecompressDirFileOrDirStartCallback", "src/core/zlibwt_hl_decompress_routines.c:MkdirRecurseInline", "src/core/zlibwt_hl_decompress_routines.c:DecompressDirStartCallback"]}
{"id": "C126", "title": "Extraction on Windows returns to its caller", "statement": "On Windows, extraction to a name that is free ends with a return value, also if a file cannot be created.", "quantifier": "all archives, targets, limits and permissions", "why_tests_cant": "writing to the descriptor -1 is harmless on Unix and terminates the process on Windows", "anchors": ["src/core/zlibwt_hl_decompress_routines.c:DecompressDirFileReadCallback", "src/core/zlibwt_hl_decompress_routines.c:DecompressDirFileEndCallback", "src/core/zlibwt_hl_decompress_routines.c:DecompressFileAndBlobCallback", "include/zlib_with_tools/utils/io_zlibandtls.h:write_zlibandtls"]}
{"id": "C127", "title": "An archive of a file extracted on Windows replaces the file", "statement": "On Windows, extracting an archive of a file with at least one byte makes the target a file with exactly these bytes, whether or not it existed, and changes nothing else.", "quantifier": "all contents, archives, targets and states of the file system", "why_tests_cant": "every content and every path", "anchors": ["src/core/zlibwt_hl_decompress_routines.c:DecompressFileStartCallback", "src/core/zlibwt_hl_decompress_routines.c:DecompressFileAndBlobCallback", "src/core/zlibwt_hl_decompress_routines.c:ZlibWtDecompressFileOrDirEx"]}
{"id": "C128", "title": "Extracting any directory archive is memory safe", "statement": "Extracting a readable archive of a directory has no undefined behaviour, whatever records are in it, whatever the target is and whatever the file system contains.", "quantifier": "all directory archives, also hostile ones, all targets and file systems", "why_tests_cant": "the archives are infinitely many, and those that break it look like ordinary ones", "anchors": ["src/core/zlibwt_hl_decompress_routines.c:DecompressDirDirEndCallback", "src/core/zlibwt_hl_decompress_routines.c:DecompressDirFileOrDirStartCallback", "src/core/zlibwt_hl_decompress_routines.c:DecompressDirStartCallback", "src/core/zlibwt_hl_decompress_routines.c:SymLinkCreateCallback"]}
{"id": "C129", "title": "Extracting any directory archive on Windows is memory safe", "statement": "On Windows, extracting a readable archive of a directory has no undefined behaviour, whatever records are in it, whatever the target is and whatever the file system contains.", "quantifier": "all directory archives, targets, limits, permissions and file systems", "why_tests_cant": "the archives are infinitely many; needs Windows", "anchors": ["src/core/zlibwt_hl_decompress_routines.c:DecompressDirDirEndCallback", "src/core/zlibwt_hl_decompress_routines.c:DecompressDirFileOrDirStartCallback", "src/core/zlibwt_hl_decompress_routines.c:DecompressDirStartCallback"]}
{"id": "C130", "title": "Extraction on Windows to an existing path fails cleanly", "statement": "On Windows, extracting an archive of a directory to a name that exists reports failure and changes nothing.", "quantifier": "all directory archives and all states of the file system", "why_tests_cant": "the entries that are created elsewhere depend on the archive and on what is in the root directory", "anchors": ["src/core/zlibwt_hl_decompress_routines.c:DecompressDirStartCallback", "src/core/zlibwt_hl_decompress_routines.c:DecompressDirFileOrDirStartCallback", "src/core/zlibwt_hl_decompress_routines.c:ZlibWtDecompressFileOrDirEx"]}
{"id": "C131", "title": "Extraction on Windows loses nothing", "statement": "On Windows, extraction removes no file or directory, replaces none by the other, changes no read-only file and makes no existing file read-only.", "quantifier": "all archives, also hostile ones, all targets, limits, permissions and file systems, also if the process is terminated", "why_tests_cant": "every archive and every file system", "anchors": ["src/core/zlibwt_hl_decompress_routines.c:DecompressFileStartCallback", "src/core/zlibwt_hl_decompress_routines.c:DecompressDirFileOrDirStartCallback", "src/core/zlibwt_hl_decompress_routines.c:MkdirRecurseInline", "src/core/zlibwt_hl_decompress_routines.c:ZlibWtDecompressFileOrDirEx"]}
{"id": "C132", "title": "Extraction obeys permissions", "statement": "Extraction removes nothing, changes no permissions of existing entries and no links, changes no file that the process may not write, and creates entries only in directories that it may write.", "quantifier": "all archives, also hostile ones, all targets and file systems, also after failures", "why_tests_cant": "every archive and every file system", "anchors": ["src/core/zlibwt_hl_decompress_routines.c:DecompressFileStartCallback", "src/core/zlibwt_hl_decompress_routines.c:DecompressDirFileOrDirStartCallback", "src/core/zlibwt_hl_decompress_routines.c:SymLinkCreateCallback", "src/core/zlibwt_hl_decompress_routines.c:MkdirRecurseInline", "src/core/zlibwt_hl_decompress_routines.c:ZlibWtDecompressFileOrDirEx"]}
{"id": "C133", "title": "Extraction leaves at most one file open", "statement": "After an extraction the open files of the process are those it had before, except that one file can stay open if the archive ends, or an error stops the extraction, between the beginning and the end of that file. An archive of a file leaves none open.", "quantifier": "all archives, also hostile and truncated ones, all targets, file systems and failures, on Unix, and on Windows unless the process is terminated", "why_tests_cant": "every archive, every failure and every point at which an archive can be cut", "anchors": ["src/core/zlibwt_hl_decompress_routines.c:DecompressDirFileOrDirStartCallback", "src/core/zlibwt_hl_decompress_routines.c:DecompressDirFileEndCallback", "src/core/zlibwt_hl_decompress_routines.c:ZlibWtDecompressFileOrDirEx"]}
{"id": "C134", "title": "What the result of an extraction says", "statement": "For an archive of a directory, a directory is reported exactly if the target directory was created, whatever happened to the entries (for example a full disk); otherwise nothing is reported. An extraction of an archive of a file that returns reports a file.", "quantifier": "all undamaged archives of more than a header, all targets, file systems and later failures", "why_tests_cant": "every archive, every file system and every later failure", "anchors": ["src/core/zlibwt_hl_decompress_routines.c:DecompressDirStartCallback", "src/core/zlibwt_hl_decompress_routines.c:DecompressFileStartCallback", "src/core/zlibwt_hl_decompress_routines.c:DecompressDirFileReadCallback", "src/core/zlibwt_hl_decompress_routines.c:ZlibWtDecompressFileOrDirEx"]}
{"id": "C135", "title": "An archive made on Windows holds the directory", "statement": "An archiving run on Windows that reports success and whose filter takes everything has written an archive of the directory, which can be extracted anywhere.", "quantifier": "all directory listings, filters that take everything, contents of uninitialised memory, zlib implementations", "why_tests_cant": "every tree of files, directories and links", "anchors": ["src/core/zlibwt_compression_routines.c:ZlibWtFolderCompressDirIterCallbackStatic", "src/core/zlibwt_compression_routines.c:ZlibWtCompressDirectoryEx", "include/zlib_with_tools/utils/stdio_zlibandtls.h:fopen_zlibandtls"]}
{"id": "C136", "title": "On Windows a file in use makes archiving fail", "statement": "On Windows archiving a directory returns, and if the filter takes everything it reports success exactly if every file of the directory can be opened and read and none is in use elsewhere; otherwise it reports the failure. So compressdir fails if its output file lies in the folder.", "quantifier": "all directory listings, sets of files in use, extra buffers", "why_tests_cant": "every tree and every set of files in use by other processes", "anchors": ["src/core/zlibwt_compression_routines.c:ZlibWtFolderCompressDirIterCallbackStatic", "src/core/zlibwt_compression_routines.c:ZlibWtCompressDirectoryEx", "include/zlib_with_tools/utils/stdio_zlibandtls.h:fopen_zlibandtls", "src/tools/main_compressdir.cpp:main"]}
{"id": "C137", "title": "Archiving and extracting on Windows copies a directory", "statement": "If a directory is archived on Windows with success and the archive is extracted to a new target, the target has exactly the entries the directory had (contents and read-only attributes), and nothing else has changed.", "quantifier": "all Windows file systems without links in the directory, names that mean the same on Windows, paths within the limits, zlib implementations", "why_tests_cant": "every directory tree", "anchors": ["src/core/zlibwt_compression_routines.c:ZlibWtFolderCompressDirIterCallbackStatic", "src/core/zlibwt_compression_routines.c:ZlibWtCompressDirectoryEx", "src/core/zlibwt_hl_decompress_routines.c:ZlibWtDecompressFileOrDirEx"]}
{"id": "C138", "title": "Other processes do not interfere with an extraction", "statement": "Whatever other processes do to the file system while an archive of the library without links is extracted, the call gives the same result and the same files as without them, writes nothing outside of its target, and leaves their files as they are.", "quantifier": "all archives, all changes of the file system between any two system calls, all zlib implementations", "why_tests_cant": "arbitrary actions of other processes at every moment of the extraction", "anchors": ["src/core/zlibwt_hl_decompress_routines.c:ZlibWtDecompressFileOrDirEx", "src/core/zlibwt_hl_decompress_routines.c:DecompressDirFileOrDirStartCallback", "src/core/zlibwt_hl_decompress_routines.c:DecompressDirStartCallback"]}
{"id": "C139", "title": "compressdir on Windows exits with 0 only if the folder has been archived", "statement": "On Windows, if compressdir exits with status 0, then help was requested or the output file holds an archive of the requested folder; if the output file lies in the folder, or a file of the folder is in use, the status is not 0.", "quantifier": "all argument lists, folders, sets of files in use, free space, zlib implementations", "why_tests_cant": "every command line, every folder and every set of files in use", "anchors": ["src/tools/main_compressdir.cpp:main", "src/core/zlibwt_compression_routines.c:ZlibWtCompressDirectoryEx", "src/core/zlibwt_compression_routines.c:ZlibWtFolderCompressDirIterCallbackStatic", "include/zlib_with_tools/utils/stdio_zlibandtls.h:fopen_zlibandtls"]}
{"id": "C140", "title": "The self extract tool on Windows packs its folder behind its executable", "statement": "On Windows, if the self extract tool returns 0 after building, the output file is the executable with its icon set, followed at MAX_EXE_SIZE by an archive of the folder of the tool without the tool and its output, and started as a program the output file extracts exactly this archive.", "quantifier": "all executables, folders, icons, zlib implementations", "why_tests_cant": "every folder and every effect of setting the icon on the size of the executable", "anchors": ["src/tools/main_self_extract.c:main", "src/core/resource_handler_windows.c:ResourceHandlerSecIconToApp", "src/core/zlibwt_compression_routines.c:ZlibWtCompressDirectoryEx"]}
{"id": "C141", "title": "The self extract tool on Windows can build if no other file is in use", "statement": "On Windows, the build run of the self extract tool returns 0 if no file of the folder other than its own executable and its output is in use, and 2 otherwise.", "quantifier": "all folders, all sets of files in use, all spellings of the tool's path", "why_tests_cant": "every spelling under which the tool can be started and every folder", "anchors": ["src/tools/main_self_extract.c:main", "src/tools/main_self_extract.c:DirCompressFilterFunction", "src/core/zlibwt_compression_routines.c:ZlibWtFolderCompressDirIterCallbackStatic"]}
{"id": "C142", "title": "The packed program on Windows is started in the packed folder", "statement": "On Windows, when a packed program is started, .out_dir holds exactly the folder that was packed and everything outside of .out_dir is as before.", "quantifier": "all folders, all states of the file system, all contents of memory", "why_tests_cant": "every folder, prior state and memory layout", "anchors": ["src/tools/main_self_extract.c:main", "src/tools/main_self_extract.c:RemoveNonEmptyDirectory", "src/core/zlibwt_hl_decompress_routines.c:ZlibWtDecompressFileOrDirEx"]}
{"id": "C143", "title": "Starting a packed program twice on Windows does no damage", "statement": "On Windows, starting a packed program while the program of an earlier start is still running leaves the file system as it is, and returns a status other than 0.", "quantifier": "all archives, all file systems, all sets of files in use", "why_tests_cant": "every set of files in use and every archive", "anchors": ["src/tools/main_self_extract.c:main", "src/tools/main_self_extract.c:RemoveNonEmptyDirectory", "src/core/zlibwt_hl_decompress_routines.c:MkdirRecurseInline"]}
{"id": "C144", "title": "Programs started by the self extract tool on Windows", "statement": "On Windows, the run of a packed program returns 0 exactly if a program was started; .out_dir\\maind.exe is started first, .out_dir\\main.exe only if that could not be started or did not end with 0, and nothing else is started.", "quantifier": "all archives (also invalid ones), file systems and results of the programs", "why_tests_cant": "every archive, including invalid ones, and every result of starting a program", "anchors": ["src/tools/main_self_extract.c:main"]}
{"id": "C145", "title": "Archiving an extracted directory again gives the same archive", "statement": "If a directory is archived and the archive is extracted on the same system, archiving the extracted directory gives the same archive, byte for byte.", "quantifier": "all directories, file systems, umasks, zlib implementations, targets", "why_tests_cant": "every directory, every set of permissions and every umask", "anchors": ["src/core/zlibwt_compression_routines.c:ZlibWtCompressDirectoryEx", "src/core/zlibwt_compression_routines.c:ZlibWtFolderCompressDirIterCallbackStatic", "src/core/zlibwt_hl_decompress_routines.c:ZlibWtDecompressFileOrDirEx", "src/core/zlibwt_hl_decompress_routines.c:DecompressDirFileOrDirStartCallback"]}
{"id": "C146", "title": "The installer does what its command line says", "statement": "Without a command the installer does nothing and returns -1; with a command other than install, or without a package, it does nothing and returns 0; install p first downloads the package p from the address in the source to the directory in the source, and if that fails does nothing else and returns the result of the download.", "quantifier": "all command lines, results of the functions called", "why_tests_cant": "every name of a package, including those that do not fit into the buffer", "anchors": ["src/tools/main_apt-get.cpp:main"]}
{"id": "C147", "title": "One archive gives the same files on Unix and on Windows", "statement": "Extracting the same archive of a directory on Unix and on Windows gives the same directories and files with the same contents, names compared without case; a file is read-only on Windows exactly if its owner may not write it on Unix.", "quantifier": "all archived directories, file systems, targets, zlib implementations, byte orders, buffers on both machines", "why_tests_cant": "every tree and two machines that differ in everything", "anchors": ["src/core/zlibwt_hl_decompress_routines.c:ZlibWtDecompressFileOrDirEx", "src/core/zlibwt_hl_decompress_routines.c:DecompressDirFileOrDirStartCallback", "src/core/zlibwt_hl_decompress_routines.c:DecompressDirFileReadCallback"]}
{"id": "C148", "title": "A directory taken from Windows to Unix is the same directory", "statement": "A directory of Windows with at least one entry, archived there and extracted on Unix to a free name where the process may create entries, has there the same directories and files with the same contents and names up to case; a file is read-only on Windows exactly if its owner may not write the copy.  Conditions: files below 2 GiB with plain names, paths within the limits, enough space, a umask that lets owners write.", "quantifier": "all directories of Windows, listings, zlib implementations, machines, targets", "why_tests_cant": "every directory and two machines that differ in everything", "anchors": ["src/core/zlibwt_compression_routines.c:ZlibWtFolderCompressDirIterCallbackStatic", "src/core/zlibwt_hl_decompress_routines.c:ZlibWtDecompressFileOrDirEx", "src/core/zlibwt_hl_decompress_routines.c:DecompressDirFileOrDirStartCallback", "src/core/zlibwt_hl_decompress_routines.c:DecompressDirFileReadCallback"]}
{"id": "C149", "title": "A directory taken from Unix to Windows is the same directory", "statement": "A directory of Unix with at least one entry and without links, whose names mean the same on Windows and do not differ only in case, archived there and extracted on Windows to a free name, has there the same directories and files with the same contents; a file is read-only exactly if its owner may not write the original.  Taken from Windows to Unix and back, a directory is unchanged.", "quantifier": "all directories of Unix, listings, zlib implementations, machines, targets", "why_tests_cant": "every directory and two machines that differ in everything", "anchors": ["src/core/zlibwt_compression_routines.c:ZlibWtFolderCompressDirIterCallbackStatic", "src/core/zlibwt_hl_decompress_routines.c:ZlibWtDecompressFileOrDirEx", "src/core/zlibwt_hl_decompress_routines.c:DecompressDirFileOrDirStartCallback", "src/core/zlibwt_hl_decompress_routines.c:DecompressDirFileReadCallback"]}
{"id": "C150", "title": "Archiving reports what it could not read", "statement": "If ZlibWtCompressDirectoryEx, given the path of a directory, returns 0, then the archive holds everything that the directory holds; if something below the directory cannot be read, it returns 2.", "quantifier": "all file systems with all permissions, paths, listings, zlib implementations", "why_tests_cant": "every combination of permissions in a tree, and runs without privileges", "anchors": ["src/core/zlibwt_compression_routines.c:ZlibWtFolderCompressDirIterCallbackStatic", "src/core/zlibwt_compression_routines.c:ZlibWtCompressDirectoryEx"]}
{"id": "C151", "title": "Archives of the same directory are interchangeable", "statement": "Two archives of the same directory, made on different hosts, with different zlib versions and levels or from different orders of the entries, and extracted with different hosts and zlib versions, give the same result and the same files.", "quantifier": "all directories, orders of listing, zlib implementations, levels, hosts, buffers", "why_tests_cant": "every order in which a file system may list a directory, and pairs of zlib versions", "anchors": ["src/core/zlibwt_compression_routines.c:ZlibWtCompressDirectoryEx", "src/core/zlibwt_hl_decompress_routines.c:ZlibWtDecompressFileOrDirEx"]}
{"id": "C152", "title": "Bytes behind an archive have no influence", "statement": "Extracting an archive that is followed by other bytes in its file gives the same result and the same files as extracting the archive alone, also if the bytes behind it cannot be read.", "quantifier": "all archives, bytes behind them, zlib implementations, targets, hosts, buffers, on Unix and Windows", "why_tests_cant": "arbitrary bytes, of arbitrary number, behind arbitrary archives; read errors", "anchors": ["src/core/zlibwt_hl_decompress_routines.c:ZlibWtDecompressFileOrDirEx", "src/core/zlibwt_hl_decompress_routines.c:NextSizeToReadInline"]}
{"id": "C153", "title": "Archiving a directory with an invalid level returns an error", "statement": "With a compression level that zlib rejects, archiving a directory returns 1; the callback and the filter are not called and nothing is written.", "quantifier": "all invalid levels, directories, zlib implementations, hosts, memory contents, failing allocations, on Unix and Windows", "why_tests_cant": "all 2^32 - 11 invalid levels, with each failing allocation", "anchors": ["src/core/zlibwt_compression_routines.c:ZlibWtCompressDirectoryEx", "src/core/zlibwt_ll_compression_routines.c:ZlibWtCreateTypedCompressSession"]}
{"id": "C154", "title": "A file that is not an archive changes nothing on disk", "statement": "Extracting a file whose decompressed bytes do not start with the header of an archive (too short, another version, another type) reports no content and changes nothing in the file system.", "quantifier": "all files, also such that zlib rejects, all states of the file system, targets, archive sizes, zlib implementations, hosts, on Unix and Windows", "why_tests_cant": "all files that are not archives, with every state of the disk", "anchors": ["src/core/zlibwt_hl_decompress_routines.c:ZlibWtDecompressFileOrDirEx", "src/core/zlibwt_decompress_routines.c:ZlibWtDecompressBufferToCallback"]}
{"id": "C155", "title": "An extraction writes no more than the archive holds", "statement": "Whatever sizes and name lengths an archive states, its records, names, contents and link targets passed to the callbacks have together no more bytes than the decompressed archive behind its header, and extracting it takes no more space for contents than that.", "quantifier": "all archives, also damaged and crafted ones, all ways of feeding them, all states of the file system, targets, zlib implementations, hosts, failing allocations of the decoder", "why_tests_cant": "all archives with wrong sizes, with every state of the disk", "anchors": ["src/core/zlibwt_decompress_routines_version_0000.c:ZlibWtDecompressCallbackStatData_dir", "src/core/zlibwt_hl_decompress_routines.c:ZlibWtDecompressFileOrDirEx", "src/core/zlibwt_hl_decompress_routines.c:DecompressDirFileReadCallback"]}
