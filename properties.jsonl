{"id": "C01", "title": "Header fields are read back exactly", "statement": "For every supported Atop version, calling get_header on a file that starts with a C rawheader of that version whose length fields are the ones Atop of that version writes returns a header of that version's class in which every field (magic, aversion, hertz, sstatlen, tstatlen/pstatlen, the six utsname strings, pagesize, supportflags, osrel/osvers/ossub, cstatlen ...) has exactly the value written.", "quantifier": "all 11 versions x all field values x all padding/reserved bytes x all bytes following the header", "why_tests_cant": "The tests read one fixed header per version; the claim is about all field values.", "anchors": ["atoparser/utils.py:get_header", "atoparser/structs/atop_*.py:Header", "atoparser/structs/shared.py:UTSName"]}
{"id": "C02", "title": "Files that are not Atop logs are rejected", "statement": "If the first four bytes of the file (zero-extended when the file is shorter) are not the little-endian magic 0xFEEDBEEF, get_header raises ValueError, whatever the rest of the file and whether or not the compatibility check is requested; it never returns a header.", "quantifier": "all byte strings, including empty and shorter than a header", "why_tests_cant": "Infinite set of byte strings.", "anchors": ["atoparser/utils.py:get_header", "atoparser/utils.py:MAGIC"]}
{"id": "C03", "title": "Semantic version is a pure function of aversion", "statement": "header.major_version is bits 8..14 of aversion, header.minor_version is bits 0..7, semantic_version is the decimal text 'major.minor'; bit 15 (Atop sets it) has no influence, and distinct (major, minor) pairs give distinct version strings.", "quantifier": "all 65536 aversion values", "why_tests_cant": "Tests look at 11 of 65536 values.", "anchors": ["atoparser/structs/shared.py:HeaderMixin.semantic_version", "atoparser/structs/shared.py:HeaderMixin.major_version", "atoparser/structs/shared.py:HeaderMixin.minor_version"]}
{"id": "C04", "title": "Struct family selection", "statement": "The header object returned by get_header is an instance of the Header class whose supported_version equals the file's semantic version when the version is supported (1.26, 2.3..2.12), and of the latest (2.12) class for every other version; the 480 header bytes are the same whichever class is chosen.", "quantifier": "all header contents with the right magic", "why_tests_cant": "Every unknown version must take the fallback; tests only have known versions.", "anchors": ["atoparser/utils.py:get_header", "atoparser/utils.py:_HEADER_BY_VERSION", "atoparser/utils.py:_DEFAULT_VERSION"]}
{"id": "C05", "title": "Compatibility check is exact", "statement": "For a file of a supported version with the right magic, get_header (with the check on) succeeds iff rawheadlen, rawreclen, sstatlen, tstatlen (pstatlen for 1.26) and, for 2.11 and later, cstatlen are exactly the sizes of that version's structs; otherwise it raises ValueError. With the check off it always succeeds.", "quantifier": "all header contents of the 11 supported versions", "why_tests_cant": "2^100 combinations of the length fields.", "anchors": ["atoparser/structs/shared.py:HeaderMixin.check_compatibility", "atoparser/utils.py:get_header"]}
{"id": "C06", "title": "get_header reports bad files only with ValueError", "statement": "As documented, for every file the only exception get_header raises is ValueError. (Refuted by the code: a right-magic header of an unsupported version with major < 2 or minor < 3, e.g. 2.2 or 3.0, makes the compatibility check read a field the fallback class lacks and raises AttributeError; the exact set of such headers is characterised.)", "quantifier": "all byte strings", "why_tests_cant": "Needs a search over all versions; the tests never use an unsupported version.", "anchors": ["atoparser/utils.py:get_header", "atoparser/structs/shared.py:HeaderMixin.check_compatibility"]}
{"id": "C07", "title": "Short headers", "statement": "As documented, get_header raises ValueError when the file is shorter than a header. (Refuted: the missing bytes read as zero and a file cut after the last length field is accepted; what holds for every file is that get_header behaves exactly as on the file zero-extended to the header size, so any file cut before the end of its length fields is rejected.)", "quantifier": "all files shorter than 480 bytes", "why_tests_cant": "All cut points x all contents.", "anchors": ["atoparser/utils.py:get_header"]}
{"id": "C08", "title": "Header consumption", "statement": "When get_header succeeds exactly min(480, file length) bytes have been consumed, for every version, so the first record is read from offset 480.", "quantifier": "all files", "why_tests_cant": "All versions and contents.", "anchors": ["atoparser/utils.py:get_header", "atoparser/structs/atop_*.py:Header"]}
{"id": "C09", "title": "Whole-log round trip", "statement": "For every supported version and every finite sequence of samples (record, system stats, task stats, cgroups), if a log is laid out in Atop's format (header, then per sample the record, the compressed sstat, the compressed tstat array and for 2.11+ the compressed cstat and pid arrays) generate_statistics yields exactly that sequence, in order, with every struct byte-for-byte equal to what was written, then stops without an exception.", "quantifier": "all versions x all sample sequences of any length up to max_samples x all struct contents x any compressor whose output zlib accepts", "why_tests_cant": "Unbounded sequences and contents.", "anchors": ["atoparser/utils.py:generate_statistics", "atoparser/utils.py:get_record", "atoparser/utils.py:get_sstat", "atoparser/utils.py:get_tstat", "atoparser/utils.py:get_cstat"]}
{"id": "C10", "title": "Truncation at any byte, lenient mode", "statement": "If a well-formed log is cut at any byte offset at or after the end of the header, generate_statistics(raise_on_truncation=False) yields exactly the samples that are completely contained in the remaining bytes, and stops without an exception: no partial, duplicated or corrupted sample is yielded and no complete one is lost.", "quantifier": "all logs x all cut points (crash points of the writer)", "why_tests_cant": "Every crash point of every log.", "anchors": ["atoparser/utils.py:generate_statistics"]}
{"id": "C11", "title": "Truncation at any byte, strict mode", "statement": "With raise_on_truncation=True the same complete samples are yielded; then zlib.error is raised, except when the cut leaves a record whose compressed-length field reads as zero (cut at a sample boundary or inside the first bytes of a record), where iteration ends silently. The documented expectation that every mid-sample truncation raises is refuted.", "quantifier": "all logs x all cut points", "why_tests_cant": "Every crash point of every log.", "anchors": ["atoparser/utils.py:generate_statistics"]}
{"id": "C12", "title": "Only decompression errors are suppressed", "statement": "raise_on_truncation=False changes the behaviour only by turning a terminal zlib.error into a normal end: the yielded samples are the same in both modes, and every other exception (bad struct sizes, missing attributes, I/O errors, and any error while reading the header) propagates in both modes.", "quantifier": "all files, headers, decompressors", "why_tests_cant": "Quantifies over all failing inputs.", "anchors": ["atoparser/utils.py:generate_statistics"]}
{"id": "C13", "title": "max_samples bound", "statement": "generate_statistics yields at most max(0, max_samples) samples, and the samples yielded under a smaller bound are a prefix of those yielded under a larger one; with the default bound at most 86400 are ever yielded; iteration always terminates, whatever the file contains.", "quantifier": "all files (including corrupt), all integers max_samples", "why_tests_cant": "Termination and prefix property over all inputs.", "anchors": ["atoparser/utils.py:generate_statistics", "atoparser/utils.py:MAX_SAMPLES_PER_FILE"]}
{"id": "C14", "title": "No over-read; iteration can be resumed", "statement": "After the k-th yield exactly the bytes of the header and first k samples have been consumed, so stopping early (max_samples) and calling generate_statistics again with the same header continues with sample k+1: the two runs together yield exactly what one run with the summed bound yields.", "quantifier": "all files, all split points", "why_tests_cant": "All split points of all files.", "anchors": ["atoparser/utils.py:generate_statistics"]}
{"id": "C15", "title": "Omitting the header", "statement": "generate_statistics without a header on a file positioned at its start behaves as get_header followed by generate_statistics with that header: same samples, same final file position, same terminal exception; errors from the header read are raised even with raise_on_truncation=False.", "quantifier": "all files, both flags, all bounds", "why_tests_cant": "All files.", "anchors": ["atoparser/utils.py:generate_statistics", "atoparser/utils.py:get_header"]}
{"id": "C16", "title": "Iterator protocol under every history", "statement": "For any sequence of next, send, throw and close calls on the iterator: nothing is read from the file before the first next (or send); the file is only ever consumed forward; once it has finished (exhausted, raised, closed) it never yields again and never touches the file again; send acts like next, except that a value sent before the first next is refused; a refused call changes nothing; a zlib.error thrown in at a yield is swallowed exactly in lenient mode, every other exception comes back out (StopIteration as RuntimeError).", "quantifier": "all operation histories", "why_tests_cant": "Unbounded histories.", "anchors": ["atoparser/utils.py:generate_statistics"]}
{"id": "C17", "title": "Natural end of file", "statement": "Iteration stops without exception at the first record whose compressed sstat length is zero - in particular at end of file and in a zero-filled tail - and nothing after that record is ever reported.", "quantifier": "all file contents", "why_tests_cant": "All contents.", "anchors": ["atoparser/utils.py:generate_statistics", "atoparser/utils.py:get_record"]}
{"id": "C18", "title": "Task list length and contents", "statement": "A successful get_tstat returns exactly as many structs as the record says (nlist for 1.26, ndeviat otherwise), the i-th holding exactly bytes [i*len, i*len+sizeof) of the decompressed data; it fails with ValueError iff some slice is too short, with zlib.error iff the data does not decompress.", "quantifier": "all records, headers, byte strings", "why_tests_cant": "All counts and contents.", "anchors": ["atoparser/utils.py:get_tstat"]}
{"id": "C19", "title": "CGroup list contents", "statement": "get_cstat returns exactly ncgroups chained groups; when the data is laid out as Atop writes it (cstat, variable-length name, structlen covering both; pid lists concatenated) the i-th group holds exactly the i-th cstat and exactly its nprocs pids in order, for any name lengths; pids of different groups are never mixed. For any data: it returns groups exactly when both streams decompress and each struct and pid list lies within its data, each struct found the announced length after the one before it (Python slice positions).", "quantifier": "all numbers of groups, name lengths, pid lists; all records, lengths and decompressed data", "why_tests_cant": "All shapes of the variable-length walk.", "anchors": ["atoparser/utils.py:get_cstat", "atoparser/structs/atop_2_11.py:CGChainer", "atoparser/structs/atop_2_11.py:CGGen"]}
{"id": "C20", "title": "CGroup gating by version", "statement": "For logs of versions before 2.11 every yielded cgroup list is empty and no cgroup bytes are consumed; for 2.11 and 2.12 the two cgroup blocks of every sample are read.", "quantifier": "all files of all versions", "why_tests_cant": "All files.", "anchors": ["atoparser/utils.py:generate_statistics", "atoparser/utils.py:get_cstat"]}
{"id": "C21", "title": "Payload size validation", "statement": "get_sstat succeeds iff the scomplen bytes decompress and the result is at least the size of the SStat struct; then the struct holds exactly the leading bytes of the result. A shorter payload raises ValueError, undecodable data raises zlib.error; a struct is never built from missing bytes.", "quantifier": "all records and byte strings, all versions", "why_tests_cant": "All payload sizes.", "anchors": ["atoparser/utils.py:get_sstat"]}
{"id": "C22", "title": "Struct layouts are sound", "statement": "In every struct of every version: fields are stored in declaration order, aligned, non-overlapping, inside the struct; field names are unique; total sizes equal the sizes Atop itself records in real log headers (480; 80/96; 88368, 711904, 716656, 954360, 1021960, 1030216, 1064016; 616, 784, 840, 968, 992; 432).", "quantifier": "all structs reachable from the 11 header classes (general theorem over all struct definitions)", "why_tests_cant": "The general layout law ranges over all struct definitions.", "anchors": ["atoparser/structs/*.py"]}
{"id": "C23", "title": "Field values round-trip through C layout", "statement": "For every struct type and every well-typed value, laying the value out as a C compiler does on x86-64 (natural alignment, little endian, arbitrary padding bytes) and reading the attributes back gives the same values, at every nesting level and array index.", "quantifier": "all struct types, all values, all padding", "why_tests_cant": "All types and values.", "anchors": ["atoparser/structs/*.py", "atoparser/utils.py:get_record"]}
{"id": "C24", "title": "Integer ranges and signedness", "statement": "Every integer attribute read from any bytes lies in the range of its C type (unsigned fields are never negative, 64-bit counters are in [-2^63, 2^63)), and every value of that range is produced by exactly one byte pattern.", "quantifier": "all byte patterns of every integer field", "why_tests_cant": "2^64 patterns.", "anchors": ["atoparser/structs/*.py", "atoparser/structs/shared.py:count_t"]}
{"id": "C25", "title": "Padding bytes are ignored", "statement": "Two struct images that agree on all field bytes and differ only in alignment padding give the same attributes, and the same struct_to_dict result.", "quantifier": "all struct types, all images", "why_tests_cant": "All padding contents.", "anchors": ["atoparser/utils.py:struct_to_dict", "atoparser/structs/*.py"]}
{"id": "C26", "title": "struct_to_dict key set", "statement": "For every struct of every version and every content the resulting dictionary has exactly the declared field names not containing 'future' (plus nested structs) as keys, in declaration order, recursively; no declared statistic is lost.", "quantifier": "all structs, all contents", "why_tests_cant": "All contents.", "anchors": ["atoparser/utils.py:struct_to_dict"]}
{"id": "C27", "title": "Counted arrays are limited", "statement": "For an array whose count field holds n >= 0, struct_to_dict lists exactly the first min(n, capacity) elements in order (never more than capacity, whatever the file says); arrays without a count list every element.", "quantifier": "all counts, all array contents", "why_tests_cant": "2^31..2^63 counts.", "anchors": ["atoparser/utils.py:struct_to_dict", "atoparser/structs/*.py:fields_limiters"]}
{"id": "C28", "title": "Negative counts yield no elements", "statement": "For a corrupt negative count the array is listed as empty. (Refuted: Python slice semantics make a count of -k list all but the last k elements.)", "quantifier": "all negative counts", "why_tests_cant": "Needs corrupt inputs.", "anchors": ["atoparser/utils.py:struct_to_dict"]}
{"id": "C29", "title": "Strings", "statement": "A character-array attribute is the bytes up to the first NUL (all of them if none); struct_to_dict decodes it as UTF-8 dropping undecodable bytes: valid UTF-8 text is preserved exactly, text cut in the middle of a character loses exactly that character, and the result never contains surrogates or out-of-range code points.", "quantifier": "all byte contents of all string fields", "why_tests_cant": "All byte strings.", "anchors": ["atoparser/utils.py:struct_to_dict"]}
{"id": "C30", "title": "struct_to_dict never fails and is JSON-serialisable", "statement": "struct_to_dict on any header, record, sstat, tstat, or cgroup of any version with any content returns without exception a tree made only of dicts with string keys, lists, strings, ints and floats (no raw bytes or ctypes objects).", "quantifier": "all structs of all versions, all contents", "why_tests_cant": "All contents.", "anchors": ["atoparser/utils.py:struct_to_dict"]}
{"id": "C31", "title": "Per-core rows", "statement": "The 1.26 'cpu' parseable produces exactly max(0, min(nrcpu, 64)) rows, row i numbered i and carrying the counters of core i, plus the record's time, interval and the header's hertz.", "quantifier": "all sstat contents", "why_tests_cant": "All contents and counts.", "anchors": ["atoparser/parsers/atop_1_26.py:parse_cpu"]}
{"id": "C32", "title": "Device rows stop at the first unnamed slot", "statement": "DSK, LVM, MDD and NETL produce one row per slot, in slot order, up to but excluding the first slot with an empty name (at most 256/256/128/32 rows), each row carrying that slot's counters.", "quantifier": "all sstat contents", "why_tests_cant": "All contents.", "anchors": ["atoparser/parsers/atop_1_26.py:parse_DSK", "atoparser/parsers/atop_1_26.py:parse_LVM", "atoparser/parsers/atop_1_26.py:parse_MDD", "atoparser/parsers/atop_1_26.py:parse_NETL"]}
{"id": "C33", "title": "Process rows", "statement": "PRC, PRD, PRG, PRM and PRN produce exactly one row per task, in order, each value taken from the right struct field (memory sizes times 1024, flags from supportflags bits), when every decoded string is valid UTF-8.", "quantifier": "all task lists and contents", "why_tests_cant": "All lists and contents.", "anchors": ["atoparser/parsers/atop_1_26.py:parse_PRC", "atoparser/parsers/atop_1_26.py:parse_PRD", "atoparser/parsers/atop_1_26.py:parse_PRG", "atoparser/parsers/atop_1_26.py:parse_PRM", "atoparser/parsers/atop_1_26.py:parse_PRN"]}
{"id": "C34", "title": "Single-row parseables", "statement": "CPL, CPU, MEM, NETU, PAG and SWP always produce exactly one row and never fail, each value being the 64-bit (or float) statistic at its documented place; NETU values are exact sums of the IPv4 and IPv6 counters without wrap-around.", "quantifier": "all sstat contents", "why_tests_cant": "All contents.", "anchors": ["atoparser/parsers/atop_1_26.py:parse_CPL", "atoparser/parsers/atop_1_26.py:parse_CPU", "atoparser/parsers/atop_1_26.py:parse_MEM", "atoparser/parsers/atop_1_26.py:parse_NETU", "atoparser/parsers/atop_1_26.py:parse_PAG", "atoparser/parsers/atop_1_26.py:parse_SWP"]}
{"id": "C35", "title": "Parseables never fail on odd names", "statement": "Parseable output of a readable log never raises. (Refuted: names and command lines are decoded strictly, so a name that is not valid UTF-8 - e.g. cut mid-character by the 15-byte limit - raises UnicodeDecodeError; proved: failure iff some decoded string is invalid UTF-8, and the rows before it are still produced.)", "quantifier": "all sstat/tstat contents", "why_tests_cant": "Needs non-UTF-8 content.", "anchors": ["atoparser/parsers/atop_1_26.py:parse_PRC", "atoparser/parsers/atop_1_26.py:parse_DSK"]}
{"id": "C36", "title": "Unsupported parseable request", "statement": "parse_file with parseables on a log whose version is not 1.26 prints exactly one object with the keys error and file and reads no sample; without parseables any supported version is printed in full.", "quantifier": "all files and parseable lists", "why_tests_cant": "All files.", "anchors": ["atoparser/reader.py:parse_file", "atoparser/reader.py:PARSEABLE_MAP"]}
{"id": "C37", "title": "parse_file output order and completeness", "statement": "parse_file prints one entry per sample, in file order, each with header, record and sstat and with tstat/cgroup iff requested; in parseable mode the rows are grouped by sample, then by the requested parseable in request order, each row tagged with its parseable name.", "quantifier": "all files, all option combinations, all parseable lists (with repetitions)", "why_tests_cant": "All files and option combinations.", "anchors": ["atoparser/reader.py:parse_file"]}
{"id": "C38", "title": "parse_file tolerates truncated logs", "statement": "parse_file on a well-formed log cut at any point after the header prints exactly the complete samples. On any other error (bad header, undersized payload, gzip stream ending early) it prints nothing and raises: the samples read before are lost.", "quantifier": "all logs, all cut points, all faults", "why_tests_cant": "All crash points.", "anchors": ["atoparser/reader.py:parse_file"]}
{"id": "C39", "title": "Compressed or plain is decided by the path", "statement": "parse_file opens the path with gzip iff the text '.gz' occurs anywhere in it. The documented ability to read any plain or gzip file irrespective of where it lives is refuted by e.g. a plain file in a directory named 'x.gz.d' or a gzip file without the suffix.", "quantifier": "all path strings", "why_tests_cant": "All path strings.", "anchors": ["atoparser/reader.py:parse_file"]}
{"id": "C40", "title": "Version caching is transparent", "statement": "Reading major_version, minor_version or semantic_version any number of times in any order on a header gives the values derived from aversion at the first read; later changes of aversion are not reflected.", "quantifier": "all access/mutation histories", "why_tests_cant": "All histories.", "anchors": ["atoparser/structs/shared.py:HeaderMixin.semantic_version"]}
{"id": "C41", "title": "The decompressor accepts exactly the zlib streams", "statement": "zlib.decompress, as used by the reader, returns d on a byte string exactly when the byte string starts with a zlib stream (RFC 1950, DEFLATE as in RFC 1951, Adler-32) for d, and raises zlib.error otherwise; a stream has one meaning; a stream cut anywhere fails, bytes after it do not change the result, and every payload has a stream (proved for a full model of zlib/DEFLATE, not assumed).", "quantifier": "all byte strings", "why_tests_cant": "All streams and cut points.", "anchors": ["atoparser/utils.py:get_sstat", "atoparser/utils.py:get_tstat", "atoparser/utils.py:get_cstat"]}
{"id": "C42", "title": "JSON text is faithful", "statement": "The text printed by parse_file parses back (with a JSON parser) to the same tree: all strings, including control, quote and non-ASCII characters, and all integers survive; keys are in order. Non-finite floats are the only values whose text is not strict JSON. A finite float is printed as a number that is read as exactly that float; no number text read as it has fewer significant digits (there are at most 17), those with as many are no closer to it, and an exponent is written exactly for numbers below 0.0001 and from 10^16 on.", "quantifier": "all value trees", "why_tests_cant": "All strings and nestings.", "anchors": ["atoparser/reader.py:parse_file", "atoparser/utils.py:struct_to_dict"]}
{"id": "C43", "title": "Several files", "statement": "main processes the files in the given order with the same options, printing one document per file; the first file that raises stops processing and later files are not read.", "quantifier": "all file lists", "why_tests_cant": "All lists.", "anchors": ["atoparser/reader.py:main"]}
{"id": "C44", "title": "Which exceptions iteration raises", "statement": "Once get_header (with its check) has accepted a file, iterating generate_statistics over any bytes, corrupt or not, ends normally or with ValueError, with zlib.error (only with raise_on_truncation=True) or with the exception the file object itself raises; never with AttributeError, TypeError, IndexError or the like, and it never yields a sample built from missing bytes.", "quantifier": "all byte contents, all file failures, both modes", "why_tests_cant": "All corrupt files and all failure points of the file object.", "anchors": ["atoparser/utils.py:generate_statistics"]}
{"id": "C45", "title": "Command line", "statement": "The command accepts options, then one or more files, then options: -p/--pretty-print, --tstats, --cstats (and their abbreviations, down to --pr, --t, --c and no shorter) switch things on, -P/--parseables takes the names that follow it, -PNAME and --parseables=NAME one name, and the last -P counts. After -- every word is a file. Files on both sides of an option are rejected, as is an unknown name (exit status 2), and only -h can give status 0. Putting -P NAMES before the files is refuted: -P takes the file names too and the command always exits with status 2.", "quantifier": "all command lines (lists of Unicode strings)", "why_tests_cant": "All command lines; argparse's matching depends on the whole line.", "anchors": ["atoparser/reader.py:parse_args"]}
{"id": "C46", "title": "Effects of the whole command", "statement": "Whatever the command line, the command either exits without opening or printing anything, or opens files that are words of the command line, in order, printing one document for each until the first failure; it can only fail because a file cannot be opened, a compressed file is damaged, a log is malformed (ValueError, AttributeError) or a name in a 1.26 log is not UTF-8.", "quantifier": "all command lines and all file systems", "why_tests_cant": "All command lines and file contents.", "anchors": ["atoparser/reader.py:main", "atoparser/reader.py:parse_args", "atoparser/reader.py:parse_file"]}
{"id": "C47", "title": "Unknown parseable names through the API", "statement": "parse_file with a name that is not one of the fifteen (including PRD, for which the parser exists) raises KeyError on a 1.26 log as soon as there is a sample, after the names before it have been run on that sample; on a log without samples it prints an empty list.", "quantifier": "all names, logs and options", "why_tests_cant": "All names and logs.", "anchors": ["atoparser/reader.py:parse_file", "atoparser/reader.py:PARSEABLE_MAP"]}
{"id": "C48", "title": "Several iterators over one open, growing log", "statement": "Any number of generate_statistics iterators may be created, advanced, closed and thrown into in any order over one open log while complete samples are being appended: together they deliver every sample exactly once and in order, each at most max_samples; an iterator that has ended stays ended although the log grows; a new iterator delivers exactly what is unread, so polling yields exactly the samples appended since the last poll. If a poll comes while a sample is only partly written that sample can be lost without any error: reliable polling at arbitrary times is refuted.", "quantifier": "all interleavings of operations on any number of iterators, all logs and all growth", "why_tests_cant": "All schedules of iterator operations and writes.", "anchors": ["atoparser/utils.py:generate_statistics"]}
{"id": "C49", "title": "The printed document says what is in the log", "statement": "For a log of any supported version, complete or cut after its header, parse_file prints a JSON document with one entry per complete sample (up to 86400), in order, whose numbers, texts and floats are read back as exactly the values in the file (a float as the nearest double, ties to even; -0.0 keeps its sign); with parseables on a 1.26 log, one entry per row. If some float to be printed is an infinity or NaN the text is not JSON at all. Two files that print the same document have the same entries.", "quantifier": "all well-formed logs of all versions, all cut positions, all options", "why_tests_cant": "All contents, float bit patterns and cut points.", "anchors": ["atoparser/reader.py:parse_file", "atoparser/utils.py:struct_to_dict", "atoparser/utils.py:generate_statistics"]}
{"id": "C50", "title": "gzip-compressed logs", "statement": "A log opened under a path containing .gz is read as the data of the gzip file stored there, and reading never fails, exactly when the stored bytes are a gzip file in the sense of RFC 1952 (one or more members with optional extra field, name, comment and header check, a DEFLATE stream, CRC-32 and length, zero bytes between or after members). A gzip file says one thing; concatenating two gives the concatenated data; a file cut anywhere is rejected; two contents that differ only within four consecutive bytes never have the same CRC.", "quantifier": "all stored byte sequences under all paths containing .gz", "why_tests_cant": "All files, compressors, block types, member layouts and damage positions.", "anchors": ["atoparser/reader.py:parse_file"]}
{"id": "C51", "title": "Every field at its place in the file", "statement": "For every supported version and every part of a log (header, record, system, process and cgroup statistics), the tables of the format give the byte offset, size, signedness and kind of every scalar, and the distance and number of the slots of arrays. Every attribute path of the object read has exactly the value stored at its place, and no other paths exist; its dictionary has exactly those values that are not reserved and, for arrays with a counter, whose slot is below the counter. The same holds for each sample yielded, for the header, and for each entry of the document printed for a log, under header, record, sstat, tstat and cgroup. So nothing that is shown is lost: two objects with the same dictionary have the same values, and two logs for which the same JSON document is printed have as many samples, with the same values in each.", "quantifier": "all versions, all parts, all byte contents, all attribute paths and indices", "why_tests_cant": "All byte contents of structs of up to a megabyte with several hundred fields each.", "anchors": ["atoparser/structs/", "atoparser/utils.py:struct_to_dict", "atoparser/utils.py:generate_statistics", "atoparser/reader.py:parse_file"]}
{"id": "C52", "title": "Error texts of get_header", "statement": "When get_header rejects a file for its magic number, the text of the ValueError ends with the number found, in hexadecimal; when it rejects the struct lengths, the text lists header, record, system, process (and, where there are any, cgroup) lengths, each with the number found in the file and the number expected for the version. The text determines the numbers.", "quantifier": "all files, all versions, with and without the check", "why_tests_cant": "All magic numbers and all combinations of length fields.", "anchors": ["atoparser/utils.py:get_header", "atoparser/structs/shared.py:HeaderMixin.check_compatibility"]}
{"id": "C53", "title": "Logs of versions the library does not know", "statement": "A log whose header says an unknown version with major >= 2 and minor >= 11 is read, sample for sample and error for error, exactly like the same file with the version replaced by 2.12; so a log with 2.12 structs is read completely. An unknown version with major >= 3 and 3 <= minor < 11 and the struct lengths of 2.12 is accepted too, but no sample has cgroups and the next record is looked for at the compressed cgroups of the sample just read.", "quantifier": "all headers of unknown versions, all bytes after them, both modes, all sample bounds, every decompressor", "why_tests_cant": "All versions and all file contents.", "anchors": ["atoparser/utils.py:get_header", "atoparser/utils.py:generate_statistics", "atoparser/utils.py:get_tstat", "atoparser/utils.py:get_cstat", "atoparser/structs/shared.py:HeaderMixin"]}
{"id": "C54", "title": "Memory and number of samples are bounded by the file", "statement": "Decompressing n bytes never gives more than 1032 (n - 6) bytes, and a gzip file of n bytes never holds more than 1032 n. Whatever a file contains, the number of samples yielded times (record size + a thousandth of the system statistics + 12) is at most its length; the structs of all samples together take at most 1032 bytes per byte read plus, in versions with cgroups, 65535 cgroup structs per sample. The tasks of a record take at most 1032 times the bytes read for them; for cgroups no such bound holds (454 bytes can give 28 megabytes).", "quantifier": "all byte sequences, all files (also failing ones), all versions and header contents, both modes, all sample bounds", "why_tests_cant": "All compressed streams and all file contents.", "anchors": ["atoparser/utils.py:generate_statistics", "atoparser/utils.py:get_tstat", "atoparser/utils.py:get_cstat", "atoparser/utils.py:get_sstat", "atoparser/reader.py:parse_file"]}
{"id": "C55", "title": "The objects handed out are independent", "statement": "The record, system statistics, task and cgroup objects of all samples, and the header, never share memory: whatever a program does with the objects it received (assign to attributes, at any time, between calls of next, throw and close), each object reads as a value of its own would. Samples that are not assigned to read at any later time as on arrival; an assignment to one part of one sample changes nothing but that part, and the iterator goes on as if it had not been made. Only the header object passed in is live: assigning to it between two samples changes how the next one is read.", "quantifier": "all programs of next, throw, close and assignments, all files, all versions, both modes, all sample bounds, every decompressor", "why_tests_cant": "All interleavings of iteration and assignments, over any number of samples.", "anchors": ["atoparser/utils.py:generate_statistics", "atoparser/utils.py:get_header", "atoparser/utils.py:get_record", "atoparser/utils.py:get_sstat", "atoparser/utils.py:get_tstat", "atoparser/utils.py:get_cstat"]}
{"id": "C56", "title": "Any file-like object", "statement": "generate_statistics and get_header use only read and readinto of the object passed. With an object that hands out its bytes in order, as many as asked for and fewer only at the end (an open file, a gzip file, io.BytesIO at any position), samples, ending and bytes consumed depend on the bytes alone. With any other object, whatever it answers or raises: iteration ends; each sample yielded cost one readinto of a record and one read per compressed length that record announces, in that order, its record is the answer to the first of them and its structs are complete; nothing is asked after the bound is reached, after a record without sample, after an exception of the object or after bad data; what is raised is the object's exception, zlib.error or ValueError. A short readinto of a record before the end of the file is not noticed: iteration ends normally, even in strict mode, and all remaining samples are lost.", "quantifier": "all objects (any state, any answers, any exceptions), all versions, both modes, all sample bounds, every decompressor", "why_tests_cant": "All behaviours of a user-supplied object over any number of requests.", "anchors": ["atoparser/utils.py:generate_statistics", "atoparser/utils.py:get_header", "atoparser/utils.py:get_record", "atoparser/utils.py:get_sstat", "atoparser/utils.py:get_tstat", "atoparser/utils.py:get_cstat"]}
{"id": "C57", "title": "The source text computes what the model says", "statement": "Running the text of get_header, check_compatibility, the version properties, get_record, get_sstat, get_tstat, get_cstat and generate_statistics, statement by statement in the semantics of Python, on any file, header and record, in any state of the program's memory, returns an object with the class and bytes, or raises the exception (with its text), that the model functions of the other properties give; leaves the file at the same place; prints nothing; and changes no object that existed before except for filling a header's version cache. This holds for the generator through every history of next, throw and close, whatever the rest of the program does to the file and to memory in between. So a for loop over a well-formed log yields exactly its samples.", "quantifier": "all file contents and positions, all headers of all versions, all records, all histories of next, throw, close and foreign steps, all memory states, both modes, all sample bounds, every decompressor", "why_tests_cant": "All inputs and all histories; it also closes the gap between a hand-written model and the code.", "anchors": ["atoparser/utils.py:generate_statistics", "atoparser/utils.py:get_header", "atoparser/utils.py:get_record", "atoparser/utils.py:get_sstat", "atoparser/utils.py:get_tstat", "atoparser/utils.py:get_cstat", "atoparser/structs/shared.py:HeaderMixin"]}
{"id": "C58", "title": "The source text of struct_to_dict computes what the model says", "statement": "Running the text of struct_to_dict, statement by statement in the semantics of Python, on any header (whether or not it has cached its version), on any object whose type is a struct of the layout of any version, or on any cgroup object, in any state of the program's memory, raises nothing and returns exactly the dictionary that the model gives; every dictionary and list in that dictionary is a new object; no object that existed before, no file and no output changes.", "quantifier": "all bytes of all struct types of all versions, all headers, all cgroup objects with process lists of any length, all memory states", "why_tests_cant": "All inputs and memory states; it closes the gap between a hand-written model and the code.", "anchors": ["atoparser/utils.py:struct_to_dict"]}
{"id": "C59", "title": "The source text of the parsers computes what the model says", "statement": "Running the text of each of the sixteen parse_* generator functions, statement by statement in the semantics of Python, on any header, record, system statistics and list of task statistics of any versions: the call makes a generator and does nothing else; through every history of next, throw and close, with the rest of the program doing anything in between that leaves the ctypes objects and the list of tasks alone, the generator yields exactly the model's rows in order, each a new dictionary, ends with the model's exception or normally, and changes nothing else. A for loop over it collects exactly the model's rows.", "quantifier": "all bytes of headers, records, system and task statistics of all versions, task lists of any length, all histories, all memory states", "why_tests_cant": "All inputs and all histories; it closes the gap between a hand-written model and the code.", "anchors": ["atoparser/parsers/atop_1_26.py:parse_cpu", "atoparser/parsers/atop_1_26.py:parse_PRC", "atoparser/parsers/atop_1_26.py:parse_DSK", "atoparser/parsers/atop_1_26.py:parse_NETU"]}
{"id": "C60", "title": "The source text of parse_file and main computes what the model says", "statement": "Running the text of parse_file, statement by statement in the semantics of Python, on any path, list of parseables (known or not) and options, over any file system, opens that path and nothing else, then prints one text or raises, exactly as the model says; no object that existed before changes except a header's version cache. Running the text of main with the namespace argparse returned does so for one file after the other until one raises. On a well-formed log of any version the source prints exactly the document that describes the log.", "quantifier": "all paths, file contents (plain, gzip, damaged), parseable lists, options, namespaces with any number of files, all memory states, every decompressor", "why_tests_cant": "All inputs, file systems and memory states; it closes the gap between a hand-written model and the code.", "anchors": ["atoparser/reader.py:parse_file", "atoparser/reader.py:main"]}
{"id": "C61", "title": "A damaged block is noticed, and ends the reading at its sample", "statement": "If, in a well-formed log, one compressed block (system, task, cgroup or process-id statistics) is overwritten by bytes that are not a zlib stream, generate_statistics yields every earlier sample unchanged and then raises zlib.error (or, in lenient mode, ends); no later sample is yielded or read. This is the case whenever the last four bytes of the block (its checksum) are changed in any way, and whenever the damage before them changes one byte of the block's data, or two bytes less than 65521 apart.", "quantifier": "all versions, logs with any number of samples, all damaged blocks and positions, both modes, all sample limits that reach the sample", "why_tests_cant": "All logs, all positions and kinds of damage; tests can damage a few bytes of a few logs.", "anchors": ["atoparser/utils.py:generate_statistics", "atoparser/utils.py:get_sstat", "atoparser/utils.py:get_tstat", "atoparser/utils.py:get_cstat"]}
{"id": "C62", "title": "The text of the struct modules defines the file formats", "statement": "Importing the modules of atoparser.structs succeeds: their imports, assignments and class statements, run in order in the semantics of Python classes and of ctypes.Structure. The class Header of each version's module then has that version's supported_version and gives, for the header, record, system, task and cgroup statistics, a struct of exactly the size of the file format whose attributes and dictionary are exactly those of the format, or none where the format has none. Attribute lookup through the bases finds the limiters, the methods and the chainer class that the functions of the package use, and no class is defined twice.", "quantifier": "all supported versions, all parts of a log, all bytes of a part, all paths of attributes, all attribute names", "why_tests_cant": "The tables have thousands of fields; tests see the fields that vary in a few logs. It closes the gap between generated tables and the text of the modules.", "anchors": ["atoparser/structs/shared.py:HeaderMixin", "atoparser/structs/shared.py:UTSName", "atoparser/structs/atop_1_26.py:Header", "atoparser/structs/atop_2_11.py:CGChainer", "atoparser/structs/atop_2_12.py:Header"]}
{"id": "C63", "title": "The text of parse_args defines the command line", "statement": "Running the text of parse_args - building an ArgumentParser, the calls of add_argument, parse_args() - in the semantics of argparse gives, for every command line, either an exit (2, or 0 if -h was asked for) or a namespace with exactly the attributes files, parseables, pretty_print, show_tstats and show_cstats, as documented: files are words of the command line, parseables is None or a list of accepted names, each flag is true exactly when its option was given. Running the text of main with that namespace has exactly the effects (files opened, texts printed, how it ended) of the command.", "quantifier": "all command lines (lists of words of any characters), all file systems and memory states", "why_tests_cant": "All command lines; it closes the gap between the options written down in the model and the text.", "anchors": ["atoparser/reader.py:parse_args", "atoparser/reader.py:main"]}
{"id": "C64", "title": "Importing the package", "statement": "Importing any modules of the package, in any order and any number of times, succeeds in a fresh interpreter and calls no function of the package; the modules imported are then there. What a name of a module refers to does not depend on which modules were imported before or in what order; only whether a submodule is already an attribute of its package does. The public functions of the package are those of utils; the struct modules define what the struct properties say; every name that the functions use at run time is bound to what they use. Running the reader as a script calls main once, after everything is defined; importing it does not.", "quantifier": "all sequences of imports of the modules of the package, any length and order, repetitions included; all names", "why_tests_cant": "All import orders (circular or order-dependent imports show only in some of them).", "anchors": ["atoparser/__init__.py", "atoparser/utils.py", "atoparser/reader.py", "atoparser/parsers/atop_1_26.py", "atoparser/structs/shared.py", "atoparser/structs/atop_2_12.py:Header"]}
{"id": "C65", "title": "The exported types", "statement": "atoparser.Header, Record, SStat, TStat, CStat and CGChainer exist after any imports. A struct of a class that the struct modules offer passes isinstance with one of them exactly when its class is the one some supported version uses for that kind of statistics; no class passes for two kinds. The header of any file and every record, system, task and cgroup statistic of every sample passes for its kind. None passes for CStat and CGChainer, and for no other.", "quantifier": "all sequences of imports, all classes of all struct modules, all files, headers and samples", "why_tests_cant": "All classes against all types, and all samples of all files.", "anchors": ["atoparser/__init__.py:Header", "atoparser/__init__.py:CStat", "atoparser/__init__.py:CGChainer", "atoparser/utils.py:generate_statistics"]}
{"id": "C66", "title": "Programs that use the package", "statement": "A for loop of any program over atoparser.generate_statistics(raw_file, header) runs its body on exactly the samples of the file, in order, until the body leaves the loop or the samples end, and ends as the samples do; between two turns the body's variables and objects are left as they were and nothing is printed. In particular, the two programs of README.md work on every supported version: the first prints one line per complete sample of the log, of the idle time in that sample and interval * number of CPUs * hertz, and ends normally for a whole log, with the exception of the division for the first sample where the product is 0, with zlib.error for a log that ends within a sample after the length of its first block; the second prints the indented JSON document of the header's fields. If the header is refused both end with get_header's exception and print nothing.", "quantifier": "all loop bodies that keep the loop's invariant (any statements, any variables), all files, whole or truncated logs of all versions, all ways of formatting the line", "why_tests_cant": "All programs and all logs; a test runs one program on one log.", "anchors": ["README.md", "atoparser/__init__.py:get_header", "atoparser/utils.py:generate_statistics", "atoparser/utils.py:struct_to_dict", "atoparser/utils.py:get_header"]}
{"id": "C67", "title": "Reading a log with the functions for its parts", "statement": "get_record takes the bytes of one record of the header's version and never raises: missing bytes are zero, so at the end of the file the length of the first block is 0. get_sstat, get_tstat and get_cstat take exactly the bytes that the record announces (fewer only where the file ends); a block that does not decompress is zlib.error and is consumed all the same; a block that decompresses to too little is ValueError; otherwise the result is the struct, or the announced number of structs at the header's distances, or the cgroups with their processes. A program that loops over these functions, stopping at a record with length 0, and asks for cgroups just in versions from 2.11 on, handles exactly the samples that generate_statistics yields and ends in the same way; README.md's first program rewritten like this prints the same on every file.", "quantifier": "all versions, all records, all file contents (whole, truncated, damaged), all loop bodies that keep the loop's invariant, all sample bounds", "why_tests_cant": "All file contents and all programs; a test calls each function on a few logs, always whole ones.", "anchors": ["atoparser/utils.py:get_record", "atoparser/utils.py:get_sstat", "atoparser/utils.py:get_tstat", "atoparser/utils.py:get_cstat", "atoparser/utils.py:generate_statistics"]}
{"id": "C68", "title": "The CPU usage that README.md's program prints", "statement": "README.md's first program, as written there, prints for every complete sample of a log of any supported version one line \"CPU usage was P%\". P is 100 * (1 - idle / total), idle being the sample's idle time and total its interval * number of CPUs * hertz, computed with each of the three operations rounded to the nearest double and shown with two decimals (nearest, ties to even; a minus sign exactly if the quotient so rounded is more than 1). The line is determined by the two numbers and exists for all the numbers a sample can have. If idle is between 0 and total, P is within 0.005 + 10^-13 of the exact value. A larger quotient idle / total never shows a larger P. At the first sample whose total is 0 the program ends with ZeroDivisionError, having printed the lines of the samples before. Otherwise it ends as reading the log does: normally for a whole log, with zlib.error for one that ends within a sample after the length of its first block; with a refused header it prints nothing. The program rewritten as a loop over get_record, get_sstat, get_tstat and get_cstat prints the same and ends in the same way on every file.", "quantifier": "all files; whole or truncated logs of all supported versions, all samples, all idle times, intervals, CPU counts and clock rates", "why_tests_cant": "All pairs of numbers: rounding goes wrong only for some (ties, near a power of two, near 0), and all logs.", "anchors": ["README.md", "atoparser/utils.py:generate_statistics", "atoparser/utils.py:get_header", "atoparser/structs/shared.py:HeaderMixin"]}
