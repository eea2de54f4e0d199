{"id": "C01", "title": "Reported text positions are the true positions", "statement": "Every location helper reports the position it claims: strchr/strstr/strspn/skip-span-with-location return the first match (or the maximal span) and the (line, column) pair they output is 1 + number of newlines skipped and the number of characters since the last newline; adding two relative positions composes like concatenating the skipped texts, and the ordering of two locations is the lexicographic order on (line, column).", "quantifier": "all haystacks, needles, accept sets and all chains of consecutive skips", "why_tests_cant": "the text length, the number of newlines and the chain of position additions are unbounded", "anchors": ["lib/utils.c: sr_strchr_location, sr_strstr_location, sr_strspn_location, sr_skip_char_span_location, sr_skip_to_next_line_location", "lib/location.c: sr_location_add, sr_location_add_ext, sr_location_eat_char, sr_location_eat_char_ext, sr_location_cmp"]}
{"id": "C02", "title": "Integer parsers accept exactly the numerals in range", "statement": "sr_parse_uint32/uint64/hexadecimal_uint64/hexadecimal_0xuint64 succeed exactly when the input starts with a (maximal) run of digits whose mathematical value fits the type, return that value and consume exactly the run; otherwise they return 0 and leave the cursor and the result unchanged. (The code also rejects the single value 2^64-1 in sr_parse_uint64.)", "quantifier": "all inputs, including digit runs of any length that overflow", "why_tests_cant": "digit runs are unbounded; overflow lies far outside sampled values", "anchors": ["lib/utils.c: sr_parse_uint32, sr_parse_uint64, sr_skip_uint, sr_parse_hexadecimal_uint64, sr_parse_hexadecimal_0xuint64, sr_skip_hexadecimal_uint"]}
{"id": "C03", "title": "Cursor primitives never leave the string", "statement": "Each elementary scanning primitive (skip char, skip sequence, skip span/cspan, parse span/cspan, skip/parse string, parse digit, next line) either leaves the cursor unchanged and reports failure, or moves it by exactly the reported length to a position that is still inside the string (at most at its terminator); the skipped text is the maximal/exact text documented. sr_skip_char_limited is the exception: at the end of the string it reports success and steps past the terminator.", "quantifier": "all inputs and all character sets", "why_tests_cant": "out-of-bounds stepping shows up only at particular end-of-input alignments", "anchors": ["lib/utils.c: sr_skip_char, sr_skip_char_limited, sr_parse_char_limited, sr_skip_char_sequence, sr_skip_char_span, sr_parse_char_span, sr_skip_char_cspan, sr_parse_char_cspan, sr_skip_string, sr_parse_string, sr_parse_digit"]}
{"id": "C04", "title": "JSON string escaping is faithful", "statement": "The text sr_json_escape/sr_json_append_escaped produces, placed between quotes, is a JSON string literal that denotes exactly the original string, contains no raw newline and can be decoded in only one way - for every string without other control characters. Strings containing other control characters (0x01-0x1f except \\b \\t \\n \\f \\r) are emitted raw and are not JSON.", "quantifier": "all byte strings", "why_tests_cant": "all strings of all lengths, including quotes and backslashes in every position", "anchors": ["lib/json_utils.c: sr_json_escape, sr_json_append_escaped"]}
{"id": "C05", "title": "Re-indenting never changes a JSON document's meaning", "statement": "sr_indent and sr_indent_except_first_line change a text only by inserting the given number of spaces at line starts (undone by deleting them), and applied to a JSON text they yield a JSON text with the same value; nesting to any depth therefore preserves values.", "quantifier": "all JSON texts and all indent widths", "why_tests_cant": "documents nest and grow without bound", "anchors": ["lib/utils.c: sr_indent, sr_indent_except_first_line"]}
{"id": "C06", "title": "User names in home directories are never reported", "statement": "anonymize_path turns /home/<user>/rest into /home/anonymized/rest for every user and rest, leaves every other path unchanged, is idempotent, and its result does not depend on the user name.", "quantifier": "all paths", "why_tests_cant": "paths and user names are unbounded", "anchors": ["lib/utils.c: anonymize_path"]}
{"id": "C07", "title": "os-release files are parsed line by line as KEY=value", "statement": "Parsing an os-release text calls back exactly once per well-formed line, in order, with the key before the first '=' and the value with quotes removed and backslash escapes undone; comment lines, lines without '=' and lines with an empty key are skipped and never swallow a following line. Quoting a value (wrapping in quotes and escaping quotes and backslashes) round-trips.", "quantifier": "all texts: any number of lines, any values", "why_tests_cant": "files have unboundedly many lines and values mix quotes and escapes arbitrarily", "anchors": ["lib/utils.c: sr_parse_os_release, unescape_osinfo_value"]}
{"id": "C08", "title": "Adjacent-duplicate removal and binary-to-hex helpers are exact", "statement": "sr_struniq keeps exactly one representative of every run of equal strings, in order (so on a sorted array it yields each distinct string once); sr_bin2hex writes two lower-case hex digits per byte and is injective, i.e. the bytes can be recovered.", "quantifier": "all arrays of strings, all byte arrays", "why_tests_cant": "array lengths are unbounded", "anchors": ["lib/utils.c: sr_struniq, sr_bin2hex, sr_ptrstrcmp"]}
{"id": "C09", "title": "Levenshtein distance is the minimum number of edits", "statement": "The Levenshtein distance between two threads (before scaling) equals the minimum number of frame insertions, deletions and substitutions that turn one frame sequence into the other (frames compared with the thread's frame comparison), and is 0 for two empty threads; the two-diagonal in-place algorithm never reads an uninitialised or out-of-range cell.", "quantifier": "all pairs of threads of any lengths and any frame comparison", "why_tests_cant": "minimality ranges over all edit scripts; thread lengths unbounded", "anchors": ["lib/distance.c: distance_levenshtein, sr_distance"]}
{"id": "C10", "title": "Damerau-Levenshtein distance is the minimum with adjacent transpositions", "statement": "With transpositions enabled the unscaled distance equals the minimum cost over edit scripts that may additionally swap two adjacent frames (each frame edited at most once), hence is never larger than the plain Levenshtein distance. Exception: the library's own gdb comparison is not transitive (a missing library name matches any), and the minimum is claimed for symmetric and transitive comparisons only.", "quantifier": "all pairs of threads of any lengths", "why_tests_cant": "minimality ranges over all edit scripts", "anchors": ["lib/distance.c: distance_levenshtein (transposition == true)"]}
{"id": "C11", "title": "Scaled edit distance lies in [0,1] and is 0 exactly for equal threads", "statement": "The value returned for Levenshtein/Damerau is the edit count divided by the longer length: it lies between 0 and 1, is 0 iff the threads have the same length and frames equal position by position, is 1 when no frame of one equals a frame of the other (threads non-empty), and is symmetric in its arguments when the frame comparison is; this still holds after rounding to single precision. Exception: under the library's gdb comparison an unknown function '??' equals nothing, so a thread with one is not at distance 0 from itself.", "quantifier": "all pairs of threads", "why_tests_cant": "all lengths and contents; rounding affects every value", "anchors": ["lib/distance.c: distance_levenshtein, sr_distance", "include/distance.h"]}
{"id": "C12", "title": "Jaccard distance is 1 - |A∩B| / |A∪B| over distinct frames", "statement": "For a frame comparison that is an equivalence, the Jaccard distance equals one minus the number of distinct frames occurring in both threads over the number of distinct frames occurring in either; it is in [0,1], symmetric, 0 iff both have the same set of frames, 1 iff disjoint, insensitive to order and repetition, and 0 for two empty threads. For the library's own gdb comparison (where an unknown function equals nothing, and a missing library name matches anything) these fail.", "quantifier": "all pairs of threads", "why_tests_cant": "sets of frames are unbounded and the counting is a nested loop", "anchors": ["lib/distance.c: distance_jaccard", "lib/gdb_frame.c: sr_gdb_frame_cmp_distance"]}
{"id": "C13", "title": "Jaro-Winkler similarity bounds", "statement": "The documented contract 'a number between 0 and 1, where 1 means identical' for the Jaro-Winkler value: 0 when no frames match; between 0 and 1 when the threads do not repeat frames; the code exceeds 1 for threads with repeated frames and returns 0 for two identical one-frame threads.", "quantifier": "all pairs of threads", "why_tests_cant": "matching windows and repetition patterns are unbounded", "anchors": ["lib/distance.c: distance_jaro_winkler", "include/distance.h"]}
{"id": "C14", "title": "Distance matrix behaves as a symmetric map", "statement": "After creation, setting the distance of a pair (i,j) and reading back any pair (k,l) gives the new value iff {k,l} = {i,j}, the old one otherwise; the diagonal always reads 0; every access is inside the allocation; duplication gives an equal, independent matrix. Exception: matrices of 46341 or more objects overflow an int.", "quantifier": "all matrix sizes m,n, all index pairs, all sequences of set operations", "why_tests_cant": "triangular index arithmetic over all sizes", "anchors": ["lib/distance.c: sr_distances_new, sr_distances_get_distance, sr_distances_set_distance, sr_distances_dup, get_distance_position, get_distance_position_mn"]}
{"id": "C15", "title": "Splitting a comparison into parts loses and duplicates nothing", "statement": "sr_distances_part_create(m,n,type,nparts) yields consecutive, non-overlapping, non-empty parts whose lengths differ by at most one and which together cover every pair (i,j) with i<m, i<j<n exactly once.", "quantifier": "all m, n and numbers of parts", "why_tests_cant": "sizes and part counts unbounded; remainder distribution", "anchors": ["lib/distance.c: sr_distances_part_create, sr_distances_part_new"]}
{"id": "C16", "title": "Computing parts separately and merging equals computing at once", "statement": "Merging the computed parts, in any order, gives a matrix that returns for every pair the same distance as sr_threads_compare over all threads; merging parts with mismatching sizes, checksums or without results yields an error and no matrix. Exception: a missing part is not noticed.", "quantifier": "all thread arrays, distance functions, part counts, and all permutations of the list of parts", "why_tests_cant": "all part orders and sizes; distributed computing", "anchors": ["lib/distance.c: sr_distances_part_compute, sr_distances_part_merge, sr_threads_compare, threads_checksum"]}
{"id": "C17", "title": "Clustering produces a permutation with one merge level per gap", "statement": "For every distance matrix the dendrogram lists every object index exactly once and has exactly n-1 initialised merge levels; no assertion fails and no out-of-range element is accessed whatever the (even NaN) distances are.", "quantifier": "all matrices with 1 <= m < n, all float values and comparison outcomes", "why_tests_cant": "the merge sequence depends on the data and the number of objects is unbounded", "anchors": ["lib/cluster.c: sr_distances_cluster_objects, sr_dendrogram_new"]}
{"id": "C18", "title": "Cutting a dendrogram partitions the objects", "statement": "sr_dendrogram_cut(level, min_size) returns exactly the maximal contiguous runs of the dendrogram order whose internal merge levels are all <= level and whose size is at least min_size: no object is in two clusters, with min_size <= 1 every object is in exactly one, and raising the level only merges clusters (never splits).", "quantifier": "all dendrograms, levels and minimal sizes", "why_tests_cant": "dendrogram sizes and cut levels unbounded", "anchors": ["lib/cluster.c: sr_dendrogram_cut, sr_cluster_new"]}
{"id": "C19", "title": "Cut clusters are exactly the average-linkage clusters at that level", "statement": "With exact arithmetic and a full matrix of non-negative distances, cutting the dendrogram at level t yields exactly the groups obtained by repeatedly merging the two closest groups under average linkage until the closest are further than t apart.", "quantifier": "all full distance matrices over the rationals, all levels", "why_tests_cant": "interplay of merge order, reversal of sub-dendrograms and cut over all matrices", "anchors": ["lib/cluster.c: sr_distances_cluster_objects, sr_dendrogram_cut"]}
{"id": "C20", "title": "Thread editing operations remove exactly what they say", "statement": "Removing a frame deletes exactly that frame (identified by address, once) and reports whether it was present, leaving the thread untouched otherwise; 'remove frames above f' keeps exactly the suffix starting at f or reports failure and changes nothing; 'remove frames below n' keeps exactly the first n frames; limiting the depth of a whole stacktrace does so for each thread.", "quantifier": "all threads, frames and n", "why_tests_cant": "lists of any length, any position", "anchors": ["lib/generic_thread.c: thread_remove_frame, thread_remove_frames_above", "lib/gdb_thread.c: sr_gdb_thread_remove_frames_below_n", "lib/gdb_stacktrace.c: sr_gdb_stacktrace_limit_frame_depth", "lib/java_thread.c: sr_java_thread_remove_frames_above"]}
{"id": "C21", "title": "Duplicate hash depends only on the first n significant frames", "statement": "The text hashed by sr_thread_get_duphash is the prefix, the header, and the hash lines of the first n frames that contribute one (all when n=0), after normalization unless disabled; the thread passed in is not modified; two threads whose contributing lines agree on the first n have equal duphashes; frames after the n-th never matter. Here 'frames' are those left by normalization: a later frame of the original thread can change which these are.", "quantifier": "all threads, n, prefixes and flag combinations", "why_tests_cant": "all histories of frames and all flag combinations", "anchors": ["lib/generic_thread.c: sr_thread_get_duphash", "lib/gdb_frame.c: gdb_append_duphash_text", "lib/core_frame.c: core_append_duphash_text", "lib/koops_frame.c: koops_append_duphash_text"]}
{"id": "C22", "title": "Backtrace hash distinguishes different stacktraces", "statement": "Stacktraces that differ in a hashed field get different texts under sr_stacktrace_get_bthash, so the hash identifies the stacktrace (up to SHA-1). Holds only for separator-free fields; kernel-oops taint flags and core function names are not part of the text at all, so stacktraces differing only there collide.", "quantifier": "all pairs of stacktraces", "why_tests_cant": "injectivity ranges over all pairs", "anchors": ["lib/generic_stacktrace.c: sr_stacktrace_get_bthash", "lib/koops_stacktrace.c: koops_append_bthash_text", "lib/core_frame.c: core_append_bthash_text"]}
{"id": "C23", "title": "gdb normalization only removes or canonically renames frames", "statement": "Normalizing a gdb thread yields a subsequence of the original frames in the original order in which only function names may have been canonicalised; no two adjacent frames share a known function name; no removable or above-removable frame remains; everything up to the last exit frame is gone; normalising a second time changes nothing further. Exception: a second normalization can change names that carried two removable prefixes.", "quantifier": "all threads", "why_tests_cant": "interaction of several rewriting passes on threads of any length", "anchors": ["lib/normalize.c: sr_normalize_gdb_thread, sr_normalize_gdb_stacktrace, sr_gdb_is_exit_frame, sr_glibc_thread_find_exit_frame", "lib/normalize_hash.gperf"]}
{"id": "C24", "title": "core normalization only removes or canonically renames frames", "statement": "The same for core threads: order preserved, removable frames dropped, first and last unknown frames dropped, recursion collapsed, library paths anonymised, the thread cut below the last exit frame, second normalization a no-op. Exception: a second normalization can drop another unknown frame where there were two at an end.", "quantifier": "all core threads", "why_tests_cant": "interaction of several rewriting passes on threads of any length", "anchors": ["lib/normalize.c: sr_normalize_core_thread, is_removable, sr_core_thread_find_exit_frame"]}
{"id": "C25", "title": "kernel oops normalization strips suffixes and boilerplate frames", "statement": "Normalizing an oops drops exactly the frames of the blacklist (in-kernel, no module) and cuts function names at the first '.', keeping everything else in order, and is idempotent; the binary search used finds a name iff it is in the list.", "quantifier": "all oopses", "why_tests_cant": "all names and frame sequences", "anchors": ["lib/normalize.c: sr_normalize_koops_stacktrace"]}
{"id": "C26", "title": "Unknown functions are paired consistently across two threads", "statement": "sr_normalize_gdb_paired_unknown_function_names gives an unknown frame a name only when the other thread has an unknown frame whose known neighbours carry the same names; a pair gets one fresh common name, known names never change, and frames stay in place. Exception: the common name is not fresh if the threads already use such names.", "quantifier": "all pairs of threads", "why_tests_cant": "all alignments of unknown frames", "anchors": ["lib/normalize.c: sr_normalize_gdb_paired_unknown_function_names"]}
{"id": "C27", "title": "Optimised thread keeps the diagnostic frames in order", "statement": "The optimised copy of a thread has at most the requested number of frames, is an order-preserving selection of the original after removing main-like frames and below-limit frames, and leaves the original untouched.", "quantifier": "all threads and limits", "why_tests_cant": "all lengths", "anchors": ["lib/gdb_stacktrace.c: sr_gdb_stacktrace_get_optimized_thread", "lib/normalize.c: sr_normalize_gdb_optimize_thread, sr_gdb_thread_remove_frames_below_n"]}
{"id": "C28", "title": "Crash thread selection follows its documented priority", "statement": "Crash thread detection returns one of the stacktrace's threads: the only thread if there is one; else the thread with the recorded crash tid if any; else the unique thread containing the crash frame, then the unique one among those with an exit frame, else the first best match; and nothing when there is no candidate. The stacktrace is not modified. Exception: after normalizing a stacktrace whose threads have no tid the crash thread found can be another.", "quantifier": "all stacktraces, crash frames and tids", "why_tests_cant": "all combinations of threads and candidate matches", "anchors": ["lib/gdb_stacktrace.c: sr_gdb_stacktrace_find_crash_thread, find_threads_matching / FIRST_MATCHING / ONE_MATCHING", "lib/core_stacktrace.c: sr_core_stacktrace_find_crash_thread"]}
{"id": "C29", "title": "Quality ratings are proportions", "statement": "Frame and thread quality counters satisfy 0 <= ok <= all with all = number of frames, so simple quality and thread quality lie in [0,1], reach 1 exactly when every frame is fully known, and complex quality is a convex combination in [0,1].", "quantifier": "all stacktraces", "why_tests_cant": "all frame contents", "anchors": ["lib/gdb_thread.c: sr_gdb_thread_quality_counts, sr_gdb_thread_quality", "lib/gdb_stacktrace.c: sr_gdb_stacktrace_quality_simple, sr_gdb_stacktrace_quality_complex", "lib/java_thread.c: sr_java_thread_quality_counts"]}
{"id": "C30", "title": "Frame comparison functions are consistent orders", "statement": "For every frame type, comparison returns 0 exactly when all compared fields are equal, is reflexive, and swapping the arguments flips the sign; so that it can be used for sorting and equality. Fails for fields compared by truncating/wrapping subtraction: 64-bit addresses/offsets differing by a multiple of 2^32 compare equal and 32-bit lines more than 2^31 apart compare in the wrong direction. The comparison used by distances tells frames apart by exactly the members that identify them: core frames by function name where both have one, otherwise by build id and offset or by fingerprint; gdb frames by known function name and, where both are known, library. Java threads and stack traces are ordered by thread names and topmost frames.", "quantifier": "all pairs and triples of frames", "why_tests_cant": "all field values incl. the wrap-around ones", "anchors": ["lib/core_frame.c: sr_core_frame_cmp", "lib/koops_frame.c: sr_koops_frame_cmp", "lib/python_frame.c: sr_python_frame_cmp", "lib/ruby_frame.c: sr_ruby_frame_cmp", "lib/js_frame.c: sr_js_frame_cmp", "lib/java_frame.c: sr_java_frame_cmp", "lib/gdb_frame.c: sr_gdb_frame_cmp", "lib/core_frame.c: sr_core_frame_cmp_distance", "lib/gdb_frame.c: sr_gdb_frame_cmp_distance", "lib/java_thread.c: sr_java_thread_cmp", "lib/java_stacktrace.c: sr_java_stacktrace_cmp"]}
{"id": "C31", "title": "Core stacktraces survive JSON", "statement": "Serialising a core stacktrace gives well-formed JSON; reading it back gives the same signal, executable, threads and frames and the crash thread mark, for values JSON can carry (integers below 2^63, no raw control characters, at least one thread, no empty threads). Outside: no threads gives malformed JSON, addresses >= 2^63 come back saturated, empty threads lose the crash mark.", "quantifier": "all core stacktraces", "why_tests_cant": "all nesting sizes and field combinations", "anchors": ["lib/core_stacktrace.c: sr_core_stacktrace_to_json, sr_core_stacktrace_from_json", "lib/core_thread.c: sr_core_thread_to_json, sr_core_thread_from_json", "lib/core_frame.c: sr_core_frame_to_json, sr_core_frame_from_json"]}
{"id": "C32", "title": "Python stacktraces survive JSON", "statement": "Serialise-then-read returns an equal Python stacktrace (lines below 2^31, no raw control characters, every frame has at least one field set); a completely empty frame serialises to malformed JSON.", "quantifier": "all Python stacktraces", "why_tests_cant": "all sizes and field combinations", "anchors": ["lib/python_frame.c: sr_python_frame_to_json, sr_python_frame_from_json", "lib/python_stacktrace.c: sr_python_stacktrace_to_json, sr_python_stacktrace_from_json"]}
{"id": "C33", "title": "Ruby stacktraces survive JSON", "statement": "Serialise-then-read returns an equal Ruby stacktrace under the same guards; empty frames are malformed JSON.", "quantifier": "all Ruby stacktraces", "why_tests_cant": "all sizes and field combinations", "anchors": ["lib/ruby_frame.c: sr_ruby_frame_to_json, sr_ruby_frame_from_json", "lib/ruby_stacktrace.c: sr_ruby_stacktrace_to_json, sr_ruby_stacktrace_from_json"]}
{"id": "C34", "title": "JavaScript stacktraces survive JSON", "statement": "Serialise-then-read returns an equal JavaScript stacktrace (numbers below 2^31, no raw control characters, no empty frames) when its platform is unknown or V8 on Node.js. Outside: a platform of which only the engine or only the runtime is known comes back with the two exchanged.", "quantifier": "all JavaScript stacktraces and platforms", "why_tests_cant": "all sizes and field combinations", "anchors": ["lib/js_frame.c: sr_js_frame_to_json, sr_js_frame_from_json", "lib/js_stacktrace.c: sr_js_stacktrace_to_json, sr_js_stacktrace_from_json", "lib/js_platform.c: sr_js_platform_to_json, sr_js_platform_from_json"]}
{"id": "C35", "title": "Java stacktraces survive JSON", "statement": "Serialise-then-read returns an equal Java stacktrace (threads, frames, exceptions); a line number without a file name is lost.", "quantifier": "all Java stacktraces", "why_tests_cant": "all sizes and field combinations", "anchors": ["lib/java_frame.c: sr_java_frame_to_json, sr_java_frame_from_json", "lib/java_thread.c: sr_java_thread_to_json, sr_java_thread_from_json", "lib/java_stacktrace.c: sr_java_stacktrace_to_json, sr_java_stacktrace_from_json"]}
{"id": "C36", "title": "Kernel oopses survive JSON", "statement": "Serialise-then-read returns an equal oops except for its reason: version, taint flags, module list, raw text and frames are preserved; reading more than 127 modules or a non-string module corrupts memory.", "quantifier": "all kernel oopses", "why_tests_cant": "all module counts and frame lists", "anchors": ["lib/koops_stacktrace.c: sr_koops_stacktrace_to_json, sr_koops_stacktrace_from_json", "lib/koops_frame.c: sr_koops_frame_to_json, sr_koops_frame_from_json"]}
{"id": "C37", "title": "Operating system and package records survive JSON", "statement": "Serialise-then-read preserves package lists (names, epoch, version, release, architecture, install time, role) and operating system records except the CPE, which is written but never read. Also: the consistency of a package is not written; the writer gives ' ]' for an empty list; reading a single package always reports success.", "quantifier": "all packages lists and OS records", "why_tests_cant": "all lists", "anchors": ["lib/rpm.c: sr_rpm_package_to_json, sr_rpm_package_from_json", "lib/operating_system.c: sr_operating_system_to_json, sr_operating_system_from_json"]}
{"id": "C38", "title": "Complete reports survive JSON", "statement": "A report serialises to well-formed JSON whose value contains every part, and reading it back gives the same version, reporter, OS, packages, type, component, serial, stacktrace and authentication entries in order. Not preserved: user flags, JavaScript stacktraces; a stacktrace serialising to {} makes the report malformed. Also: the reporter's name is not escaped; a report of a known type without stack trace, or with one of gdb, runs into NULL.", "quantifier": "all reports", "why_tests_cant": "all combinations of optional parts", "anchors": ["lib/report.c: sr_report_to_json, sr_report_from_json, problem_object_string, dismantle_object, sr_report_add_auth"]}
{"id": "C39", "title": "JSON readers are total and type-safe", "statement": "Reading any JSON value as any stacktrace type returns either an object all of whose fields have the right type or an error, never both; a missing key leaves the default; a wrong type is an error; nothing is ever undefined - except that a kernel oops whose module list has a non-string element or more than 127 elements corrupts memory.", "quantifier": "all JSON values", "why_tests_cant": "arbitrary attacker-supplied JSON", "anchors": ["lib/internal_utils.h: json_read_string, json_read_uint64, json_read_uint32, json_read_uint16, json_read_bool", "lib/json_utils.c: json_check_type"]}
{"id": "C40", "title": "Ruby backtrace parser is safe and inverts the Ruby format", "statement": "For every input the Ruby parser either fails leaving the cursor unchanged or succeeds consuming the whole text, never reading outside it; and for every well-formed trace (frames without backticks/quotes, message without tabs) parsing the formatted text returns exactly those frames and the exception name.", "quantifier": "all input texts; all well-formed traces", "why_tests_cant": "backwards scanning over arbitrary text", "anchors": ["lib/ruby_frame.c: sr_ruby_frame_parse", "lib/ruby_stacktrace.c: sr_ruby_stacktrace_parse"]}
{"id": "C41", "title": "JavaScript backtrace parser is safe and inverts the V8 format", "statement": "Same for V8 stack traces: no read outside the text; formatted frames (with and without function name, file names containing colons) parse back to themselves. Exception: a function name with a space is cut at the space.", "quantifier": "all input texts; all well-formed traces", "why_tests_cant": "backwards scanning over arbitrary text", "anchors": ["lib/js_frame.c: sr_js_frame_parse_v8, sr_js_frame_append_to_str", "lib/js_stacktrace.c: sr_js_stacktrace_parse_v8"]}
{"id": "C42", "title": "Python backtrace parser reads only its input and inverts the traceback format", "statement": "Parsing a formatted Python traceback returns its frames innermost first and the exception name; parsing never reads beyond the end of the text - which the code violates when the text ends where a frame could start.", "quantifier": "all input texts; all well-formed tracebacks", "why_tests_cant": "end-of-input alignments", "anchors": ["lib/python_frame.c: sr_python_frame_parse", "lib/python_stacktrace.c: sr_python_stacktrace_parse"]}
{"id": "C43", "title": "Java exception parser: cause chain ordering and safety", "statement": "For every Java exception text the parser never reads outside the text; the frames of an inner 'Caused by' exception come before those of the exception that wraps it, and formatted frames parse back to themselves. Exceptions: what the library itself writes for an exception with a cause is not read back; a suppressed exception of the outermost exception hides its cause; an empty message takes the first frame as message.", "quantifier": "all input texts; all cause chains", "why_tests_cant": "recursive structure of any depth", "anchors": ["lib/java_frame.c: sr_java_frame_parse_exception, sr_java_frame_parse, sr_java_frame_append_to_str", "lib/java_thread.c: sr_java_thread_parse"]}
{"id": "C44", "title": "gdb thread summary format round-trips", "statement": "Formatting a gdb thread as function/library lines and parsing it back gives the same function and library names for names without spaces and newlines. Exceptions: empty names are read back as something else.", "quantifier": "all threads", "why_tests_cant": "all lengths", "anchors": ["lib/gdb_thread.c: sr_gdb_thread_parse_funs, sr_gdb_thread_format_funs"]}
{"id": "C45", "title": "gdb frame headers parse back; parser stays inside the text", "statement": "The parsers of gdb frames (frame number, function name with templates and operators, call with its arguments, source file and line, whole header) accept exactly the documented texts, return what they say, and stay inside the text; a frame line '#1  0x1f in name (args) at file:2' parses back. The function-name parser does step past the end when the text ends right after an operator name, and the argument skipper when it ends with the opening parenthesis. A few C++ spellings (vtable, const, anonymous namespace after a type) are read as something else.", "quantifier": "all input texts", "why_tests_cant": "end-of-input alignments and operator names", "anchors": ["lib/gdb_frame.c: sr_gdb_frame_parse_frame_start, sr_gdb_frame_parse_function_name, sr_gdb_frame_parse_function_name_chunk, sr_gdb_frame_parseadd_operator, sr_gdb_frame_parse_header", "lib/gdb_sharedlib.c: sr_gdb_sharedlib_parse"]}
{"id": "C46", "title": "Kernel oops line parsing", "statement": "Formatted oops frames ('[<addr>] ? func+0x1/0x2 [mod]' with optional timestamp) parse back to the same frame; taint letters set exactly the corresponding flags; the module list of an oops is returned in order. Exceptions: a frame right after an instruction-pointer line is lost; unclosed or bare addresses are taken for frames.", "quantifier": "all frames, all taint strings, all module lists", "why_tests_cant": "all combinations", "anchors": ["lib/koops_frame.c: sr_koops_frame_parse, sr_koops_parse_function, sr_koops_parse_address, sr_koops_skip_timestamp", "lib/koops_stacktrace.c: sr_koops_stacktrace_parse_modules, parse_taint_flags"]}
{"id": "C47", "title": "NEVRA strings split correctly", "statement": "sr_rpm_package_parse_nevra/nvr recover name, epoch, version, release and architecture from name-[epoch:]version-release.arch for every name (dashes allowed) and every dash-free version and release; every accepted text splits back into pieces that reassemble to it; rejected texts produce no outputs - which fails for a bad epoch, where freed pointers are left behind and later freed again.", "quantifier": "all texts and all package tuples", "why_tests_cant": "separators may occur anywhere", "anchors": ["lib/rpm.c: sr_rpm_package_parse_nvr, sr_rpm_package_parse_nevra", "lib/abrt.c: sr_abrt_parse_dso_list"]}
{"id": "C48", "title": "Package sort and uniq keep every package exactly once", "statement": "Sorting returns a sorted permutation; uniq on it leaves no two mergeable neighbours, drops only packages merged into an equal-NEVR neighbour, and keeps the 'affected' role and a known architecture and install time if any merged duplicate had them. Exceptions: sorting an empty list reads outside its array; epochs 2^31 or more apart are ordered wrongly.", "quantifier": "all package lists", "why_tests_cant": "list contents and merges unbounded", "anchors": ["lib/rpm.c: sr_rpm_package_sort, sr_rpm_package_uniq, package_merge, sr_rpm_package_cmp_nevra"]}
{"id": "C49", "title": "DSO list parsing yields exactly the well-formed lines", "statement": "sr_abrt_parse_dso_list returns one package per well-formed line '<path> <nevra> (<vendor>) <time>' in order, skipping malformed lines, and never reads outside the text. Exceptions: a line with a bad epoch frees memory twice; a last line without newline is ignored.", "quantifier": "all texts", "why_tests_cant": "any number and mix of lines", "anchors": ["lib/abrt.c: sr_abrt_parse_dso_list"]}
{"id": "C50", "title": "Address lookups return the covering module", "statement": "Finding the shared library / unstrip entry / unwind entry for an address returns the first entry whose range contains it and nothing exactly if none does (barring address-space wrap-around).", "quantifier": "all address lists", "why_tests_cant": "all ranges including wrapping ones", "anchors": ["lib/gdb_sharedlib.c: sr_gdb_sharedlib_find_address", "lib/unstrip.c: sr_unstrip_find_address", "lib/elves.c: sr_elf_find_fde_for_address, sr_elf_find_fde_for_start_address"]}
{"id": "C51", "title": "Call graph extension computes the reachable functions", "statement": "Extending a call graph from a start address terminates and adds exactly the functions reachable from it through calls to addresses with unwind entries, each once; functions already present are untouched. The callee list contains every call target once - but its buffer is 7 bytes too small when all targets are distinct.", "quantifier": "all programs (call relations, cyclic ones included)", "why_tests_cant": "recursion over arbitrary graphs", "anchors": ["lib/callgraph.c: sr_callgraph_extend, sr_callgraph_find, sr_callgraph_last", "lib/disasm.c: sr_disasm_get_callee_addresses"]}
{"id": "C52", "title": "Copies are deep and equal", "statement": "Duplicating a frame, thread or stacktrace yields a structure equal in every field that shares no memory with the original, so later changes to one are invisible in the other; core stacktraces violate this for the crash-thread pointer.", "quantifier": "all structures and all later modifications", "why_tests_cant": "aliasing shows only after arbitrary later histories", "anchors": ["lib/core_stacktrace.c: sr_core_stacktrace_dup", "lib/gdb_stacktrace.c: sr_gdb_stacktrace_dup", "lib/core_thread.c: sr_core_thread_dup", "lib/java_thread.c: sr_java_thread_dup"]}
{"id": "C53", "title": "Converting a gdb stacktrace to a core stacktrace", "statement": "sr_core_stacktrace_create keeps one core thread per gdb thread and one core frame per gdb frame. The code dereferences NULL for every non-empty thread.", "quantifier": "all gdb stacktraces", "why_tests_cant": "all shapes", "anchors": ["lib/core_stacktrace.c: sr_core_stacktrace_create"]}
{"id": "C54", "title": "Short text shows the first frames", "statement": "sr_stacktrace_to_short_text(n) lists the crash thread's first n frames (all if n is 0), one line each numbered from 1 and never more than n lines. Exception: a JavaScript frame without file name and a core frame with neither function name nor build id pass NULL to the formatter.", "quantifier": "all stacktraces and n", "why_tests_cant": "all lengths", "anchors": ["lib/generic_stacktrace.c: sr_stacktrace_to_short_text"]}
{"id": "C55", "title": "Report type names round-trip and the right parser is chosen", "statement": "Every report type maps to a name that maps back to it; unknown names map to 'invalid'; abrt problem types map to the documented report type - except JavaScript, which is never recognised.", "quantifier": "all strings and types", "why_tests_cant": "all strings", "anchors": ["lib/report.c: sr_report_type_from_string, sr_report_type_to_string", "lib/abrt.c: sr_abrt_type_from_type"]}
{"id": "C56", "title": "System release parsing", "statement": "Parsing '<Name> release <version> ...' returns the lower-cased name ('rhel' for RHEL) and the leading dotted number of the version, or the entire rest when it does not start with a digit or dot.", "quantifier": "all release strings", "why_tests_cant": "all strings", "anchors": ["lib/operating_system.c: sr_operating_system_parse_etc_system_release, sr_operating_system_parse_etc_os_release"]}
{"id": "C57", "title": "Freeing releases a structure's memory exactly once", "statement": "Freeing a frame, thread, library or stacktrace releases every piece of memory the structure owns, each once, and touches no other memory; copying a structure and freeing the copy leaves no memory behind and leaves the original usable.", "quantifier": "all structures of every type, of any size, in any memory state", "why_tests_cant": "leaks and double frees depend on which optional parts are present and on lists of any length", "anchors": ["lib/gdb_stacktrace.c: sr_gdb_stacktrace_free", "lib/core_frame.c: sr_core_frame_free", "lib/koops_stacktrace.c: sr_koops_stacktrace_free", "lib/java_thread.c: sr_java_thread_free"]}
{"id": "C58", "title": "Metadata of a problem directory is read as documented", "statement": "The packages read from a problem directory are the crashed program's package (marked affected), the packages of dso_list merged with it and the interpreter's package; merging loses none of them and keeps the mark. The desktop is the value of DESKTOP_SESSION, the number of occurrences the whole number in 'count', the component the named one or the program's file name with '-unpackaged', and the operating system is taken from os_info, else os_release. Reading fails only for missing or malformed files. Exceptions: the interpreter's package is not merged and can be listed twice, with a bad epoch its memory is freed twice; a variable whose name ends in DESKTOP_SESSION can hide it; a count of 0 can be rejected.", "quantifier": "all directories, with any set of files and any contents", "why_tests_cant": "every combination of files and texts", "anchors": ["lib/abrt.c: sr_abrt_rpm_packages_from_dir, sr_abrt_operating_system_from_dir, desktop_from_dir, get_component"]}
{"id": "C59", "title": "The output of eu-unstrip is parsed line by line", "statement": "Parsing the output of eu-unstrip never reads outside the text, whatever the text is. For well-formed output (lines '0xSTART+0xSIZE BUILDID[@ADDR] FILE DEBUGFILE MODULE') the result has exactly one entry per line, in order, with that line's start address, size, build id and file names; lines that do not start with an address range give no entry and do not affect the others. Exception: a line that lacks fields takes them from the following line.", "quantifier": "all texts; for the contents all lists of well-formed and foreign lines", "why_tests_cant": "unbounded texts and arbitrary malformed lines", "anchors": ["lib/unstrip.c: sr_unstrip_parse"]}
{"id": "C60", "title": "The one-line reason names the right frame", "statement": "The reason of a stack trace is the documented sentence for its type: the executable and signal for a core dump; the exception and the file and line of the innermost recorded frame position used by each language (Python: the last frame of the list, Ruby and JavaScript: the first, Java: the first named exception and the last frame); for a kernel oops the first frame left after normalization, its module and the reason text, with page faults and protection faults reworded. It is defined for every stack trace whose decisive frame has a file name. A gdb stack trace has none. The reason text of an oops is lost when it is written to JSON and read back.", "quantifier": "all stack traces of the seven types", "why_tests_cant": "unbounded frame lists, arbitrary names and missing members", "anchors": ["lib/generic_stacktrace.c: sr_stacktrace_get_reason", "lib/koops_stacktrace.c: sr_koops_stacktrace_get_reason", "lib/java_stacktrace.c: sr_java_stacktrace_get_reason", "lib/python_stacktrace.c: sr_python_stacktrace_get_reason", "lib/ruby_stacktrace.c: sr_ruby_stacktrace_get_reason", "lib/js_stacktrace.c: sr_js_stacktrace_get_reason", "lib/core_stacktrace.c: sr_core_stacktrace_get_reason"]}
{"id": "C61", "title": "gdb threads and stack traces are read completely and in order", "statement": "Parsing a gdb stack trace returns exactly the crash frame before the first thread and the threads, each with its number, its LWP and all of its frames in their order; a trace in the usual form with any number of threads and frames is read back in full. The texts that make the parser step outside of its input are exactly those in which a frame's text ends after an operator name or an opening parenthesis. Exceptions to 'all frames': a newline and '#' inside a string argument ends the thread; in a trace without thread titles frame 0 is only the crash frame; a quoted thread name ends the trace.", "quantifier": "all input texts; all lists of threads and frames", "why_tests_cant": "unbounded numbers of threads and frames, and every way a text can end", "anchors": ["lib/gdb_thread.c: sr_gdb_thread_parse, sr_gdb_thread_parse_lwp", "lib/gdb_stacktrace.c: sr_gdb_stacktrace_parse, sr_gdb_stacktrace_parse_header", "lib/gdb_frame.c: sr_gdb_frame_parse"]}
{"id": "C62", "title": "Shared libraries of a gdb stack trace; the whole gdb parser", "statement": "The libraries returned with a gdb stack trace are exactly those listed in the first section 'From To Syms Read Shared Object Library' of the text, in order, with addresses, symbol status and file name; parsing a whole trace returns exactly its crash frame, threads and libraries. The texts that lead outside of the input are those that end with a library name and no newline, and those of C61. Exceptions: a line starting with 'No' or 'Yes' after the list is taken for a library; a library without name takes the next line as its name.", "quantifier": "all input texts; all lists of libraries", "why_tests_cant": "unbounded lists and every way a text can end", "anchors": ["lib/gdb_sharedlib.c: sr_gdb_sharedlib_parse, find_sharedlib_section_start", "lib/gdb_stacktrace.c: sr_gdb_stacktrace_parse"]}
{"id": "C63", "title": "Unwind tables are read entry by entry with the right addresses", "statement": "Reading the unwind table (.eh_frame) of an ELF file returns one record for each frame description entry, in the order of the section, with the start address and the length the entry encodes under the pointer encoding its common information entry announces; start address plus executable base is the address of the function in memory; nothing outside of the section is read; the JSON of the table lists exactly these numbers. Exceptions: the memory address is wrong for relative entries when the executable segment does not start at file offset 0; 64-bit entries are recorded four bytes off; a cut-off entry is read beyond the section; an empty table gives ' ]'.", "quantifier": "all files: all section tables, segments, augmentation strings and data, entries and section contents that libelf and libdw can report", "why_tests_cant": "every encoding, augmentation string, entry order and truncation; tests have one or two binaries", "anchors": ["lib/elves.c: sr_elf_get_eh_frame, read_cie, encoded_size, fde_read_address, find_elf_section_by_name, sr_elf_fde_to_json"]}
{"id": "C64", "title": "The procedure linkage table names the function of every slot", "statement": "Reading the procedure linkage table of an ELF file returns one entry for each slot but the first, in order, with the address of the slot and the name of the symbol whose relocation the slot uses; addresses are distinct, so looking up an address gives the one entry of that slot or nothing; nothing outside of the section is read. Exception: a table whose size leaves a remainder of 1 to 10 bytes is read beyond its end.", "quantifier": "all files that libelf can report, with tables of any size", "why_tests_cant": "unbounded tables, every layout of sections, relocations and symbols", "anchors": ["lib/elves.c: sr_elf_get_procedure_linkage_table, sr_elf_plt_find_for_address"]}
{"id": "C65", "title": "Stack traces of core dumps keep the right frames of every thread", "statement": "The stack trace made from a core dump or a dying process has one thread for each thread reported, in order; each thread has exactly the reported frames above __libc_start_main, in order, and of more than 256 exactly the outermost 256; each frame has the address, the build ID and file of the module holding the code, the offset into it, and the demangled name of the function; for return addresses the function is that of the call. The signal is that of the first process status note with one. An error is reported whenever unwinding cannot start or a frame is not readable, and then there is no stack trace. Exceptions: failing to attach to a dying process returns an empty trace together with the error; frames from gdb can exceed 256 when signal handler frames are among the dropped ones; libunwind runs into NULL when a thread cannot be set up.", "quantifier": "all core dumps and processes: all module maps, threads, frames, notes and results that elfutils or libunwind can report", "why_tests_cant": "unbounded numbers of threads, frames, segments and notes; results of libraries that no recorded core dump shows", "anchors": ["lib/core_unwind.c: resolve_frame, get_signal_number, sr_core_stacktrace_from_gdb", "lib/core_unwind_elfutils.c: frame_callback, truncate_long_thread, unwind_thread, sr_parse_coredump, sr_core_stacktrace_from_core_hook_generate", "lib/core_unwind_libunwind.c: unwind_thread, sr_parse_coredump"]}
{"id": "C66", "title": "Whole files are read and written completely or an error is reported", "statement": "sr_file_to_string returns the text of a file (up to its first NUL byte) exactly when the file can be opened, has at most 20000000 bytes and can be read completely; otherwise it returns NULL, never a part of the text. sr_string_to_file returns true exactly when every call succeeded and every byte was taken, and then the file holds exactly the text, which sr_file_to_string reads back; wherever it is interrupted the file is unchanged or holds a leading part of the new text. Exceptions: a failed or interrupted write loses the old text; texts above the limit can be written but not read; of a file that grows meanwhile, or reports size 0, only the first part is read.", "quantifier": "all texts, previous contents, results of the system calls and interruption points", "why_tests_cant": "short reads and writes, failing calls and crashes between two calls cannot be provoked in a unit test", "anchors": ["lib/utils.c: sr_file_to_string, sr_string_to_file"]}
{"id": "C67", "title": "A problem directory gives exactly the report it describes, and the core stack trace written to it is the one read back", "statement": "sr_abrt_report_from_dir returns a report exactly when the directory has a type, a readable operating system, packages, an occurrence count that is a 32-bit number and a stack trace of its type, and then every member of the report is the one the files give; it is memory-safe up to the faults C42 and C47 name, the report can be printed exactly when C54 says so, and a missing report comes with a message. sr_abrt_create_core_stacktrace(_from_gdb) writes exactly the JSON text of the directory's core dump with kernel frames named, and the report made from the directory afterwards holds that very stack trace. Exceptions: an unpackaged program with an empty dso_list gives no report and no message; a message can be set although a report is returned; unknown types give a report of type invalid without a stack trace; a dump without threads is written as malformed JSON; a process that cannot be attached to gives the text of an empty stack trace.", "quantifier": "all directories, core dumps, JSON libraries that read JSON, sorting functions and results of the system calls", "why_tests_cant": "the combinations of present, missing, unreadable and odd files, and of core dumps, are unbounded", "anchors": ["lib/abrt.c: sr_abrt_report_from_dir, sr_abrt_create_core_stacktrace, sr_abrt_create_core_stacktrace_from_gdb, sr_abrt_get_core_stacktrace_from_core_hook_generate, sr_abrt_print_report_from_dir", "lib/report.c: sr_report_from_json_text", "lib/core_stacktrace.c: sr_core_stacktrace_from_json_text", "lib/js_platform.c: sr_js_platform_from_string, sr_js_platform_parse_stacktrace"]}
{"id": "C68", "title": "Lists, packages and reports in memory are joined, sorted, merged and freed without losing, copying or leaking an entry", "statement": "Appending gives the entries of both lists in order and changes only the last link; counting returns the number of entries; keeping one thread of a gdb stack trace makes it the only one and releases exactly the others; freeing packages releases each package, string and consistency record once and nothing else; sorting packages relinks the same entries in ascending order; merging neighbours leaves the list C48 describes in memory and releases every cell that no longer belongs to it; freeing a report releases exactly what it owns; adding a custom entry puts copies of key and value first and changes nothing else. Exceptions: a list appended to itself never ends; sorting no packages and keeping the thread NULL crash; the reporter's name of a report read from JSON is never released.", "quantifier": "all memories, lists of any length and structure, package lists with epochs below 2^31 (for sorting), reports with any parts missing, and every sorting function that meets the C standard", "why_tests_cant": "the number of list shapes and of memory layouts is unbounded; leaks and double frees of rare shapes go unnoticed", "anchors": ["lib/rpm.c: sr_rpm_package_free, sr_rpm_package_append, sr_rpm_package_count, sr_rpm_package_sort, sr_rpm_package_uniq, package_merge, sr_rpm_consistency_free", "lib/report.c: sr_report_free, sr_report_add_auth", "lib/operating_system.c: sr_operating_system_free", "lib/gdb_stacktrace.c: sr_gdb_stacktrace_remove_threads_except_one, sr_gdb_stacktrace_get_thread_count", "lib/core_frame.c: sr_core_frame_append and the other append functions", "lib/koops_frame.c: sr_koops_frame_prepend"]}
{"id": "C69", "title": "The lists of Python objects and the C lists they stand for agree whenever the library is called", "statement": "Before a method of a thread, stack trace or report object calls the library, the C structure is made to hold exactly the frames, threads, shared libraries or packages of its Python lists, in their order: only links are written and no reference count changes. An item of a wrong type raises an exception instead. Wrapping a C list gives a new list with one new object for each structure, in order, and leaves the memory alone; wrapping and linking again gives the same structure. dup makes a new object around an equal structure in cells of its own and leaves the original as it was. The crash thread is the object that wraps the thread the library found. Distances are computed from the threads in the list given, in its order. Exceptions: after an empty list is assigned the C structure still points to its old frames, which have been freed; an object that occurs twice in a list, or in the lists of two threads, loses frames.", "quantifier": "all Python heaps and memories in which the objects of the lists wrap separate structures, lists of any length, every kind of stack trace, and every function that picks a crash thread", "why_tests_cant": "the lists may have any length and have been edited in any way between calls; the links left over from an earlier state only matter for particular histories", "anchors": ["python/py_base_thread.c: frames_prepare_linked_list, frames_to_python_list", "python/py_core_thread.c: sr_py_core_thread_dup and the other dup functions", "python/py_base_stacktrace.c: threads_prepare_linked_list, threads_to_python_list, sr_py_multi_stacktrace_get_crash", "python/py_gdb_stacktrace.c: gdb_prepare_linked_lists, sr_py_gdb_stacktrace_dup", "python/py_report.c: rpms_prepare_linked_list", "python/py_metrics.c: prepare_thread_array"]}
{"id": "C70", "title": "Destroying a Python object frees its C structures once and leaves those still in use", "statement": "When the last reference to a thread or stack trace object goes, its own memory is freed exactly once, every object in its lists loses one reference, those that nobody else refers to are destroyed with their memory, and every other object and structure is untouched. Exceptions: objects made by wrapping a C list keep a reference that nobody owns and are never destroyed; a list of threads with an item of another type destroys a thread that is still in the list; limit_frame_depth frees frames twice, or leaves kept frame objects around freed memory, or crashes when there are no threads; find_crash_frame leaves the stack trace with a borrowed reference and breaks dup.", "quantifier": "all Python heaps and memories with any number of threads and frames, each frame object with any number of references", "why_tests_cant": "leaks, double frees and dangling references show only for particular reference counts and orders of release", "anchors": ["python/py_core_thread.c: sr_py_core_thread_free and the other free functions", "python/py_base_stacktrace.c: threads_prepare_linked_list, threads_to_python_list", "python/py_base_thread.c: frames_to_python_list", "python/py_core_stacktrace.c: sr_py_core_stacktrace_free", "python/py_gdb_stacktrace.c: sr_py_gdb_stacktrace_limit_frame_depth, sr_py_gdb_stacktrace_find_crash_frame, sr_py_gdb_stacktrace_dup"]}
{"id": "C71", "title": "The attributes of Python objects show and store exactly the members of the C structures", "statement": "Every object has exactly its documented attributes. Reading one gives what the C structure holds: strings decoded from UTF-8 (None for NULL, an exception for invalid UTF-8), numbers, flags, and None for an address that is not known. Assigning a value that the attribute can hold makes the attribute show that value, leaves every other attribute and all other memory alone, and frees the old string exactly once. A value of the wrong type or outside the range of a 16-bit number or enumeration, a negative number, a string with surrogates, and deletion raise an exception and change nothing. The type of a report is read and assigned by name, its version is read-only. Exceptions: numbers above 2^32-1 are accepted for 32-bit members and wrap, addresses outside 0..2^64-1 wrap and 2^64-1 reads back as None, strings are cut at a NUL, a flag whose truth raises an exception is set, and assigning to reporter_name or reporter_version of a new report frees a string constant.", "quantifier": "all structures in memory, all attributes of all types of objects, all Python values and strings", "why_tests_cant": "the tables of names, types and offsets are written by hand for every type, and values range over all strings and integers; an offset or type that is wrong shows only in another member's value", "anchors": ["python/py_common.c: sr_py_getter_string, sr_py_setter_string and the other getters and setters", "python/py_common.h: SR_ATTRIBUTE_STRING", "python/py_core_frame.c: frame_getset and the other tables", "python/py_gdb_sharedlib.c: sr_py_gdb_sharedlib_set_symbols", "python/py_rpm_package.c: sr_py_rpm_package_set_role", "python/py_report.c: sr_py_report_set_type, sr_py_report_get_version"]}
{"id": "C72", "title": "Distances, parts of them and dendrograms behave in Python as in the library, and a spread computation merges to the same object", "statement": "Distances(threads, m, type) of 2 to 46340 threads of one type holds the distance of every pair of its rows and columns; other arguments raise the documented exception. After any sequence of set_distance calls with any numbers each call raised exactly what it should, refused calls changed nothing and get_distance gives the last value set. Splitting with DistancesPart.create, pickling the parts, computing them elsewhere, pickling the results and merging them in any order gives an object equal to Distances(threads, m, type); a merge that returns has checked that all parts are computed and agree. A dendrogram of such an object lists every thread once, get_object and get_merge_level give its entries and cut its maximal runs. Exceptions: get_merge_level lets two indices past the end through and reads behind the array, get_distance refuses half of the pairs it holds, a merge with parts missing or an object listed twice returns uninitialised pairs, an empty list raises SystemError, zero parts divide by zero, a pickle with a longer list overflows the buffer, unset pairs are uninitialised memory.", "quantifier": "all lists of threads and comparison functions, all arguments, all sequences of calls, all numbers and orders of parts, all previous links between part objects", "why_tests_cant": "indices, sizes, numbers of parts and orders of merging are unbounded, and reads of uninitialised memory usually give plausible values", "anchors": ["python/py_metrics.c: sr_py_distances_new, sr_py_distances_get_distance, sr_py_distances_set_distance, sr_py_distances_merge_parts", "python/py_metrics.c: sr_py_distances_part_new, sr_py_distances_part_reduce, sr_py_distances_part_create, sr_py_distances_part_compute", "python/py_cluster.c: sr_py_dendrogram_new, sr_py_dendrogram_get_object, sr_py_dendrogram_get_merge_level, sr_py_dendrogram_cut"]}
{"id": "C73", "title": "The command line program prints, writes and returns what its commands promise", "statement": "For every argument vector the program prints exactly the documented text, says what is wrong on the standard error output and returns 0 exactly when nothing is wrong. abrt-print-report-from-dir prints the JSON of the report the directory describes (C67). abrt-create-core-stacktrace writes core_backtrace exactly when the stack trace is made, and whatever fails the file is unchanged or holds a leading part of the text. debug normalize prints the names of the functions left by normalization, each prefix dropped and recursion written once. debug duphash prints the hashed text and the hash of the first three frames of the crash thread, and is memory-safe exactly when the parser is. debug unwind-from-hook reads its numbers as strtoul does and writes one file. Exceptions: abrt-report-dir says that it is not implemented and returns 0; a directory with an empty list of packages makes the program print an uninitialised pointer; debug normalize keeps a space before the name of a library, does not use it as the file of the function so that frames of libc stay, and a line without a space swallows the next line; an empty or too big number is accepted.", "quantifier": "all argument vectors, all directories and contents of files, all results of the library calls, of reading and of writing, all core dumps", "why_tests_cant": "argument vectors, directories and files are unbounded, failed writes can stop anywhere, and reading an uninitialised pointer need not crash a test", "anchors": ["satyr.c: main, short_usage_and_exit, help, usage, version, abrt_print_report_from_dir, abrt_report_dir, abrt_create_core_stacktrace, debug_normalize, debug_duphash, debug_unwind_from_hook, debug"]}
{"id": "C74", "title": "A report object in Python prints the report its attributes show", "statement": "to_json of a report object gives the C report exactly the packages of the list in order, the operating system and the stack trace that the attributes show (None: none) and returns the printed text decoded; nothing else in memory changes. An operating system or stack trace of a wrong type raises an exception. A report in memory becomes new objects for each part, and printing it unchanged prints the same report. Report() makes an empty report with an empty operating system. Releasing a report object releases each attribute and frees exactly the report, its component's name and its custom entries. auth is the dictionary of the custom entries and str() names type and component. Exceptions: a report of a type that Python has no stack traces for (JavaScript, gdb) loses its stack trace, which is never freed; changes to the frames of the stack trace object are not printed; a deleted attribute makes printing and releasing read a null pointer; adding an entry with a key that exists does not change auth.", "quantifier": "all report objects, attributes, packages, stack traces, custom entries, types and printing functions", "why_tests_cant": "programs assign any objects to the attributes in any order and share them; the number of packages and entries and the history of references are unbounded", "anchors": ["python/py_report.c: report_prepare_subobjects, stacktrace_prepare, report_to_python_obj, sr_py_report_new, sr_py_report_free, sr_py_report_to_json, sr_py_report_get_auth, sr_py_report_str", "python/py_core_stacktrace.c: core_stacktrace_to_python_obj"]}
{"id": "C75", "title": "Comparing, hashing and printing Python objects works on what their lists show", "statement": "In Python, short_string of a frame is the text the library prints; equals of frames holds exactly for frames of one type that agree in what the type compares. equals of two core or gdb threads with separate frames holds exactly if their frame lists have the same length and agree item by item; distance, get_duphash, get_bthash, to_short_text, quality_simple and quality_complex are the library's functions of the threads, frames and libraries shown by the Python lists at that moment; find_address gives the first library of the list that contains the address. Only the links of the lists change in memory; other objects, foreign frames, unknown distances and numbers out of range raise exceptions; text that is not UTF-8 raises an exception. Exceptions: equals of single-threaded stack traces and short_string of gdb frames fail an assertion; equals with a foreign frame returns False and leaves an exception; threads sharing a frame object compare wrongly; java threads ignore all but the first frame; get_bthash of a gdb stack trace ignores the libs list and reads freed memory after another list is assigned, as does to_short_text of a core stack trace whose crash thread went away; to_short_text without a crash thread returns NULL without an exception.", "quantifier": "all object graphs, memory states, frames, threads, stack traces, numbers of frames, flags, prefixes, hash functions and addresses", "why_tests_cant": "the methods relink C lists from Python lists of any length, shared or foreign items included; object graphs and histories are unbounded", "anchors": ["python/py_base_frame.c: sr_py_base_frame_short_string, sr_py_base_frame_cmp, sr_py_base_frame_equals", "python/py_base_thread.c: sr_py_base_thread_cmp, sr_py_base_thread_equals, sr_py_base_thread_distance, sr_py_base_thread_get_duphash", "python/py_base_stacktrace.c: sr_py_single_stacktrace_get_bthash, sr_py_multi_stacktrace_get_bthash, sr_py_single_stacktrace_to_short_text, sr_py_multi_stacktrace_to_short_text", "python/py_gdb_stacktrace.c: sr_py_gdb_stacktrace_quality_simple, sr_py_gdb_stacktrace_quality_complex, sr_py_gdb_stacktrace_find_address", "lib/generic_thread.c: sr_thread_cmp"]}
{"id": "C76", "title": "Unwinding gives back every file and handle it opened", "statement": "Opening a core dump succeeds exactly if the file opens, is a core dump and has a module with an ELF file and a name; then one file, one Elf handle, one Dwfl handle and the memory of the result are new, and releasing it restores the process as it was. Unwinding a core dump, whichever call fails, leaves the same files and handles open as before; only the memory of the stack trace, or of the error message, is new, and a caller that asks for a message gets one exactly if the result is NULL. So any number of core dumps can be unwound one after the other. Unwinding a dying process ends its Dwfl handle on every path. The same holds through gdb and libunwind for callers that ask for a message. Nothing is closed, ended or freed twice, or while in use. Exceptions: a core dump opened as descriptor 0 stays open; memory of modules is lost if dwfl_getmodules fails after some; preparing that fails after seizing leaves the process traced and standard input closed; libunwind without a place for the message reads a null pointer.", "quantifier": "all answers of the kernel, libelf, libdwfl and libunwind, all core dumps, all lists of core dumps, all states of the process before", "why_tests_cant": "each failing call takes another path through the releases, combined with any number of modules, threads and frames and any state of the process; leaks show only over long histories", "anchors": ["lib/core_unwind.c: open_coredump, core_handle_free, touch_module, sr_core_stacktrace_from_gdb", "lib/core_unwind_elfutils.c: sr_parse_coredump, sr_core_stacktrace_from_core_hook_prepare, sr_core_stacktrace_from_core_hook_generate, unwind_thread, truncate_long_thread", "lib/core_unwind_libunwind.c: sr_parse_coredump"]}
{"id": "C77", "title": "Creating Python objects from texts", "statement": "A frame, thread or stack trace class called with a text that its parser accepts, or from_json called with a JSON text that its reader accepts, returns a new object with one reference. It wraps a new structure of exactly the values that were read, with a new list of new objects for its frames, or for its threads and their frames; the crash thread of a core stack trace is the one the text names. Called without a text, the classes give blank structures. No object or memory that existed before changes, every new cell of memory belongs to the new structure, and what from_json created on the way is freed. Any other text raises ValueError; for Java, Ruby and JavaScript texts, and for JSON texts except kernel oopses with modules, there is no third case. Exceptions: a failed frame, thread or gdb stack trace constructor, and a failed from_json, leave an object behind; from_json always fails for gdb; the constructor of kernel oops frames returns an object without a structure when the text is no frame; core frames and threads ignore their argument.", "quantifier": "all classes, all texts, all JSON libraries, all states of the interpreter and of memory before", "why_tests_cant": "texts and the sizes of what they describe are unbounded, and unchanged memory and the absence of leaks concern every other object in any state", "anchors": ["python/py_core_frame.c: sr_py_core_frame_new", "python/py_gdb_frame.c: sr_py_gdb_frame_new", "python/py_java_frame.c: sr_py_java_frame_new", "python/py_python_frame.c: sr_py_python_frame_new", "python/py_ruby_frame.c: sr_py_ruby_frame_new", "python/py_js_frame.c: sr_py_js_frame_new", "python/py_koops_frame.c: sr_py_koops_frame_new", "python/py_gdb_thread.c: sr_py_gdb_thread_new", "python/py_java_thread.c: sr_py_java_thread_new", "python/py_core_stacktrace.c: sr_py_core_stacktrace_new", "python/py_gdb_stacktrace.c: sr_py_gdb_stacktrace_new", "python/py_base_stacktrace.c: sr_py_single_stacktrace_from_json, sr_py_multi_stacktrace_from_json"]}
{"id": "C78", "title": "str() of Python objects", "statement": "str() of a frame, thread, stack trace, package, operating system or shared library changes nothing and returns the documented text of its members: names and numbers in a fixed order, each left out when it is missing or zero, addresses in sixteen hexadecimal digits; a text that is not UTF-8 raises UnicodeDecodeError. Threads and stack traces show how many items their list has. The text of a JavaScript frame, of a Ruby frame with a line number and of a Java frame with a source can be given back to the constructor, which makes an equal frame; the text of a package with all its members is read by the parser of package names. Exceptions: line numbers and block levels from 2^31 up appear as negative numbers; the texts of Python frames, of kernel oops frames with an address and of Ruby frames without a line number are refused by the constructors, and that of a Java frame without a source is read as another frame; a thread whose list was replaced by something else returns a text with an exception set, and one whose list was deleted reads through NULL.", "quantifier": "all objects, all values of their members, all states of the interpreter and of memory", "why_tests_cant": "names, numbers and lists are unbounded, and reading a text back must work for every frame", "anchors": ["python/py_core_frame.c: sr_py_core_frame_str", "python/py_gdb_frame.c: sr_py_gdb_frame_str", "python/py_java_frame.c: sr_py_java_frame_str", "python/py_js_frame.c: sr_py_js_frame_str", "python/py_koops_frame.c: sr_py_koops_frame_str", "python/py_python_frame.c: sr_py_python_frame_str", "python/py_ruby_frame.c: sr_py_ruby_frame_str", "python/py_gdb_thread.c: sr_py_gdb_thread_str", "python/py_java_thread.c: sr_py_java_thread_str", "python/py_core_thread.c: sr_py_core_thread_str", "python/py_core_stacktrace.c: sr_py_core_stacktrace_str", "python/py_gdb_stacktrace.c: sr_py_gdb_stacktrace_str", "python/py_rpm_package.c: sr_py_rpm_package_str", "python/py_operating_system.c: sr_py_operating_system_str", "python/py_gdb_sharedlib.c: sr_py_gdb_sharedlib_str"]}
{"id": "C79", "title": "Methods particular to a Python type", "statement": "normalize() of a kernel oops drops and renames frames exactly as the library's normalization does, taking the frames of its Python list as they are; the object gets a new list, the old list loses one reference, frame objects held elsewhere keep their frames, everything else is unchanged and no memory is lost or used twice. dup() of a frame makes an independent equal frame. quality_counts() and quality() of gdb and java threads rate the frames of the Python list; with something else in the list these methods raise TypeError. calls_func_in_file() says whether the function has the name and the file name contains the other; the modules and taint flags of an oops show its members; the crash thread of a single-threaded stack trace is the object itself. Exceptions: calls_func() of a gdb frame is always 0; modules with a name that is not UTF-8 return a list with an exception set; format_funs() of gdb and java threads does not look at the Python list, so it shows frames that were replaced, or reads freed memory.", "quantifier": "all objects, frames, lists and reference counts, all states of the interpreter and of memory", "why_tests_cant": "lists, names and sharing of objects are unbounded; leaks and use of freed memory do not show in results", "anchors": ["python/py_koops_stacktrace.c: sr_py_koops_stacktrace_normalize, sr_py_koops_stacktrace_get_modules, sr_py_koops_stacktrace_get_taint_flags", "lib/koops_stacktrace.c: sr_normalize_koops_stacktrace", "python/py_gdb_frame.c: sr_py_gdb_frame_calls_func, sr_py_gdb_frame_calls_func_in_file, sr_py_gdb_frame_dup", "python/py_gdb_thread.c: sr_py_gdb_thread_quality_counts, sr_py_gdb_thread_quality, sr_py_gdb_thread_format_funs", "python/py_java_thread.c: sr_py_java_thread_quality_counts, sr_py_java_thread_quality, sr_py_java_thread_format_funs", "python/py_base_stacktrace.c: sr_py_single_stacktrace_get_crash"]}
{"id": "C80", "title": "Methods of a gdb stack trace that rebuild its threads", "statement": "to_short_text(), set_libnames() and normalize() of a gdb stack trace in Python work on whatever threads, frames and libraries the Python lists contain. The result is the library's: the text; every frame in a library named after it and all else kept; the normalized stack trace. Afterwards the object has a new list of new threads that say what the result says, in memory of its own. The old list loses one reference: thread and frame objects that somebody else still refers to remain usable and keep what they had (set_libnames names them as well), the others are gone with their memory, and nothing else changes. Without a crash thread to_short_text raises LookupError. Exceptions: set_libnames of a stack trace without threads, or with a library that contains an address and has no name, crashes; normalize loses the memory of the crash frame.", "quantifier": "all stack traces, lists, numbers of references and states of the interpreter and of memory; every library function in the place of normalization", "why_tests_cant": "threads, frames and the ways objects can be shared are unbounded; leaks and use of freed memory do not show in results", "anchors": ["python/py_gdb_stacktrace.c: sr_py_gdb_stacktrace_to_short_text, sr_py_gdb_stacktrace_set_libnames, sr_py_gdb_stacktrace_normalize, stacktrace_rebuild_thread_python_list", "lib/gdb_stacktrace.c: sr_gdb_stacktrace_set_libnames", "lib/gdb_thread.c: sr_gdb_thread_set_libnames", "lib/gdb_sharedlib.c: sr_gdb_sharedlib_find_address"]}
{"id": "C81", "title": "Looking packages up in the RPM database", "statement": "sr_rpm_package_get_by_name and sr_rpm_package_get_by_path ask the database for the whole key and return one package per header found, in the database's order, with the header's name, epoch, version, release, architecture and installation time. No header: NULL without a message. A header that lacks a member: NULL, a message that names the first missing member, and all packages found so far freed. No configuration, or no librpm: NULL and a message. The packages or the message own all the memory the call leaves behind; the transaction set and the iterator are always released, the iterator first. Exceptions: a package without an epoch, which most are, makes the lookup fail; the container for a tag the header does not have is not released.", "quantifier": "all databases and answers of librpm, keys and states of memory", "why_tests_cant": "the answers of a database, and where in them a member is missing, are unbounded; leaks do not show in results", "anchors": ["lib/rpm.c: sr_rpm_package_get_by_name, sr_rpm_package_get_by_path, header_to_rpm_info, header_get_string, header_get_uint32", "include/rpm.h: sr_rpm_package_get_by_name, sr_rpm_package_get_by_path"]}
{"id": "C82", "title": "Where and why a text is refused", "statement": "sr_stacktrace_parse of a JavaScript or Ruby text either returns the stack trace the text is, or NULL and an error of the form 'Line L, column C: reason'. For JavaScript, L and C are the true position of the place up to which the text is sound and where it goes wrong, and the V8 parser's reason is true of what stands before and after that place. For Ruby the reason is true of what was read and what follows, the line is the true one when frames and message take one line each, and the column differs from the true one by a known number. A frame that is read moves the location to its end. Exceptions: a JavaScript trace without frames is told two columns short; sr_js_stacktrace_parse replaces every reason by one sentence; in Ruby a column can be negative, 'block in ' is counted one short, and a message of several lines is counted as one.", "quantifier": "all texts, and for single frames all locations at the start", "why_tests_cant": "texts can go wrong in unboundedly many places; tests look at the result and hardly at the location", "anchors": ["lib/location.c: sr_location_init, sr_location_add, sr_location_to_string", "lib/js_frame.c: sr_js_frame_parse_v8, sr_js_frame_parse", "lib/js_stacktrace.c: sr_js_stacktrace_parse_v8, sr_js_stacktrace_parse", "lib/ruby_frame.c: sr_ruby_frame_parse", "lib/ruby_stacktrace.c: sr_ruby_stacktrace_parse", "lib/generic_stacktrace.c: stacktrace_parse_wrapper"]}
{"id": "C83", "title": "Ruby objects behave as values", "statement": "In Ruby, Satyr::Report.new(text), Report#stacktrace, Stacktrace#find_crash_thread and Thread#duphash give what the library gives for the same text, whatever other objects exist and whatever the garbage collector collects in between: an object keeps its value until it is collected, no C structure is used after it has been freed or freed twice, and once all objects are collected no memory is in use. Only four exceptions are raised. The structure Ruby reads a report through has its members where the C compiler puts them. Exceptions: the crash thread of a core stack trace that names it is used after it is freed when the report was collected first; a report that comes with a message is lost; stack traces of Ruby and JavaScript reports cannot be had.", "quantifier": "all histories of method calls and collections, all JSON texts and options; sizes and alignments of C types", "why_tests_cant": "when the garbage collector runs is not in the hands of a test; the order of collections and calls is unbounded", "anchors": ["ruby/lib/satyr.rb: Report, Stacktrace, Thread, ReportStruct, StacktraceStruct, ThreadStruct", "lib/report.c: sr_report_from_json_text, sr_report_free", "lib/core_stacktrace.c: sr_core_stacktrace_dup", "lib/generic_stacktrace.c: sr_stacktrace_find_crash_thread, sr_stacktrace_free", "lib/generic_thread.c: sr_thread_dup, sr_thread_get_duphash, sr_thread_free", "include/report.h: struct sr_report"]}
{"id": "C84", "title": "The error messages of the JSON readers are true and complete", "statement": "Reading a report or a stack trace from JSON: whenever NULL is returned there is an error message, and every message says of a part of the document, by the name it goes by, that it is not of the kind wanted (or names an unknown package role or JavaScript platform), which is true. For each type of stack trace there is a table of members and kinds: a trace is returned, without a message, exactly for JSON that is as the table wants it; otherwise the message is about the first thing that is not, in the order of the table. A report is returned exactly when its mandatory kinds are right, and without a message exactly when optional members of the operating system, the stack trace and the authentication entries are right, too. Exceptions: a message may come with a report, a later message replaces an earlier one, and the last need not be the reason of the refusal.", "quantifier": "all JSON documents, all types of stack traces, all texts", "why_tests_cant": "documents are unbounded and can be wrong in many places at once; which message wins depends on all of them", "anchors": ["lib/json_utils.c: json_check_type, DEFINE_JSON_READ", "lib/report.c: sr_report_from_json, sr_report_from_json_text", "lib/operating_system.c: sr_operating_system_from_json", "lib/rpm.c: single_rpm_package_from_json, sr_rpm_package_from_json", "lib/core_stacktrace.c: sr_core_stacktrace_from_json", "lib/python_stacktrace.c: sr_python_stacktrace_from_json", "lib/koops_stacktrace.c: sr_koops_stacktrace_from_json", "lib/java_stacktrace.c: sr_java_stacktrace_from_json", "lib/ruby_stacktrace.c: sr_ruby_stacktrace_from_json", "lib/js_stacktrace.c: sr_js_stacktrace_from_json", "lib/js_platform.c: sr_js_platform_from_json"]}
{"id": "C85", "title": "The error for a Java text tells what is wrong and where", "statement": "Parsing a Java text gives a stack trace exactly when the text is one, and otherwise an error that names one of three reasons: no exception name, a line that is no frame, a thread name without its closing quotation mark. The text goes wrong for one reason and in one place, and the line and column in the error are those of that place, as the parser counts them: every character counts as it should, except that newlines among blanks that are passed over count as columns, and that the quotation mark after the thread name counts as a newline when one follows. In texts without newlines behind blanks, colons, quotation marks or the word at, the line and column are the true ones. Where parsing ends well, the location is at the end of what was read, or one column short of it at the end of the text. Exceptions: the counting itself; and a stack trace followed by a blank line is refused.", "quantifier": "all texts; for a frame, any text and any place in it", "why_tests_cant": "texts are unbounded and can go wrong anywhere, after any number of frames and causes", "anchors": ["lib/java_frame.c: sr_java_frame_parse, sr_java_frame_parse_frame_url, sr_java_frame_parse_exception", "lib/java_thread.c: sr_java_thread_parse", "lib/java_stacktrace.c: sr_java_stacktrace_parse", "lib/generic_stacktrace.c: stacktrace_parse_wrapper", "lib/location.c: sr_location_add, sr_location_eat_char, sr_location_to_string"]}
{"id": "C86", "title": "The error for a Python text tells what is wrong, and where in the parser's own count", "statement": "Parsing a Python text gives a stack trace exactly when the text is one, and otherwise an error with one of nine reasons: no header, a syntax error without a frame, no exception name, or one of six reasons why the text after the header is no frame. The reason is unique, and the error is given exactly for texts that go wrong for that reason. The line is that of the first frame when the text starts with a newline, and one too far otherwise; later frames do not move it. The column adds up what the frames read so far count for, each again for every frame below it. Exceptions: this counting itself; without a header the place told is behind the last letter i of the text, and for a syntax error the place is counted from the words invalid syntax. A text that ends where a frame could start is read past its end (see C42).", "quantifier": "all texts; for a frame, any text and any location before it", "why_tests_cant": "texts are unbounded and can go wrong anywhere, after any number of frames", "anchors": ["lib/python_frame.c: sr_python_frame_parse", "lib/python_stacktrace.c: sr_python_stacktrace_parse", "lib/utils.c: sr_strstr_location", "lib/generic_stacktrace.c: stacktrace_parse_wrapper", "lib/location.c: sr_location_add, sr_location_to_string"]}
{"id": "C87", "title": "The error for a gdb text tells what is wrong with its first frame or thread, and where", "statement": "Parsing a gdb text gives threads exactly when it has them, and otherwise an error with one of ten reasons: no frame and no thread, one of three reasons why the text at the first frame is none, or one of six reasons why the text at the first thread has no title. The reason is unique and the error is given exactly for texts that go wrong for that reason. The line and column are those of a place in the text, unless a crash frame precedes the threads; for a refused crash frame they are, up to the newlines in a function name. Exceptions: the header of a crash frame is counted twice, a closing parenthesis of a title is not counted, newlines in a function name are counted as columns, and what is wrong inside of a call is not told. A text that ends in a name or an argument list is read past its end (see C45).", "quantifier": "all texts; for a frame or a thread, any text and any location before it", "why_tests_cant": "texts are unbounded and can go wrong anywhere; the count must be right for every header, title and function name", "anchors": ["lib/gdb_frame.c: sr_gdb_frame_parse, sr_gdb_frame_parse_header", "lib/gdb_thread.c: sr_gdb_thread_parse", "lib/gdb_stacktrace.c: sr_gdb_stacktrace_parse, sr_gdb_stacktrace_parse_header", "lib/generic_stacktrace.c: stacktrace_parse_wrapper", "lib/location.c: sr_location_add, sr_location_to_string"]}
{"id": "C88", "title": "Distances of three threads are consistent, and depend only on how frames compare", "statement": "For frames whose comparison is an equivalence, which holds for five frame types, the Jaccard distance before rounding obeys the triangle inequality for any three threads, of whatever types. The Levenshtein distance does so times the longer length, and unscaled between threads of one length. No distance changes when frames are exchanged for frames that compare the same; two threads at edit distance 0 have equal distances of every kind from every other thread. Exceptions: the scaled Levenshtein distance, Damerau-Levenshtein even before scaling, and Jaro-Winkler do not obey the inequality, and for core frames no distance does.", "quantifier": "all triples of threads, all frame comparisons that are (partial) equivalences, all kinds of distance", "why_tests_cant": "a clustering is only as good as the distances are consistent, for every triple of threads of any length", "anchors": ["lib/distance.c: sr_distance, distance_jaccard, distance_levenshtein, distance_jaro_winkler", "include/distance.h: enum sr_distance_type"]}
{"id": "C89", "title": "A stack trace is known by the same hashes, distances, summary and reason after it was sent as JSON", "statement": "For each of the six types written as JSON, whatever can be written as valid JSON is read back as one stack trace with as many threads. Each thread's duplicate hash is then the sender's, for every prefix, frame count and flags, if the number shown on each hashed line fits the reader (below 2^63 or unset, below 2^31 for lines); for a thread of one frame this condition is exact. The backtrace hash, the reason, the short text and every distance from another thread sent, before and after normalization, are the sender's under corresponding conditions (distances of Java and kernel threads under none), and a core dump's crash thread is found at the same place exactly if it has frames and is the one marked, or nothing is marked and it is the first. Exceptions: kernel addresses do not fit, so an oops changes its backtrace hash and, without function names, its duplicate hash; the reason of an oops is not sent; an unmarked core dump is received with its first thread marked.", "quantifier": "all stack traces of the six types with members in the range of their C types, all JSON values their text denotes, all hash parameters", "why_tests_cant": "sender and server compare hashes of every report ever sent; a test compares a few", "anchors": ["lib/generic_thread.c: sr_thread_get_duphash", "lib/generic_stacktrace.c: sr_stacktrace_to_json, sr_stacktrace_from_json, sr_stacktrace_get_bthash, sr_stacktrace_to_short_text, sr_stacktrace_get_reason", "lib/core_stacktrace.c: sr_core_stacktrace_to_json, sr_core_stacktrace_find_crash_thread", "lib/distance.c: sr_distance"]}
{"id": "C90", "title": "What is read from a text can be sent as JSON and comes back", "statement": "If each byte of a text can be carried by JSON, then whatever Python, Java, Ruby or JavaScript stack trace is read from it is written as valid JSON and is read back; it comes back unchanged, but for the platform of a JavaScript trace, exactly if its numbers are below 2^31 and no Java frame has a line without a file name. A kernel oops can be sent exactly if JSON can carry its whole text and it names at most 127 modules; it comes back without its reason, otherwise unchanged exactly if its numbers are below 2^63; if its frames have function names its duplicate hash is kept in any case. Exceptions: a Java line of an unknown source is lost, an oops with more modules is written as JSON on which the reader runs over a buffer, a control byte in a text leads to invalid JSON, and the JavaScript platform and the reason of an oops are never kept.", "quantifier": "all texts accepted by the five text parsers, all JSON values the written text denotes", "why_tests_cant": "every crash text ever processed passes through parser, writer and reader; tests try a few texts and the three steps separately", "anchors": ["lib/generic_stacktrace.c: sr_stacktrace_parse, sr_stacktrace_to_json, sr_stacktrace_from_json", "lib/python_stacktrace.c: sr_python_stacktrace_parse", "lib/java_stacktrace.c: sr_java_stacktrace_parse", "lib/ruby_stacktrace.c: sr_ruby_stacktrace_parse", "lib/js_stacktrace.c: sr_js_stacktrace_parse", "lib/koops_stacktrace.c: sr_koops_stacktrace_parse"]}
{"id": "C91", "title": "Stack traces can be sent on any number of times, and all receivers know the same", "statement": "What was received as JSON can be sent as JSON again, any number of times, with one result. All receivers get the same frames, duplicate hashes, backtrace hash and reason, without any condition on the numbers in the trace. The whole trace is the same for all receivers exactly if, for a core dump, the thread written as crash thread has frames or the first thread has none, and for JavaScript, engine and runtime are both known or both unknown; in any case nothing changes after the second hop, except that a JavaScript trace is the same again after every two hops. Whatever JSON a reader accepts gives a trace with members in range; it can be sent exactly if its strings are made of bytes that JSON can carry, no frame is empty and a core dump has threads. Exceptions: a core dump whose crash thread has no frames is received without crash thread and sent on with the first thread as crash thread; the JavaScript platform changes with every hop; a negative number in foreign JSON is sent on as another one.", "quantifier": "all stack traces of the six types that can be sent, all numbers of hops, all JSON values that readers accept", "why_tests_cant": "a test sends a trace once; that nothing is lost at later hops is a statement about all chains of any length", "anchors": ["lib/generic_stacktrace.c: sr_stacktrace_to_json, sr_stacktrace_from_json, sr_stacktrace_get_bthash, sr_stacktrace_get_reason", "lib/generic_thread.c: sr_thread_get_duphash", "lib/core_stacktrace.c: sr_core_stacktrace_to_json, sr_core_stacktrace_from_json", "lib/js_platform.c: sr_js_platform_to_json, sr_js_platform_from_json"]}
{"id": "C92", "title": "The report printed for a problem directory reaches whoever reads it", "statement": "If the files of a problem directory are made of bytes that JSON can carry (no control characters but newline, return, tab, form feed and backspace) and a report can be made from it, then the text printed for the directory is well-formed JSON, except when the file core_backtrace held a core dump without threads or with strings that cannot be carried. Reading that text gives the report back, if an oops has no more than 127 modules; all that is lost then are the CPE of the operating system and the reason of a kernel oops, exactly if all numbers (occurrences, epochs, install times, lines, addresses) are below the reader's limits, Java frames without file have no line, and the crash thread of a core dump is marked and has frames. Exceptions: an escape character in the file environ makes the report malformed, and so does a core_backtrace without threads.", "quantifier": "all problem directories, all report types, all sorting functions that only move elements", "why_tests_cant": "the claim ranges over all contents of some twenty files, of four text formats and of JSON, and over all of their combinations", "anchors": ["lib/abrt.c: sr_abrt_print_report_from_dir, sr_abrt_report_from_dir, sr_abrt_operating_system_from_dir, sr_abrt_rpm_packages_from_dir", "lib/report.c: sr_report_to_json, sr_report_from_json"]}
{"id": "C93", "title": "Groups that stand apart are found by clustering, and duplicates are put together", "statement": "If objects fall apart at the level of a cut (objects that are both at most that far from a third are at most that far from each other), then clustering them and cutting at that level gives exactly those groups that have at least the requested size: every member with everything near to it and nothing else, no object twice, whatever pairs are equally close and whatever the order of merging. So threads of one type that are compared by an edit distance and cut at level 0 are grouped exactly with the threads whose frames are the same one by one, and by Jaccard with those that have the same set of frames, when the comparison of frames is an equivalence. The groups are unique up to order. Exceptions: where nothing stands apart the clusters depend on the order of the threads, and a cluster can hold objects that are further apart than the level.", "quantifier": "all distance matrices and histories of assignments, all lists of threads, all levels and sizes", "why_tests_cant": "the claim ranges over all matrices of up to 46340 objects and all ways equal distances can be merged", "anchors": ["lib/cluster.c: sr_distances_cluster_objects, sr_dendrogram_cut", "lib/distance.c: sr_threads_compare, sr_distance"]}
{"id": "C94", "title": "A crash that happened at other addresses is known as the same crash", "statement": "Programs, libraries and the kernel are loaded at other addresses every time. If two stack traces differ only in that (the same frames with other addresses, libraries moved along with the frames in them, and for a kernel oops an address in what the kernel said), then: normalizing keeps the same frames; the same thread is found to have crashed; its duplication hash is the same for every number of frames, prefix and flag; its distance to any other thread is the same, and the edit distances to its own copy are 0 if every frame compares equal to itself; the short text, the reason and the quality ratings are the same. Exceptions: the backtrace hash contains addresses; a core frame with no build id, name or fingerprint, or a kernel frame with no name, is known only by its address; and address 0 stands for a jump to NULL.", "quantifier": "all stack traces, all moves of their addresses, all hash functions, numbers of frames, prefixes, flags and types of distance", "why_tests_cant": "the claim relates two runs on any stack trace and any of the 2^64 addresses each frame can have", "anchors": ["lib/generic_thread.c: sr_thread_get_duphash", "lib/normalize.c: sr_normalize_core_thread, sr_normalize_gdb_thread, sr_normalize_koops_stacktrace", "lib/gdb_stacktrace.c: sr_gdb_stacktrace_find_crash_thread, sr_gdb_stacktrace_to_short_text", "lib/core_stacktrace.c: sr_core_stacktrace_find_crash_thread", "lib/koops_stacktrace.c: sr_koops_stacktrace_get_reason", "lib/generic_stacktrace.c: sr_stacktrace_to_short_text, sr_stacktrace_get_bthash"]}
{"id": "C95", "title": "What is told about a crash does not depend on the name of the user", "statement": "If the same program crashes for two users, so that only the user's name in paths below /home differs, and neither name looks like that of a library: normalized threads of core dumps are identical, whatever is computed from them; the same thread is found to have crashed; duplication hashes with any flags, and short texts, are the same; duplication hashes of gdb threads are the same; Ruby backtraces are read as the same stack trace, whatever the message, and frames of Python tracebacks of V8 (JavaScript) stack traces and of Java exceptions (with the path of a class file or archive) as the same frame. Exceptions: the reason and the JSON of a core stack trace contain the path of the executable as it is; gdb texts contain the paths of source files; and frames of a user whose name contains a name the normalization looks for (such as emacs or libc-dev) can be dropped.", "quantifier": "all threads and stack traces, all pairs of ordinary user names, all paths, hash functions, numbers of frames, prefixes and flags; all texts of Ruby backtraces and of Python, V8 and Java frames", "why_tests_cant": "the claim relates two runs on inputs that differ in a secret of any length and content", "anchors": ["lib/utils.c: anonymize_path", "lib/normalize.c: sr_normalize_core_thread, sr_normalize_gdb_thread", "lib/generic_thread.c: sr_thread_get_duphash", "lib/core_stacktrace.c: sr_core_stacktrace_find_crash_thread, sr_core_stacktrace_get_reason", "lib/ruby_stacktrace.c: sr_ruby_stacktrace_parse", "lib/python_frame.c: sr_python_frame_parse", "lib/js_frame.c: sr_js_frame_parse", "lib/java_frame.c: sr_java_frame_parse"]}
{"id": "C96", "title": "Frames that two threads share bring them closer, and one frame makes little difference", "statement": "If the same frames are put on top of two threads, or below them, the Levenshtein, Damerau-Levenshtein and Jaccard distances of the threads do not grow; for the edit distances exactly as many edits are counted as before, divided by the new length. One frame more or less anywhere in a thread, or one that is changed, changes the number of edits by at most one; with exchanges of adjacent frames one frame more can add two edits. Listing both threads from the bottom instead of the top changes nothing. Exceptions: the Jaro-Winkler similarity can go down when both threads get the same frame, on top or below, and depends on the end from which threads are listed; and unknown functions of gdb threads are never the same, so threads that share them are driven apart.", "quantifier": "all threads that fit an int, all frames added above and below, all positions; all comparisons of frames (partial equivalences for exchanges, equivalences for Jaccard)", "why_tests_cant": "the claim relates distances of four threads of any length", "anchors": ["lib/distance.c: sr_distance, distance_levenshtein, distance_jaccard, distance_jaro_winkler"]}
