{
 "claims": [
  {
   "property": "C01",
   "status": "proved",
   "theorems": [
    "C01_strchr_location",
    "C01_strstr_location",
    "C01_skip_span_location",
    "C01_next_line",
    "C01_location_add",
    "C01_location_cmp",
    "C01_position_unique"
   ],
   "note": ""
  },
  {
   "property": "C02",
   "status": "proved",
   "theorems": [
    "C02_uint32",
    "C02_uint64",
    "C02_hex",
    "C02_0xhex",
    "C02_skip_uint",
    "C02_skip_hex",
    "C02_skip_0xhex",
    "C02_uint64_max_refuted"
   ],
   "note": "Proved except where the code itself deviates, which C02_uint64_max_refuted show by a witness."
  },
  {
   "property": "C03",
   "status": "proved",
   "theorems": [
    "C03_skip_char",
    "C03_skip_char_sequence",
    "C03_skip_char_span",
    "C03_skip_char_cspan",
    "C03_parse_char_span",
    "C03_parse_char_cspan",
    "C03_skip_string",
    "C03_parse_string",
    "C03_parse_char_limited",
    "C03_parse_digit",
    "C03_skip_whitespace",
    "C03_skip_non_whitespace",
    "C03_skip_char_limited",
    "C03_skip_char_limited_refuted"
   ],
   "note": "Proved except where the code itself deviates, which C03_skip_char_limited_refuted show by a witness."
  },
  {
   "property": "C04",
   "status": "proved",
   "theorems": [
    "C04_grammar_unambiguous",
    "C04_escape_faithful",
    "C04_escape_only_reading",
    "C04_escape_no_newline",
    "C04_other_control_characters"
   ],
   "note": ""
  },
  {
   "property": "C05",
   "status": "proved",
   "theorems": [
    "C05_indent_json",
    "C05_indent_except_first_json",
    "C05_indent_lines",
    "C05_indent_except_first_lines",
    "C05_every_text_has_lines"
   ],
   "note": ""
  },
  {
   "property": "C06",
   "status": "proved",
   "theorems": [
    "C06_home_path",
    "C06_other_path",
    "C06_idempotent"
   ],
   "note": ""
  },
  {
   "property": "C07",
   "status": "proved",
   "theorems": [
    "C07_os_release",
    "C07_spec_functional",
    "C07_lines_exist",
    "C07_quoting_roundtrip"
   ],
   "note": ""
  },
  {
   "property": "C08",
   "status": "proved",
   "theorems": [
    "C08_struniq",
    "C08_struniq_functional",
    "C08_struniq_same_elements",
    "C08_bin2hex_recoverable",
    "C08_bin2hex_digits"
   ],
   "note": ""
  },
  {
   "property": "C09",
   "status": "proved",
   "theorems": [
    "C09_minimal",
    "C09_empty"
   ],
   "note": ""
  },
  {
   "property": "C10",
   "status": "proved",
   "theorems": [
    "C10_minimal",
    "C10_not_larger",
    "C10_gdb_refuted"
   ],
   "note": "Proved except where the code itself deviates, which C10_gdb_refuted show by a witness: for gdb frames (a missing library name matches any) Damerau-Levenshtein can return 0 for different threads; minimality holds for symmetric and transitive comparisons."
  },
  {
   "property": "C11",
   "status": "proved",
   "theorems": [
    "C11_range",
    "C11_zero",
    "C11_one",
    "C11_symmetric",
    "C11_rounded",
    "C11_types_differ",
    "C11_gdb_self_refuted"
   ],
   "note": "Proved except where the code itself deviates, which C11_gdb_self_refuted show by a witness: a gdb thread with an unknown function `??` is at distance 1 from itself; the Jaccard distance of gdb threads is not symmetric; the core comparison is not transitive."
  },
  {
   "property": "C12",
   "status": "proved",
   "theorems": [
    "C12_value",
    "C12_representatives_exist",
    "C12_range",
    "C12_symmetric",
    "C12_order_and_repetition",
    "C12_zero",
    "C12_one",
    "C12_rounded",
    "C12_equivalences",
    "C12_gdb_self_refuted",
    "C12_gdb_symmetric_refuted",
    "C12_core_refuted"
   ],
   "note": "Proved except where the code itself deviates, which C12_gdb_self_refuted, C12_gdb_symmetric_refuted, C12_core_refuted show by a witness: a gdb thread with an unknown function `??` is at distance 1 from itself; the Jaccard distance of gdb threads is not symmetric; the core comparison is not transitive."
  },
  {
   "property": "C13",
   "status": "proved",
   "theorems": [
    "C13_no_match",
    "C13_range",
    "C13_identical",
    "C13_both_empty",
    "C13_exceeds_one_refuted",
    "C13_one_frame_refuted"
   ],
   "note": "Proved except where the code itself deviates, which C13_exceeds_one_refuted, C13_one_frame_refuted show by a witness: Jaro-Winkler exceeds 1 for repeated frames, is 0 for two identical one-frame threads."
  },
  {
   "property": "C14",
   "status": "proved",
   "theorems": [
    "C14_history",
    "C14_diagonal",
    "C14_symmetric",
    "C14_out_of_range",
    "C14_large_matrix_refuted"
   ],
   "note": "Proved except where the code itself deviates, which C14_large_matrix_refuted show by a witness: matrices with 46341 or more objects overflow an `int`."
  },
  {
   "property": "C15",
   "status": "proved",
   "theorems": [
    "C15_parts_cover",
    "C15_balanced",
    "C15_pairs_once",
    "C15_no_parts"
   ],
   "note": ""
  },
  {
   "property": "C16",
   "status": "proved",
   "theorems": [
    "C16_merge_is_compare",
    "C16_compare",
    "C16_merge_checks",
    "C16_missing_part_refuted"
   ],
   "note": "Proved except where the code itself deviates, which C16_missing_part_refuted show by a witness: merging parts does not notice a missing part."
  },
  {
   "property": "C17",
   "status": "proved",
   "theorems": [
    "C17_permutation",
    "C17_unset_pair"
   ],
   "note": ""
  },
  {
   "property": "C18",
   "status": "proved",
   "theorems": [
    "C18_maximal_runs",
    "C18_partition",
    "C18_raise"
   ],
   "note": ""
  },
  {
   "property": "C19",
   "status": "proved",
   "theorems": [
    "C19_average_linkage"
   ],
   "note": ""
  },
  {
   "property": "C20",
   "status": "proved",
   "theorems": [
    "C20_remove_frame",
    "C20_remove_absent",
    "C20_remove_above",
    "C20_remove_above_absent",
    "C20_remove_below",
    "C20_frame_count",
    "C20_limit_depth"
   ],
   "note": ""
  },
  {
   "property": "C21",
   "status": "proved",
   "theorems": [
    "C21_text",
    "C21_same_keys",
    "C21_later_frames",
    "C21_later_frames_refuted",
    "C21_above_exit",
    "C21_lines"
   ],
   "note": "Proved except where the code itself deviates, which C21_later_frames_refuted show by a witness: \"frames after the n-th never matter\" is true of the frames left by normalization; a frame further down in the original thread (an exit frame) can change which frames these are (`C21_later_frames_refuted`)."
  },
  {
   "property": "C22",
   "status": "proved",
   "theorems": [
    "C22_injective",
    "C22_determined",
    "C22_hash",
    "C22_separator_refuted",
    "C22_placeholder_refuted",
    "C22_taint_refuted",
    "C22_core_names_refuted",
    "C22_mixed_refuted",
    "C22_no_threads_refuted"
   ],
   "note": "Proved except where the code itself deviates, which C22_separator_refuted, C22_placeholder_refuted, C22_taint_refuted, C22_core_names_refuted, C22_mixed_refuted, C22_no_threads_refuted show by a witness: hash texts collide for fields containing \", \", for a field spelled \"<unknown>\", for kernel-oops taint flags (a \"Flags:\" line is written but never filled), for core function names, for a Python and a Ruby stacktrace, and for no thread against one empty thread."
  },
  {
   "property": "C23",
   "status": "proved",
   "theorems": [
    "C23_selection",
    "C23_no_recursion",
    "C23_nothing_removable",
    "C23_below_exit",
    "C23_below_above",
    "C23_removed_alone",
    "C23_recursion_collapsed",
    "C23_null_ends",
    "C23_prefix_dropped",
    "C23_variant_renamed",
    "C23_keeps",
    "C23_idempotent",
    "C23_idempotent_refuted"
   ],
   "note": "Proved except where the code itself deviates, which C23_idempotent_refuted show by a witness: a second normalization can change the result when a name carried two prefixes (`__GI___GI_x`) or two null frames were at an end."
  },
  {
   "property": "C24",
   "status": "proved",
   "theorems": [
    "C24_selection",
    "C24_anonymous",
    "C24_no_recursion",
    "C24_nothing_removable",
    "C24_below_exit",
    "C24_below_above",
    "C24_removed_alone",
    "C24_recursion_collapsed",
    "C24_null_ends",
    "C24_prefix_dropped",
    "C24_variant_renamed",
    "C24_keeps",
    "C24_idempotent",
    "C24_idempotent_refuted"
   ],
   "note": "Proved except where the code itself deviates, which C24_idempotent_refuted show by a witness: a second normalization can change the result when a name carried two prefixes (`__GI___GI_x`) or two null frames were at an end."
  },
  {
   "property": "C25",
   "status": "proved",
   "theorems": [
    "C25_exact",
    "C25_idempotent",
    "C25_search",
    "C25_sorted"
   ],
   "note": ""
  },
  {
   "property": "C26",
   "status": "proved",
   "theorems": [
    "C26_pairs",
    "C26_names",
    "C26_fresh_refuted"
   ],
   "note": "Proved except where the code itself deviates, which C26_fresh_refuted show by a witness: the name given to a pair is not fresh with respect to names already in the threads."
  },
  {
   "property": "C27",
   "status": "proved",
   "theorems": [
    "C27_optimized"
   ],
   "note": ""
  },
  {
   "property": "C28",
   "status": "proved",
   "theorems": [
    "C28_gdb",
    "C28_gdb_unique",
    "C28_gdb_member",
    "C28_gdb_order_free",
    "C28_gdb_remembered",
    "C28_gdb_crash_frame",
    "C28_core",
    "C28_core_unique",
    "C28_core_member",
    "C28_java",
    "C28_limit_depth",
    "C28_limit_depth_tid",
    "C28_remembered_refuted"
   ],
   "note": "Proved except where the code itself deviates, which C28_remembered_refuted show by a witness: when threads carry no tid, normalizing the stacktrace can lose the crash thread."
  },
  {
   "property": "C29",
   "status": "proved",
   "theorems": [
    "C29_gdb_thread",
    "C29_java_thread",
    "C29_simple",
    "C29_complex",
    "C29_complex_no_crash",
    "C29_proportion_range",
    "C29_proportion_one",
    "C29_proportion_zero",
    "C29_complex_range",
    "C29_complex_one",
    "C29_rounded",
    "C29_rounded_constants"
   ],
   "note": ""
  },
  {
   "property": "C30",
   "status": "proved",
   "theorems": [
    "C30_core",
    "C30_python",
    "C30_ruby",
    "C30_js",
    "C30_koops",
    "C30_java",
    "C30_gdb",
    "C30_core_thread",
    "C30_gdb_thread",
    "C30_package_nvr",
    "C30_package_nevra",
    "C30_package",
    "C30_frame",
    "C30_distance_identity",
    "C30_distance_core",
    "C30_distance_gdb",
    "C30_java_thread",
    "C30_java_stacktrace",
    "C30_core_offset_refuted",
    "C30_core_flip_refuted",
    "C30_line_cycle_refuted",
    "C30_koops_offset_refuted",
    "C30_java_thread_refuted",
    "C30_package_time_refuted"
   ],
   "note": "Proved except where the code itself deviates, which C30_core_offset_refuted, C30_core_flip_refuted, C30_line_cycle_refuted, C30_koops_offset_refuted, C30_java_thread_refuted, C30_package_time_refuted show by a witness: differences cut to 32 bits: equal results for different offsets or install times, cycles for line numbers 2^31 apart; Java threads are compared by name and first frame only."
  },
  {
   "property": "C31",
   "status": "proved",
   "theorems": [
    "C31_roundtrip",
    "C31_well_formed",
    "C31_comes_back_as",
    "C31_large_address_refuted",
    "C31_empty_crash_thread_refuted"
   ],
   "note": "Proved except where the code itself deviates, which C31_large_address_refuted, C31_empty_crash_thread_refuted show by a witness."
  },
  {
   "property": "C32",
   "status": "proved",
   "theorems": [
    "C32_roundtrip",
    "C32_well_formed",
    "C32_comes_back_as"
   ],
   "note": ""
  },
  {
   "property": "C33",
   "status": "proved",
   "theorems": [
    "C33_roundtrip",
    "C33_well_formed",
    "C33_comes_back_as"
   ],
   "note": ""
  },
  {
   "property": "C34",
   "status": "proved",
   "theorems": [
    "C34_roundtrip",
    "C34_well_formed",
    "C34_comes_back_as",
    "C34_platform_refuted"
   ],
   "note": "Proved except where the code itself deviates, which C34_platform_refuted show by a witness."
  },
  {
   "property": "C35",
   "status": "proved",
   "theorems": [
    "C35_roundtrip",
    "C35_well_formed",
    "C35_comes_back_as"
   ],
   "note": ""
  },
  {
   "property": "C36",
   "status": "proved",
   "theorems": [
    "C36_roundtrip",
    "C36_well_formed",
    "C36_comes_back_as",
    "C36_many_modules",
    "C36_reason_refuted"
   ],
   "note": "Proved except where the code itself deviates, which C36_reason_refuted show by a witness."
  },
  {
   "property": "C37",
   "status": "proved",
   "theorems": [
    "C37_os_wellformed",
    "C37_os_value",
    "C37_os_back",
    "C37_os_roundtrip",
    "C37_os_reader",
    "C37_os_reader_total",
    "C37_cpe_refuted",
    "C37_packages_wellformed",
    "C37_packages_value",
    "C37_packages_back",
    "C37_packages_roundtrip",
    "C37_packages_reader",
    "C37_packages_reader_total",
    "C37_consistency_refuted",
    "C37_single_refuted"
   ],
   "note": "Proved except where the code itself deviates, which C37_cpe_refuted, C37_consistency_refuted, C37_single_refuted show by a witness: the CPE of an operating system is written and not read; the consistency of a package is not written; the writer of an empty package list gives \" ]\"; reading a single package always reports success."
  },
  {
   "property": "C38",
   "status": "proved",
   "theorems": [
    "C38_defined",
    "C38_defined_or_UB",
    "C38_value",
    "C38_wellformed",
    "C38_back",
    "C38_roundtrip",
    "C38_reader",
    "C38_reader_total",
    "C38_auth",
    "C38_user_refuted",
    "C38_javascript_refuted",
    "C38_reporter_refuted",
    "C38_empty_refuted"
   ],
   "note": "Proved except where the code itself deviates, which C38_user_refuted, C38_javascript_refuted, C38_reporter_refuted, C38_empty_refuted show by a witness: the flags of the user are looked up in the wrong object and lost; JavaScript stack traces are not read; the reporter is not escaped; a stack trace written as \"{}\" makes the report malformed; a report of a known type without stack trace, or with one of gdb, runs into NULL."
  },
  {
   "property": "C39",
   "status": "proved",
   "theorems": [
    "C39_core",
    "C39_python",
    "C39_ruby",
    "C39_js",
    "C39_java",
    "C39_koops",
    "C39_total",
    "C39_koops_total",
    "C39_koops_total_refuted"
   ],
   "note": "Proved except where the code itself deviates, which C39_koops_total_refuted show by a witness."
  },
  {
   "property": "C40",
   "status": "proved",
   "theorems": [
    "C40_accepts_exactly",
    "C40_consumes_all",
    "C40_safe",
    "C40_frame_exact",
    "C40_frame_safe",
    "C40_roundtrip"
   ],
   "note": ""
  },
  {
   "property": "C41",
   "status": "proved",
   "theorems": [
    "C41_accepts_exactly",
    "C41_consumes_all",
    "C41_safe",
    "C41_frame_exact",
    "C41_frame_safe",
    "C41_frame_roundtrip",
    "C41_roundtrip",
    "C41_function_with_space_refuted"
   ],
   "note": "Proved except where the code itself deviates, which C41_function_with_space_refuted show by a witness: a function name with a space (V8 writes `new Foo`, `async f`) is cut at the space when read."
  },
  {
   "property": "C42",
   "status": "proved",
   "theorems": [
    "C42_accepts_exactly",
    "C42_reads_beyond_exactly",
    "C42_frame_exact",
    "C42_frame_reads_beyond_exactly",
    "C42_roundtrip",
    "C42_safe_refuted"
   ],
   "note": "Proved except where the code itself deviates, which C42_safe_refuted show by a witness: a traceback without an exception line (the text ends after a frame) is read beyond its end."
  },
  {
   "property": "C43",
   "status": "proved",
   "theorems": [
    "C43_accepts_exactly",
    "C43_safe",
    "C43_frame_exact",
    "C43_frame_safe",
    "C43_frame_roundtrip",
    "C43_roundtrip",
    "C43_written_roundtrip",
    "C43_written_cause_refuted",
    "C43_suppressed_refuted",
    "C43_empty_message_refuted"
   ],
   "note": "Proved except where the code itself deviates, which C43_written_cause_refuted, C43_suppressed_refuted, C43_empty_message_refuted show by a witness: what satyr writes for an exception with a cause is not read back (the line `...` lacks the space that the parser looks for); a suppressed exception of the outermost exception hides its cause; an exception with an empty message takes its first frame as message."
  },
  {
   "property": "C44",
   "status": "proved",
   "theorems": [
    "C44_parse_exact",
    "C44_undefined_exactly",
    "C44_safe",
    "C44_roundtrip",
    "C44_empty_name_refuted",
    "C44_empty_names_refuted",
    "C44_empty_library_refuted",
    "C44_space_refuted"
   ],
   "note": "Proved except where the code itself deviates, which C44_empty_name_refuted, C44_empty_names_refuted, C44_empty_library_refuted, C44_space_refuted show by a witness: an empty function name, an empty library name, and a function name with a space but no library (`operator new`) are read back as something else."
  },
  {
   "property": "C45",
   "status": "proved",
   "theorems": [
    "C45_frame_start_exact",
    "C45_function_name_exact",
    "C45_function_name_off",
    "C45_arguments_exact",
    "C45_function_call_exact",
    "C45_function_call_off",
    "C45_file_location_exact",
    "C45_header_exact",
    "C45_header_off",
    "C45_frame_exact",
    "C45_frame_off",
    "C45_frame_roundtrip",
    "C45_off_refuted",
    "C45_vtable_refuted",
    "C45_const_refuted",
    "C45_namespace_refuted"
   ],
   "note": "Proved except where the code itself deviates, which C45_off_refuted, C45_vtable_refuted, C45_const_refuted, C45_namespace_refuted show by a witness: a text that ends with an operator name (`#1 a::operator+`) or with the opening parenthesis of a call is read beyond its end; with an address, a function whose name starts with `vtable` is no frame, and nor is `type name` where the name starts with `const`; `int (anonymous namespace)::f` is read as function `int`; the search for the next frame starts inside the current one, so a newline and `#` in a string argument ends the thread; in a trace without thread titles frame 0 becomes the crash frame only and is missing from the thread; a thread title with a quoted thread name ends the trace."
  },
  {
   "property": "C46",
   "status": "proved",
   "theorems": [
    "C46_frame_exact",
    "C46_frame_roundtrip",
    "C46_timestamp_exact",
    "C46_frames_in_order",
    "C46_taint_exact",
    "C46_modules_exact",
    "C46_modules_safe",
    "C46_modules_in_order",
    "C46_parse_exact",
    "C46_total",
    "C46_after_ip_refuted",
    "C46_open_address_refuted",
    "C46_bare_address_refuted",
    "C46_name_0x_refuted",
    "C46_no_numbers_refuted"
   ],
   "note": "Proved except where the code itself deviates, which C46_after_ip_refuted, C46_open_address_refuted, C46_bare_address_refuted, C46_name_0x_refuted, C46_no_numbers_refuted show by a witness: after an instruction-pointer line (\"RIP: ...\") the frame parser has already stepped over the line end, so `parse_IP` skips the whole next line too and a frame there is lost; the number of an unclosed address `[1f+...` becomes the frame's address; `(0x1f` is a frame; a function name that starts like `0x1` is not read; `fun+/` is a function with offset and length 0."
  },
  {
   "property": "C47",
   "status": "proved",
   "theorems": [
    "C47_nvr",
    "C47_nevra",
    "C47_nevra_roundtrip",
    "C47_nevra_roundtrip_no_epoch",
    "C47_dangling",
    "C47_rejected",
    "C47_no_outputs_refuted"
   ],
   "note": "Proved except where the code itself deviates, which C47_no_outputs_refuted show by a witness: a NEVRA whose epoch is not a 32-bit number makes the parser return failure with freed release and architecture pointers left in its results; the callers free them again (C49: undefined behaviour on such a dso_list line)."
  },
  {
   "property": "C48",
   "status": "proved",
   "theorems": [
    "C48_sort",
    "C48_sort_case",
    "C48_uniq",
    "C48_uniq_apart",
    "C48_sorted_uniq",
    "C48_sort_empty_refuted",
    "C48_order_refuted"
   ],
   "note": "Proved except where the code itself deviates, which C48_sort_empty_refuted, C48_order_refuted show by a witness: sorting an empty package list reads outside its array; epochs 2^31 apart make the comparison wrap, so it is no order."
  },
  {
   "property": "C49",
   "status": "proved",
   "theorems": [
    "C49_correct",
    "C49_unique",
    "C49_roundtrip",
    "C49_total_refuted",
    "C49_last_line_refuted"
   ],
   "note": "Proved except where the code itself deviates, which C49_total_refuted, C49_last_line_refuted show by a witness: the last line of a dso_list without a final newline is ignored."
  },
  {
   "property": "C50",
   "status": "proved",
   "theorems": [
    "C50_sharedlib",
    "C50_sharedlib_unknown",
    "C50_unstrip",
    "C50_unwind_offset",
    "C50_unwind_address",
    "C50_unwind_start",
    "C50_unstrip_plain",
    "C50_unwind_plain",
    "C50_unique",
    "C50_end_refuted"
   ],
   "note": "Proved except where the code itself deviates, which C50_end_refuted show by a witness: a mapping or unwind range that ends exactly at 2^64 covers no address (its end wraps to 0)."
  },
  {
   "property": "C51",
   "status": "proved",
   "theorems": [
    "C51_callees",
    "C51_callees_fit",
    "C51_callees_overflow",
    "C51_callees_fit_refuted",
    "C51_extend",
    "C51_reachable",
    "C51_reachable_refuted",
    "C51_compute"
   ],
   "note": "Proved except where the code itself deviates, which C51_callees_fit_refuted, C51_reachable_refuted show by a witness: the array for the call targets is allocated in bytes of the wrong size, seven bytes too small whenever all targets are distinct (the model takes the allocator's slack as a parameter); a call to address 0 hides the later targets."
  },
  {
   "property": "C52",
   "status": "proved",
   "theorems": [
    "C52_deep_copy",
    "C52_independent",
    "C52_all_members",
    "C52_core_crash_thread_refuted"
   ],
   "note": "Proved except where the code itself deviates, which C52_core_crash_thread_refuted show by a witness: a copied core stacktrace keeps pointing to the original's crash thread."
  },
  {
   "property": "C53",
   "status": "proved",
   "theorems": [
    "C53_frames_refuted",
    "C53_no_frames"
   ],
   "note": "Proved except where the code itself deviates, which C53_frames_refuted show by a witness: building a core stacktrace from a gdb stacktrace dereferences NULL for every thread with frames."
  },
  {
   "property": "C54",
   "status": "proved",
   "theorems": [
    "C54_short_text",
    "C54_none",
    "C54_gdb",
    "C54_gdb_text",
    "C54_null_refuted"
   ],
   "note": "Proved except where the code itself deviates, which C54_null_refuted show by a witness: a JavaScript frame without file name and a core frame with neither function name nor build id pass NULL to `%s`."
  },
  {
   "property": "C55",
   "status": "proved",
   "theorems": [
    "C55_roundtrip",
    "C55_from_string",
    "C55_to_string",
    "C55_abrt",
    "C55_abrt_unique",
    "C55_javascript_refuted"
   ],
   "note": "Proved except where the code itself deviates, which C55_javascript_refuted show by a witness: no abrt problem type is taken for JavaScript; \"JavaScript\" is taken for Java."
  },
  {
   "property": "C56",
   "status": "proved",
   "theorems": [
    "C56_system_release",
    "C56_rejected",
    "C56_unique",
    "C56_os_release"
   ],
   "note": ""
  },
  {
   "property": "C57",
   "status": "proved",
   "theorems": [
    "C57_free",
    "C57_dup_free_no_leak"
   ],
   "note": ""
  },
  {
   "property": "C58",
   "status": "proved",
   "theorems": [
    "C58_packages",
    "C58_packages_kept",
    "C58_crashed_readable",
    "C58_packages_fail",
    "C58_packages_defined",
    "C58_interpreter_refuted",
    "C58_duplicate_refuted",
    "C58_desktop",
    "C58_desktop_refuted",
    "C58_occurrences",
    "C58_occurrences_refuted",
    "C58_component",
    "C58_os",
    "C58_os_accepts",
    "C58_os_defined"
   ],
   "note": "Proved except where the code itself deviates, which C58_interpreter_refuted, C58_duplicate_refuted, C58_desktop_refuted, C58_occurrences_refuted show by a witness: the interpreter's package is appended without merging, so it can be listed twice; an interpreter name with a bad epoch is a double free; DESKTOP_SESSION is missed when another variable's name ends with it earlier; a count of 0 is rejected when errno was set before."
  },
  {
   "property": "C59",
   "status": "proved",
   "theorems": [
    "C59_total",
    "C59_output",
    "C59_short_line_refuted"
   ],
   "note": "Proved except where the code itself deviates, which C59_short_line_refuted show by a witness: a line with missing fields takes them from the following line."
  },
  {
   "property": "C60",
   "status": "proved",
   "theorems": [
    "C60_reason",
    "C60_undefined",
    "C60_always",
    "C60_koops_refuted"
   ],
   "note": "Proved except where the code itself deviates, which C60_koops_refuted show by a witness: the reason text of a kernel oops is not in its JSON, so the reason changes when a stack trace is written and read."
  },
  {
   "property": "C61",
   "status": "proved",
   "theorems": [
    "C61_thread_exact",
    "C61_thread_off",
    "C61_trace_exact",
    "C61_trace_off",
    "C61_usual_trace",
    "C61_newline_argument_refuted",
    "C61_untitled_refuted",
    "C61_thread_name_refuted"
   ],
   "note": "Proved except where the code itself deviates, which C61_newline_argument_refuted, C61_untitled_refuted, C61_thread_name_refuted show by a witness: a text that ends with an operator name (`#1 a::operator+`) or with the opening parenthesis of a call is read beyond its end; with an address, a function whose name starts with `vtable` is no frame, and nor is `type name` where the name starts with `const`; `int (anonymous namespace)::f` is read as function `int`; the search for the next frame starts inside the current one, so a newline and `#` in a string argument ends the thread; in a trace without thread titles frame 0 becomes the crash frame only and is missing from the thread; a thread title with a quoted thread name ends the trace."
  },
  {
   "property": "C62",
   "status": "proved",
   "theorems": [
    "C62_section_exact",
    "C62_libraries_exact",
    "C62_libraries_off",
    "C62_libraries_total",
    "C62_usual_libraries",
    "C62_trace_exact",
    "C62_trace_off",
    "C62_usual_trace",
    "C62_off_refuted",
    "C62_answer_refuted",
    "C62_no_name_refuted"
   ],
   "note": "Proved except where the code itself deviates, which C62_off_refuted, C62_answer_refuted, C62_no_name_refuted show by a witness: a library list whose last line has no newline is read beyond its end; after the list, an empty line and a line that starts with `No` or `Yes` (\"No symbol table is loaded.\") is taken for a library without addresses; a library without a name takes the whole next line as its name."
  },
  {
   "property": "C63",
   "status": "proved",
   "theorems": [
    "C63_table_exact",
    "C63_encoding_unambiguous",
    "C63_stays_inside",
    "C63_relative_address",
    "C63_absolute_address",
    "C63_json",
    "C63_json_one",
    "C63_json_empty_refuted",
    "C63_section",
    "C63_separate_code_refuted",
    "C63_64bit_format_refuted",
    "C63_cut_entry_refuted"
   ],
   "note": "Proved except where the code itself deviates, which C63_json_empty_refuted, C63_separate_code_refuted, C63_64bit_format_refuted, C63_cut_entry_refuted show by a witness: in a file whose executable segment does not start at file offset 0 (separate code segments), relative entries are recorded at wrong addresses (file offset plus base), so functions are not found; entries in the 64-bit format are recorded four bytes off; an entry that is cut off is read beyond the section; the JSON of an empty table is ` ]`."
  },
  {
   "property": "C64",
   "status": "proved",
   "theorems": [
    "C64_plt_exact",
    "C64_stays_inside",
    "C64_find",
    "C64_addresses",
    "C64_cut_slot_refuted"
   ],
   "note": "Proved except where the code itself deviates, which C64_cut_slot_refuted show by a witness: a table whose size leaves a remainder of 1 to 10 bytes is read beyond its end."
  },
  {
   "property": "C65",
   "status": "proved",
   "theorems": [
    "C65_frame_exact",
    "C65_thread_exact",
    "C65_at_most_256",
    "C65_short_thread",
    "C65_never_start",
    "C65_signal",
    "C65_signal_unique",
    "C65_core_dump_exact",
    "C65_core_dump_safe",
    "C65_hook_exact",
    "C65_hook_error_refuted",
    "C65_gdb_frames",
    "C65_gdb_limit",
    "C65_gdb_limit_refuted",
    "C65_gdb_trace",
    "C65_libunwind_exact",
    "C65_libunwind_dump_exact",
    "C65_libunwind_limit",
    "C65_libunwind_safe",
    "C65_libunwind_failing_thread_refuted",
    "C65_libunwind_register_refuted"
   ],
   "note": "Proved except where the code itself deviates, which C65_hook_error_refuted, C65_gdb_limit_refuted, C65_libunwind_failing_thread_refuted, C65_libunwind_register_refuted show by a witness: when attaching to the dying process fails, an error message is set but an empty stack trace is returned instead of NULL. from a gdb trace more than 256 frames of a thread can be kept: the signal handler frames that are skipped count as dropped frames. a thread whose frames end in an error of elfutils (-1) is kept with the frames so far; the test that there are any is never true. with libunwind, a thread that cannot be set up makes sr_parse_coredump write to the freed (NULL) stack trace; a failing register read leaves the instruction pointer uninitialized; the frame of __libc_start_main is kept, which elfutils drops."
  },
  {
   "property": "C66",
   "status": "proved",
   "theorems": [
    "C66_read_exact",
    "C66_read_total",
    "C66_text_unique",
    "C66_write_true",
    "C66_write_final",
    "C66_write_states",
    "C66_write_unopened",
    "C66_write_opened",
    "C66_write_read",
    "C66_failed_write_refuted",
    "C66_atomic_refuted",
    "C66_limit_refuted",
    "C66_growing_refuted"
   ],
   "note": "Proved except where the code itself deviates, which C66_failed_write_refuted, C66_atomic_refuted, C66_limit_refuted, C66_growing_refuted show by a witness: sr_string_to_file truncates the file in place: when writing fails or is interrupted the old text is lost. sr_string_to_file writes texts of more than 20000000 bytes, which sr_file_to_string refuses to read. sr_file_to_string trusts the size lseek reports: of special files with size 0, and of files that grow, only the first part is returned, without an error."
  },
  {
   "property": "C67",
   "status": "proved",
   "theorems": [
    "C67_report_exact",
    "C67_report_unique",
    "C67_trace_exact",
    "C67_defined",
    "C67_prints",
    "C67_message",
    "C67_message_with_report",
    "C67_message_refuted",
    "C67_spurious_message_refuted",
    "C67_unknown_type_refuted",
    "C67_create_exact",
    "C67_filled_unique",
    "C67_create_states",
    "C67_end_to_end",
    "C67_file_of",
    "C67_json_is_c_string",
    "C67_no_threads_refuted",
    "C67_hook",
    "C67_hook_refuted",
    "C67_core_text",
    "C67_report_text",
    "C67_generic_text",
    "C67_generic_text_refused",
    "C67_analyzer",
    "C67_from_gdb",
    "C67_from_gdb_nothing",
    "C67_js_platform",
    "C67_js_stacktrace",
    "C67_js_frame"
   ],
   "note": "Proved except where the code itself deviates, which C67_message_refuted, C67_spurious_message_refuted, C67_unknown_type_refuted, C67_no_threads_refuted, C67_hook_refuted show by a witness: of an unpackaged program whose dso_list has no packages sr_abrt_report_from_dir returns NULL without a message, and satyr.c then prints an uninitialised pointer. a message can be set although a report is returned: a missing component is reported as an error and then ignored. of an unknown type a report of type invalid without a stack trace is returned instead of an error; the JavaScript branch of the type is never reached. a core dump without threads is written as malformed JSON (C31), which the report then cannot read. when attaching to the dying process fails, the caller gets the text of a stack trace without frames and not NULL."
  },
  {
   "property": "C68",
   "status": "proved",
   "theorems": [
    "C68_append",
    "C68_append_self_refuted",
    "C68_prepend",
    "C68_prepend_first",
    "C68_count",
    "C68_thread_count",
    "C68_except_one",
    "C68_except_foreign",
    "C68_stack_owned",
    "C68_except_null_refuted",
    "C68_package_free",
    "C68_package_free_single",
    "C68_sort",
    "C68_sort_empty_refuted",
    "C68_uniq",
    "C68_report_free",
    "C68_add_auth",
    "C68_reporter_leak_refuted"
   ],
   "note": "Proved except where the code itself deviates, which C68_append_self_refuted, C68_except_null_refuted, C68_sort_empty_refuted, C68_reporter_leak_refuted show by a witness: appending a list to itself makes it endless; counting it afterwards does not stop. sr_rpm_package_sort reads the first element of an empty array when there are no packages. sr_gdb_stacktrace_remove_threads_except_one dereferences a NULL thread. sr_report_free never releases the reporter's name and version, which sr_report_from_json allocates."
  },
  {
   "property": "C69",
   "status": "proved",
   "theorems": [
    "C69_frames_linked",
    "C69_threads_linked",
    "C69_gdb_linked",
    "C69_packages_linked",
    "C69_wrong_frame",
    "C69_wrong_package",
    "C69_packages_no_list",
    "C69_wrapped",
    "C69_stack_wrapped",
    "C69_gdb_wrapped",
    "C69_there_and_back",
    "C69_thread_dup",
    "C69_stack_dup",
    "C69_gdb_dup",
    "C69_crash_thread",
    "C69_thread_array",
    "C69_thread_array_wrong",
    "C69_emptied_refuted",
    "C69_twice_refuted",
    "C69_shared_refuted"
   ],
   "note": "Proved except where the code itself deviates, which C69_emptied_refuted, C69_twice_refuted, C69_shared_refuted show by a witness: assigning an empty list to frames (or threads) does not reset the pointer of the C structure, so the next call works on freed frames. a frame object that is twice in a list, or in the lists of two threads, makes the linked list lose frames."
  },
  {
   "property": "C70",
   "status": "proved",
   "theorems": [
    "C70_thread_destroyed",
    "C70_stack_destroyed",
    "C70_gdb_destroyed",
    "C70_wrapped_leak_refuted",
    "C70_error_path_refuted",
    "C70_limit_twice_refuted",
    "C70_limit_held_refuted",
    "C70_limit_none_refuted",
    "C70_crash_frame_refuted"
   ],
   "note": "Proved except where the code itself deviates, which C70_wrapped_leak_refuted, C70_error_path_refuted, C70_limit_twice_refuted, C70_limit_held_refuted, C70_limit_none_refuted, C70_crash_frame_refuted show by a witness: frames_to_python_list and its kin keep an extra reference to every item (PyList_Append adds one of its own), so the items are never destroyed. threads_prepare_linked_list on a list with a foreign item drops a reference to the thread before it once too often and never drops the one to the item. limit_frame_depth of a gdb stack trace built from Python objects frees the removed frames twice; of a parsed one it leaves kept frame objects dangling; without threads it dereferences NULL. find_crash_frame stores its result in the stack trace without taking a reference; dup of such a stack trace calls the method of another type."
  },
  {
   "property": "C71",
   "status": "proved",
   "theorems": [
    "C71_utf8_encode",
    "C71_utf8_decode",
    "C71_names",
    "C71_read",
    "C71_assign",
    "C71_assign_owner",
    "C71_refuse",
    "C71_delete",
    "C71_report_type",
    "C71_report_type_assign",
    "C71_report_type_refuse",
    "C71_report_version",
    "C71_reporter",
    "C71_reporter_refuted",
    "C71_line_wraps_refuted",
    "C71_address_wraps_refuted",
    "C71_nul_refuted",
    "C71_truth_refuted"
   ],
   "note": "Proved except where the code itself deviates, which C71_reporter_refuted, C71_line_wraps_refuted, C71_address_wraps_refuted, C71_nul_refuted, C71_truth_refuted show by a witness: sr_py_setter_uint32 has no upper bound: 2^32+1 is stored as 1. sr_py_setter_uint64 takes any integer modulo 2^64; 2^64-1 reads back as None. a string with a NUL is cut there without an exception. sr_py_setter_bool ignores an exception from the truth value and stores true. assigning reporter_name or reporter_version of a new report frees the string constant that sr_report_init put there."
  },
  {
   "property": "C72",
   "status": "proved",
   "theorems": [
    "C72_threads",
    "C72_threads_raises",
    "C72_symmetric_refuted",
    "C72_history",
    "C72_sized_raises",
    "C72_unset_refuted",
    "C72_large_refuted",
    "C72_spread",
    "C72_merge_agrees",
    "C72_merge_foreign",
    "C72_compute_raises",
    "C72_create_raises",
    "C72_create_overflow_refuted",
    "C72_missing_refuted",
    "C72_twice_refuted",
    "C72_empty_refuted",
    "C72_pickle_refuted",
    "C72_dendrogram",
    "C72_reads_refuted",
    "C72_cut"
   ],
   "note": "Proved except where the code itself deviates, which C72_symmetric_refuted, C72_unset_refuted, C72_large_refuted, C72_create_overflow_refuted, C72_missing_refuted, C72_twice_refuted, C72_empty_refuted, C72_pickle_refuted, C72_reads_refuted show by a witness: get_merge_level(i) accepts i = size-1 and i = size; there are size-1 levels (python/py_cluster.c:162). get_distance(i, j) and set_distance(i, j) refuse i >= m, although the library takes a pair in either order. merge_parts does not notice missing parts, and an object listed twice drops the parts between; the pairs are uninitialised. merge_parts([]) returns NULL without setting an exception. DistancesPart.create(n, 0) divides by zero; create(-2^31, k, 0) overflows. DistancesPart(...) copies a list longer than len past the end of the buffer. Distances(m, n) is not initialised; more than 46340 objects overflow an int."
  },
  {
   "property": "C73",
   "status": "proved",
   "theorems": [
    "C73_runs",
    "C73_defined",
    "C73_name",
    "C73_no_command",
    "C73_unknown_command",
    "C73_unknown_debug_command",
    "C73_missing_arguments",
    "C73_texts",
    "C73_report",
    "C73_no_report",
    "C73_report_defined",
    "C73_create",
    "C73_create_total",
    "C73_create_states",
    "C73_listing",
    "C73_proper_file",
    "C73_normalize",
    "C73_normalize_exact",
    "C73_normalize_unreadable",
    "C73_duphash",
    "C73_parsers",
    "C73_duphash_fails",
    "C73_duphash_safe",
    "C73_unwind",
    "C73_wrong_tid",
    "C73_wrong_signal",
    "C73_wrong_count",
    "C73_argument_unique",
    "C73_int",
    "C73_status_refuted",
    "C73_message_refuted",
    "C73_empty_refuted",
    "C73_libc_refuted",
    "C73_swallow_refuted",
    "C73_tid_refuted"
   ],
   "note": "Proved except where the code itself deviates, which C73_status_refuted, C73_message_refuted, C73_empty_refuted, C73_libc_refuted, C73_swallow_refuted, C73_tid_refuted show by a witness: abrt-report-dir says \"Not implemented.\" and exits with status 0 (satyr.c:104-109). abrt-print-report-from-dir prints error_message although sr_abrt_report_from_dir may fail without setting it; it is not initialised (satyr.c:92-98). debug normalize discards the result of sr_skip_whitespace, so the library's name starts with a space (satyr.c:164-180). debug normalize sets the source file to the empty text, so frames recognised by their file (abort, raise in libc) are not removed. in debug normalize a line without a space takes the next line as part of the function's name. debug unwind-from-hook accepts an empty tid or signal as 0 and wraps numbers that do not fit an int. main with an empty argument vector reads argv[0], which is NULL."
  },
  {
   "property": "C74",
   "status": "proved",
   "theorems": [
    "C74_linked",
    "C74_to_json",
    "C74_wrong_os",
    "C74_wrong_stack",
    "C74_wrapped",
    "C74_there_and_back",
    "C74_trace_lost",
    "C74_made",
    "C74_gone",
    "C74_auth",
    "C74_auth_exception",
    "C74_str",
    "C74_javascript_refuted",
    "C74_frames_refuted",
    "C74_deleted_refuted",
    "C74_auth_again_refuted"
   ],
   "note": "Proved except where the code itself deviates, which C74_javascript_refuted, C74_frames_refuted, C74_deleted_refuted, C74_auth_again_refuted show by a witness: report_to_python_obj and report_prepare_subobjects know no JavaScript and gdb stack traces: the attribute is None, to_json drops the stack trace and the destructor leaks it (python/py_report.c:271-296, 338-363). stacktrace_prepare does not link the frames or threads of the stack trace object again, so changes to report.stacktrace.frames are not printed (python/py_report.c:217-238). attributes can be deleted (T_OBJECT_EX); to_json and the destructor then read a null pointer. sr_report_add_auth puts new entries first and the auth getter lets later ones win, so the oldest value of a key is shown."
  },
  {
   "property": "C75",
   "status": "proved",
   "theorems": [
    "C75_frame_short_string",
    "C75_gdb_short_string_refuted",
    "C75_frame_equals",
    "C75_frame_equals_types",
    "C75_frame_equals_other",
    "C75_thread_equals",
    "C75_thread_equals_self",
    "C75_thread_equals_types",
    "C75_thread_equals_other",
    "C75_single_equals_refuted",
    "C75_foreign_equals_refuted",
    "C75_shared_frames_refuted",
    "C75_java_equals_refuted",
    "C75_distance",
    "C75_distance_self",
    "C75_distance_types",
    "C75_distance_number",
    "C75_distance_other",
    "C75_distance_foreign",
    "C75_duphash",
    "C75_duphash_foreign",
    "C75_duphash_overflow",
    "C75_single_bthash",
    "C75_multi_bthash",
    "C75_bthash_foreign",
    "C75_gdb_bthash_stale_refuted",
    "C75_gdb_bthash_refuted",
    "C75_single_short_text",
    "C75_multi_short_text",
    "C75_crash_thread_refuted",
    "C75_quality",
    "C75_quality_complex",
    "C75_find_address",
    "C75_find_address_overflow"
   ],
   "note": "Proved except where the code itself deviates, which C75_gdb_short_string_refuted, C75_single_equals_refuted, C75_foreign_equals_refuted, C75_shared_frames_refuted, C75_java_equals_refuted, C75_gdb_bthash_stale_refuted, C75_gdb_bthash_refuted, C75_crash_thread_refuted show by a witness: the function tables of Python, kernel oops, Ruby and JavaScript stack traces have no cmp entry, so equals of such objects fails an assertion (lib/python_stacktrace.c:48, lib/generic_thread.c:155-162). gdb frames have no append_to_str entry; short_string fails an assertion (lib/gdb_frame.c). sr_py_base_thread_equals does not look for an exception set by the comparison: it returns False with TypeError pending (python/py_base_thread.c:188-221). threads sharing a frame object: linking the second list relinks the first, so t.frames=[a] equals u.frames=[a,b]. sr_py_gdb_stacktrace inherits get_bthash, which links the threads but not the libs: stale or freed libraries are hashed (python/py_base_stacktrace.c:330-352). the crash_thread pointer of a core stack trace is not updated when threads is assigned; to_short_text then reads a freed thread. to_short_text returns NULL without an exception if the stack trace has no crash thread (python/py_base_stacktrace.c:259-302). find_address reads the address as a long: addresses from 2^63 raise OverflowError, and -1 gives None."
  },
  {
   "property": "C76",
   "status": "proved",
   "theorems": [
    "C76_open",
    "C76_release",
    "C76_core_dump",
    "C76_open_message",
    "C76_message",
    "C76_many",
    "C76_prepare",
    "C76_dying_process",
    "C76_gdb",
    "C76_libunwind",
    "C76_start_sound",
    "C76_descriptor_zero_refuted",
    "C76_segments_refuted",
    "C76_traced_refuted",
    "C76_null_message_refuted",
    "C76_gdb_null_message"
   ],
   "note": "Proved except where the code itself deviates, which C76_descriptor_zero_refuted, C76_segments_refuted, C76_traced_refuted, C76_null_message_refuted show by a witness: core_handle_free closes the file only if its descriptor is greater than 0, so a core dump opened as descriptor 0 stays open (lib/core_unwind.c:126). open_coredump frees the handle but not the list of segments when dwfl_getmodules returns -1 after some modules (lib/core_unwind.c:256-261). sr_core_stacktrace_from_core_hook_prepare does not detach from the process when a later step fails, and has closed standard input (lib/core_unwind_elfutils.c:261-305). sr_parse_coredump with libunwind reads *error_msg although it allows error_msg to be NULL (lib/core_unwind_libunwind.c:137-141)."
  },
  {
   "property": "C77",
   "status": "proved",
   "theorems": [
    "C77_frame",
    "C77_frame_blank",
    "C77_core_frame_blank",
    "C77_frame_total",
    "C77_gdb_frame_total",
    "C77_frame_leak_refuted",
    "C77_koops_frame_refuted",
    "C77_sharedlib",
    "C77_thread",
    "C77_thread_blank",
    "C77_core_thread_blank",
    "C77_thread_leak_refuted",
    "C77_stack",
    "C77_stack_blank",
    "C77_stack_failed",
    "C77_gdb_leak_refuted",
    "C77_stack_total",
    "C77_from_json",
    "C77_from_json_leak_refuted",
    "C77_from_json_total"
   ],
   "note": "Proved except where the code itself deviates, which C77_frame_leak_refuted, C77_koops_frame_refuted, C77_thread_leak_refuted, C77_gdb_leak_refuted, C77_from_json_leak_refuted show by a witness: a frame or thread constructor, and that of gdb stack traces, creates the object before it parses and does not release it when the text is refused (python/py_gdb_frame.c:176-205 and the other frame files, python/py_gdb_thread.c:109-155, python/py_java_thread.c:109-146, python/py_gdb_stacktrace.c:276-321). from_json does not release the object it made when the text is refused (python/py_base_stacktrace.c:415-447, 449-479). sr_py_koops_frame_new does not check the result of sr_koops_frame_parse, and its object then wraps NULL (python/py_koops_frame.c:137-158)."
  },
  {
   "property": "C78",
   "status": "proved",
   "theorems": [
    "C78_frame",
    "C78_thread",
    "C78_stack",
    "C78_gdb_stack",
    "C78_stack_items",
    "C78_package",
    "C78_system",
    "C78_library",
    "C78_ruby_back",
    "C78_js_back",
    "C78_java_back",
    "C78_package_back",
    "C78_negative_line_refuted",
    "C78_python_back_refuted",
    "C78_koops_back_refuted",
    "C78_java_back_refuted",
    "C78_ruby_back_refuted",
    "C78_no_list_refuted",
    "C78_deleted_refuted"
   ],
   "note": "Proved except where the code itself deviates, which C78_negative_line_refuted, C78_python_back_refuted, C78_koops_back_refuted, C78_java_back_refuted, C78_ruby_back_refuted, C78_no_list_refuted, C78_deleted_refuted show by a witness: line numbers of Java, JavaScript, Python and Ruby frames, and the block level of Ruby frames, are unsigned but printed with %d (python/py_js_frame.c:159-192 and the other frame files). str() of a Python frame leaves out the word \"line\", of a kernel oops frame prefixes the address with 0x, of a Java frame without a source omits the opening parenthesis, so the constructors do not read them back (python/py_python_frame.c:163-192, python/py_koops_frame.c:170-218, python/py_java_frame.c:166-206). str() of threads and stack traces does not check PyList_Size of an attribute that Python code can replace or delete (python/py_core_thread.c:123-134 and the other thread and stack trace files)."
  },
  {
   "property": "C79",
   "status": "proved",
   "theorems": [
    "C79_normalize",
    "C79_normalize_foreign",
    "C79_modules",
    "C79_modules_refuted",
    "C79_taint_flags",
    "C79_single_crash",
    "C79_frame_dup",
    "C79_calls_in_file",
    "C79_calls_refuted",
    "C79_quality_counts",
    "C79_quality",
    "C79_quality_foreign",
    "C79_format_funs",
    "C79_format_funs_stale_refuted",
    "C79_format_funs_refuted"
   ],
   "note": "Proved except where the code itself deviates, which C79_modules_refuted, C79_calls_refuted, C79_format_funs_stale_refuted, C79_format_funs_refuted show by a witness: frame.calls_func(name) of a gdb frame passes no file names, and sr_gdb_frame_calls_func without file names is false (python/py_gdb_frame.c:255-264, lib/gdb_frame.c:134-165). the modules attribute of a kernel oops ignores that a string could not be made (python/py_koops_stacktrace.c:106-122). format_funs of gdb and java threads does not link the Python list first (python/py_gdb_thread.c:231-235, python/py_java_thread.c:222-226)."
  },
  {
   "property": "C80",
   "status": "proved",
   "theorems": [
    "C80_short_text",
    "C80_short_text_none",
    "C80_short_text_range",
    "C80_set_libnames",
    "C80_set_libnames_refuted",
    "C80_unnamed_library_refuted",
    "C80_normalize",
    "C80_normalize_refuted"
   ],
   "note": "Proved except where the code itself deviates, which C80_set_libnames_refuted, C80_unnamed_library_refuted, C80_normalize_refuted show by a witness: stacktrace_rebuild_thread_python_list copies the list of threads without checking that there is one, so set_libnames of a stack trace without threads reads a null pointer (python/py_gdb_stacktrace.c:244-260, 505-518). sr_gdb_thread_set_libnames reads the soname of a library that contains the address; it may be NULL (lib/gdb_thread.c:524-553). normalize overwrites the pointer to the crash frame without freeing the frame (python/py_gdb_stacktrace.c:520-546)."
  },
  {
   "property": "C81",
   "status": "proved",
   "theorems": [
    "C81_found",
    "C81_none",
    "C81_incomplete",
    "C81_cases",
    "C81_unavailable",
    "C81_no_epoch_refuted",
    "C81_containers_refuted"
   ],
   "note": "Proved except where the code itself deviates, which C81_no_epoch_refuted, C81_containers_refuted show by a witness: header_to_rpm_info fails for a header without RPMTAG_EPOCH, which librpm does not store for a package without an epoch (lib/rpm.c:331-337). header_get_string and header_get_uint32 do not release the tag container when headerGet fails (lib/rpm.c:280-287, 301-308)."
  },
  {
   "property": "C82",
   "status": "proved",
   "theorems": [
    "C82_js_either",
    "C82_js_error",
    "C82_js_reason",
    "C82_js_frame",
    "C82_js_any_frame",
    "C82_ruby_either",
    "C82_ruby_error",
    "C82_ruby_position",
    "C82_ruby_frame",
    "C82_js_short_refuted",
    "C82_js_reason_lost_refuted",
    "C82_ruby_negative_refuted",
    "C82_ruby_block_refuted",
    "C82_ruby_line_refuted"
   ],
   "note": "Proved except where the code itself deviates, which C82_js_short_refuted, C82_js_reason_lost_refuted, C82_ruby_negative_refuted, C82_ruby_block_refuted, C82_ruby_line_refuted show by a witness: sr_js_stacktrace_parse_v8 does not add the two columns of \": \" before it skips the message (lib/js_stacktrace.c:165-184). sr_js_stacktrace_parse and sr_js_frame_parse overwrite the reason the V8 parser gives (lib/js_stacktrace.c:234, lib/js_frame.c:369). sr_ruby_frame_parse subtracts four columns for ':in ' even when fewer were read, so the column can be negative (lib/ruby_frame.c:220-228). sr_ruby_frame_parse counts strlen(\"block in\") for \"block in \" (lib/ruby_frame.c:283-287). sr_ruby_stacktrace_parse counts one line for the first frame and the message, however many they take (lib/ruby_stacktrace.c:228-229)."
  },
  {
   "property": "C83",
   "status": "proved",
   "theorems": [
    "C83_values",
    "C83_undefined",
    "C83_kept",
    "C83_no_leak",
    "C83_pipeline",
    "C83_exceptions",
    "C83_layout",
    "C83_dangling_refuted",
    "C83_leak_refuted",
    "C83_ruby_type_refuted"
   ],
   "note": "Proved except where the code itself deviates, which C83_dangling_refuted, C83_leak_refuted, C83_ruby_type_refuted show by a witness: sr_core_stacktrace_dup copies the pointer to the crash thread, so that of Ruby's copy of a stack trace is freed with the report (lib/core_stacktrace.c:109-121, ruby/lib/satyr.rb:147-154). sr_report_from_json can set a message and return a report all the same; Report.new then raises and never frees the report (lib/report.c:392-441, ruby/lib/satyr.rb:88-105). the stack traces of reports of type ruby and javascript cannot be had from Ruby: the enumeration and the case of Report#stacktrace end at gdb (ruby/lib/satyr.rb:17-22, ruby/lib/satyr.rb:114-127). the binding loads libsatyr.so.3, the library is built as libsatyr.so.4 (ruby/lib/satyr.rb:14, lib/Makefile.am:93); not part of the model."
  },
  {
   "property": "C84",
   "status": "proved",
   "theorems": [
    "C84_trace",
    "C84_trace_same",
    "C84_report_same",
    "C84_report",
    "C84_report_accepted",
    "C84_report_silent",
    "C84_report_true",
    "C84_text",
    "C84_complaint",
    "C84_message_means_null_refuted",
    "C84_one_message_refuted",
    "C84_reason_refuted"
   ],
   "note": "Proved except where the code itself deviates, which C84_message_means_null_refuted, C84_one_message_refuted, C84_reason_refuted show by a witness: json_check_type overwrites *error_message without freeing what is there; with two wrong values the first message is lost and leaks (lib/json_utils.c:56-63, lib/operating_system.c:142-145, lib/report.c:434). desktop or variant of the wrong type, a stack trace that cannot be read and an authentication entry that is not a string leave a message although a report is returned (lib/operating_system.c:142-145, lib/report.c:404, lib/report.c:434); the caller cannot take a message for a failure, as the Ruby binding does. when a mandatory member of the operating system is wrong the optional ones are read all the same, and their message replaces the reason of the refusal (lib/operating_system.c:134-145). the user member is read only if there is a problem member (lib/report.c:365-390)."
  },
  {
   "property": "C85",
   "status": "proved",
   "theorems": [
    "C85_java_either",
    "C85_java_error",
    "C85_java_one_reason",
    "C85_java_counted",
    "C85_java_place",
    "C85_java_frame",
    "C85_java_same",
    "C85_java_blank_line_refuted",
    "C85_java_line_refuted",
    "C85_java_quote_refuted"
   ],
   "note": "Proved except where the code itself deviates, which C85_java_blank_line_refuted, C85_java_line_refuted, C85_java_quote_refuted show by a witness: newlines among blanks are counted as columns, so that line numbers fall behind (lib/java_frame.c:280-281, lib/java_frame.c:331-332, lib/java_frame.c:500-504). the location eats the character after the quotation mark behind a thread name instead of the quotation mark (lib/java_thread.c:331). a blank line after the frames makes the parser refuse the whole text: past the blanks it expects a frame at the end of the text (lib/java_frame.c:329-335)."
  },
  {
   "property": "C86",
   "status": "proved",
   "theorems": [
    "C86_python_either",
    "C86_python_error",
    "C86_python_one_reason",
    "C86_python_frame_reason",
    "C86_python_frame",
    "C86_python_place",
    "C86_python_line",
    "C86_python_same",
    "C86_python_same_frame",
    "C86_python_line_refuted",
    "C86_python_columns_refuted",
    "C86_python_header_refuted",
    "C86_python_syntax_refuted"
   ],
   "note": "Proved except where the code itself deviates, which C86_python_line_refuted, C86_python_columns_refuted, C86_python_header_refuted, C86_python_syntax_refuted show by a witness: the line told for a text without a leading newline is one too far, and a leading newline is counted as a column that is then overwritten (lib/python_stacktrace.c:136-137, lib/python_stacktrace.c:186). the lines of frames are not counted, since sr_location_add with one line and no column changes nothing, and the location of the frames is never reset, so that each frame's columns are added again for every frame below it (lib/python_frame.c:337, lib/python_frame.c:344, lib/python_stacktrace.c:195-208). when the traceback header is missing the place told is behind the last i of the text, and the place of a syntax error is counted from the words invalid syntax, not from the start (lib/python_stacktrace.c:161-175)."
  },
  {
   "property": "C87",
   "status": "proved",
   "theorems": [
    "C87_gdb_either",
    "C87_gdb_error",
    "C87_gdb_one_reason",
    "C87_gdb_frame",
    "C87_gdb_thread",
    "C87_gdb_place",
    "C87_gdb_place_crash",
    "C87_gdb_same",
    "C87_gdb_same_thread",
    "C87_gdb_same_frame",
    "C87_gdb_colon_refuted",
    "C87_gdb_name_refuted",
    "C87_gdb_crash_refuted",
    "C87_gdb_detail_refuted"
   ],
   "note": "Proved except where the code itself deviates, which C87_gdb_colon_refuted, C87_gdb_name_refuted, C87_gdb_crash_refuted, C87_gdb_detail_refuted show by a witness: the header of a crash frame is counted twice, since the search for its end starts again at the beginning of the frame with the location behind the header (lib/gdb_frame.c:326-332). the closing parenthesis of a thread title is not counted, so that the column told for a missing colon is one short (lib/gdb_thread.c:381-393). newlines in the template arguments of a function name are counted as columns (lib/gdb_frame.c:1086-1177). what is wrong inside of a call, its address or its arguments is not told, the messages of the inner parsers are lost (lib/gdb_frame.c:1086-1177)."
  },
  {
   "property": "C88",
   "status": "proved",
   "theorems": [
    "C88_jaccard",
    "C88_jaccard_types",
    "C88_levenshtein",
    "C88_levenshtein_one_length",
    "C88_same_frames",
    "C88_duplicates",
    "C88_levenshtein_refuted",
    "C88_damerau_refuted",
    "C88_jaro_winkler_refuted",
    "C88_core_refuted"
   ],
   "note": "Proved except where the code itself deviates, which C88_levenshtein_refuted, C88_damerau_refuted, C88_jaro_winkler_refuted, C88_core_refuted show by a witness: the scaled Levenshtein distance does not obey the triangle inequality: 1/3, 1/3 and 1 for the threads 12, 121 and 21 (lib/distance.c:268). the Damerau-Levenshtein count does not obey it: 1, 1 and 3 for the threads 31, 13 and 123, since exchanged frames are not edited again (lib/distance.c:249-257)."
  },
  {
   "property": "C89",
   "status": "proved",
   "theorems": [
    "C89_received",
    "C89_duphash",
    "C89_duphash_exact",
    "C89_bthash",
    "C89_reason",
    "C89_crash_thread",
    "C89_short_text",
    "C89_distance",
    "C89_distance_normalized",
    "C89_kernel_address_refuted",
    "C89_kernel_bthash_refuted",
    "C89_kernel_reason_refuted",
    "C89_unmarked_refuted",
    "C89_large_line_refuted"
   ],
   "note": "Proved except where the code itself deviates, which C89_kernel_address_refuted, C89_kernel_bthash_refuted, C89_kernel_reason_refuted, C89_unmarked_refuted, C89_large_line_refuted show by a witness: a 64-bit kernel address is above 2^63 and is clipped by the reader, so the backtrace hash of a kernel oops, and the duplicate hash of a frame without function name, are not the sender's (lib/json_utils.c:41, lib/koops_frame.c:737-749). the reason found in an oops text is not written, so the reason computed from the JSON is another one (lib/koops_stacktrace.c:550-631). if no crash thread is marked the writer marks the first thread, although the thread found by its abort may be another (lib/core_stacktrace.c:281-284)."
  },
  {
   "property": "C90",
   "status": "proved",
   "theorems": [
    "C90_sendable",
    "C90_oops_sendable",
    "C90_comes_back",
    "C90_nothing_lost",
    "C90_oops_duphash",
    "C90_java_line_refuted",
    "C90_many_modules",
    "C90_oops_sendable_refuted",
    "C90_control_refuted",
    "C90_platform_refuted",
    "C90_reason_refuted"
   ],
   "note": "Proved except where the code itself deviates, which C90_java_line_refuted, C90_oops_sendable_refuted, C90_control_refuted, C90_platform_refuted, C90_reason_refuted show by a witness: \"at a.b(Unknown Source:12)\" is read as line 12 without a file name; the writer writes the line only with a file name, so it is lost (lib/java_frame.c:521-541, 577-589). the parser accepts an oops with more than 127 modules, which is written as JSON on which the reader writes beyond its array (lib/koops_stacktrace.c:696-722)."
  },
  {
   "property": "C91",
   "status": "proved",
   "theorems": [
    "C91_any_hops",
    "C91_second_hop",
    "C91_settled",
    "C91_settled_later",
    "C91_js_two_hops",
    "C91_frames",
    "C91_duphash",
    "C91_bthash",
    "C91_reason",
    "C91_accepted",
    "C91_crash_thread_refuted",
    "C91_platform_refuted",
    "C91_negative_refuted"
   ],
   "note": "Proved except where the code itself deviates, which C91_crash_thread_refuted, C91_platform_refuted, C91_negative_refuted show by a witness: a core dump whose crash thread has no frames loses the mark at the first hop, and the writer of the second hop marks the first thread (lib/core_stacktrace.c:281-284, lib/core_thread.c:228-233)."
  },
  {
   "property": "C92",
   "status": "proved",
   "theorems": [
    "C92_printed",
    "C92_received",
    "C92_lost",
    "C92_parts",
    "C92_bytes_refuted",
    "C92_no_threads_refuted"
   ],
   "note": "Proved except where the code itself deviates, which C92_bytes_refuted, C92_no_threads_refuted show by a witness: a problem directory whose environ file has an escape character in DESKTOP_SESSION, or whose core_backtrace is a JSON object without threads, gives a report that is not JSON, without any error (lib/abrt.c:54-69)."
  },
  {
   "property": "C93",
   "status": "proved",
   "theorems": [
    "C93_groups",
    "C93_threads",
    "C93_duplicates",
    "C93_same_sets",
    "C93_unique",
    "C93_order_refuted",
    "C93_far_members_refuted"
   ],
   "note": "Proved except where the code itself deviates, which C93_order_refuted, C93_far_members_refuted show by a witness: three threads with the middle one equally far from both others: with sr_threads_compare and sr_distances_cluster_objects it joins whichever is listed first, so the same threads listed in the opposite order are grouped differently (lib/cluster.c:132-162)."
  },
  {
   "property": "C94",
   "status": "proved",
   "theorems": [
    "C94_normalized",
    "C94_duphash",
    "C94_distance",
    "C94_self_distance",
    "C94_crash_thread",
    "C94_crash_position",
    "C94_duplicates",
    "C94_short_text",
    "C94_reason",
    "C94_quality",
    "C94_bthash_refuted",
    "C94_nameless_refuted",
    "C94_null_refuted"
   ],
   "note": "Proved except where the code itself deviates, which C94_bthash_refuted, C94_nameless_refuted, C94_null_refuted show by a witness: the backtrace hash (sr_stacktrace_get_bthash) contains the addresses of frames and libraries, so the same crash of a program that is loaded elsewhere gets another one (lib/core_frame.c:349-363, lib/gdb_frame.c:1179-1193, lib/koops_frame.c:717-735). a core frame with no build id, function name or fingerprint enters the duplication hash by its address alone, so the same crash loaded elsewhere is no duplicate (lib/core_frame.c:365-389)."
  },
  {
   "property": "C95",
   "status": "proved",
   "theorems": [
    "C95_normalized",
    "C95_duphash",
    "C95_crash_thread",
    "C95_short_text",
    "C95_gdb_duphash",
    "C95_ruby",
    "C95_python",
    "C95_js_place",
    "C95_js_call",
    "C95_java",
    "C95_executable_refuted",
    "C95_odd_name_refuted",
    "C95_gdb_text_refuted"
   ],
   "note": "Proved except where the code itself deviates, which C95_executable_refuted, C95_odd_name_refuted, C95_gdb_text_refuted show by a witness: sr_core_stacktrace_get_reason and the JSON of a core stack trace contain the path of the executable without anonymization, so the name of a user who runs a program from their home directory is told (lib/core_stacktrace.c:381-387). the normalization searches whole paths for parts of library names, the user's name included: for a user libc-dev, a function abort in any program in their home directory counts as that of glibc, and the frames above it are dropped (lib/core_thread.c:151-165, lib/core_frame.c:122-156)."
  },
  {
   "property": "C96",
   "status": "proved",
   "theorems": [
    "C96_edits",
    "C96_edits_closer",
    "C96_jaccard",
    "C96_one_frame",
    "C96_changed_frame",
    "C96_upside_down_edits",
    "C96_upside_down_jaccard",
    "C96_upside_down_refuted",
    "C96_damerau_two_refuted",
    "C96_jaro_winkler_refuted",
    "C96_unknown_refuted"
   ],
   "note": "Proved except where the code itself deviates, which C96_upside_down_refuted, C96_damerau_two_refuted, C96_jaro_winkler_refuted, C96_unknown_refuted show by a witness: the Jaro-Winkler similarity can go down when the same frame is added to both threads: the window for matches and the weights depend on the lengths, and repeated frames match more than once (lib/distance.c:54-108)."
  }
 ]
}