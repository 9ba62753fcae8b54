{
 "claims": [
  {
   "property": "C01",
   "status": "proved",
   "theorems": [
    "C01_vec_refines_sequence"
   ],
   "note": ""
  },
  {
   "property": "C02",
   "status": "proved",
   "theorems": [
    "C02_vec_bounds_checked"
   ],
   "note": ""
  },
  {
   "property": "C03",
   "status": "proved",
   "theorems": [
    "C03_vec_safe_debug"
   ],
   "note": "histories mixing vt_vec_resize (which exposes uninitialised elements) with vt_vec_can_find are excluded: comparing uninitialised bytes is undefined in the model"
  },
  {
   "property": "C04",
   "status": "partial",
   "theorems": [
    "C04_vec_oversized_refuted",
    "C04_vec_create_partial",
    "C04_vec_reserve_partial",
    "C04_exact"
   ],
   "note": "false of the code: the product count*elsize wraps; the outcome of every creation is proved"
  },
  {
   "property": "C05",
   "status": "proved",
   "theorems": [
    "C05_vec_remove"
   ],
   "note": ""
  },
  {
   "property": "C06",
   "status": "proved",
   "theorems": [
    "C06_vec_find_first"
   ],
   "note": ""
  },
  {
   "property": "C07",
   "status": "proved",
   "theorems": [
    "C07_slide_front_sweeps"
   ],
   "note": ""
  },
  {
   "property": "C08",
   "status": "partial",
   "theorems": [
    "C08_slide_back_refuted",
    "C08_slide_back_partial"
   ],
   "note": "false of the code: starts at len-3 and leaves the storage; exact behaviour proved instead"
  },
  {
   "property": "C09",
   "status": "proved",
   "theorems": [
    "C09_push_amortised"
   ],
   "note": ""
  },
  {
   "property": "C10",
   "status": "proved",
   "theorems": [
    "C10_vec_dup_equal",
    "C10_vec_dup_separate",
    "C10_independence"
   ],
   "note": "independence: bytes and header unchanged by any later calls on other containers, on a shared heap with any address policy"
  },
  {
   "property": "C100",
   "status": "proved",
   "theorems": [
    "C100_queries"
   ],
   "note": ""
  },
  {
   "property": "C101",
   "status": "proved",
   "theorems": [
    "C101_independent_values"
   ],
   "note": ""
  },
  {
   "property": "C102",
   "status": "proved",
   "theorems": [
    "C102_allocator_destroy"
   ],
   "note": ""
  },
  {
   "property": "C103",
   "status": "proved",
   "theorems": [
    "C103_typed_vec",
    "C103_typed_span_get",
    "C103_typed_span_set",
    "C103_representation",
    "C103_ranges"
   ],
   "note": "floats are bit patterns; for long double (real) a value is its 16 bytes, padding included: see C147"
  },
  {
   "property": "C104",
   "status": "partial",
   "theorems": [
    "C104_width_mismatch_refuted",
    "C104_truncation_refuted",
    "C104_width_partial",
    "C104_exact"
   ],
   "note": "False of the code: there is no size check; a type narrower than the elements is always read beyond the argument, a wider one is truncated; both proved for all calls."
  },
  {
   "property": "C105",
   "status": "proved",
   "theorems": [
    "C105_clamp_range",
    "C105_clamp_id"
   ],
   "note": ""
  },
  {
   "property": "C106",
   "status": "partial",
   "theorems": [
    "C106_order_refuted",
    "C106_order_partial",
    "C106_min_partial",
    "C106_max_partial",
    "C106_exact"
   ],
   "note": "false if an argument is a NaN: the second argument is returned then"
  },
  {
   "property": "C107",
   "status": "partial",
   "theorems": [
    "C107_is_close_refuted",
    "C107_is_close_partial",
    "C107_is_close_sound_partial",
    "C107_is_close_complete_partial",
    "C107_is_close_sym_partial"
   ],
   "note": "false: the tolerance is absolute and its sign is dropped; proved: exactly what is compared"
  },
  {
   "property": "C108",
   "status": "partial",
   "theorems": [
    "C108_map_to_refuted",
    "C108_map_to_low_partial",
    "C108_map_to_mono_partial",
    "C108_map_to_accurate_partial"
   ],
   "note": "false: the upper end can be exceeded by rounding"
  },
  {
   "property": "C109",
   "status": "proved",
   "theorems": [
    "C109_sqrt",
    "C109_isqrt"
   ],
   "note": ""
  },
  {
   "property": "C11",
   "status": "proved",
   "theorems": [
    "C11_vec_resize_prefix"
   ],
   "note": ""
  },
  {
   "property": "C110",
   "status": "partial",
   "theorems": [
    "C110_special_refuted",
    "C110_special_partial"
   ],
   "note": "false for infinities, negative and subnormal numbers"
  },
  {
   "property": "C111",
   "status": "proved",
   "theorems": [
    "C111_read_float",
    "C111_read_double",
    "C111_read_long_double",
    "C111_read_integers",
    "C111_other_text"
   ],
   "note": ""
  },
  {
   "property": "C112",
   "status": "proved",
   "theorems": [
    "C112_print_float",
    "C112_print_double",
    "C112_print_long_double",
    "C112_buffer",
    "C112_buffer_float",
    "C112_buffer_long_double"
   ],
   "note": ""
  },
  {
   "property": "C113",
   "status": "partial",
   "theorems": [
    "C113_round_trip_refuted",
    "C113_large_float_partial",
    "C113_large_double_partial",
    "C113_large_long_double_partial",
    "C113_multiples_partial",
    "C113_near_partial"
   ],
   "note": "false for negative numbers, infinities, NaNs and small fractions; proved exact from 16 (float), 2^33 (double) and 2^44 (long double) on and for multiples of 1/64, and within a millionth for every non-negative number"
  },
  {
   "property": "C114",
   "status": "partial",
   "theorems": [
    "C114_own_text_refuted",
    "C114_append_refuted",
    "C114_set_partial",
    "C114_append_partial",
    "C114_insert_partial",
    "C114_set_at_partial"
   ],
   "note": "false when the storage has to grow, when inserting in front of the text passed, and when setting it at its own position; proved otherwise"
  },
  {
   "property": "C115",
   "status": "proved",
   "theorems": [
    "C115_mkdir_parents",
    "C115_rmdir_recurse",
    "C115_dir_list",
    "C115_dir_list_recurse",
    "C115_file_read",
    "C115_files",
    "C115_insertf",
    "C115_parse"
   ],
   "note": "running out of memory is not modelled"
  },
  {
   "property": "C116",
   "status": "partial",
   "theorems": [
    "C116_dir_free_refuted",
    "C116_dir_free_partial",
    "C116_listing_partial",
    "C116_recurse_partial"
   ],
   "note": "false for a list iterated half way; proved: exactly the strings already visited stay live"
  },
  {
   "property": "C117",
   "status": "partial",
   "theorems": [
    "C117_refill_refuted",
    "C117_split_partial",
    "C117_dir_list_partial",
    "C117_recurse_partial"
   ],
   "note": "false for lists that held strings; proved: exactly those stay live"
  },
  {
   "property": "C118",
   "status": "partial",
   "theorems": [
    "C118_split_between_refuted",
    "C118_split_between_partial",
    "C118_exact"
   ],
   "note": "false when the right mark comes first and no string was passed: one string is lost each time"
  },
  {
   "property": "C119",
   "status": "proved",
   "theorems": [
    "C119_help_text",
    "C119_bad_tables"
   ],
   "note": ""
  },
  {
   "property": "C12",
   "status": "proved",
   "theorems": [
    "C12_plist_refines_sequence"
   ],
   "note": ""
  },
  {
   "property": "C120",
   "status": "proved",
   "theorems": [
    "C120_statistics_table"
   ],
   "note": ""
  },
  {
   "property": "C121",
   "status": "partial",
   "theorems": [
    "C121_adopted_refuted",
    "C121_adopted_partial"
   ],
   "note": "false while the string has not been resized: the block stays allocated after the allocator is destroyed; proved from the first resize on"
  },
  {
   "property": "C122",
   "status": "proved",
   "theorems": [
    "C122_effect",
    "C122_seen",
    "C122_success",
    "C122_back"
   ],
   "note": "rename(2) is modelled by its contract; relative paths while the working directory itself is moved are outside the model"
  },
  {
   "property": "C123",
   "status": "partial",
   "theorems": [
    "C123_float_option_refuted",
    "C123_float_option_partial"
   ],
   "note": "false for negative numbers and exponents, which are stored as 0; proved for digits with or without a dot, under the conditions of C68"
  },
  {
   "property": "C124",
   "status": "proved",
   "theorems": [
    "C124_random_float",
    "C124_small_bound"
   ],
   "note": "the sine of the C library is any function with finite values between -1 and 1"
  },
  {
   "property": "C125",
   "status": "partial",
   "theorems": [
    "C125_uniform_refuted",
    "C125_uniform_partial",
    "C125_rounded_partial"
   ],
   "note": "false when the difference of the bounds overflows: the result is infinite; proved when the difference is a float, and with a rounding allowance when it is rounded"
  },
  {
   "property": "C126",
   "status": "partial",
   "theorems": [
    "C126_exe_refuted",
    "C126_exe_partial",
    "C126_fails_partial"
   ],
   "note": "false for every path shorter than 4096 bytes: no NUL is written after the path, question marks follow it; length and leading bytes are proved"
  },
  {
   "property": "C127",
   "status": "proved",
   "theorems": [
    "C127_cwd",
    "C127_removed"
   ],
   "note": "release builds have undefined behaviour when the directory has been removed (part of C127_removed)"
  },
  {
   "property": "C128",
   "status": "proved",
   "theorems": [
    "C128_vec",
    "C128_plist",
    "C128_typed",
    "C128_span",
    "C128_str",
    "C128_str_many",
    "C128_heap",
    "C128_system",
    "C128_same_results"
   ],
   "note": "messages printed by VT_DEBUG_PRINTF in debug builds are not part of the results; log and debug modules are C129"
  },
  {
   "property": "C129",
   "status": "partial",
   "theorems": [
    "C129_log_refuted",
    "C129_log_partial"
   ],
   "note": "false when files cannot be opened: the debug build prints an extra message and may close stderr; proved if files can be opened or debug messages are disabled"
  },
  {
   "property": "C13",
   "status": "proved",
   "theorems": [
    "C13_plist_find_first",
    "C13_plist_remove_element",
    "C13_plist_remove_absent"
   ],
   "note": ""
  },
  {
   "property": "C130",
   "status": "partial",
   "theorems": [
    "C130_str_safe_refuted",
    "C130_str_safe_partial",
    "C130_str_call_partial"
   ],
   "note": "false: vt_str_insert_n, vt_str_replace_last, vt_str_reserve and others leave the storage for some arguments; proved for all calls but the listed unguarded ones"
  },
  {
   "property": "C131",
   "status": "partial",
   "theorems": [
    "C131_plist_safe_refuted",
    "C131_plist_safe_partial"
   ],
   "note": "false: sizes in bytes wrap and vt_plist_resize exposes slots nothing was stored in; proved for all other calls"
  },
  {
   "property": "C132",
   "status": "partial",
   "theorems": [
    "C132_append_refuted",
    "C132_full_partial",
    "C132_reserved_partial"
   ],
   "note": "false: every append to a full string reallocates; the exact cost is proved, and that nothing moves once room was reserved"
  },
  {
   "property": "C133",
   "status": "proved",
   "theorems": [
    "C133_push_amortised"
   ],
   "note": ""
  },
  {
   "property": "C134",
   "status": "proved",
   "theorems": [
    "C134_normal_range"
   ],
   "note": "partial correctness: nothing is said about the number of turns of the loop"
  },
  {
   "property": "C135",
   "status": "proved",
   "theorems": [
    "C135_samples",
    "C135_no_deviation",
    "C135_pairs",
    "C135_two"
   ],
   "note": ""
  },
  {
   "property": "C136",
   "status": "partial",
   "theorems": [
    "C136_queries_refuted",
    "C136_queries_early_refuted",
    "C136_create_early_refuted",
    "C136_queries_partial",
    "C136_create_partial"
   ],
   "note": "false in debug builds before 1970: a %s is printed without an argument (datetime.c:156, 167); proved for all other dates and for release builds"
  },
  {
   "property": "C137",
   "status": "proved",
   "theorems": [
    "C137_now",
    "C137_now_text",
    "C137_now_pretty",
    "C137_short_buffer"
   ],
   "note": ""
  },
  {
   "property": "C138",
   "status": "partial",
   "theorems": [
    "C138_success_refuted",
    "C138_success_partial",
    "C138_prefix",
    "C138_failure"
   ],
   "note": "false: fprintf and fclose are not checked, so a full disk is not reported; proved that the text is stored if there is room, and what is stored otherwise"
  },
  {
   "property": "C139",
   "status": "partial",
   "theorems": [
    "C139_lines_refuted",
    "C139_lines_partial"
   ],
   "note": "false for texts with line feeds, which are copied: a message can forge a record; proved for texts without"
  },
  {
   "property": "C14",
   "status": "proved",
   "theorems": [
    "C14_span_reads_buffer",
    "C14_span_writes_buffer",
    "C14_span_bounds_checked"
   ],
   "note": ""
  },
  {
   "property": "C140",
   "status": "partial",
   "theorems": [
    "C140_read_back_refuted",
    "C140_read_back_partial"
   ],
   "note": "false for expressions with a closing bracket; proved for expressions without one and file names without colon"
  },
  {
   "property": "C141",
   "status": "partial",
   "theorems": [
    "C141_find_refuted",
    "C141_find_f32_partial",
    "C141_find_f64_partial"
   ],
   "note": "false for zeros of different sign and NaNs, because bytes are compared; proved for all other numbers"
  },
  {
   "property": "C142",
   "status": "partial",
   "theorems": [
    "C142_order_refuted",
    "C142_order_partial"
   ],
   "note": "false for values starting with a dash and for char* options given twice; proved under the conditions of C68"
  },
  {
   "property": "C143",
   "status": "partial",
   "theorems": [
    "C143_back_refuted",
    "C143_back_partial",
    "C143_back_char_partial",
    "C143_exact"
   ],
   "note": "false if the replacement occurs in the text already; the result is proved for every text"
  },
  {
   "property": "C144",
   "status": "partial",
   "theorems": [
    "C144_twice_refuted",
    "C144_twice_partial",
    "C35_exact"
   ],
   "note": "false for stripping texts of which nothing remains (undefined); proved otherwise"
  },
  {
   "property": "C145",
   "status": "proved",
   "theorems": [
    "C145_tree",
    "C145_effect"
   ],
   "note": ""
  },
  {
   "property": "C146",
   "status": "partial",
   "theorems": [
    "C146_apart_refuted",
    "C146_apart_partial",
    "C146_exact"
   ],
   "note": "false if the last piece contains a separator; what is found then is proved too"
  },
  {
   "property": "C147",
   "status": "proved",
   "theorems": [
    "C147_real_vec",
    "C147_real_span_get",
    "C147_real_span_set",
    "C147_representation"
   ],
   "note": "vt_vec_can_findr is C148"
  },
  {
   "property": "C148",
   "status": "partial",
   "theorems": [
    "C148_find_refuted",
    "C148_find_partial"
   ],
   "note": "false because the padding of a long double is compared too; proved while all paddings are equal"
  },
  {
   "property": "C149",
   "status": "partial",
   "theorems": [
    "C149_seconds_refuted",
    "C149_seconds_partial",
    "C149_dates_refuted",
    "C149_dates_partial"
   ],
   "note": "false while daylight saving is in force (tm_isdst is always 0): off by the saving; proved otherwise"
  },
  {
   "property": "C15",
   "status": "partial",
   "theorems": [
    "C15_span_from_to_refuted",
    "C15_span_from_to_partial",
    "C15_exact"
   ],
   "note": "false of the code exactly for ranges starting at 0 in debug builds"
  },
  {
   "property": "C150",
   "status": "partial",
   "theorems": [
    "C150_add_refuted",
    "C150_add_partial",
    "C150_add_secs"
   ],
   "note": "false while daylight saving is in force: adding nothing moves the date by the saving; proved from standard time"
  },
  {
   "property": "C151",
   "status": "partial",
   "theorems": [
    "C151_difference_refuted",
    "C151_difference_partial"
   ],
   "note": "false when only one of the dates is in daylight saving; proved otherwise"
  },
  {
   "property": "C152",
   "status": "partial",
   "theorems": [
    "C152_days_refuted",
    "C152_days_partial"
   ],
   "note": "false for the last hour of summer days: the next day is found; proved otherwise"
  },
  {
   "property": "C153",
   "status": "partial",
   "theorems": [
    "C153_zero_refuted",
    "C153_negative_refuted",
    "C153_leap_partial",
    "C52_exact"
   ],
   "note": "false for seconds and differences: year 0 is taken as 3800 and negative years as they are; proved for the leap year and days of the year of negative years"
  },
  {
   "property": "C154",
   "status": "partial",
   "theorems": [
    "C154_february_refuted",
    "C154_february_partial",
    "C154_months",
    "C53_exact"
   ],
   "note": "false for negative years (29 days); proved for year 0 and for months out of range"
  },
  {
   "property": "C155",
   "status": "partial",
   "theorems": [
    "C155_invalid_refuted",
    "C155_invalid_partial"
   ],
   "note": "false: -1 is returned exactly before 1970; proved that a later invalid date is answered for the valid date of the same second"
  },
  {
   "property": "C156",
   "status": "partial",
   "theorems": [
    "C156_control_refuted",
    "C156_control_partial"
   ],
   "note": "false: control symbols other than 9 to 13 are not removed; proved for texts without those"
  },
  {
   "property": "C157",
   "status": "partial",
   "theorems": [
    "C157_numeric_refuted",
    "C157_numeric_partial"
   ],
   "note": "false: negative numbers are refused and 1.2.3, a dot and the empty text accepted; proved for unsigned numbers"
  },
  {
   "property": "C158",
   "status": "proved",
   "theorems": [
    "C158_dotted"
   ],
   "note": ""
  },
  {
   "property": "C159",
   "status": "partial",
   "theorems": [
    "C159_bad_refuted",
    "C159_texts_partial"
   ],
   "note": "false: a bad text silently gives 255.255.255.255; proved exactly which texts are read and as what"
  },
  {
   "property": "C16",
   "status": "proved",
   "theorems": [
    "C16_index_2d_roundtrip",
    "C16_index_2d_inverse",
    "C16_index_2d_injective"
   ],
   "note": ""
  },
  {
   "property": "C160",
   "status": "proved",
   "theorems": [
    "C160_stream"
   ],
   "note": ""
  },
  {
   "property": "C161",
   "status": "partial",
   "theorems": [
    "C161_open_refuted",
    "C161_open_partial",
    "C161_close"
   ],
   "note": "false when a start fails after its socket was made: the socket stays open; proved otherwise"
  },
  {
   "property": "C162",
   "status": "partial",
   "theorems": [
    "C162_reused_refuted",
    "C162_freed_refuted",
    "C162_kept_partial",
    "C162_log"
   ],
   "note": "false for vt_debug_redirect_output, which keeps the pointer: a changed buffer moves the output and a freed one is read; proved for the log, and for both while that buffer is left alone"
  },
  {
   "property": "C163",
   "status": "partial",
   "theorems": [
    "C163_inside_refuted",
    "C163_inside_partial",
    "C163_no_links"
   ],
   "note": "false: a link to a directory is followed and what is in that directory is removed; proved if no link below leads to a directory"
  },
  {
   "property": "C164",
   "status": "partial",
   "theorems": [
    "C164_dangling_refuted",
    "C164_remove_partial"
   ],
   "note": "false for links that lead nowhere; proved for the others, with what happens in each case"
  },
  {
   "property": "C165",
   "status": "proved",
   "theorems": [
    "C165_table"
   ],
   "note": ""
  },
  {
   "property": "C166",
   "status": "partial",
   "theorems": [
    "C166_places_refuted",
    "C166_order_partial",
    "C166_same_columns"
   ],
   "note": "false if the number of columns changes; proved that the order of the elements is kept, hence the places if the columns stay"
  },
  {
   "property": "C167",
   "status": "partial",
   "theorems": [
    "C167_create_refuted",
    "C167_resize_refuted",
    "C167_safe_partial"
   ],
   "note": "false where the number of bytes exceeds 2^64; proved below"
  },
  {
   "property": "C168",
   "status": "partial",
   "theorems": [
    "C168_type_refuted",
    "C168_typed_partial",
    "C168_other_type",
    "C168_exact"
   ],
   "note": "false for reading with another type; proved for the right type and for setting"
  },
  {
   "property": "C169",
   "status": "partial",
   "theorems": [
    "C169_grid",
    "C169_column_refuted",
    "C169_row_partial",
    "C169_exact"
   ],
   "note": "a column too large is not stopped: it is a place of a later row; the rest is proved"
  },
  {
   "property": "C17",
   "status": "proved",
   "theorems": [
    "C17_index_3d_roundtrip",
    "C17_index_3d_inverse"
   ],
   "note": ""
  },
  {
   "property": "C170",
   "status": "partial",
   "theorems": [
    "C170_slash_refuted",
    "C170_basename_partial",
    "C170_pop_partial",
    "C170_build",
    "C170_build_n",
    "C170_validate",
    "C170_mixed"
   ],
   "note": "false for '/'; proved for '\\\\' and for every path after vt_path_validate"
  },
  {
   "property": "C171",
   "status": "partial",
   "theorems": [
    "C171_lines_refuted",
    "C171_written_partial",
    "C171_length"
   ],
   "note": "false for line ends in text mode; proved for binary mode and for texts without line ends"
  },
  {
   "property": "C172",
   "status": "partial",
   "theorems": [
    "C172_foreach",
    "C172_reverse_refuted",
    "C172_reverse_partial",
    "C172_step_refuted",
    "C172_step_zero_refuted",
    "C172_step_partial"
   ],
   "note": "false for VT_FOREACH_R (each number is one larger) and for VT_FOREACH_STEP with step 0 or near 2^64"
  },
  {
   "property": "C173",
   "status": "proved",
   "theorems": [
    "C173_source"
   ],
   "note": ""
  },
  {
   "property": "C174",
   "status": "partial",
   "theorems": [
    "C174_cursor_list",
    "C174_cursor_vector",
    "C174_skip_refuted",
    "C174_twice_refuted",
    "C174_ahead_partial",
    "C174_ahead_vector_partial"
   ],
   "note": "false if the visited part changes; the exact rule of the cursor is proved, and the claim for loops that change only what is ahead"
  },
  {
   "property": "C175",
   "status": "partial",
   "theorems": [
    "C175_terminal_refuted",
    "C175_long_refuted",
    "C175_file_partial",
    "C175_complete",
    "C175_alone"
   ],
   "note": "false for terminals and for records longer than the buffer; proved for files"
  },
  {
   "property": "C176",
   "status": "partial",
   "theorems": [
    "C176_sequence",
    "C176_stops",
    "C176_two_parts",
    "C176_readme_refuted"
   ],
   "note": "the rule is proved; the program of the README does not get the directory it is called with"
  },
  {
   "property": "C177",
   "status": "partial",
   "theorems": [
    "C177_date_refuted",
    "C177_random_refuted",
    "C177_serial_partial",
    "C177_date_of_someone",
    "C177_one_thread"
   ],
   "note": "false if calls overlap; proved for calls that do not"
  },
  {
   "property": "C178",
   "status": "proved",
   "theorems": [
    "C178_defined",
    "C178_append",
    "C178_own_text",
    "C178_text",
    "C178_numbers",
    "C178_width",
    "C178_log",
    "C178_debug",
    "C178_help",
    "C178_appendf"
   ],
   "note": "conversions d i u x X c s %"
  },
  {
   "property": "C179",
   "status": "partial",
   "theorems": [
    "C179_refuted",
    "C179_partial",
    "C179_tells",
    "C179_stats"
   ],
   "note": "five messages are undefined whatever the values; proved for all others"
  },
  {
   "property": "C18",
   "status": "proved",
   "theorems": [
    "C18_gswap",
    "C18_pswap",
    "C18_memcmp",
    "C18_memmove",
    "C18_status_names",
    "C18_status_names_exact"
   ],
   "note": ""
  },
  {
   "property": "C180",
   "status": "partial",
   "theorems": [
    "C180_twice_refuted",
    "C180_no_block_refuted",
    "C180_adopted",
    "C78_foreign_free_not_counted"
   ],
   "note": "false: dead blocks reach the C library, foreign ones are freed or taken over; what happens is proved"
  },
  {
   "property": "C181",
   "status": "proved",
   "theorems": [
    "C181_out_of_memory",
    "C181_any_allocator",
    "C181_allocator_calls"
   ],
   "note": ""
  },
  {
   "property": "C182",
   "status": "partial",
   "theorems": [
    "C182_nested",
    "C182_done",
    "C182_alone",
    "C182_mkdir_partial",
    "C182_mkdir_refuted",
    "C182_remove"
   ],
   "note": "false for vt_path_mkdir: a process that loses the race between the check and mkdir is told false although the directory is there; the rest is proved"
  },
  {
   "property": "C183",
   "status": "partial",
   "theorems": [
    "C183_share_refuted",
    "C183_slash_refuted",
    "C183_nested_partial",
    "C183_mkdir",
    "C183_mkdir_refuted",
    "C183_one"
   ],
   "note": "false for paths on a share (the directories are made on the current drive) and with a slash among the separators; proved for paths on drives with backslashes"
  },
  {
   "property": "C184",
   "status": "partial",
   "theorems": [
    "C184_drive_refuted",
    "C184_root_refuted",
    "C184_remove_partial",
    "C184_one"
   ],
   "note": "false for the name of a drive alone (entries of its root are removed in place of those of the working directory) and for the root; proved for all other paths"
  },
  {
   "property": "C185",
   "status": "proved",
   "theorems": [
    "C185_rename",
    "C185_false",
    "C185_across"
   ],
   "note": ""
  },
  {
   "property": "C186",
   "status": "partial",
   "theorems": [
    "C186_list",
    "C186_none",
    "C186_same",
    "C186_list_refuted"
   ],
   "note": "false: the listing of a directory ends at the first sub-directory that may not be read; proved: what is listed, and that only entries near such a directory are missing"
  },
  {
   "property": "C187",
   "status": "partial",
   "theorems": [
    "C187_remove_partial",
    "C187_remove_refuted"
   ],
   "note": "false: true is returned although the directory is still there if a directory in it may not be read; the rest is proved"
  },
  {
   "property": "C188",
   "status": "partial",
   "theorems": [
    "C188_strip",
    "C188_numeric",
    "C188_case",
    "C188_fine_partial",
    "C188_refuted"
   ],
   "note": "false where char is signed and the C library keeps to the standard: <ctype.h> is undefined for such bytes; proved: exactly which calls are affected, and that ASCII texts never are"
  },
  {
   "property": "C189",
   "status": "partial",
   "theorems": [
    "C189_refuted",
    "C189_calls_partial",
    "C189_sequences_partial",
    "C189_found",
    "C189_split_partial",
    "C189_pop",
    "C189_between_partial",
    "C189_join"
   ],
   "note": "false for positions inside a character and for sets of characters, which are sets of bytes; proved if positions fall between characters and sets are ASCII"
  },
  {
   "property": "C19",
   "status": "proved",
   "theorems": [
    "C19_statistics_exact"
   ],
   "note": "up to 2^40 calls; sizes up to 2^48; statistics modulo 2^64"
  },
  {
   "property": "C190",
   "status": "partial",
   "theorems": [
    "C190_text",
    "C190_text_long",
    "C190_six",
    "C190_width",
    "C190_special",
    "C190_back",
    "C190_enough_double",
    "C190_enough_float",
    "C190_enough_long_double",
    "C190_sixteen",
    "C190_back_refuted",
    "C190_appendf"
   ],
   "note": "false for reading back with few places and for negative numbers; proved for enough places (324 for a double, 46 for a float, 4951 for a long double, 16 from 1 on)"
  },
  {
   "property": "C191",
   "status": "partial",
   "theorems": [
    "C191_debug_partial",
    "C191_required",
    "C191_storage",
    "C191_debug_refuted",
    "C191_optional",
    "C191_release"
   ],
   "note": "false for the names of source files and functions, the texts of messages and the buffers of socket calls, which are not checked; proved for all other pointers of all 219 functions; without checks, in release builds, it is proved for which pointers NULL is undefined behaviour"
  },
  {
   "property": "C192",
   "status": "proved",
   "theorems": [
    "C192_tree",
    "C192_effect",
    "C192_last"
   ],
   "note": "a killed process; what the system took is kept (no loss of power)"
  },
  {
   "property": "C193",
   "status": "partial",
   "theorems": [
    "C193_write_refuted",
    "C193_write_partial",
    "C193_again"
   ],
   "note": "false: the old text is lost before the new one is written, and appending again leaves a piece of the first attempt; proved what exactly the file may hold, that nothing else is touched, and that writing again gives the whole text"
  },
  {
   "property": "C194",
   "status": "proved",
   "theorems": [
    "C194_parents",
    "C194_recurse"
   ],
   "note": "calling vt_path_rmdir_recurse again: as long as the directory is there (without it the call returns false, nothing being left to do)"
  },
  {
   "property": "C195",
   "status": "partial",
   "theorems": [
    "C195_replace_partial",
    "C195_full_refuted"
   ],
   "note": "false on a full disk, where vt_file_write returns true for a part of the text; proved if there is room"
  },
  {
   "property": "C196",
   "status": "proved",
   "theorems": [
    "C196_integers",
    "C196_chars",
    "C196_texts",
    "C196_one",
    "C196_appendf"
   ],
   "note": "the conversions d i u x X c s with the lengths none, l, ll and z; the others: C190 (floating point) or not modelled (FmtModel.v)"
  },
  {
   "property": "C197",
   "status": "partial",
   "theorems": [
    "C197_text_refuted",
    "C197_text_partial",
    "C197_back_partial",
    "C197_seconds"
   ],
   "note": "false for year 0, which counts as not set and is written as 3800, and for years not of four digits, whose text ends the program when it is read; proved what is written and read for every year"
  },
  {
   "property": "C198",
   "status": "partial",
   "theorems": [
    "C198_lines_refuted",
    "C198_lines_partial",
    "C198_full_lines"
   ],
   "note": "false for empty lines, which are left out, and for an empty last line, after which the split reads beyond the storage; proved what comes back in every case, and the full statement for lines that are not empty"
  },
  {
   "property": "C199",
   "status": "partial",
   "theorems": [
    "C199_order_refuted",
    "C199_order_partial"
   ],
   "note": "false for years not of four digits, which are written without leading zeros; proved for the years 1000 to 9999"
  },
  {
   "property": "C20",
   "status": "proved",
   "theorems": [
    "C20_tracks_live_blocks"
   ],
   "note": ""
  },
  {
   "property": "C200",
   "status": "partial",
   "theorems": [
    "C200_period_refuted",
    "C200_period_partial"
   ],
   "note": "false: the numbers start over after 65536 calls, for one start time in 65537 after 32, and for one in 252645135 they are all equal; proved that they do not start over sooner"
  },
  {
   "property": "C201",
   "status": "partial",
   "theorems": [
    "C201_starts_refuted",
    "C201_starts_partial",
    "C201_clock"
   ],
   "note": "false for start times a multiple of 252645135 seconds apart; proved for all others, already for the first three numbers"
  },
  {
   "property": "C202",
   "status": "partial",
   "theorems": [
    "C202_return_refuted",
    "C202_return_partial",
    "C202_fuel"
   ],
   "note": "false for one start time in 252645135, for which the loop never ends; proved that it ends within 32769 rounds or never (whether a pair is accepted depends on the sine of the C library)"
  },
  {
   "property": "C203",
   "status": "partial",
   "theorems": [
    "C203_add_refuted",
    "C203_days_partial",
    "C203_months_partial"
   ],
   "note": "false for months added to the 29th, 30th or 31st, which may fall in the month after; proved for days and times, and for months and years up to the 28th"
  },
  {
   "property": "C204",
   "status": "partial",
   "theorems": [
    "C204_order_refuted",
    "C204_order_partial"
   ],
   "note": "false for months added to the last days of a month; proved for days and times, and for months and years up to the 28th"
  },
  {
   "property": "C205",
   "status": "partial",
   "theorems": [
    "C205_table_refuted",
    "C205_table_partial"
   ],
   "note": "false for empty fields (they end the program in debug builds and are left out in release builds) and for rows of one field (NULL); proved for all other tables"
  },
  {
   "property": "C206",
   "status": "partial",
   "theorems": [
    "C206_copy_refuted",
    "C206_copy_partial"
   ],
   "note": "false for files with NUL bytes: the copy ends before the first one and true is returned; proved that it holds exactly the bytes before, hence for files without"
  },
  {
   "property": "C207",
   "status": "partial",
   "theorems": [
    "C207_numbers_refuted",
    "C207_numbers_partial"
   ],
   "note": "false for negative numbers, which come back as 0, and for rows of one number; proved for all other tables of all integer types"
  },
  {
   "property": "C208",
   "status": "partial",
   "theorems": [
    "C208_list_partial",
    "C208_none",
    "C208_one",
    "C208_list_refuted"
   ],
   "note": "false: where directories are too deep for the number of files the listing is returned without them and without what comes after them; proved which entries can be missing, and that nothing is missing if and only if no directory to be listed is that deep"
  },
  {
   "property": "C209",
   "status": "partial",
   "theorems": [
    "C209_remove_partial",
    "C209_enough",
    "C209_remove_refuted"
   ],
   "note": "false when just one more file can be opened; proved for all other numbers, and that with enough of them the limit does not matter"
  },
  {
   "property": "C21",
   "status": "proved",
   "theorems": [
    "C21_destroy_releases_everything"
   ],
   "note": ""
  },
  {
   "property": "C210",
   "status": "proved",
   "theorems": [
    "C210_files"
   ],
   "note": "reading, writing and appending; with one file that can be opened the limit does not matter"
  },
  {
   "property": "C211",
   "status": "partial",
   "theorems": [
    "C211_list_partial",
    "C211_none",
    "C211_list_refuted"
   ],
   "note": "false: what lies in a directory with too long a text is left out; proved that exactly this is left out, in every tree"
  },
  {
   "property": "C212",
   "status": "proved",
   "theorems": [
    "C212_near",
    "C212_far"
   ],
   "note": "with all texts accepted it does what it does without a limit; otherwise false, and nothing with too long a text is removed"
  },
  {
   "property": "C213",
   "status": "partial",
   "theorems": [
    "C213_parents_partial",
    "C213_parents_refuted"
   ],
   "note": "false for paths as long as the limit (a separator is put behind) and longer ones; proved which directories are made"
  },
  {
   "property": "C214",
   "status": "partial",
   "theorems": [
    "C214_timed_refuted",
    "C214_receive_partial",
    "C214_all"
   ],
   "note": "false for vt_socket_receive_timed, which answers 0 in both cases; proved for vt_socket_receive, and that receiving until 0 gives everything"
  },
  {
   "property": "C215",
   "status": "partial",
   "theorems": [
    "C215_datagram_partial",
    "C215_none",
    "C215_long_refuted"
   ],
   "note": "false for datagrams longer than the buffer: the rest is lost, and nothing tells; proved for all others"
  },
  {
   "property": "C216",
   "status": "partial",
   "theorems": [
    "C216_lines_refuted",
    "C216_lines_partial",
    "C216_binary"
   ],
   "note": "false in text mode, where every line comes back with a carriage return; proved exactly that, and for vt_file_appendbln what C198 says"
  },
  {
   "property": "C217",
   "status": "partial",
   "theorems": [
    "C217_table_refuted",
    "C217_table_partial",
    "C217_binary"
   ],
   "note": "false in text mode, where the last field of every row comes back with a carriage return; proved exactly that, and the claim for vt_file_appendbln"
  },
  {
   "property": "C218",
   "status": "partial",
   "theorems": [
    "C218_resave_refuted",
    "C218_resave_partial",
    "C218_size"
   ],
   "note": "false in text mode, where every line feed gets one more carriage return each time; proved exactly that, and the claim for vt_file_writeb"
  },
  {
   "property": "C219",
   "status": "partial",
   "theorems": [
    "C219_numbers_refuted",
    "C219_numbers_partial",
    "C219_binary"
   ],
   "note": "false in text mode, where the last number of every row comes back as 0; proved exactly that, and the claim for vt_file_appendbln"
  },
  {
   "property": "C22",
   "status": "proved",
   "theorems": [
    "C22_no_leak",
    "C22_tracked_blocks"
   ],
   "note": ""
  },
  {
   "property": "C220",
   "status": "proved",
   "theorems": [
    "C220_settings"
   ],
   "note": "the file is new or empty; the text fits in memory"
  },
  {
   "property": "C221",
   "status": "partial",
   "theorems": [
    "C221_settings_refuted",
    "C221_settings_partial"
   ],
   "note": "false in text mode, where every value comes back with a carriage return; proved exactly that, and the claim in binary mode"
  },
  {
   "property": "C222",
   "status": "partial",
   "theorems": [
    "C222_replaced_refuted",
    "C222_replaced_partial",
    "C222_alone"
   ],
   "note": "false: the size is asked for by the path, so the old text may be cut to the length of the new one; proved exactly what is returned, and the claim for texts of equal length"
  },
  {
   "property": "C223",
   "status": "partial",
   "theorems": [
    "C223_written_refuted",
    "C223_written_partial"
   ],
   "note": "false: a beginning of the new text, or the old and the new text mixed may be returned, a debug build may end; proved: the length is that of one moment and every byte is that of the old or the new text at its place, and nothing undefined happens"
  },
  {
   "property": "C224",
   "status": "proved",
   "theorems": [
    "C224_grows"
   ],
   "note": "the file is not empty, in debug builds"
  },
  {
   "property": "C225",
   "status": "partial",
   "theorems": [
    "C225_pop_own_refuted",
    "C225_pop_first_own_partial",
    "C225_pop_last_own_refuted",
    "C225_pop_own_none_partial"
   ],
   "note": "false whenever there is something to pop: the first leaves an empty string, the second stops the debug build and writes in front of the storage in the release build; proved exactly that, and that nothing happens otherwise"
  },
  {
   "property": "C226",
   "status": "proved",
   "theorems": [
    "C226_basename_own",
    "C226_basename_name"
   ],
   "note": "the effect of a separate copy; what that is, is C59"
  },
  {
   "property": "C227",
   "status": "partial",
   "theorems": [
    "C227_between_own_refuted",
    "C227_between_own_found_refuted",
    "C227_between_own_partial"
   ],
   "note": "false whenever both markers are there in this order: the text is read from storage given back before; proved for all other cases"
  },
  {
   "property": "C228",
   "status": "partial",
   "theorems": [
    "C228_remove_own_refuted",
    "C228_remove_own_partial"
   ],
   "note": "false of vt_str_remove_all, which never returns; proved for vt_str_remove_first"
  },
  {
   "property": "C229",
   "status": "proved",
   "theorems": [
    "C229_buffer",
    "C229_alone"
   ],
   "note": "buffer_len is at least 1 and the buffer holds so many bytes"
  },
  {
   "property": "C23",
   "status": "proved",
   "theorems": [
    "C23_str_invariant"
   ],
   "note": ""
  },
  {
   "property": "C230",
   "status": "proved",
   "theorems": [
    "C230_outside",
    "C230_alone"
   ],
   "note": "the path has no . or .. parts; the others leave a proper tree; readdir gives the contents at the opening"
  },
  {
   "property": "C231",
   "status": "partial",
   "theorems": [
    "C231_true_refuted",
    "C231_true_partial"
   ],
   "note": "false: a subdirectory that vanishes between being seen and being listed ends the listing, and the failure of the last rmdir is not reported; proved if the others begin after the listing"
  },
  {
   "property": "C232",
   "status": "proved",
   "theorems": [
    "C232_only",
    "C232_escape"
   ],
   "note": "the text fits in memory"
  },
  {
   "property": "C233",
   "status": "proved",
   "theorems": [
    "C233_each",
    "C233_double"
   ],
   "note": "the replacement is not empty (C31); the text fits in memory"
  },
  {
   "property": "C234",
   "status": "proved",
   "theorems": [
    "C234_remove",
    "C234_removed",
    "C234_list"
   ],
   "note": "the path has no . or .. parts and denotes a directory; readdir gives the contents at the opening"
  },
  {
   "property": "C235",
   "status": "proved",
   "theorems": [
    "C235_code",
    "C235_file"
   ],
   "note": "the text fits in memory; the file is new or empty"
  },
  {
   "property": "C24",
   "status": "proved",
   "theorems": [
    "C24_str_edits",
    "C24_str_edit_sequences"
   ],
   "note": "set and set_at need the new text to fit the old length; set_at ends the text after the new part"
  },
  {
   "property": "C25",
   "status": "partial",
   "theorems": [
    "C25_find_refuted",
    "C25_find_partial",
    "C25_exact"
   ],
   "note": "false for substrings longer than the string: the process always ends then; proved otherwise"
  },
  {
   "property": "C26",
   "status": "proved",
   "theorems": [
    "C26_count",
    "C26_scan_unique",
    "C26_exact"
   ],
   "note": ""
  },
  {
   "property": "C27",
   "status": "proved",
   "theorems": [
    "C27_remove_first"
   ],
   "note": ""
  },
  {
   "property": "C28",
   "status": "partial",
   "theorems": [
    "C28_remove_last_refuted",
    "C28_remove_last_partial",
    "C28_exact"
   ],
   "note": "false of the code: wrong position, NULL when absent; the exact outcome of every case is proved instead"
  },
  {
   "property": "C29",
   "status": "partial",
   "theorems": [
    "C29_remove_all_partial",
    "C29_remove_all_refuted"
   ],
   "note": "never ends for the empty substring; proved for all others"
  },
  {
   "property": "C30",
   "status": "proved",
   "theorems": [
    "C30_remove_c"
   ],
   "note": ""
  },
  {
   "property": "C31",
   "status": "proved",
   "theorems": [
    "C31_replace",
    "C31_replace_empty"
   ],
   "note": ""
  },
  {
   "property": "C32",
   "status": "partial",
   "theorems": [
    "C32_replace_first_refuted",
    "C32_replace_first_partial",
    "C32_exact"
   ],
   "note": "false for substrings longer than the string: the process always ends then; proved otherwise"
  },
  {
   "property": "C33",
   "status": "partial",
   "theorems": [
    "C33_replace_last_refuted",
    "C33_replace_last_partial",
    "C33_exact"
   ],
   "note": "false when absent (always undefined) or self-overlapping (the last of a left-to-right search is replaced); proved otherwise"
  },
  {
   "property": "C34",
   "status": "proved",
   "theorems": [
    "C34_replace_c"
   ],
   "note": ""
  },
  {
   "property": "C35",
   "status": "partial",
   "theorems": [
    "C35_strip_refuted",
    "C35_strip_partial",
    "C35_strip_meaning_partial",
    "C35_exact"
   ],
   "note": "false when nothing remains: always undefined then; proved otherwise"
  },
  {
   "property": "C36",
   "status": "partial",
   "theorems": [
    "C36_split_refuted",
    "C36_split_partial",
    "C36_exact",
    "C36_revives_refuted"
   ],
   "note": "false when the text ends in two separators: undefined if the storage just fits, deleted text may reappear otherwise; proved for all other texts"
  },
  {
   "property": "C37",
   "status": "partial",
   "theorems": [
    "C37_join_split_refuted",
    "C37_join_split_partial",
    "C37_join_split_char_partial",
    "C37_join",
    "C37_join_n",
    "C37_exact"
   ],
   "note": "false when a separator can straddle; proved for clear pieces, and what is found for all others"
  },
  {
   "property": "C38",
   "status": "partial",
   "theorems": [
    "C38_between_refuted",
    "C38_between_partial",
    "C38_between_reuse_partial",
    "C38_between_absent",
    "C38_exact"
   ],
   "note": "false when a right marker comes first or the middle is empty"
  },
  {
   "property": "C39",
   "status": "proved",
   "theorems": [
    "C39_pop_first",
    "C39_pop_first_none",
    "C39_cut_leftmost"
   ],
   "note": ""
  },
  {
   "property": "C40",
   "status": "partial",
   "theorems": [
    "C40_pop_last_refuted",
    "C40_pop_last_partial",
    "C40_pop_last_scan_partial",
    "C40_pop_last_none"
   ],
   "note": "false for self-overlapping separators; proved otherwise"
  },
  {
   "property": "C41",
   "status": "proved",
   "theorems": [
    "C41_equals",
    "C41_equals_z",
    "C41_equals_n",
    "C41_equals_n_stops",
    "C41_starts_with",
    "C41_ends_with"
   ],
   "note": ""
  },
  {
   "property": "C42",
   "status": "proved",
   "theorems": [
    "C42_uppercase",
    "C42_lowercase",
    "C42_case_laws"
   ],
   "note": ""
  },
  {
   "property": "C43",
   "status": "proved",
   "theorems": [
    "C43_is_numeric",
    "C43_is_numeric_z"
   ],
   "note": ""
  },
  {
   "property": "C44",
   "status": "proved",
   "theorems": [
    "C44_validate_len",
    "C44_validate_rewritten"
   ],
   "note": ""
  },
  {
   "property": "C45",
   "status": "partial",
   "theorems": [
    "C45_views_refuted",
    "C45_views_partial",
    "C45_exact",
    "C45_empty"
   ],
   "note": "false: only reserve, resize and shrink are guarded; every other change of a non-empty view is proved to be undefined"
  },
  {
   "property": "C46",
   "status": "proved",
   "theorems": [
    "C46_unsigned_roundtrip"
   ],
   "note": ""
  },
  {
   "property": "C47",
   "status": "partial",
   "theorems": [
    "C47_signed_roundtrip_refuted",
    "C47_signed_roundtrip_partial",
    "C47_signed_text"
   ],
   "note": "false for every negative value (reads back 0); proved for non-negative ones"
  },
  {
   "property": "C48",
   "status": "proved",
   "theorems": [
    "C48_palindrome",
    "C48_digits"
   ],
   "note": ""
  },
  {
   "property": "C49",
   "status": "partial",
   "theorems": [
    "C49_gcd_refuted",
    "C49_gcd_partial",
    "C49_gcd_signed_partial",
    "C49_lcm"
   ],
   "note": "zero arguments and (INT64_MIN,-1) are undefined; proved otherwise"
  },
  {
   "property": "C50",
   "status": "proved",
   "theorems": [
    "C50_random_range",
    "C50_random_seed"
   ],
   "note": ""
  },
  {
   "property": "C51",
   "status": "partial",
   "theorems": [
    "C51_clamp_refuted",
    "C51_clamp_partial",
    "C51_min_max",
    "C51_exact"
   ],
   "note": "clamp differs from its documentation when l > h"
  },
  {
   "property": "C52",
   "status": "partial",
   "theorems": [
    "C52_leap_refuted",
    "C52_leap_witness_refuted",
    "C52_leap_partial",
    "C52_exact"
   ],
   "note": "false for centuries and negative years; the answer for every year is proved"
  },
  {
   "property": "C53",
   "status": "partial",
   "theorems": [
    "C53_month_days_refuted",
    "C53_month_days_partial",
    "C53_exact"
   ],
   "note": "false for February of such centuries and of negative years; the answer for every year and month is proved"
  },
  {
   "property": "C54",
   "status": "proved",
   "theorems": [
    "C54_text_roundtrip"
   ],
   "note": ""
  },
  {
   "property": "C55",
   "status": "partial",
   "theorems": [
    "C55_validation_refuted",
    "C55_validation_partial",
    "C55_complete"
   ],
   "note": "false: separators unchecked, short text read out of bounds"
  },
  {
   "property": "C56",
   "status": "partial",
   "theorems": [
    "C56_create_refuted",
    "C56_create_partial",
    "C56_create_days_partial"
   ],
   "note": "week/year day stay -1 before 1970; the rest proved"
  },
  {
   "property": "C57",
   "status": "proved",
   "theorems": [
    "C57_seconds_roundtrip",
    "C57_order",
    "C57_op"
   ],
   "note": ""
  },
  {
   "property": "C58",
   "status": "partial",
   "theorems": [
    "C58_diff_units",
    "C58_diff_refuted",
    "C58_diff_partial",
    "C58_days_partial"
   ],
   "note": "vt_datetime_diff is wrong (single precision): proved to be off by at most one second up to 180 days and exact for whole days up to 68 years; the other functions proved"
  },
  {
   "property": "C59",
   "status": "partial",
   "theorems": [
    "C59_basename_refuted",
    "C59_basename_partial",
    "C59_exact",
    "C59_cases"
   ],
   "note": "false without separator, with the separator only in front, or at the end; the result is proved for every path"
  },
  {
   "property": "C60",
   "status": "partial",
   "theorems": [
    "C60_pop_refuted",
    "C60_pop_partial",
    "C60_exact"
   ],
   "note": "false for the empty path, always undefined"
  },
  {
   "property": "C61",
   "status": "partial",
   "theorems": [
    "C61_build_refuted",
    "C61_build_partial",
    "C61_validate",
    "C61_exact"
   ],
   "note": "false for empty lists and empty components in debug builds"
  },
  {
   "property": "C62",
   "status": "partial",
   "theorems": [
    "C62_tilde_refuted",
    "C62_tilde_partial",
    "C62_exact"
   ],
   "note": "false for ~ alone and the empty path in debug builds"
  },
  {
   "property": "C63",
   "status": "partial",
   "theorems": [
    "C63_mkdir_parents_refuted",
    "C63_mkdir_parents_partial",
    "C63_exact"
   ],
   "note": "false when a regular file is in the way or the path ends in two separators; proved for every path, also with . and .., what is made and what is returned"
  },
  {
   "property": "C64",
   "status": "proved",
   "theorems": [
    "C64_dir_list",
    "C64_dir_list_recurse"
   ],
   "note": ""
  },
  {
   "property": "C65",
   "status": "partial",
   "theorems": [
    "C65_rmdir_recurse_refuted",
    "C65_rmdir_recurse_partial",
    "C65_failure_partial"
   ],
   "note": "false for paths ending in . or leading through the directory itself, and if the directory itself cannot be removed"
  },
  {
   "property": "C66",
   "status": "partial",
   "theorems": [
    "C66_round_trip_refuted",
    "C66_round_trip_partial",
    "C66_writers_partial",
    "C66_exact"
   ],
   "note": "false for empty files in debug builds"
  },
  {
   "property": "C67",
   "status": "proved",
   "theorems": [
    "C67_read_to_buffer"
   ],
   "note": ""
  },
  {
   "property": "C68",
   "status": "partial",
   "theorems": [
    "C68_parse_refuted",
    "C68_parse_partial",
    "C68_unknown_partial",
    "C68_cases"
   ],
   "note": "false for separate values starting with -, empty string values, unsupported types"
  },
  {
   "property": "C69",
   "status": "proved",
   "theorems": [
    "C69_help"
   ],
   "note": ""
  },
  {
   "property": "C70",
   "status": "partial",
   "theorems": [
    "C70_reassign_refuted",
    "C70_reassign_witness_refuted",
    "C70_reassign_partial"
   ],
   "note": "false unless the lengths are equal"
  },
  {
   "property": "C71",
   "status": "partial",
   "theorems": [
    "C71_routing_refuted",
    "C71_routing_partial"
   ],
   "note": "false if the file of a fatal record cannot be opened, or for names over 4095 characters; proved for all other call sequences"
  },
  {
   "property": "C72",
   "status": "partial",
   "theorems": [
    "C72_checks_refuted",
    "C72_checks_partial",
    "C72_checks_file_partial"
   ],
   "note": "false once stderr was closed by failed debug redirection"
  },
  {
   "property": "C73",
   "status": "partial",
   "theorems": [
    "C73_timed_receive_refuted",
    "C73_timed_receive_witness_refuted",
    "C73_timed_receive_partial",
    "C73_timed_receive_from_partial",
    "C73_poll"
   ],
   "note": "error events without input are reported as timeout"
  },
  {
   "property": "C74",
   "status": "partial",
   "theorems": [
    "C74_own_element_refuted",
    "C74_own_element_partial",
    "C74_exact"
   ],
   "note": "false when the storage moves (undefined) or an insert shifts the source (the element before it is stored); proved otherwise"
  },
  {
   "property": "C75",
   "status": "proved",
   "theorems": [
    "C75_plist_slide_front_sweeps",
    "C75_plist_apply_visits"
   ],
   "note": ""
  },
  {
   "property": "C76",
   "status": "proved",
   "theorems": [
    "C76_plist_dup_equal"
   ],
   "note": "non-empty lists; duplicating an empty one aborts in debug builds"
  },
  {
   "property": "C77",
   "status": "proved",
   "theorems": [
    "C77_allocator_contents"
   ],
   "note": ""
  },
  {
   "property": "C78",
   "status": "proved",
   "theorems": [
    "C78_foreign_free_not_counted"
   ],
   "note": ""
  },
  {
   "property": "C79",
   "status": "proved",
   "theorems": [
    "C79_slide_front"
   ],
   "note": ""
  },
  {
   "property": "C80",
   "status": "proved",
   "theorems": [
    "C80_text_to_unsigned",
    "C80_text_to_signed",
    "C80_other_text"
   ],
   "note": ""
  },
  {
   "property": "C81",
   "status": "partial",
   "theorems": [
    "C81_out_of_range_refuted",
    "C81_unsigned_partial",
    "C81_signed_partial"
   ],
   "note": "false of the code: values wrap; proved: which value is returned"
  },
  {
   "property": "C82",
   "status": "partial",
   "theorems": [
    "C82_calendar_days_refuted",
    "C82_calendar_days_partial",
    "C82_calendar_days_range"
   ],
   "note": "false before 1970; proved from 1970 on"
  },
  {
   "property": "C83",
   "status": "proved",
   "theorems": [
    "C83_pretty"
   ],
   "note": ""
  },
  {
   "property": "C84",
   "status": "partial",
   "theorems": [
    "C84_parsed_days_refuted",
    "C84_parsed_days_witness_refuted",
    "C84_parsed_days_partial"
   ],
   "note": "false of the code"
  },
  {
   "property": "C85",
   "status": "proved",
   "theorems": [
    "C85_from_seconds"
   ],
   "note": ""
  },
  {
   "property": "C86",
   "status": "proved",
   "theorems": [
    "C86_op_calendar"
   ],
   "note": ""
  },
  {
   "property": "C87",
   "status": "partial",
   "theorems": [
    "C87_mkdir_parents_single_refuted",
    "C63_mkdir_parents_partial",
    "C63_exact"
   ],
   "note": "false for single names"
  },
  {
   "property": "C88",
   "status": "proved",
   "theorems": [
    "C88_remove_one",
    "C88_success"
   ],
   "note": ""
  },
  {
   "property": "C89",
   "status": "partial",
   "theorems": [
    "C89_mkdir_refuted",
    "C89_mkdir_partial",
    "C89_exact"
   ],
   "note": "true is returned for an existing regular file; the outcome for every path is proved"
  },
  {
   "property": "C90",
   "status": "proved",
   "theorems": [
    "C90_bad_table"
   ],
   "note": ""
  },
  {
   "property": "C91",
   "status": "partial",
   "theorems": [
    "C91_fallback_refuted",
    "C91_fallback_partial",
    "C91_file_partial"
   ],
   "note": "false of the code from the second message on"
  },
  {
   "property": "C92",
   "status": "partial",
   "theorems": [
    "C92_wait_refuted",
    "C92_wait_witness_refuted",
    "C92_wait_partial",
    "C92_exact"
   ],
   "note": "false for limits of 2^31 ms and more"
  },
  {
   "property": "C93",
   "status": "partial",
   "theorems": [
    "C93_startup_refuted",
    "C93_startup_witness_refuted",
    "C93_startup_partial",
    "C93_accept"
   ],
   "note": "false: the socket leaks on failure; one code is ambiguous"
  },
  {
   "property": "C94",
   "status": "partial",
   "theorems": [
    "C94_ports_refuted",
    "C94_ports_partial",
    "C94_exact"
   ],
   "note": "false for ports above 65535, which stand for their last 16 bits"
  },
  {
   "property": "C95",
   "status": "proved",
   "theorems": [
    "C95_reply"
   ],
   "note": ""
  },
  {
   "property": "C96",
   "status": "proved",
   "theorems": [
    "C96_send"
   ],
   "note": ""
  },
  {
   "property": "C97",
   "status": "proved",
   "theorems": [
    "C97_is_empty",
    "C97_vec_apply",
    "C97_str_apply"
   ],
   "note": ""
  },
  {
   "property": "C98",
   "status": "partial",
   "theorems": [
    "C98_backward_refuted",
    "C98_backward_plist_partial",
    "C98_backward_str_partial"
   ],
   "note": "false of the code: the last two elements are never visited"
  },
  {
   "property": "C99",
   "status": "proved",
   "theorems": [
    "C99_memcopy",
    "C99_memset"
   ],
   "note": ""
  }
 ]
}