{
 "claims": [
  {
   "property": "C01",
   "status": "proved",
   "theorems": [
    "C01_header_read_exactly"
   ],
   "note": "Every version, every header image, anything after it."
  },
  {
   "property": "C02",
   "status": "proved",
   "theorems": [
    "C02_not_atop_rejected"
   ],
   "note": ""
  },
  {
   "property": "C03",
   "status": "proved",
   "theorems": [
    "C03_version_from_aversion",
    "C03_bit15_ignored",
    "C03_version_text_injective"
   ],
   "note": ""
  },
  {
   "property": "C04",
   "status": "proved",
   "theorems": [
    "C04_class_choice",
    "C04_class_by_version_text",
    "C04_version_names_distinct"
   ],
   "note": ""
  },
  {
   "property": "C05",
   "status": "proved",
   "theorems": [
    "C05_compatibility_exact"
   ],
   "note": ""
  },
  {
   "property": "C06",
   "status": "proved",
   "theorems": [
    "C06_exact_exceptions",
    "C06_attribute_error_iff",
    "C06_unchecked_only_value_error",
    "C06_io_errors_pass",
    "C06_only_value_error_refuted"
   ],
   "note": "The documented claim is refuted by C06_only_value_error_refuted; the exact set of exceptions is proved."
  },
  {
   "property": "C07",
   "status": "proved",
   "theorems": [
    "C07_short_header_zero_extended",
    "C07_cut_in_length_fields_rejected",
    "C07_short_header_rejected_refuted"
   ],
   "note": "The documented claim is refuted; what holds instead is proved for every file."
  },
  {
   "property": "C08",
   "status": "proved",
   "theorems": [
    "C08_header_consumption"
   ],
   "note": ""
  },
  {
   "property": "C09",
   "status": "proved",
   "theorems": [
    "C09_log_round_trip"
   ],
   "note": ""
  },
  {
   "property": "C10",
   "status": "proved",
   "theorems": [
    "C10_truncation_lenient",
    "C10_complete_is_longest"
   ],
   "note": ""
  },
  {
   "property": "C11",
   "status": "proved",
   "theorems": [
    "C11_truncation_strict",
    "C11_cut_sample_always_raises_refuted"
   ],
   "note": "The exact behaviour is proved; the documented expectation is refuted."
  },
  {
   "property": "C12",
   "status": "proved",
   "theorems": [
    "C12_modes_with_header",
    "C12_modes_without_header"
   ],
   "note": ""
  },
  {
   "property": "C13",
   "status": "proved",
   "theorems": [
    "C13_bounded_and_terminates",
    "C13_run_is_complete",
    "C13_default_bound",
    "C13_smaller_bound_is_prefix",
    "C13_bound_exact"
   ],
   "note": ""
  },
  {
   "property": "C14",
   "status": "proved",
   "theorems": [
    "C14_consumption",
    "C14_position_in_log",
    "C14_resume"
   ],
   "note": ""
  },
  {
   "property": "C15",
   "status": "proved",
   "theorems": [
    "C15_header_omitted"
   ],
   "note": ""
  },
  {
   "property": "C16",
   "status": "proved",
   "theorems": [
    "C16_nothing_read_before_next",
    "C16_forward_only",
    "C16_finished_stays_finished",
    "C16_throw_at_yield",
    "C16_only_next_and_send_read",
    "C16_methods_forward_only",
    "C16_methods_finished",
    "C16_refused_call_changes_nothing",
    "C16_send",
    "C16_thrown_in_at_yield",
    "C16_thrown_in_before_start",
    "C16_methods_extend_histories"
   ],
   "note": "The first four are about histories of next, close and throw of ordinary exceptions, the others about all methods and arguments (GenMethods.v, CPython 3.11)."
  },
  {
   "property": "C17",
   "status": "proved",
   "theorems": [
    "C17_natural_end",
    "C17_zero_tail"
   ],
   "note": ""
  },
  {
   "property": "C18",
   "status": "proved",
   "theorems": [
    "C18_task_list"
   ],
   "note": ""
  },
  {
   "property": "C19",
   "status": "proved",
   "theorems": [
    "C19_cgroups_exact",
    "C19_cgroups_any_data",
    "C19_cgroups_exact_any_data",
    "C19_first_bytes"
   ],
   "note": ""
  },
  {
   "property": "C20",
   "status": "proved",
   "theorems": [
    "C20_cgroup_gating",
    "C20_versions_with_cgroups"
   ],
   "note": ""
  },
  {
   "property": "C21",
   "status": "proved",
   "theorems": [
    "C21_sstat_validated",
    "C21_no_partial_structs"
   ],
   "note": ""
  },
  {
   "property": "C22",
   "status": "proved",
   "theorems": [
    "C22_layout_sound",
    "C22_sizes"
   ],
   "note": ""
  },
  {
   "property": "C23",
   "status": "proved",
   "theorems": [
    "C23_values_read_back",
    "C23_every_image_has_a_value"
   ],
   "note": ""
  },
  {
   "property": "C24",
   "status": "proved",
   "theorems": [
    "C24_integer_ranges",
    "C24_one_pattern_per_value"
   ],
   "note": ""
  },
  {
   "property": "C25",
   "status": "proved",
   "theorems": [
    "C25_padding_ignored"
   ],
   "note": ""
  },
  {
   "property": "C26",
   "status": "proved",
   "theorems": [
    "C26_keys",
    "C26_placeholders"
   ],
   "note": ""
  },
  {
   "property": "C27",
   "status": "proved",
   "theorems": [
    "C27_counted_arrays"
   ],
   "note": ""
  },
  {
   "property": "C28",
   "status": "proved",
   "theorems": [
    "C28_negative_counts",
    "C28_negative_count_lists_nothing_refuted"
   ],
   "note": "The claim is refuted; the exact behaviour for negative counts is proved."
  },
  {
   "property": "C29",
   "status": "proved",
   "theorems": [
    "C29_text_fields",
    "C29_lenient_reading",
    "C29_only_unicode",
    "C29_valid_text_preserved",
    "C29_cut_character_dropped"
   ],
   "note": ""
  },
  {
   "property": "C30",
   "status": "proved",
   "theorems": [
    "C30_struct_to_dict_total",
    "C30_everything_read_converts"
   ],
   "note": ""
  },
  {
   "property": "C31",
   "status": "proved",
   "theorems": [
    "C31_core_rows",
    "C31_count_and_order"
   ],
   "note": ""
  },
  {
   "property": "C32",
   "status": "proved",
   "theorems": [
    "C32_DSK",
    "C32_LVM",
    "C32_MDD",
    "C32_NETL",
    "C32_spec_determines_rows"
   ],
   "note": ""
  },
  {
   "property": "C33",
   "status": "proved",
   "theorems": [
    "C33_PRC",
    "C33_PRD",
    "C33_PRG",
    "C33_PRM",
    "C33_PRN",
    "C33_one_row_per_process",
    "C33_PRG_one_row_per_process",
    "C33_spec_determines_rows",
    "C33_spec_determines_cmd_rows",
    "rows_apply"
   ],
   "note": ""
  },
  {
   "property": "C34",
   "status": "proved",
   "theorems": [
    "C34_CPL",
    "C34_CPU",
    "C34_MEM",
    "C34_NETU",
    "C34_PAG",
    "C34_SWP"
   ],
   "note": ""
  },
  {
   "property": "C35",
   "status": "proved",
   "theorems": [
    "C35_process_rows_fail_exactly",
    "C35_device_rows_exact",
    "C35_parseables_never_fail_refuted"
   ],
   "note": "The claim is refuted; when and how rows fail is proved exactly."
  },
  {
   "property": "C36",
   "status": "proved",
   "theorems": [
    "C36_unsupported_parseables",
    "C37_full_output_any_file",
    "C37_full_output"
   ],
   "note": ""
  },
  {
   "property": "C37",
   "status": "proved",
   "theorems": [
    "C37_full_output",
    "C37_parseable_output",
    "C37_full_output_any_file",
    "C37_parseable_output_any_file",
    "C37_entries_determined",
    "C37_rows_determined"
   ],
   "note": ""
  },
  {
   "property": "C38",
   "status": "proved",
   "theorems": [
    "C38_truncated_full",
    "C38_truncated_parseable",
    "C38_open_and_header_errors",
    "C38_exceptions",
    "C38_parseable_exceptions",
    "C38_damaged_gzip",
    "C38_cut_gzip"
   ],
   "note": "How many bytes a damaged gzip file delivers, and with which exception it then fails, are parameters of the theorems."
  },
  {
   "property": "C39",
   "status": "proved",
   "theorems": [
    "C39_gzip_iff_gz_in_path",
    "C39_open",
    "C39_same_output",
    "C39_plain_log_at_gz_path",
    "C39_gzip_at_plain_path",
    "C39_location_independent_refuted"
   ],
   "note": "The documented ability is refuted; what each path gives is proved."
  },
  {
   "property": "C40",
   "status": "proved",
   "theorems": [
    "C40_first_read_decides",
    "C40_transparent",
    "C40_get_header_cache_invisible"
   ],
   "note": ""
  },
  {
   "property": "C41",
   "status": "proved",
   "theorems": [
    "C41_decompressor_exact",
    "C41_decompress_exact",
    "C41_error_exact",
    "C41_stream_unambiguous",
    "C41_conforming_streams_usable",
    "C41_cut_stream_fails",
    "C41_trailing_bytes_ignored",
    "C41_every_payload_has_a_stream",
    "C41_exact_streams_satisfy_contract"
   ],
   "note": ""
  },
  {
   "property": "C42",
   "status": "proved",
   "theorems": [
    "C42_text_reads_back",
    "C42_non_finite_floats_only",
    "C42_document_determines_value",
    "C42_text_is_ascii",
    "C42_float_reads_back",
    "C42_float_text_unique",
    "C42_value_reads_back",
    "C42_says_one_value",
    "C42_printing_injective",
    "C42_float_shortest",
    "C42_float_closest",
    "C42_float_digits",
    "C42_float_notation"
   ],
   "note": "The first four hold for every float.__repr__ that gives JSON numbers; the others for the modelled one (FloatRepr.v)."
  },
  {
   "property": "C43",
   "status": "proved",
   "theorems": [
    "C43_in_order_until_first_failure",
    "C43_all_readable",
    "C43_later_files_not_read"
   ],
   "note": ""
  },
  {
   "property": "C44",
   "status": "proved",
   "theorems": [
    "C44_iteration_exceptions"
   ],
   "note": ""
  },
  {
   "property": "C45",
   "status": "proved",
   "theorems": [
    "C45_usage",
    "C45_double_dash",
    "C45_split_files_rejected",
    "C45_parseables_take_following_words",
    "C45_every_command_line",
    "C45_shortest_spellings",
    "C45_options_first_refuted"
   ],
   "note": "argparse of CPython 3.11 is part of the model. Options before the files are refuted for -P NAMES."
  },
  {
   "property": "C46",
   "status": "proved",
   "theorems": [
    "C46_usage",
    "C46_double_dash",
    "C46_every_command_line",
    "C46_only_named_files_opened",
    "C46_crashes"
   ],
   "note": ""
  },
  {
   "property": "C47",
   "status": "proved",
   "theorems": [
    "C47_unknown_parseable",
    "C47_unknown_parseable_log",
    "C47_no_samples"
   ],
   "note": ""
  },
  {
   "property": "C48",
   "status": "proved",
   "theorems": [
    "C48_shared_queue",
    "C48_exactly_once",
    "C48_resume",
    "C48_polling",
    "C48_partial_write_lost",
    "C48_polling_any_time_refuted"
   ],
   "note": "Polling at arbitrary times is refuted; polling between complete samples is proved."
  },
  {
   "property": "C49",
   "status": "proved",
   "theorems": [
    "C49_document",
    "C49_rows_document",
    "C49_output_determines_entries"
   ],
   "note": ""
  },
  {
   "property": "C50",
   "status": "proved",
   "theorems": [
    "C50_gunzip_exact",
    "C50_open_exact",
    "C50_unambiguous",
    "C50_crc_exact",
    "C50_concatenation",
    "C50_padding",
    "C50_cut",
    "C50_every_content",
    "C50_burst_detected"
   ],
   "note": "CPython's gzip module is part of the model."
  },
  {
   "property": "C51",
   "status": "proved",
   "theorems": [
    "C51_attributes_exact",
    "C51_dictionary_exact",
    "C51_paths_distinct",
    "C51_samples",
    "C51_header",
    "C51_document",
    "C51_dictionary_determines_fields",
    "C51_output_determines_log"
   ],
   "note": "The tables (SpecFormatTables.v) are produced by tools/gen_format.py, which lays the structs out with CPython's own ctypes."
  },
  {
   "property": "C52",
   "status": "proved",
   "theorems": [
    "C52_wrong_magic_text",
    "C52_incompatible_text",
    "C52_unknown_version_text",
    "C52_text_determines_lengths",
    "C52_text_determines_magic"
   ],
   "note": ""
  },
  {
   "property": "C53",
   "status": "proved",
   "theorems": [
    "C53_read_as_latest",
    "C53_log_round_trip",
    "C53_minor_below_11",
    "C53_minor_below_11_position",
    "C53_newer_logs_complete_refuted"
   ],
   "note": "That every newer log with 2.12 structs is read completely is refuted for minor versions below 11."
  },
  {
   "property": "C54",
   "status": "proved",
   "theorems": [
    "C54_decompressed_size",
    "C54_gunzip_size",
    "C54_samples_bounded",
    "C54_memory_bounded",
    "C54_memory_without_cgroups",
    "C54_tasks_bounded",
    "C54_cgroups_bounded_refuted"
   ],
   "note": "Counts the bytes of the structs returned, not Python's own object overhead. The bound for get_cstat is refuted."
  },
  {
   "property": "C55",
   "status": "proved",
   "theorems": [
    "C55_objects_are_values",
    "C55_samples_stay",
    "C55_write_isolated",
    "C55_sample_writes_invisible",
    "C55_header_object",
    "C55_header_is_live"
   ],
   "note": "Heap.v models memory blocks; assignments to the version bytes of the header are excluded (C40)."
  },
  {
   "property": "C56",
   "status": "proved",
   "theorems": [
    "C56_honest_object",
    "C56_bytesio_honest",
    "C56_any_object",
    "C56_header_request",
    "C56_short_record_read_is_silent"
   ],
   "note": "The silent loss on short reads is proved for every well-formed log."
  },
  {
   "property": "C57",
   "status": "proved",
   "theorems": [
    "C57_modules_load",
    "C57_get_header",
    "C57_check_compatibility",
    "C57_versions",
    "C57_get_record",
    "C57_get_sstat",
    "C57_get_tstat",
    "C57_get_cstat",
    "C57_generate_statistics",
    "C57_generate_defaults",
    "C57_for_loop",
    "C57_source_reads_log",
    "C57_methods"
   ],
   "note": "Source.v is written by tools/gen_source.py from the parse tree of /repo; PyEval.v is the semantics."
  },
  {
   "property": "C58",
   "status": "proved",
   "theorems": [
    "C58_struct_to_dict",
    "C58_header_to_dict",
    "C58_chainer_to_dict"
   ],
   "note": "As C57, for struct_to_dict."
  },
  {
   "property": "C59",
   "status": "proved",
   "theorems": [
    "C59_parsers",
    "C59_for_loop"
   ],
   "note": "As C57, for the parsers."
  },
  {
   "property": "C60",
   "status": "proved",
   "theorems": [
    "C60_parse_file",
    "C60_parse_file_defaults",
    "C60_main",
    "C60_command",
    "C60_prints_log",
    "C60_prints_truncated_log",
    "C60_prints_rows",
    "C60_prints_error"
   ],
   "note": "As C57, for reader.py; main is given the namespace of parse_args (C63)."
  },
  {
   "property": "C61",
   "status": "proved",
   "theorems": [
    "C61_damaged_block",
    "C61_checksum_changed",
    "C61_few_bytes_changed",
    "C61_same_checksum",
    "C61_blocks_are_streams",
    "C61_checksum_damaged_log",
    "C61_small_damage_log"
   ],
   "note": "Larger damage can escape a 32-bit checksum; nothing is claimed for it."
  },
  {
   "property": "C62",
   "status": "proved",
   "theorems": [
    "C62_modules_import",
    "C62_format",
    "C62_struct_attributes",
    "C62_interpreter_modules",
    "C62_interpreter_headers",
    "C62_method_text",
    "C62_nested",
    "C62_chainer",
    "C62_class_names"
   ],
   "note": "SourceClasses.v is written by tools/gen_source.py from the parse tree of /repo; PyClasses.v is the semantics of class statements."
  },
  {
   "property": "C63",
   "status": "proved",
   "theorems": [
    "C63_parse_args",
    "C63_usage",
    "C63_every_command_line",
    "C63_command"
   ],
   "note": "SourceArgs.v is written by tools/gen_source.py; PyArgs.v is the semantics of argparse for parsers of this kind. One hypothesis: among the ASCII characters, the decimal digits are 0 to 9."
  },
  {
   "property": "C64",
   "status": "proved",
   "theorems": [
    "C64_any_order",
    "C64_order_irrelevant",
    "C64_public_functions",
    "C64_script",
    "C64_struct_modules",
    "C64_interpreter_names"
   ],
   "note": "SourcePackage.v is written by tools/gen_source.py; PyPackage.v is the semantics of import and of the top-level statements. 8 is the depth of nested imports that the model allows at least."
  },
  {
   "property": "C65",
   "status": "proved",
   "theorems": [
    "C65_exported",
    "C65_isinstance",
    "C65_every_version",
    "C65_kinds_disjoint",
    "C65_none",
    "C65_none_is_cstat_refuted",
    "C65_samples",
    "C65_chainer"
   ],
   "note": "The expectation that only cgroup statistics pass isinstance with CStat is refuted: None does too."
  },
  {
   "property": "C66",
   "status": "proved",
   "theorems": [
    "C66_for_loop",
    "C66_readme_header_any",
    "C66_readme_header",
    "C66_readme_usage_any",
    "C66_readme_usage_refused",
    "C66_readme_unopened",
    "C66_readme_usage_truncated",
    "C66_readme_usage",
    "C68_readme_text"
   ],
   "note": "The two statements of README.md that compute and format a float stand here as any statements that print a line of the two numbers or raise for a zero divisor; C68 has the real ones."
  },
  {
   "property": "C67",
   "status": "proved",
   "theorems": [
    "C67_get_record",
    "C67_end_of_file",
    "C67_get_sstat",
    "C67_get_tstat",
    "C67_get_cstat",
    "C67_get_cstat_written",
    "C67_by_hand",
    "C67_readme_by_hand",
    "C67_readme_by_hand_log"
   ],
   "note": "The docstrings announce ValueError where these functions raise nothing (get_record) or zlib.error (cut blocks); the theorems say what happens."
  },
  {
   "property": "C68",
   "status": "proved",
   "theorems": [
    "C68_readme_text",
    "C68_line_unique",
    "C68_line_exists",
    "C68_accurate",
    "C68_monotone",
    "C68_shown_unique",
    "C68_program_any",
    "C68_program_truncated",
    "C68_program",
    "C68_by_hand"
   ],
   "note": "SourceReadme.v is generated from README.md; PyFloat.v models CPython's int/int division, int - float and the format .02%; infinities and subnormals are not modelled (no sample reaches them)."
  }
 ]
}