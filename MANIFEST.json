{
 "claims": [
  {
   "property": "C01",
   "status": "proved",
   "theorems": [
    "C01_size_roundtrip",
    "C01_size_bytes",
    "C01_large_size_refuted",
    "C01_limit_is_unknown_refuted"
   ],
   "note": "Finding: sizes from 2^35-1 on without a forced length are corrupted (refuted theorems)."
  },
  {
   "property": "C02",
   "status": "proved",
   "theorems": [
    "C02_size_minimal"
   ],
   "note": ""
  },
  {
   "property": "C03",
   "status": "proved",
   "theorems": [
    "C03_unknown_written",
    "C03_unknown_read",
    "C03_unknown_length",
    "C03_unknown_head"
   ],
   "note": ""
  },
  {
   "property": "C04",
   "status": "proved",
   "theorems": [
    "C04_reader_in_bounds",
    "C04_reader_fails_iff",
    "C04_reader_sound",
    "C04_reader_tail_independent"
   ],
   "note": ""
  },
  {
   "property": "C05",
   "status": "proved",
   "theorems": [
    "C05_signed_roundtrip",
    "C05_forced_size_refuted",
    "C05_large_negative_refuted"
   ],
   "note": "Exact range of the round trip; forced sizes and differences at or below -2^27 proved wrong."
  },
  {
   "property": "C06",
   "status": "proved",
   "theorems": [
    "C06_id_roundtrip",
    "C06_id_bytes",
    "C06_id_prefix_free"
   ],
   "note": ""
  },
  {
   "property": "C07",
   "status": "proved",
   "theorems": [
    "C07_uint_roundtrip",
    "C07_uint_minimal"
   ],
   "note": ""
  },
  {
   "property": "C08",
   "status": "proved",
   "theorems": [
    "C08_sint_minimal",
    "C08_sint_bytes",
    "C08_sint_read_unsigned_char",
    "C08_sint_read_signed_char",
    "C08_sint_roundtrip",
    "C08_sint_signed_char_refuted",
    "C08_sint_empty_refuted"
   ],
   "note": "Reader exact for unsigned char; for signed char the value read is characterised and 128 is a counterexample."
  },
  {
   "property": "C09",
   "status": "proved",
   "theorems": [
    "C09_crc_any_chunks",
    "C09_crc_matches",
    "C09_crc_render_read",
    "C09_crc_matches_big_endian",
    "C09_crc_big_endian_refuted",
    "C09_crc_table_in_bounds"
   ],
   "note": "Little-endian build equals IEEE; big-endian build proved to be byte-swapped (finding)."
  },
  {
   "property": "C10",
   "status": "proved",
   "theorems": [
    "C10_crc_detects_burst",
    "C10_crc_detects_4bytes"
   ],
   "note": ""
  },
  {
   "property": "C100",
   "status": "proved",
   "theorems": [
    "C100_zero",
    "C100_one_refuted"
   ],
   "note": "C100_one_refuted: the finding."
  },
  {
   "property": "C101",
   "status": "proved",
   "theorems": [
    "C101_history",
    "C101_readback",
    "C101_sizes",
    "C101_types",
    "C101_hide",
    "C101_wrap_refuted"
   ],
   "note": "C101_wrap_refuted: the finding; uint_fast32_t of 64 bits has no such collision for identifiers below 2^56."
  },
  {
   "property": "C102",
   "status": "proved",
   "theorems": [
    "C102_references",
    "C102_set_refuted",
    "C102_null"
   ],
   "note": "C102_set_refuted: the finding."
  },
  {
   "property": "C103",
   "status": "proved",
   "theorems": [
    "C103_fractions",
    "C103_equivalence",
    "C103_wide_refuted"
   ],
   "note": "C103_wide_refuted: the finding."
  },
  {
   "property": "C104",
   "status": "proved",
   "theorems": [
    "C104_found",
    "C104_no_id",
    "C104_no_size",
    "C104_cut_refuted",
    "C104_overrun_refuted",
    "C104_unknown_refuted",
    "C104_cases"
   ],
   "note": "Stream as position and remaining bytes; findings as refuted theorems."
  },
  {
   "property": "C105",
   "status": "proved",
   "theorems": [
    "C105_kept",
    "C105_order",
    "C105_art",
    "C105_art_first_refuted",
    "C105_land_refuted",
    "C105_overrun_refuted"
   ],
   "note": "Attachments with AttachedFile children only, names as stored by EBML_StringGet; findings as refuted theorems."
  },
  {
   "property": "C106",
   "status": "proved",
   "theorems": [
    "C106_lacing",
    "C106_old_profiles",
    "C106_lacing_refuted"
   ],
   "note": "Universal for numbers below 2^31-1; C106_lacing_refuted is the finding for larger ones."
  },
  {
   "property": "C107",
   "status": "proved",
   "theorems": [
    "C107_unoptimize",
    "C107_keep_none",
    "C107_keep_zlib",
    "C107_keep_strip",
    "C107_forced",
    "C107_plain",
    "C107_strip",
    "C107_video",
    "C107_not_video",
    "C107_empty_private",
    "C107_keep_refuted",
    "C107_plain_refuted",
    "C107_private_only_refuted",
    "C107_video_refuted"
   ],
   "note": "One theorem per mode of mkclean; the _refuted theorems are the findings named in the statement. zlib itself is a parameter."
  },
  {
   "property": "C108",
   "status": "proved",
   "theorems": [
    "C108_registered",
    "C108_order",
    "C108_lookup",
    "C108_kind",
    "C108_again",
    "C108_cycle_refuted"
   ],
   "note": "All orders of definitions; one finding as a refuted theorem (cyclic parents). Single module; creating singletons touches no other class."
  },
  {
   "property": "C109",
   "status": "proved",
   "theorems": [
    "C109_enumeration",
    "C109_waiting_refuted"
   ],
   "note": "For settled sets of classes; one finding as a refuted theorem (waiting classes are listed)."
  },
  {
   "property": "C11",
   "status": "proved",
   "theorems": [
    "C11_void_full_size",
    "C11_void_too_small"
   ],
   "note": ""
  },
  {
   "property": "C110",
   "status": "proved",
   "theorems": [
    "C110_property",
    "C110_one",
    "C110_others",
    "C110_mixed_refuted",
    "C110_bit_refuted"
   ],
   "note": "For tidy tables (a property has only handlers or none, data in a bit has its bit, no class declares a bit alone); what happens without is C110_mixed_refuted and C110_bit_refuted."
  },
  {
   "property": "C111",
   "status": "proved",
   "theorems": [
    "C111_set_get",
    "C111_bits",
    "C111_null",
    "C111_others",
    "C111_refused",
    "C111_update",
    "C111_read_refused",
    "C111_fraction_refuted",
    "C111_readonly_refuted"
   ],
   "note": "For data in the object of types other than strings, references and arrays; fractions only when set without data (C111_fraction_refuted); release functions, class checks and notification left out; update functions do not change the object."
  },
  {
   "property": "C112",
   "status": "proved",
   "theorems": [
    "C112_read_back",
    "C112_tags",
    "C112_text_refuted",
    "C112_forged_refuted",
    "C112_long_refuted",
    "C112_line_break_refuted",
    "C112_root_blank_refuted",
    "C112_blank_added_refuted",
    "C112_deep_refuted"
   ],
   "note": "Read back by a reader written for the purpose; blanks around texts do not count. Texts with '<' or '&', long lines and deep nesting are findings."
  },
  {
   "property": "C113",
   "status": "proved",
   "theorems": [
    "C113_attribute",
    "C113_bounded"
   ],
   "note": "Strings, numbers, truth values, binary data, points, rectangles."
  },
  {
   "property": "C114",
   "status": "proved",
   "theorems": [
    "C114_options",
    "C114_one_file",
    "C114_version",
    "C114_unknown_value",
    "C114_ignored",
    "C114_scale_refuted",
    "C114_last_refuted",
    "C114_alt_refuted",
    "C114_same_file_refuted"
   ],
   "note": "Settings asked for by any list of options (C114_options, C114_one_file), --version/--help, unknown values, ignored arguments; decimal --timecodescale, last unknown option, negative --alt-3d and equal files are refuted with witnesses. Numbers of --timecodescale and --alt-3d are those of the modelled scanners."
  },
  {
   "property": "C115",
   "status": "proved",
   "theorems": [
    "C115_output",
    "C115_not_input",
    "C115_root_refuted",
    "C115_long_refuted"
   ],
   "note": "Name of the default output for paths that fit (C115_output), never the input (C115_not_input); root directory, backslash and cut paths are refuted."
  },
  {
   "property": "C116",
   "status": "proved",
   "theorems": [
    "C116_accepted",
    "C116_profile",
    "C116_profiles",
    "C116_version_refuted",
    "C116_huge_refuted"
   ],
   "note": "Accepted exactly when supported (C116_accepted), which segment and profile (C116_profile, C116_profiles); refused versions 3-5, missing head and huge versions are refuted with witnesses. Reading of elements is an input (C05 and others model it)."
  },
  {
   "property": "C117",
   "status": "proved",
   "theorems": [
    "C117_head",
    "C117_profile",
    "C117_again",
    "C117_webm",
    "C117_not_webm",
    "C117_again_refuted"
   ],
   "note": "DocType and versions (C117_head), reading the result again (C117_again), WebM not optimised; versions 3-5 and --doctype 1 refuted. --alt-3d left out."
  },
  {
   "property": "C118",
   "status": "proved",
   "theorems": [
    "C118_names",
    "C118_mkclean",
    "C118_bounded",
    "C118_history",
    "C118_again_refuted"
   ],
   "note": "Names for all inputs that fit (C118_names, C118_mkclean), bounds (C118_bounded), histories of passes (C118_history); own name repeated, short names and doubled from are refuted."
  },
  {
   "property": "C119",
   "status": "proved",
   "theorems": [
    "C119_kept",
    "C119_clusters",
    "C119_result",
    "C119_tags_refuted"
   ],
   "note": "Last readable element of each kind, all readable clusters, results -6 and -7; several Tags and unreadable clusters refuted with witnesses."
  },
  {
   "property": "C12",
   "status": "proved",
   "theorems": [
    "C12_void_replace",
    "C12_void_replace_exact_fit",
    "C12_void_replace_refused",
    "C12_gap_of_two_refuted"
   ],
   "note": "Finding: the filler is always short of the gap by the coded length of the gap."
  },
  {
   "property": "C120",
   "status": "proved",
   "theorems": [
    "C120_info",
    "C120_ends",
    "C120_date",
    "C120_zero_refuted"
   ],
   "note": "Scale, duration (rational numbers, rounding of double left out), order and date; termination for positive scales (C120_ends), non-termination for 0 (C120_zero_refuted). With --live at most one Duration child is assumed for its removal."
  },
  {
   "property": "C121",
   "status": "proved",
   "theorems": [
    "C121_sound",
    "C121_concat",
    "C121_null_refuted",
    "C121_unknown_size_refuted"
   ],
   "note": "EBML header bodies must not contain the bytes of an EBML header or segment identifier that parse as an element; segments of at least 12 bytes"
  },
  {
   "property": "C122",
   "status": "proved",
   "theorems": [
    "C122_exact",
    "C122_beyond_refuted"
   ],
   "note": "the block size of 8192 as in the code"
  },
  {
   "property": "C123",
   "status": "proved",
   "theorems": [
    "C123_few",
    "C123_done_refuted",
    "C123_progress_refuted",
    "C123_quiet_one"
   ],
   "note": "opening and writing of the outputs succeed; a pointer made of a small number, and the second close of the output, count as a crash"
  },
  {
   "property": "C124",
   "status": "proved",
   "theorems": [
    "C124_no_use_after_free",
    "C124_no_dangling",
    "C124_others_kept",
    "C124_delete_referred_refuted"
   ],
   "note": "all histories by the rules; the rule on children something refers to is necessary (refuted without it)"
  },
  {
   "property": "C125",
   "status": "proved",
   "theorems": [
    "C125_counted",
    "C125_last_frees",
    "C125_others_hold",
    "C125_nothing_left",
    "C125_cycle_refuted"
   ],
   "note": "all histories by the rules; cycles leak (refuted)"
  },
  {
   "property": "C126",
   "status": "proved",
   "theorems": [
    "C126_lost_dropped",
    "C126_cue_refuted"
   ],
   "note": "all clusters whose lost elements only the cluster holds; refuted for blocks that cue points refer to"
  },
  {
   "property": "C127",
   "status": "proved",
   "theorems": [
    "C127_uncompress",
    "C127_damaged",
    "C127_compress",
    "C127_round_trip",
    "C127_empty_refuted"
   ],
   "note": "zlib is a parameter; its promises (ZlibSpec.v) are hypotheses, met by a toy codec in the examples. C127_empty_refuted: an empty frame never ends"
  },
  {
   "property": "C128",
   "status": "proved",
   "theorems": [
    "C128_write",
    "C128_round_trip",
    "C128_again",
    "C128_table",
    "C128_laced_failure",
    "C128_failed_refuted",
    "C128_big_refuted",
    "C128_fixed_refuted",
    "C128_other_scope"
   ],
   "note": "Refuted parts in C128_fixed_refuted, C128_big_refuted, C128_failed_refuted; the write and read theorems hold for lacings that fit the compressed sizes and frames that grow by at most 100 bytes"
  },
  {
   "property": "C129",
   "status": "proved",
   "theorems": [
    "C129_finite",
    "C129_never_finite_refuted",
    "C129_close"
   ],
   "note": "the library's function is refuted for every element of unknown size (C129_never_finite_refuted), as the statement says; ending the unknown size and giving the size by the two other functions is proved (C129_close)"
  },
  {
   "property": "C13",
   "status": "proved",
   "theorems": [
    "C13_update_size",
    "C13_update_stable",
    "C13_render_file",
    "C13_render_memory",
    "C13_left_out",
    "C13_no_value",
    "C13_mixed_defaults_refuted"
   ],
   "note": "For trees with well-typed values, valid IDs and sizes below 2^35-1 (the writable predicate of TreeSpec.v). Finding: C13_mixed_defaults_refuted."
  },
  {
   "property": "C130",
   "status": "proved",
   "theorems": [
    "C130_text",
    "C130_distinct",
    "C130_small_refuted",
    "C130_zero_refuted"
   ],
   "note": "a buffer that is too small is left without an end (C130_small_refuted); the ID 0 has an empty text with a length of 4 (C130_zero_refuted)"
  },
  {
   "property": "C131",
   "status": "partial",
   "theorems": [
    "C131_time",
    "C131_time_distinct",
    "C131_smallest_refuted",
    "C131_colour_partial",
    "C131_colour_refuted"
   ],
   "note": "times proved but for -2^31, whose negation overflows (C131_smallest_refuted); colours proved for less than 128 of red (C131_colour_partial), refuted beyond (C131_colour_refuted: pure red is #060000)"
  },
  {
   "property": "C132",
   "status": "proved",
   "theorems": [
    "C132_headers",
    "C132_comments_refuted",
    "C132_inside",
    "C132_beyond_refuted"
   ],
   "note": "C132_headers for headers below 255 bytes; C132_comments_refuted and C132_beyond_refuted for the rest, C132_inside for memory safety"
  },
  {
   "property": "C133",
   "status": "proved",
   "theorems": [
    "C133_others",
    "C133_source",
    "C133_source_alone",
    "C133_missing",
    "C133_output",
    "C133_protected_refuted",
    "C133_same_refuted"
   ],
   "note": "the program between opening and closing is a parameter (any result, any bytes); C133_protected_refuted and C133_same_refuted are the findings"
  },
  {
   "property": "C134",
   "status": "proved",
   "theorems": [
    "C134_cut",
    "C134_whole",
    "C134_crash",
    "C134_value_told",
    "C134_master_told_refuted"
   ],
   "note": "the loss of the last bytes of a master is not told: C134_master_told_refuted; a crash is taken to leave a prefix of the bytes written"
  },
  {
   "property": "C135",
   "status": "proved",
   "theorems": [
    "C135_free",
    "C135_safe",
    "C135_set",
    "C135_read",
    "C135_copy",
    "C135_apart",
    "C135_given_back",
    "C135_given_back_refuted",
    "C135_copy_refuted",
    "C135_default_refuted",
    "C135_memory_refuted"
   ],
   "note": "All histories of calls in any order; the refuted parts are the findings in the statement."
  },
  {
   "property": "C136",
   "status": "proved",
   "theorems": [
    "C136_ends",
    "C136_rounds",
    "C136_levels",
    "C136_nested"
   ],
   "note": "Collectors are any functions of the state of the program; collectors that change the list are excluded by the statement."
  },
  {
   "property": "C137",
   "status": "proved",
   "theorems": [
    "C137_child",
    "C137_by_name",
    "C137_by_class",
    "C137_ends",
    "C137_found",
    "C137_letters",
    "C137_reads",
    "C137_setting",
    "C137_node",
    "C137_parent",
    "C137_long_refuted",
    "C137_twins_refuted"
   ],
   "note": "All trees and expressions; the two findings are refuted with witnesses, the first for every long name."
  },
  {
   "property": "C138",
   "status": "proved",
   "theorems": [
    "C138_safe",
    "C138_value",
    "C138_written",
    "C138_size",
    "C138_alive",
    "C138_new",
    "C138_unknown_refuted",
    "C138_copy_refuted",
    "C138_measured_refuted",
    "C138_failed_refuted"
   ],
   "note": "All histories; four findings, each refuted for a whole family of data. Data handed in that lies in the element itself is not modelled."
  },
  {
   "property": "C139",
   "status": "proved",
   "theorems": [
    "C139_made",
    "C139_refused",
    "C139_makeable",
    "C139_not_makeable",
    "C139_gone",
    "C139_count",
    "C139_back",
    "C139_memory_refuted",
    "C139_single_refuted"
   ],
   "note": "Modules are loaded beforehand; references between nodes are in C124 and C125."
  },
  {
   "property": "C14",
   "status": "proved",
   "theorems": [
    "C14_render_encodes",
    "C14_render_memory_encodes",
    "C14_read_back",
    "C14_round_trip",
    "C14_unknown_size_refuted"
   ],
   "note": "Little-endian build, files below 4 GB, finite sizes; signed integers on signed-char hosts only where C08 allows. Finding: C14_unknown_size_refuted."
  },
  {
   "property": "C140",
   "status": "proved",
   "theorems": [
    "C140_copied",
    "C140_kept",
    "C140_other",
    "C140_references",
    "C140_data",
    "C140_memory",
    "C140_twice",
    "C140_again",
    "C140_order_refuted",
    "C140_size_refuted"
   ],
   "note": "Properties are independent of one another and a node is not copied onto itself (Props.v has the reading and setting of one property); ExprDup is any function on the bytes of an expression; C140_twice has types that depend on the class alone."
  },
  {
   "property": "C141",
   "status": "proved",
   "theorems": [
    "C141_header",
    "C141_lossless",
    "C141_longest",
    "C141_test",
    "C141_same_frames_refuted",
    "C141_empty_refuted"
   ],
   "note": "Built without the compression libraries, as in Block.v; memory never runs out."
  },
  {
   "property": "C142",
   "status": "proved",
   "theorems": [
    "C142_handles",
    "C142_deleted",
    "C142_listing",
    "C142_listed",
    "C142_dangling_refuted",
    "C142_far_refuted"
   ],
   "note": "The listing assumes names that fit and exist; both assumptions are shown to be needed (C142_dangling_refuted, C142_far_refuted)."
  },
  {
   "property": "C143",
   "status": "proved",
   "theorems": [
    "C143_ends",
    "C143_read",
    "C143_write",
    "C143_holds",
    "C143_seek",
    "C143_skip",
    "C143_skip_file",
    "C143_skip_buffered",
    "C143_stuck_refuted",
    "C143_back_refuted",
    "C143_end_refuted",
    "C143_count_refuted"
   ],
   "note": "The four refuted theorems are the findings."
  },
  {
   "property": "C144",
   "status": "proved",
   "theorems": [
    "C144_leaves",
    "C144_all",
    "C144_module_refuted"
   ],
   "note": "Classes of the module derived from the class of modules are excluded when such classes do not go (goes); C144_module_refuted shows why."
  },
  {
   "property": "C145",
   "status": "proved",
   "theorems": [
    "C145_shown",
    "C145_nearest_refuted"
   ],
   "note": "all rates and buffers; kbit/s are cut, not rounded (refuted)"
  },
  {
   "property": "C146",
   "status": "proved",
   "theorems": [
    "C146_history",
    "C146_every",
    "C146_closed",
    "C146_failed"
   ],
   "note": "all histories with all failures"
  },
  {
   "property": "C147",
   "status": "proved",
   "theorems": [
    "C147_found",
    "C147_events",
    "C147_none",
    "C147_bit",
    "C147_kinds",
    "C147_bit_refuted",
    "C147_readonly_refuted"
   ],
   "note": "for descriptions as they are written (sound); two general expectations refuted"
  },
  {
   "property": "C148",
   "status": "proved",
   "theorems": [
    "C148_found",
    "C148_own",
    "C148_text",
    "C148_hidden_refuted",
    "C148_given",
    "C148_enumerated",
    "C148_named"
   ],
   "note": "functions in descriptions may answer anything for the node; its state is taken as fixed during a call; the order of classes is nearest first"
  },
  {
   "property": "C149",
   "status": "proved",
   "theorems": [
    "C149_found",
    "C149_unique",
    "C149_again",
    "C149_units",
    "C149_types_refuted",
    "C149_none_refuted"
   ],
   "note": "C149_types_refuted and C149_none_refuted are the findings; the tables are those of the pinned source"
  },
  {
   "property": "C15",
   "status": "proved",
   "theorems": [
    "C15_status",
    "C15_corruption",
    "C15_empty_refuted",
    "C15_depth_zero_refuted"
   ],
   "note": "Arbitrary content bytes. Findings: C15_empty_refuted, C15_depth_zero_refuted."
  },
  {
   "property": "C16",
   "status": "proved",
   "theorems": [
    "C16_terminates_safely",
    "C16_stays_in_context",
    "C16_ignores_bytes_after_context",
    "C16_start_after_context_refuted"
   ],
   "note": "Finding: a start beyond the outermost context end is not guarded (refuted theorem)."
  },
  {
   "property": "C17",
   "status": "proved",
   "theorems": [
    "C17_element_matches_bytes",
    "C17_finds_element_at_position",
    "C17_skips_no_element",
    "C17_resynchronises",
    "C17_resynchronises_near_end_refuted",
    "C17_element_inside_context_refuted",
    "C17_element_overhang",
    "C17_stale_id_length_refuted"
   ],
   "note": "Findings as refuted theorems: overhang by header length, stale ID length and missed element at the end of a context."
  },
  {
   "property": "C18",
   "status": "proved",
   "theorems": [
    "C18_check",
    "C18_add",
    "C18_creation_ends",
    "C18_recursive_schema_refuted",
    "C18_created_complete",
    "C18_add_complete",
    "C18_repeatable_refuted",
    "C18_without_defaults_refuted",
    "C18_default_restored",
    "C18_existing_child",
    "C18_new_checksum"
   ],
   "note": "Schemas as indexed contexts (may be recursive). Findings: C18_repeatable_refuted, C18_without_defaults_refuted, C18_recursive_schema_refuted."
  },
  {
   "property": "C19",
   "status": "proved",
   "theorems": [
    "C19_find_first",
    "C19_find_next",
    "C19_count",
    "C19_append_last",
    "C19_clear_empties",
    "C19_sort_children",
    "C19_default_sort_refuted"
   ],
   "note": "Over the pointer heap of NodeTree.v: FindFirst/FindNext/Count/Append/Clear/Sort of a master's children; default sort order across different IDs is refuted (C19_default_sort_refuted)."
  },
  {
   "property": "C20",
   "status": "proved",
   "theorems": [
    "C20_history_keeps_forest",
    "C20_set_parent_moves",
    "C20_listed_once",
    "C20_no_cycles",
    "C20_cycle_possible_refuted",
    "C20_foreign_sibling_refuted",
    "C20_clear_detaches",
    "C20_move_before"
   ],
   "note": "Any history of SetParent/Clear/detach keeps a forest with every child listed exactly once and no cycles, provided the caller never makes a node its own descendant's child and Before is a child of the new parent; both provisos are shown necessary (the two _refuted theorems)."
  },
  {
   "property": "C21",
   "status": "proved",
   "theorems": [
    "C21_sort_permutes_and_orders",
    "C21_sort_safe_for_any_comparison",
    "C21_sort_stable",
    "C21_sort_unique",
    "C21_fast_sort_stable_refuted"
   ],
   "note": ""
  },
  {
   "property": "C22",
   "status": "proved",
   "theorems": [
    "C22_find",
    "C22_sorted_is_searchable",
    "C22_find_without_order",
    "C22_add",
    "C22_add_without_memory",
    "C22_remove",
    "C22_histories"
   ],
   "note": ""
  },
  {
   "property": "C23",
   "status": "proved",
   "theorems": [
    "C23_append",
    "C23_insert",
    "C23_delete",
    "C23_delete_outside_faults",
    "C23_shrink",
    "C23_resize",
    "C23_copy"
   ],
   "note": ""
  },
  {
   "property": "C24",
   "status": "proved",
   "theorems": [
    "C24_queue_histories",
    "C24_no_fault",
    "C24_write",
    "C24_read"
   ],
   "note": ""
  },
  {
   "property": "C25",
   "status": "proved",
   "theorems": [
    "C25_write",
    "C25_large_track",
    "C25_read",
    "C25_empty_frame_refuted"
   ],
   "note": "Model of the build without zlib, bzlib and LZO. Finding: C25_empty_frame_refuted."
  },
  {
   "property": "C26",
   "status": "proved",
   "theorems": [
    "C26_xiph_round_trip",
    "C26_long_frame_refuted"
   ],
   "note": "Model of the build without zlib, bzlib and LZO. Finding: C26_long_frame_refuted (heap overflow on re-rendering)."
  },
  {
   "property": "C27",
   "status": "proved",
   "theorems": [
    "C27_ebml_round_trip",
    "C27_long_code_refuted"
   ],
   "note": "Model of the build without zlib, bzlib and LZO. Finding: C27_long_code_refuted."
  },
  {
   "property": "C28",
   "status": "proved",
   "theorems": [
    "C28_fixed_round_trip",
    "C28_remainder",
    "C28_256_frames_refuted"
   ],
   "note": "Model of the build without zlib, bzlib and LZO. Finding: C28_256_frames_refuted (endless loop)."
  },
  {
   "property": "C29",
   "status": "proved",
   "theorems": [
    "C29_size",
    "C29_one_ebml"
   ],
   "note": "Model of the build without zlib, bzlib and LZO. "
  },
  {
   "property": "C30",
   "status": "proved",
   "theorems": [
    "C30_table",
    "C30_total",
    "C30_frames_inside",
    "C30_oversize_refuted",
    "C30_negative_size_refuted",
    "C30_zero_count_refuted",
    "C30_xiph_end_refuted"
   ],
   "note": "Model of the build without zlib, bzlib and LZO. EBML lacing is outside C30_total because it is not safe: C30_zero_count_refuted, C27_long_code_refuted. Findings: C30_oversize_refuted, C30_negative_size_refuted, C30_xiph_end_refuted."
  },
  {
   "property": "C31",
   "status": "proved",
   "theorems": [
    "C31_lossless",
    "C31_refuses",
    "C31_scope_refuted"
   ],
   "note": "Model of the build without zlib, bzlib and LZO. Finding: C31_scope_refuted."
  },
  {
   "property": "C32",
   "status": "proved",
   "theorems": [
    "C32_set_get",
    "C32_refused",
    "C32_append",
    "C32_append_untimed",
    "C32_written",
    "C32_written_close_refuted",
    "C32_set_again_refuted",
    "C32_read_only_refuted",
    "C32_move",
    "C32_cluster_set",
    "C32_cluster_set_far_refuted",
    "C32_link_empty_refuted",
    "C32_link_read"
   ],
   "note": "Tracks whose TrackTimestampScale is 1.0, scales below 2^38 ns. Findings: C32_written_close_refuted, C32_set_again_refuted, C32_read_only_refuted, C32_cluster_set_far_refuted, C32_link_empty_refuted."
  },
  {
   "property": "C33",
   "status": "proved",
   "theorems": [
    "C33_get_frame",
    "C33_no_frame",
    "C33_times",
    "C33_unknown",
    "C33_unknown_end",
    "C33_skip",
    "C33_skip_no_frame",
    "C33_skip_stripped_refuted"
   ],
   "note": "Model of the build without zlib, bzlib and LZO. Finding: C33_skip_stripped_refuted."
  },
  {
   "property": "C34",
   "status": "proved",
   "theorems": [
    "C34_sort",
    "C34_lookup",
    "C34_lookup_none",
    "C34_lookup_void_refuted",
    "C34_sort_void_refuted",
    "C34_sort_two_voids_refuted"
   ],
   "note": "Cues of cue points only; refuted theorems for other children"
  },
  {
   "property": "C35",
   "status": "proved",
   "theorems": [
    "C35_seek",
    "C35_seek_data",
    "C35_seek_exact",
    "C35_seek_unlinked",
    "C35_seek_id_refuted",
    "C35_cue",
    "C35_cue_no_cluster",
    "C35_cue_unknown_time_refuted"
   ],
   "note": "Seek entries and cue points, whatever they held; positions below 2^62, exact 64-bit variant"
  },
  {
   "property": "C36",
   "status": "proved",
   "theorems": [
    "C36_bounded",
    "C36_ends",
    "C36_exact",
    "C36_not_consumed",
    "C36_too_long",
    "C36_every",
    "C36_overread_refuted"
   ],
   "note": "exact characterisation of success; the over-read of a truncated length is C36_overread_refuted"
  },
  {
   "property": "C37",
   "status": "proved",
   "theorems": [
    "C37_memory_stream_is_a_file",
    "C37_no_offset_no_restriction",
    "C37_seek_before_offset_refuted",
    "C37_null_count_refuted"
   ],
   "note": ""
  },
  {
   "property": "C38",
   "status": "proved",
   "theorems": [
    "C38_reads_lose_nothing",
    "C38_reads_like_the_file",
    "C38_writes_arrive_in_order",
    "C38_write",
    "C38_attach",
    "C38_interleaving_refuted",
    "C38_partial_flush_refuted"
   ],
   "note": ""
  },
  {
   "property": "C39",
   "status": "proved",
   "theorems": [
    "C39_write",
    "C39_read",
    "C39_round_trip",
    "C39_safe",
    "C39_whole",
    "C39_prefix_refuted",
    "C39_overlong_refuted"
   ],
   "note": "All code points below 2^21. Findings proved as refutations: text that does not fit is not cut at a prefix (C39_prefix_refuted); overlong NUL accepted (C39_overlong_refuted)."
  },
  {
   "property": "C40",
   "status": "proved",
   "theorems": [
    "C40_copy",
    "C40_copy_n",
    "C40_append",
    "C40_append_n",
    "C40_append_full",
    "C40_unterminated_refuted"
   ],
   "note": "Source and destination are taken to be different buffers. Finding: C40_unterminated_refuted."
  },
  {
   "property": "C41",
   "status": "proved",
   "theorems": [
    "C41_order",
    "C41_equal",
    "C41_total",
    "C41_prefix",
    "C41_prefix_only",
    "C41_extension_refuted"
   ],
   "note": "Finding: C41_extension_refuted."
  },
  {
   "property": "C42",
   "status": "proved",
   "theorems": [
    "C42_to_text",
    "C42_codes",
    "C42_text_code_text",
    "C42_code_text_code",
    "C42_upper",
    "C42_cut",
    "C42_fill_refuted"
   ],
   "note": "Upper-casing as in the C locale. Finding: C42_fill_refuted."
  },
  {
   "property": "C43",
   "status": "proved",
   "theorems": [
    "C43_add",
    "C43_add_twice",
    "C43_remove",
    "C43_remove_keeps",
    "C43_protocol",
    "C43_no_protocol",
    "C43_split",
    "C43_split_null_refuted",
    "C43_rel",
    "C43_rel_abs",
    "C43_abs",
    "C43_rel_slash_refuted",
    "C43_upper",
    "C43_upper_slash",
    "C43_upper_host",
    "C43_upper_shorter",
    "C43_upper_smb_refuted",
    "C43_reduce",
    "C43_reduce_diverges_refuted",
    "C43_reduce_dots_refuted",
    "C43_exts"
   ],
   "note": "Path helpers for targets other than Windows: delimiters, scheme, splitting, relative and absolute paths, one level up, reduction of '..' and the list of extensions, each against an independent description. Findings as _refuted theorems: NULL write in SplitPath, RelPath/AbsPath with a trailing '/', UpperPath on smb://, ReduceLocalPath without end and on names that begin with '..'."
  },
  {
   "property": "C44",
   "status": "proved",
   "theorems": [
    "C44_set_get",
    "C44_file",
    "C44_read",
    "C44_monotone",
    "C44_late_refuted",
    "C44_reference_refuted",
    "C44_clock",
    "C44_2038_refuted"
   ],
   "note": "gmtime and localtime not modelled. Findings proved as C44_late_refuted, C44_reference_refuted, C44_2038_refuted."
  },
  {
   "property": "C45",
   "status": "proved",
   "theorems": [
    "C45_frames",
    "C45_aac",
    "C45_kept",
    "C45_ac3_low",
    "C45_ac3_reserved",
    "C45_dts_long",
    "C45_short_refuted"
   ],
   "note": "The Vorbis branch needs an external codec helper and is not modelled. Findings proved as C45_ac3_low, C45_ac3_reserved, C45_dts_long, C45_short_refuted."
  },
  {
   "property": "C46",
   "status": "proved",
   "theorems": [
    "C46_print",
    "C46_bounded",
    "C46_numerals",
    "C46_wide_field_refuted",
    "C46_fourcc_refuted",
    "C46_numbers_refuted",
    "C46_end_refuted"
   ],
   "note": "Formats of literals, %%, d, i, x, X, s, c, p; float directives not modelled. Refuted outside the stated ranges, with witnesses."
  },
  {
   "property": "C47",
   "status": "proved",
   "theorems": [
    "C47_float_bits_roundtrip"
   ],
   "note": ""
  },
  {
   "property": "C48",
   "status": "proved",
   "theorems": [
    "C48_read_total",
    "C48_null_dereference_refuted",
    "C48_memory_checksum_refuted"
   ],
   "note": "Termination and memory safety; NULL dereference and memory-stream over-read are findings with witness files."
  },
  {
   "property": "C49",
   "status": "proved",
   "theorems": [
    "C49_copy_renders_same",
    "C49_forced_size_refuted",
    "C49_unknown_size_refuted",
    "C49_unset_string_refuted"
   ],
   "note": "Findings: C49_forced_size_refuted, C49_unknown_size_refuted, C49_unset_string_refuted. The copied dummy's pointer into the original's context is not modelled."
  },
  {
   "property": "C50",
   "status": "proved",
   "theorems": [
    "C50_reports",
    "C50_ends",
    "C50_deletion_refuted"
   ],
   "note": "Finding: C50_deletion_refuted."
  },
  {
   "property": "C51",
   "status": "proved",
   "theorems": [
    "C51_auto_round_trip",
    "C51_shortest_refuted"
   ],
   "note": "Model of the build without zlib, bzlib and LZO. 256 equal frames are excluded: C28_256_frames_refuted. Finding: C51_shortest_refuted."
  },
  {
   "property": "C52",
   "status": "proved",
   "theorems": [
    "C52_read_again",
    "C52_kept"
   ],
   "note": "Model of the build without zlib, bzlib and LZO. "
  },
  {
   "property": "C53",
   "status": "proved",
   "theorems": [
    "C53_first_match",
    "C53_high_track_refuted",
    "C53_cue_to_block"
   ],
   "note": "tracks below 32768; refuted above"
  },
  {
   "property": "C54",
   "status": "proved",
   "theorems": [
    "C54_safe",
    "C54_sorted",
    "C54_two_timestamps_refuted",
    "C54_mixed_refuted",
    "C54_close_refuted",
    "C54_far_refuted"
   ],
   "note": "one Timestamp; one form of blocks and times 100 us apart for the order; refuted otherwise"
  },
  {
   "property": "C55",
   "status": "proved",
   "theorems": [
    "C55_frames",
    "C55_total",
    "C55_dense_refuted",
    "C55_retry_refuted"
   ],
   "note": "findings: C55_dense_refuted, C55_retry_refuted"
  },
  {
   "property": "C56",
   "status": "proved",
   "theorems": [
    "C56_to_utf8",
    "C56_from_utf8",
    "C56_from_text"
   ],
   "note": "All single-byte code pages of the library's table, generated from the source tables; codepages looked up by name are not modelled (MemoryRead of the list of pages)."
  },
  {
   "property": "C57",
   "status": "proved",
   "theorems": [
    "C57_to_utf16",
    "C57_from_utf16",
    "C57_cut_refuted"
   ],
   "note": "Finding: C57_cut_refuted. With a NULL conversion CharConvUS dereferences it, so the theorems take an actual page."
  },
  {
   "property": "C58",
   "status": "proved",
   "theorems": [
    "C58_index",
    "C58_empty"
   ],
   "note": "Names without commas."
  },
  {
   "property": "C59",
   "status": "proved",
   "theorems": [
    "C59_int",
    "C59_int64",
    "C59_digits",
    "C59_guid",
    "C59_top_bit_refuted"
   ],
   "note": "Refuted with witnesses for words with the top bit set."
  },
  {
   "property": "C60",
   "status": "proved",
   "theorems": [
    "C60_scan",
    "C60_int_round_trip",
    "C60_int64_round_trip",
    "C60_int64_refuted",
    "C60_scan_refuted"
   ],
   "note": "%f not modelled. Findings proved as C60_int64_refuted (for all such numbers) and C60_scan_refuted."
  },
  {
   "property": "C61",
   "status": "proved",
   "theorems": [
    "C61_set_algo",
    "C61_set_header",
    "C61_off",
    "C61_ask_again",
    "C61_ask_changes_refuted",
    "C61_two_encodings_refuted"
   ],
   "note": ""
  },
  {
   "property": "C62",
   "status": "proved",
   "theorems": [
    "C62_plain",
    "C62_as_read",
    "C62_new_track_refuted",
    "C62_removed_refuted"
   ],
   "note": ""
  },
  {
   "property": "C63",
   "status": "proved",
   "theorems": [
    "C63_read_tracks",
    "C63_read_tracks_header",
    "C63_no_track",
    "C63_read_track",
    "C63_write_tracks",
    "C63_write_track",
    "C63_unnumbered",
    "C63_twice_refuted",
    "C63_write_null_refuted"
   ],
   "note": ""
  },
  {
   "property": "C64",
   "status": "proved",
   "theorems": [
    "C64_cluster",
    "C64_all_linked"
   ],
   "note": ""
  },
  {
   "property": "C65",
   "status": "proved",
   "theorems": [
    "C65_simple",
    "C65_block",
    "C65_block_mark_refuted",
    "C65_block_unmark_refuted"
   ],
   "note": ""
  },
  {
   "property": "C66",
   "status": "proved",
   "theorems": [
    "C66_ids",
    "C66_tables",
    "C66_defaults",
    "C66_found",
    "C66_found_global",
    "C66_not_found",
    "C66_round_trip",
    "C66_read_safe"
   ],
   "note": "The tables are transcribed by script. Blocks are excluded from the round trip (their own functions are C25-C31). The check of segment UID sizes on reading is a hypothesis (16 bytes)."
  },
  {
   "property": "C67",
   "status": "proved",
   "theorems": [
    "C67_created",
    "C67_lists"
   ],
   "note": ""
  },
  {
   "property": "C68",
   "status": "proved",
   "theorems": [
    "C68_encode",
    "C68_length",
    "C68_short",
    "C68_empty_refuted",
    "C68_decode",
    "C68_safe"
   ],
   "note": ""
  },
  {
   "property": "C69",
   "status": "proved",
   "theorems": [
    "C69_int",
    "C69_none",
    "C69_printed",
    "C69_least_refuted",
    "C69_fixed",
    "C69_hex",
    "C69_colour",
    "C69_fourcc",
    "C69_word",
    "C69_symbol",
    "C69_after"
   ],
   "note": ""
  },
  {
   "property": "C70",
   "status": "proved",
   "theorems": [
    "C70_simplify",
    "C70_exact",
    "C70_denominator_refuted",
    "C70_read",
    "C70_read_whole",
    "C70_negative_refuted",
    "C70_double",
    "C70_double_refuted"
   ],
   "note": ""
  },
  {
   "property": "C71",
   "status": "proved",
   "theorems": [
    "C71_shown",
    "C71_half_up",
    "C71_half_up_refuted",
    "C71_percent",
    "C71_round_trip",
    "C71_negative_refuted"
   ],
   "note": ""
  },
  {
   "property": "C72",
   "status": "proved",
   "theorems": [
    "C72_result",
    "C72_sound",
    "C72_status",
    "C72_status_refuted",
    "C72_header_refuted"
   ],
   "note": "Elements as the reader makes them (shaped, ValidatorSpec.v); findings in the _refuted theorems."
  },
  {
   "property": "C73",
   "status": "proved",
   "theorems": [
    "C73_profile"
   ],
   "note": "Elements as the reader makes them (shaped, ValidatorSpec.v); findings in the _refuted theorems."
  },
  {
   "property": "C74",
   "status": "proved",
   "theorems": [
    "C74_seek_head",
    "C74_second_refuted",
    "C74_cluster_refuted"
   ],
   "note": "Elements as the reader makes them (shaped, ValidatorSpec.v); findings in the _refuted theorems."
  },
  {
   "property": "C75",
   "status": "proved",
   "theorems": [
    "C75_video",
    "C75_no_video",
    "C75_zero_refuted",
    "C75_sign_refuted"
   ],
   "note": "Elements as the reader makes them (shaped, ValidatorSpec.v); findings in the _refuted theorems."
  },
  {
   "property": "C76",
   "status": "proved",
   "theorems": [
    "C76_tracks",
    "C76_audio_refuted",
    "C76_codec_refuted"
   ],
   "note": "Elements as the reader makes them (shaped, ValidatorSpec.v); findings in the _refuted theorems."
  },
  {
   "property": "C77",
   "status": "proved",
   "theorems": [
    "C77_blocks",
    "C77_table",
    "C77_positions",
    "C77_video_start",
    "C77_endless_refuted",
    "C77_number_refuted",
    "C77_untracked_refuted"
   ],
   "note": "Elements as the reader makes them (shaped, ValidatorSpec.v); findings in the _refuted theorems."
  },
  {
   "property": "C78",
   "status": "proved",
   "theorems": [
    "C78_cues",
    "C78_position_refuted"
   ],
   "note": "Elements as the reader makes them (shaped, ValidatorSpec.v); findings in the _refuted theorems."
  },
  {
   "property": "C79",
   "status": "proved",
   "theorems": [
    "C79_unknown",
    "C79_void",
    "C79_void_refuted"
   ],
   "note": "Elements as the reader makes them (shaped, ValidatorSpec.v); findings in the _refuted theorems."
  },
  {
   "property": "C80",
   "status": "proved",
   "theorems": [
    "C80_remux_keeps_every_frame"
   ],
   "note": "Blocks have frames and data, times within 9 years of 0, durations unknown or known for all frames. --alt-3d is not modelled."
  },
  {
   "property": "C81",
   "status": "proved",
   "theorems": [
    "C81_clusters_begin_at_keyframes"
   ],
   "note": ""
  },
  {
   "property": "C82",
   "status": "proved",
   "theorems": [
    "C82_remux_ends",
    "C82_unordered_keyframes_refuted",
    "C82_single_block_refuted"
   ],
   "note": "Two refutations show that the conditions are needed (findings)."
  },
  {
   "property": "C83",
   "status": "proved",
   "theorems": [
    "C83_where_blocks_go",
    "C83_part_without_time_refuted",
    "C83_held_back_refuted"
   ],
   "note": "Two refutations record findings: parts without local time, laced blocks held back."
  },
  {
   "property": "C84",
   "status": "proved",
   "theorems": [
    "C84_common_header",
    "C84_compressed_refuted"
   ],
   "note": "All lists of blocks. Decompressed reading is one boolean (hb_comp: BlockIsCompressed)."
  },
  {
   "property": "C85",
   "status": "proved",
   "theorems": [
    "C85_main_track",
    "C85_order_complete",
    "C85_no_type_refuted"
   ],
   "note": "All track lists; tracks as number and type."
  },
  {
   "property": "C86",
   "status": "proved",
   "theorems": [
    "C86_cues",
    "C86_big_number_refuted",
    "C86_later_keyframe_refuted"
   ],
   "note": "Track numbers below 2^15 and times below 2^60; the refuted theorems show the first bound is needed and what the 800 ms rule leaves out."
  },
  {
   "property": "C87",
   "status": "proved",
   "theorems": [
    "C87_link",
    "C87_links",
    "C87_first_refuted"
   ],
   "note": "Whether a cluster has the block (MATROSKA_GetBlockForTimestamp, modelled in C53) is a parameter."
  },
  {
   "property": "C88",
   "status": "proved",
   "theorems": [
    "C88_times",
    "C88_kept",
    "C88_elements_rise",
    "C88_elements_refuted"
   ],
   "note": "Times and number of clusters so that all stays below 2^59, scale below 2^38 (as in C32)."
  },
  {
   "property": "C89",
   "status": "proved",
   "theorems": [
    "C89_scale",
    "C89_zero_refuted"
   ],
   "note": "Refuted for scale 0."
  },
  {
   "property": "C90",
   "status": "proved",
   "theorems": [
    "C90_settles",
    "C90_cue_point_size",
    "C90_unlinked_refuted"
   ],
   "note": "sizes and positions; C90_cue_point_size links them to the element tree of a cue point"
  },
  {
   "property": "C91",
   "status": "proved",
   "theorems": [
    "C91_file",
    "C91_right",
    "C91_seekhead_size_refuted",
    "C91_segment_head_refuted"
   ],
   "note": "files with Cues, not --live; findings in the refuted theorems"
  },
  {
   "property": "C92",
   "status": "proved",
   "theorems": [
    "C92_ends",
    "C92_kept",
    "C92_neat",
    "C92_freed_refuted",
    "C92_profile_refuted"
   ],
   "note": "Reduce.v; tables and creation of Create.v and MkSchema.v"
  },
  {
   "property": "C93",
   "status": "proved",
   "theorems": [
    "C93_display",
    "C93_intended_refuted",
    "C93_crop_refuted",
    "C93_void_crop_refuted",
    "C93_zero_refuted"
   ],
   "note": "cropping and sizes for all units; four refuted statements record the findings"
  },
  {
   "property": "C94",
   "status": "proved",
   "theorems": [
    "C94_tracks",
    "C94_failures"
   ],
   "note": "at most one element of each kind per track; GuessSamplingFreq as built without codec helpers"
  },
  {
   "property": "C95",
   "status": "proved",
   "theorems": [
    "C95_stereo",
    "C95_both_refuted",
    "C95_deleted_refuted"
   ],
   "note": "destination not WebM; numbers leave room below 2^31"
  },
  {
   "property": "C96",
   "status": "proved",
   "theorems": [
    "C96_front"
   ],
   "note": ""
  },
  {
   "property": "C97",
   "status": "proved",
   "theorems": [
    "C97_history"
   ],
   "note": "One event of one node; callbacks are any function from the call number and the listener to a list of actions."
  },
  {
   "property": "C98",
   "status": "proved",
   "theorems": [
    "C98_calls",
    "C98_quiet"
   ],
   "note": "C98_quiet: callbacks without effect on the listeners."
  },
  {
   "property": "C99",
   "status": "proved",
   "theorems": [
    "C99_tidy",
    "C99_order_refuted",
    "C99_leak_refuted",
    "C99_delete_refuted",
    "C99_after_delete_refuted",
    "C99_deleting_refuted",
    "C99_clear_refuted"
   ],
   "note": "C99_tidy is the true statement for well-behaved callbacks; the six refuted theorems are the findings."
  }
 ]
}