{
 "claims": [
  {
   "property": "C01",
   "status": "proved",
   "theorems": [
    "C01_node_block_round_trip"
   ],
   "note": ""
  },
  {
   "property": "C02",
   "status": "proved",
   "theorems": [
    "C02_way_block_round_trip"
   ],
   "note": ""
  },
  {
   "property": "C03",
   "status": "proved",
   "theorems": [
    "C03_relation_block_round_trip"
   ],
   "note": ""
  },
  {
   "property": "C04",
   "status": "proved",
   "theorems": [
    "C04_string_table"
   ],
   "note": ""
  },
  {
   "property": "C05",
   "status": "partial",
   "theorems": [
    "C05_homogeneous_block_partial",
    "C05_refuted_mixed_block"
   ],
   "note": "False as stated: write_elements with a list that mixes types keeps the nodes if there is any node, else the ways if there is any way, else the relations (C05_refuted_mixed_block; the exact content is C57). Proved for lists of one type."
  },
  {
   "property": "C06",
   "status": "proved",
   "theorems": [
    "C06_grid_coordinates_bit_exact"
   ],
   "note": ""
  },
  {
   "property": "C07",
   "status": "proved",
   "theorems": [
    "C07_quantisation_error",
    "C07_nearest_is_unique"
   ],
   "note": ""
  },
  {
   "property": "C08",
   "status": "proved",
   "theorems": [
    "C08_timestamps_truncated"
   ],
   "note": ""
  },
  {
   "property": "C09",
   "status": "proved",
   "theorems": [
    "C09_release_never_panics",
    "C09_checked_panics_exactly_on_wide_gaps",
    "C09_values_recovered"
   ],
   "note": ""
  },
  {
   "property": "C10",
   "status": "proved",
   "theorems": [
    "C10_wire_round_trip"
   ],
   "note": ""
  },
  {
   "property": "C100",
   "status": "proved",
   "theorems": [
    "C100_blocks",
    "C100_blocks_had",
    "C100_elements",
    "C100_first_block",
    "C100_undamaged",
    "C100_bad_length",
    "C100_all_blocks",
    "C100_all_elements"
   ],
   "note": ""
  },
  {
   "property": "C101",
   "status": "proved",
   "theorems": [
    "C101_blocks",
    "C101_first_only",
    "C101_all_in_parallel",
    "C101_counts",
    "C101_bounding_box",
    "C101_written",
    "C101_appended",
    "C101_cut",
    "C101_appended_cut"
   ],
   "note": ""
  },
  {
   "property": "C102",
   "status": "proved",
   "theorems": [
    "C102_as_one_dump",
    "C102_read_back",
    "C102_exact",
    "C102_recorded_authors"
   ],
   "note": ""
  },
  {
   "property": "C103",
   "status": "proved",
   "theorems": [
    "C103_sorted_is_writable",
    "C103_sorted_round_trip",
    "C103_merge"
   ],
   "note": ""
  },
  {
   "property": "C104",
   "status": "proved",
   "theorems": [
    "C104_reading",
    "C104_for_loop"
   ],
   "note": ""
  },
  {
   "property": "C105",
   "status": "proved",
   "theorems": [
    "C105_block_written_again",
    "C105_copy_of_the_original",
    "C105_same_bytes",
    "C105_copies_read_the_same"
   ],
   "note": ""
  },
  {
   "property": "C11",
   "status": "proved",
   "theorems": [
    "C11_read_write_read_stable"
   ],
   "note": ""
  },
  {
   "property": "C12",
   "status": "partial",
   "theorems": [
    "C12_header_round_trip_partial",
    "C12_refuted_empty_header"
   ],
   "note": "False for a FileInfo all of whose fields are empty: the header message is then zero bytes, which the reader refuses (C12_refuted_empty_header). Proved for every other FileInfo."
  },
  {
   "property": "C13",
   "status": "partial",
   "theorems": [
    "C13_header_bbox_partial",
    "C13_refuted"
   ],
   "note": "False as stated: edges are truncated toward zero to a nanodegree, so a box can stop containing the point it was computed from (C13_refuted) and drifts when rewritten (Example C13_drift). Proved: the exact value read back; the exact effect of copies is C79."
  },
  {
   "property": "C14",
   "status": "proved",
   "theorems": [
    "C14_feature_gate",
    "C14_unsupported_is_refused"
   ],
   "note": ""
  },
  {
   "property": "C15",
   "status": "proved",
   "theorems": [
    "C15_blob_framing"
   ],
   "note": ""
  },
  {
   "property": "C16",
   "status": "proved",
   "theorems": [
    "C16_whole_file_round_trip",
    "C16_unique"
   ],
   "note": ""
  },
  {
   "property": "C17",
   "status": "partial",
   "theorems": [
    "C17_order_enforced_partial",
    "C17_refuted"
   ],
   "note": "False as stated: a sorted stream with relations but no way is rejected (C17_refuted). Proved: every accepted stream is sorted, and every sorted stream with a way (or without relations) is accepted."
  },
  {
   "property": "C18",
   "status": "proved",
   "theorems": [
    "C18_block_structure"
   ],
   "note": ""
  },
  {
   "property": "C19",
   "status": "proved",
   "theorems": [
    "C19_truncated_file",
    "C19_truncated_elements"
   ],
   "note": ""
  },
  {
   "property": "C20",
   "status": "partial",
   "theorems": [
    "C20_blobs_terminate_partial",
    "C20_blocks_terminate",
    "C20_elements_terminate",
    "C20_refuted"
   ],
   "note": "False for blobs(): a negative datasize makes the iterator revisit the same blob for ever (C20_refuted). Proved for files without negative datasize, and for blocks() and elements() on every file."
  },
  {
   "property": "C21",
   "status": "proved",
   "theorems": [
    "C21_only_valid_blobs",
    "C21_malformed_refused",
    "C21_refused_blob_yields_nothing"
   ],
   "note": ""
  },
  {
   "property": "C22",
   "status": "partial",
   "theorems": [
    "C22_total_order_partial",
    "C22_refuted"
   ],
   "note": "False as stated: Sentinel and any other element are each Less than the other (C22_refuted). Proved for all non-sentinel elements."
  },
  {
   "property": "C23",
   "status": "proved",
   "theorems": [
    "C23_exactly_once"
   ],
   "note": ""
  },
  {
   "property": "C24",
   "status": "proved",
   "theorems": [
    "C24_count_objects"
   ],
   "note": ""
  },
  {
   "property": "C25",
   "status": "partial",
   "theorems": [
    "C25_hull_partial",
    "C25_refuted"
   ],
   "note": "False as stated: nodes after the first non-node of a block are ignored (C25_refuted). Proved for files whose blocks have their nodes first, which includes every file this library writes."
  },
  {
   "property": "C26",
   "status": "proved",
   "theorems": [
    "C26_merge_is_least_upper_bound",
    "C26_merge_point",
    "C26_merge_laws",
    "C26_from_point"
   ],
   "note": ""
  },
  {
   "property": "C27",
   "status": "proved",
   "theorems": [
    "C27_nothing_lost"
   ],
   "note": ""
  },
  {
   "property": "C28",
   "status": "proved",
   "theorems": [
    "C28_schedule_independent",
    "C28_same_file"
   ],
   "note": ""
  },
  {
   "property": "C29",
   "status": "proved",
   "theorems": [
    "C29_order_restored",
    "C29_large_buffer"
   ],
   "note": "The order of the elements read back from the file is in C51."
  },
  {
   "property": "C30",
   "status": "partial",
   "theorems": [
    "C30_order_check_partial",
    "C30_refuted"
   ],
   "note": "False as stated: the check compares with the first element of the last flushed block only, so 1 5 9 3 with buffer 2 and blocks of 2 is written as 1 5 3 9 without a panic (C30_refuted). Proved: blocks are sorted, no element of a later block precedes the first element of an earlier block, and only input displaced beyond the bound of C29 is rejected; the exact version is C78."
  },
  {
   "property": "C31",
   "status": "partial",
   "theorems": [
    "C31_close_terminates_partial",
    "C31_refuted"
   ],
   "note": "False for file_block_size = 0, which the constructor accepts: the loop never ends (C31_refuted). Proved for every block size >= 1; the exact version is C74."
  },
  {
   "property": "C32",
   "status": "proved",
   "theorems": [
    "C32_accumulator"
   ],
   "note": ""
  },
  {
   "property": "C33",
   "status": "proved",
   "theorems": [
    "C33_filter_pipeline",
    "C33_pipeline_batches"
   ],
   "note": ""
  },
  {
   "property": "C34",
   "status": "proved",
   "theorems": [
    "C34_current_tables"
   ],
   "note": "Stated for the escaping function, hash order, clock and library version left arbitrary."
  },
  {
   "property": "C35",
   "status": "proved",
   "theorems": [
    "C35_history_tables"
   ],
   "note": ""
  },
  {
   "property": "C36",
   "status": "proved",
   "theorems": [
    "C36_rows_parse_back"
   ],
   "note": "Stated over the ten tables a dump reader uses; strings that survive the escape/unescape crates (each string is assumed to, the crates are external)."
  },
  {
   "property": "C37",
   "status": "proved",
   "theorems": [
    "C37_sql_time_round_trip",
    "C37_all_years",
    "C37_micros",
    "C37_calendar_total"
   ],
   "note": ""
  },
  {
   "property": "C38",
   "status": "proved",
   "theorems": [
    "C38_tile",
    "C38_tile_injective"
   ],
   "note": ""
  },
  {
   "property": "C39",
   "status": "proved",
   "theorems": [
    "C39_own_rows"
   ],
   "note": ""
  },
  {
   "property": "C40",
   "status": "partial",
   "theorems": [
    "C40_every_object_partial",
    "C40_refuted"
   ],
   "note": "False as stated: an orphan tag row takes the tags of every later object (C40_refuted, for every such dump). Proved: every object comes back once and its rows are exact unless an orphan row precedes it."
  },
  {
   "property": "C41",
   "status": "partial",
   "theorems": [
    "C41_order_partial",
    "C41_refuted"
   ],
   "note": "True for ways, false for relations: members of one type come back by member id (C41_refuted, for every relation whose members are not in that order). Proved for relations whose members are of one type with increasing ids; C77 gives the exact order and condition."
  },
  {
   "property": "C42",
   "status": "proved",
   "theorems": [
    "C42_stream_shape"
   ],
   "note": ""
  },
  {
   "property": "C43",
   "status": "proved",
   "theorems": [
    "C43_users_and_changesets"
   ],
   "note": ""
  },
  {
   "property": "C44",
   "status": "partial",
   "theorems": [
    "C44_names_partial",
    "C44_refuted",
    "C44_names_read"
   ],
   "note": "False for names containing TAB or LF: they are written without escaping and no such name is ever read (C44_refuted, C44_names_read). Proved for clean names. C84 is the exact version for TABs: what becomes of such a dump."
  },
  {
   "property": "C45",
   "status": "proved",
   "theorems": [
    "C45_toc",
    "C45_header"
   ],
   "note": ""
  },
  {
   "property": "C46",
   "status": "proved",
   "theorems": [
    "C46_coordinates"
   ],
   "note": ""
  },
  {
   "property": "C47",
   "status": "proved",
   "theorems": [
    "C47_defaults"
   ],
   "note": ""
  },
  {
   "property": "C48",
   "status": "proved",
   "theorems": [
    "C48_reader_means_the_format",
    "C48_bad_index_panics"
   ],
   "note": ""
  },
  {
   "property": "C49",
   "status": "proved",
   "theorems": [
    "C49_from_str",
    "C49_never_nan"
   ],
   "note": ""
  },
  {
   "property": "C50",
   "status": "proved",
   "theorems": [
    "C50_terminates"
   ],
   "note": ""
  },
  {
   "property": "C51",
   "status": "proved",
   "theorems": [
    "C51_parallel_round_trip"
   ],
   "note": ""
  },
  {
   "property": "C52",
   "status": "proved",
   "theorems": [
    "C52_encoders_terminate",
    "C52_release_finishes"
   ],
   "note": ""
  },
  {
   "property": "C53",
   "status": "proved",
   "theorems": [
    "C53_dump_round_trip",
    "C53_exact"
   ],
   "note": ""
  },
  {
   "property": "C54",
   "status": "proved",
   "theorems": [
    "C54_shipped_toc"
   ],
   "note": ""
  },
  {
   "property": "C55",
   "status": "proved",
   "theorems": [
    "C55_dump_total"
   ],
   "note": ""
  },
  {
   "property": "C56",
   "status": "proved",
   "theorems": [
    "C56_decoders_mean_the_wire_format",
    "C56_refused_means_invalid",
    "C56_meaning_unique",
    "C56_encoders_write_the_wire_format",
    "C56_utf8",
    "C56_data_payload",
    "C56_header_payload",
    "C56_file_blob"
   ],
   "note": "prost (an external crate) is modelled in Proto.v; its recursion limit is not"
  },
  {
   "property": "C57",
   "status": "proved",
   "theorems": [
    "C57_block_content",
    "C57_lossless_iff_one_type"
   ],
   "note": ""
  },
  {
   "property": "C58",
   "status": "proved",
   "theorems": [
    "C58_any_calls",
    "C58_file_grows",
    "C58_crash_at_any_moment"
   ],
   "note": ""
  },
  {
   "property": "C59",
   "status": "proved",
   "theorems": [
    "C59_exactly_these_streams"
   ],
   "note": ""
  },
  {
   "property": "C60",
   "status": "proved",
   "theorems": [
    "C60_exact_bounding_box",
    "C60_schedule_independent"
   ],
   "note": ""
  },
  {
   "property": "C61",
   "status": "proved",
   "theorems": [
    "C61_parallel_crash"
   ],
   "note": ""
  },
  {
   "property": "C62",
   "status": "proved",
   "theorems": [
    "C62_setters",
    "C62_feature_queries",
    "C62_writer_new",
    "C62_default_header"
   ],
   "note": ""
  },
  {
   "property": "C63",
   "status": "proved",
   "theorems": [
    "C63_iso_text",
    "C63_same_second",
    "C63_sorted",
    "C63_length",
    "C63_replication_timestamp",
    "C63_other_timestamps"
   ],
   "note": ""
  },
  {
   "property": "C64",
   "status": "proved",
   "theorems": [
    "C64_copy",
    "C64_one_outcome",
    "C64_release_copies",
    "C64_copy_of_copy",
    "C64_pbf_io_filter",
    "C64_counts"
   ],
   "note": ""
  },
  {
   "property": "C65",
   "status": "proved",
   "theorems": [
    "C65_one_outcome",
    "C65_dump_to_pbf"
   ],
   "note": ""
  },
  {
   "property": "C66",
   "status": "proved",
   "theorems": [
    "C66_one_outcome",
    "C66_to_dump",
    "C66_there_and_back",
    "C66_own_files"
   ],
   "note": ""
  },
  {
   "property": "C67",
   "status": "proved",
   "theorems": [
    "C67_elements_are_legal",
    "C67_header_is_legal",
    "C67_blocks_are_legal"
   ],
   "note": ""
  },
  {
   "property": "C68",
   "status": "proved",
   "theorems": [
    "C68_block_box",
    "C68_given_box",
    "C68_nodes_block",
    "C68_merge_into_header",
    "C68_default_box"
   ],
   "note": ""
  },
  {
   "property": "C69",
   "status": "proved",
   "theorems": [
    "C69_blocks",
    "C69_one_meaning",
    "C69_reader_new",
    "C69_elements",
    "C69_debug_build"
   ],
   "note": ""
  },
  {
   "property": "C70",
   "status": "proved",
   "theorems": [
    "C70_blobs",
    "C70_first_blobs",
    "C70_terminates"
   ],
   "note": ""
  },
  {
   "property": "C71",
   "status": "proved",
   "theorems": [
    "C71_copy",
    "C71_small_inputs",
    "C71_unlucky_schedule"
   ],
   "note": ""
  },
  {
   "property": "C72",
   "status": "proved",
   "theorems": [
    "C72_order",
    "C72_transitive",
    "C72_predicates"
   ],
   "note": ""
  },
  {
   "property": "C73",
   "status": "proved",
   "theorems": [
    "C73_header"
   ],
   "note": ""
  },
  {
   "property": "C74",
   "status": "proved",
   "theorems": [
    "C74_close_returns",
    "C74_zero_blocks_are_empty"
   ],
   "note": ""
  },
  {
   "property": "C75",
   "status": "proved",
   "theorems": [
    "C75_rows",
    "C75_integers",
    "C75_booleans",
    "C75_times",
    "C75_nulls",
    "C75_member_kinds"
   ],
   "note": ""
  },
  {
   "property": "C76",
   "status": "proved",
   "theorems": [
    "C76_reading"
   ],
   "note": ""
  },
  {
   "property": "C77",
   "status": "proved",
   "theorems": [
    "C77_order",
    "C77_kept"
   ],
   "note": ""
  },
  {
   "property": "C78",
   "status": "proved",
   "theorems": [
    "C78_rejected",
    "C78_in_order",
    "C78_silent"
   ],
   "note": ""
  },
  {
   "property": "C79",
   "status": "proved",
   "theorems": [
    "C79_first",
    "C79_again",
    "C79_grid",
    "C79_whole_degrees",
    "C79_settles"
   ],
   "note": ""
  },
  {
   "property": "C80",
   "status": "proved",
   "theorems": [
    "C80_nothing_early",
    "C80_rows_on_disk",
    "C80_silent_loss",
    "C80_ways_can_be_lost"
   ],
   "note": ""
  },
  {
   "property": "C81",
   "status": "proved",
   "theorems": [
    "C81_any_calls",
    "C81_appends",
    "C81_reading",
    "C81_block_copy",
    "C81_copy_elements",
    "C81_laid_unique"
   ],
   "note": ""
  },
  {
   "property": "C82",
   "status": "proved",
   "theorems": [
    "C82_no_failure",
    "C82_stops",
    "C82_goes_on",
    "C82_torn",
    "C82_close_again",
    "C82_accounting",
    "C82_laid_unique",
    "C82_laid_all_ok"
   ],
   "note": ""
  },
  {
   "property": "C83",
   "status": "proved",
   "theorems": [
    "C83_missing_table",
    "C83_missing_file",
    "C83_missing_column",
    "C83_missing_toc"
   ],
   "note": ""
  },
  {
   "property": "C84",
   "status": "proved",
   "theorems": [
    "C84_tabs_panic",
    "C84_names_cut",
    "C84_opens"
   ],
   "note": ""
  },
  {
   "property": "C85",
   "status": "proved",
   "theorems": [
    "C85_reads",
    "C85_as_if_first",
    "C85_closed",
    "C85_no_header",
    "C85_too_late",
    "C85_stays",
    "C85_stuck"
   ],
   "note": ""
  },
  {
   "property": "C86",
   "status": "proved",
   "theorems": [
    "C86_calls_that_fail",
    "C86_at_any_moment",
    "C86_terminates",
    "C86_stuck"
   ],
   "note": ""
  },
  {
   "property": "C87",
   "status": "proved",
   "theorems": [
    "C87_own_dump",
    "C87_opening",
    "C87_opens",
    "C87_other_dump"
   ],
   "note": ""
  },
  {
   "property": "C88",
   "status": "proved",
   "theorems": [
    "C88_histories",
    "C88_total"
   ],
   "note": ""
  },
  {
   "property": "C89",
   "status": "proved",
   "theorems": [
    "C89_all_fine",
    "C89_history_tables",
    "C89_first_failure",
    "C89_retry"
   ],
   "note": ""
  },
  {
   "property": "C90",
   "status": "proved",
   "theorems": [
    "C90_blocks",
    "C90_elements",
    "C90_header_lost",
    "C90_reader_new",
    "C90_for_each",
    "C90_silent_loss"
   ],
   "note": ""
  },
  {
   "property": "C91",
   "status": "proved",
   "theorems": [
    "C91_same_elements",
    "C91_counts",
    "C91_one_header",
    "C91_two_headers"
   ],
   "note": ""
  },
  {
   "property": "C92",
   "status": "proved",
   "theorems": [
    "C92_opening",
    "C92_cut_between_rows",
    "C92_silent_loss",
    "C92_any_failures",
    "C92_tag_moves"
   ],
   "note": ""
  },
  {
   "property": "C93",
   "status": "proved",
   "theorems": [
    "C93_opening",
    "C93_objects",
    "C93_no_panic",
    "C93_parts",
    "C93_null"
   ],
   "note": ""
  },
  {
   "property": "C94",
   "status": "proved",
   "theorems": [
    "C94_counts",
    "C94_bounding_box",
    "C94_copy"
   ],
   "note": ""
  },
  {
   "property": "C95",
   "status": "proved",
   "theorems": [
    "C95_file_left",
    "C95_copy",
    "C95_from_dump",
    "C95_from_bad_dump",
    "C95_to_dump",
    "C95_same_outcome",
    "C95_from_dump_same"
   ],
   "note": ""
  },
  {
   "property": "C96",
   "status": "proved",
   "theorems": [
    "C96_prints",
    "C96_header_only",
    "C96_other_ends"
   ],
   "note": ""
  },
  {
   "property": "C97",
   "status": "proved",
   "theorems": [
    "C97_depth",
    "C97_written",
    "C97_parallel",
    "C97_crafted"
   ],
   "note": ""
  },
  {
   "property": "C98",
   "status": "proved",
   "theorems": [
    "C98_new",
    "C98_elements",
    "C98_both_bounds",
    "C98_complete",
    "C98_blocks",
    "C98_while_written",
    "C98_for_each",
    "C98_appends"
   ],
   "note": ""
  },
  {
   "property": "C99",
   "status": "proved",
   "theorems": [
    "C99_elements",
    "C99_elements_total",
    "C99_elements_reached",
    "C99_blobs",
    "C99_written",
    "C99_dump",
    "C99_resumes_only",
    "C99_resumes",
    "C99_tail"
   ],
   "note": ""
  }
 ]
}