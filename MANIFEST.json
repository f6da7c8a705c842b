{
 "claims": [
  {
   "property": "C01",
   "status": "proved",
   "theorems": [
    "C01_count_rows_exact",
    "C01_quote_LF_disagrees_refuted"
   ],
   "note": "For every buffer and every quote character other than LF/CR; for quote = LF the two paths differ (witness)."
  },
  {
   "property": "C02",
   "status": "proved",
   "theorems": [
    "C02_analyze_chunk_exact"
   ],
   "note": ""
  },
  {
   "property": "C03",
   "status": "proved",
   "theorems": [
    "C03_dual_state_exact"
   ],
   "note": ""
  },
  {
   "property": "C04",
   "status": "proved",
   "theorems": [
    "C04_chunked_row_count",
    "C04_reader_chunks_row_count"
   ],
   "note": "First theorem: any decomposition that does not cut a CRLF; second: the ranges the parallel reader really uses (no side condition)."
  },
  {
   "property": "C05",
   "status": "proved",
   "theorems": [
    "C05_find_row_end_exact"
   ],
   "note": ""
  },
  {
   "property": "C06",
   "status": "proved",
   "theorems": [
    "C06_quote_masks_exact",
    "C06_implementations_agree"
   ],
   "note": ""
  },
  {
   "property": "C07",
   "status": "proved",
   "theorems": [
    "C07_chunk_ranges_tile",
    "C07_find_chunks_tile",
    "C07_find_chunks_row_counts"
   ],
   "note": ""
  },
  {
   "property": "C08",
   "status": "partial",
   "theorems": [
    "C08_boundary_inside_quotes_refuted",
    "C08_boundary_is_row_end_partial",
    "C08_row_end_exactly_when"
   ],
   "note": "The general claim is false of the code (witness for every chunk size); true when the split target is outside quotes or there are no quotes. C08_row_end_exactly_when says, in both directions, for which targets the boundary found is the end of a row."
  },
  {
   "property": "C09",
   "status": "partial",
   "theorems": [
    "C09_what_is_read",
    "C09_serial_what_is_read",
    "C09_rows_right_exactly_when_balanced",
    "C09_read_all_is_the_table_partial",
    "C09_boundaries_outside_quotes_partial",
    "C09_quote_free_files_partial",
    "C09_serial_is_the_table_partial",
    "C09_parallel_differs_from_serial_refuted",
    "C09_thread_counts_differ_refuted"
   ],
   "note": "What is read is described exactly for every file and thread count (parts of the file, each cut into rows); the rows of a part are right exactly when every delimited field has an even number of quotes. The table of the whole text for every thread count when no quoted field spans lines (or no chunk boundary falls inside quotes), CRs only in CRLF, rows as in C11. False in general: a quoted field spanning a chunk boundary is truncated (64 MB witness; also 1 vs 64 threads differ)."
  },
  {
   "property": "C10",
   "status": "proved",
   "theorems": [
    "C10_tables_rectangular",
    "C10_parse_line_rectangular"
   ],
   "note": "Any bytes, both reader paths, and LineParser::parse_line."
  },
  {
   "property": "C11",
   "status": "partial",
   "theorems": [
    "C11_what_is_split",
    "C11_right_exactly_when_balanced",
    "C11_iterator_exact_partial",
    "C11_all_quoted_rows_partial",
    "C11_quote_free_rows_partial",
    "C11_cached_split_refuted"
   ],
   "note": "What is delivered is described exactly for every row, and it is right exactly when every delimited field has an even number of quotes (both directions). In particular right whenever no quoted delimiter lies within 63 bytes after an unquoted field. False in general: the cached mask of an unquoted scan ignores quotes (witness a,\"b,c\" in a long buffer)."
  },
  {
   "property": "C12",
   "status": "proved",
   "theorems": [
    "C12_iteration_lossless"
   ],
   "note": "All buffers, separators, quotes and end-of-line bytes."
  },
  {
   "property": "C13",
   "status": "proved",
   "theorems": [
    "C13_value_roundtrip",
    "C13_row_roundtrip"
   ],
   "note": "Single value and whole rows of quoted values through the iterator."
  },
  {
   "property": "C14",
   "status": "proved",
   "theorems": [
    "C14_splitters_agree",
    "C14_empty_line",
    "C14_beyond_the_line_refuted"
   ],
   "note": "For buffers holding one line (the documented use); a buffer that continues after the line is split differently (witness)."
  },
  {
   "property": "C15",
   "status": "partial",
   "theorems": [
    "C15_int32_exact",
    "C15_int32_iso_partial",
    "C15_least_int32_refuted",
    "C15_scalar_agrees",
    "C15_wide_vectors_refuted",
    "C15_fast_parser_partial",
    "C15_fast_parser_refuted"
   ],
   "note": "Proved for the SIMD parser used by the reader with wrapping negation; in ISO C++ the least int32 is undefined behaviour; the second (legacy) parser accepts a doubled sign."
  },
  {
   "property": "C16",
   "status": "partial",
   "theorems": [
    "C16_int64_exact",
    "C16_int64_iso_partial",
    "C16_scalar_agrees_partial",
    "C16_scalar_wraps_refuted",
    "C16_fast_parser_partial",
    "C16_fast_parser_refuted"
   ],
   "note": "As C15; the public scalar reference returns wrapped values for 20-digit texts."
  },
  {
   "property": "C17",
   "status": "partial",
   "theorems": [
    "C17_accepts_exactly_dates",
    "C17_day_number_partial",
    "C17_order_partial",
    "C17_day_number_is_day_count",
    "C17_year_zero_refuted",
    "C17_value_exactly"
   ],
   "note": "Exact for years 1-9999; year 0 is off by one day (witness). Accepted texts and values characterised in both directions."
  },
  {
   "property": "C18",
   "status": "partial",
   "theorems": [
    "C18_documented_forms_partial",
    "C18_accepted_is_near_partial",
    "C18_no_overflow",
    "C18_trailing_text_accepted_refuted",
    "C18_accepted_exactly"
   ],
   "note": "All documented forms from year 1 on; garbage after the zone or the sixth fraction digit is accepted (witness). Accepted texts and values characterised in both directions."
  },
  {
   "property": "C19",
   "status": "proved",
   "theorems": [
    "C19_inferred_type_is_narrowest",
    "C19_narrowest_unique",
    "C19_row_order_irrelevant",
    "C19_wider_type_joins",
    "C19_unknown_not_commutative_refuted",
    "C19_can_promote_partial",
    "C19_can_promote_refuted"
   ],
   "note": "Inference gives the unique narrowest type of the sampled cells, whatever their order. UNKNOWN as an operand and can_promote do not follow the hierarchy (witnesses)."
  },
  {
   "property": "C20",
   "status": "partial",
   "theorems": [
    "C20_integer_detection",
    "C20_integer_columns_partial",
    "C20_float_and_string_columns_partial",
    "C20_bool_columns_partial",
    "C20_date_columns_partial",
    "C20_bool_in_integer_column_refuted",
    "C20_unrepresentable_cells_refuted",
    "C20_dates_among_timestamps_refuted",
    "C20_trimmed_sample_refuted",
    "C20_stored_exactly",
    "C20_meaning_unique",
    "C20_lost_exactly",
    "C20_lost_by_default_exactly",
    "C20_plus_in_float_column_refuted"
   ],
   "note": "Exact: what a text means in a column of each type and which sampled cells are lost (iff). Integer, float and string cells survive; booleans in integer columns, dates in timestamp columns, out-of-range integers, Yes/No, impossible dates, blank-padded and multi-line cells are lost (witnesses). fast_float is an oracle."
  },
  {
   "property": "C21",
   "status": "proved",
   "theorems": [
    "C21_bitmap_is_a_list_of_flags"
   ],
   "note": "Any history over any number of bitmaps: size, is_valid, both null counts, has_nulls, raw bits, finalize."
  },
  {
   "property": "C22",
   "status": "proved",
   "theorems": [
    "C22_string_buffer_is_a_list_of_strings",
    "C22_four_gigabytes_refuted",
    "C22_push_back_unchecked_refuted",
    "C22_push_back_unchecked_stores_zeros"
   ],
   "note": "Any history below 2^32 bytes; the bound is shown sharp; push_back_unchecked stores zero bytes instead of the string."
  },
  {
   "property": "C23",
   "status": "proved",
   "theorems": [
    "C23_merging_fixed_columns",
    "C23_merging_string_columns",
    "C23_any_grouping"
   ],
   "note": "All seven builder classes (six fixed-width ones share one model)."
  },
  {
   "property": "C24",
   "status": "proved",
   "theorems": [
    "C24_chunked_builder_is_a_list",
    "C24_kept_context_refuted"
   ],
   "note": "Any history of appends, context fills, merges, finalisation and reads; the refutation shows why a write context must not be kept across a read."
  },
  {
   "property": "C25",
   "status": "proved",
   "theorems": [
    "C25_handles_are_isolated",
    "C25_copies_only_when_shared",
    "C25_kept_reference_refuted"
   ],
   "note": "Any history; the refutation concerns references kept from to_mut()."
  },
  {
   "property": "C26",
   "status": "proved",
   "theorems": [
    "C26_keeps_the_first",
    "C26_every_history",
    "C26_limit_tells_what_is_kept",
    "C26_fail_fast_limit_zero_refuted",
    "C26_fatal_stops_unless_disabled_refuted"
   ],
   "note": "Any history over any number of collectors, for any sort meeting the contract of std::sort. Stopping follows the mode unless the limit is 0 (refuted there); the comment on should_stop is contradicted by BEST_EFFORT."
  },
  {
   "property": "C27",
   "status": "proved",
   "theorems": [
    "C27_merge_sorted_complete"
   ],
   "note": "Any collectors, any sort meeting the contract of std::sort."
  },
  {
   "property": "C28",
   "status": "proved",
   "theorems": [
    "C28_uint64_round_trip",
    "C28_uint32_round_trip",
    "C28_signed_round_trip"
   ],
   "note": "All values and all following bytes; lengths at most 10 and 5 bytes."
  },
  {
   "property": "C29",
   "status": "proved",
   "theorems": [
    "C29_struct_round_trip"
   ],
   "note": "All well-formed trees, any writer state, any following bytes."
  },
  {
   "property": "C30",
   "status": "proved",
   "theorems": [
    "C30_definition_levels_round_trip",
    "C30_empty"
   ],
   "note": "Arrow-column writer path; bitmaps as built by any history; up to 2^31-1 rows."
  },
  {
   "property": "C31",
   "status": "proved",
   "theorems": [
    "C31_dictionary_indices_round_trip"
   ],
   "note": "Null rows are left out; nothing at all is written when every row is null."
  },
  {
   "property": "C32",
   "status": "partial",
   "theorems": [
    "C32_what_is_read",
    "C32_round_trip_exactly",
    "C32_aligned_partial",
    "C32_hybrid_encoder_partial",
    "C32_hybrid_encoder_constant_partial",
    "C32_hybrid_encoder_refuted"
   ],
   "note": "The full claim is false for the code: zero padding in front of a long run is read as values (refuted with a concrete sequence). What a reader sees is determined for every sequence, and exactly when it is the sequence itself (both directions)."
  },
  {
   "property": "C33",
   "status": "proved",
   "theorems": [
    "C33_rle_round_trip",
    "C33_levels_round_trip"
   ],
   "note": ""
  },
  {
   "property": "C34",
   "status": "partial",
   "theorems": [
    "C34_int32_partial",
    "C34_int64_partial",
    "C34_short_block_refuted",
    "C34_refuted",
    "C34_int32_right_exactly_when",
    "C34_int64_right_exactly_when_partial"
   ],
   "note": "The full claim is false for the code: every sequence whose last block has 1 to 95 deltas makes the encoder throw; the last mini-block is not padded; int32 may use 33 bits; int64 overflows. For int32 the sequences that survive are characterised exactly (both directions); for int64 likewise while nothing overflows and deltas of a block are less than 2^58 apart."
  },
  {
   "property": "C35",
   "status": "proved",
   "theorems": [
    "C35_int32",
    "C35_int64",
    "C35_float64",
    "C35_bool",
    "C35_string",
    "C35_vectors_int32",
    "C35_vectors_int64",
    "C35_vectors_float64",
    "C35_vectors_bool",
    "C35_vectors_string",
    "C35_dictionary_pages"
   ],
   "note": "Both the Arrow-column and the plain-vector encoders, read back by an independent PLAIN reader."
  },
  {
   "property": "C36",
   "status": "proved",
   "theorems": [
    "C36_string_columns",
    "C36_vectors_string",
    "C36_vectors_int"
   ],
   "note": "Every dictionary built reproduces the column row by row."
  },
  {
   "property": "C37",
   "status": "partial",
   "theorems": [
    "C37_layout",
    "C37_second_file_refuted"
   ],
   "note": "Proved for the file a fresh writer writes, for all options, schemas and row groups. The full claim is false for a second file written by the same object: state is not reset by open (refuted)."
  },
  {
   "property": "C38",
   "status": "partial",
   "theorems": [
    "C38_data_pages",
    "C38_dictionary_pages_partial",
    "C38_codec_refuted",
    "C38_lz4_refuted"
   ],
   "note": "Except for LZ4 (raw blocks recorded as codec 5, refuted) data pages agree with the recorded codec; dictionary pages only unless compression and dictionaries are combined: the chunk records only the codec of the data page (refuted with a concrete column and codec)."
  },
  {
   "property": "C39",
   "status": "proved",
   "theorems": [
    "C39_linearizable",
    "C39_order_and_close",
    "C39_no_lost_wakeup",
    "C39_deadlock_only_if_starved"
   ],
   "note": "Every interleaving of any number of threads, spurious wake-ups included; the mutex and the condition variables are modelled at the level of the C++ standard."
  },
  {
   "property": "C40",
   "status": "proved",
   "theorems": [
    "C40_no_deadlock",
    "C40_terminates",
    "C40_in_order",
    "C40_same_as_write"
   ],
   "note": "Every schedule of the submitting thread and the writer thread. Exceptions thrown inside the writer thread, a second start_pipeline and destruction of the writer while the pipeline is active are not covered."
  },
  {
   "property": "C41",
   "status": "proved",
   "theorems": [
    "C41_row_groups"
   ],
   "note": "Every sequence of chunks, with or without text columns; says exactly which chunks are joined."
  },
  {
   "property": "C42",
   "status": "partial",
   "theorems": [
    "C42_integer_statistics",
    "C42_string_statistics",
    "C42_bool_statistics",
    "C42_double_statistics_partial",
    "C42_double_range_partial",
    "C42_double_batch_counts_refuted",
    "C42_double_counts_exactly",
    "C42_double_statistics_exactly",
    "C42_integer_builder_statistics",
    "C42_double_builder_statistics",
    "C42_string_builder_statistics_partial",
    "C42_bool_builder_statistics_partial",
    "C42_merged_builder_statistics_refuted"
   ],
   "note": "Every history of single, batched and null updates, merges and resets, for integers, strings and booleans. For doubles a batch without null flags that has a NaN is miscounted (refuted). String and bool column builders forget merged-in cells and cells written through their vectors (refuted; what they do report is proved)."
  },
  {
   "property": "C43",
   "status": "partial",
   "theorems": [
    "C43_vector_minmax_int",
    "C43_same_for_every_width",
    "C43_vector_minmax_double_partial",
    "C43_vector_minmax_double_refuted",
    "C43_double_taking_second_partial",
    "C43_double_right_exactly_when_partial"
   ],
   "note": "Integers: every array and every lane count. Doubles: every array if the hardware minimum propagates NaN, else arrays without NaN; with NaN on x86 the result is wrong (refuted). For x86 the result is described exactly (what each lane remembers), and when it is right, in both directions, unless the last complete vector contains a NaN."
  },
  {
   "property": "C44",
   "status": "partial",
   "theorems": [
    "C44_integer_merge",
    "C44_int32_merge",
    "C44_string_merge",
    "C44_bool_merge",
    "C44_double_merge_partial",
    "C44_double_range",
    "C44_double_counts_exactly",
    "C44_double_grouping_refuted",
    "C44_column_statistics_merge",
    "C44_serialized_statistic_reads_back"
   ],
   "note": "Any grouping and any order for all types; for doubles the range always, the counts exactly when the NaN values in batches without null flags are the same (a NaN beside a number counts as a value, alone not at all), refuted otherwise."
  },
  {
   "property": "C45",
   "status": "partial",
   "theorems": [
    "C45_skip_comments_partial",
    "C45_skip_stops_at_first_non_comment_refuted",
    "C45_skips_exactly"
   ],
   "note": "Every buffer; comment characters other than CR and LF. Exactly the leading comment lines are skipped, except that a last line of blanks without terminator is skipped too (refuted with a witness; a buffer of blanks is reported as only comments). C45_skips_exactly says what is skipped, in both directions."
  },
  {
   "property": "C46",
   "status": "proved",
   "theorems": [
    "C46_rows_are_the_first_lines",
    "C46_rows_partition_the_sample"
   ],
   "note": "All samples, dialects and options with max_rows > 0."
  },
  {
   "property": "C47",
   "status": "partial",
   "theorems": [
    "C47_ranking_consistent_partial",
    "C47_ranking_antisymmetric_partial",
    "C47_strict_weak_order_refuted",
    "C47_transitivity_refuted",
    "C47_ranks_by_score_partial",
    "C47_winner_is_nearly_best_partial"
   ],
   "note": "The comparison is not a strict weak ordering: with default options and an ordinary sample the candidates handed to std::sort violate transitivity of equivalence (undefined behaviour of std::sort), and close scores allow cycles. It is one when scores fall into clear ranks and at most one quote character besides the double quote is in play."
  },
  {
   "property": "C48",
   "status": "partial",
   "theorems": [
    "C48_ledger",
    "C48_everything_released_once",
    "C48_accessors_partial",
    "C48_size_zero_when_closed_refuted"
   ],
   "note": "Every history of constructing, opening, closing and destroying any number of sources and every honest behaviour of the system. The class can be neither moved nor copied. size() is not 0 after an open() that failed in mmap (refuted); the other accessor claims are proved."
  },
  {
   "property": "C49",
   "status": "partial",
   "theorems": [
    "C49_layers_agree_partial",
    "C49_empty_text",
    "C49_layers_disagree_refuted"
   ],
   "note": "All non-empty texts; complete description for the empty text, where the layers disagree."
  },
  {
   "property": "C50",
   "status": "proved",
   "theorems": [
    "C50_lane_independent",
    "C50_wide_lanes_overread_refuted"
   ],
   "note": "Lane counts dividing 64; wider lanes over-read (witness)."
  },
  {
   "property": "C51",
   "status": "proved",
   "theorems": [
    "C51_chunk_size_bounds",
    "C51_chunk_size_value",
    "C51_budget_refuted",
    "C51_budget_exactly"
   ],
   "note": "Bounds for all arguments, value and divisor. In addition: the allocation budget documented beside the bounds is not guaranteed (witness); C51_budget_exactly says when it is kept."
  },
  {
   "property": "C52",
   "status": "proved",
   "theorems": [
    "C52_header_one_name_per_field",
    "C52_header_any_line",
    "C52_quoted_name",
    "C52_plain_name",
    "C52_column_count",
    "C52_columns_are_fields",
    "C52_trailing_separator_refuted"
   ],
   "note": "Newline-terminated header lines; the complete description for other lines is C52_header_any_line; an unterminated header ending in a separator loses its last name (witness)."
  },
  {
   "property": "C53",
   "status": "proved",
   "theorems": [
    "C53_schedule_independent",
    "C53_never_stuck",
    "C53_one_writer_per_slot"
   ],
   "note": "Small-step thread pool: any number of workers, any interleaving of task steps."
  },
  {
   "property": "C54",
   "status": "partial",
   "theorems": [
    "C54_round_trip_partial",
    "C54_short_block_refuted",
    "C54_right_exactly_when"
   ],
   "note": "As C34: the columns that survive are characterised exactly (both directions)."
  },
  {
   "property": "C55",
   "status": "partial",
   "theorems": [
    "C55_what_is_reported",
    "C55_exactly_when",
    "C55_serial_row_count",
    "C55_row_count_partial",
    "C55_blank_lines_counted_refuted"
   ],
   "note": "Serial path: always. Parallel path: exactly when the number of blank lines is the number of rows without a line end (0 or 1), for the files of C57 (both directions); false otherwise (witness)."
  },
  {
   "property": "C56",
   "status": "proved",
   "theorems": [
    "C56_uninitialised_flag_unobservable"
   ],
   "note": ""
  },
  {
   "property": "C57",
   "status": "partial",
   "theorems": [
    "C57_no_row_lost_or_duplicated_partial",
    "C57_split_row_refuted",
    "C09_what_is_read"
   ],
   "note": "Rows of the kind C11 covers and no lone CR (false for others: two rows are read as three, refuted); the row a boundary cuts keeps its count but loses the text after the cut (see C09 refutation)."
  },
  {
   "property": "C58",
   "status": "partial",
   "theorems": [
    "C58_no_header_partial",
    "C58_first_row_never_sampled_refuted",
    "C58_first_row_lost_refuted"
   ],
   "note": "True without header; with a header the first data row is never sampled (proved for every file)."
  },
  {
   "property": "C59",
   "status": "proved",
   "theorems": [
    "C59_export_fixed",
    "C59_export_strings",
    "C59_values_under_nulls",
    "C59_null_doubles_are_nan",
    "C59_two_gigabytes_refuted"
   ],
   "note": "Read back by an independent model of the Arrow layout; the 2^31 limit is shown sharp."
  },
  {
   "property": "C60",
   "status": "partial",
   "theorems": [
    "C60_set_flag_partial",
    "C60_set_null_first_refuted",
    "C60_set_null_ignored_refuted",
    "C60_set_count_refuted",
    "C60_resize_refuted",
    "C60_set_exactly",
    "C60_right_exactly_when"
   ],
   "note": "True for reading when the bitmap already has a null; otherwise out of bounds or ignored, and the counts go stale. C60_set_exactly describes every call, C60_right_exactly_when the calls for which the claim holds."
  },
  {
   "property": "C61",
   "status": "partial",
   "theorems": [
    "C61_duplicate_names_reported",
    "C61_empty_header_reported",
    "C61_disabled_reports_nothing",
    "C61_fail_fast_stops_refuted"
   ],
   "note": "Reporting is exact; the FAIL_FAST clause is refuted for duplicate names."
  },
  {
   "property": "C62",
   "status": "partial",
   "theorems": [
    "C62_summary_balanced_partial",
    "C62_summary_balanced_refuted"
   ],
   "note": "Balanced exactly when there is no stored error or at least one warning; otherwise the opening bracket is missing."
  },
  {
   "property": "C63",
   "status": "proved",
   "theorems": [
    "C63_file_metadata",
    "C63_page_header",
    "C63_data_page_header_v2"
   ],
   "note": "Members within their C++ types; lists below 2^31 elements."
  },
  {
   "property": "C64",
   "status": "partial",
   "theorems": [
    "C64_levels_exactly",
    "C64_aligned_levels_partial",
    "C64_writer_levels_partial",
    "C64_writer_levels_refuted"
   ],
   "note": "Exactly characterised in both directions. The full claim is false for the code: a null followed by eight values is stored as eight nulls and one value."
  },
  {
   "property": "C65",
   "status": "partial",
   "theorems": [
    "C65_written_file_reads_back_partial",
    "C38_lz4_refuted",
    "C38_codec_refuted"
   ],
   "note": "Proved for all schemas, row groups, options and lossless libraries except LZ4 and compression combined with dictionaries, where it is false (C38_lz4_refuted, C38_codec_refuted)."
  },
  {
   "property": "C66",
   "status": "partial",
   "theorems": [
    "C66_success_means_written_refuted",
    "C65_written_file_reads_back_partial"
   ],
   "note": "The full claim is false for the code: the stream state is never checked after writing, and a second open on an open stream silently breaks the file. Proved on a device that accepts every byte with a single open."
  },
  {
   "property": "C67",
   "status": "partial",
   "theorems": [
    "C67_types_partial",
    "C67_types_lost_refuted"
   ],
   "note": "The full claim is false for the code: DATE and TIMESTAMP are written without logical type. Everything else is recoverable."
  },
  {
   "property": "C68",
   "status": "partial",
   "theorems": [
    "C68_conversion_reads_back_partial",
    "C68_csv_text_to_parquet_partial",
    "C68_every_text_to_parquet_partial",
    "C68_short_text_to_parquet_partial",
    "C68_lz4_refuted",
    "C68_dictionary_refuted"
   ],
   "note": "Except LZ4 and compression combined with dictionaries (false there: refuted), and pages beyond the 2 GiB limits. Every text: the file holds the rows delivered of its parts; the table of the text under the conditions of C09, or for files below 1 MiB whose fields have balanced quotes."
  },
  {
   "property": "C69",
   "status": "partial",
   "theorems": [
    "C69_schedule_does_not_matter",
    "C69_failures_reported",
    "C69_full_disk_refuted"
   ],
   "note": "Schedule independence and reporting of input, output and cancellation proved for all inputs; a full disk is not noticed by the code (refuted)."
  },
  {
   "property": "C70",
   "status": "proved",
   "theorems": [
    "C70_report_is_true"
   ],
   "note": "All inputs, all options with max_rows > 0, all hash orders, any permutation as the result of sorting."
  },
  {
   "property": "C71",
   "status": "partial",
   "theorems": [
    "C71_confidence_range_partial",
    "C71_score_formula",
    "C71_positive_exactly_with_enough_rows",
    "C71_success_is_above_one_half",
    "C71_confidence_at_most_one_refuted"
   ],
   "note": "The upper bound is false: doubled or escaped quotes multiply the score by 1.1 or 1.2 without a cap. Proved: the confidence is a finite number from 0 to the double nearest 1.2, above 1 only with such quotes in the sample; every score is the documented formula with each operation correctly rounded (Flocq reals; standard library axioms of the reals)."
  },
  {
   "property": "C72",
   "status": "partial",
   "theorems": [
    "C72_cell_types",
    "C72_every_date_time_is_recognised",
    "C72_date_time_has_a_time_refuted",
    "C72_typed_cells",
    "C72_date_time_exactly"
   ],
   "note": "Exact for all types but DATETIME, which is complete but accepts any text of five characters after the date (refuted); C72_date_time_exactly characterises the texts accepted as DATETIME in both directions."
  },
  {
   "property": "C73",
   "status": "proved",
   "theorems": [
    "C73_fields_split_at_free_delimiters"
   ],
   "note": "All rows and dialects."
  },
  {
   "property": "C74",
   "status": "partial",
   "theorems": [
    "C74_only_a_prefix_matters",
    "C74_small_files_agree",
    "C74_detect_file_agrees_with_detect_refuted"
   ],
   "note": "The bound holds; detect_file reads only sample_size bytes and so disagrees with detect on files with long rows (refuted with a file of three rows of 3001 cells)."
  },
  {
   "property": "C75",
   "status": "proved",
   "theorems": [
    "C75_line_ending_exact"
   ],
   "note": "All samples."
  },
  {
   "property": "C76",
   "status": "partial",
   "theorems": [
    "C76_separable_options_validate",
    "C76_validators_exactly",
    "C76_valid_unless_quoteless",
    "C76_detected_dialect_is_valid_refuted"
   ],
   "note": "validate() passes whenever the options keep delimiters and quotes apart; is_valid() rejects the dialect without quotes, which can win (refuted)."
  },
  {
   "property": "C77",
   "status": "partial",
   "theorems": [
    "C77_reuse_after_failures_partial",
    "C77_schema_accumulates_refuted",
    "C77_same_file_twice_refuted"
   ],
   "note": "True after any number of failed calls. False after a successful one: the schema is never cleared and the columns of all inputs accumulate (exact description proved)."
  },
  {
   "property": "C78",
   "status": "partial",
   "theorems": [
    "C78_reads_live_memory_partial",
    "C78_read_after_failed_open_refuted"
   ],
   "note": "Exact characterisation of the histories after which read_all() touches released memory: a non-empty file was opened and then one or more opens failed. Safe after every other history."
  },
  {
   "property": "C79",
   "status": "partial",
   "theorems": [
    "C79_output_reads_back_partial",
    "C79_empty_row_lost_refuted",
    "C79_own_output_misread_refuted"
   ],
   "note": "Holds for every table by the specification of CSV, except rows of one empty cell (an empty line). The reader of the tool itself misreads the output because of the cached-split defect of C11."
  },
  {
   "property": "C80",
   "status": "partial",
   "theorems": [
    "C80_printed_cells_partial",
    "C80_printed_forms",
    "C80_fraction_dropped_refuted",
    "C80_early_years_refuted"
   ],
   "note": "Exact for integers, booleans, text, and dates and timestamps of the years 1000 to 9999 up to the fraction of a second, which is dropped towards 1970. How doubles are printed (six digits) is a parameter."
  },
  {
   "property": "C81",
   "status": "partial",
   "theorems": [
    "C81_what_is_printed",
    "C81_head_is_first_rows",
    "C81_head_of_a_file_partial",
    "C81_count_of_a_file_partial",
    "C81_empty_input",
    "C81_unopened_file_partial",
    "C81_misleading_names_refuted",
    "C81_missing_file_succeeds_refuted"
   ],
   "note": "The relation to the table read is unconditional; end to end under the conditions of C09. A missing file whose path contains the words Empty file counts as empty."
  },
  {
   "property": "C82",
   "status": "partial",
   "theorems": [
    "C82_select_projects",
    "C82_names_found_partial",
    "C82_numeric_names_refuted",
    "C82_large_index_throws_refuted"
   ],
   "note": "Complete description of select for every input and list; names of digits are taken as indices, names with commas or surrounding blanks cannot be listed, indices of 2^64 or more throw."
  },
  {
   "property": "C83",
   "status": "partial",
   "theorems": [
    "C83_pretty_is_a_box",
    "C83_line_feed_breaks_box_refuted"
   ],
   "note": "Exact output for every input; aligned unless a cell contains a line feed."
  },
  {
   "property": "C84",
   "status": "partial",
   "theorems": [
    "C84_options_understood_partial",
    "C84_options_ignored_refuted",
    "C84_numbers_refuted",
    "C84_numbers_exactly",
    "C84_convert_understood_partial",
    "C84_convert_inputs",
    "C84_convert_delimiter_refuted",
    "C84_convert_refuses_unknown"
   ],
   "note": "All sequences of documented items with at most one list of columns. An unknown option, - and the documented -S silently end option parsing; convert takes only the first character of a delimiter name. What every numeric option takes for a number is characterised exactly (a leading minus wraps modulo 2^64)."
  },
  {
   "property": "C85",
   "status": "partial",
   "theorems": [
    "C85_modes_read_the_same",
    "C85_errors_depend_on_first_line_only",
    "C85_stopped_commands_fail",
    "C85_data_errors_never_reported_refuted",
    "C85_strict_mode_refuted",
    "C85_recorded_errors_ignored_refuted",
    "C85_fatal_error_not_listed_refuted"
   ],
   "note": "The data read never depends on error handling (proved). The rest is false: only the header line is ever checked, ragged rows and unclosed quotes are accepted silently in strict mode, and the commands other than convert ignore recorded errors."
  },
  {
   "property": "C86",
   "status": "partial",
   "theorems": [
    "C86_file_is_loaded_whole",
    "C86_failures_leave_nothing_behind",
    "C86_stdin_partial",
    "C86_broken_stdin_refuted",
    "C86_sum_wraps_refuted"
   ],
   "note": "Files: complete. Standard input: a read error is taken for the end of the input (the test of std::cin.bad() can never be true). Size plus padding of 2^64 or more writes out of bounds."
  },
  {
   "property": "C87",
   "status": "proved",
   "theorems": [
    "C87_buffers_live_and_die",
    "C87_everything_released"
   ],
   "note": "All histories with size plus padding below 2^64; standard input in the histories ends properly."
  },
  {
   "property": "C88",
   "status": "partial",
   "theorems": [
    "C88_small_files_partial",
    "C88_exceptions",
    "C88_formats",
    "C88_large_files_refuted",
    "C88_two_rows_refuted"
   ],
   "note": "True for files with less than 1 MiB of data. For larger files only the first chunk is kept but the batch claims the rows of all of them: exactly when rows follow the first cut, reading the batch runs out of the buffers (proved for all files read correctly by C09, with a witness of two rows). Rows with quotes after the start of an unquoted field are excluded (see C09)."
  },
  {
   "property": "C89",
   "status": "partial",
   "theorems": [
    "C89_streams_partial",
    "C89_moved_children_refuted"
   ],
   "note": "All legal histories are safe except reading a moved child after everything else of its table is gone, which is always a use after free: the private data of a child does not keep the table."
  },
  {
   "property": "C90",
   "status": "partial",
   "theorems": [
    "C90_other_types_agree",
    "C90_builder_integers",
    "C90_context_integers",
    "C90_integers_agree_exactly_partial",
    "C90_same_text_other_value_refuted"
   ],
   "note": "True for every type except the integers; for these the texts on which the families differ are characterised exactly (both directions)."
  },
  {
   "property": "C91",
   "status": "proved",
   "theorems": [
    "C91_header_rule"
   ],
   "note": "All inputs below 2^52 bytes, all options with max_rows > 0, any sort and hash order; the majority test in floating point is shown to be exact. Uses the standard library axioms of the reals through Flocq."
  },
  {
   "property": "C92",
   "status": "proved",
   "theorems": [
    "C92_warnings"
   ],
   "note": "All inputs below 2^53 bytes, all options with max_rows > 0, any permutation as the result of sorting. Uses the standard library axioms of the reals through Flocq."
  },
  {
   "property": "C93",
   "status": "partial",
   "theorems": [
    "C93_compress_lossless_partial",
    "C93_pool_unobservable",
    "C93_into_buffer_partial",
    "C93_room_suffices_partial",
    "C93_parquet_pages",
    "C93_gzip_room_suffices_partial",
    "C93_gzip_large_room_refuted",
    "C93_gzip_drops_data_refuted",
    "C93_into_buffer_zero_refuted",
    "C93_compresses",
    "C93_gzip_room"
   ],
   "note": "All inputs, codecs, levels, pool histories. False for gzip inputs of 4 GiB or more: everything but the first (size mod 2^32) bytes is dropped without notice. compress_into_buffer returns 0 for empty input and for codecs not compiled in, and the memory then does not hold the data although the comment says so."
  },
  {
   "property": "C94",
   "status": "partial",
   "theorems": [
    "C94_arguments_accepted",
    "C94_file_holds_the_table_partial",
    "C94_ignored_arguments_refuted",
    "C94_errors_lost_refuted"
   ],
   "note": "The accepted names are exactly the documented ones and the file reads back to the table for every codec but lz4 (C38). row_group_size and num_threads are ignored; in strict mode recorded errors do not raise; a fatal error collected in permissive mode is not listed in the exception."
  },
  {
   "property": "C95",
   "status": "partial",
   "theorems": [
    "C95_no_data_is_written_refuted",
    "C95_to_arrow_ipc_raises"
   ],
   "note": "The implementation is a stub: proved for every history that no write succeeds, that close nevertheless reports success and that the file is empty; Python always raises."
  },
  {
   "property": "C96",
   "status": "partial",
   "theorems": [
    "C96_info_describes",
    "C96_lines",
    "C96_lines_tell_everything",
    "C96_nothing_to_read",
    "C96_text_tells_the_names_refuted"
   ],
   "note": "Exact text for every input. Everything can be read off it unless a column name contains a line feed (refuted with two inputs that print the same)."
  },
  {
   "property": "C97",
   "status": "partial",
   "theorems": [
    "C97_text_shows",
    "C97_text_is_faithful_refuted"
   ],
   "note": "Exact (both directions) for what the text shows; it leaves out the line ending, and the escape character when quotes are doubled although operator== compares it."
  },
  {
   "property": "C98",
   "status": "proved",
   "theorems": [
    "C98_summary",
    "C98_summary_tells_the_counts",
    "C98_predicates"
   ],
   "note": "All lists of errors."
  },
  {
   "property": "C99",
   "status": "partial",
   "theorems": [
    "C99_members_without_effect",
    "C99_comment_refuted",
    "C99_selection_refuted",
    "C99_empty_rows_refuted",
    "C99_escape_refuted"
   ],
   "note": "False: no code reads these members. Modelled as a record whose other members the reader does not receive; a counterexample for each promise."
  },
  {
   "property": "C100",
   "status": "partial",
   "theorems": [
    "C100_reads_back_partial",
    "C100_types_of_written_partial",
    "C100_usual_rows",
    "C100_text_column",
    "C100_mixed_row_refuted",
    "C100_distance_refuted"
   ],
   "note": "Every table, every thread count, cells quoted or plain, LF or CRLF, blank lines, missing final newline; rows of quoted cells only may hold anything, and so may rows whose quoted cells come first. False for rows in which a plain cell stands less than 63 bytes before a separator or line feed inside a quoted cell (refuted; 63 is sharp), and for files of 1 MiB or more with line breaks in cells (C09)."
  },
  {
   "property": "C101",
   "status": "partial",
   "theorems": [
    "C101_line_endings",
    "C101_blank_lines_partial",
    "C101_blank_line_refuted"
   ],
   "note": "LF, CRLF and the final newline make no difference (cells with line breaks: bodies below 1 MiB). Blank lines keep names and row count but can change an inferred type and thereby the cells (refuted)."
  },
  {
   "property": "C102",
   "status": "partial",
   "theorems": [
    "C102_one_report",
    "C102_one_report_tells",
    "C102_summary_lists",
    "C102_summary_counts",
    "C102_parenthesis_refuted",
    "C102_summary_tells_partial",
    "C102_exception_tells_partial",
    "C102_cli_report_tells_partial",
    "C102_single_exception_refuted",
    "C102_newline_in_a_name_refuted",
    "C102_documented_text_refuted"
   ],
   "note": "Every field is printed and lists with single-line messages are told apart. False in general: an exception with one error prints only its message; a line break in a column name makes two different lists print alike; the documented example shows another text; without warnings the count line closes a parenthesis it did not open."
  },
  {
   "property": "C103",
   "status": "partial",
   "theorems": [
    "C103_first_word",
    "C103_viewer_runs",
    "C103_convert_runs",
    "C103_runs_only_when_asked",
    "C103_exit_codes",
    "C103_file_names_refuted"
   ],
   "note": "Every command line. False for some file names: without a dot, called convert, or beginning with a minus sign (refuted)."
  },
  {
   "property": "C104",
   "status": "partial",
   "theorems": [
    "C104_earlier_rows_kept_partial",
    "C104_without_quotes",
    "C104_short_file_refuted",
    "C104_unended_file_refuted"
   ],
   "note": "Holds once the sampled rows are all in the file, its last row is ended, and the body is one C09 covers. False for shorter files (an added row changes the types and thereby earlier cells) and for an unended last row."
  },
  {
   "property": "C105",
   "status": "partial",
   "theorems": [
    "C105_viewer_shows",
    "C105_counts_what_was_written_partial",
    "C105_pipe_partial",
    "C105_simple_rows",
    "C105_empty_input",
    "C105_unreadable_input",
    "C105_other_words",
    "C105_pipe_refuted",
    "C105_dropped_options_refuted"
   ],
   "note": "Every documented command line and every input: the printed text is exactly that of the table read (what is read is C09, C100). False: head prints a mixed row that count then reads as two rows; options after a lone minus sign are dropped without notice."
  },
  {
   "property": "C106",
   "status": "partial",
   "theorems": [
    "C106_convert_writes_the_table_partial",
    "C106_failures_reported",
    "C106_other_words",
    "C106_full_disk_refuted",
    "C106_failure_writes_refuted"
   ],
   "note": "Every documented command line, input and schedule, with sizes within the limits of the format and any compression but lz4 (C38_lz4_refuted). False: a full disk is reported as success; with --strict and a repeated name the complete file is written although the exit code is 1."
  },
  {
   "property": "C107",
   "status": "partial",
   "theorems": [
    "C107_left_is_a_beginning",
    "C107_interrupted_unreadable_partial",
    "C107_full_disk_cuts",
    "C107_marked_cell_refuted"
   ],
   "note": "What is left is a beginning of the right file for all inputs, schedules, crash points and capacities. That no reader takes it for a file is proved for files without the mark PAR1 inside; with it, it is false: a cell that holds a footer makes the cut file read as an empty table, while success is reported on a full disk."
  },
  {
   "property": "C108",
   "status": "partial",
   "theorems": [
    "C108_nobody_waits_for_ever",
    "C108_failure_noticed",
    "C108_broken_conversion_partial",
    "C108_readable_leftover_refuted"
   ],
   "note": "No deadlock and never success, for all schedules and places of failure. The rest is false: when more than 4 row groups follow the failing one the writer object is destroyed with its thread not joined and the process is aborted (proved for every such run), and the destructor closes the file, which then reads as the table of the row groups before the failing one (proved in general, with a concrete run). Exceptions in the caller thread are not modelled."
  },
  {
   "property": "C109",
   "status": "partial",
   "theorems": [
    "C109_same_as_write_partial",
    "C109_reads_back_partial",
    "C109_destruction_closes",
    "C109_broken_exactly",
    "C109_refused_without_effect",
    "C109_success_means_written_refuted"
   ],
   "note": "The same file and reports for all calls in their order and all schedules. The rest is false: a second start_pipeline, a close, write or open after a submission, and destruction without finish_pipeline are a data race or abort the process instead of being refused (proved to be exactly these), and row groups submitted after close report success and are lost."
  },
  {
   "property": "C110",
   "status": "partial",
   "theorems": [
    "C110_bad_calls",
    "C110_outcomes",
    "C110_small_files_partial",
    "C110_strict_refuted"
   ],
   "note": "When read_csv raises, and with which errors listed, is characterised exactly for all arguments and all files. The returned table is that of the file for data below 1 MiB (larger files: C88_large_files_refuted). False: strict accepts repeated names, short rows and unclosed quotes."
  },
  {
   "property": "C111",
   "status": "partial",
   "theorems": [
    "C111_int32_columns_partial",
    "C111_int64_columns_partial",
    "C111_string_columns_partial",
    "C111_bool_columns_partial",
    "C111_double_columns_partial",
    "C111_same_chunk_refuted",
    "C111_null_then_values_refuted",
    "C111_metadata_refuted"
   ],
   "note": "Proved for all columns whose literals are aligned (C32, C64 say exactly what the others give). False in general: a null before eight values is lost; the chunk does not record the size of its dictionary, and two different columns give the same chunk; sizes before compression leave out the levels or are the stored ones; strings with nulls are described as without; NaN counts as a null; row groups are recorded without bytes. Nothing in the library calls these functions."
  },
  {
   "property": "C112",
   "status": "partial",
   "theorems": [
    "C112_whole_file_inside",
    "C112_reading_inside",
    "C112_scanning_inside",
    "C112_header_inside",
    "C112_texts_inside",
    "C112_lines_inside",
    "C112_integers_inside",
    "C112_detection_inside",
    "C112_detection_parts_inside",
    "C112_wide_vectors_refuted"
   ],
   "note": "For every file, all options (also a quote that is a newline or the separator), all thread counts, and every vector width that divides 64. False for vectors of 128 bytes and more (refuted for each such width). Dialect detection too, for every input, all options and every dialect. The float parser is not modelled."
  },
  {
   "property": "C113",
   "status": "partial",
   "theorems": [
    "C113_bar_shows_the_last_report",
    "C113_redrawn_on_change_only",
    "C113_never_stops_the_work",
    "C113_ends_clean",
    "C113_silent_without_terminal",
    "C113_full_bar_means_success_refuted",
    "C113_totals_are_bytes_refuted"
   ],
   "note": "All sequences of reports with done <= total and 100 * total below 2^64; memory claims for all numbers. False: every conversion leaves the same full bar, also a failed one; the totals reported are always 100, not bytes as documented."
  },
  {
   "property": "C114",
   "status": "partial",
   "theorems": [
    "C114_convert_tells",
    "C114_unreadable_told",
    "C114_suppressed_not_mentioned_refuted",
    "C114_strict_failure_looks_like_success_refuted",
    "C114_bar_before_failure_refuted"
   ],
   "note": "The exact text for every documented command line without -v (which adds times) and -p (C113). False: problems beyond --max-errors are not mentioned, and a failure of --strict reads like success with warnings."
  },
  {
   "property": "C115",
   "status": "partial",
   "theorems": [
    "C115_printed_cell_reads_back_partial",
    "C115_printed_table_reads_back_partial",
    "C115_any_table_reads_back_partial",
    "C115_head_reads_back_partial",
    "C115_head_of_any_table_partial",
    "C115_select_reads_back_partial",
    "C115_large_first_row_refuted",
    "C115_texts_become_numbers_refuted",
    "C115_quoted_null_lost_refuted",
    "C115_integers_behind_line_breaks_refuted"
   ],
   "note": "Columns of floating-point numbers and of texts under stated conditions (how a double is printed is a parameter); head and select of such files, and head of the output of head. Texts with line breaks: rows below 1 MiB. The types found again need a sample that shows the range of a column; the first data row is never sampled, so a large integer there is lost. False for texts that look like numbers or like null, and for integers behind texts with line breaks (not seen by the sampling)."
  }
 ]
}