# DESIGN

Formal model of jimhester/libvroom (pinned source in /repo) in Coq 8.16.1.

## Method

* One area = `XModel.v` (executable Gallina, every definition cites file and lines), `XSpec.v` (small independent specification, no reference to the model's helpers), `XProof*.v` (lemmas), `XProps.v` (the property theorems, closed by `exact` or a few lines of glue, each followed by `Print Assumptions`, and `Example`s showing that concrete non-trivial cases meet the hypotheses).
* Bytes are `N`; buffers are `list N`; lengths and offsets are `nat`; machine words are `N` or `Z` with the wrap written explicitly where it can matter.
* Loops are structural recursion or fuel; where fuel is used, the theorem's conclusion (`= Some ...`) or a lemma shows that the fuel given suffices.
* Undefined behaviour (out-of-bounds access, signed overflow, use of released memory) is a distinct outcome where the code does not guard against it.
* A property the code violates keeps its full statement in properties.jsonl; a `_refuted` theorem gives a concrete witness in the model and a `_partial` theorem proves the claim under the weakest hypothesis found. A claim is marked `partial` in MANIFEST.json whenever its English statement is not fully true of the model.
* Concurrency (thread pool, row-group queue, write pipeline) is modelled as transition systems; theorems quantify over all schedules. The environment (system calls, output device, compressors, hash orders, sort results, double parsing and printing) appears as universally quantified parameters with stated contracts.
* Wrong programs: `tools/mutate.py` edits a definition in a scratch copy, rebuilds and records in `seeded/LOG.jsonl` which theorems fail. Surviving edits that falsify a claim led to tightened theorems (recorded there).

## Files (rocq/theories)

| Area | Models | Source |
|---|---|---|
| Base | bytes, helpers | |
| Words | 64-bit masks, quote parity (shift, CLMUL, loop), lane-wise mask assembly | src/parser/quote_parity*, simd_chunk_finder.cpp |
| Chunk | row counting, chunk analysis (single, dual state), row-end search, find_chunks, chunk size | src/parser/simd_chunk_finder.cpp, chunk_finder.cpp, include/libvroom/options.h, csv_reader.cpp (range and linking loops) |
| Fields | field iterator, unescaping, line splitters, header parser | include/libvroom/split_fields.h, src/parser/split_fields*, line_parser.cpp |
| Num | integer parsing (SIMD, scalar, fast) | src/parser/simd_atoi-inl.h, include/libvroom/simd_atoi.h, fast_*_context.h |
| Date | dates and timestamps | src/schema/type_parsers.cpp |
| Types | type inference, widening, null detection, typed append, open | include/libvroom/types.h, src/schema/type_inference.cpp, src/parser/line_parser.cpp, csv_reader.cpp 283-498 |
| Reader, Tasks | parse loops, serial and parallel reading, thread pool | src/reader/csv_reader.cpp 44-252, 516-828 |
| Life, Mmap | reader object over histories, mapped files | csv_reader.cpp 254-498, src/reader/mmap_source.cpp |
| Buffers, BuffersReach | Arrow bitmaps, string and numeric buffers, column builders, export | include/libvroom/arrow_buffer.h, arrow_column_builder.h |
| Chunked, Cow | chunked column storage, copy-on-write buffers | include/libvroom/data_chunk.h, src/columns/column_builder.cpp, cow_buffer.h |
| Errors | error collector, header validation, summary | include/libvroom/error.h, src/error.cpp |
| Varint, Thrift, Meta | varints, Thrift compact writer, Parquet metadata | src/writer/thrift_compact.*, parquet_types.* |
| Rle, Plain, Delta | encoders, dictionaries, page writers | src/encoding/*, src/writer/dictionary.cpp, page_writer.cpp |
| Parquet | file writer, page assembly, compression decisions | src/writer/parquet_file.cpp (Arrow path), encoded_row_group.h, compression.cpp |
| Queue, Pipeline | row-group queue, writer thread | src/writer/encoded_row_group_queue.h, parquet_file.cpp 971-1050 |
| Convert | CSV to Parquet conversion | csv_reader.cpp 831-1134 |
| Stats | statistics, vectorised min/max, merging | include/libvroom/statistics.h, src/simd/statistics_simd.cpp, src/writer/statistics.cpp |
| Dialect | dialect detection | src/dialect.cpp, include/libvroom/dialect.h |
| Cli | command-line tool | src/cli.cpp |
| Strict | open and read with error handling, exit codes | csv_reader.cpp 299-391, 508-713, 860-902, src/cli.cpp 511-614 |
| Aligned | input buffers, loading of files and standard input | include/libvroom/io_util.h, src/io_util.cpp |
| Py | Python read_csv, schema and batch of the stream | python/src/bindings.cpp 34-340, 116-221 |
| PyLife | lifetime of tables and exported Arrow structures | python/src/bindings.cpp 79-238, 475-505, include/libvroom/arrow_export.h |
| Layers | the three families of column appenders | src/columns/column_builder.cpp, include/libvroom/fast_column_context.h, fast_arrow_context.h |
| Hybrid | division of sequences into runs and literals, readers' view (specification and proofs about the Rle model) | src/encoding/hybrid_rle.cpp |
| Split | block-wise division of a row (specification and proofs about the Fields model) | include/libvroom/split_fields.h |
| Score | scores, confidence, header and warning of a detection in real numbers (specification and proofs about the Dialect model, with Flocq) | src/dialect.cpp 258-376, 422-551, 673-720 |
| Deliver | rows delivered for every file (specification and proofs about the Reader and Cli models) | src/reader/csv_reader.cpp 113-252, 516-828, src/cli.cpp |
| Compress | compress, compress_into and its pool, compress_into_buffer, max_compressed_size; zstd, zlib, snappy and lz4 by their contracts | src/writer/compression.cpp |
| PyConv | arguments and outcomes of to_parquet, Arrow IPC writer | python/src/bindings.cpp 346-445, src/writer/arrow_ipc_writer.cpp |
| Stamp | accepted dates and timestamps in both directions (specification and proofs about the Date model) | src/schema/type_parsers.cpp |
| Show | info, Dialect::to_string, ConversionResult | src/cli.cpp 182-197, 719-830, src/dialect.cpp 196-247, include/libvroom/vroom.h 45-98 |
| Unused | CsvOptions with the members no code reads | include/libvroom/options.h 13-37 |
| Round | written tables (specification and proofs about the Reader, Fields and Types models) | src/reader/csv_reader.cpp 113-828, src/parser/line_parser.cpp, src/schema/type_inference.cpp |
| Keep | what a text means in a column, which sampled cells are lost (specification and proofs about the Types model) | src/columns/column_builder.cpp, include/libvroom/fast_column_context.h |
| Report | texts of errors, summaries, exceptions, the report of convert | src/error.cpp 7-156, src/cli.cpp 512-533 |
| Main | dispatch of command lines, validation of convert | src/cli.cpp 442-487, 1140-1218 |
| Append | rows added at the end of a file (specification and proofs about the Reader and Types models) | src/reader/csv_reader.cpp 283-391, 516-713, src/schema/type_inference.cpp |
| Program | the whole program: command line, input, options, table, output | src/cli.cpp 94-96, 278-356, 548-1218 |
| Rows | blank lines and open rows (specification and proofs about the Reader model) | src/reader/csv_reader.cpp 516-713 |
| Tool | convert as a whole: command line, options, conversion, exit code, files | src/cli.cpp 452-541, 1159-1218 |
| Crash | conversions that die or fill the disk (definitions over the Convert and Pipeline models) | src/reader/csv_reader.cpp 937-1108, src/writer/parquet_file.cpp 686-1114 |
| Fail | exceptions in the writer thread, what they leave behind | src/writer/parquet_file.cpp 695-771, 925-929, 971-1114 |
| Session | all public calls of ParquetWriter in any order | src/writer/parquet_file.cpp 921-1116 |
| PyRead | Python's read_csv with its arguments and exceptions | python/src/bindings.cpp 252-340, 538-582 |
| Vectors | column writers over vectors, their pages, dictionaries and row groups | src/writer/column_writer.cpp, src/writer/page_writer.cpp, src/writer/row_group.cpp, src/writer/dictionary.cpp 11-49, 157-258 |
| Raw | every read of the data as an indexed access: chunk finder, field iterator, unescape, row loops, header, type sampling, dates, line splitters, line parser, integers, dialect detection | src/dialect.cpp, src/parser/simd_chunk_finder.cpp, src/parser/chunk_finder.cpp, include/libvroom/split_fields.h, src/reader/csv_reader.cpp 19-39, 113-828, src/parser/line_parser.cpp, src/schema/type_inference.cpp, src/schema/type_parsers.cpp |
| Progress | progress bar and the calls of a conversion to it | src/cli.cpp 37-88, 492-510, src/reader/csv_reader.cpp 914-920, 1129-1131 |
| Stderr | standard error of convert without -v | src/cli.cpp 492-530 |
| Reprint | printed values and tables read again (composition of Cli, Round, Types) | as those areas |

## Properties

For each property: what is modelled and how it is proved, then the result.

### C01 Vectorised row counting agrees with the byte-by-byte definition
*Model and proof:* Area Chunk. Model: block masks as 64-bit words (N), the scalar tail, the scalar counter. Spec: row ends as positions with even quote count before them. Proof: bit-level lemmas (prefix xor = parity), induction over blocks.

*Result:* proved. For every buffer and every quote character other than LF/CR; for quote = LF the two paths differ (witness). Theorems: `C01_count_rows_exact`, `C01_quote_LF_disagrees_refuted`.

### C02 Single-pass chunk analysis is exact from either starting quote state
*Model and proof:* Area Chunk. Same model with the initial state as parameter; same spec with starting parity.

*Result:* proved.  Theorems: `C02_analyze_chunk_exact`.

### C03 Dual-state analysis equals two independent analyses
*Model and proof:* Area Chunk. Model of the dual-state loop; proved equal to the pair of single-state spec values.

*Result:* proved.  Theorems: `C03_dual_state_exact`.

### C04 Row counting is chunking-independent
*Model and proof:* Area Chunk. Model of the linking loop (phase 2); proof by induction on the list of chunks using spec concatenation lemma. Hypothesis: no chunk boundary between CR and LF (boundary produced by find_row_end satisfy it).

*Result:* proved. First theorem: any decomposition that does not cut a CRLF; second: the ranges the parallel reader really uses (no side condition). Theorems: `C04_chunked_row_count`, `C04_reader_chunks_row_count`.

### C05 Row-end search finds the first unquoted line end, makes progress and stays in bounds
*Model and proof:* Area Chunk. Model of the three-phase search; spec = first row end; equality with scalar.

*Result:* proved.  Theorems: `C05_find_row_end_exact`.

### C06 Quote-parity masks are exact across blocks
*Model and proof:* Area Words. Doubling shifts, CLMUL by all ones and bit loop as functions on N; testbit characterisation.

*Result:* proved.  Theorems: `C06_quote_masks_exact`, `C06_implementations_agree`.

### C07 Chunk ranges tile the data
*Model and proof:* Area Chunk. Model of find_chunks and of the range loop in read_all with fuel, fuel shown sufficient; tiling by induction.

*Result:* proved.  Theorems: `C07_chunk_ranges_tile`, `C07_find_chunks_tile`, `C07_find_chunks_row_counts`.

### C08 Every chunk boundary is a row boundary
*Model and proof:* Area Chunk. Expected false (search assumes outside-quotes at the split target): refuted by witness, plus the positive theorem for quote-free data.

*Result:* proved in part. The general claim is false of the code (witness for every chunk size); true when the split target is outside quotes or there are no quotes. C08_row_end_exactly_when says, in both directions, for which targets the boundary found is the end of a row. Theorems: `C08_boundary_inside_quotes_refuted`, `C08_boundary_is_row_end_partial`, `C08_row_end_exactly_when`.

### C09 Parallel reading returns the same table as serial reading
*Model and proof:* Area Reader. Expected false for quoted data; refuted + positive theorem for the case where boundaries are true row boundaries/quote-free data.

*Result:* proved in part. What is read is described exactly for every file and thread count (parts of the file, each cut into rows); the rows of a part are right exactly when every delimited field has an even number of quotes. The table of the whole text for every thread count when no quoted field spans lines (or no chunk boundary falls inside quotes), CRs only in CRLF, rows as in C11. False in general: a quoted field spanning a chunk boundary is truncated (64 MB witness; also 1 vs 64 threads differ). Theorems: `C09_what_is_read`, `C09_serial_what_is_read`, `C09_rows_right_exactly_when_balanced`, `C09_read_all_is_the_table_partial`, `C09_boundaries_outside_quotes_partial`, `C09_quote_free_files_partial`, `C09_serial_is_the_table_partial`, `C09_parallel_differs_from_serial_refuted`, `C09_thread_counts_differ_refuted`.

### C10 Tables are rectangular
*Model and proof:* Area Reader. Model of the row loop over an abstract column append; invariant by induction on fuel.

*Result:* proved. Any bytes, both reader paths, and LineParser::parse_line. Theorems: `C10_tables_rectangular`, `C10_parse_line_rectangular`.

### C11 Field iteration splits a row at exactly the unquoted separators
*Model and proof:* Area Fields. Iterator model incl. cached 64-bit mask; expected false when >64 bytes remain and a quoted field follows in the block; refuted + positive theorems. Area Split: exact description for every row by a specification of the block-wise division, and an exact criterion on the delivered fields.

*Result:* proved in part. What is delivered is described exactly for every row, and it is right exactly when every delimited field has an even number of quotes (both directions). In particular right whenever no quoted delimiter lies within 63 bytes after an unquoted field. False in general: the cached mask of an unquoted scan ignores quotes (witness a,"b,c" in a long buffer). Theorems: `C11_what_is_split`, `C11_right_exactly_when_balanced`, `C11_iterator_exact_partial`, `C11_all_quoted_rows_partial`, `C11_quote_free_rows_partial`, `C11_cached_split_refuted`.

### C12 Field iteration terminates, makes progress and loses no byte
*Model and proof:* Area Fields. Induction on next() calls.

*Result:* proved. All buffers, separators, quotes and end-of-line bytes. Theorems: `C12_iteration_lossless`.

### C13 Quoted values round-trip
*Model and proof:* Area Fields. Round trip of escape/unescape.

*Result:* proved. Single value and whole rows of quoted values through the iterator. Theorems: `C13_value_roundtrip`, `C13_row_roundtrip`.

### C14 The line splitters agree with each other
*Model and proof:* Area Fields. Models of three splitters; equalities, and refutation where they differ.

*Result:* proved. For buffers holding one line (the documented use); a buffer that continues after the line is split differently (witness). Theorems: `C14_splitters_agree`, `C14_empty_line`, `C14_beyond_the_line_refuted`.

### C15 32-bit integer fields parse exactly or are rejected
*Model and proof:* Area IntParse. Digit loops with explicit width; exactness vs decimal value spec.

*Result:* proved in part. Proved for the SIMD parser used by the reader with wrapping negation; in ISO C++ the least int32 is undefined behaviour; the second (legacy) parser accepts a doubled sign. Theorems: `C15_int32_exact`, `C15_int32_iso_partial`, `C15_least_int32_refuted`, `C15_scalar_agrees`, `C15_wide_vectors_refuted`, `C15_fast_parser_partial`, `C15_fast_parser_refuted`.

### C16 64-bit integer fields parse exactly or are rejected
*Model and proof:* Area IntParse. Same; wrap written explicitly.

*Result:* proved in part. As C15; the public scalar reference returns wrapped values for 20-digit texts. Theorems: `C16_int64_exact`, `C16_int64_iso_partial`, `C16_scalar_agrees_partial`, `C16_scalar_wraps_refuted`, `C16_fast_parser_partial`, `C16_fast_parser_refuted`.

### C17 Date fields parse to the proleptic Gregorian day number
*Model and proof:* Area DateTime. Model of the day-number arithmetic; spec = count of days by summing months and years.

*Result:* proved in part. Exact for years 1-9999; year 0 is off by one day (witness). Accepted texts and values characterised in both directions. Theorems: `C17_accepts_exactly_dates`, `C17_day_number_partial`, `C17_order_partial`, `C17_day_number_is_day_count`, `C17_year_zero_refuted`, `C17_value_exactly`.

### C18 Timestamp fields parse to the right instant
*Model and proof:* Area DateTime. Model of the timestamp state machine.

*Result:* proved in part. All documented forms from year 1 on; garbage after the zone or the sixth fraction digit is accepted (witness). Accepted texts and values characterised in both directions. Theorems: `C18_documented_forms_partial`, `C18_accepted_is_near_partial`, `C18_no_overflow`, `C18_trailing_text_accepted_refuted`, `C18_accepted_exactly`.

### C19 Type widening is order-independent
*Model and proof:* Area Types. Finite case analysis lifted to folds over permutations.

*Result:* proved. Inference gives the unique narrowest type of the sampled cells, whatever their order. UNKNOWN as an operand and can_promote do not follow the hierarchy (witnesses). Theorems: `C19_inferred_type_is_narrowest`, `C19_narrowest_unique`, `C19_row_order_irrelevant`, `C19_wider_type_joins`, `C19_unknown_not_commutative_refuted`, `C19_can_promote_partial`, `C19_can_promote_refuted`.

### C20 An inferred type can represent every sampled cell
*Model and proof:* Area Types. Compares inference predicates with parsers; expected false, witnesses + positive part.

*Result:* proved in part. Exact: what a text means in a column of each type and which sampled cells are lost (iff). Integer, float and string cells survive; booleans in integer columns, dates in timestamp columns, out-of-range integers, Yes/No, impossible dates, blank-padded and multi-line cells are lost (witnesses). fast_float is an oracle. Theorems: `C20_integer_detection`, `C20_integer_columns_partial`, `C20_float_and_string_columns_partial`, `C20_bool_columns_partial`, `C20_date_columns_partial`, `C20_bool_in_integer_column_refuted`, `C20_unrepresentable_cells_refuted`, `C20_dates_among_timestamps_refuted`, `C20_trimmed_sample_refuted`, `C20_stored_exactly`, `C20_meaning_unique`, `C20_lost_exactly`, `C20_lost_by_default_exactly`, `C20_plus_in_float_column_refuted`.

### C21 The validity bitmap behaves like a list of booleans
*Model and proof:* Area Buffers. Refinement to list bool.

*Result:* proved. Any history over any number of bitmaps: size, is_valid, both null counts, has_nulls, raw bits, finalize. Theorems: `C21_bitmap_is_a_list_of_flags`.

### C22 The string buffer behaves like a list of strings
*Model and proof:* Area Buffers. Refinement to list of byte strings with 32-bit offsets.

*Result:* proved. Any history below 2^32 bytes; the bound is shown sharp; push_back_unchecked stores zero bytes instead of the string. Theorems: `C22_string_buffer_is_a_list_of_strings`, `C22_four_gigabytes_refuted`, `C22_push_back_unchecked_refuted`, `C22_push_back_unchecked_stores_zeros`.

### C23 Merging columns is concatenation
*Model and proof:* Area Buffers. merge = append, on top of C21/C22.

*Result:* proved. All seven builder classes (six fixed-width ones share one model). Theorems: `C23_merging_fixed_columns`, `C23_merging_string_columns`, `C23_any_grouping`.

### C24 Chunked column storage preserves the value sequence
*Model and proof:* Area Buffers. Chunked storage state machine, abs = concatenation.

*Result:* proved. Any history of appends, context fills, merges, finalisation and reads; the refutation shows why a write context must not be kept across a read. Theorems: `C24_chunked_builder_is_a_list`, `C24_kept_context_refuted`.

### C25 Copy-on-write buffers are isolated
*Model and proof:* Area Cow. Heap of reference counted cells and handles; refinement to a map handle -> value.

*Result:* proved. Any history; the refutation concerns references kept from to_mut(). Theorems: `C25_handles_are_isolated`, `C25_copies_only_when_shared`, `C25_kept_reference_refuted`.

### C26 Error collection is lossless in count and bounded in memory
*Model and proof:* Area Errors. State machine + invariant over all op lists.

*Result:* proved. Any history over any number of collectors, for any sort meeting the contract of std::sort. Stopping follows the mode unless the limit is 0 (refuted there); the comment on should_stop is contradicted by BEST_EFFORT. Theorems: `C26_keeps_the_first`, `C26_every_history`, `C26_limit_tells_what_is_kept`, `C26_fail_fast_limit_zero_refuted`, `C26_fatal_stops_unless_disabled_refuted`.

### C27 Merged per-thread errors come out complete and sorted
*Model and proof:* Area Errors. Stable sort of concatenation; permutation + sortedness.

*Result:* proved. Any collectors, any sort meeting the contract of std::sort. Theorems: `C27_merge_sorted_complete`.

### C28 Variable-length integers and zig-zag round-trip
*Model and proof:* Area Varint. Encoder with shifts on N; decoder; round trip by well-founded induction.

*Result:* proved. All values and all following bytes; lengths at most 10 and 5 bytes. Theorems: `C28_uint64_round_trip`, `C28_uint32_round_trip`, `C28_signed_round_trip`.

### C29 Thrift compact structures round-trip
*Model and proof:* Area Thrift. Writer state machine with field-id stack; generic reader; round trip by induction on trees.

*Result:* proved. All well-formed trees, any writer state, any following bytes. Theorems: `C29_struct_round_trip`.

### C30 Definition levels round-trip
*Model and proof:* Area Rle. Encoder model, independent Parquet hybrid reader, round trip.

*Result:* proved. Arrow-column writer path; bitmaps as built by any history; up to 2^31-1 rows. Theorems: `C30_definition_levels_round_trip`, `C30_empty`.

### C31 Dictionary index pages round-trip
*Model and proof:* Area Rle. Same reader, general bit width.

*Result:* proved. Null rows are left out; nothing at all is written when every row is null. Theorems: `C31_dictionary_indices_round_trip`.

### C32 The hybrid RLE encoder's output decodes to its input
*Model and proof:* Areas Rle and Hybrid. False (mid-stream bit-packed padding): refuted; the output is shown to be that of a specified division into pieces, from which what a reader sees, and when it is the input, follows exactly.

*Result:* proved in part. The full claim is false for the code: zero padding in front of a long run is read as values (refuted with a concrete sequence). What a reader sees is determined for every sequence, and exactly when it is the sequence itself (both directions). Theorems: `C32_what_is_read`, `C32_round_trip_exactly`, `C32_aligned_partial`, `C32_hybrid_encoder_partial`, `C32_hybrid_encoder_constant_partial`, `C32_hybrid_encoder_refuted`.

### C33 The RLE encoder's output decodes to its input
*Model and proof:* Area Rle. Round trip.

*Result:* proved.  Theorems: `C33_rle_round_trip`, `C33_levels_round_trip`.

### C34 Delta encoding round-trips
*Model and proof:* Area Delta. Encoder, reader; expected partial.

*Result:* proved in part. The full claim is false for the code: every sequence whose last block has 1 to 95 deltas makes the encoder throw; the last mini-block is not padded; int32 may use 33 bits; int64 overflows. For int32 the sequences that survive are characterised exactly (both directions); for int64 likewise while nothing overflows and deltas of a block are less than 2^58 apart. Theorems: `C34_int32_partial`, `C34_int64_partial`, `C34_short_block_refuted`, `C34_refuted`, `C34_int32_right_exactly_when`, `C34_int64_right_exactly_when_partial`.

### C35 PLAIN encoding round-trips
*Model and proof:* Area Plain. Little-endian codecs, null-skipping.

*Result:* proved. Both the Arrow-column and the plain-vector encoders, read back by an independent PLAIN reader. Theorems: `C35_int32`, `C35_int64`, `C35_float64`, `C35_bool`, `C35_string`, `C35_vectors_int32`, `C35_vectors_int64`, `C35_vectors_float64`, `C35_vectors_bool`, `C35_vectors_string`, `C35_dictionary_pages`.

### C36 Dictionaries are faithful
*Model and proof:* Area Dict. Insertion-order dictionary model with association list.

*Result:* proved. Every dictionary built reproduces the column row by row. Theorems: `C36_string_columns`, `C36_vectors_string`, `C36_vectors_int`.

### C37 Parquet column offsets and sizes in the footer address the right bytes
*Model and proof:* Area ParquetFile. File writer as byte-list state machine; offsets slice the final file at the page bytes.

*Result:* proved in part. Proved for the file a fresh writer writes, for all options, schemas and row groups. The full claim is false for a second file written by the same object: state is not reset by open (refuted). Theorems: `C37_layout`, `C37_second_file_refuted`.

### C38 Every written page can be decompressed with its recorded codec
*Model and proof:* Area ParquetFile. Model of per-page compression decision with compressor as a section variable; expected false.

*Result:* proved in part. Except for LZ4 (raw blocks recorded as codec 5, refuted) data pages agree with the recorded codec; dictionary pages only unless compression and dictionaries are combined: the chunk records only the codec of the data page (refuted with a concrete column and codec). Theorems: `C38_data_pages`, `C38_dictionary_pages_partial`, `C38_codec_refuted`, `C38_lz4_refuted`.

### C39 The row-group queue is a bounded FIFO under every interleaving
*Model and proof:* Area Queue. Transition system with arbitrary interleavings; invariant: popped ++ queue = pushed.

*Result:* proved. Every interleaving of any number of threads, spurious wake-ups included; the mutex and the condition variables are modelled at the level of the C++ standard. Theorems: `C39_linearizable`, `C39_order_and_close`, `C39_no_lost_wakeup`, `C39_deadlock_only_if_starved`.

### C40 The write pipeline never deadlocks and writes row groups in submission order
*Model and proof:* Area Queue. Transition system of encoder + writer; progress and order.

*Result:* proved. Every schedule of the submitting thread and the writer thread. Exceptions thrown inside the writer thread, a second start_pipeline and destruction of the writer while the pipeline is active are not covered. Theorems: `C40_no_deadlock`, `C40_terminates`, `C40_in_order`, `C40_same_as_write`.

### C41 Row-group batching preserves the table
*Model and proof:* Area Pipeline. Batch loop as function on chunk sizes; concat of batches = chunks.

*Result:* proved. Every sequence of chunks, with or without text columns; says exactly which chunks are joined. Theorems: `C41_row_groups`.

### C42 Column statistics are the true minimum, maximum and counts
*Model and proof:* Area Stats. Fold invariants.

*Result:* proved in part. Every history of single, batched and null updates, merges and resets, for integers, strings and booleans. For doubles a batch without null flags that has a NaN is miscounted (refuted). String and bool column builders forget merged-in cells and cells written through their vectors (refuted; what they do report is proved). Theorems: `C42_integer_statistics`, `C42_string_statistics`, `C42_bool_statistics`, `C42_double_statistics_partial`, `C42_double_range_partial`, `C42_double_batch_counts_refuted`, `C42_double_counts_exactly`, `C42_double_statistics_exactly`, `C42_integer_builder_statistics`, `C42_double_builder_statistics`, `C42_string_builder_statistics_partial`, `C42_bool_builder_statistics_partial`, `C42_merged_builder_statistics_refuted`.

### C43 Vectorised min/max equals the sequential fold for every lane width
*Model and proof:* Area Stats. Lane-parametric reduction = fold min; for x86 with NaN, each lane is a fold over its column and remembers what follows the last NaN.

*Result:* proved in part. Integers: every array and every lane count. Doubles: every array if the hardware minimum propagates NaN, else arrays without NaN; with NaN on x86 the result is wrong (refuted). For x86 the result is described exactly (what each lane remembers), and when it is right, in both directions, unless the last complete vector contains a NaN. Theorems: `C43_vector_minmax_int`, `C43_same_for_every_width`, `C43_vector_minmax_double_partial`, `C43_vector_minmax_double_refuted`, `C43_double_taking_second_partial`, `C43_double_right_exactly_when_partial`.

### C44 Merging statistics equals statistics of the concatenation
*Model and proof:* Area Stats. Monoid homomorphism.

*Result:* proved in part. Any grouping and any order for all types; for doubles the range always, the counts exactly when the NaN values in batches without null flags are the same (a NaN beside a number counts as a value, alone not at all), refuted otherwise. Theorems: `C44_integer_merge`, `C44_int32_merge`, `C44_string_merge`, `C44_bool_merge`, `C44_double_merge_partial`, `C44_double_range`, `C44_double_counts_exactly`, `C44_double_grouping_refuted`, `C44_column_statistics_merge`, `C44_serialized_statistic_reads_back`.

### C45 Comment skipping stops exactly at the first non-comment line
*Model and proof:* Area Dialect. Loop with fuel; spec of lines.

*Result:* proved in part. Every buffer; comment characters other than CR and LF. Exactly the leading comment lines are skipped, except that a last line of blanks without terminator is skipped too (refuted with a witness; a buffer of blanks is reported as only comments). C45_skips_exactly says what is skipped, in both directions. Theorems: `C45_skip_comments_partial`, `C45_skip_stops_at_first_non_comment_refuted`, `C45_skips_exactly`.

### C46 Dialect row finding partitions the sample
*Model and proof:* Area Dialect. Row scanner; partition lemma.

*Result:* proved. All samples, dialects and options with max_rows > 0. Theorems: `C46_rows_are_the_first_lines`, `C46_rows_partition_the_sample`.

### C47 Dialect candidate ranking is a consistent order
*Model and proof:* Area Dialect. Scores as rationals; expected false (epsilon comparison), witness.

*Result:* proved in part. The comparison is not a strict weak ordering: with default options and an ordinary sample the candidates handed to std::sort violate transitivity of equivalence (undefined behaviour of std::sort), and close scores allow cycles. It is one when scores fall into clear ranks and at most one quote character besides the double quote is in play. Theorems: `C47_ranking_consistent_partial`, `C47_ranking_antisymmetric_partial`, `C47_strict_weak_order_refuted`, `C47_transitivity_refuted`, `C47_ranks_by_score_partial`, `C47_winner_is_nearly_best_partial`.

### C48 Mapped-file lifetime is leak- and dangling-free
*Model and proof:* Area Mmap. State machine over OS calls with a resource ledger.

*Result:* proved in part. Every history of constructing, opening, closing and destroying any number of sources and every honest behaviour of the system. The class can be neither moved nor copied. size() is not 0 after an open() that failed in mmap (refuted); the other accessor claims are proved. Theorems: `C48_ledger`, `C48_everything_released_once`, `C48_accessors_partial`, `C48_size_zero_when_closed_refuted`.

### C49 Null detection is the same in every layer
*Model and proof:* Area Nulls. Three predicates on strings; refuted/positive.

*Result:* proved in part. All non-empty texts; complete description for the empty text, where the layers disagree. Theorems: `C49_layers_agree_partial`, `C49_empty_text`, `C49_layers_disagree_refuted`.

### C50 Results do not depend on the SIMD lane width
*Model and proof:* Area Words. Lane-parametric mask assembly.

*Result:* proved. Lane counts dividing 64; wider lanes over-read (witness). Theorems: `C50_lane_independent`, `C50_wide_lanes_overread_refuted`.

### C51 Chunk sizing is within its documented bounds
*Model and proof:* Area Chunk. Arithmetic on N with explicit machine bounds.

*Result:* proved. Bounds for all arguments, value and divisor. In addition: the allocation budget documented beside the bounds is not guaranteed (witness); C51_budget_exactly says when it is kept. Theorems: `C51_chunk_size_bounds`, `C51_chunk_size_value`, `C51_budget_refuted`, `C51_budget_exactly`.

### C52 Header parsing yields one name per header field
*Model and proof:* Area Fields. Header splitter.

*Result:* proved. Newline-terminated header lines; the complete description for other lines is C52_header_any_line; an unterminated header ending in a separator loses its last name (witness). Theorems: `C52_header_one_name_per_field`, `C52_header_any_line`, `C52_quoted_name`, `C52_plain_name`, `C52_column_count`, `C52_columns_are_fields`, `C52_trailing_separator_refuted`.

### C53 Parallel completion order does not affect the result
*Model and proof:* Area Reader. Task completion permutation model.

*Result:* proved. Small-step thread pool: any number of workers, any interleaving of task steps. Theorems: `C53_schedule_independent`, `C53_never_stuck`, `C53_one_writer_per_slot`.

### C54 Delta-length byte arrays round-trip
*Model and proof:* Area Delta. Lengths + concatenated bytes.

*Result:* proved in part. As C34: the columns that survive are characterised exactly (both directions). Theorems: `C54_round_trip_partial`, `C54_short_block_refuted`, `C54_right_exactly_when`.

### C55 The reported row count is the number of rows delivered
*Model and proof:* Area Reader. Expected false in the parallel path; refuted + serial positive. Area Rows: line ends against rows, blank lines and an open last row counted by an independent scan.

*Result:* proved in part. Serial path: always. Parallel path: exactly when the number of blank lines is the number of rows without a line end (0 or 1), for the files of C57 (both directions); false otherwise (witness). Theorems: `C55_what_is_reported`, `C55_exactly_when`, `C55_serial_row_count`, `C55_row_count_partial`, `C55_blank_lines_counted_refuted`.

### C56 Uninitialised memory never influences the table
*Model and proof:* Area Reader. The quote flag the parallel reader passes to a chunk before linking is a parameter of the model; the theorem says the result does not depend on it.

*Result:* proved.  Theorems: `C56_uninitialised_flag_unobservable`.

### C57 The parallel reader neither loses nor duplicates rows
*Model and proof:* Area Reader. The chunk parser's ownership rule (a row belongs to the chunk it begins in) against the specification own_part; induction on the list of chunks.

*Result:* proved in part. Rows of the kind C11 covers and no lone CR (false for others: two rows are read as three, refuted); the row a boundary cuts keeps its count but loses the text after the cut (see C09 refutation). Theorems: `C57_no_row_lost_or_duplicated_partial`, `C57_split_row_refuted`, `C09_what_is_read`.

### C58 Type inference looks at every sampled data row
*Model and proof:* Area Types. Model of infer_from_sample with its line skipping; the specification sample counts lines; equality, and witnesses for the lost first row.

*Result:* proved in part. True without header; with a header the first data row is never sampled (proved for every file). Theorems: `C58_no_header_partial`, `C58_first_row_never_sampled_refuted`, `C58_first_row_lost_refuted`.

### C59 Exported Arrow arrays read back as the column
*Model and proof:* Area Buffers. export_to_arrow as a record of buffers; an independent reader of the Arrow columnar layout; refinement over all histories.

*Result:* proved. Read back by an independent model of the Arrow layout; the 2^31 limit is shown sharp. Theorems: `C59_export_fixed`, `C59_export_strings`, `C59_values_under_nulls`, `C59_null_doubles_are_nan`, `C59_two_gigabytes_refuted`.

### C60 Overwriting a validity flag takes effect
*Model and proof:* Area Buffers. NullBitmap::set and set_null on the lazily allocated bitmap; exact description of the cases in which they are right; witnesses for the rest.

*Result:* proved in part. True for reading when the bitmap already has a null; otherwise out of bounds or ignored, and the counts go stale. C60_set_exactly describes every call, C60_right_exactly_when the calls for which the claim holds. Theorems: `C60_set_flag_partial`, `C60_set_null_first_refuted`, `C60_set_null_ignored_refuted`, `C60_set_count_refuted`, `C60_resize_refuted`, `C60_set_exactly`, `C60_right_exactly_when`.

### C61 Header problems are reported exactly
*Model and proof:* Area Errors. The header checks of open(); specification: the list of duplicate names in order; induction on the names.

*Result:* proved in part. Reporting is exact; the FAIL_FAST clause is refuted for duplicate names. Theorems: `C61_duplicate_names_reported`, `C61_empty_header_reported`, `C61_disabled_reports_nothing`, `C61_fail_fast_stops_refuted`.

### C62 The error summary is well formed
*Model and proof:* Area Errors. First line of summary() as text; balance of brackets as a predicate.

*Result:* proved in part. Balanced exactly when there is no stored error or at least one warning; otherwise the opening bracket is missing. Theorems: `C62_summary_balanced_partial`, `C62_summary_balanced_refuted`.

### C63 Parquet metadata round-trips
*Model and proof:* Area Meta. The eleven write methods of parquet_types.cpp on the Thrift writer; reader by field number from parquet.thrift; composition with C29.

*Result:* proved. Members within their C++ types; lists below 2^31 elements. Theorems: `C63_file_metadata`, `C63_page_header`, `C63_data_page_header_v2`.

### C64 Definition levels of the plain-vector page writers round-trip
*Model and proof:* Area Plain/Rle. The page writers of page_writer.cpp use the hybrid encoder for levels; positive on sequences where padding cannot matter, witness otherwise.

*Result:* proved in part. Exactly characterised in both directions. The full claim is false for the code: a null followed by eight values is stored as eight nulls and one value. Theorems: `C64_levels_exactly`, `C64_aligned_levels_partial`, `C64_writer_levels_partial`, `C64_writer_levels_refuted`.

### C65 A written Parquet file reads back as the table
*Model and proof:* Area Parquet. ParquetWriter as a state machine over a byte stream; a strict independent reader of flat Parquet files (ParquetSpec); file_layout invariant over the row groups, then reading chunk by chunk.

*Result:* proved in part. Proved for all schemas, row groups, options and lossless libraries except LZ4 and compression combined with dictionaries, where it is false (C38_lz4_refuted, C38_codec_refuted). Theorems: `C65_written_file_reads_back_partial`, `C38_lz4_refuted`, `C38_codec_refuted`.

### C66 Success reported by the writer means a complete file
*Model and proof:* Area Parquet. The output device as a parameter that may refuse bytes; witness for unnoticed failure.

*Result:* proved in part. The full claim is false for the code: the stream state is never checked after writing, and a second open on an open stream silently breaks the file. Proved on a device that accepts every byte with a single open. Theorems: `C66_success_means_written_refuted`, `C65_written_file_reads_back_partial`.

### C67 Column types can be recovered from a written file
*Model and proof:* Area Parquet. Injectivity of the map from column types to schema elements on the types for which it holds; witness for DATE and TIMESTAMP.

*Result:* proved in part. The full claim is false for the code: DATE and TIMESTAMP are written without logical type. Everything else is recoverable. Theorems: `C67_types_partial`, `C67_types_lost_refuted`.

### C68 Converting CSV to Parquet preserves the table
*Model and proof:* Area Convert. convert_csv_to_parquet as a composition of the reader, batching, pipeline and writer models; the theorem composes C09, C41, C40 and C65.

*Result:* proved in part. Except LZ4 and compression combined with dictionaries (false there: refuted), and pages beyond the 2 GiB limits. Every text: the file holds the rows delivered of its parts; the table of the text under the conditions of C09, or for files below 1 MiB whose fields have balanced quotes. Theorems: `C68_conversion_reads_back_partial`, `C68_csv_text_to_parquet_partial`, `C68_every_text_to_parquet_partial`, `C68_short_text_to_parquet_partial`, `C68_lz4_refuted`, `C68_dictionary_refuted`.

### C69 A conversion does not depend on scheduling and reports failures
*Model and proof:* Area Convert. Same model; every schedule of the pipeline gives the same file; the returned flag for every failing answer of the environment.

*Result:* proved in part. Schedule independence and reporting of input, output and cancellation proved for all inputs; a full disk is not noticed by the code (refuted). Theorems: `C69_schedule_does_not_matter`, `C69_failures_reported`, `C69_full_disk_refuted`.

### C70 Dialect detection reports facts of the sample
*Model and proof:* Area Dialect. Detection with executable binary64 arithmetic (SpecFloat); the hash order of the maps and the result of sorting are parameters (any permutation); the report is compared with the sample by the specification.

*Result:* proved. All inputs, all options with max_rows > 0, all hash orders, any permutation as the result of sorting. Theorems: `C70_report_is_true`.

### C71 Detection confidence is a number between 0 and 1
*Model and proof:* Areas Dialect, Score. Witness with exact binary64 evaluation; the score of every candidate related to a formula in real numbers with rounding (Flocq), from which the range follows by monotonicity of rounding.

*Result:* proved in part. The upper bound is false: doubled or escaped quotes multiply the score by 1.1 or 1.2 without a cap. Proved: the confidence is a finite number from 0 to the double nearest 1.2, above 1 only with such quotes in the sample; every score is the documented formula with each operation correctly rounded (Flocq reals; standard library axioms of the reals). Theorems: `C71_confidence_range_partial`, `C71_score_formula`, `C71_positive_exactly_with_enough_rows`, `C71_success_is_above_one_half`, `C71_confidence_at_most_one_refuted`.

### C72 Cell type inference is exact
*Model and proof:* Area Dialect. Grammars as predicates on texts; equivalence with the scanners by induction.

*Result:* proved in part. Exact for all types but DATETIME, which is complete but accepts any text of five characters after the date (refuted); C72_date_time_exactly characterises the texts accepted as DATETIME in both directions. Theorems: `C72_cell_types`, `C72_every_date_time_is_recognised`, `C72_date_time_has_a_time_refuted`, `C72_typed_cells`, `C72_date_time_exactly`.

### C73 Field extraction splits exactly at unprotected delimiters
*Model and proof:* Area Dialect. Specification: positions of free delimiters; induction over the row.

*Result:* proved. All rows and dialects. Theorems: `C73_fields_split_at_free_delimiters`.

### C74 Dialect detection looks at a bounded part of the input
*Model and proof:* Area Dialect. Continuation independence: equal prefixes give equal results; witness for detect_file.

*Result:* proved in part. The bound holds; detect_file reads only sample_size bytes and so disagrees with detect on files with long rows (refuted with a file of three rows of 3001 cells). Theorems: `C74_only_a_prefix_matters`, `C74_small_files_agree`, `C74_detect_file_agrees_with_detect_refuted`.

### C75 Line ending detection is exact
*Model and proof:* Area Dialect. Counting loops against existence of breaks of each kind.

*Result:* proved. All samples. Theorems: `C75_line_ending_exact`.

### C76 A detected dialect can be used
*Model and proof:* Area Dialect. generate_candidates and both validators; witness for the quote-less winner.

*Result:* proved in part. validate() passes whenever the options keep delimiters and quotes apart; is_valid() rejects the dialect without quotes, which can win (refuted). Theorems: `C76_separable_options_validate`, `C76_validators_exactly`, `C76_valid_unless_quoteless`, `C76_detected_dialect_is_valid_refuted`.

### C77 A reader can be used for several inputs
*Model and proof:* Area Life. The reader object as a state machine over histories of calls with the answers of the system; exact schema after every history.

*Result:* proved in part. True after any number of failed calls. False after a successful one: the schema is never cleared and the columns of all inputs accumulate (exact description proved). Theorems: `C77_reuse_after_failures_partial`, `C77_schema_accumulates_refuted`, `C77_same_file_twice_refuted`.

### C78 Reading touches only memory that is alive
*Model and proof:* Area Life. Same state machine on top of the Mmap ledger; reads recorded as (mapping, range) and checked against the live mappings.

*Result:* proved in part. Exact characterisation of the histories after which read_all() touches released memory: a non-empty file was opened and then one or more opens failed. Safe after every other history. Theorems: `C78_reads_live_memory_partial`, `C78_read_after_failed_open_refuted`.

### C79 The tool's CSV output is CSV
*Model and proof:* Area Cli. outputRow as bytes; specification texts = cells of the CSV specification; induction on rows.

*Result:* proved in part. Holds for every table by the specification of CSV, except rows of one empty cell (an empty line). The reader of the tool itself misreads the output because of the cached-split defect of C11. Theorems: `C79_output_reads_back_partial`, `C79_empty_row_lost_refuted`, `C79_own_output_misread_refuted`.

### C80 Printed cells denote the stored values
*Model and proof:* Area Cli. std::to_string, gmtime and strftime of valid dates written out; composed with the date specification (C17/C18).

*Result:* proved in part. Exact for integers, booleans, text, and dates and timestamps of the years 1000 to 9999 up to the fraction of a second, which is dropped towards 1970. How doubles are printed (six digits) is a parameter. Theorems: `C80_printed_cells_partial`, `C80_printed_forms`, `C80_fraction_dropped_refuted`, `C80_early_years_refuted`.

### C81 head and count describe the file
*Model and proof:* Area Cli. Commands as functions from the input (standard input, or a path and the system's answer) to exit code and output, on the reader model; chunk loop against firstn of the concatenated table.

*Result:* proved in part. The relation to the table read is unconditional; end to end under the conditions of C09. A missing file whose path contains the words Empty file counts as empty. Theorems: `C81_what_is_printed`, `C81_head_is_first_rows`, `C81_head_of_a_file_partial`, `C81_count_of_a_file_partial`, `C81_empty_input`, `C81_unopened_file_partial`, `C81_misleading_names_refuted`, `C81_missing_file_succeeds_refuted`.

### C82 select prints the columns asked for
*Model and proof:* Area Cli. getline, trimming, stoul and lookup against the specification columns_named; projection of the text table.

*Result:* proved in part. Complete description of select for every input and list; names of digits are taken as indices, names with commas or surrounding blanks cannot be listed, indices of 2^64 or more throw. Theorems: `C82_select_projects`, `C82_names_found_partial`, `C82_numeric_names_refuted`, `C82_large_index_throws_refuted`.

### C83 pretty prints an aligned box
*Model and proof:* Area Cli. Width computation and printing against the specification box; equality of line lengths.

*Result:* proved in part. Exact output for every input; aligned unless a cell contains a line feed. Theorems: `C83_pretty_is_a_box`, `C83_line_feed_breaks_box_refuted`.

### C84 Options mean what they say in any order
*Model and proof:* Area Cli. Argument loops as functions on lists of words; specification: items and the words they are written with; induction on items.

*Result:* proved in part. All sequences of documented items with at most one list of columns. An unknown option, - and the documented -S silently end option parsing; convert takes only the first character of a delimiter name. What every numeric option takes for a number is characterised exactly (a leading minus wraps modulo 2^64). Theorems: `C84_options_understood_partial`, `C84_options_ignored_refuted`, `C84_numbers_refuted`, `C84_numbers_exactly`, `C84_convert_understood_partial`, `C84_convert_inputs`, `C84_convert_delimiter_refuted`, `C84_convert_refuses_unknown`.

### C85 Strict mode rejects bad data
*Model and proof:* Area Strict. open() with the collector of Errors and read_all() on top of the Reader model; exit codes of count and convert; the errors are shown to be a function of the first line, witnesses for ragged rows and unclosed quotes.

*Result:* proved in part. The data read never depends on error handling (proved). The rest is false: only the header line is ever checked, ragged rows and unclosed quotes are accepted silently in strict mode, and the commands other than convert ignore recorded errors. Theorems: `C85_modes_read_the_same`, `C85_errors_depend_on_first_line_only`, `C85_stopped_commands_fail`, `C85_data_errors_never_reported_refuted`, `C85_strict_mode_refuted`, `C85_recorded_errors_ignored_refuted`, `C85_fatal_error_not_listed_refuted`.

### C86 Loaded input is complete and padded
*Model and proof:* Area Aligned. Memory as a list of blocks with unwritten cells, objects holding block numbers; loading as operations on it; specification: holdings (data, zero padding).

*Result:* proved in part. Files: complete. Standard input: a read error is taken for the end of the input (the test of std::cin.bad() can never be true). Size plus padding of 2^64 or more writes out of bounds. Theorems: `C86_file_is_loaded_whole`, `C86_failures_leave_nothing_behind`, `C86_stdin_partial`, `C86_broken_stdin_refuted`, `C86_sum_wraps_refuted`.

### C87 Input buffers are neither leaked nor freed twice
*Model and proof:* Area Aligned. Refinement of all histories to lists of holdings with an ownership invariant (each live block held by exactly one object).

*Result:* proved. All histories with size plus padding below 2^64; standard input in the histories ends properly. Theorems: `C87_buffers_live_and_die`, `C87_everything_released`.

### C88 A table read in Python is the table of the file
*Model and proof:* Area Py. read_csv on top of the Reader and Strict models; the table of several chunks is the first chunk with the row count of all; exact characterisation of when the batch is readable.

*Result:* proved in part. True for files with less than 1 MiB of data. For larger files only the first chunk is kept but the batch claims the rows of all of them: exactly when rows follow the first cut, reading the batch runs out of the buffers (proved for all files read correctly by C09, with a witness of two rows). Rows with quotes after the start of an unquoted field are excluded (see C09). Theorems: `C88_small_files_partial`, `C88_exceptions`, `C88_formats`, `C88_large_files_refuted`, `C88_two_rows_refuted`.

### C89 Exported Arrow structures stay valid until they are released
*Model and proof:* Area PyLife. Memory with reference-counted tables, private objects and structures; refinement of all histories to abstract handles with an ownership invariant; the excluded histories are shown to be all broken.

*Result:* proved in part. All legal histories are safe except reading a moved child after everything else of its table is gone, which is always a use after free: the private data of a child does not keep the table. Theorems: `C89_streams_partial`, `C89_moved_children_refuted`.

### C90 A text means the same through every kind of column
*Model and proof:* Area Layers. The three appenders modelled and compared; agreement proved for non-integer types and characterised exactly for integers.

*Result:* proved in part. True for every type except the integers; for these the texts on which the families differ are characterised exactly (both directions). Theorems: `C90_other_types_agree`, `C90_builder_integers`, `C90_context_integers`, `C90_integers_agree_exactly_partial`, `C90_same_text_other_value_refuted`.

### C91 Header detection follows its rule
*Model and proof:* Area Score. detect_header against counts in natural numbers; the floating point comparison with one half is exact for fewer than 2^52 cells (Flocq).

*Result:* proved. All inputs below 2^52 bytes, all options with max_rows > 0, any sort and hash order; the majority test in floating point is shown to be exact. Uses the standard library axioms of the reals through Flocq. Theorems: `C91_header_rule`.

### C92 Detection warnings say what happened
*Model and proof:* Area Score. detect's outcomes case by case; the comparison with 90 percent in correctly rounded reals.

*Result:* proved. All inputs below 2^53 bytes, all options with max_rows > 0, any permutation as the result of sorting. Uses the standard library axioms of the reals through Flocq. Theorems: `C92_warnings`.

### C93 Compressing never loses data, whatever was compressed before
*Model and proof:* Area Compress. compression.cpp's four entry points over a record of library functions with their documented contracts; memory and the thread-local pool as buffers with bounds; linked with the Parquet model.

*Result:* proved in part. All inputs, codecs, levels, pool histories. False for gzip inputs of 4 GiB or more: everything but the first (size mod 2^32) bytes is dropped without notice. compress_into_buffer returns 0 for empty input and for codecs not compiled in, and the memory then does not hold the data although the comment says so. Theorems: `C93_compress_lossless_partial`, `C93_pool_unobservable`, `C93_into_buffer_partial`, `C93_room_suffices_partial`, `C93_parquet_pages`, `C93_gzip_room_suffices_partial`, `C93_gzip_large_room_refuted`, `C93_gzip_drops_data_refuted`, `C93_into_buffer_zero_refuted`, `C93_compresses`, `C93_gzip_room`.

### C94 Python's to_parquet honours its arguments and writes the table
*Model and proof:* Area PyConv. Arguments of to_parquet against tables of documented names; the rest through the Convert and Strict models; counterexamples for the ignored arguments and the lost errors.

*Result:* proved in part. The accepted names are exactly the documented ones and the file reads back to the table for every codec but lz4 (C38). row_group_size and num_threads are ignored; in strict mode recorded errors do not raise; a fatal error collected in permissive mode is not listed in the exception. Theorems: `C94_arguments_accepted`, `C94_file_holds_the_table_partial`, `C94_ignored_arguments_refuted`, `C94_errors_lost_refuted`.

### C95 A successfully closed Arrow IPC file holds the batches written
*Model and proof:* Area PyConv. All histories of calls on the stub writer by induction.

*Result:* proved in part. The implementation is a stub: proved for every history that no write succeeds, that close nevertheless reports success and that the file is empty; Python always raises. Theorems: `C95_no_data_is_written_refuted`, `C95_to_arrow_ipc_raises`.

### C96 info describes the input
*Model and proof:* Area Show. cmd_info over the Cli and Reader models; its text against a relation that describes the lines, injectivity of the lines, two inputs with the same text.

*Result:* proved in part. Exact text for every input. Everything can be read off it unless a column name contains a line feed (refuted with two inputs that print the same). Theorems: `C96_info_describes`, `C96_lines`, `C96_lines_tell_everything`, `C96_nothing_to_read`, `C96_text_tells_the_names_refuted`.

### C97 The text of a dialect shows the dialect
*Model and proof:* Area Show. The text of a dialect as a function of bytes; when two texts are equal.

*Result:* proved in part. Exact (both directions) for what the text shows; it leaves out the line ending, and the escape character when quotes are doubled although operator== compares it. Theorems: `C97_text_shows`, `C97_text_is_faithful_refuted`.

### C98 The error summary of a conversion counts the errors
*Model and proof:* Area Show. The loop and the joining of error_summary; counts can be read off.

*Result:* proved. All lists of errors. Theorems: `C98_summary`, `C98_summary_tells_the_counts`, `C98_predicates`.

### C99 Every documented reader option takes effect
*Model and proof:* Area Unused. Options with the members no code reads; counterexamples to what they promise.

*Result:* proved in part. False: no code reads these members. Modelled as a record whose other members the reader does not receive; a counterexample for each promise. Theorems: `C99_members_without_effect`, `C99_comment_refuted`, `C99_selection_refuted`, `C99_empty_rows_refuted`, `C99_escape_refuted`.

### C100 A table written as CSV reads back
*Model and proof:* Area Round. How a table is written down is specified from scratch; its text has the rows meant (rows, safety, quoting by induction over cells and lines), then C09 and C52 apply.

*Result:* proved in part. Every table, every thread count, cells quoted or plain, LF or CRLF, blank lines, missing final newline; rows of quoted cells only may hold anything, and so may rows whose quoted cells come first. False for rows in which a plain cell stands less than 63 bytes before a separator or line feed inside a quoted cell (refuted; 63 is sharp), and for files of 1 MiB or more with line breaks in cells (C09). Theorems: `C100_reads_back_partial`, `C100_types_of_written_partial`, `C100_usual_rows`, `C100_text_column`, `C100_mixed_row_refuted`, `C100_distance_refuted`.

### C101 Line endings and blank lines do not change the table
*Model and proof:* Area Round. Two texts of the same cells: columns from C100, types from the sampled lines of a written text.

*Result:* proved in part. LF, CRLF and the final newline make no difference (cells with line breaks: bodies below 1 MiB). Blank lines keep names and row count but can change an inferred type and thereby the cells (refuted). Theorems: `C101_line_endings`, `C101_blank_lines_partial`, `C101_blank_line_refuted`.

### C102 Error reports say which errors there were
*Model and proof:* Area Report. Texts of errors as lists of lines, specified separately; injectivity by cutting at the first colon, digits and line ends; refutations by forged names.

*Result:* proved in part. Every field is printed and lists with single-line messages are told apart. False in general: an exception with one error prints only its message; a line break in a column name makes two different lists print alike; the documented example shows another text; without warnings the count line closes a parenthesis it did not open. Theorems: `C102_one_report`, `C102_one_report_tells`, `C102_summary_lists`, `C102_summary_counts`, `C102_parenthesis_refuted`, `C102_summary_tells_partial`, `C102_exception_tells_partial`, `C102_cli_report_tells_partial`, `C102_single_exception_refuted`, `C102_newline_in_a_name_refuted`, `C102_documented_text_refuted`.

### C103 A command line does what its first words ask for
*Model and proof:* Area Main. main as a function from argument lists to an action; the item grammar of C74 and C76 gives the settings.

*Result:* proved in part. Every command line. False for some file names: without a dot, called convert, or beginning with a minus sign (refuted). Theorems: `C103_first_word`, `C103_viewer_runs`, `C103_convert_runs`, `C103_runs_only_when_asked`, `C103_exit_codes`, `C103_file_names_refuted`.

### C104 Appending rows leaves the earlier rows as they are
*Model and proof:* Area Append. Lines, row ends and table rows of a concatenation after a complete row; the sample of both files is the same, then C09 for both.

*Result:* proved in part. Holds once the sampled rows are all in the file, its last row is ended, and the body is one C09 covers. False for shorter files (an added row changes the types and thereby earlier cells) and for an unended last row. Theorems: `C104_earlier_rows_kept_partial`, `C104_without_quotes`, `C104_short_file_refuted`, `C104_unended_file_refuted`.

### C105 The program shows the table its input holds
*Model and proof:* Area Program. main, settings, input choice, reading and printing composed into one function of the command line and the world; proved from C74, C103 (settings), C81 to C83, C96 (printing), C85 (refusal), C100 (written tables).

*Result:* proved in part. Every documented command line and every input: the printed text is exactly that of the table read (what is read is C09, C100). False: head prints a mixed row that count then reads as two rows; options after a lone minus sign are dropped without notice. Theorems: `C105_viewer_shows`, `C105_counts_what_was_written_partial`, `C105_pipe_partial`, `C105_simple_rows`, `C105_empty_input`, `C105_unreadable_input`, `C105_other_words`, `C105_pipe_refuted`, `C105_dropped_options_refuted`.

### C106 Converting from the command line writes the table of the input
*Model and proof:* Area Tool. main, the options of cmd_convert, convert_csv_to_parquet with its error handling and the exit code composed into one function; proved from C76, C103 (settings), C85 (errors of the header), C68, C69 (the conversion).

*Result:* proved in part. Every documented command line, input and schedule, with sizes within the limits of the format and any compression but lz4 (C38_lz4_refuted). False: a full disk is reported as success; with --strict and a repeated name the complete file is written although the exit code is 1. Theorems: `C106_convert_writes_the_table_partial`, `C106_failures_reported`, `C106_other_words`, `C106_full_disk_refuted`, `C106_failure_writes_refuted`.

### C107 An interrupted conversion leaves a beginning of the right file
*Model and proof:* Area Crash. The bytes handed over after any prefix of the schedule of the pipeline; every step only adds (induction over the run), so they are a beginning of the closed file; a reader needs the mark at the end.

*Result:* proved in part. What is left is a beginning of the right file for all inputs, schedules, crash points and capacities. That no reader takes it for a file is proved for files without the mark PAR1 inside; with it, it is false: a cell that holds a footer makes the cut file read as an empty table, while success is reported on a full disk. Theorems: `C107_left_is_a_beginning`, `C107_interrupted_unreadable_partial`, `C107_full_disk_cuts`, `C107_marked_cell_refuted`.

### C108 A background writer that fails is noticed and leaves no false file
*Model and proof:* Area Fail. The pipeline with a writer thread that throws at a chosen row group and place, and a caller that reads the error flag at any moment; one invariant over all steps gives termination and how runs end; the bytes written so far and the footer of the destructor are read by the specification of Parquet.

*Result:* proved in part. No deadlock and never success, for all schedules and places of failure. The rest is false: when more than 4 row groups follow the failing one the writer object is destroyed with its thread not joined and the process is aborted (proved for every such run), and the destructor closes the file, which then reads as the table of the row groups before the failing one (proved in general, with a concrete run). Exceptions in the caller thread are not modelled. Theorems: `C108_nobody_waits_for_ever`, `C108_failure_noticed`, `C108_broken_conversion_partial`, `C108_readable_leftover_refuted`.

### C109 Row groups handed over to a pipeline end up as written ones do
*Model and proof:* Area Session. All public calls of the writer as a state machine over the Parquet and Pipeline models; calls in their order simulate the same calls with write (induction over the calls), and an invariant ties the state to the history, which says exactly when calls end in a data race or abort.

*Result:* proved in part. The same file and reports for all calls in their order and all schedules. The rest is false: a second start_pipeline, a close, write or open after a submission, and destruction without finish_pipeline are a data race or abort the process instead of being refused (proved to be exactly these), and row groups submitted after close report success and are lost. Theorems: `C109_same_as_write_partial`, `C109_reads_back_partial`, `C109_destruction_closes`, `C109_broken_exactly`, `C109_refused_without_effect`, `C109_success_means_written_refuted`.

### C110 read_csv of the Python module does what its arguments say
*Model and proof:* Area PyRead. The whole of read_csv over the models of open, read_all and the Python table; outcomes by cases over the arguments, with the theorems on error checking (C99) and on the Python table (C88).

*Result:* proved in part. When read_csv raises, and with which errors listed, is characterised exactly for all arguments and all files. The returned table is that of the file for data below 1 MiB (larger files: C88_large_files_refuted). False: strict accepts repeated names, short rows and unclosed quotes. Theorems: `C110_bad_calls`, `C110_outcomes`, `C110_small_files_partial`, `C110_strict_refuted`.

### C111 Columns written from vectors can be read back
*Model and proof:* Area Vectors. The vector column writers over the Rle, Plain, Stats and Parquet models; one lemma per page kind on levels and values, with C35, C36, C42 and C64; two columns with the same chunk found by hand.

*Result:* proved in part. Proved for all columns whose literals are aligned (C32, C64 say exactly what the others give). False in general: a null before eight values is lost; the chunk does not record the size of its dictionary, and two different columns give the same chunk; sizes before compression leave out the levels or are the stored ones; strings with nulls are described as without; NaN counts as a null; row groups are recorded without bytes. Nothing in the library calls these functions. Theorems: `C111_int32_columns_partial`, `C111_int64_columns_partial`, `C111_string_columns_partial`, `C111_bool_columns_partial`, `C111_double_columns_partial`, `C111_same_chunk_refuted`, `C111_null_then_values_refuted`, `C111_metadata_refuted`.

### C112 Reading never touches a byte outside the file
*Model and proof:* Area Raw. The reading functions again with every access to the data an explicit indexed read that fails outside; each is shown equal to the list-based model of the other areas, and those to be total, so no read fails.

*Result:* proved in part. For every file, all options (also a quote that is a newline or the separator), all thread counts, and every vector width that divides 64. False for vectors of 128 bytes and more (refuted for each such width). Dialect detection too, for every input, all options and every dialect. The float parser is not modelled. Theorems: `C112_whole_file_inside`, `C112_reading_inside`, `C112_scanning_inside`, `C112_header_inside`, `C112_texts_inside`, `C112_lines_inside`, `C112_integers_inside`, `C112_detection_inside`, `C112_detection_parts_inside`, `C112_wide_vectors_refuted`.

### C113 The progress bar shows the last report and nothing else
*Model and proof:* Area Progress. The bar with 64- and 32-bit arithmetic and checked writes; a small terminal is the specification; induction over the reports with the line on the terminal as invariant.

*Result:* proved in part. All sequences of reports with done <= total and 100 * total below 2^64; memory claims for all numbers. False: every conversion leaves the same full bar, also a failed one; the totals reported are always 100, not bytes as documented. Theorems: `C113_bar_shows_the_last_report`, `C113_redrawn_on_change_only`, `C113_never_stops_the_work`, `C113_ends_clean`, `C113_silent_without_terminal`, `C113_full_bar_means_success_refuted`, `C113_totals_are_bytes_refuted`.

### C114 convert tells on standard error what went wrong
*Model and proof:* Area Stderr. The text written by convert composed from the models of error checking, reports, conversion and bar; by cases over the outcome, with C61, C84, C85 and C102.

*Result:* proved in part. The exact text for every documented command line without -v (which adds times) and -p (C113). False: problems beyond --max-errors are not mentioned, and a failure of --strict reads like success with warnings. Theorems: `C114_convert_tells`, `C114_unreadable_told`, `C114_suppressed_not_mentioned_refuted`, `C114_strict_failure_looks_like_success_refuted`, `C114_bar_before_failure_refuted`.

### C115 What the tool prints is read again as what it was
*Model and proof:* Area Reprint. The printing of the tool composed with the reading of a written file (C100) and the type inference (C19, C20); the specification says which values are printable and what is left of them.

*Result:* proved in part. Columns of floating-point numbers and of texts under stated conditions (how a double is printed is a parameter); head and select of such files, and head of the output of head. Texts with line breaks: rows below 1 MiB. The types found again need a sample that shows the range of a column; the first data row is never sampled, so a large integer there is lost. False for texts that look like numbers or like null, and for integers behind texts with line breaks (not seen by the sampling). Theorems: `C115_printed_cell_reads_back_partial`, `C115_printed_table_reads_back_partial`, `C115_any_table_reads_back_partial`, `C115_head_reads_back_partial`, `C115_head_of_any_table_partial`, `C115_select_reads_back_partial`, `C115_large_first_row_refuted`, `C115_texts_become_numbers_refuted`, `C115_quoted_null_lost_refuted`, `C115_integers_behind_line_breaks_refuted`.

## Trusted base

* Coq's kernel (8.16.1), including `vm_compute`, which some `_refuted` theorems, `Example`s and finite case analyses use.
* `Print Assumptions` is issued after every property theorem. Actual result: `Closed under the global context` for every theorem except those of ScoreProps.v about C47, C71, C91 and C92, which are about rounding of real numbers and use Flocq (a library without axioms of its own); for these it lists four axioms of the standard library: `ClassicalDedekindReals.sig_not_dec`, `ClassicalDedekindReals.sig_forall_dec`, `FunctionalExtensionality.functional_extensionality_dep` and `Classical_Prop.classic`. No other axiom is used by any theorem. (The gate lists seven constants of `Coq.ssr.ssrunder` because the standard library's ssreflect support is loaded by a standard-library file; no theorem depends on them.)
* The reading of /repo: the model is written by hand, function by function; the code was not built or run. Where a definition simplifies, its comment says so.
* Contracts taken from documentation rather than code: Google Highway's lane operations, `std::sort`, `std::vector`, `std::shared_ptr`, mutex and condition variable semantics of the C++ standard, the thread pool's task queue, POSIX open/fstat/mmap/munmap/close.
* The independent readers (CSV specification, Arrow layout, Thrift compact protocol, Parquet file, PLAIN, RLE, DELTA) are part of the statements and were written from the public format documents.

## Not modelled

* fast_float and printing of doubles (oracles `ff`, `show_float`; binary64 comparisons and dialect scores are exact); compression libraries (parameters with a round-trip contract); the operating system beyond the calls named; memory exhaustion (`std::bad_alloc`); time; progress callbacks other than the bar beyond their return value; verbose output; standard error of commands other than convert and the text of most messages.
* size_t and int64_t counters are unbounded except where a theorem speaks about 2^31, 2^32 or 2^64.
* Reads of the data as indexed accesses (C112) are modelled in area Raw (reading, field parsing, dialect detection); the float parser is an oracle. Writes into output buffers are checked in areas Aligned, Compress, Buffers and Plain only.
* Python bindings beyond what is listed under Files, benchmarks, tests, build files.
