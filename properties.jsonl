{"id": "C01", "title": "Vectorised row counting agrees with the byte-by-byte definition", "statement": "For every buffer and every quote character other than LF and CR, the vectorised row counter returns the same (number of rows, end of last row) as the reference scalar counter: rows end at an LF, or at a CR not followed by an LF, that has an even number of quote characters before it.", "quantifier": "all byte strings of any length (any alignment of quotes and line ends relative to 64-byte blocks), all quote bytes except LF/CR", "why_tests_cant": "Unit tests sample a finite set of buffers; the claim is about every byte string, and the failing inputs sit on 64-byte block edges and in rare quote/CR/LF combinations.", "anchors": ["src/parser/simd_chunk_finder.cpp:count_rows_simd", "src/parser/simd_chunk_finder.cpp:count_rows_scalar", "include/libvroom/vroom.h:ChunkFinder::count_rows"]}
{"id": "C02", "title": "Single-pass chunk analysis is exact from either starting quote state", "statement": "Analysing a chunk while assuming it starts inside (or outside) a quoted field yields exactly the number of row ends that have an outside-quote parity under that assumption, the offset just past the last such row end, and the quote state at the end of the chunk.", "quantifier": "all byte strings, both starting states, all quote bytes except LF/CR", "why_tests_cant": "Unit tests sample a finite set of buffers; the claim is about every byte string, and the failing inputs sit on 64-byte block edges and in rare quote/CR/LF combinations.", "anchors": ["src/parser/simd_chunk_finder.cpp:analyze_chunk_simd", "include/libvroom/vroom.h:ChunkAnalysis"]}
{"id": "C03", "title": "Dual-state analysis equals two independent analyses", "statement": "The one-pass analysis that speculates on both starting states returns precisely what two separate analyses (one starting outside, one inside quotes) return: both row counts and both end states.", "quantifier": "all byte strings, all quote bytes except LF/CR", "why_tests_cant": "Unit tests sample a finite set of buffers; the claim is about every byte string, and the failing inputs sit on 64-byte block edges and in rare quote/CR/LF combinations.", "anchors": ["src/parser/simd_chunk_finder.cpp:analyze_chunk_dual_state_simd", "include/libvroom/vroom.h:DualStateChunkAnalysis"]}
{"id": "C04", "title": "Row counting is chunking-independent", "statement": "Split a buffer in any way into consecutive chunks whose boundaries do not separate a CR from its LF, analyse each chunk independently for both starting states, then link the chunks left to right: the linked starting state of each chunk is the true quote state at that position and the sum of the selected row counts is the row count of the whole buffer.", "quantifier": "all byte strings and all lists of chunks they decompose into, any number of chunks", "why_tests_cant": "The number of decompositions is unbounded and the result depends on the quote state carried across every boundary.", "anchors": ["src/reader/csv_reader.cpp:CsvReader::read_all", "src/parser/simd_chunk_finder.cpp:analyze_chunk_dual_state_simd"]}
{"id": "C05", "title": "Row-end search finds the first unquoted line end, makes progress and stays in bounds", "statement": "From any start offset inside the buffer the row-end search returns an offset strictly greater than start and at most the size; it is the offset just past the first CR/LF/CRLF that lies outside quotes (counting quotes from start), or the size if there is none. The vectorised search returns the same offset as the scalar one.", "quantifier": "all buffers, all start offsets, all quote bytes except LF/CR", "why_tests_cant": "Progress and bounds for every start offset is what keeps the chunking loop from hanging or over-reading; the vectorised version switches between three code paths by alignment.", "anchors": ["src/parser/simd_chunk_finder.cpp:find_row_end_simd", "src/parser/simd_chunk_finder.cpp:find_row_end_scalar", "src/parser/chunk_finder.cpp:ChunkFinder::find_row_end"]}
{"id": "C06", "title": "Quote-parity masks are exact across blocks", "statement": "The 64-bit in-quote mask computed for a block has bit i set iff the number of quote bytes from the beginning of the stream up to and including position i is odd; the carried state is right for every following block; the carry-less-multiply, doubling-shift and bit-loop implementations agree for every input word.", "quantifier": "all 64-bit words, both carried states, all sequences of blocks", "why_tests_cant": "2^64 words times unbounded sequences.", "anchors": ["src/parser/quote_parity.cpp:prefix_xorsum_inclusive", "src/parser/quote_parity.cpp:scalar_find_quote_mask", "src/parser/quote_parity-inl.h"]}
{"id": "C07", "title": "Chunk ranges tile the data", "statement": "Chunking terminates for every input and yields non-empty half-open ranges that start at the first data byte, end at the end of the buffer, and are pairwise adjacent, so that no byte is parsed twice or skipped by chunking itself.", "quantifier": "all buffers, data start offsets and chunk sizes >= 1", "why_tests_cant": "Loop termination and gap-freedom must hold for every buffer; row lengths can exceed the chunk size.", "anchors": ["src/parser/chunk_finder.cpp:ChunkFinder::find_chunks", "src/reader/csv_reader.cpp:CsvReader::read_all"]}
{"id": "C08", "title": "Every chunk boundary is a row boundary", "statement": "No chunk boundary chosen by the parallel reader falls inside a quoted field, so every row lies in exactly one chunk.", "quantifier": "all buffers and chunk sizes", "why_tests_cant": "Depends on where the size-based split target falls relative to every quoted field.", "anchors": ["src/parser/chunk_finder.cpp:ChunkFinder::find_row_end", "src/reader/csv_reader.cpp:CsvReader::read_all"]}
{"id": "C09", "title": "Parallel reading returns the same table as serial reading", "statement": "For the same file and options the multi-threaded read returns the same rows, in the same order, as the single-threaded read.", "quantifier": "all files, thread counts and chunk sizes, all task completion orders", "why_tests_cant": "The number of chunkings and schedules is unbounded; files above 1 MB take a different code path from the ones small tests use.", "anchors": ["src/reader/csv_reader.cpp:CsvReader::read_all", "src/reader/csv_reader.cpp:CsvReader::read_all_serial", "src/reader/csv_reader.cpp:parse_chunk_with_state"]}
{"id": "C10", "title": "Tables are rectangular", "statement": "After reading any bytes, every column has exactly the same number of entries: a row with too few fields is padded with nulls and extra fields are ignored, in each chunk and after merging chunks.", "quantifier": "all byte strings, all schemas, all separators/quotes", "why_tests_cant": "Ragged, truncated and malformed rows come in unboundedly many shapes; one missing append corrupts every later row.", "anchors": ["src/reader/csv_reader.cpp:parse_chunk_with_state", "src/reader/csv_reader.cpp:CsvReader::read_all_serial", "src/parser/line_parser.cpp:LineParser::parse_line"]}
{"id": "C11", "title": "Field iteration splits a row at exactly the unquoted separators", "statement": "Iterating the fields of a buffer yields, in order, the byte ranges between separators that lie outside quotes, stopping at the first end-of-line outside quotes.", "quantifier": "all buffers, separators and quote characters", "why_tests_cant": "A vectorised fast path with a cached mask is used only when more than 64 bytes remain, so short test strings never exercise it.", "anchors": ["include/libvroom/split_fields.h:SplitFields", "src/parser/split_fields_iter-inl.h"]}
{"id": "C12", "title": "Field iteration terminates, makes progress and loses no byte", "statement": "Every call to next() either consumes at least one byte or is the last one; the fields returned, rejoined with the consumed separators and end-of-line byte and followed by remaining(), are exactly the input bytes.", "quantifier": "all buffers, separators, quotes, number of calls", "why_tests_cant": "Holds for malformed quoting too; tests cannot enumerate malformed inputs.", "anchors": ["include/libvroom/split_fields.h:SplitFields::next", "include/libvroom/split_fields.h:SplitFields::remaining"]}
{"id": "C13", "title": "Quoted values round-trip", "statement": "If a value is written the CSV way (enclosed in quotes, inner quotes doubled) then the reader's strip-and-unescape returns the original value, for every value.", "quantifier": "all byte strings and quote characters", "why_tests_cant": "All values.", "anchors": ["src/reader/csv_reader.cpp:unescape_quotes", "src/reader/csv_reader.cpp:parse_chunk_with_state"]}
{"id": "C14", "title": "The line splitters agree with each other", "statement": "Splitting a line gives the same fields whichever of the library's splitters (returning, appending-into, vectorised) is used.", "quantifier": "all lines, separators and quotes", "why_tests_cant": "All lines; vectorised code switches path every 64 bytes.", "anchors": ["src/parser/split_fields.cpp", "src/parser/split_fields-inl.h"]}
{"id": "C15", "title": "32-bit integer fields parse exactly or are rejected", "statement": "A field parses as int32 iff it is an optional sign followed by at least one and at most a fixed number of digits whose value is in range, and the value is the mathematical one; no field yields a wrapped value.", "quantifier": "all byte strings", "why_tests_cant": "2^32 values times spelling variants plus all malformed strings.", "anchors": ["src/parser/simd_atoi.cpp", "src/parser/simd_atoi-inl.h", "include/libvroom/simd_atoi.h"]}
{"id": "C16", "title": "64-bit integer fields parse exactly or are rejected", "statement": "A field parses as int64 iff it is an optional sign followed by digits whose value is in range, and the value is the mathematical one; no field yields a wrapped value.", "quantifier": "all byte strings", "why_tests_cant": "2^64 values times spelling variants; overflow boundary cases.", "anchors": ["src/parser/simd_atoi.cpp", "src/parser/simd_atoi-inl.h", "include/libvroom/simd_atoi.h"]}
{"id": "C17", "title": "Date fields parse to the proleptic Gregorian day number", "statement": "A field parses as a date iff it is a valid calendar date in YYYY-MM-DD or YYYY/MM/DD form, and the value is the number of days since 1970-01-01; distinct dates get distinct numbers in calendar order.", "quantifier": "all byte strings; all years 0000-9999", "why_tests_cant": "3.65 million valid dates and unbounded malformed strings.", "anchors": ["src/schema/type_parsers.cpp:parse_date"]}
{"id": "C18", "title": "Timestamp fields parse to the right instant", "statement": "A field accepted as a timestamp yields the number of microseconds since the epoch of the instant it denotes, taking fraction digits and the UTC offset into account; anything else is rejected.", "quantifier": "all byte strings", "why_tests_cant": "Combinations of fraction length, offset sign and separators are unbounded.", "anchors": ["src/schema/type_parsers.cpp:parse_timestamp"]}
{"id": "C19", "title": "Type widening is order-independent", "statement": "Combining inferred cell types over the cells of a column gives the same column type for every order and grouping of the cells, and the result can represent every input type.", "quantifier": "all multisets of cell types, all orders", "why_tests_cant": "All permutations of any length of sample.", "anchors": ["include/libvroom/types.h:wider_type", "src/schema/type_inference.cpp"]}
{"id": "C20", "title": "An inferred type can represent every sampled cell", "statement": "If type inference over a sample yields type T for a column then parsing each non-null sampled cell as T succeeds (does not silently become null).", "quantifier": "all cell strings and samples", "why_tests_cant": "Inference and parsing are two independent implementations; agreement is needed on every string.", "anchors": ["src/schema/type_inference.cpp:TypeInference::infer_field", "src/schema/type_parsers.cpp", "include/libvroom/fast_arrow_context.h"]}
{"id": "C21", "title": "The validity bitmap behaves like a list of booleans", "statement": "After any sequence of push-valid, push-null, append and finalize operations, reading bit i returns the i-th pushed flag, size is the number of pushes and the null count is the number of nulls pushed.", "quantifier": "all operation sequences of any length", "why_tests_cant": "Lazy allocation means behaviour depends on the position of the first null relative to byte boundaries across appends.", "anchors": ["include/libvroom/arrow_buffer.h:NullBitmap"]}
{"id": "C22", "title": "The string buffer behaves like a list of strings", "statement": "After any sequence of pushes and appends whose total byte size stays below 2^32, entry i is exactly the i-th string pushed.", "quantifier": "all operation sequences", "why_tests_cant": "All sequences; 32-bit offsets wrap only on multi-gigabyte data no unit test builds.", "anchors": ["include/libvroom/arrow_buffer.h:StringBuffer"]}
{"id": "C23", "title": "Merging columns is concatenation", "statement": "Merging column builders yields values and nulls of the first followed by those of the second, with matching lengths and null counts, for every pair of columns; hence merging many chunks in order yields their concatenation whatever the grouping.", "quantifier": "all pairs/sequences of columns", "why_tests_cant": "All lengths relative to byte boundaries and all null patterns.", "anchors": ["include/libvroom/arrow_column_builder.h:merge_from", "include/libvroom/arrow_buffer.h:NullBitmap::append_from"]}
{"id": "C24", "title": "Chunked column storage preserves the value sequence", "statement": "Any interleaving of appends, chunk merges and finalisation leaves the logical sequence of values (and its length) equal to the concatenation of everything appended, in order.", "quantifier": "all operation sequences", "why_tests_cant": "Unbounded interleavings.", "anchors": ["src/columns/column_builder.cpp"]}
{"id": "C25", "title": "Copy-on-write buffers are isolated", "statement": "Copies of a buffer never observe writes made through another copy, and writing through a handle is visible through that handle only, for every history of copies, writes and drops.", "quantifier": "all histories of operations on any number of handles", "why_tests_cant": "All alias patterns.", "anchors": ["src/columns/cow_buffer.h"]}
{"id": "C26", "title": "Error collection is lossless in count and bounded in memory", "statement": "For every sequence of reported errors, stored plus suppressed equals reported, stored never exceeds the limit, the fatal flag is set iff a fatal error was reported (even if suppressed), and stopping follows the documented mode.", "quantifier": "all sequences of errors, all modes and limits", "why_tests_cant": "All sequences.", "anchors": ["include/libvroom/error.h:ErrorCollector", "src/error.cpp"]}
{"id": "C27", "title": "Merged per-thread errors come out complete and sorted", "statement": "Merging the collectors of all workers keeps every stored error exactly once (up to the limit), sorted by byte offset, and counts of suppressed errors add up.", "quantifier": "all numbers of workers and error lists", "why_tests_cant": "All distributions of errors to workers.", "anchors": ["include/libvroom/error.h:ErrorCollector::merge_sorted"]}
{"id": "C28", "title": "Variable-length integers and zig-zag round-trip", "statement": "Decoding the bytes written for any 64-bit (and 32-bit) integer yields that integer and leaves the following bytes untouched.", "quantifier": "all 64-bit integers, all following bytes", "why_tests_cant": "2^64 values.", "anchors": ["src/writer/thrift_compact.cpp", "src/encoding/plain.cpp"]}
{"id": "C29", "title": "Thrift compact structures round-trip", "statement": "A standard compact-protocol reader applied to the bytes of any sequence of fields, nested structs, lists, strings and integers written through the writer recovers the same tree and stops exactly at its end.", "quantifier": "all field trees of any depth and any field ids in increasing or decreasing order", "why_tests_cant": "Unbounded nesting; the short/long field header choice depends on id deltas across nesting.", "anchors": ["src/writer/thrift_compact.cpp:ThriftCompactWriter"]}
{"id": "C30", "title": "Definition levels round-trip", "statement": "A Parquet RLE/bit-packed hybrid reader applied to the definition-level bytes of a column recovers exactly the null pattern.", "quantifier": "all null patterns of length below 2^31", "why_tests_cant": "Run boundaries relative to groups of eight vary with every pattern.", "anchors": ["src/encoding/plain.cpp:encode_def_levels_hybrid_arrow"]}
{"id": "C31", "title": "Dictionary index pages round-trip", "statement": "A Parquet hybrid reader applied to the encoded dictionary indices with the recorded bit width recovers exactly the index sequence.", "quantifier": "all index sequences and dictionary sizes", "why_tests_cant": "All bit widths x run structures.", "anchors": ["src/encoding/plain.cpp:encode_dictionary_indices", "src/writer/dictionary.cpp"]}
{"id": "C32", "title": "The hybrid RLE encoder's output decodes to its input", "statement": "For every sequence of values of a given bit width, the stream produced by the hybrid encoder decodes (standard Parquet hybrid reader) to exactly those values.", "quantifier": "all value sequences and bit widths", "why_tests_cant": "All run structures.", "anchors": ["src/encoding/hybrid_rle.cpp:HybridRleEncoder"]}
{"id": "C33", "title": "The RLE encoder's output decodes to its input", "statement": "For every sequence of values of a given bit width, the stream produced by the RLE encoder decodes to exactly those values.", "quantifier": "all value sequences and bit widths", "why_tests_cant": "All run structures.", "anchors": ["src/encoding/rle.cpp:RleEncoder"]}
{"id": "C34", "title": "Delta encoding round-trips", "statement": "A DELTA_BINARY_PACKED reader recovers every integer sequence from its encoding.", "quantifier": "all integer sequences", "why_tests_cant": "All miniblock widths and lengths.", "anchors": ["src/encoding/delta_bitpacked.cpp"]}
{"id": "C35", "title": "PLAIN encoding round-trips", "statement": "Decoding a PLAIN page with the column's null pattern recovers the column for every supported physical type.", "quantifier": "all columns with all null patterns", "why_tests_cant": "All lengths relative to byte boundaries (booleans), all string lengths.", "anchors": ["src/encoding/plain.cpp"]}
{"id": "C36", "title": "Dictionaries are faithful", "statement": "The dictionary built for a string column has pairwise distinct entries, every non-null row's index is in range and names that row's value, null rows get no index, and first occurrences appear in order.", "quantifier": "all string columns", "why_tests_cant": "All columns.", "anchors": ["src/writer/dictionary.cpp", "include/libvroom/dictionary.h"]}
{"id": "C37", "title": "Parquet column offsets and sizes in the footer address the right bytes", "statement": "In every written file, each column chunk's recorded offsets and compressed size delimit exactly the page bytes that were written for it, chunks do not overlap, the footer length field locates the footer and both magics are in place; row counts add up.", "quantifier": "all sequences of row groups and columns", "why_tests_cant": "All histories of writes; one mis-tracked offset makes only some columns unreadable.", "anchors": ["src/writer/parquet_file.cpp"]}
{"id": "C38", "title": "Every written page can be decompressed with its recorded codec", "statement": "For each column chunk, the codec recorded in the metadata is the codec with which every page of that chunk (dictionary and data) was stored.", "quantifier": "all page contents and compression outcomes", "why_tests_cant": "Whether compression shrinks a page is data-dependent, independently per page.", "anchors": ["src/writer/parquet_file.cpp", "src/writer/page_writer.cpp", "src/writer/column_writer.cpp"]}
{"id": "C39", "title": "The row-group queue is a bounded FIFO under every interleaving", "statement": "For every interleaving of any number of producers and consumers, items come out in the order they went in, none is lost or duplicated, the queue never holds more than its capacity, pushes after close are refused and items accepted before close are still delivered.", "quantifier": "all interleavings, all capacities, any number of threads", "why_tests_cant": "Schedules cannot be enumerated by tests.", "anchors": ["src/writer/encoded_row_group_queue.h:EncodedRowGroupQueue"]}
{"id": "C40", "title": "The write pipeline never deadlocks and writes row groups in submission order", "statement": "For every interleaving of the encoding side and the writer thread, as long as the queue is eventually closed, some thread can always take a step until everything is written, and the file's row groups are in submission order.", "quantifier": "all interleavings", "why_tests_cant": "Schedules cannot be enumerated by tests.", "anchors": ["src/writer/encoded_row_group_queue.h", "src/writer/parquet_file.cpp"]}
{"id": "C41", "title": "Row-group batching preserves the table", "statement": "Grouping parsed chunks into row groups neither loses, duplicates nor reorders rows, and no row group mixes rows out of order, for every sequence of chunk sizes.", "quantifier": "all sequences of chunk sizes", "why_tests_cant": "All sequences.", "anchors": ["src/reader/csv_reader.cpp:convert_csv_to_parquet"]}
{"id": "C42", "title": "Column statistics are the true minimum, maximum and counts", "statement": "After any sequence of updates (single and batched) the recorded min and max are the least and greatest value seen, and value and null counts are exact.", "quantifier": "all update sequences", "why_tests_cant": "All sequences; vectorised reductions differ by lane remainder.", "anchors": ["include/libvroom/statistics.h", "src/writer/statistics.cpp", "src/simd/statistics_simd.cpp"]}
{"id": "C43", "title": "Vectorised min/max equals the sequential fold for every lane width", "statement": "For every array and every vector width the vectorised min/max equals the element-by-element minimum and maximum.", "quantifier": "all arrays, all lane counts", "why_tests_cant": "Lane count depends on the CPU the test runs on.", "anchors": ["src/simd/statistics_simd.cpp"]}
{"id": "C44", "title": "Merging statistics equals statistics of the concatenation", "statement": "Statistics merged from parts equal statistics computed over the concatenated parts, for any grouping.", "quantifier": "all partitions of all value sequences", "why_tests_cant": "All partitions.", "anchors": ["include/libvroom/statistics.h:merge", "src/writer/statistics.cpp"]}
{"id": "C45", "title": "Comment skipping stops exactly at the first non-comment line", "statement": "Skipping leading comment lines terminates, returns an in-bounds offset which is a line start, everything before it is comment lines and the line at it is not a comment line.", "quantifier": "all buffers and comment characters", "why_tests_cant": "All buffers.", "anchors": ["src/dialect.cpp:skip_comment_lines", "src/reader/csv_reader.cpp"]}
{"id": "C46", "title": "Dialect row finding partitions the sample", "statement": "The rows found in a dialect sample are disjoint, in order, in bounds, separated only by line terminators, blank lines and comment lines, and contain no unquoted line terminator; they are the first max_rows such lines.", "quantifier": "all samples and dialects", "why_tests_cant": "All samples.", "anchors": ["src/dialect.cpp:find_rows"]}
{"id": "C47", "title": "Dialect candidate ranking is a consistent order", "statement": "The comparison used to rank dialect candidates is a strict weak ordering, so sorting is well-defined and the winner is a maximum.", "quantifier": "all triples of candidates", "why_tests_cant": "Requires transitivity over all real-valued scores.", "anchors": ["include/libvroom/dialect.h:DialectCandidate::operator<", "src/dialect.cpp"]}
{"id": "C48", "title": "Mapped-file lifetime is leak- and dangling-free", "statement": "For every sequence of open, close, move and destroy calls on a mapped source, at most one mapping per live open is held, every mapping and descriptor is released exactly once, and data()/size() are null/0 when closed.", "quantifier": "all call histories", "why_tests_cant": "All histories.", "anchors": ["src/reader/mmap_source.cpp", "include/libvroom/vroom.h:MmapSource"]}
{"id": "C49", "title": "Null detection is the same in every layer", "statement": "Whether a field is null is decided identically by the header/line parser, the type inference and the chunk parser for the same configured list of null spellings.", "quantifier": "all fields, all null-value configurations", "why_tests_cant": "Three independent implementations over all configuration strings.", "anchors": ["src/parser/line_parser.cpp:init_null_values", "src/schema/type_inference.cpp", "src/reader/csv_reader.cpp:NullChecker"]}
{"id": "C50", "title": "Results do not depend on the SIMD lane width", "statement": "The block mask assembled from vector loads of any lane count dividing 64 is the same 64-bit mask, so results are the same on every CPU target, and no load reads outside the 64-byte block.", "quantifier": "all blocks, all lane counts dividing 64", "why_tests_cant": "The lane count is a property of the machine running the tests.", "anchors": ["src/parser/simd_chunk_finder.cpp", "src/parser/split_fields_iter-inl.h"]}
{"id": "C51", "title": "Chunk sizing is within its documented bounds", "statement": "For every file size, thread count and column count the chosen chunk size is between the minimum and maximum, without division by zero or overflow.", "quantifier": "all machine-word file sizes, thread and column counts", "why_tests_cant": "All configurations.", "anchors": ["include/libvroom/options.h:calculate_chunk_size"]}
{"id": "C52", "title": "Header parsing yields one name per header field", "statement": "The header parser returns one column name per unquoted-separator-delimited header field, with quotes removed and doubled quotes unescaped, so that column count equals separator count plus one.", "quantifier": "all header lines", "why_tests_cant": "All header lines.", "anchors": ["src/parser/line_parser.cpp:LineParser::parse_header"]}
{"id": "C53", "title": "Parallel completion order does not affect the result", "statement": "For every order in which chunk tasks complete, the assembled table is the concatenation of chunk results in chunk order.", "quantifier": "all permutations of task completion", "why_tests_cant": "Schedules.", "anchors": ["src/reader/csv_reader.cpp:CsvReader::read_all"]}
{"id": "C54", "title": "Delta-length byte arrays round-trip", "statement": "Decoding the delta-length encoding of any list of strings recovers the list.", "quantifier": "all lists of strings", "why_tests_cant": "All lists.", "anchors": ["src/encoding/delta_length.cpp"]}
{"id": "C55", "title": "The reported row count is the number of rows delivered", "statement": "row_count() after reading equals the number of entries in each returned column.", "quantifier": "all files and thread counts", "why_tests_cant": "Small test files never take the parallel path.", "anchors": ["src/reader/csv_reader.cpp:CsvReader::row_count"]}
{"id": "C56", "title": "Uninitialised memory never influences the table", "statement": "The local flag that the field iterator leaves unwritten for an empty last field is uninitialised in the parse loops; the table returned is the same whatever its initial value.", "quantifier": "all files and options, all initial values of the flag", "why_tests_cant": "A test sees one stack layout.", "anchors": ["src/reader/csv_reader.cpp:parse_chunk_with_state", "src/parser/split_fields_iter-inl.h"]}
{"id": "C57", "title": "The parallel reader neither loses nor duplicates rows", "statement": "Whatever the chunk size, even when chunk boundaries fall inside quoted fields, the total row count of the result is the number of rows of the file, and each returned chunk holds exactly the rows that begin in its piece of the file.", "quantifier": "all files without lone CRs, all chunk sizes and thread counts", "why_tests_cant": "Chunk boundaries inside quoted fields need files over 1 MB with rare alignments.", "anchors": ["src/reader/csv_reader.cpp:parse_chunk_with_state", "src/reader/csv_reader.cpp:CsvReader::read_all"]}
{"id": "C58", "title": "Type inference looks at every sampled data row", "statement": "When a file is opened, the type of each column is determined by all of the first sample_rows data rows - in particular by the first data row after the header - so that no value in those rows is turned into a null because of a type chosen without looking at it.", "quantifier": "all files, with and without header, all option settings", "why_tests_cant": "A test passes as soon as the skipped row happens to have the same type as the others; the claim is about all files.", "anchors": ["src/reader/csv_reader.cpp:CsvReader::open", "src/schema/type_inference.cpp:TypeInference::infer_from_sample"]}
{"id": "C59", "title": "Exported Arrow arrays read back as the column", "statement": "For every column built by appends and merges (string columns: up to 2^31-1 bytes in total), a consumer that follows the Arrow columnar format reads from the exported array exactly the column's cells, nulls included, with the right length and null count.", "quantifier": "all histories of appends and merges, all cell values", "why_tests_cant": "Depends on every null pattern relative to byte boundaries and on sizes near 2^31 that no unit test builds.", "anchors": ["include/libvroom/arrow_column_builder.h:export_to_arrow", "include/libvroom/arrow_buffer.h"]}
{"id": "C60", "title": "Overwriting a validity flag takes effect", "statement": "After setting the validity flag of an existing index, reading that index gives the new flag, all other indices are unchanged, and both null counts agree with the flags.", "quantifier": "all bitmaps reachable by any history, all indices, both flag values", "why_tests_cant": "Whether the bitmap has been allocated depends on the history before the call.", "anchors": ["include/libvroom/arrow_buffer.h:NullBitmap::set", "include/libvroom/arrow_buffer.h:NullBitmap::resize"]}
{"id": "C61", "title": "Header problems are reported exactly", "statement": "When error handling is enabled, opening a file with a header reports an empty header as a fatal error (and fails unless the mode is BEST_EFFORT), and otherwise reports one warning for exactly those columns whose non-empty name already occurred to the left, in column order; FAIL_FAST stops at the first reported error.", "quantifier": "all headers, all modes and limits", "why_tests_cant": "All lists of names.", "anchors": ["src/reader/csv_reader.cpp:CsvReader::open", "src/reader/csv_reader.cpp:CsvReader::open_from_buffer"]}
{"id": "C62", "title": "The error summary is well formed", "statement": "The first line of the summary states the number of stored errors and a bracketed breakdown by severity, with balanced brackets for every combination of severities.", "quantifier": "all lists of stored errors", "why_tests_cant": "Depends on which of three counts are zero; tests always include a warning.", "anchors": ["src/error.cpp:ErrorCollector::summary"]}
{"id": "C63", "title": "Parquet metadata round-trips", "statement": "A reader that follows parquet.thrift recovers, from the bytes written for any file footer or page header, exactly the structure that was written (schema, row groups, column metadata, statistics, key-value metadata, optional fields present or absent) and stops exactly at its end.", "quantifier": "all metadata structures whose members hold what their C++ types can hold", "why_tests_cant": "Every combination of optional fields changes field-id deltas and so the header form used.", "anchors": ["src/writer/parquet_types.cpp", "src/writer/thrift_compact.cpp"]}
{"id": "C64", "title": "Definition levels of the plain-vector page writers round-trip", "statement": "A Parquet reader applied to the definition levels that the plain-vector page writers (write_data_page, write_dictionary_data_page and the write_*_column functions of libvroom::writer) put into a data page recovers exactly the null pattern of the column.", "quantifier": "all null patterns", "why_tests_cant": "Wrong only where a run of eight or more starts after a number of cells that is not a multiple of eight.", "anchors": ["src/encoding/hybrid_rle.cpp:encode_def_levels_hybrid", "src/writer/parquet_file.cpp:encode_column", "src/writer/page_writer.cpp"]}
{"id": "C65", "title": "A written Parquet file reads back as the table", "statement": "If a ParquetWriter is opened, given a schema, given row groups of that schema (each column at most about 2 GiB) and closed, then a reader that follows the Parquet format recovers from the file exactly the schema's columns and, row group by row group, every cell of every column, nulls included, for all writer options.", "quantifier": "all schemas, all numbers and contents of row groups, all options, all lossless compression libraries, all failed or idle calls before and after", "why_tests_cant": "Combines every null pattern, value, dictionary decision, page size and file offset; a test fixes a handful.", "anchors": ["src/writer/parquet_file.cpp:ParquetWriter", "src/writer/parquet_file.cpp:encode_column_arrow", "src/writer/dictionary.cpp", "src/writer/parquet_types.cpp"]}
{"id": "C66", "title": "Success reported by the writer means a complete file", "statement": "If open, every write and close of a ParquetWriter report success, the file on disk is complete and readable.", "quantifier": "all call histories, all points at which the device can refuse bytes", "why_tests_cant": "Needs a device that fails at an arbitrary byte, and arbitrary call orders.", "anchors": ["src/writer/parquet_file.cpp:ParquetWriter::open", "src/writer/parquet_file.cpp:ParquetWriter::write", "src/writer/parquet_file.cpp:ParquetWriter::close"]}
{"id": "C67", "title": "Column types can be recovered from a written file", "statement": "From the schema stored in a written file a reader can tell the name, nullability and libvroom type of every column.", "quantifier": "all schemas", "why_tests_cant": "A claim about the injectivity of the type mapping over all types.", "anchors": ["src/writer/parquet_file.cpp:to_parquet_type", "src/writer/parquet_file.cpp:ParquetWriter::close"]}
{"id": "C68", "title": "Converting CSV to Parquet preserves the table", "statement": "convert_csv_to_parquet reports success and leaves one Parquet file from which a reader that follows the format recovers the column names and, for every column, exactly the cells that reading the CSV file with CsvReader returns, in order, nulls included; the reported row and column counts are those of the reader.", "quantifier": "all non-empty files, all thread counts, all schedules of the pipeline, all options", "why_tests_cant": "Combines every file content, chunking, batching and interleaving.", "anchors": ["src/reader/csv_reader.cpp:convert_csv_to_parquet"]}
{"id": "C69", "title": "A conversion does not depend on scheduling and reports failures", "statement": "The result of convert_csv_to_parquet, including every byte of the file, is the same for all schedules of its threads; when the input cannot be opened, the output cannot be opened, the disk is full or the progress callback declines, an error is reported.", "quantifier": "all schedules, all inputs, all failure points", "why_tests_cant": "All interleavings and failure points.", "anchors": ["src/reader/csv_reader.cpp:convert_csv_to_parquet", "src/writer/parquet_file.cpp:submit_row_group"]}
{"id": "C70", "title": "Dialect detection reports facts of the sample", "statement": "When detect() reports a dialect (confidence above 0), its delimiter, quote and escape are ones the options offer; the reported number of rows is the number of non-empty, non-comment lines of the sample (at most max_rows), the reported number of columns is a most frequent field count of these rows under the reported dialect, and the line ending and comment fields describe the sample; the sample is a prefix of what follows the comment block.", "quantifier": "all inputs, all options with max_rows > 0, all hash-table iteration orders, all results of sorting", "why_tests_cant": "Depends on every byte of the input and on unspecified orders of the standard library.", "anchors": ["src/dialect.cpp:detect", "src/dialect.cpp:score_dialect", "src/dialect.cpp:generate_candidates"]}
{"id": "C71", "title": "Detection confidence is a number between 0 and 1", "statement": "The confidence reported by detect() lies in the documented range [0, 1].", "quantifier": "all inputs and options", "why_tests_cant": "Needs a bound over all scores and boosts.", "anchors": ["include/libvroom/dialect.h:DetectionResult", "src/dialect.cpp:score_dialect"]}
{"id": "C72", "title": "Cell type inference is exact", "statement": "infer_cell_type() returns INTEGER, FLOAT, DATE, TIME, BOOLEAN or EMPTY exactly for the texts (surrounded by any white space) of the corresponding grammar, and DATETIME exactly for a date followed by a time with an optional zone.", "quantifier": "all texts", "why_tests_cant": "A grammar has infinitely many members and near misses.", "anchors": ["src/dialect.cpp:infer_cell_type", "src/dialect.cpp:could_be_integer", "src/dialect.cpp:could_be_float"]}
{"id": "C73", "title": "Field extraction splits exactly at unprotected delimiters", "statement": "extract_fields() cuts a row at every delimiter outside quotes and not escaped, nowhere else, and returns the pieces with surrounding quotes removed.", "quantifier": "all rows and dialects", "why_tests_cant": "All combinations of quotes, escapes and delimiters.", "anchors": ["src/dialect.cpp:extract_fields"]}
{"id": "C74", "title": "Dialect detection looks at a bounded part of the input", "statement": "The result of detect() does not depend on anything more than 1 MiB (or the sample size, if larger) after the comment block; detect_file() on a file and detect() on its content agree.", "quantifier": "all inputs and options", "why_tests_cant": "Quantifies over all continuations of an input.", "anchors": ["src/dialect.cpp:detect", "src/dialect.cpp:detect_file"]}
{"id": "C75", "title": "Line ending detection is exact", "statement": "The line ending reported for a sample is LF, CRLF or CR exactly if it has breaks of that kind only, MIXED exactly if it has at least two kinds, and UNKNOWN exactly if it has none.", "quantifier": "all samples", "why_tests_cant": "All byte sequences.", "anchors": ["src/dialect.cpp:detect_line_ending"]}
{"id": "C76", "title": "A detected dialect can be used", "statement": "The dialect a successful detection returns passes Dialect::validate() and Dialect::is_valid().", "quantifier": "all inputs and options", "why_tests_cant": "The winner depends on the whole input.", "anchors": ["include/libvroom/dialect.h:is_valid", "include/libvroom/dialect.h:validate", "src/dialect.cpp:generate_candidates"]}
{"id": "C77", "title": "A reader can be used for several inputs", "statement": "Whatever calls a CsvReader has seen before, a successful open() or open_from_buffer() makes schema() and read_all() describe the input just opened, as a new reader would.", "quantifier": "all histories of open and open_from_buffer calls, all inputs, all answers of the operating system", "why_tests_cant": "Quantifies over histories of one object.", "anchors": ["src/reader/csv_reader.cpp:open", "src/reader/csv_reader.cpp:open_from_buffer", "src/reader/csv_reader.cpp:read_all"]}
{"id": "C78", "title": "Reading touches only memory that is alive", "statement": "After any sequence of open() and open_from_buffer() calls, successful or not, read_all() accesses only the mapping or the buffer the reader currently holds, within its bounds.", "quantifier": "all histories of open and open_from_buffer calls, all inputs, all answers of the operating system", "why_tests_cant": "Depends on the history of the object and on failures of system calls.", "anchors": ["src/reader/csv_reader.cpp:open", "src/reader/csv_reader.cpp:read_all", "src/reader/mmap_source.cpp:open"]}
{"id": "C79", "title": "The tool's CSV output is CSV", "statement": "What the commands head and select print denotes, as CSV with the same delimiter and quote, exactly the rows printed; in particular the tool reads its own output as the same table.", "quantifier": "all tables of cells, all delimiters and quotes", "why_tests_cant": "All cell contents, including quotes, delimiters and line breaks in any combination.", "anchors": ["src/cli.cpp:outputRow", "src/cli.cpp:cmd_head", "src/cli.cpp:cmd_select"]}
{"id": "C80", "title": "Printed cells denote the stored values", "statement": "The text the tool prints for a cell, read back, denotes the value of the cell: integers, dates and timestamps exactly, text unchanged, null as an empty text.", "quantifier": "all values of all column types", "why_tests_cant": "2^64 values per type, and the calendar.", "anchors": ["src/cli.cpp:getColumnValueAsString"]}
{"id": "C81", "title": "head and count describe the file", "statement": "For every input head -n N prints the column names and the first N rows, and count prints the number of rows, whatever the number of threads and chunks; empty input gives an empty result and success, an unreadable file gives exit code 1.", "quantifier": "all inputs, row limits, thread counts and options", "why_tests_cant": "Quantifies over all files and the ways they are divided.", "anchors": ["src/cli.cpp:cmd_head", "src/cli.cpp:cmd_count"]}
{"id": "C82", "title": "select prints the columns asked for", "statement": "select -c with a list of column names or indices prints exactly these columns of every row, in the order listed, and fails with exit code 1 and no output if one of them does not exist.", "quantifier": "all inputs and all column lists", "why_tests_cant": "Quantifies over all files and lists.", "anchors": ["src/cli.cpp:cmd_select"]}
{"id": "C83", "title": "pretty prints an aligned box", "statement": "The output of pretty is a box with a rule above and below and after the header and one line per row; all lines have the same width; cells of up to 40 bytes are printed whole, longer ones cut and marked.", "quantifier": "all inputs and row limits", "why_tests_cant": "All cell contents and widths.", "anchors": ["src/cli.cpp:cmd_pretty"]}
{"id": "C84", "title": "Options mean what they say in any order", "statement": "Every sequence of documented options is understood in the same way regardless of order and spelling (a later value replaces an earlier one), the same in all commands; anything else is refused.", "quantifier": "all argument lists", "why_tests_cant": "All orders and combinations of options.", "anchors": ["src/cli.cpp:parseCommonOptions", "src/cli.cpp:cmd_convert"]}
{"id": "C85", "title": "Strict mode rejects bad data", "statement": "With error handling enabled every row with a wrong number of fields and every unclosed quote is reported, and in strict mode the call fails and the command exits with code 1; enabling error handling never changes the data read from a file that is accepted.", "quantifier": "all inputs, error modes, error limits, options and thread counts", "why_tests_cant": "Quantifies over all malformed and well-formed files.", "anchors": ["src/reader/csv_reader.cpp:open", "src/reader/csv_reader.cpp:read_all", "src/cli.cpp:cmd_convert", "src/cli.cpp:cmd_count"]}
{"id": "C86", "title": "Loaded input is complete and padded", "statement": "load_file_to_ptr and read_stdin_to_ptr return exactly the bytes of the file or of standard input followed by the requested number of zero bytes, or throw if the input cannot be opened, measured or read, leaving all other buffers as they were.", "quantifier": "all contents, paddings and answers of the operating system, after any history", "why_tests_cant": "Depends on failures of the system and on all sizes.", "anchors": ["src/io_util.cpp:load_file_to_ptr", "src/io_util.cpp:read_stdin_to_ptr", "include/libvroom/io_util.h:AlignedBuffer::allocate"]}
{"id": "C87", "title": "Input buffers are neither leaked nor freed twice", "statement": "In every history of creating, loading, moving (also onto itself) and destroying buffers, each buffer shows its data, a moved-from buffer is empty, no memory is freed twice or used after it was freed, and all memory is freed when all buffers are destroyed, also when loading throws.", "quantifier": "all histories of operations on any number of buffers", "why_tests_cant": "Unbounded histories.", "anchors": ["include/libvroom/io_util.h:AlignedBuffer"]}
{"id": "C88", "title": "A table read in Python is the table of the file", "statement": "read_csv of the Python module gives a table whose Arrow stream yields one batch that a consumer can read completely (every child at least as long as the batch) and that holds exactly the rows and columns of the file, with matching names and formats; it raises an exception otherwise.", "quantifier": "all files of any size, options, error modes and thread counts", "why_tests_cant": "The failing files are larger than a megabyte; quantifies over all of them.", "anchors": ["python/src/bindings.cpp:read_csv", "python/src/bindings.cpp:table_stream_get_next", "python/src/bindings.cpp:table_stream_get_schema"]}
{"id": "C89", "title": "Exported Arrow structures stay valid until they are released", "statement": "In every history of reading tables, forgetting them in Python, exporting streams, fetching batches, moving streams, batches and children as the Arrow C data interface allows, and releasing in any order, every structure that has not been released can be read and gives the columns of its table, nothing is used after it was freed or freed twice, and everything is freed once all is released.", "quantifier": "all histories with any number of tables, streams and batches", "why_tests_cant": "Unbounded histories and orders of release.", "anchors": ["python/src/bindings.cpp:table_stream_get_next", "python/src/bindings.cpp:release_struct_array", "python/src/bindings.cpp:table_stream_release", "include/libvroom/arrow_export.h:release_arrow_array"]}
{"id": "C90", "title": "A text means the same through every kind of column", "statement": "Appending the same text to a column of the same type through ColumnBuilder, through the fast column context and through the fast Arrow context the reader uses gives the same entry: the same value, or a null in all three.", "quantifier": "all texts and column types", "why_tests_cant": "All texts; the differences are in rare shapes (plus signs, leading zeros, doubled signs, the least integer).", "anchors": ["src/columns/column_builder.cpp", "include/libvroom/fast_column_context.h", "include/libvroom/fast_arrow_context.h"]}
{"id": "C91", "title": "Header detection follows its rule", "statement": "detect() reports a header exactly when a dialect was detected, the sample has at least two rows under it, more than half of the non-empty cells of the first row are text, and the second row has a cell that is neither text nor empty or all cells of the first row are non-empty text.", "quantifier": "all inputs and detection options, any hash order and any order of equal candidates", "why_tests_cant": "The rule is evaluated in floating point; whether the majority test is exact cannot be tested for all counts.", "anchors": ["src/dialect.cpp:DialectDetector::detect_header", "src/dialect.cpp:DialectDetector::detect"]}
{"id": "C92", "title": "Detection warnings say what happened", "statement": "detect() warns of empty input exactly when there is none, of comments only exactly when nothing follows the leading comment lines, that nothing was detected exactly when there is data but the confidence is 0, and of ambiguity exactly when the runner-up scores more than nine tenths of the winner.", "quantifier": "all inputs and detection options, any hash order and result of sorting", "why_tests_cant": "Quantifies over all inputs and orders; the comparison is in floating point.", "anchors": ["src/dialect.cpp:DialectDetector::detect", "include/libvroom/dialect.h:DetectionResult"]}
{"id": "C93", "title": "Compressing never loses data, whatever was compressed before", "statement": "What compress and compress_into return is the input or decompresses to it, and a result shorter than the input always decompresses to it; what compress_into returns does not depend on what the thread compressed before; compress_into_buffer never writes outside the memory given, leaves it alone when it returns 0, and otherwise leaves data that decompresses to the input at its start.", "quantifier": "all inputs of any size, codecs, levels, buffer sizes, states of the thread-local pool and sequences of calls, all libraries that keep their documented contracts", "why_tests_cant": "sizes beyond 32 bits and every history of a thread cannot be tried; tests use one library version", "anchors": ["src/writer/compression.cpp: compress, compress_into, compress_into_buffer, max_compressed_size, CompressionBufferPool"]}
{"id": "C94", "title": "Python's to_parquet honours its arguments and writes the table", "statement": "vroom_csv.to_parquet accepts exactly the documented names for compression and error_mode, raises for any other, writes a Parquet file that reads back to the table of the CSV input, makes row groups of row_group_size rows, and reports the errors of a strict or permissive run to the caller.", "quantifier": "every input file, every combination of arguments, every library satisfying its contract, every schedule of the writer thread", "why_tests_cant": "Argument combinations times inputs times schedules are unbounded; an ignored argument or a swallowed error is invisible in a test that only looks at the data.", "anchors": ["python/src/bindings.cpp:to_parquet", "src/reader/csv_reader.cpp:convert_csv_to_parquet"]}
{"id": "C95", "title": "A successfully closed Arrow IPC file holds the batches written", "statement": "After open, any sequence of write_batch and write_chunks calls and a close that reports success, the file on disk is an Arrow IPC file holding the rows of the successful writes, and the counters returned agree with it.", "quantifier": "every sequence of calls on an ArrowIpcWriter and every file name", "why_tests_cant": "Histories of calls are unbounded.", "anchors": ["src/writer/arrow_ipc_writer.cpp:ArrowIpcWriter", "python/src/bindings.cpp:to_arrow_ipc"]}
{"id": "C96", "title": "info describes the input", "statement": "The info command prints where the input is from, its size, the delimiter and quote in use, the number of rows and columns delivered by a full read, and for each column its position, name and type; everything can be read off the text.", "quantifier": "all inputs (standard input or file), separators, quotes, header settings, thread counts", "why_tests_cant": "All inputs; whether two different inputs can have the same description is a statement about pairs of inputs.", "anchors": ["src/cli.cpp:cmd_info", "src/cli.cpp:formatDelimiter", "include/libvroom/types.h:type_name"]}
{"id": "C97", "title": "The text of a dialect shows the dialect", "statement": "Two dialects have the same to_string() exactly when they agree in delimiter, quote, comment character and the way quotes are escaped; equal dialects are those with equal texts.", "quantifier": "all pairs of dialects, any characters", "why_tests_cant": "All pairs of dialects, including those whose characters occur in the text itself.", "anchors": ["src/dialect.cpp:Dialect::to_string", "include/libvroom/dialect.h:Dialect::operator=="]}
{"id": "C98", "title": "The error summary of a conversion counts the errors", "statement": "error_summary() says No errors exactly when there are none, and otherwise lists the severities that occur, worst first, with their exact counts; two conversions have the same summary exactly when the counts agree; has_fatal and has_warnings say whether one occurs.", "quantifier": "all lists of errors", "why_tests_cant": "All lists of errors; exactness of the text for all counts is not testable.", "anchors": ["include/libvroom/vroom.h:ConversionResult"]}
{"id": "C99", "title": "Every documented reader option takes effect", "statement": "Setting comment leaves out comment lines, escape changes how quotes are escaped, skip_empty_rows = false keeps empty rows, columns and column_indices restrict what is read.", "quantifier": "all option values and inputs", "why_tests_cant": "That an option has no effect at all is a statement about all inputs.", "anchors": ["include/libvroom/options.h:CsvOptions", "src/reader/csv_reader.cpp:CsvReader"]}
{"id": "C100", "title": "A table written as CSV reads back", "statement": "Writing a table as CSV - a header line, then one line per row, cells joined by the separator, each cell either quoted with inner quotes doubled or plain if it holds no quote, separator or line break - and reading it gives back the column names (without surrounding blanks), the number of rows, and for every cell its text converted to the column's type, null exactly for plain cells that are empty or spell null, and for cells a row lacks.", "quantifier": "all tables, all ways of quoting and of ending lines, all thread counts, separators, quotes and null spellings", "why_tests_cant": "Unbounded tables and contents; the reader's vectorised paths depend on the position of every byte.", "anchors": ["src/reader/csv_reader.cpp:open, read_all, read_all_serial", "include/libvroom/split_fields.h", "src/parser/line_parser.cpp:parse_header"]}
{"id": "C101", "title": "Line endings and blank lines do not change the table", "statement": "Two files with the same header cells and the same cells per row give the same names, types, row count and values, whether lines end in LF or CRLF, whether the last line is ended, and whatever blank lines lie between the rows.", "quantifier": "all pairs of files that differ only in line endings and blank lines, all thread counts", "why_tests_cant": "A relation between unboundedly many pairs of inputs.", "anchors": ["src/reader/csv_reader.cpp:open, read_all", "src/schema/type_inference.cpp:infer_from_sample"]}
{"id": "C102", "title": "Error reports say which errors there were", "statement": "The text of an error names its severity, code, line, column, byte offset, message and context; the summary of a collector and the report printed by convert list every stored error in order, and say how many were suppressed. Two different lists of errors never print the same text.", "quantifier": "all lists of errors, all numbers of suppressed errors, all messages and contexts", "why_tests_cant": "Messages are arbitrary texts (column names appear in them), so that no list is mistaken for another is a statement about all pairs of texts.", "anchors": ["src/error.cpp:ParseError::to_string, ErrorCollector::summary, ParseException::format_errors", "src/cli.cpp:cmd_convert"]}
{"id": "C103", "title": "A command line does what its first words ask for", "statement": "Without arguments the tool prints its usage and fails; help and version words print and succeed; a viewer command runs with the settings its options describe; convert, or a file name in its place, runs with the given input, output, compression and options; anything else fails. Nothing is run that was not asked for.", "quantifier": "all argument lists", "why_tests_cant": "Unbounded argument lists of arbitrary words in any order.", "anchors": ["src/cli.cpp:main, cmd_convert"]}
{"id": "C104", "title": "Appending rows leaves the earlier rows as they are", "statement": "Appending text to a file whose last row is ended keeps the column names, the column types and every value already there, and adds to each column exactly the cells of the added rows, whatever threads and code paths the two readings use.", "quantifier": "all files, all added texts, all thread counts and options", "why_tests_cant": "A relation between unboundedly many pairs of readings; chunk boundaries and sampled rows may move when the file grows.", "anchors": ["src/reader/csv_reader.cpp:open, read_all", "src/schema/type_inference.cpp:infer_from_sample"]}
{"id": "C105", "title": "The program shows the table its input holds", "statement": "For every documented command line of count, head, info, select and pretty and every readable input (standard input when none is named), the exit code is 0 and standard output is exactly the row count, the first rows, the description, the chosen columns or the boxed rows of the table that the input denotes under the options given, for every thread count; an empty input succeeds and an unreadable one fails; and counting the output of head counts the rows it printed.", "quantifier": "every documented command line, every standard input and every content of every file", "why_tests_cant": "The composition of command line, input choice, options, parallel reading, type inference and printing is over all command lines and all inputs; tests run a few commands on a few files.", "anchors": ["src/cli.cpp: main, cmd_count, cmd_head, cmd_info, cmd_select, cmd_pretty, parseCommonOptions, isStdinInput", "src/reader/csv_reader.cpp: CsvReader::open, open_from_buffer, read_all"]}
{"id": "C106", "title": "Converting from the command line writes the table of the input", "statement": "For every documented command line of convert with one input, an output and a known compression: if the process ends with code 0, the output file holds, for any Parquet reader, exactly the table that the input denotes under the options given, whatever the threads and their schedule; the code is 1 when the input cannot be read or is empty, the output cannot be opened, errors are looked for and the header is empty, or --strict was asked for last and a column name is repeated; help and version words write nothing.", "quantifier": "every documented command line, every content of the input file, every schedule of the writer's threads, every thread count", "why_tests_cant": "The composition of command line, parallel reading, type inference, parallel encoding and the file format ranges over all command lines, inputs and schedules.", "anchors": ["src/cli.cpp: main, cmd_convert", "src/reader/csv_reader.cpp: convert_csv_to_parquet", "src/writer/parquet_writer.cpp: ParquetWriter"]}
{"id": "C107", "title": "An interrupted conversion leaves a beginning of the right file", "statement": "Wherever a conversion dies, or wherever the disk has no more room, and under every schedule of its threads, the output holds a beginning of the one file that a complete run writes; nothing is written before the input has been read; and no reader takes a proper beginning of the file for a complete file.", "quantifier": "all inputs, options, thread counts, schedules, crash points and disk capacities", "why_tests_cant": "Crash points and schedules are unbounded in number, and no test can stop a process at every one of them.", "anchors": ["src/reader/csv_reader.cpp: convert_csv_to_parquet", "src/writer/parquet_file.cpp: ParquetWriter::open, write, submit_row_group, finish_pipeline, close"]}
{"id": "C108", "title": "A background writer that fails is noticed and leaves no false file", "statement": "If writing a row group fails in the background (out of memory), then under every schedule no thread waits for ever, the conversion is never reported as successful, it ends with an error and not by aborting the process, and no file is left that reads as a table with rows missing.", "quantifier": "all numbers of row groups, all failing groups and places of failure, all schedules of the two threads, all moments at which the caller notices", "why_tests_cant": "A failed allocation in a background thread at a chosen moment, under every interleaving with the submitting thread, cannot be produced by tests.", "anchors": ["src/writer/parquet_file.cpp: ParquetWriter::start_pipeline, submit_row_group, finish_pipeline, close, ~ParquetWriter, write_encoded_row_group", "src/reader/csv_reader.cpp: convert_csv_to_parquet"]}
{"id": "C109", "title": "Row groups handed over to a pipeline end up as written ones do", "statement": "A user of ParquetWriter who hands row groups over through start_pipeline, submit_row_group and finish_pipeline, in any number of pipelines mixed with write, gets the file that write alone gives and the same reports, whatever the writer thread's schedule; calls made at the wrong time are refused without effect, and a row group whose submission and pipeline reported success is in the file.", "quantifier": "all sequences of calls, all columns and options, all schedules of the writer thread", "why_tests_cant": "Whether the file is the same depends on the interleaving of two threads, and whether a misuse is refused depends on the whole history of calls.", "anchors": ["src/writer/parquet_file.cpp: ParquetWriter::open, set_schema, write, start_pipeline, submit_row_group, finish_pipeline, close, ~ParquetWriter"]}
{"id": "C110", "title": "read_csv of the Python module does what its arguments say", "statement": "read_csv reads the file with the separator, quote, header and number of threads asked for and returns the table of the file; an unknown error mode, an unreadable file and an empty file raise an exception whatever else is given; an exception lists the errors that were collected; strict stops on the first error; and threads, error mode and limit make no difference to the table.", "quantifier": "all arguments and all contents of the file", "why_tests_cant": "The arguments and the file range over unboundedly many combinations, and code paths differ with threads and error mode.", "anchors": ["python/src/bindings.cpp: read_csv", "src/reader/csv_reader.cpp: CsvReader::open, read_all"]}
{"id": "C111", "title": "Columns written from vectors can be read back", "statement": "A column chunk written from a vector of values and a vector of null flags holds the rows that were given, for every type, codec and dictionary setting; its counts and statistics are those of the rows or the ones given; the dictionary is used exactly within the thresholds; the recorded sizes are right; and the chunk says all a reader needs to know.", "quantifier": "all vectors of values and null flags, all codecs and dictionary settings", "why_tests_cant": "Whether rows come back depends on the positions of all nulls and repetitions; the chunks are unboundedly many.", "anchors": ["src/writer/column_writer.cpp: write_int32_column, write_int64_column, write_float64_column, write_string_column, write_bool_column", "src/writer/page_writer.cpp: write_data_page, write_dictionary_data_page", "src/writer/dictionary.cpp: analyze_int32_dictionary, analyze_string_dictionary", "src/writer/row_group.cpp: build_row_group"]}
{"id": "C112", "title": "Reading never touches a byte outside the file", "statement": "Opening and reading a file - counting rows, finding row ends, dividing rows into fields, removing quotes, parsing the header, sampling types, parsing dates and timestamps - and detecting the dialect of a buffer read only bytes that are in the input, whatever it holds, whatever the separator, quote and other options are, for every number of threads and every vector width.", "quantifier": "all files, options, thread counts and vector widths", "why_tests_cant": "A read one byte past the end happens only for particular lengths, last bytes and quote states, and usually goes unnoticed when it happens.", "anchors": ["src/parser/simd_chunk_finder.cpp: count_rows_simd, find_row_end_simd, analyze_chunk_dual_state_simd", "include/libvroom/split_fields.h", "src/reader/csv_reader.cpp: unescape_quotes, parse_chunk_with_state, CsvReader::open, read_all", "src/parser/line_parser.cpp: parse_header", "src/schema/type_inference.cpp", "src/schema/type_parsers.cpp", "src/dialect.cpp: DialectDetector::detect, find_rows, extract_fields, infer_cell_type"]}
{"id": "C113", "title": "The progress bar shows the last report and nothing else", "statement": "With -p on a terminal: after any reports of (done, total) the current line shows exactly the bar and the percentage (rounded down) of the last report, with nothing left of earlier ones; it is redrawn exactly when the percentage changes; finishing leaves a full bar on a line of its own and clearing a blank line; the bar never asks to stop the work and never writes outside its buffer; without a terminal nothing is written. A full bar means that the conversion succeeded.", "quantifier": "all sequences of reports and all widths; for the memory claims all numbers", "why_tests_cant": "Leftovers on the line and off-by-one cells depend on the whole sequence of percentages and the width.", "anchors": ["src/cli.cpp: ProgressBar, cmd_convert", "src/reader/csv_reader.cpp: convert_csv_to_parquet", "include/libvroom/vroom.h: ProgressCallback"]}
{"id": "C114", "title": "convert tells on standard error what went wrong", "statement": "For every documented command line of convert and every input: a failing exit code comes with a text that names the reason; a successful conversion writes nothing to standard error unless problems were recorded, and every recorded problem is listed, one line each and in order.", "quantifier": "all command lines of documented items without -v, all files, schedules and disks", "why_tests_cant": "The text depends on the command line, the header, the limit on errors and where the conversion stops.", "anchors": ["src/cli.cpp: cmd_convert", "src/reader/csv_reader.cpp: CsvReader::open, convert_csv_to_parquet", "src/error.cpp: ParseError::to_string", "include/libvroom/vroom.h: ConversionResult"]}
{"id": "C115", "title": "What the tool prints is read again as what it was", "statement": "A value read into a column of truth values, integers, dates or timestamps is printed as a text that the library reads as the same value in a column of that type (for timestamps: without the fraction of a second; dates and instants of years that print with four digits). A table of such columns that is printed with its names - for example by head - and read with the default options gives the same columns, possibly with integers of the other width, provided the second to 1001st row show for every column a value, and an integer of more than 32 bits if there is one. Texts that do not denote null, also ones with commas, quotes and line breaks, come back as they were, if a sampled one shows that the column holds texts. They are not protected otherwise: texts that all look like numbers come back as numbers.", "quantifier": "All values, columns, tables, row limits, thread counts and lane widths.", "why_tests_cant": "The set of printable values and tables is unbounded and the result depends on printing, quoting, type inference and parsing together.", "anchors": ["src/cli.cpp: getColumnValueAsString, outputRow, cmd_head", "src/parser/type_inference.cpp: infer_field, infer_from_sample", "src/parser/type_parsers.cpp: parse_date, parse_timestamp", "src/reader/csv_reader.cpp: CsvReader::open, read_all"]}
