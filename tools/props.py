import json
P=[]
def p(title,statement,quant,why,anchors):
    P.append(dict(id="C%02d"%(len(P)+1),title=title,statement=statement,quantifier=quant,why_tests_cant=why,anchors=anchors))
U="Unit tests sample a finite set of buffers; the claim is about every byte string, and the failing inputs sit on 64-byte block edges and in rare quote/CR/LF combinations."
p("Vectorised row counting agrees with the byte-by-byte definition",
 "For every buffer and every quote character other than LF and CR, the vectorised row counter returns the same (number of rows, end of last row) as the reference scalar counter: rows end at an LF, or at a CR not followed by an LF, that has an even number of quote characters before it.",
 "all byte strings of any length (any alignment of quotes and line ends relative to 64-byte blocks), all quote bytes except LF/CR",U,
 ["src/parser/simd_chunk_finder.cpp:count_rows_simd","src/parser/simd_chunk_finder.cpp:count_rows_scalar","include/libvroom/vroom.h:ChunkFinder::count_rows"])
p("Single-pass chunk analysis is exact from either starting quote state",
 "Analysing a chunk while assuming it starts inside (or outside) a quoted field yields exactly the number of row ends that have an outside-quote parity under that assumption, the offset just past the last such row end, and the quote state at the end of the chunk.",
 "all byte strings, both starting states, all quote bytes except LF/CR",U,
 ["src/parser/simd_chunk_finder.cpp:analyze_chunk_simd","include/libvroom/vroom.h:ChunkAnalysis"])
p("Dual-state analysis equals two independent analyses",
 "The one-pass analysis that speculates on both starting states returns precisely what two separate analyses (one starting outside, one inside quotes) return: both row counts and both end states.",
 "all byte strings, all quote bytes except LF/CR",U,
 ["src/parser/simd_chunk_finder.cpp:analyze_chunk_dual_state_simd","include/libvroom/vroom.h:DualStateChunkAnalysis"])
p("Row counting is chunking-independent",
 "Split a buffer in any way into consecutive chunks whose boundaries do not separate a CR from its LF, analyse each chunk independently for both starting states, then link the chunks left to right: the linked starting state of each chunk is the true quote state at that position and the sum of the selected row counts is the row count of the whole buffer.",
 "all byte strings and all lists of chunks they decompose into, any number of chunks",
 "The number of decompositions is unbounded and the result depends on the quote state carried across every boundary.",
 ["src/reader/csv_reader.cpp:CsvReader::read_all","src/parser/simd_chunk_finder.cpp:analyze_chunk_dual_state_simd"])
p("Row-end search finds the first unquoted line end, makes progress and stays in bounds",
 "From any start offset inside the buffer the row-end search returns an offset strictly greater than start and at most the size; it is the offset just past the first CR/LF/CRLF that lies outside quotes (counting quotes from start), or the size if there is none. The vectorised search returns the same offset as the scalar one.",
 "all buffers, all start offsets, all quote bytes except LF/CR",
 "Progress and bounds for every start offset is what keeps the chunking loop from hanging or over-reading; the vectorised version switches between three code paths by alignment.",
 ["src/parser/simd_chunk_finder.cpp:find_row_end_simd","src/parser/simd_chunk_finder.cpp:find_row_end_scalar","src/parser/chunk_finder.cpp:ChunkFinder::find_row_end"])
p("Quote-parity masks are exact across blocks",
 "The 64-bit in-quote mask computed for a block has bit i set iff the number of quote bytes from the beginning of the stream up to and including position i is odd; the carried state is right for every following block; the carry-less-multiply, doubling-shift and bit-loop implementations agree for every input word.",
 "all 64-bit words, both carried states, all sequences of blocks",
 "2^64 words times unbounded sequences.",
 ["src/parser/quote_parity.cpp:prefix_xorsum_inclusive","src/parser/quote_parity.cpp:scalar_find_quote_mask","src/parser/quote_parity-inl.h"])
p("Chunk ranges tile the data",
 "Chunking terminates for every input and yields non-empty half-open ranges that start at the first data byte, end at the end of the buffer, and are pairwise adjacent, so that no byte is parsed twice or skipped by chunking itself.",
 "all buffers, data start offsets and chunk sizes >= 1",
 "Loop termination and gap-freedom must hold for every buffer; row lengths can exceed the chunk size.",
 ["src/parser/chunk_finder.cpp:ChunkFinder::find_chunks","src/reader/csv_reader.cpp:CsvReader::read_all"])
p("Every chunk boundary is a row boundary",
 "No chunk boundary chosen by the parallel reader falls inside a quoted field, so every row lies in exactly one chunk.",
 "all buffers and chunk sizes",
 "Depends on where the size-based split target falls relative to every quoted field.",
 ["src/parser/chunk_finder.cpp:ChunkFinder::find_row_end","src/reader/csv_reader.cpp:CsvReader::read_all"])
p("Parallel reading returns the same table as serial reading",
 "For the same file and options the multi-threaded read returns the same rows, in the same order, as the single-threaded read.",
 "all files, thread counts and chunk sizes, all task completion orders",
 "The number of chunkings and schedules is unbounded; files above 1 MB take a different code path from the ones small tests use.",
 ["src/reader/csv_reader.cpp:CsvReader::read_all","src/reader/csv_reader.cpp:CsvReader::read_all_serial","src/reader/csv_reader.cpp:parse_chunk_with_state"])
p("Tables are rectangular",
 "After reading any bytes, every column has exactly the same number of entries: a row with too few fields is padded with nulls and extra fields are ignored, in each chunk and after merging chunks.",
 "all byte strings, all schemas, all separators/quotes",
 "Ragged, truncated and malformed rows come in unboundedly many shapes; one missing append corrupts every later row.",
 ["src/reader/csv_reader.cpp:parse_chunk_with_state","src/reader/csv_reader.cpp:CsvReader::read_all_serial","src/parser/line_parser.cpp:LineParser::parse_line"])
p("Field iteration splits a row at exactly the unquoted separators",
 "Iterating the fields of a buffer yields, in order, the byte ranges between separators that lie outside quotes, stopping at the first end-of-line outside quotes.",
 "all buffers, separators and quote characters",
 "A vectorised fast path with a cached mask is used only when more than 64 bytes remain, so short test strings never exercise it.",
 ["include/libvroom/split_fields.h:SplitFields","src/parser/split_fields_iter-inl.h"])
p("Field iteration terminates, makes progress and loses no byte",
 "Every call to next() either consumes at least one byte or is the last one; the fields returned, rejoined with the consumed separators and end-of-line byte and followed by remaining(), are exactly the input bytes.",
 "all buffers, separators, quotes, number of calls",
 "Holds for malformed quoting too; tests cannot enumerate malformed inputs.",
 ["include/libvroom/split_fields.h:SplitFields::next","include/libvroom/split_fields.h:SplitFields::remaining"])
p("Quoted values round-trip",
 "If a value is written the CSV way (enclosed in quotes, inner quotes doubled) then the reader's strip-and-unescape returns the original value, for every value.",
 "all byte strings and quote characters","All values.",
 ["src/reader/csv_reader.cpp:unescape_quotes","src/reader/csv_reader.cpp:parse_chunk_with_state"])
p("The line splitters agree with each other",
 "Splitting a line gives the same fields whichever of the library's splitters (returning, appending-into, vectorised) is used.",
 "all lines, separators and quotes","All lines; vectorised code switches path every 64 bytes.",
 ["src/parser/split_fields.cpp","src/parser/split_fields-inl.h"])
p("32-bit integer fields parse exactly or are rejected",
 "A field parses as int32 iff it is an optional sign followed by at least one and at most a fixed number of digits whose value is in range, and the value is the mathematical one; no field yields a wrapped value.",
 "all byte strings","2^32 values times spelling variants plus all malformed strings.",
 ["src/parser/simd_atoi.cpp","src/parser/simd_atoi-inl.h","include/libvroom/simd_atoi.h"])
p("64-bit integer fields parse exactly or are rejected",
 "A field parses as int64 iff it is an optional sign followed by digits whose value is in range, and the value is the mathematical one; no field yields a wrapped value.",
 "all byte strings","2^64 values times spelling variants; overflow boundary cases.",
 ["src/parser/simd_atoi.cpp","src/parser/simd_atoi-inl.h","include/libvroom/simd_atoi.h"])
p("Date fields parse to the proleptic Gregorian day number",
 "A field parses as a date iff it is a valid calendar date in YYYY-MM-DD or YYYY/MM/DD form, and the value is the number of days since 1970-01-01; distinct dates get distinct numbers in calendar order.",
 "all byte strings; all years 0000-9999","3.65 million valid dates and unbounded malformed strings.",
 ["src/schema/type_parsers.cpp:parse_date"])
p("Timestamp fields parse to the right instant",
 "A field accepted as a timestamp yields the number of microseconds since the epoch of the instant it denotes, taking fraction digits and the UTC offset into account; anything else is rejected.",
 "all byte strings","Combinations of fraction length, offset sign and separators are unbounded.",
 ["src/schema/type_parsers.cpp:parse_timestamp"])
p("Type widening is order-independent",
 "Combining inferred cell types over the cells of a column gives the same column type for every order and grouping of the cells, and the result can represent every input type.",
 "all multisets of cell types, all orders","All permutations of any length of sample.",
 ["include/libvroom/types.h:wider_type","src/schema/type_inference.cpp"])
p("An inferred type can represent every sampled cell",
 "If type inference over a sample yields type T for a column then parsing each non-null sampled cell as T succeeds (does not silently become null).",
 "all cell strings and samples","Inference and parsing are two independent implementations; agreement is needed on every string.",
 ["src/schema/type_inference.cpp:TypeInference::infer_field","src/schema/type_parsers.cpp","include/libvroom/fast_arrow_context.h"])
p("The validity bitmap behaves like a list of booleans",
 "After any sequence of push-valid, push-null, append and finalize operations, reading bit i returns the i-th pushed flag, size is the number of pushes and the null count is the number of nulls pushed.",
 "all operation sequences of any length","Lazy allocation means behaviour depends on the position of the first null relative to byte boundaries across appends.",
 ["include/libvroom/arrow_buffer.h:NullBitmap"])
p("The string buffer behaves like a list of strings",
 "After any sequence of pushes and appends whose total byte size stays below 2^32, entry i is exactly the i-th string pushed.",
 "all operation sequences","All sequences; 32-bit offsets wrap only on multi-gigabyte data no unit test builds.",
 ["include/libvroom/arrow_buffer.h:StringBuffer"])
p("Merging columns is concatenation",
 "Merging column builders yields values and nulls of the first followed by those of the second, with matching lengths and null counts, for every pair of columns; hence merging many chunks in order yields their concatenation whatever the grouping.",
 "all pairs/sequences of columns","All lengths relative to byte boundaries and all null patterns.",
 ["include/libvroom/arrow_column_builder.h:merge_from","include/libvroom/arrow_buffer.h:NullBitmap::append_from"])
p("Chunked column storage preserves the value sequence",
 "Any interleaving of appends, chunk merges and finalisation leaves the logical sequence of values (and its length) equal to the concatenation of everything appended, in order.",
 "all operation sequences","Unbounded interleavings.",
 ["src/columns/column_builder.cpp"])
p("Copy-on-write buffers are isolated",
 "Copies of a buffer never observe writes made through another copy, and writing through a handle is visible through that handle only, for every history of copies, writes and drops.",
 "all histories of operations on any number of handles","All alias patterns.",
 ["src/columns/cow_buffer.h"])
p("Error collection is lossless in count and bounded in memory",
 "For every sequence of reported errors, stored plus suppressed equals reported, stored never exceeds the limit, the fatal flag is set iff a fatal error was reported (even if suppressed), and stopping follows the documented mode.",
 "all sequences of errors, all modes and limits","All sequences.",
 ["include/libvroom/error.h:ErrorCollector","src/error.cpp"])
p("Merged per-thread errors come out complete and sorted",
 "Merging the collectors of all workers keeps every stored error exactly once (up to the limit), sorted by byte offset, and counts of suppressed errors add up.",
 "all numbers of workers and error lists","All distributions of errors to workers.",
 ["include/libvroom/error.h:ErrorCollector::merge_sorted"])
p("Variable-length integers and zig-zag round-trip",
 "Decoding the bytes written for any 64-bit (and 32-bit) integer yields that integer and leaves the following bytes untouched.",
 "all 64-bit integers, all following bytes","2^64 values.",
 ["src/writer/thrift_compact.cpp","src/encoding/plain.cpp"])
p("Thrift compact structures round-trip",
 "A standard compact-protocol reader applied to the bytes of any sequence of fields, nested structs, lists, strings and integers written through the writer recovers the same tree and stops exactly at its end.",
 "all field trees of any depth and any field ids in increasing or decreasing order","Unbounded nesting; the short/long field header choice depends on id deltas across nesting.",
 ["src/writer/thrift_compact.cpp:ThriftCompactWriter"])
p("Definition levels round-trip",
 "A Parquet RLE/bit-packed hybrid reader applied to the definition-level bytes of a column recovers exactly the null pattern.",
 "all null patterns of length below 2^31","Run boundaries relative to groups of eight vary with every pattern.",
 ["src/encoding/plain.cpp:encode_def_levels_hybrid_arrow"])
p("Dictionary index pages round-trip",
 "A Parquet hybrid reader applied to the encoded dictionary indices with the recorded bit width recovers exactly the index sequence.",
 "all index sequences and dictionary sizes","All bit widths x run structures.",
 ["src/encoding/plain.cpp:encode_dictionary_indices","src/writer/dictionary.cpp"])
p("The hybrid RLE encoder's output decodes to its input",
 "For every sequence of values of a given bit width, the stream produced by the hybrid encoder decodes (standard Parquet hybrid reader) to exactly those values.",
 "all value sequences and bit widths","All run structures.",
 ["src/encoding/hybrid_rle.cpp:HybridRleEncoder"])
p("The RLE encoder's output decodes to its input",
 "For every sequence of values of a given bit width, the stream produced by the RLE encoder decodes to exactly those values.",
 "all value sequences and bit widths","All run structures.",
 ["src/encoding/rle.cpp:RleEncoder"])
p("Delta encoding round-trips",
 "A DELTA_BINARY_PACKED reader recovers every integer sequence from its encoding.",
 "all integer sequences","All miniblock widths and lengths.",
 ["src/encoding/delta_bitpacked.cpp"])
p("PLAIN encoding round-trips",
 "Decoding a PLAIN page with the column's null pattern recovers the column for every supported physical type.",
 "all columns with all null patterns","All lengths relative to byte boundaries (booleans), all string lengths.",
 ["src/encoding/plain.cpp"])
p("Dictionaries are faithful",
 "The dictionary built for a string column has pairwise distinct entries, every non-null row's index is in range and names that row's value, null rows get no index, and first occurrences appear in order.",
 "all string columns","All columns.",
 ["src/writer/dictionary.cpp","include/libvroom/dictionary.h"])
p("Parquet column offsets and sizes in the footer address the right bytes",
 "In every written file, each column chunk's recorded offsets and compressed size delimit exactly the page bytes that were written for it, chunks do not overlap, the footer length field locates the footer and both magics are in place; row counts add up.",
 "all sequences of row groups and columns","All histories of writes; one mis-tracked offset makes only some columns unreadable.",
 ["src/writer/parquet_file.cpp"])
p("Every written page can be decompressed with its recorded codec",
 "For each column chunk, the codec recorded in the metadata is the codec with which every page of that chunk (dictionary and data) was stored.",
 "all page contents and compression outcomes","Whether compression shrinks a page is data-dependent, independently per page.",
 ["src/writer/parquet_file.cpp","src/writer/page_writer.cpp","src/writer/column_writer.cpp"])
p("The row-group queue is a bounded FIFO under every interleaving",
 "For every interleaving of any number of producers and consumers, items come out in the order they went in, none is lost or duplicated, the queue never holds more than its capacity, pushes after close are refused and items accepted before close are still delivered.",
 "all interleavings, all capacities, any number of threads","Schedules cannot be enumerated by tests.",
 ["src/writer/encoded_row_group_queue.h:EncodedRowGroupQueue"])
p("The write pipeline never deadlocks and writes row groups in submission order",
 "For every interleaving of the encoding side and the writer thread, as long as the queue is eventually closed, some thread can always take a step until everything is written, and the file's row groups are in submission order.",
 "all interleavings","Schedules cannot be enumerated by tests.",
 ["src/writer/encoded_row_group_queue.h","src/writer/parquet_file.cpp"])
p("Row-group batching preserves the table",
 "Grouping parsed chunks into row groups neither loses, duplicates nor reorders rows, and no row group mixes rows out of order, for every sequence of chunk sizes.",
 "all sequences of chunk sizes","All sequences.",
 ["src/reader/csv_reader.cpp:convert_csv_to_parquet"])
p("Column statistics are the true minimum, maximum and counts",
 "After any sequence of updates (single and batched) the recorded min and max are the least and greatest value seen, and value and null counts are exact.",
 "all update sequences","All sequences; vectorised reductions differ by lane remainder.",
 ["include/libvroom/statistics.h","src/writer/statistics.cpp","src/simd/statistics_simd.cpp"])
p("Vectorised min/max equals the sequential fold for every lane width",
 "For every array and every vector width the vectorised min/max equals the element-by-element minimum and maximum.",
 "all arrays, all lane counts","Lane count depends on the CPU the test runs on.",
 ["src/simd/statistics_simd.cpp"])
p("Merging statistics equals statistics of the concatenation",
 "Statistics merged from parts equal statistics computed over the concatenated parts, for any grouping.",
 "all partitions of all value sequences","All partitions.",
 ["include/libvroom/statistics.h:merge","src/writer/statistics.cpp"])
p("Comment skipping stops exactly at the first non-comment line",
 "Skipping leading comment lines terminates, returns an in-bounds offset which is a line start, everything before it is comment lines and the line at it is not a comment line.",
 "all buffers and comment characters","All buffers.",
 ["src/dialect.cpp:skip_comment_lines","src/reader/csv_reader.cpp"])
p("Dialect row finding partitions the sample",
 "The rows found in a dialect sample are disjoint, in order, in bounds, separated only by line terminators, blank lines and comment lines, and contain no unquoted line terminator; they are the first max_rows such lines.",
 "all samples and dialects","All samples.",
 ["src/dialect.cpp:find_rows"])
p("Dialect candidate ranking is a consistent order",
 "The comparison used to rank dialect candidates is a strict weak ordering, so sorting is well-defined and the winner is a maximum.",
 "all triples of candidates","Requires transitivity over all real-valued scores.",
 ["include/libvroom/dialect.h:DialectCandidate::operator<","src/dialect.cpp"])
p("Mapped-file lifetime is leak- and dangling-free",
 "For every sequence of open, close, move and destroy calls on a mapped source, at most one mapping per live open is held, every mapping and descriptor is released exactly once, and data()/size() are null/0 when closed.",
 "all call histories","All histories.",
 ["src/reader/mmap_source.cpp","include/libvroom/vroom.h:MmapSource"])
p("Null detection is the same in every layer",
 "Whether a field is null is decided identically by the header/line parser, the type inference and the chunk parser for the same configured list of null spellings.",
 "all fields, all null-value configurations","Three independent implementations over all configuration strings.",
 ["src/parser/line_parser.cpp:init_null_values","src/schema/type_inference.cpp","src/reader/csv_reader.cpp:NullChecker"])
p("Results do not depend on the SIMD lane width",
 "The block mask assembled from vector loads of any lane count dividing 64 is the same 64-bit mask, so results are the same on every CPU target, and no load reads outside the 64-byte block.",
 "all blocks, all lane counts dividing 64","The lane count is a property of the machine running the tests.",
 ["src/parser/simd_chunk_finder.cpp","src/parser/split_fields_iter-inl.h"])
p("Chunk sizing is within its documented bounds",
 "For every file size, thread count and column count the chosen chunk size is between the minimum and maximum, without division by zero or overflow.",
 "all machine-word file sizes, thread and column counts","All configurations.",
 ["include/libvroom/options.h:calculate_chunk_size"])
p("Header parsing yields one name per header field",
 "The header parser returns one column name per unquoted-separator-delimited header field, with quotes removed and doubled quotes unescaped, so that column count equals separator count plus one.",
 "all header lines","All header lines.",
 ["src/parser/line_parser.cpp:LineParser::parse_header"])
p("Parallel completion order does not affect the result",
 "For every order in which chunk tasks complete, the assembled table is the concatenation of chunk results in chunk order.",
 "all permutations of task completion","Schedules.",
 ["src/reader/csv_reader.cpp:CsvReader::read_all"])
p("Delta-length byte arrays round-trip",
 "Decoding the delta-length encoding of any list of strings recovers the list.",
 "all lists of strings","All lists.",
 ["src/encoding/delta_length.cpp"])
p("The reported row count is the number of rows delivered",
 "row_count() after reading equals the number of entries in each returned column.",
 "all files and thread counts","Small test files never take the parallel path.",
 ["src/reader/csv_reader.cpp:CsvReader::row_count"])
p("Uninitialised memory never influences the table",
 "The local flag that the field iterator leaves unwritten for an empty last field is uninitialised in the parse loops; the table returned is the same whatever its initial value.",
 "all files and options, all initial values of the flag","A test sees one stack layout.",
 ["src/reader/csv_reader.cpp:parse_chunk_with_state","src/parser/split_fields_iter-inl.h"])
p("The parallel reader neither loses nor duplicates rows",
 "Whatever the chunk size, even when chunk boundaries fall inside quoted fields, the total row count of the result is the number of rows of the file, and each returned chunk holds exactly the rows that begin in its piece of the file.",
 "all files without lone CRs, all chunk sizes and thread counts","Chunk boundaries inside quoted fields need files over 1 MB with rare alignments.",
 ["src/reader/csv_reader.cpp:parse_chunk_with_state","src/reader/csv_reader.cpp:CsvReader::read_all"])
p("Type inference looks at every sampled data row",
 "When a file is opened, the type of each column is determined by all of the first sample_rows data rows - in particular by the first data row after the header - so that no value in those rows is turned into a null because of a type chosen without looking at it.",
 "all files, with and without header, all option settings","A test passes as soon as the skipped row happens to have the same type as the others; the claim is about all files.",
 ["src/reader/csv_reader.cpp:CsvReader::open","src/schema/type_inference.cpp:TypeInference::infer_from_sample"])
p("Exported Arrow arrays read back as the column",
 "For every column built by appends and merges (string columns: up to 2^31-1 bytes in total), a consumer that follows the Arrow columnar format reads from the exported array exactly the column's cells, nulls included, with the right length and null count.",
 "all histories of appends and merges, all cell values","Depends on every null pattern relative to byte boundaries and on sizes near 2^31 that no unit test builds.",
 ["include/libvroom/arrow_column_builder.h:export_to_arrow","include/libvroom/arrow_buffer.h"])
p("Overwriting a validity flag takes effect",
 "After setting the validity flag of an existing index, reading that index gives the new flag, all other indices are unchanged, and both null counts agree with the flags.",
 "all bitmaps reachable by any history, all indices, both flag values","Whether the bitmap has been allocated depends on the history before the call.",
 ["include/libvroom/arrow_buffer.h:NullBitmap::set","include/libvroom/arrow_buffer.h:NullBitmap::resize"])
p("Header problems are reported exactly",
 "When error handling is enabled, opening a file with a header reports an empty header as a fatal error (and fails unless the mode is BEST_EFFORT), and otherwise reports one warning for exactly those columns whose non-empty name already occurred to the left, in column order; FAIL_FAST stops at the first reported error.",
 "all headers, all modes and limits","All lists of names.",
 ["src/reader/csv_reader.cpp:CsvReader::open","src/reader/csv_reader.cpp:CsvReader::open_from_buffer"])
p("The error summary is well formed",
 "The first line of the summary states the number of stored errors and a bracketed breakdown by severity, with balanced brackets for every combination of severities.",
 "all lists of stored errors","Depends on which of three counts are zero; tests always include a warning.",
 ["src/error.cpp:ErrorCollector::summary"])
p("Parquet metadata round-trips",
 "A reader that follows parquet.thrift recovers, from the bytes written for any file footer or page header, exactly the structure that was written (schema, row groups, column metadata, statistics, key-value metadata, optional fields present or absent) and stops exactly at its end.",
 "all metadata structures whose members hold what their C++ types can hold","Every combination of optional fields changes field-id deltas and so the header form used.",
 ["src/writer/parquet_types.cpp","src/writer/thrift_compact.cpp"])
p("Definition levels of the plain-vector page writers round-trip",
 "A Parquet reader applied to the definition levels that the plain-vector page writers (write_data_page, write_dictionary_data_page and the write_*_column functions of libvroom::writer) put into a data page recovers exactly the null pattern of the column.",
 "all null patterns","Wrong only where a run of eight or more starts after a number of cells that is not a multiple of eight.",
 ["src/encoding/hybrid_rle.cpp:encode_def_levels_hybrid","src/writer/parquet_file.cpp:encode_column","src/writer/page_writer.cpp"])
p("A written Parquet file reads back as the table",
 "If a ParquetWriter is opened, given a schema, given row groups of that schema (each column at most about 2 GiB) and closed, then a reader that follows the Parquet format recovers from the file exactly the schema's columns and, row group by row group, every cell of every column, nulls included, for all writer options.",
 "all schemas, all numbers and contents of row groups, all options, all lossless compression libraries, all failed or idle calls before and after","Combines every null pattern, value, dictionary decision, page size and file offset; a test fixes a handful.",
 ["src/writer/parquet_file.cpp:ParquetWriter","src/writer/parquet_file.cpp:encode_column_arrow","src/writer/dictionary.cpp","src/writer/parquet_types.cpp"])
p("Success reported by the writer means a complete file",
 "If open, every write and close of a ParquetWriter report success, the file on disk is complete and readable.",
 "all call histories, all points at which the device can refuse bytes","Needs a device that fails at an arbitrary byte, and arbitrary call orders.",
 ["src/writer/parquet_file.cpp:ParquetWriter::open","src/writer/parquet_file.cpp:ParquetWriter::write","src/writer/parquet_file.cpp:ParquetWriter::close"])
p("Column types can be recovered from a written file",
 "From the schema stored in a written file a reader can tell the name, nullability and libvroom type of every column.",
 "all schemas","A claim about the injectivity of the type mapping over all types.",
 ["src/writer/parquet_file.cpp:to_parquet_type","src/writer/parquet_file.cpp:ParquetWriter::close"])
p("Converting CSV to Parquet preserves the table",
 "convert_csv_to_parquet reports success and leaves one Parquet file from which a reader that follows the format recovers the column names and, for every column, exactly the cells that reading the CSV file with CsvReader returns, in order, nulls included; the reported row and column counts are those of the reader.",
 "all non-empty files, all thread counts, all schedules of the pipeline, all options","Combines every file content, chunking, batching and interleaving.",
 ["src/reader/csv_reader.cpp:convert_csv_to_parquet"])
p("A conversion does not depend on scheduling and reports failures",
 "The result of convert_csv_to_parquet, including every byte of the file, is the same for all schedules of its threads; when the input cannot be opened, the output cannot be opened, the disk is full or the progress callback declines, an error is reported.",
 "all schedules, all inputs, all failure points","All interleavings and failure points.",
 ["src/reader/csv_reader.cpp:convert_csv_to_parquet","src/writer/parquet_file.cpp:submit_row_group"])
p("Dialect detection reports facts of the sample",
 "When detect() reports a dialect (confidence above 0), its delimiter, quote and escape are ones the options offer; the reported number of rows is the number of non-empty, non-comment lines of the sample (at most max_rows), the reported number of columns is a most frequent field count of these rows under the reported dialect, and the line ending and comment fields describe the sample; the sample is a prefix of what follows the comment block.",
 "all inputs, all options with max_rows > 0, all hash-table iteration orders, all results of sorting","Depends on every byte of the input and on unspecified orders of the standard library.",
 ["src/dialect.cpp:detect","src/dialect.cpp:score_dialect","src/dialect.cpp:generate_candidates"])
p("Detection confidence is a number between 0 and 1",
 "The confidence reported by detect() lies in the documented range [0, 1].",
 "all inputs and options","Needs a bound over all scores and boosts.",
 ["include/libvroom/dialect.h:DetectionResult","src/dialect.cpp:score_dialect"])
p("Cell type inference is exact",
 "infer_cell_type() returns INTEGER, FLOAT, DATE, TIME, BOOLEAN or EMPTY exactly for the texts (surrounded by any white space) of the corresponding grammar, and DATETIME exactly for a date followed by a time with an optional zone.",
 "all texts","A grammar has infinitely many members and near misses.",
 ["src/dialect.cpp:infer_cell_type","src/dialect.cpp:could_be_integer","src/dialect.cpp:could_be_float"])
p("Field extraction splits exactly at unprotected delimiters",
 "extract_fields() cuts a row at every delimiter outside quotes and not escaped, nowhere else, and returns the pieces with surrounding quotes removed.",
 "all rows and dialects","All combinations of quotes, escapes and delimiters.",
 ["src/dialect.cpp:extract_fields"])
p("Dialect detection looks at a bounded part of the input",
 "The result of detect() does not depend on anything more than 1 MiB (or the sample size, if larger) after the comment block; detect_file() on a file and detect() on its content agree.",
 "all inputs and options","Quantifies over all continuations of an input.",
 ["src/dialect.cpp:detect","src/dialect.cpp:detect_file"])
p("Line ending detection is exact",
 "The line ending reported for a sample is LF, CRLF or CR exactly if it has breaks of that kind only, MIXED exactly if it has at least two kinds, and UNKNOWN exactly if it has none.",
 "all samples","All byte sequences.",
 ["src/dialect.cpp:detect_line_ending"])
p("A detected dialect can be used",
 "The dialect a successful detection returns passes Dialect::validate() and Dialect::is_valid().",
 "all inputs and options","The winner depends on the whole input.",
 ["include/libvroom/dialect.h:is_valid","include/libvroom/dialect.h:validate","src/dialect.cpp:generate_candidates"])
p("A reader can be used for several inputs",
 "Whatever calls a CsvReader has seen before, a successful open() or open_from_buffer() makes schema() and read_all() describe the input just opened, as a new reader would.",
 "all histories of open and open_from_buffer calls, all inputs, all answers of the operating system","Quantifies over histories of one object.",
 ["src/reader/csv_reader.cpp:open","src/reader/csv_reader.cpp:open_from_buffer","src/reader/csv_reader.cpp:read_all"])
p("Reading touches only memory that is alive",
 "After any sequence of open() and open_from_buffer() calls, successful or not, read_all() accesses only the mapping or the buffer the reader currently holds, within its bounds.",
 "all histories of open and open_from_buffer calls, all inputs, all answers of the operating system","Depends on the history of the object and on failures of system calls.",
 ["src/reader/csv_reader.cpp:open","src/reader/csv_reader.cpp:read_all","src/reader/mmap_source.cpp:open"])
p("The tool's CSV output is CSV",
 "What the commands head and select print denotes, as CSV with the same delimiter and quote, exactly the rows printed; in particular the tool reads its own output as the same table.",
 "all tables of cells, all delimiters and quotes","All cell contents, including quotes, delimiters and line breaks in any combination.",
 ["src/cli.cpp:outputRow","src/cli.cpp:cmd_head","src/cli.cpp:cmd_select"])
p("Printed cells denote the stored values",
 "The text the tool prints for a cell, read back, denotes the value of the cell: integers, dates and timestamps exactly, text unchanged, null as an empty text.",
 "all values of all column types","2^64 values per type, and the calendar.",
 ["src/cli.cpp:getColumnValueAsString"])
p("head and count describe the file",
 "For every input head -n N prints the column names and the first N rows, and count prints the number of rows, whatever the number of threads and chunks; empty input gives an empty result and success, an unreadable file gives exit code 1.",
 "all inputs, row limits, thread counts and options","Quantifies over all files and the ways they are divided.",
 ["src/cli.cpp:cmd_head","src/cli.cpp:cmd_count"])
p("select prints the columns asked for",
 "select -c with a list of column names or indices prints exactly these columns of every row, in the order listed, and fails with exit code 1 and no output if one of them does not exist.",
 "all inputs and all column lists","Quantifies over all files and lists.",
 ["src/cli.cpp:cmd_select"])
p("pretty prints an aligned box",
 "The output of pretty is a box with a rule above and below and after the header and one line per row; all lines have the same width; cells of up to 40 bytes are printed whole, longer ones cut and marked.",
 "all inputs and row limits","All cell contents and widths.",
 ["src/cli.cpp:cmd_pretty"])
p("Options mean what they say in any order",
 "Every sequence of documented options is understood in the same way regardless of order and spelling (a later value replaces an earlier one), the same in all commands; anything else is refused.",
 "all argument lists","All orders and combinations of options.",
 ["src/cli.cpp:parseCommonOptions","src/cli.cpp:cmd_convert"])
p("Strict mode rejects bad data",
 "With error handling enabled every row with a wrong number of fields and every unclosed quote is reported, and in strict mode the call fails and the command exits with code 1; enabling error handling never changes the data read from a file that is accepted.",
 "all inputs, error modes, error limits, options and thread counts","Quantifies over all malformed and well-formed files.",
 ["src/reader/csv_reader.cpp:open","src/reader/csv_reader.cpp:read_all","src/cli.cpp:cmd_convert","src/cli.cpp:cmd_count"])
p("Loaded input is complete and padded",
 "load_file_to_ptr and read_stdin_to_ptr return exactly the bytes of the file or of standard input followed by the requested number of zero bytes, or throw if the input cannot be opened, measured or read, leaving all other buffers as they were.",
 "all contents, paddings and answers of the operating system, after any history","Depends on failures of the system and on all sizes.",
 ["src/io_util.cpp:load_file_to_ptr","src/io_util.cpp:read_stdin_to_ptr","include/libvroom/io_util.h:AlignedBuffer::allocate"])
p("Input buffers are neither leaked nor freed twice",
 "In every history of creating, loading, moving (also onto itself) and destroying buffers, each buffer shows its data, a moved-from buffer is empty, no memory is freed twice or used after it was freed, and all memory is freed when all buffers are destroyed, also when loading throws.",
 "all histories of operations on any number of buffers","Unbounded histories.",
 ["include/libvroom/io_util.h:AlignedBuffer"])
p("A table read in Python is the table of the file",
 "read_csv of the Python module gives a table whose Arrow stream yields one batch that a consumer can read completely (every child at least as long as the batch) and that holds exactly the rows and columns of the file, with matching names and formats; it raises an exception otherwise.",
 "all files of any size, options, error modes and thread counts","The failing files are larger than a megabyte; quantifies over all of them.",
 ["python/src/bindings.cpp:read_csv","python/src/bindings.cpp:table_stream_get_next","python/src/bindings.cpp:table_stream_get_schema"])
p("Exported Arrow structures stay valid until they are released",
 "In every history of reading tables, forgetting them in Python, exporting streams, fetching batches, moving streams, batches and children as the Arrow C data interface allows, and releasing in any order, every structure that has not been released can be read and gives the columns of its table, nothing is used after it was freed or freed twice, and everything is freed once all is released.",
 "all histories with any number of tables, streams and batches","Unbounded histories and orders of release.",
 ["python/src/bindings.cpp:table_stream_get_next","python/src/bindings.cpp:release_struct_array","python/src/bindings.cpp:table_stream_release","include/libvroom/arrow_export.h:release_arrow_array"])
p("A text means the same through every kind of column",
 "Appending the same text to a column of the same type through ColumnBuilder, through the fast column context and through the fast Arrow context the reader uses gives the same entry: the same value, or a null in all three.",
 "all texts and column types","All texts; the differences are in rare shapes (plus signs, leading zeros, doubled signs, the least integer).",
 ["src/columns/column_builder.cpp","include/libvroom/fast_column_context.h","include/libvroom/fast_arrow_context.h"])
p("Header detection follows its rule",
 "detect() reports a header exactly when a dialect was detected, the sample has at least two rows under it, more than half of the non-empty cells of the first row are text, and the second row has a cell that is neither text nor empty or all cells of the first row are non-empty text.",
 "all inputs and detection options, any hash order and any order of equal candidates","The rule is evaluated in floating point; whether the majority test is exact cannot be tested for all counts.",
 ["src/dialect.cpp:DialectDetector::detect_header","src/dialect.cpp:DialectDetector::detect"])
p("Detection warnings say what happened",
 "detect() warns of empty input exactly when there is none, of comments only exactly when nothing follows the leading comment lines, that nothing was detected exactly when there is data but the confidence is 0, and of ambiguity exactly when the runner-up scores more than nine tenths of the winner.",
 "all inputs and detection options, any hash order and result of sorting","Quantifies over all inputs and orders; the comparison is in floating point.",
 ["src/dialect.cpp:DialectDetector::detect","include/libvroom/dialect.h:DetectionResult"])
p("Compressing never loses data, whatever was compressed before",
 "What compress and compress_into return is the input or decompresses to it, and a result shorter than the input always decompresses to it; what compress_into returns does not depend on what the thread compressed before; compress_into_buffer never writes outside the memory given, leaves it alone when it returns 0, and otherwise leaves data that decompresses to the input at its start.",
 "all inputs of any size, codecs, levels, buffer sizes, states of the thread-local pool and sequences of calls, all libraries that keep their documented contracts",
 "sizes beyond 32 bits and every history of a thread cannot be tried; tests use one library version",
 ["src/writer/compression.cpp: compress, compress_into, compress_into_buffer, max_compressed_size, CompressionBufferPool"])
p("Python's to_parquet honours its arguments and writes the table",
  "vroom_csv.to_parquet accepts exactly the documented names for compression and error_mode, raises for any other, writes a Parquet file that reads back to the table of the CSV input, makes row groups of row_group_size rows, and reports the errors of a strict or permissive run to the caller.",
  "every input file, every combination of arguments, every library satisfying its contract, every schedule of the writer thread",
  "Argument combinations times inputs times schedules are unbounded; an ignored argument or a swallowed error is invisible in a test that only looks at the data.",
  ["python/src/bindings.cpp:to_parquet", "src/reader/csv_reader.cpp:convert_csv_to_parquet"])
p("A successfully closed Arrow IPC file holds the batches written",
  "After open, any sequence of write_batch and write_chunks calls and a close that reports success, the file on disk is an Arrow IPC file holding the rows of the successful writes, and the counters returned agree with it.",
  "every sequence of calls on an ArrowIpcWriter and every file name",
  "Histories of calls are unbounded.",
  ["src/writer/arrow_ipc_writer.cpp:ArrowIpcWriter", "python/src/bindings.cpp:to_arrow_ipc"])
p("info describes the input",
  "The info command prints where the input is from, its size, the delimiter and quote in use, the number of rows and columns delivered by a full read, and for each column its position, name and type; everything can be read off the text.",
  "all inputs (standard input or file), separators, quotes, header settings, thread counts",
  "All inputs; whether two different inputs can have the same description is a statement about pairs of inputs.",
  ["src/cli.cpp:cmd_info", "src/cli.cpp:formatDelimiter", "include/libvroom/types.h:type_name"])
p("The text of a dialect shows the dialect",
  "Two dialects have the same to_string() exactly when they agree in delimiter, quote, comment character and the way quotes are escaped; equal dialects are those with equal texts.",
  "all pairs of dialects, any characters", "All pairs of dialects, including those whose characters occur in the text itself.",
  ["src/dialect.cpp:Dialect::to_string", "include/libvroom/dialect.h:Dialect::operator=="])
p("The error summary of a conversion counts the errors",
  "error_summary() says No errors exactly when there are none, and otherwise lists the severities that occur, worst first, with their exact counts; two conversions have the same summary exactly when the counts agree; has_fatal and has_warnings say whether one occurs.",
  "all lists of errors", "All lists of errors; exactness of the text for all counts is not testable.",
  ["include/libvroom/vroom.h:ConversionResult"])
p("Every documented reader option takes effect",
  "Setting comment leaves out comment lines, escape changes how quotes are escaped, skip_empty_rows = false keeps empty rows, columns and column_indices restrict what is read.",
  "all option values and inputs", "That an option has no effect at all is a statement about all inputs.",
  ["include/libvroom/options.h:CsvOptions", "src/reader/csv_reader.cpp:CsvReader"])
p("A table written as CSV reads back",
  "Writing a table as CSV - a header line, then one line per row, cells joined by the separator, each cell either quoted with inner quotes doubled or plain if it holds no quote, separator or line break - and reading it gives back the column names (without surrounding blanks), the number of rows, and for every cell its text converted to the column's type, null exactly for plain cells that are empty or spell null, and for cells a row lacks.",
  "all tables, all ways of quoting and of ending lines, all thread counts, separators, quotes and null spellings",
  "Unbounded tables and contents; the reader's vectorised paths depend on the position of every byte.",
  ["src/reader/csv_reader.cpp:open, read_all, read_all_serial", "include/libvroom/split_fields.h", "src/parser/line_parser.cpp:parse_header"])
p("Line endings and blank lines do not change the table",
  "Two files with the same header cells and the same cells per row give the same names, types, row count and values, whether lines end in LF or CRLF, whether the last line is ended, and whatever blank lines lie between the rows.",
  "all pairs of files that differ only in line endings and blank lines, all thread counts",
  "A relation between unboundedly many pairs of inputs.",
  ["src/reader/csv_reader.cpp:open, read_all", "src/schema/type_inference.cpp:infer_from_sample"])
p("Error reports say which errors there were",
  "The text of an error names its severity, code, line, column, byte offset, message and context; the summary of a collector and the report printed by convert list every stored error in order, and say how many were suppressed. Two different lists of errors never print the same text.",
  "all lists of errors, all numbers of suppressed errors, all messages and contexts",
  "Messages are arbitrary texts (column names appear in them), so that no list is mistaken for another is a statement about all pairs of texts.",
  ["src/error.cpp:ParseError::to_string, ErrorCollector::summary, ParseException::format_errors", "src/cli.cpp:cmd_convert"])
p("A command line does what its first words ask for",
  "Without arguments the tool prints its usage and fails; help and version words print and succeed; a viewer command runs with the settings its options describe; convert, or a file name in its place, runs with the given input, output, compression and options; anything else fails. Nothing is run that was not asked for.",
  "all argument lists",
  "Unbounded argument lists of arbitrary words in any order.",
  ["src/cli.cpp:main, cmd_convert"])
p("Appending rows leaves the earlier rows as they are",
  "Appending text to a file whose last row is ended keeps the column names, the column types and every value already there, and adds to each column exactly the cells of the added rows, whatever threads and code paths the two readings use.",
  "all files, all added texts, all thread counts and options",
  "A relation between unboundedly many pairs of readings; chunk boundaries and sampled rows may move when the file grows.",
  ["src/reader/csv_reader.cpp:open, read_all", "src/schema/type_inference.cpp:infer_from_sample"])
p("The program shows the table its input holds",
  "For every documented command line of count, head, info, select and pretty and every readable input (standard input when none is named), the exit code is 0 and standard output is exactly the row count, the first rows, the description, the chosen columns or the boxed rows of the table that the input denotes under the options given, for every thread count; an empty input succeeds and an unreadable one fails; and counting the output of head counts the rows it printed.",
  "every documented command line, every standard input and every content of every file",
  "The composition of command line, input choice, options, parallel reading, type inference and printing is over all command lines and all inputs; tests run a few commands on a few files.",
  ["src/cli.cpp: main, cmd_count, cmd_head, cmd_info, cmd_select, cmd_pretty, parseCommonOptions, isStdinInput", "src/reader/csv_reader.cpp: CsvReader::open, open_from_buffer, read_all"])
p("Converting from the command line writes the table of the input",
  "For every documented command line of convert with one input, an output and a known compression: if the process ends with code 0, the output file holds, for any Parquet reader, exactly the table that the input denotes under the options given, whatever the threads and their schedule; the code is 1 when the input cannot be read or is empty, the output cannot be opened, errors are looked for and the header is empty, or --strict was asked for last and a column name is repeated; help and version words write nothing.",
  "every documented command line, every content of the input file, every schedule of the writer's threads, every thread count",
  "The composition of command line, parallel reading, type inference, parallel encoding and the file format ranges over all command lines, inputs and schedules.",
  ["src/cli.cpp: main, cmd_convert", "src/reader/csv_reader.cpp: convert_csv_to_parquet", "src/writer/parquet_writer.cpp: ParquetWriter"])

p("An interrupted conversion leaves a beginning of the right file",
  "Wherever a conversion dies, or wherever the disk has no more room, and under every schedule of its threads, the output holds a beginning of the one file that a complete run writes; nothing is written before the input has been read; and no reader takes a proper beginning of the file for a complete file.",
  "all inputs, options, thread counts, schedules, crash points and disk capacities",
  "Crash points and schedules are unbounded in number, and no test can stop a process at every one of them.",
  ["src/reader/csv_reader.cpp: convert_csv_to_parquet", "src/writer/parquet_file.cpp: ParquetWriter::open, write, submit_row_group, finish_pipeline, close"])

p("A background writer that fails is noticed and leaves no false file",
  "If writing a row group fails in the background (out of memory), then under every schedule no thread waits for ever, the conversion is never reported as successful, it ends with an error and not by aborting the process, and no file is left that reads as a table with rows missing.",
  "all numbers of row groups, all failing groups and places of failure, all schedules of the two threads, all moments at which the caller notices",
  "A failed allocation in a background thread at a chosen moment, under every interleaving with the submitting thread, cannot be produced by tests.",
  ["src/writer/parquet_file.cpp: ParquetWriter::start_pipeline, submit_row_group, finish_pipeline, close, ~ParquetWriter, write_encoded_row_group", "src/reader/csv_reader.cpp: convert_csv_to_parquet"])

p("Row groups handed over to a pipeline end up as written ones do",
  "A user of ParquetWriter who hands row groups over through start_pipeline, submit_row_group and finish_pipeline, in any number of pipelines mixed with write, gets the file that write alone gives and the same reports, whatever the writer thread's schedule; calls made at the wrong time are refused without effect, and a row group whose submission and pipeline reported success is in the file.",
  "all sequences of calls, all columns and options, all schedules of the writer thread",
  "Whether the file is the same depends on the interleaving of two threads, and whether a misuse is refused depends on the whole history of calls.",
  ["src/writer/parquet_file.cpp: ParquetWriter::open, set_schema, write, start_pipeline, submit_row_group, finish_pipeline, close, ~ParquetWriter"])

p("read_csv of the Python module does what its arguments say",
  "read_csv reads the file with the separator, quote, header and number of threads asked for and returns the table of the file; an unknown error mode, an unreadable file and an empty file raise an exception whatever else is given; an exception lists the errors that were collected; strict stops on the first error; and threads, error mode and limit make no difference to the table.",
  "all arguments and all contents of the file",
  "The arguments and the file range over unboundedly many combinations, and code paths differ with threads and error mode.",
  ["python/src/bindings.cpp: read_csv", "src/reader/csv_reader.cpp: CsvReader::open, read_all"])

p("Columns written from vectors can be read back",
  "A column chunk written from a vector of values and a vector of null flags holds the rows that were given, for every type, codec and dictionary setting; its counts and statistics are those of the rows or the ones given; the dictionary is used exactly within the thresholds; the recorded sizes are right; and the chunk says all a reader needs to know.",
  "all vectors of values and null flags, all codecs and dictionary settings",
  "Whether rows come back depends on the positions of all nulls and repetitions; the chunks are unboundedly many.",
  ["src/writer/column_writer.cpp: write_int32_column, write_int64_column, write_float64_column, write_string_column, write_bool_column", "src/writer/page_writer.cpp: write_data_page, write_dictionary_data_page", "src/writer/dictionary.cpp: analyze_int32_dictionary, analyze_string_dictionary", "src/writer/row_group.cpp: build_row_group"])

p("Reading never touches a byte outside the file",
  "Opening and reading a file - counting rows, finding row ends, dividing rows into fields, removing quotes, parsing the header, sampling types, parsing dates and timestamps - and detecting the dialect of a buffer read only bytes that are in the input, whatever it holds, whatever the separator, quote and other options are, for every number of threads and every vector width.",
  "all files, options, thread counts and vector widths",
  "A read one byte past the end happens only for particular lengths, last bytes and quote states, and usually goes unnoticed when it happens.",
  ["src/parser/simd_chunk_finder.cpp: count_rows_simd, find_row_end_simd, analyze_chunk_dual_state_simd", "include/libvroom/split_fields.h", "src/reader/csv_reader.cpp: unescape_quotes, parse_chunk_with_state, CsvReader::open, read_all", "src/parser/line_parser.cpp: parse_header", "src/schema/type_inference.cpp", "src/schema/type_parsers.cpp", "src/dialect.cpp: DialectDetector::detect, find_rows, extract_fields, infer_cell_type"])

p("The progress bar shows the last report and nothing else",
  "With -p on a terminal: after any reports of (done, total) the current line shows exactly the bar and the percentage (rounded down) of the last report, with nothing left of earlier ones; it is redrawn exactly when the percentage changes; finishing leaves a full bar on a line of its own and clearing a blank line; the bar never asks to stop the work and never writes outside its buffer; without a terminal nothing is written. A full bar means that the conversion succeeded.",
  "all sequences of reports and all widths; for the memory claims all numbers",
  "Leftovers on the line and off-by-one cells depend on the whole sequence of percentages and the width.",
  ["src/cli.cpp: ProgressBar, cmd_convert", "src/reader/csv_reader.cpp: convert_csv_to_parquet", "include/libvroom/vroom.h: ProgressCallback"])

p("convert tells on standard error what went wrong",
  "For every documented command line of convert and every input: a failing exit code comes with a text that names the reason; a successful conversion writes nothing to standard error unless problems were recorded, and every recorded problem is listed, one line each and in order.",
  "all command lines of documented items without -v, all files, schedules and disks",
  "The text depends on the command line, the header, the limit on errors and where the conversion stops.",
  ["src/cli.cpp: cmd_convert", "src/reader/csv_reader.cpp: CsvReader::open, convert_csv_to_parquet", "src/error.cpp: ParseError::to_string", "include/libvroom/vroom.h: ConversionResult"])

p("What the tool prints is read again as what it was",
  "A value read into a column of truth values, integers, dates or timestamps is printed as a text that the library reads as the same value in a column of that type (for timestamps: without the fraction of a second; dates and instants of years that print with four digits). A table of such columns that is printed with its names - for example by head - and read with the default options gives the same columns, possibly with integers of the other width, provided the second to 1001st row show for every column a value, and an integer of more than 32 bits if there is one. Texts that do not denote null, also ones with commas, quotes and line breaks, come back as they were, if a sampled one shows that the column holds texts. They are not protected otherwise: texts that all look like numbers come back as numbers.",
  "All values, columns, tables, row limits, thread counts and lane widths.",
  "The set of printable values and tables is unbounded and the result depends on printing, quoting, type inference and parsing together.",
  ["src/cli.cpp: getColumnValueAsString, outputRow, cmd_head", "src/parser/type_inference.cpp: infer_field, infer_from_sample", "src/parser/type_parsers.cpp: parse_date, parse_timestamp", "src/reader/csv_reader.cpp: CsvReader::open, read_all"])

open("/verif/properties.jsonl","w").write("".join(json.dumps(x)+"\n" for x in P))
print(len(P))
