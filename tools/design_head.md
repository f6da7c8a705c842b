# DESIGN

Formal model of jimhester/libvroom (pinned source in /repo) in Coq 8.16.1.

## Method

* One area = `XModel.v` (executable Gallina, every definition cites file and lines), `XSpec.v` (small independent specification, no reference to the model's helpers), `XProof*.v` (lemmas), `XProps.v` (the property theorems, closed by `exact` or a few lines of glue, each followed by `Print Assumptions`, and `Example`s showing that concrete non-trivial cases meet the hypotheses).
* Bytes are `N`; buffers are `list N`; lengths and offsets are `nat`; machine words are `N` or `Z` with the wrap written explicitly where it can matter.
* Loops are structural recursion or fuel; where fuel is used, the theorem's conclusion (`= Some ...`) or a lemma shows that the fuel given suffices.
* Undefined behaviour (out-of-bounds access, signed overflow, use of released memory) is a distinct outcome where the code does not guard against it.
* A property the code violates keeps its full statement in properties.jsonl; a `_refuted` theorem gives a concrete witness in the model and a `_partial` theorem proves the claim under the weakest hypothesis found. A claim is marked `partial` in MANIFEST.json whenever its English statement is not fully true of the model.
* Concurrency (thread pool, row-group queue, write pipeline) is modelled as transition systems; theorems quantify over all schedules. The environment (system calls, output device, compressors, hash orders, sort results, double parsing and printing) appears as universally quantified parameters with stated contracts.
* Wrong programs: `tools/mutate.py` edits a definition in a scratch copy, rebuilds and records in `seeded/LOG.jsonl` which theorems fail. Surviving edits that falsify a claim led to tightened theorems (recorded there).

## Files (rocq/theories)

| Area | Models | Source |
|---|---|---|
| Base | bytes, helpers | |
| Words | 64-bit masks, quote parity (shift, CLMUL, loop), lane-wise mask assembly | src/parser/quote_parity*, simd_chunk_finder.cpp |
| Chunk | row counting, chunk analysis (single, dual state), row-end search, find_chunks, chunk size | src/parser/simd_chunk_finder.cpp, chunk_finder.cpp, include/libvroom/options.h, csv_reader.cpp (range and linking loops) |
| Fields | field iterator, unescaping, line splitters, header parser | include/libvroom/split_fields.h, src/parser/split_fields*, line_parser.cpp |
| Num | integer parsing (SIMD, scalar, fast) | src/parser/simd_atoi-inl.h, include/libvroom/simd_atoi.h, fast_*_context.h |
| Date | dates and timestamps | src/schema/type_parsers.cpp |
| Types | type inference, widening, null detection, typed append, open | include/libvroom/types.h, src/schema/type_inference.cpp, src/parser/line_parser.cpp, csv_reader.cpp 283-498 |
| Reader, Tasks | parse loops, serial and parallel reading, thread pool | src/reader/csv_reader.cpp 44-252, 516-828 |
| Life, Mmap | reader object over histories, mapped files | csv_reader.cpp 254-498, src/reader/mmap_source.cpp |
| Buffers, BuffersReach | Arrow bitmaps, string and numeric buffers, column builders, export | include/libvroom/arrow_buffer.h, arrow_column_builder.h |
| Chunked, Cow | chunked column storage, copy-on-write buffers | include/libvroom/data_chunk.h, src/columns/column_builder.cpp, cow_buffer.h |
| Errors | error collector, header validation, summary | include/libvroom/error.h, src/error.cpp |
| Varint, Thrift, Meta | varints, Thrift compact writer, Parquet metadata | src/writer/thrift_compact.*, parquet_types.* |
| Rle, Plain, Delta | encoders, dictionaries, page writers | src/encoding/*, src/writer/dictionary.cpp, page_writer.cpp |
| Parquet | file writer, page assembly, compression decisions | src/writer/parquet_file.cpp (Arrow path), encoded_row_group.h, compression.cpp |
| Queue, Pipeline | row-group queue, writer thread | src/writer/encoded_row_group_queue.h, parquet_file.cpp 971-1050 |
| Convert | CSV to Parquet conversion | csv_reader.cpp 831-1134 |
| Stats | statistics, vectorised min/max, merging | include/libvroom/statistics.h, src/simd/statistics_simd.cpp, src/writer/statistics.cpp |
| Dialect | dialect detection | src/dialect.cpp, include/libvroom/dialect.h |
| Cli | command-line tool | src/cli.cpp |
| Strict | open and read with error handling, exit codes | csv_reader.cpp 299-391, 508-713, 860-902, src/cli.cpp 511-614 |
| Aligned | input buffers, loading of files and standard input | include/libvroom/io_util.h, src/io_util.cpp |
| Py | Python read_csv, schema and batch of the stream | python/src/bindings.cpp 34-340, 116-221 |
| PyLife | lifetime of tables and exported Arrow structures | python/src/bindings.cpp 79-238, 475-505, include/libvroom/arrow_export.h |
| Layers | the three families of column appenders | src/columns/column_builder.cpp, include/libvroom/fast_column_context.h, fast_arrow_context.h |
| Hybrid | division of sequences into runs and literals, readers' view (specification and proofs about the Rle model) | src/encoding/hybrid_rle.cpp |
| Split | block-wise division of a row (specification and proofs about the Fields model) | include/libvroom/split_fields.h |
| Score | scores, confidence, header and warning of a detection in real numbers (specification and proofs about the Dialect model, with Flocq) | src/dialect.cpp 258-376, 422-551, 673-720 |
| Deliver | rows delivered for every file (specification and proofs about the Reader and Cli models) | src/reader/csv_reader.cpp 113-252, 516-828, src/cli.cpp |
| Compress | compress, compress_into and its pool, compress_into_buffer, max_compressed_size; zstd, zlib, snappy and lz4 by their contracts | src/writer/compression.cpp |
| PyConv | arguments and outcomes of to_parquet, Arrow IPC writer | python/src/bindings.cpp 346-445, src/writer/arrow_ipc_writer.cpp |
| Stamp | accepted dates and timestamps in both directions (specification and proofs about the Date model) | src/schema/type_parsers.cpp |
| Show | info, Dialect::to_string, ConversionResult | src/cli.cpp 182-197, 719-830, src/dialect.cpp 196-247, include/libvroom/vroom.h 45-98 |
| Unused | CsvOptions with the members no code reads | include/libvroom/options.h 13-37 |
| Round | written tables (specification and proofs about the Reader, Fields and Types models) | src/reader/csv_reader.cpp 113-828, src/parser/line_parser.cpp, src/schema/type_inference.cpp |
| Keep | what a text means in a column, which sampled cells are lost (specification and proofs about the Types model) | src/columns/column_builder.cpp, include/libvroom/fast_column_context.h |
| Report | texts of errors, summaries, exceptions, the report of convert | src/error.cpp 7-156, src/cli.cpp 512-533 |
| Main | dispatch of command lines, validation of convert | src/cli.cpp 442-487, 1140-1218 |
| Append | rows added at the end of a file (specification and proofs about the Reader and Types models) | src/reader/csv_reader.cpp 283-391, 516-713, src/schema/type_inference.cpp |
| Program | the whole program: command line, input, options, table, output | src/cli.cpp 94-96, 278-356, 548-1218 |
| Rows | blank lines and open rows (specification and proofs about the Reader model) | src/reader/csv_reader.cpp 516-713 |
| Tool | convert as a whole: command line, options, conversion, exit code, files | src/cli.cpp 452-541, 1159-1218 |
| Crash | conversions that die or fill the disk (definitions over the Convert and Pipeline models) | src/reader/csv_reader.cpp 937-1108, src/writer/parquet_file.cpp 686-1114 |
| Fail | exceptions in the writer thread, what they leave behind | src/writer/parquet_file.cpp 695-771, 925-929, 971-1114 |
| Session | all public calls of ParquetWriter in any order | src/writer/parquet_file.cpp 921-1116 |
| PyRead | Python's read_csv with its arguments and exceptions | python/src/bindings.cpp 252-340, 538-582 |
| Vectors | column writers over vectors, their pages, dictionaries and row groups | src/writer/column_writer.cpp, src/writer/page_writer.cpp, src/writer/row_group.cpp, src/writer/dictionary.cpp 11-49, 157-258 |
| Raw | every read of the data as an indexed access: chunk finder, field iterator, unescape, row loops, header, type sampling, dates, line splitters, line parser, integers, dialect detection | src/dialect.cpp, src/parser/simd_chunk_finder.cpp, src/parser/chunk_finder.cpp, include/libvroom/split_fields.h, src/reader/csv_reader.cpp 19-39, 113-828, src/parser/line_parser.cpp, src/schema/type_inference.cpp, src/schema/type_parsers.cpp |
| Progress | progress bar and the calls of a conversion to it | src/cli.cpp 37-88, 492-510, src/reader/csv_reader.cpp 914-920, 1129-1131 |
| Stderr | standard error of convert without -v | src/cli.cpp 492-530 |
| Reprint | printed values and tables read again (composition of Cli, Round, Types) | as those areas |
