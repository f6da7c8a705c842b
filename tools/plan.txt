C01 Area Chunk. Model: block masks as 64-bit words (N), the scalar tail, the scalar counter. Spec: row ends as positions with even quote count before them. Proof: bit-level lemmas (prefix xor = parity), induction over blocks.
C02 Area Chunk. Same model with the initial state as parameter; same spec with starting parity.
C03 Area Chunk. Model of the dual-state loop; proved equal to the pair of single-state spec values.
C04 Area Chunk. Model of the linking loop (phase 2); proof by induction on the list of chunks using spec concatenation lemma. Hypothesis: no chunk boundary between CR and LF (boundary produced by find_row_end satisfy it).
C05 Area Chunk. Model of the three-phase search; spec = first row end; equality with scalar.
C06 Area Words. Doubling shifts, CLMUL by all ones and bit loop as functions on N; testbit characterisation.
C07 Area Chunk. Model of find_chunks and of the range loop in read_all with fuel, fuel shown sufficient; tiling by induction.
C08 Area Chunk. Expected false (search assumes outside-quotes at the split target): refuted by witness, plus the positive theorem for quote-free data.
C09 Area Reader. Expected false for quoted data; refuted + positive theorem for the case where boundaries are true row boundaries/quote-free data.
C10 Area Reader. Model of the row loop over an abstract column append; invariant by induction on fuel.
C11 Area Fields. Iterator model incl. cached 64-bit mask; expected false when >64 bytes remain and a quoted field follows in the block; refuted + positive theorems. Area Split: exact description for every row by a specification of the block-wise division, and an exact criterion on the delivered fields.
C12 Area Fields. Induction on next() calls.
C13 Area Fields. Round trip of escape/unescape.
C14 Area Fields. Models of three splitters; equalities, and refutation where they differ.
C15 Area IntParse. Digit loops with explicit width; exactness vs decimal value spec.
C16 Area IntParse. Same; wrap written explicitly.
C17 Area DateTime. Model of the day-number arithmetic; spec = count of days by summing months and years.
C18 Area DateTime. Model of the timestamp state machine.
C19 Area Types. Finite case analysis lifted to folds over permutations.
C20 Area Types. Compares inference predicates with parsers; expected false, witnesses + positive part.
C21 Area Buffers. Refinement to list bool.
C22 Area Buffers. Refinement to list of byte strings with 32-bit offsets.
C23 Area Buffers. merge = append, on top of C21/C22.
C24 Area Buffers. Chunked storage state machine, abs = concatenation.
C25 Area Cow. Heap of reference counted cells and handles; refinement to a map handle -> value.
C26 Area Errors. State machine + invariant over all op lists.
C27 Area Errors. Stable sort of concatenation; permutation + sortedness.
C28 Area Varint. Encoder with shifts on N; decoder; round trip by well-founded induction.
C29 Area Thrift. Writer state machine with field-id stack; generic reader; round trip by induction on trees.
C30 Area Rle. Encoder model, independent Parquet hybrid reader, round trip.
C31 Area Rle. Same reader, general bit width.
C32 Areas Rle and Hybrid. False (mid-stream bit-packed padding): refuted; the output is shown to be that of a specified division into pieces, from which what a reader sees, and when it is the input, follows exactly.
C33 Area Rle. Round trip.
C34 Area Delta. Encoder, reader; expected partial.
C35 Area Plain. Little-endian codecs, null-skipping.
C36 Area Dict. Insertion-order dictionary model with association list.
C37 Area ParquetFile. File writer as byte-list state machine; offsets slice the final file at the page bytes.
C38 Area ParquetFile. Model of per-page compression decision with compressor as a section variable; expected false.
C39 Area Queue. Transition system with arbitrary interleavings; invariant: popped ++ queue = pushed.
C40 Area Queue. Transition system of encoder + writer; progress and order.
C41 Area Pipeline. Batch loop as function on chunk sizes; concat of batches = chunks.
C42 Area Stats. Fold invariants.
C43 Area Stats. Lane-parametric reduction = fold min; for x86 with NaN, each lane is a fold over its column and remembers what follows the last NaN.
C44 Area Stats. Monoid homomorphism.
C45 Area Dialect. Loop with fuel; spec of lines.
C46 Area Dialect. Row scanner; partition lemma.
C47 Area Dialect. Scores as rationals; expected false (epsilon comparison), witness.
C48 Area Mmap. State machine over OS calls with a resource ledger.
C49 Area Nulls. Three predicates on strings; refuted/positive.
C50 Area Words. Lane-parametric mask assembly.
C51 Area Chunk. Arithmetic on N with explicit machine bounds.
C52 Area Fields. Header splitter.
C53 Area Reader. Task completion permutation model.
C54 Area Delta. Lengths + concatenated bytes.
C55 Area Reader. Expected false in the parallel path; refuted + serial positive. Area Rows: line ends against rows, blank lines and an open last row counted by an independent scan.
C56 Area Reader. The quote flag the parallel reader passes to a chunk before linking is a parameter of the model; the theorem says the result does not depend on it.
C57 Area Reader. The chunk parser's ownership rule (a row belongs to the chunk it begins in) against the specification own_part; induction on the list of chunks.
C58 Area Types. Model of infer_from_sample with its line skipping; the specification sample counts lines; equality, and witnesses for the lost first row.
C59 Area Buffers. export_to_arrow as a record of buffers; an independent reader of the Arrow columnar layout; refinement over all histories.
C60 Area Buffers. NullBitmap::set and set_null on the lazily allocated bitmap; exact description of the cases in which they are right; witnesses for the rest.
C61 Area Errors. The header checks of open(); specification: the list of duplicate names in order; induction on the names.
C62 Area Errors. First line of summary() as text; balance of brackets as a predicate.
C63 Area Meta. The eleven write methods of parquet_types.cpp on the Thrift writer; reader by field number from parquet.thrift; composition with C29.
C64 Area Plain/Rle. The page writers of page_writer.cpp use the hybrid encoder for levels; positive on sequences where padding cannot matter, witness otherwise.
C65 Area Parquet. ParquetWriter as a state machine over a byte stream; a strict independent reader of flat Parquet files (ParquetSpec); file_layout invariant over the row groups, then reading chunk by chunk.
C66 Area Parquet. The output device as a parameter that may refuse bytes; witness for unnoticed failure.
C67 Area Parquet. Injectivity of the map from column types to schema elements on the types for which it holds; witness for DATE and TIMESTAMP.
C68 Area Convert. convert_csv_to_parquet as a composition of the reader, batching, pipeline and writer models; the theorem composes C09, C41, C40 and C65.
C69 Area Convert. Same model; every schedule of the pipeline gives the same file; the returned flag for every failing answer of the environment.
C70 Area Dialect. Detection with executable binary64 arithmetic (SpecFloat); the hash order of the maps and the result of sorting are parameters (any permutation); the report is compared with the sample by the specification.
C71 Areas Dialect, Score. Witness with exact binary64 evaluation; the score of every candidate related to a formula in real numbers with rounding (Flocq), from which the range follows by monotonicity of rounding.
C72 Area Dialect. Grammars as predicates on texts; equivalence with the scanners by induction.
C73 Area Dialect. Specification: positions of free delimiters; induction over the row.
C74 Area Dialect. Continuation independence: equal prefixes give equal results; witness for detect_file.
C75 Area Dialect. Counting loops against existence of breaks of each kind.
C76 Area Dialect. generate_candidates and both validators; witness for the quote-less winner.
C77 Area Life. The reader object as a state machine over histories of calls with the answers of the system; exact schema after every history.
C78 Area Life. Same state machine on top of the Mmap ledger; reads recorded as (mapping, range) and checked against the live mappings.
C79 Area Cli. outputRow as bytes; specification texts = cells of the CSV specification; induction on rows.
C80 Area Cli. std::to_string, gmtime and strftime of valid dates written out; composed with the date specification (C17/C18).
C81 Area Cli. Commands as functions from the input (standard input, or a path and the system's answer) to exit code and output, on the reader model; chunk loop against firstn of the concatenated table.
C82 Area Cli. getline, trimming, stoul and lookup against the specification columns_named; projection of the text table.
C83 Area Cli. Width computation and printing against the specification box; equality of line lengths.
C84 Area Cli. Argument loops as functions on lists of words; specification: items and the words they are written with; induction on items.
C85 Area Strict. open() with the collector of Errors and read_all() on top of the Reader model; exit codes of count and convert; the errors are shown to be a function of the first line, witnesses for ragged rows and unclosed quotes.
C86 Area Aligned. Memory as a list of blocks with unwritten cells, objects holding block numbers; loading as operations on it; specification: holdings (data, zero padding).
C87 Area Aligned. Refinement of all histories to lists of holdings with an ownership invariant (each live block held by exactly one object).
C88 Area Py. read_csv on top of the Reader and Strict models; the table of several chunks is the first chunk with the row count of all; exact characterisation of when the batch is readable.
C89 Area PyLife. Memory with reference-counted tables, private objects and structures; refinement of all histories to abstract handles with an ownership invariant; the excluded histories are shown to be all broken.
C90 Area Layers. The three appenders modelled and compared; agreement proved for non-integer types and characterised exactly for integers.
C91 Area Score. detect_header against counts in natural numbers; the floating point comparison with one half is exact for fewer than 2^52 cells (Flocq).
C92 Area Score. detect's outcomes case by case; the comparison with 90 percent in correctly rounded reals.
C93 Area Compress. compression.cpp's four entry points over a record of library functions with their documented contracts; memory and the thread-local pool as buffers with bounds; linked with the Parquet model.
C94 Area PyConv. Arguments of to_parquet against tables of documented names; the rest through the Convert and Strict models; counterexamples for the ignored arguments and the lost errors.
C95 Area PyConv. All histories of calls on the stub writer by induction.
C96 Area Show. cmd_info over the Cli and Reader models; its text against a relation that describes the lines, injectivity of the lines, two inputs with the same text.
C97 Area Show. The text of a dialect as a function of bytes; when two texts are equal.
C98 Area Show. The loop and the joining of error_summary; counts can be read off.
C99 Area Unused. Options with the members no code reads; counterexamples to what they promise.
C100 Area Round. How a table is written down is specified from scratch; its text has the rows meant (rows, safety, quoting by induction over cells and lines), then C09 and C52 apply.
C101 Area Round. Two texts of the same cells: columns from C100, types from the sampled lines of a written text.
C102 Area Report. Texts of errors as lists of lines, specified separately; injectivity by cutting at the first colon, digits and line ends; refutations by forged names.
C103 Area Main. main as a function from argument lists to an action; the item grammar of C74 and C76 gives the settings.
C104 Area Append. Lines, row ends and table rows of a concatenation after a complete row; the sample of both files is the same, then C09 for both.
C105 Area Program. main, settings, input choice, reading and printing composed into one function of the command line and the world; proved from C74, C103 (settings), C81 to C83, C96 (printing), C85 (refusal), C100 (written tables).
C106 Area Tool. main, the options of cmd_convert, convert_csv_to_parquet with its error handling and the exit code composed into one function; proved from C76, C103 (settings), C85 (errors of the header), C68, C69 (the conversion).
C107 Area Crash. The bytes handed over after any prefix of the schedule of the pipeline; every step only adds (induction over the run), so they are a beginning of the closed file; a reader needs the mark at the end.
C108 Area Fail. The pipeline with a writer thread that throws at a chosen row group and place, and a caller that reads the error flag at any moment; one invariant over all steps gives termination and how runs end; the bytes written so far and the footer of the destructor are read by the specification of Parquet.
C109 Area Session. All public calls of the writer as a state machine over the Parquet and Pipeline models; calls in their order simulate the same calls with write (induction over the calls), and an invariant ties the state to the history, which says exactly when calls end in a data race or abort.
C110 Area PyRead. The whole of read_csv over the models of open, read_all and the Python table; outcomes by cases over the arguments, with the theorems on error checking (C99) and on the Python table (C88).
C111 Area Vectors. The vector column writers over the Rle, Plain, Stats and Parquet models; one lemma per page kind on levels and values, with C35, C36, C42 and C64; two columns with the same chunk found by hand.
C112 Area Raw. The reading functions again with every access to the data an explicit indexed read that fails outside; each is shown equal to the list-based model of the other areas, and those to be total, so no read fails.
C113 Area Progress. The bar with 64- and 32-bit arithmetic and checked writes; a small terminal is the specification; induction over the reports with the line on the terminal as invariant.
C114 Area Stderr. The text written by convert composed from the models of error checking, reports, conversion and bar; by cases over the outcome, with C61, C84, C85 and C102.
C115 Area Reprint. The printing of the tool composed with the reading of a written file (C100) and the type inference (C19, C20); the specification says which values are printable and what is left of them.
