## Trusted base

* Coq's kernel (8.16.1), including `vm_compute`, which some `_refuted` theorems, `Example`s and finite case analyses use.
* `Print Assumptions` is issued after every property theorem. Actual result: `Closed under the global context` for every theorem except those of ScoreProps.v about C47, C71, C91 and C92, which are about rounding of real numbers and use Flocq (a library without axioms of its own); for these it lists four axioms of the standard library: `ClassicalDedekindReals.sig_not_dec`, `ClassicalDedekindReals.sig_forall_dec`, `FunctionalExtensionality.functional_extensionality_dep` and `Classical_Prop.classic`. No other axiom is used by any theorem. (The gate lists seven constants of `Coq.ssr.ssrunder` because the standard library's ssreflect support is loaded by a standard-library file; no theorem depends on them.)
* The reading of /repo: the model is written by hand, function by function; the code was not built or run. Where a definition simplifies, its comment says so.
* Contracts taken from documentation rather than code: Google Highway's lane operations, `std::sort`, `std::vector`, `std::shared_ptr`, mutex and condition variable semantics of the C++ standard, the thread pool's task queue, POSIX open/fstat/mmap/munmap/close.
* The independent readers (CSV specification, Arrow layout, Thrift compact protocol, Parquet file, PLAIN, RLE, DELTA) are part of the statements and were written from the public format documents.

## Not modelled

* fast_float and printing of doubles (oracles `ff`, `show_float`; binary64 comparisons and dialect scores are exact); compression libraries (parameters with a round-trip contract); the operating system beyond the calls named; memory exhaustion (`std::bad_alloc`); time; progress callbacks other than the bar beyond their return value; verbose output; standard error of commands other than convert and the text of most messages.
* size_t and int64_t counters are unbounded except where a theorem speaks about 2^31, 2^32 or 2^64.
* Reads of the data as indexed accesses (C112) are modelled in area Raw (reading, field parsing, dialect detection); the float parser is an oracle. Writes into output buffers are checked in areas Aligned, Compress, Buffers and Plain only.
* Python bindings beyond what is listed under Files, benchmarks, tests, build files.
