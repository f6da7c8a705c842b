(** The documented arguments of to_parquet (python/src/bindings.cpp:590-629). *)
From Verif Require Import Base ErrorsSpec ParquetModel.

Record arguments : Type := Arguments {
  a_compression : option bytes; a_row_group_size : option N; a_num_threads : option N;
  a_error_mode : option bytes; a_max_errors : option N }.

(** Names of codecs; none given: zstd. *)
Definition codec_names : list (bytes * compression) :=
  [(s2b "zstd", ZSTD); (s2b "snappy", SNAPPY); (s2b "lz4", LZ4); (s2b "gzip", GZIP); (s2b "none", NONE)].
Definition names_codec (a : option bytes) (k : compression) : Prop :=
  match a with None => k = ZSTD | Some n => In (n, k) codec_names end.

(** Names of error modes; none given: disabled; a limit alone means permissive. *)
Definition mode_names : list (bytes * ErrorsSpec.mode) :=
  [(s2b "disabled", DISABLED); (s2b "fail_fast", FAIL_FAST); (s2b "strict", FAIL_FAST); (s2b "permissive", PERMISSIVE); (s2b "best_effort", BEST_EFFORT)].
Definition names_mode (a : option bytes) (limit : option N) (m : ErrorsSpec.mode) : Prop :=
  exists m0, match a with None => m0 = DISABLED | Some n => In (n, m0) mode_names end /\
    m = match m0, limit with DISABLED, Some _ => PERMISSIVE | _, _ => m0 end.
