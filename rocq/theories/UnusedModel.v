(** Model of CsvOptions (include/libvroom/options.h 13-37) with the members no code
    reads: no other line of include/, src/ or python/ mentions options.escape,
    .comment, .skip_empty_rows, .chunk_size, .columns or .column_indices. *)
From Verif Require Import Base TypesSpec WordsModel ChunkModel FieldsModel NumModel ReaderModel TypesModel.

Record all_options := mkAll {
  used : csv_options;            (* separator, quote, has_header, the value lists, sample_rows *)
  escape : byte; comment : byte; skip_empty_rows : bool; chunk_size : N;
  columns : list bytes; column_indices : list nat
}.
(** The default member initialisers, lines 16-31. *)
Definition all_defaults : all_options := mkAll default_options 92%N 0%N true 0%N [] [].

(** CsvReader(options), open and read_all (src/reader/csv_reader.cpp 283-713). *)
Definition read_with {F} (ff : bytes -> option F) (lanes : nat) (clmul : bool) (num_threads : N) (ne : bool)
    (a : all_options) (c : bytes) : option (list bytes * list data_type * @read_result (@value F)) :=
  read_file ff lanes clmul num_threads ne (used a) c.
