(** Python's read_csv with its arguments and its exceptions, python/src/bindings.cpp:252-340.
    The conversion of Python strings to a char is pybind11's and not modelled. *)
From Verif Require Import Base TypesSpec WordsModel ChunkModel FieldsModel NumModel DateModel ReaderModel TypesModel ErrorsSpec ErrorsModel CliModel StrictModel
  PySpec PyModel PyConvSpec PyConvModel PyReadSpec.

(** 259-291: the options of the reader; None: unknown error_mode. *)
Record reader_options : Type := ReaderOptions { ro_csv : csv_options; ro_num_threads : N; ro_mode : ErrorsSpec.mode; ro_limit : nat }.
Definition set_separator (o : csv_options) (c : byte) : csv_options :=
  mkOptions c (quote o) (has_header o) (null_values o) (true_values o) (false_values o) (sample_rows o).
Definition set_quote (o : csv_options) (c : byte) : csv_options :=
  mkOptions (separator o) c (has_header o) (null_values o) (true_values o) (false_values o) (sample_rows o).
Definition set_has_header (o : csv_options) (b : bool) : csv_options :=
  mkOptions (separator o) (quote o) b (null_values o) (true_values o) (false_values o) (sample_rows o).
Definition reader_options_of (a : read_arguments) : option reader_options :=
  let o0 := default_options in
  let o1 := match ra_separator a with Some c => set_separator o0 c | None => o0 end in
  let o2 := match ra_quote a with Some c => set_quote o1 c | None => o1 end in
  let o3 := set_has_header o2 (ra_has_header a) in
  let threads := match ra_num_threads a with Some n => n | None => 0%N end in
  match parse_mode (ra_error_mode a) with
  | None => None
  | Some m => let (m', limit) := with_limit m (ra_max_errors a) in Some (ReaderOptions o3 threads m' limit)
  end.

(** What Python sees; an exception lists the errors collected (298-304, 312-318). *)
Inductive read_outcome {F : Type} : Type := ReadBadArgument | ReadRaises (listed : list error) | ReadReturns (t : @table F).
Arguments read_outcome : clear implicits.

Section Read.
Context {F : Type}.
Variable ff : bytes -> option F.
Variables (lanes : nat) (clmul : bool) (hardware_threads : N) (ne_in : bool).

(** [file]: None if it cannot be opened or mapped (csv_reader.cpp:284-287). *)
Definition py_read_csv (a : read_arguments) (file : option bytes) : read_outcome F :=
  match reader_options_of a with
  | None => ReadBadArgument
  | Some v =>
      let threads := if (ro_num_threads v =? 0)%N then hardware_threads else ro_num_threads v in   (* csv_reader.cpp:527-530 *)
      match file with
      | None => ReadRaises []
      | Some content =>
          match read_checked ff lanes clmul threads ne_in (ro_csv v) (ro_mode v) (ro_limit v) content with
          | (errors, None) => ReadRaises errors
          | (_, Some (names, types, r)) => ReadReturns (table_of names types r)
          end
      end
  end.
End Read.
