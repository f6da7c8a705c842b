(** The documented arguments of Python's read_csv (python/src/bindings.cpp:538-582). *)
From Verif Require Import Base TypesSpec ErrorsSpec PyConvSpec.

Record read_arguments : Type := ReadArguments {
  ra_separator : option byte; ra_quote : option byte; ra_has_header : bool; ra_num_threads : option N;
  ra_error_mode : option bytes; ra_max_errors : option N }.

(** How the file is to be read: a comma, double quotes and a header unless said otherwise. *)
Definition asked_options (a : read_arguments) : csv_options :=
  mkOptions (match ra_separator a with Some c => c | None => COMMA end) (match ra_quote a with Some c => c | None => DQ end) (ra_has_header a)
    (null_values default_options) (true_values default_options) (false_values default_options) (sample_rows default_options).
Definition asked_threads (hardware_threads : N) (a : read_arguments) : N :=
  match ra_num_threads a with None | Some 0%N => hardware_threads | Some n => n end.
(** No such error mode. *)
Definition bad_mode (a : read_arguments) : Prop := exists n, ra_error_mode a = Some n /\ forall m, ~ In (n, m) mode_names.
(** The error modes that stop at a fatal error. *)
Definition stopping (a : read_arguments) : Prop := names_mode (ra_error_mode a) (ra_max_errors a) FAIL_FAST \/ names_mode (ra_error_mode a) (ra_max_errors a) PERMISSIVE.
