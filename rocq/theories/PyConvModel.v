(** Python's to_parquet and to_arrow_ipc (python/src/bindings.cpp:346-445), and the Arrow
    IPC writer (src/writer/arrow_ipc_writer.cpp). *)
From Verif Require Import Base TypesSpec WordsModel ChunkModel FieldsModel NumModel DateModel ReaderModel TypesModel ErrorsSpec ErrorsModel CliModel StrictModel
  MetaSpec MetaModel BuffersModel ParquetModel QueueSpec QueueModel PipelineModel ConvertModel PyConvSpec.

Definition named {A} (n : bytes) (s : string) (a : A) (otherwise : option A) : option A := if is n s then Some a else otherwise.

(** 357-373; ParquetOptions' default is zstd (options.h:42) *)
Definition parse_compression (a : option bytes) : option compression :=
  match a with
  | None => Some ZSTD
  | Some n => named n "zstd" ZSTD (named n "snappy" SNAPPY (named n "lz4" LZ4 (named n "gzip" GZIP (named n "none" NONE None))))
  end.
(** 384-398, the same in read_csv, 269-283 *)
Definition parse_mode (a : option bytes) : option ErrorsSpec.mode :=
  match a with
  | None => Some DISABLED
  | Some n => named n "disabled" DISABLED (if is n "fail_fast" || is n "strict" then Some FAIL_FAST
              else named n "permissive" PERMISSIVE (named n "best_effort" BEST_EFFORT None))
  end.
(** 399-405; DEFAULT_MAX_ERRORS is 10000 (error.h:219) *)
Definition with_limit (m : ErrorsSpec.mode) (max_errors : option N) : ErrorsSpec.mode * nat :=
  match max_errors with
  | None => (m, N.to_nat 10000)
  | Some n => (match m with DISABLED => PERMISSIVE | _ => m end, N.to_nat n)
  end.

(** VroomOptions as far as to_parquet sets them (353-405, options.h). *)
Record vroom_options : Type := VroomOptions {
  v_csv : csv_options; v_csv_num_threads : N; v_mode : ErrorsSpec.mode; v_limit : nat;
  v_compression : compression; v_row_group_size : N; v_threads : N; v_dictionary : bool }.
Definition set_options (a : arguments) : option vroom_options :=
  match parse_compression (a_compression a) with
  | None => None
  | Some k =>
      match parse_mode (a_error_mode a) with
      | None => None
      | Some m =>
          let (m', limit) := with_limit m (a_max_errors a) in
          Some (VroomOptions default_options 0 m' limit k
                  (match a_row_group_size a with Some n => n | None => 1000000 end)
                  (match a_num_threads a with Some n => n | None => 0 end) false)
      end
  end.

(** What Python sees: a bad argument; a failed conversion with the errors listed in the
    exception; or none, and the files of the writer. *)
Inductive py_outcome : Type := BadArgument | Raises (listed : list error) | Returns (w : pstate).

Section ToParquet.
Variable library : compression -> bytes -> option bytes.
Variable below : nat -> nat -> bool.
Variable trace : list (label (Z * list encoded_column)).
Variable ff : bytes -> option N.
Variables (lanes : nat) (clmul : bool) (hardware_threads : N) (ne_in : bool).

(** csv_reader.cpp:527-530: 0 means as many as the machine has *)
Definition reader_threads (v : vroom_options) : N := if (v_csv_num_threads v =? 0)%N then hardware_threads else v_csv_num_threads v.

(** convert_csv_to_parquet with error handling: [convert] after the checks of open
    (see StrictModel.convert_errors); None: undefined behaviour. *)
Definition convert_with (v : vroom_options) (data : bytes) (os_accepts : bool) (capacity : option nat) : option (list error * conversion) :=
  let (errors, goes_on) := convert_errors ff lanes clmul (reader_threads v) ne_in (v_csv v) (v_mode v) (v_limit v) data in
  if goes_on then
    match convert library below (Options (v_compression v) (v_dictionary v)) trace ff lanes clmul (reader_threads v) ne_in (v_csv v) data true os_accepts capacity with
    | Some c => Some (errors, c)
    | None => None
    end
  else Some (errors, Conversion (Some InputFailed) 0 0 writer_new).

(** 346-424 *)
Definition to_parquet (a : arguments) (data : bytes) (os_accepts : bool) (capacity : option nat) : option py_outcome :=
  match set_options a with
  | None => Some BadArgument
  | Some v =>
      match convert_with v data os_accepts capacity with
      | None => None
      | Some (errors, c) => match cv_error c with Some _ => Some (Raises errors) | None => Some (Returns (cv_writer c)) end
      end
  end.
End ToParquet.

(** ** Arrow IPC (arrow_ipc_writer.cpp) *)
(** Impl, 27-35; [i_file] is the content of the file opened last, if any. *)
Record ipc_writer : Type := IpcWriter { i_open : bool; i_rows : N; i_batches : N; i_bytes : N; i_file : option bytes }.
Definition new_ipc : ipc_writer := IpcWriter false 0 0 0 None.
Inductive ipc_call : Type := IpcOpen (accepted : bool) | IpcWriteBatch (rows : nat) | IpcWriteChunks (rows : nat) | IpcClose.
(** 49-90: the writer and whether success is reported.  Opening an open stream again
    fails (std::basic_filebuf::open) without a change. *)
Definition ipc_step (w : ipc_writer) (c : ipc_call) : ipc_writer * bool :=
  match c with
  | IpcOpen accepted =>
      if i_open w then (w, true)   (* file.open sets failbit, is_open() stays true: 51 *)
      else if accepted then (IpcWriter true (i_rows w) (i_batches w) (i_bytes w) (Some []), true)
      else (w, false)
  | IpcWriteBatch _ | IpcWriteChunks _ => (w, false)
  | IpcClose => (IpcWriter false (i_rows w) (i_batches w) (i_bytes w) (i_file w), true)   (* error is empty *)
  end.
Fixpoint ipc_run (w : ipc_writer) (cs : list ipc_call) : ipc_writer * list bool :=
  match cs with
  | [] => (w, [])
  | c :: r => let (w', ok) := ipc_step w c in let (w'', oks) := ipc_run w' r in (w'', ok :: oks)
  end.
(** 97-112 and bindings.cpp:426-445: always an exception, before any file is touched. *)
Definition to_arrow_ipc (input : bytes) : py_outcome := Raises [].
