(** What cmd_convert writes to standard error (src/cli.cpp 492-530) when -v is not given: the
    progress bar, the error text, the list of parse errors.  The error texts are those of
    csv_reader.cpp 297, 317, 917, of MmapSource (kept in the world, see ProgramSpec) and of
    parquet_file.cpp 936.  What -v adds contains times and is not modelled. *)
From Verif Require Import Base ReaderModel TypesSpec TypesModel ErrorsSpec ErrorsModel CliModel StrictModel CompressSpec MainSpec MainModel ProgramSpec ProgramModel
  MetaSpec MetaModel BuffersModel ParquetModel QueueSpec QueueModel PipelineModel ConvertModel PyConvModel ToolModel ReportSpec ReportModel ProgressModel.

(** result.error; [data] is the content of the input.  An input that is not empty is refused by
    open for its header only (csv_reader.cpp 311-319). *)
Definition error_text (output data : bytes) (f : failure) : bytes :=
  match f with
  | InputFailed => match data with [] => s2b "Empty file" | _ => s2b "Header row is empty" end
  | CancelledByUser => s2b "Cancelled by user"
  | OutputFailed => s2b "Failed to open file for writing: " ++ output
  end.

(** 492-510: nothing without -p. *)
Definition bar_of (asked tty : bool) (r : ConvertModel.conversion) : option bytes :=
  if asked then drawn tty r else Some [].

Section Stderr.
Variable library : ParquetModel.compression -> bytes -> option bytes.
Variable below : nat -> nat -> bool.
Variable trace : list (label (Z * list encoded_column)).
Variable ff : bytes -> option N.
Variables (lanes : nat) (clmul : bool) (hw : N) (ne : bool).

(** 503-530.  [tty]: standard error is a terminal.  None: undefined. *)
Definition convert_says (w : world) (tty os_accepts : bool) (capacity : option nat) (c : CliModel.conversion) (k : codec) : option bytes :=
  let asked := progress (common c) in
  match file_at w (in_path (common c)) with
  | inl message => option_map (fun b => b ++ cli_report (Some message) []) (bar_of asked tty (Conversion (Some InputFailed) 0 0 writer_new))
  | inr data =>
      let v := options_given c k in
      match convert_with library below trace ff lanes clmul hw ne v data os_accepts capacity with
      | None => None
      | Some (errors, r) =>
          let reports := map reader_report errors in
          option_map (fun b => b ++
              match cv_error r with
              | Some f => cli_report (Some (error_text (out_path c) data f)) reports
              | None => match v_mode v with DISABLED => [] | _ => cli_report None reports end
              end) (bar_of asked tty r)
      end
  end.
Definition told (w : world) (tty os_accepts : bool) (capacity : option nat) (args : list bytes) : option bytes :=
  match main args with
  | ConvertFile c k => if verbose (common c) then None else convert_says w tty os_accepts capacity c k
  | _ => None
  end.
End Stderr.
