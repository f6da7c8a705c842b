(** cmd_convert as a whole: main, the settings (src/cli.cpp 452-487), the conversion (503) and
    the exit code (509-540).  The callback of the progress bar always answers true (41-66), so a
    conversion started here is never cancelled; what it and -v print on standard error is not
    modelled here (see StderrModel).  The file does not change while it is read. *)
From Verif Require Import Base ReaderModel TypesSpec TypesModel ErrorsSpec ErrorsModel CliModel StrictModel CompressSpec MainSpec MainModel ProgramSpec ProgramModel
  MetaSpec MetaModel BuffersModel ParquetModel QueueSpec QueueModel PipelineModel ConvertModel PyConvModel.

(** 474-487. *)
Definition as_parquet (k : codec) : ParquetModel.compression :=
  match k with C_ZSTD => ZSTD | C_SNAPPY => SNAPPY | C_LZ4 => LZ4 | C_GZIP => GZIP | C_NONE => NONE end.
(** 452-472; dictionaries are off by default (options.h:49). *)
Definition options_given (c : CliModel.conversion) (k : codec) : vroom_options :=
  let s := common c in
  VroomOptions (csv_of s) (threads s) (mode_of (error_mode s)) (N.to_nat (max_errors s)) (as_parquet k) (CliModel.row_group c) (threads s) false.

(** How the process ends, and the files it has written and closed (under the name given by -o). *)
Inductive ended : Type := Ended (code : nat) (files : list bytes) | Crashed | Undefined | Viewed.

Section Tool.
Variable library : ParquetModel.compression -> bytes -> option bytes.
Variable below : nat -> nat -> bool.
Variable trace : list (label (Z * list encoded_column)).
Variable ff : bytes -> option N.
Variables (lanes : nat) (clmul : bool) (hw : N) (ne : bool).

(** 503-540.  [os_accepts]: the output can be opened; [capacity]: what the disk has room for. *)
Definition run_convert (w : world) (os_accepts : bool) (capacity : option nat) (c : CliModel.conversion) (k : codec) : ended :=
  match file_at w (in_path (common c)) with
  | inl _ => Ended 1 []
  | inr data =>
      let v := options_given c k in
      match convert_with library below trace ff lanes clmul hw ne v data os_accepts capacity with
      | None => Undefined
      | Some (errors, r) =>
          Ended (match cv_error r with
                 | Some _ => 1
                 | None => match errors, v_mode v with _ :: _, FAIL_FAST => 1 | _, _ => 0 end
                 end) (ps_closed (cv_writer r))
      end
  end.

(** 1159-1218 for these. *)
Definition tool (w : world) (os_accepts : bool) (capacity : option nat) (args : list bytes) : ended :=
  match main args with
  | ShowUsage n => Ended n []
  | ShowVersion => Ended 0 []
  | Refuse => Ended 1 []
  | Throw => Crashed
  | View _ _ => Viewed
  | ConvertFile c k => run_convert w os_accepts capacity c k
  end.
End Tool.
