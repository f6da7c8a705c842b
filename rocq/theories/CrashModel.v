(** What a conversion has handed to its output when the process dies (src/reader/csv_reader.cpp
    937-1108, src/writer/parquet_file.cpp 686-1114).  The stream writes what it is given in order;
    when the process dies, a beginning of it is in the file.  Every call only adds to the end, so a
    death within a call leaves a beginning of what is there after the call.  Nothing is written
    before the input has been read (844-937). *)
From Verif Require Import Base ReaderModel TypesSpec TypesModel MetaSpec BuffersModel ParquetModel QueueSpec QueueModel PipelineModel ConvertModel CrashSpec.

(** Where it dies: in open (937), while row groups are written (968-1100) after the steps of the
    two threads in [steps], or in close (1107). *)
Inductive moment : Type := AtOpen | Writing (steps : list (label (Z * list encoded_column))) | AtClose (steps : list (label (Z * list encoded_column))).

Section Crash.
Variable library : compression -> bytes -> option bytes.
Variable below : nat -> nat -> bool.
Variable options : parquet_options.

Definition handed_over (schema : list column_schema) (cs : list (list arrow_column)) (m : moment) : option bytes :=
  let p := do_set_schema (fst (do_open writer_new true None)) schema in
  match m with
  | AtOpen => Some (ps_file p)
  | Writing steps => option_map ps_file (write_chunks library below options steps p schema cs)
  | AtClose steps => option_map (fun p => last (ps_closed (fst (do_close p))) []) (write_chunks library below options steps p schema cs)
  end.

(** None: the conversion does not get that far. *)
Definition at_death (ff : bytes -> option N) (lanes : nat) (clmul : bool) (num_threads : N) (ne : bool) (o : csv_options) (data : bytes) (m : moment)
    : option bytes :=
  match open_file ff lanes clmul o data with
  | None => None
  | Some (names, types, header_end) =>
      match read_all (fun k => append_value ff lanes (nth k types STRING)) lanes clmul (separator o) (quote o)
                     (make_null_checker (null_values o)) num_threads ne (length names) data header_end with
      | None => None
      | Some r => match all_or_none (map (fill_chunk types) (chunks r)) with
                  | None => None
                  | Some cs => handed_over (schema_of names types) cs m
                  end
      end
  end.
End Crash.
