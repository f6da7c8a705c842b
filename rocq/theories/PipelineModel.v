(** The write pipeline: ParquetWriter::start_pipeline, submit_row_group, finish_pipeline
    (src/writer/parquet_file.cpp:971-1050) around the queue.
    The caller's thread: every submit encodes a row group and pushes it, stopping if the push is
    refused (1021-1023); finish closes the queue (1034) and joins the writer thread.
    The writer thread (983-995): pops until there is nothing more, writing each row group; the
    file, row group list and offsets are touched by this thread only between start and join.
    Exceptions in the writer thread (allocation failure) are in FailModel. *)
From Verif Require Import Base MetaSpec QueueSpec QueueModel ParquetModel.

Definition last_result {A} (h : list (call A * result A)) : option (result A) :=
  match rev h with [] => None | (_, r) :: _ => Some r end.
(** 1000-1034 *)
Definition submitting {A} (groups : list A) : client A := fun h =>
  match last_result h with
  | Some (Pushed false) => None
  | _ => nth_error (map Push groups ++ [Close]) (length h)
  end.
(** 984 *)
Definition writing {A} : client A := fun h =>
  match last_result h with Some (Popped None) => None | _ => Some Pop end.
Definition pipeline {A} (groups : list A) : system A := start [submitting groups; writing].
(** 977 *)
Definition pipeline_capacity : nat := 4.

(** 1012-1018: empty column lists are skipped; encoding reads schema and options only. *)
Fixpoint encode_groups (library : compression -> bytes -> option bytes) (below : nat -> nat -> bool) (options : parquet_options)
    (schema : list column_schema) (groups : list (list arrow_column)) : option (list (Z * list encoded_column)) :=
  match groups with
  | [] => Some []
  | [] :: r => encode_groups library below options schema r
  | (a :: _) as columns :: r =>
      match encode_columns library below options columns schema, encode_groups library below options schema r with
      | Some e, Some l => Some ((Z.of_nat (ac_size a), e) :: l)
      | _, _ => None
      end
  end.
(** 986: the state of the writer object after the groups taken from the queue are written. *)
Definition written (p : pstate) (groups : list (Z * list encoded_column)) : pstate :=
  fold_left (fun p g => write_encoded_row_group p (fst g) (snd g)) groups p.
