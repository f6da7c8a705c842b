(** The write pipeline when its writer thread throws (src/writer/parquet_file.cpp 971-1050, used at
    src/reader/csv_reader.cpp 968-1100).
    write_encoded_row_group can throw where it allocates memory: while it builds the record of a
    column (723-764), whose pages are written by then, or when it appends the row group to the list
    (769-770), after the rows are counted.  Writing itself (686-689) does not throw.
    Not modelled: exceptions in the caller's thread, which leave convert_csv_to_parquet through the
    destructor of the writer. *)
From Verif Require Import Base MetaSpec QueueSpec QueueModel ParquetModel PipelineModel.

(** 983-995: the groups are written one after another; the one with number [n] throws, whereupon the
    flag is set, the queue is closed and the thread ends. *)
Definition failing {A} (n : nat) : client A := fun h =>
  match last_result h with
  | Some (Popped None) | Some Done => None
  | _ => if n <? length (delivered h) then Some Close else Some Pop
  end.
(** 1000-1034, with 1006-1010: [notices i] = the flag is read as true at the start of the submit
    number i.  The caller returns (csv_reader.cpp 1048-1051) on the first failed submit. *)
Definition submitting_until {A} (notices : nat -> bool) (groups : list A) : client A := fun h =>
  match last_result h with
  | Some (Pushed false) => None
  | _ => if (length h <? length groups) && notices (length h) then None else nth_error (map Push groups ++ [Close]) (length h)
  end.
Definition broken_pipeline {A} (n : nat) (notices : nat -> bool) (groups : list A) : system A :=
  start [submitting_until notices groups; failing n].

(** The flag is not read as true before it is set (988), that is before the throwing group is taken. *)
Definition flag_was_set {A} (n : nat) (notices : nat -> bool) (groups : list A) (trace : list (label A)) : Prop :=
  length (events_of 0 trace) < length groups -> notices (length (events_of 0 trace)) = true -> n < length (delivered (events_of 1 trace)).

(** How the call ends.  finish_pipeline is reached when all submits succeeded; it joins the thread
    and looks at the flag (1037-1047).  Otherwise the writer object is destroyed with its thread
    not joined: std::terminate. *)
Inductive fate : Type := Success | ErrorReported | ProcessAborts.
Definition closes {A} (c : call A * result A) : bool := match fst c with Close => true | _ => false end.
Definition fate_of {A} (n : nat) (trace : list (label A)) : fate :=
  if existsb closes (events_of 0 trace) then
    if n <? length (delivered (events_of 1 trace)) then ErrorReported else Success
  else ProcessAborts.

Inductive place : Type := InColumn (j : nat) | AtTheEnd.
(** 695-771, up to the exception. *)
Definition broken_group (p : pstate) (g : Z * list encoded_column) (at_ : place) : pstate :=
  match at_ with
  | InColumn j => fst (fst (fst (fold_left write_column (firstn (S j) (snd g)) (p, [], 0%Z, 0%Z))))
  | AtTheEnd =>
      let p1 := fst (fst (fst (fold_left write_column (snd g) (p, [], 0%Z, 0%Z)))) in
      PState (ps_open p1) (ps_failed p1) (ps_file p1) (ps_capacity p1) (ps_closed p1) (ps_schema p1) (ps_offset p1) (ps_groups p1) (ps_rows p1 + fst g)
  end.
(** The writer object when the call ends, for the groups taken from the queue; then close is
    called, by convert (1107) or by the destructor (925-929). *)
Definition left_behind (p : pstate) (n : nat) (at_ : place) (taken : list (Z * list encoded_column)) : pstate :=
  let p1 := written p (firstn n taken) in
  fst (do_close (match nth_error taken n with None => p1 | Some g => broken_group p1 g at_ end)).

(** A conversion that uses the queue (two or more chunks) and whose row group number [n] throws:
    how it ends, and the writer with the file it has closed (csv_reader.cpp 831-1134). *)
From Verif Require Import ReaderModel TypesSpec TypesModel BuffersModel ConvertModel.
Definition convert_failing (library : compression -> bytes -> option bytes) (below : nat -> nat -> bool) (options : parquet_options)
    (n : nat) (at_ : place) (trace : list (label (Z * list encoded_column)))
    (ff : bytes -> option N) (lanes : nat) (clmul : bool) (num_threads : N) (ne : bool) (o : csv_options) (data : bytes) : option (fate * pstate) :=
  match open_file ff lanes clmul o data, queue_input library below options ff lanes clmul num_threads ne o data with
  | Some (names, types, _), Some _ =>
      let p := do_set_schema (fst (do_open writer_new true None)) (schema_of names types) in
      Some (fate_of n trace, left_behind p n at_ (delivered (events_of 1 trace)))
  | _, _ => None
  end.
