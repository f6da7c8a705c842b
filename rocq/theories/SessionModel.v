(** All public calls of ParquetWriter together (src/writer/parquet_file.cpp 921-1116,
    include/libvroom/vroom.h 250-275), made by one thread, in any order; exceptions are in FailModel.
    Between start_pipeline and finish_pipeline the writer thread (983-995) touches the stream, the
    offset, the row groups and the row count while it writes a row group it has taken; nothing
    orders this before the caller's next call other than finish_pipeline.  So a call that touches
    them after a row group was handed over is a data race. *)
From Verif Require Import Base TypesSpec MetaSpec BuffersModel ParquetModel QueueSpec QueueModel PipelineModel.

Inductive wop : Type :=
| WOpen (os_accepts : bool) (capacity : option nat)
| WSetSchema (schema : list column_schema)
| WWrite (columns : list arrow_column)
| WStart
| WSubmit (columns : list arrow_column)
| WFinish
| WClose.

(** [ws_queue]: pipeline_queue_ and writer_thread_ (660-661), set together (977-983) and reset
    together (1043-1044); the row groups handed over so far. *)
Record wstate : Type := WState { ws_writer : pstate; ws_queue : option (list (Z * list encoded_column)) }.
Definition session_new : wstate := WState writer_new None.

(** Undefined: columns that do not fit the schema (as in ParquetModel).  Broken: a data race, a
    queue destroyed while its thread waits in it, or std::terminate. *)
Inductive stepped (A : Type) : Type := Gives (a : A) | Undefined | Broken.
Arguments Gives {A}. Arguments Undefined {A}. Arguments Broken {A}.

Section Session.
Variable library : compression -> bytes -> option bytes.
Variable below : nat -> nat -> bool.
Variable options : parquet_options.

(** Has the writer thread something to write? *)
Definition busy (s : wstate) : bool := match ws_queue s with Some (_ :: _) => true | _ => false end.
Definition plain (s : wstate) (r : option (pstate * bool)) : stepped (wstate * bool) :=
  match r with None => Undefined | Some (p, ok) => Gives (WState p (ws_queue s), ok) end.

(** What the writer thread does with what it takes from the queue (986).  Writing to a closed
    stream fails (686-689). *)
Definition thread_writes (p : pstate) (taken : list (Z * list encoded_column)) : pstate :=
  written (if ps_open p then p
           else PState false true (ps_file p) (ps_capacity p) (ps_closed p) (ps_schema p) (ps_offset p) (ps_groups p) (ps_rows p)) taken.

(** [trace]: what happens in the queue if this call is finish_pipeline. *)
Definition wstep (trace : list (Z * list encoded_column) -> list (label (Z * list encoded_column))) (s : wstate) (o : wop) : stepped (wstate * bool) :=
  let p := ws_writer s in
  match o with
  | WOpen ok cap => if busy s then Broken else plain s (pstep library below options p (POpen ok cap))
  | WSetSchema schema => plain s (pstep library below options p (PSetSchema schema))
  | WWrite columns =>
      (* 951-957 come first *)
      match columns with
      | [] => plain s (pstep library below options p (PWrite columns))
      | _ => if ps_open p && busy s then Broken else plain s (pstep library below options p (PWrite columns))
      end
  | WClose => if ps_open p && busy s then Broken else plain s (pstep library below options p PClose)
  | WStart =>   (* 971-998 *)
      if negb (ps_open p) then Gives (s, false)
      else match ws_queue s with Some _ => Broken | None => Gives (WState p (Some []), true) end
  | WSubmit columns =>   (* 1000-1026; the queue accepts (C40) and is never closed before finish_pipeline *)
      match ws_queue s with
      | None => Gives (s, false)
      | Some groups =>
          match columns with
          | [] => Gives (s, true)
          | a :: _ => match encode_columns library below options columns (ps_schema p) with
                      | None => Undefined
                      | Some e => Gives (WState p (Some (groups ++ [(Z.of_nat (ac_size a), e)])), true)
                      end
          end
      end
  | WFinish =>   (* 1028-1050 *)
      match ws_queue s with
      | None => Gives (s, false)
      | Some groups => Gives (WState (thread_writes p (delivered (events_of 1 (trace groups)))) None, true)
      end
  end.
(** The calls one after another: the state at the end and what each call reported. *)
Fixpoint wrun (traces : nat -> list (Z * list encoded_column) -> list (label (Z * list encoded_column))) (s : wstate) (ops : list wop)
    : stepped (wstate * list bool) :=
  match ops with
  | [] => Gives (s, [])
  | o :: r => match wstep (traces (length r)) s o with
              | Gives (s', ok) => match wrun traces s' r with
                                  | Gives (s'', oks) => Gives (s'', ok :: oks)
                                  | Undefined => Undefined
                                  | Broken => Broken
                                  end
              | Undefined => Undefined
              | Broken => Broken
              end
  end.
(** ... and then the object is destroyed (925-929): close if open; a thread that is not joined ends
    the process. *)
Definition lifetime (traces : nat -> list (Z * list encoded_column) -> list (label (Z * list encoded_column))) (ops : list wop) : stepped (pstate * list bool) :=
  match wrun traces session_new ops with
  | Gives (s, oks) => match ws_queue s with
                      | Some _ => Broken
                      | None => Gives (if ps_open (ws_writer s) then fst (do_close (ws_writer s)) else ws_writer s, oks)
                      end
  | Undefined => Undefined
  | Broken => Broken
  end.
End Session.
