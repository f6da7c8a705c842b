(** The thread pool as used by CsvReader::read_all (src/reader/csv_reader.cpp:572-624,
    656-702): BS::thread_pool with [workers] threads, submit_task for every chunk in
    order, then f.get() on every future.
    A task is a local state advanced by [step] until it delivers its result into its
    own slot (analysis_results[chunk_idx], chunk_results[chunk_idx]); tasks capture
    their inputs by value or read the file buffer, which nobody writes.  A schedule
    is the list of workers in the order in which they act; an idle worker takes the
    first task of the queue, a busy one performs one step of its task.
    Simplified: submission happens before any worker acts (submit_task never waits
    and tasks do not depend on later submissions); exceptions are not modelled. *)
From Verif Require Import Base WordsModel ChunkModel FieldsModel ReaderModel.

Inductive task_state (S R : Type) : Type := Running (s : S) | Finished (r : R).
Arguments Running {S R}. Arguments Finished {S R}.

Record pool (S R : Type) : Type :=
  mkPool { queue : list nat; workers : list (option nat); slots : list (task_state S R) }.
Arguments mkPool {S R}. Arguments queue {S R}. Arguments workers {S R}. Arguments slots {S R}.

Fixpoint set_nth {A} (k : nat) (x : A) (l : list A) : list A :=
  match k, l with
  | _, [] => []
  | O, _ :: r => x :: r
  | S k', y :: r => y :: set_nth k' x r
  end.

Section Pool.
Context {S R : Type}.
Variable step : S -> S + R.

Definition start_pool (nworkers : nat) (tasks : list S) : pool S R :=
  mkPool (seq 0 (length tasks)) (repeat None nworkers) (map Running tasks).

Definition act (p : pool S R) (w : nat) : pool S R :=
  match nth_error (workers p) w with
  | None => p
  | Some None =>
      match queue p with
      | [] => p
      | k :: q => mkPool q (set_nth w (Some k) (workers p)) (slots p)
      end
  | Some (Some k) =>
      match nth_error (slots p) k with
      | Some (Running s) =>
          match step s with
          | inl s' => mkPool (queue p) (workers p) (set_nth k (Running s') (slots p))
          | inr r => mkPool (queue p) (set_nth w None (workers p)) (set_nth k (Finished r) (slots p))
          end
      | _ => mkPool (queue p) (set_nth w None (workers p)) (slots p)
      end
  end.

Definition run_pool (sched : list nat) (p : pool S R) : pool S R := fold_left act sched p.

(** All futures ready (621-623, 699-701): the results in slot order. *)
Fixpoint collect (l : list (task_state S R)) : option (list R) :=
  match l with
  | [] => Some []
  | Finished r :: rest => match collect rest with Some rs => Some (r :: rs) | None => None end
  | Running _ :: _ => None
  end.
End Pool.

(** ** The two parallel phases of read_all *)

(** Phase 1 task (602-618): the analysis of one chunk, as one step. *)
Definition analysis_step (lanes : nat) (clmul : bool) (q : byte) (c : bytes) : bytes + option dual :=
  inr (analyze_chunk_dual_state_simd lanes clmul c q).

Section Parse.
Context {V : Type}.
Variable conv : nat -> bytes -> option V.
Variables (lanes : nat) (clmul : bool) (sep q : byte) (nc : null_checker).
Local Notation columns := (list (list (option V))).

(** Phase 3 task (672-696): [Ready] has its inputs; [Rows] is at the head of the row
    loop of parse_chunk_with_state (178), holding remaining bytes, columns, rows. *)
Inductive parse_task : Type :=
| Ready (data : bytes) (cols : columns) (start_inside : bool)
| Rows (l : bytes) (cols : columns) (rows : nat).

Definition parse_step (ne_in : bool) (t : parse_task) : parse_task + option (columns * nat) :=
  match t with
  | Ready data cols start_inside =>
      if (length data =? 0) || (length cols =? 0) then inr (Some (cols, 0))
      else inl (Rows (if start_inside then let '(in_quote, r) := skip_quoted q data in skip_row q in_quote r
                      else data) cols 0)
  | Rows l cols rows =>
      match l with
      | [] => inr (Some (cols, rows))
      | _ =>
          match skip_empty l with
          | [] => inr (Some (cols, rows))
          | l' =>
              match row_fields lanes clmul sep q LF l' ne_in with
              | None => inr None
              | Some (fields, rest) =>
                  let '(col_idx, cols') := fields_into conv q nc fields 0 cols in
                  inl (Rows rest (fill_nulls (length cols - col_idx) col_idx cols') (rows + 1))
              end
          end
      end
  end.

(** 572-712 under schedules for the two phases; [None] when a phase does not
    complete or a task runs into undefined behaviour. *)
Definition read_chunks_sched (nworkers : nat) (sched1 sched3 : list nat) (ne_in : bool) (ncols : nat)
           (data : bytes) (ranges : list (nat * nat)) : option (read_result (V := V)) :=
  match collect (slots (run_pool (analysis_step lanes clmul q) sched1
                          (start_pool nworkers (map (fun '(s, e) => slice s e data) ranges)))) with
  | None => None
  | Some analyses =>
      match map_option (fun x => x) analyses with
      | None => None
      | Some ds =>
          let tasks := map (fun '(r, st) => Ready (slice (fst r) (snd r) data) (empty_columns ncols) st)
                           (combine ranges (link_states false ds)) in
          match collect (slots (run_pool (parse_step ne_in) sched3 (start_pool nworkers tasks))) with
          | None => None
          | Some results =>
              match map_option (fun x => x) results with
              | None => None
              | Some rs => Some (mkRead (map fst rs) (fold_left Nat.add (map snd rs) 0) (total_row_count ds))
              end
          end
      end
  end.
End Parse.
