(** Model of the life of a CsvReader object: which memory it points to, and
    what its schema is after a history of calls (src/reader/csv_reader.cpp:254-498).
    Error collection is disabled, as by default. *)
From Verif Require Import Base TypesSpec WordsModel ChunkModel FieldsModel NumModel DateModel ReaderModel TypesModel MmapSpec MmapModel LifeSpec.

(** Where CsvReader::Impl::data_ptr points (line 258): nowhere, to a mapping,
    or into the g-th buffer the reader has owned. *)
Inductive place := NullPtr | InMap (a : nat) | InBuffer (g : nat).

(** CsvReader::Impl, lines 254-265; row_count and the error collector are left
    out.  [owned] is the current owned_buffer, [generation] counts the buffers
    moved in. *)
Record reader := mkReader {
  source_of : source;
  owned : bytes;
  generation : nat;
  ptr : place;
  data_size : nat;
  names : list bytes;
  types : list data_type;
  header_end : nat
}.

Definition new_reader : reader := mkReader new_source [] 0 NullPtr 0 [] [] 0.

Inductive verdict := Succeeds | Fails | Undefined.

Section Life.
Context {F : Type}.
Variable ff : bytes -> option F.
Variables (lanes : nat) (clmul : bool) (num_threads : N) (ne_in : bool) (o : csv_options).

(** Lines 300-390 (and 406-496, the same code): the columns found are pushed
    behind those already in the schema, and types are inferred for all of
    them. *)
Definition extend_schema (old : list bytes) (content : bytes) : option (list bytes * list data_type * nat) :=
  match find_row_end lanes clmul (quote o) content 0 with
  | None => None
  | Some first_end =>
      let found := if has_header o then parse_header (separator o) (quote o) (slice 0 first_end content)
                   else map (fun i => 86%N :: decimal_digits (S i) (S i))
                            (seq 0 (count_columns (separator o) (quote o) (slice 0 first_end content) false 1)) in
      let he := if has_header o then first_end else 0 in
      match infer_from_sample ff lanes clmul o (skipn he content) (length (old ++ found)) (sample_rows o) with
      | None => None
      | Some ts => Some (old ++ found, ts, he)
      end
  end.

(** The rest of open and open_from_buffer, once data_ptr and data_size are
    set: lines 294-390, 402-498. *)
Definition look_at (content : bytes) (r : reader) : reader * verdict :=
  if data_size r =? 0 then (r, Fails)
  else match extend_schema (names r) content with
       | None => (r, Undefined)
       | Some (ns, ts, he) =>
           (mkReader (source_of r) (owned r) (generation r) (ptr r) (data_size r) ns ts he, Succeeds)
       end.

(** The bytes of the file the system gave. *)
Definition content_of (a : answer) : bytes := match a with Works _ _ c => c | _ => [] end.

(** CsvReader::open, lines 283-391 *)
Definition open_path (a : answer) (r : reader) : list event * reader * verdict :=
  let '(ev, s, ok) := open a (source_of r) in
  if negb ok then
    (ev, mkReader s (owned r) (generation r) (ptr r) (data_size r) (names r) (types r) (header_end r), Fails)
  else
    let p := match data s with None => NullPtr | Some x => InMap x end in
    let (r', v) := look_at (content_of a)
      (mkReader s (owned r) (generation r) p (size s) (names r) (types r) (header_end r)) in
    (ev, r', v).

(** CsvReader::open_from_buffer, lines 393-498 *)
Definition open_buffer (b : bytes) (r : reader) : reader * verdict :=
  look_at b (mkReader (source_of r) b (S (generation r)) (InBuffer (S (generation r))) (length b)
                      (names r) (types r) (header_end r)).

(** What is mapped after the calls [evs]. *)
Definition mapped_now (evs : list event) : list (nat * bytes) :=
  fold_left (fun m e => match e with
                        | Mapped a c => (a, c) :: m
                        | Unmapped a _ => filter (fun x => negb (fst x =? a)) m
                        | _ => m
                        end) evs [].

Fixpoint look_up (m : list (nat * bytes)) (a : nat) : option bytes :=
  match m with
  | [] => None
  | (x, c) :: r => if x =? a then Some c else look_up r a
  end.

(** The memory behind data_ptr: None if it is not alive. *)
Definition behind (evs : list event) (r : reader) : option bytes :=
  match ptr r with
  | NullPtr => Some []
  | InMap a => look_up (mapped_now evs) a
  | InBuffer g => if g =? generation r then Some (owned r) else None
  end.

(** CsvReader::read_all, lines 516-713: undefined when the memory is gone or
    too short.  If a smaller input was opened after the header was found,
    [size - data_start] (line 526) wraps around; then no chunk range is found
    (line 548), the serial path is taken (568) and finds no row, which is what
    [read_all] computes with natural numbers. *)
Inductive reading := Reads (r : @read_result (@value F)) | Bad.
Definition read (evs : list event) (r : reader) : reading :=
  match names r with
  | [] => Reads (mkRead [] 0 0)
  | _ =>
      match behind evs r with
      | None => Bad
      | Some content =>
               if length content <? data_size r then Bad
               else match read_all (fun k => append_value ff lanes (nth k (types r) STRING)) lanes clmul
                            (separator o) (quote o) (make_null_checker (null_values o)) num_threads ne_in
                            (length (names r)) (firstn (data_size r) content) (header_end r) with
                    | Some x => Reads x
                    | None => Bad
                    end
      end
  end.

(** A history of one reader: what its calls returned, the system calls made,
    and the reader. *)
Definition use_step (w : list verdict * list event * reader) (u : use) : list verdict * list event * reader :=
  let '(vs, evs, r) := w in
  match u with
  | Path a => let '(ev, r', v) := open_path a r in (vs ++ [v], evs ++ ev, r')
  | Buffer b => let (r', v) := open_buffer b r in (vs ++ [v], evs, r')
  end.
Definition live (us : list use) : list verdict * list event * reader :=
  fold_left use_step us ([], [], new_reader).
End Life.
