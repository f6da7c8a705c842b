(** What the program shows for a documented command line. *)
From Verif Require Import Base NumSpec ReaderSpec ReaderModel TypesSpec TypesModel RoundSpec CliSpec CliModel ShowSpec MainSpec.

(** Standard input, and for every path the content of the file or the reason it cannot be had. *)
Record world := World { standard_input : bytes; file_at : bytes -> bytes + bytes }.

(** The options the items describe; everything not settable on the command line has its default. *)
Definition options_of (items : list item) : csv_options :=
  mkOptions (last_given (fun i => match i with Delimiter c => Some c | _ => None end) items COMMA)
            (last_given (fun i => match i with Quote c => Some c | _ => None end) items DQ)
            (negb (given (fun i => match i with NoHeader => true | _ => false end) items))
            (null_values default_options) (true_values default_options) (false_values default_options) (sample_rows default_options).
Definition path_of (items : list item) : bytes := first_given (fun i => match i with Input p => Some p | _ => None end) items [].
(** How many threads read: none asked for, or 0, means as many as the machine has ([hw]). *)
Definition threads_given (items : list item) : N := last_given (fun i => match i with Threads n => Some n | _ => None end) items 0%N.
Definition threads_of (hw : N) (items : list item) : N := if (threads_given items =? 0)%N then hw else threads_given items.
Definition rows_of (items : list item) : nat := N.to_nat (last_given (fun i => match i with Rows n => Some n | _ => None end) items 10%N).
Definition columns_of (items : list item) : bytes := last_given (fun i => match i with Columns v => Some v | _ => None end) items [].
(** Some item asks for errors to be looked for. *)
Definition checking (items : list item) : Prop :=
  exists i, In i items /\ (i = Strict \/ i = Permissive \/ exists n, i = MaxErrors n).

(** Nothing, and the usual name of it, are the standard input. *)
Definition standard (path : bytes) : Prop := path = [] \/ path = s2b "/dev/stdin".
Definition comes_from (w : world) (path c : bytes) : Prop :=
  standard path /\ standard_input w = c \/ ~ standard path /\ file_at w path = inr c.
Definition named (path : bytes) (label : bytes) : Prop :=
  standard path /\ label = s2b "<stdin>" \/ ~ standard path /\ label = path.

(** The header line and the rows of a table as texts. *)
Definition printable {F} (show_float : F -> bytes) (pad : bool) (types : list data_type) (t : @read_result (@value F)) (ncols : nat) : list (list bytes) :=
  text_table (value_text show_float pad) STRING types (concat_columns ncols (chunks t)) (total_rows t).

(** What each viewer shows of a table read from [c]. *)
Definition shows {F} (show_float : F -> bytes) (pad : bool) (v : viewer) (items : list item) (c : bytes)
    (names : list bytes) (types : list data_type) (t : @read_result (@value F)) (r : outcome) : Prop :=
  let o := options_of items in
  let table := printable show_float pad types t (length names) in
  let top := if has_header o then [names] else [] in
  let csv rows := concat (map (output_row (separator o) (quote o)) rows) in
  match v with
  | Count => exists d, says d (total_rows t) /\ r = Exit 0 (d ++ [LF])
  | Head => r = Exit 0 (csv (top ++ firstn (rows_of items) table))
  | Select =>
      (N.of_nat (length names) <= 2 ^ 64)%N ->
      match columns_named (has_header o) names (listed_columns (columns_of items)) with
      | Some (k :: ks) => r = Exit 0 (csv (project (k :: ks) (top ++ table)))
      | _ => r = Exit 1 [] \/ r = Throws
      end
  | Pretty =>
      let rows := top ++ firstn (rows_of items) table in
      r = Exit 0 (as_text match rows with [] => [] | _ => box (has_header o) (box_widths 40 (length names) rows) rows end)
  | Info =>
      exists label ls, named (path_of items) label /\ r = Exit 0 (as_text ls) /\
        describing label (Some (length c)) (separator o) (quote o) (total_rows t) (has_header o) names types ls
  end.

(** Rows that are not printed as an empty line and hold neither separators nor line breaks. *)
Definition simple_row (d : byte) (row : list bytes) : Prop :=
  row <> [[]] /\ Forall (fun v => ~ In d v /\ ~ In LF v /\ ~ In CR v) row.

(** How a value is printed: in quotes if it holds a separator, a quote character or a line break. *)
Definition printed_as (d q : byte) (v : bytes) : RoundSpec.written :=
  if existsb (fun c => N.eqb c d || N.eqb c q || N.eqb c LF || N.eqb c CR) v then Quoted v else Plain v.
(** Rows of the kind C100 is about: not printed as an empty line, and no bare value shortly
    before a separator or line feed inside a quoted one. *)
Definition readable_row (d q : byte) (row : list bytes) : Prop :=
  row <> [[]] /\ spread d q (map (printed_as d q) row).
(** Rows without line breaks. *)
Definition breakless (row : list bytes) : Prop := Forall (fun v => ~ In LF v /\ ~ In CR v) row.
