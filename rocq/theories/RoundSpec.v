(** How a table is written down as CSV, and what it then means.  Nothing here
    refers to how the library reads. *)
From Verif Require Import Base FieldsSpec ReaderSpec.
Local Open Scope list_scope.

(** A cell is written with quotes around it, or as it is. *)
Inductive written := Quoted (v : bytes) | Plain (v : bytes).
Definition cell_bytes (q : byte) (c : written) : bytes :=
  match c with Quoted v => quote_value q v | Plain v => v end.
(** A cell written as it is holds neither quotes, separators nor line breaks. *)
Definition well_written (sep q : byte) (c : written) : Prop :=
  match c with
  | Quoted _ => True
  | Plain v => Forall (fun b => b <> q /\ b <> sep /\ b <> LF /\ b <> CR) v
  end.

(** Line endings. *)
Inductive ending := EndLF | EndCRLF.
Definition end_bytes (e : ending) : bytes := match e with EndLF => [LF] | EndCRLF => [CR; LF] end.

(** A line: its cells and the line endings after it (more than one: blank lines
    follow; none: the text ends there). *)
Definition line := (list written * list ending)%type.
Definition row_text (sep q : byte) (cells : list written) : bytes := join sep (map (cell_bytes q) cells).
Definition line_text (sep q : byte) (l : line) : bytes :=
  row_text sep q (fst l) ++ concat (map end_bytes (snd l)).
Definition csv_text (sep q : byte) (ls : list line) : bytes := concat (map (line_text sep q) ls).

(** Properly written: every line has a cell and is not empty, and every line but
    the last is ended. *)
Definition proper_line (sep q : byte) (l : line) : Prop :=
  fst l <> [] /\ fst l <> [Plain []] /\ Forall (well_written sep q) (fst l).
Fixpoint proper (sep q : byte) (ls : list line) : Prop :=
  match ls with
  | [] => True
  | l :: r => proper_line sep q l /\ (r <> [] -> snd l <> []) /\ proper sep q r
  end.

(** What a cell means: a quoted cell its text, a plain one its text unless that
    denotes null. *)
Definition meaning (nulls : bytes) (c : written) : option bytes :=
  match c with
  | Quoted v => Some v
  | Plain v => if denotes_null nulls v then None else Some v
  end.
Definition cell_value {V} (conv : nat -> bytes -> option V) (nulls : bytes) (cells : list written) (k : nat) : option V :=
  match nth_error cells k with
  | None => None
  | Some c => match meaning nulls c with None => None | Some t => conv k t end
  end.
(** The columns of the table; [conv k] makes a value of column k from a text. *)
Definition columns_meant {V} (conv : nat -> bytes -> option V) (nulls : bytes) (ncols : nat)
  (rows : list (list written)) : list (list (option V)) :=
  map (fun k => map (fun cells => cell_value conv nulls cells k) rows) (seq 0 ncols).

(** Rows all of whose cells are quoted, and rows whose quoted cells hold no
    separator and no line feed. *)
Definition all_quoted (cells : list written) : Prop := Forall (fun c => exists v, c = Quoted v) cells.
Definition tame (sep : byte) (cells : list written) : Prop :=
  Forall (fun c => match c with Quoted v => ~ In sep v /\ ~ In LF v | Plain _ => True end) cells.
(** Every separator and line feed inside a quoted cell stands at least 63 bytes behind
    every plain cell before it in the row ([mid]: the cells between the two). *)
Definition spread (sep q : byte) (cells : list written) : Prop :=
  forall pre v mid a c b post,
    cells = pre ++ Plain v :: mid ++ Quoted (a ++ c :: b) :: post -> c = sep \/ c = LF ->
    63 <= length (concat (map (fun x => cell_bytes q x ++ [sep]) mid)) + 1 + length (double_quotes q a).
Definition unbroken (cells : list written) : Prop :=
  Forall (fun c => match c with Quoted v | Plain v => ~ In LF v /\ ~ In CR v end) cells.

(** The name a header cell gives its column: blanks at the end (of a plain cell:
    at both ends) are dropped. *)
Definition column_name (c : written) : bytes :=
  match c with
  | Quoted v => trim_right blank v
  | Plain v => trim_right blank (trim_left blank v)
  end.

(** One ending per line; the last line may lack it unless its last cell looks empty. *)
Definition looks_empty (c : written) : bool :=
  match c with
  | Quoted v => match v with [] => true | _ => false end
  | Plain v => match trim_left blank v with [] => true | _ => false end
  end.
Fixpoint one_ending (ls : list line) : Prop :=
  match ls with
  | [] => True
  | [l] => (exists e, snd l = [e]) \/ (snd l = [] /\ looks_empty (last (fst l) (Plain [])) = false)
  | l :: r => (exists e, snd l = [e]) /\ one_ending r
  end.
