(** What the descriptions printed by the library are expected to say, without
    reference to its code. *)
From Verif Require Import Base NumSpec TypesSpec ErrorsSpec CliSpec.

(** A text that is a number, without leading zeros. *)
Definition says (w : bytes) (n : nat) : Prop := natural_text w = Some (Z.of_nat n) /\ (hd 48%N w = 48%N -> w = [48%N]).

(** Characters shown by a word; all others are shown as they are. *)
Definition delimiter_words : list (byte * bytes) :=
  [(COMMA, s2b "comma"); (9%N, s2b "tab"); (59%N, s2b "semicolon"); (124%N, s2b "pipe"); (58%N, s2b "colon")].
Definition quote_words : list (byte * bytes) := [(DQ, s2b "double-quote")].
Definition shown_char (words : list (byte * bytes)) (c : byte) (w : bytes) : Prop :=
  In (c, w) words \/ (~ In c (map fst words) /\ w = [c]).

Definition type_words : list (data_type * bytes) :=
  [(UNKNOWN, s2b "UNKNOWN"); (BOOL, s2b "BOOL"); (INT32, s2b "INT32"); (INT64, s2b "INT64"); (FLOAT64, s2b "FLOAT64");
   (DATE, s2b "DATE"); (TIMESTAMP, s2b "TIMESTAMP"); (STRING, s2b "STRING"); (NA, s2b "NA")].

(** The line for column [k]. *)
Definition column_line (k : nat) (name : bytes) (t : data_type) (l : bytes) : Prop :=
  exists number word, says number k /\ In (t, word) type_words /\
    l = s2b "  " ++ number ++ s2b ": " ++ name ++ s2b " (" ++ word ++ s2b ")".

(** The lines that describe an input with the given source, size (if it was found),
    delimiter, quote, number of rows and columns. *)
Definition describing (source : bytes) (size : option nat) (d q : byte) (rows : nat) (header : bool)
    (names : list bytes) (types : list data_type) (ls : list bytes) : Prop :=
  exists (size_lines : list bytes) (rw cw dw qw : bytes) (column_part : list bytes),
    match size with
    | Some n => exists w, says w n /\ size_lines = [s2b "Size: " ++ w ++ s2b " bytes"]
    | None => size_lines = []
    end /\
    says rw rows /\ says cw (length names) /\ shown_char delimiter_words d dw /\ shown_char quote_words q qw /\
    (if header
     then exists cols, column_part = [] :: s2b "Column names:" :: cols /\ length cols = length names /\
            forall k, k < length names -> column_line k (nth k names []) (nth k types UNKNOWN) (nth k cols [])
     else column_part = []) /\
    ls = (s2b "Source: " ++ source) :: size_lines ++
         (s2b "Dialect: delimiter=" ++ dw ++ s2b ", quote=" ++ qw) :: (s2b "Rows: " ++ rw) :: (s2b "Columns: " ++ cw) ::
         column_part.

(** Lines, each ended by LF. *)
Definition as_text (ls : list bytes) : bytes := concat (map (fun l => l ++ [LF]) ls).

(** How many errors of a severity. *)
Definition same_severity (s t : severity) : bool :=
  match s, t with WARNING, WARNING | RECOVERABLE, RECOVERABLE | FATAL, FATAL => true | _, _ => false end.
Definition how_many (s : severity) (l : list error) : nat := length (filter (fun e => same_severity s (e_severity e)) l).

(** Pieces with a comma and a blank between them. *)
Fixpoint comma_list (ls : list bytes) : bytes :=
  match ls with
  | [] => []
  | [l] => l
  | l :: r => l ++ s2b ", " ++ comma_list r
  end.
Definition counted (n : nat) (word : bytes) (l : bytes) : Prop := exists w, says w n /\ l = w ++ s2b " " ++ word.
