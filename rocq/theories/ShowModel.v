(** Model of the texts that describe an input, a dialect and a conversion:
    cmd_info (src/cli.cpp 719-830), Dialect::to_string (src/dialect.cpp 196-247)
    and ConversionResult::error_summary (include/libvroom/vroom.h 65-98). *)
From Verif Require Import Base DialectModel TypesSpec ReaderModel TypesModel ErrorsSpec ErrorsModel CliModel.

(** ** info *)

(** formatDelimiter, src/cli.cpp 182-197 *)
Definition format_delimiter (d : byte) : bytes :=
  if N.eqb d COMMA then s2b "comma"
  else if N.eqb d 9 then s2b "tab"
  else if N.eqb d 59 then s2b "semicolon"
  else if N.eqb d 124 then s2b "pipe"
  else if N.eqb d 58 then s2b "colon"
  else [d].
(** the conditional expression on lines 756, 774, 796 and 812 *)
Definition format_quote (q : byte) : bytes := if N.eqb q DQ then s2b "double-quote" else [q].

(** type_name, include/libvroom/types.h 57-80 *)
Definition type_name (t : data_type) : bytes :=
  match t with
  | UNKNOWN => s2b "UNKNOWN" | BOOL => s2b "BOOL" | INT32 => s2b "INT32" | INT64 => s2b "INT64"
  | FLOAT64 => s2b "FLOAT64" | STRING => s2b "STRING" | DATE => s2b "DATE" | TIMESTAMP => s2b "TIMESTAMP"
  | NA => s2b "NA"
  end.

(** lines 793, 795-800: the source, and the dialect *)
Definition source_text (i : input) : bytes :=
  match i with Stdin _ => s2b "<stdin>" | File path _ => path end.
Definition dialect_line (o : csv_options) : bytes :=
  s2b "Dialect: delimiter=" ++ format_delimiter (separator o) ++ s2b ", quote=" ++ format_quote (quote o) ++ [LF].

(** the loop over the schema, lines 820-824 *)
Fixpoint column_lines (k : nat) (names : list bytes) (types : list data_type) : bytes :=
  match names, types with
  | n :: ns, t :: ts =>
      s2b "  " ++ to_string_N (N.of_nat k) ++ s2b ": " ++ n ++ s2b " (" ++ type_name t ++ s2b ")" ++ [LF]
      ++ column_lines (S k) ns ts
  | _, _ => []
  end.

Section Info.
Context {F : Type}.
Variable ff : bytes -> option F.
Variables (lanes : nat) (clmul : bool) (num_threads : N) (ne_in : bool) (o : csv_options).

(** The text for nothing to read (lines 752-758, 770-777, 789-796). *)
Definition info_empty (i : input) : bytes :=
  s2b "Source: " ++ source_text i ++ [LF] ++ s2b "Size: 0 bytes" ++ [LF] ++ dialect_line o
  ++ s2b "Rows: 0" ++ [LF] ++ s2b "Columns: 0" ++ [LF].

(** Lines 799-829.  [again]: the size found by opening the file a second time,
    None if that fails (lines 803-807). *)
Definition info (again : option N) (i : input) : outcome :=
  match load ff lanes clmul num_threads ne_in o (info_empty i) i with
  | Early r => r
  | Table names types t =>
      let size := match i with Stdin c => Some (N.of_nat (length c)) | File _ _ => again end in
      Exit 0 (s2b "Source: " ++ source_text i ++ [LF]
        ++ match size with Some n => s2b "Size: " ++ to_string_N n ++ s2b " bytes" ++ [LF] | None => [] end
        ++ dialect_line o
        ++ s2b "Rows: " ++ to_string_N (N.of_nat (total_rows t)) ++ [LF]
        ++ s2b "Columns: " ++ to_string_N (N.of_nat (length names)) ++ [LF]
        ++ if has_header o && negb (match names with [] => true | _ => false end)
           then [LF] ++ s2b "Column names:" ++ [LF] ++ column_lines 0 names types else [])
  end.
End Info.

(** ** Dialect::to_string, src/dialect.cpp 196-247 *)
Definition SQ : byte := 39%N.
Definition quoted (c : byte) : bytes := [SQ; c; SQ].
Definition show_delimiter (c : byte) : bytes :=
  if N.eqb c 9 then [SQ; 92%N; 116%N; SQ] else quoted c.
Definition show_quote (c : byte) : bytes :=
  if N.eqb c DQ then quoted DQ
  else if N.eqb c SQ then [DQ; SQ; DQ]
  else if N.eqb c 0 then s2b "none"
  else quoted c.
Definition show_escape (d : dialect) : bytes :=
  if double_quote d then s2b "double"
  else if N.eqb (escape_char d) 92 then s2b "backslash"
  else quoted (escape_char d).
Definition dialect_text (d : dialect) : bytes :=
  s2b "Dialect{delimiter=" ++ show_delimiter (DialectModel.delimiter d) ++
  s2b ", quote=" ++ show_quote (quote_char d) ++
  s2b ", escape=" ++ show_escape d ++
  (if N.eqb (comment_char d) 0 then [] else s2b ", comment=" ++ quoted (comment_char d)) ++
  s2b "}".

(** ** ConversionResult, include/libvroom/vroom.h 50-98 *)

(** has_fatal, lines 53-60, and has_warnings, lines 45-51 *)
Fixpoint has_fatal_error (l : list error) : bool :=
  match l with [] => false | e :: r => match e_severity e with FATAL => true | _ => has_fatal_error r end end.

Fixpoint has_warning_error (l : list error) : bool :=
  match l with [] => false | e :: r => match e_severity e with WARNING => true | _ => has_warning_error r end end.

(** the loop of lines 70-81: warnings, errors, fatal *)
Fixpoint tally (l : list error) (acc : nat * nat * nat) : nat * nat * nat :=
  match l with
  | [] => acc
  | e :: r =>
      let '(w, x, f) := acc in
      tally r match e_severity e with WARNING => (S w, x, f) | RECOVERABLE => (w, S x, f) | FATAL => (w, x, S f) end
  end.
Definition with_comma (l : bytes) : bytes := match l with [] => [] | _ => l ++ s2b ", " end.
(** error_summary, lines 66-98 *)
Definition error_summary (l : list error) : bytes :=
  match l with
  | [] => s2b "No errors"
  | _ =>
      let '(w, x, f) := tally l (0, 0, 0) in
      let r := if 0 <? f then to_string_N (N.of_nat f) ++ s2b " fatal" else [] in
      let r := if 0 <? x then with_comma r ++ to_string_N (N.of_nat x) ++ s2b " errors" else r in
      if 0 <? w then with_comma r ++ to_string_N (N.of_nat w) ++ s2b " warnings" else r
  end.
