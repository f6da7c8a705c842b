(** What an error report is expected to say, without reference to the code that prints it. *)
From Verif Require Import Base ErrorsSpec CliSpec ShowSpec.

(** A stored error with its context snippet. *)
Record report : Type := Report { r_error : error; r_context : bytes }.

Definition severity_words : list (severity * bytes) :=
  [(WARNING, s2b "WARNING"); (RECOVERABLE, s2b "ERROR"); (FATAL, s2b "FATAL")].
Definition code_words : list (nat * bytes) :=
  combine (seq 0 16)
    (map s2b ["NONE"; "UNCLOSED_QUOTE"; "INVALID_QUOTE_ESCAPE"; "QUOTE_IN_UNQUOTED_FIELD"; "INCONSISTENT_FIELD_COUNT"; "FIELD_TOO_LARGE";
      "MIXED_LINE_ENDINGS"; "INVALID_UTF8"; "NULL_BYTE"; "EMPTY_HEADER"; "DUPLICATE_COLUMN_NAMES"; "AMBIGUOUS_SEPARATOR"; "FILE_TOO_LARGE";
      "INDEX_ALLOCATION_OVERFLOW"; "IO_ERROR"; "INTERNAL_ERROR"]%string).

(** [SEVERITY] CODE at line L, column C (byte B): message. *)
Definition error_line (e : error) (l : bytes) : Prop :=
  exists sw cw lw colw bw, In (e_severity e, sw) severity_words /\ In (e_code e, cw) code_words /\
    says lw (e_line e) /\ says colw (e_column e) /\ says bw (e_offset e) /\
    l = s2b "[" ++ sw ++ s2b "] " ++ cw ++ s2b " at line " ++ lw ++ s2b ", column " ++ colw ++ s2b " (byte " ++ bw ++ s2b "): " ++ e_message e.

(** That line, and a second one for the context if there is any. *)
Definition report_lines (prefix : bytes) (r : report) (ls : list bytes) : Prop :=
  exists l, error_line (r_error r) l /\
    ls = (prefix ++ l) :: match r_context r with [] => [] | _ => [s2b "  Context: " ++ r_context r] end.

Inductive all_lines (prefix : bytes) : list report -> list bytes -> Prop :=
| al_nil : all_lines prefix [] []
| al_cons r rs ls ls' : report_lines prefix r ls -> all_lines prefix rs ls' -> all_lines prefix (r :: rs) (ls ++ ls').

(** Single-line texts. *)
Definition single_line (r : report) : Prop := ~ In LF (e_message (r_error r)) /\ ~ In LF (r_context r).
Definition known_code (r : report) : Prop := e_code (r_error r) < 16.

(** How many errors have a severity. *)
Definition severity_dec (a b : severity) : {a = b} + {a <> b}.
Proof. decide equality. Defined.
Definition how_many (s : severity) (es : list report) : nat := count_occ severity_dec (map (fun r => e_severity (r_error r)) es) s.

(** A part of a sentence that is left out for zero. *)
Definition unless_zero (n : nat) (part : bytes) : bytes := match n with O => [] | S _ => part end.
