(** Error reports: src/error.cpp 7-156 (ParseError::to_string, ErrorCollector::summary,
    ParseException::format_errors) and the report of cmd_convert, src/cli.cpp 512-533.
    Numbers are natural; the three severities are the only ones (the default of the switch at
    54-56 is not reachable without a cast). *)
From Verif Require Import Base ErrorsSpec ErrorsModel ReaderModel CliModel ShowModel ReportSpec.

(** error_code_to_string, 7-46. *)
Definition error_code_to_string (code : nat) : bytes :=
  match code with
  | 0 => s2b "NONE" | 1 => s2b "UNCLOSED_QUOTE" | 2 => s2b "INVALID_QUOTE_ESCAPE" | 3 => s2b "QUOTE_IN_UNQUOTED_FIELD"
  | 4 => s2b "INCONSISTENT_FIELD_COUNT" | 5 => s2b "FIELD_TOO_LARGE" | 6 => s2b "MIXED_LINE_ENDINGS" | 7 => s2b "INVALID_UTF8"
  | 8 => s2b "NULL_BYTE" | 9 => s2b "EMPTY_HEADER" | 10 => s2b "DUPLICATE_COLUMN_NAMES" | 11 => s2b "AMBIGUOUS_SEPARATOR"
  | 12 => s2b "FILE_TOO_LARGE" | 13 => s2b "INDEX_ALLOCATION_OVERFLOW" | 14 => s2b "IO_ERROR" | 15 => s2b "INTERNAL_ERROR"
  | _ => s2b "UNKNOWN"
  end.

(** error_severity_to_string, 48-61. *)
Definition error_severity_to_string (s : severity) : bytes :=
  match s with WARNING => s2b "WARNING" | RECOVERABLE => s2b "ERROR" | FATAL => s2b "FATAL" end.

(** operator<< of a size_t. *)
Definition print (n : nat) : bytes := to_string_N (N.of_nat n).

(** ParseError::to_string, 80-91. *)
Definition to_string (r : report) : bytes :=
  let e := r_error r in
  s2b "[" ++ error_severity_to_string (e_severity e) ++ s2b "] " ++ error_code_to_string (e_code e) ++
  s2b " at line " ++ print (e_line e) ++ s2b ", column " ++ print (e_column e) ++ s2b " (byte " ++ print (e_offset e) ++
  s2b "): " ++ e_message e ++
  match r_context r with [] => [] | _ => LF :: s2b "  Context: " ++ r_context r end.

(** ErrorCollector::summary, 93-140; [suppressed] = suppressed_count_. *)
Definition count_of (s : severity) (l : list report) : nat :=
  length (filter (fun r => match e_severity (r_error r), s with
                           | WARNING, WARNING | RECOVERABLE, RECOVERABLE | FATAL, FATAL => true
                           | _, _ => false end) l).
Definition summary (errors : list report) (suppressed : nat) : bytes :=
  match errors, suppressed with
  | [], O => s2b "No errors"
  | _, _ =>
      let w := count_of WARNING errors in
      let e := count_of RECOVERABLE errors in
      let f := count_of FATAL errors in
      s2b "Total errors: " ++ print (length errors) ++
      (if 0 <? w then s2b " (Warnings: " ++ print w else []) ++
      (if 0 <? e then s2b ", Errors: " ++ print e else []) ++
      (if 0 <? f then s2b ", Fatal: " ++ print f else []) ++
      (if (0 <? w) || (0 <? e) || (0 <? f) then s2b ")" else []) ++
      (if 0 <? suppressed
       then LF :: s2b "Error limit reached: " ++ print suppressed ++ s2b " additional error" ++
            (if suppressed =? 1 then [] else s2b "s") ++ s2b " suppressed"
       else []) ++
      match errors with
      | [] => []
      | _ => LF :: LF :: s2b "Details:" ++ LF :: concat (map (fun r => to_string r ++ [LF]) errors)
      end
  end.

(** ParseException::format_errors, 142-154. *)
Definition format_errors (errors : list report) : bytes :=
  match errors with
  | [] => s2b "Parse error"
  | [r] => e_message (r_error r)
  | _ => s2b "Multiple parse errors (" ++ print (length errors) ++ s2b "):" ++ LF :: concat (map (fun r => s2b "  - " ++ to_string r ++ [LF]) errors)
  end.

(** The list of parse errors on the error stream, cli.cpp 512-530; [failed] is the error text
    of a failed conversion (512-521), None a successful one (524-530).  error_summary is
    ShowModel.error_summary. *)
Definition cli_report (failed : option bytes) (errors : list report) : bytes :=
  let listing := concat (map (fun r => s2b "  " ++ to_string r ++ [LF]) errors) in
  let counts := error_summary (map r_error errors) in
  match failed, errors with
  | Some m, [] => s2b "Error: " ++ m ++ [LF]
  | Some m, _ => s2b "Error: " ++ m ++ [LF] ++ LF :: s2b "Parse errors (" ++ counts ++ s2b "):" ++ LF :: listing
  | None, [] => []
  | None, _ => LF :: counts ++ s2b ":" ++ LF :: listing
  end.

(** The texts of the two errors the reader reports, csv_reader.cpp 313-314 and 326-328 (and
    421-422, 434-436); no context is given. *)
Definition reader_report (e : error) : report :=
  Report (Error (e_code e) (e_severity e) (e_line e) (e_column e) (e_offset e)
            (if e_code e =? EMPTY_HEADER then s2b "Header row is empty"
             else s2b "Duplicate column name: '" ++ e_message e ++ s2b "'")) [].
