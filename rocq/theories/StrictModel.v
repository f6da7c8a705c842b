(** Model of opening and reading with error handling switched on, and of what
    the commands of the tool make of the errors. *)
From Verif Require Import Base TypesSpec WordsModel ChunkModel FieldsModel NumModel DateModel ReaderModel TypesModel ErrorsSpec ErrorsModel CliModel.

Section Checked.
Context {F : Type}.
Variable ff : bytes -> option F.
Variables (lanes : nat) (clmul : bool) (num_threads : N) (ne_in : bool) (o : csv_options).
(** CsvOptions::error_mode and max_errors, which the constructor hands to the
    collector (csv_reader.cpp:267). *)
Variables (m : ErrorsSpec.mode) (limit : nat).

(** CsvReader::open from the mapped bytes on, csv_reader.cpp:299-391 (the same
    at 405-498): the collector afterwards, and names, types and
    header_end_offset, or None for failure.  The checks of lines 311-332 are
    [validate_header]; there are none without a header (342-369). *)
Definition open_checked (data : bytes) : collector * option (list bytes * list data_type * nat) :=
  let c0 := new_collector m limit in
  match data with
  | [] => (c0, None)
  | _ =>
      match find_row_end lanes clmul (quote o) data 0 with
      | None => (c0, None)
      | Some first_end =>
          if has_header o then
            let names := parse_header (separator o) (quote o) (slice 0 first_end data) in
            let (c, ok) := validate_header c0 names in
            if negb ok then (c, None)
            else (c, match infer_from_sample ff lanes clmul o (skipn first_end data) (length names) (sample_rows o) with
                     | None => None
                     | Some types => Some (names, types, first_end)
                     end)
          else
            let names := map (fun i => 86%N :: decimal_digits (S i) (S i))
                             (seq 0 (count_columns (separator o) (quote o) (slice 0 first_end data) false 1)) in
            (c0, match infer_from_sample ff lanes clmul o (skipn 0 data) (length names) (sample_rows o) with
                 | None => None
                 | Some types => Some (names, types, 0)
                 end)
      end
  end.

(** open() and read_all() (516-713), which never touches the collector: what
    errors() returns afterwards (508-510), and the table. *)
Definition read_checked (data : bytes) : list error * option (list bytes * list data_type * @read_result (@value F)) :=
  let (c, opened) := open_checked data in
  (c_errors c,
   match opened with
   | None => None
   | Some (names, types, header_end) =>
       match read_all (fun k => append_value ff lanes (nth k types STRING)) lanes clmul (separator o) (quote o)
                      (make_null_checker (null_values o)) num_threads ne_in (length names) data header_end with
       | None => None
       | Some r => Some (names, types, r)
       end
   end).

(** cli.cpp:548-614, cmd_count of a file that can be read: exit code and output.
    The errors are not looked at; head, select, pretty and info have the same
    preamble. *)
Definition count_checked (content : bytes) : outcome :=
  match content with
  | [] => Exit 0 (s2b "0" ++ [LF])
  | _ => match snd (read_checked content) with
         | Some (_, _, t) => Exit 0 (to_string_N (N.of_nat (total_rows t)) ++ [LF])
         | None => Exit 1 []
         end
  end.

(** convert_csv_to_parquet, csv_reader.cpp:860-902, up to the reading: the
    errors in the result (none if open failed, 863-866) and whether the
    conversion goes on. *)
Definition convert_errors (content : bytes) : list error * bool :=
  match read_checked content with
  | (es, Some _) => (es, true)
  | (es, None) => match snd (open_checked content) with None => ([], false) | Some _ => (es, false) end
  end.

(** cli.cpp:511-540, exit code of cmd_convert; [rest_ok]: writing succeeds. *)
Definition convert_exit (rest_ok : bool) (content : bytes) : nat :=
  let (es, read_ok) := convert_errors content in
  if negb (read_ok && rest_ok) then 1
  else match es, m with
       | _ :: _, FAIL_FAST => 1
       | _, _ => 0
       end.
End Checked.
