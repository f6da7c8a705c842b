(** Type inference, null detection and typed appending.
    Models include/libvroom/types.h:16-54, src/schema/type_inference.cpp,
    src/parser/line_parser.cpp (init_null_values 9-31, parse_line 96-183,
    is_null_value 185-208), include/libvroom/fast_arrow_context.h:41-248 and
    CsvReader::open (src/reader/csv_reader.cpp:283-391).
    fast_float::from_chars is an oracle: [ff v] is the double the whole of v denotes,
    or None when it does not parse completely. *)
From Verif Require Import Base TypesSpec WordsModel ChunkModel FieldsModel NumModel DateModel ReaderModel.

(** The numeric value of the enumerators, types.h:16-26. *)
Definition code (t : data_type) : N :=
  match t with
  | UNKNOWN => 0 | BOOL => 1 | INT32 => 2 | INT64 => 3 | FLOAT64 => 4
  | STRING => 5 | DATE => 6 | TIMESTAMP => 7 | NA => 255
  end%N.
Definition type_eqb (a b : data_type) : bool := N.eqb (code a) (code b).

(** types.h:29-35. *)
Definition can_promote (from to : data_type) : bool :=
  if type_eqb from NA || type_eqb from UNKNOWN then true
  else if type_eqb to STRING then true
  else (code from <=? code to)%N.

(** types.h:38-54. *)
Definition wider_type (a b : data_type) : data_type :=
  if type_eqb a NA || type_eqb a UNKNOWN then b
  else if type_eqb b NA || type_eqb b UNKNOWN then a
  else if type_eqb a STRING || type_eqb b STRING then STRING
  else if (type_eqb a DATE || type_eqb a TIMESTAMP) && ((code BOOL <=? code b)%N && (code b <=? code FLOAT64)%N)
  then STRING
  else if (type_eqb b DATE || type_eqb b TIMESTAMP) && ((code BOOL <=? code a)%N && (code a <=? code FLOAT64)%N)
  then STRING
  else if (code b <? code a)%N then a else b.

Section Inference.
Context {F : Type}.
Variable ff : bytes -> option F.

(** type_inference.cpp:17-27 (also 30-40 and 42-52): is [v] one of the comma-separated
    pieces of [s], where an empty rest of [s] contributes no piece. *)
Fixpoint listed (fuel : nat) (s v : bytes) : bool :=
  match fuel with
  | O => false
  | S fuel' =>
      match s with
      | [] => false
      | _ => let n := piece_length s in
             if bytes_eqb v (firstn n s) then true else listed fuel' (skipn (S n) s) v
      end
  end.
Definition in_list (s v : bytes) : bool := listed (length s) s v.

(** 55-71: is_negative, all_digits, has_digit. *)
Definition sign_char (c : byte) : bool := N.eqb c 45 || N.eqb c 43.
Definition after_sign (v : bytes) : bytes :=
  match v with c :: r => if sign_char c then r else v | [] => [] end.
Definition looks_integer (v : bytes) : bool :=
  forallb digit_char (after_sign v) && negb (length (after_sign v) =? 0).

(** 77-86: the int64_t accumulator; None on overflow. *)
Fixpoint int32_loop (val : Z) (l : bytes) : option Z :=
  match l with
  | [] => Some val
  | c :: r => let val' := (val * 10 + (Z.of_N c - 48))%Z in
              if (2147483647 <? val')%Z then None else int32_loop val' r
  end.

(** 75-92.  The test on is_negative (87) can only see values up to 2147483647. *)
Definition integer_type (v : bytes) : data_type :=
  if length v <=? 10 then
    match int32_loop 0 (after_sign v) with
    | Some val => if negb (N.eqb (nth 0 v 0%N) 45) || (val <=? 2147483648)%Z then INT32 else INT64
    | None => INT64
    end
  else INT64.

(** 103-114 *)
Definition looks_date (v : bytes) : bool :=
  (length v =? 10) && (N.eqb (at_ v 4) 45 || N.eqb (at_ v 4) 47) && N.eqb (at_ v 7) (at_ v 4) &&
  forallb (fun i => digit_char (at_ v i)) [0; 1; 2; 3; 5; 6; 8; 9].

(** 119-133 *)
Definition looks_timestamp (v : bytes) : bool :=
  (19 <=? length v) && (N.eqb (at_ v 4) 45 || N.eqb (at_ v 4) 47) && N.eqb (at_ v 7) (at_ v 4) &&
  (N.eqb (at_ v 10) 84 || N.eqb (at_ v 10) 32) && N.eqb (at_ v 13) 58 && N.eqb (at_ v 16) 58 &&
  forallb (fun i => digit_char (at_ v i)) [11; 12; 14; 15; 17; 18].

(** infer_field, 10-137. *)
Definition infer_field (o : csv_options) (v : bytes) : data_type :=
  match v with
  | [] => NA
  | _ =>
      if in_list (null_values o) v then NA
      else if in_list (true_values o) v then BOOL
      else if in_list (false_values o) v then BOOL
      else if looks_integer v then integer_type v
      else match ff v with
           | Some _ => FLOAT64
           | None => if looks_date v then DATE
                     else if looks_timestamp v then TIMESTAMP
                     else STRING
           end
  end.

(** Loop 173-206 and 208-215: the fields of one sampled row.  A moved-from
    std::string is taken to be empty (lines 182-183, 209). *)
Fixpoint sample_loop (sep q : byte) (l : bytes) (inq : bool) (cur : bytes) (fields : list bytes)
  : list bytes :=
  match l with
  | [] => if length cur =? 0 then fields else fields ++ [drop_while_end is_blank cur]
  | c :: rest =>
      if is_nl c then fields ++ [drop_while_end is_blank cur]
      else if N.eqb c q then
        match inq, rest with
        | true, c' :: rest' =>
            if N.eqb c' q then sample_loop sep q rest' inq (cur ++ [q]) fields
            else sample_loop sep q rest (negb inq) cur fields
        | _, _ => sample_loop sep q rest (negb inq) cur fields
        end
      else if N.eqb c sep && negb inq then
        sample_loop sep q rest inq [] (fields ++ [drop_while_end is_blank cur])
      else if (length cur =? 0) && negb inq && is_blank c then sample_loop sep q rest inq cur fields
      else sample_loop sep q rest inq (cur ++ [c]) fields
  end.
Definition sample_fields (sep q : byte) (row : bytes) : list bytes := sample_loop sep q row false [] [].

(** 218-221: types[col] = wider_type(types[col], infer_field(fields[col])). *)
Fixpoint update_types (o : csv_options) (types : list data_type) (fields : list bytes) : list data_type :=
  match types, fields with
  | t :: ts, f :: fs => wider_type t (infer_field o f) :: update_types o ts fs
  | _, _ => types
  end.

(** 159-225; [fre] is finder.find_row_end on the sample. *)
Fixpoint sample_rows_loop (fuel : nat) (fre : nat -> option nat) (o : csv_options) (data : bytes)
         (offset rows_left : nat) (types : list data_type) : option (list data_type) :=
  match fuel with
  | O => None
  | S fuel' =>
      if (length data <=? offset) || (rows_left =? 0) then Some types
      else match fre offset with
           | None => None
           | Some row_end =>
               if row_end - offset =? 0
               then sample_rows_loop fuel' fre o data (S offset) rows_left types
               else sample_rows_loop fuel' fre o data row_end (rows_left - 1)
                      (update_types o types (sample_fields (separator o) (quote o) (slice offset row_end data)))
           end
  end.

(** 228-232 *)
Definition unknown_to_string (t : data_type) : data_type := if type_eqb t UNKNOWN then STRING else t.

(** infer_from_sample, 139-235. *)
Definition infer_from_sample (lanes : nat) (clmul : bool) (o : csv_options) (data : bytes) (n_columns max_rows : nat)
  : option (list data_type) :=
  let types := repeat UNKNOWN n_columns in
  if (length data =? 0) || (n_columns =? 0) then Some types
  else
    let fre := find_row_end lanes clmul (quote o) data in
    match (if has_header o then fre 0 else Some 0) with
    | None => None
    | Some offset =>
        option_map (map unknown_to_string)
          (sample_rows_loop (S (length data)) fre o data offset max_rows types)
    end.

(** std::to_string of a positive number. *)
Fixpoint decimal_digits (fuel n : nat) : bytes :=
  match fuel with
  | O => []
  | S f => (if n <? 10 then [] else decimal_digits f (n / 10)) ++ [(48 + N.of_nat (n mod 10))%N]
  end.

(** csv_reader.cpp:283-391 open, from the mapped bytes on, with error collection disabled
    (the default): names, types and header_end_offset; None for failure (empty file). *)
Definition open_file (lanes : nat) (clmul : bool) (o : csv_options) (data : bytes)
  : option (list bytes * list data_type * nat) :=
  match data with
  | [] => None
  | _ =>
      match find_row_end lanes clmul (quote o) data 0 with
      | None => None
      | Some first_end =>
          let names := if has_header o then parse_header (separator o) (quote o) (slice 0 first_end data)
                       else map (fun i => 86%N :: decimal_digits (S i) (S i))
                                (seq 0 (count_columns (separator o) (quote o) (slice 0 first_end data) false 1)) in
          let header_end := if has_header o then first_end else 0 in
          match infer_from_sample lanes clmul o (skipn header_end data) (length names) (sample_rows o) with
          | None => None
          | Some types => Some (names, types, header_end)
          end
      end
  end.

(** ** Typed appending (fast_arrow_context.h:41-248); None is a null entry. *)
Inductive value := VBool (b : bool) | VInt (z : Z) | VFloat (f : F) | VString (s : bytes).

Definition true_words : list bytes := map s2b ["true"; "TRUE"; "True"; "1"; "yes"; "YES"]%string.
Definition false_words : list bytes := map s2b ["false"; "FALSE"; "False"; "0"; "no"; "NO"]%string.
(** append_bool, 187-202 *)
Definition append_bool (v : bytes) : option value :=
  if existsb (bytes_eqb v) true_words then Some (VBool true)
  else if existsb (bytes_eqb v) false_words then Some (VBool false)
  else None.

Definition of_parsed (p : parsed Z) : option value :=
  match p with Value z => Some (VInt z) | _ => None end.

(** append_string 46-49, append_int32 97-106, append_int64 154-163, append_float64 170-180,
    append_bool, append_date 209-223, append_timestamp 230-244; dispatch as in
    ArrowColumnBuilder::create (arrow_column_builder.h:584-602).  Signed negation wraps
    (the ISO C++ undefined case is treated in C15/C16). *)
Definition append_value (lanes : nat) (t : data_type) (v : bytes) : option value :=
  match t with
  | INT32 => of_parsed (parse_int32_simd false lanes v)
  | INT64 => of_parsed (parse_int64_simd false lanes v)
  | FLOAT64 => option_map VFloat (ff v)
  | BOOL => append_bool v
  | DATE => match v with [] => None | _ => option_map VInt (parse_date v) end
  | TIMESTAMP => match v with [] => None | _ => option_map VInt (parse_timestamp v) end
  | _ => Some (VString v)
  end.

(** Opening and then reading a file, with the vector width as the only machine parameter. *)
Definition read_file (lanes : nat) (clmul : bool) (num_threads : N) (ne_in : bool) (o : csv_options) (data : bytes)
  : option (list bytes * list data_type * @read_result value) :=
  match open_file lanes clmul o data with
  | None => None
  | Some (names, types, header_end) =>
      match read_all (fun k => append_value lanes (nth k types STRING)) lanes clmul (separator o) (quote o)
                     (make_null_checker (null_values o)) num_threads ne_in (length names) data header_end with
      | None => None
      | Some r => Some (names, types, r)
      end
  end.

End Inference.
Arguments VBool {F}. Arguments VInt {F}. Arguments VString {F}.

(** ** LineParser *)
Record line_nulls := mkLN { ln_set : list bytes; ln_max : nat; ln_empty : bool }.

(** init_null_values, 9-31: the loop also visits start = size. *)
Fixpoint line_null_loop (fuel : nat) (s : bytes) (start : nat) (ln : line_nulls) : line_nulls :=
  match fuel with
  | O => ln
  | S fuel' =>
      if start <=? length s then
        let n := piece_length (skipn start s) in
        let piece := firstn n (skipn start s) in
        let ln' := match piece with
                   | [] => mkLN (ln_set ln) (ln_max ln) true
                   | _ => mkLN (ln_set ln ++ [piece]) (Nat.max (ln_max ln) n) (ln_empty ln)
                   end in
        line_null_loop fuel' s (start + n + 1) ln'
      else ln
  end.
Definition init_null_values (s : bytes) : line_nulls :=
  line_null_loop (S (length s)) s 0 (mkLN [] 0 false).

(** is_null_value, 185-208. *)
Definition is_null_value (ln : line_nulls) (v : bytes) : bool :=
  match v with
  | [] => ln_empty ln
  | _ => if ln_max ln <? length v then false else existsb (fun p => bytes_eqb p v) (ln_set ln)
  end.

Section ParseLine.
Context {V : Type}.
Variable conv : nat -> bytes -> option V.
Variables (sep q : byte) (ln : line_nulls).

Definition put_field (cur : bytes) (k : nat) (cols : list (list (option V))) : list (list (option V)) :=
  let t := drop_while_end is_blank cur in
  append_at k (if is_null_value ln t then None else conv k t) cols.

(** Loop 107-159: (columns, field_index, leftover current_field, stopped at a line end). *)
Fixpoint line_loop (l : bytes) (inq : bool) (cur : bytes) (k : nat) (cols : list (list (option V)))
  : list (list (option V)) * nat * bytes :=
  match l with
  | [] => (cols, k, cur)
  | c :: rest =>
      if length cols <=? k then (cols, k, cur)
      else if negb inq && is_nl c then (put_field cur k cols, S k, [])
      else if N.eqb c q then
        match inq, rest with
        | true, c' :: rest' =>
            if N.eqb c' q then line_loop rest' inq (cur ++ [q]) k cols
            else line_loop rest (negb inq) cur k cols
        | _, _ => line_loop rest (negb inq) cur k cols
        end
      else if N.eqb c sep && negb inq then line_loop rest inq [] (S k) (put_field cur k cols)
      else if (length cur =? 0) && negb inq && is_blank c then line_loop rest inq cur k cols
      else line_loop rest inq (cur ++ [c]) k cols
  end.

(** parse_line, 96-183: new columns and the returned count. *)
Definition parse_line (l : bytes) (cols : list (list (option V))) : list (list (option V)) * nat :=
  if (length l =? 0) || (length cols =? 0) then (cols, 0)
  else
    let '(cols1, k1, cur) := line_loop l false [] 0 cols in
    let '(cols2, k2) := if (k1 <? length cols) && negb (length cur =? 0)
                        then (put_field cur k1 cols1, S k1) else (cols1, k1) in
    (fill_nulls (length cols - k2) k2 cols2, k2 + (length cols - k2)).
End ParseLine.
