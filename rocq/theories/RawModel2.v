(** Dates, timestamps, type sampling, opening and reading a file with explicit reads.
    Models src/schema/type_parsers.cpp:43-281, src/schema/type_inference.cpp:10-235 and
    src/reader/csv_reader.cpp:283-391, 516-713 at a lower level than DateModel and TypesModel:
    an outer [None] is a read outside the text or the buffer (or a loop that does not end). *)
From Verif Require Import Base TypesSpec WordsModel ChunkModel FieldsModel NumModel DateModel ReaderModel TypesModel RawModel.

(** ** type_parsers.cpp *)

(** A digit loop over value[i .. i+n-1] (60-74, 128-132, 201-215) *)
Fixpoint raw_digits_at (v : bytes) (i n : nat) (acc : Z) : option (option Z) :=
  match n with
  | O => Some (Some acc)
  | S n' =>
      let? c := rd v i in
      if (c <? 48)%N || (57 <? c)%N then Some None else raw_digits_at v (i + 1) n' (acc * 10 + (Z.of_N c - 48))%Z
  end.
(** 43-99 *)
Definition raw_parse_date (v : bytes) : option (option Z) :=
  if negb (length v =? 10) then Some None
  else
    let? sep := rd v 4 in
    if negb (N.eqb sep 45) && negb (N.eqb sep 47) then Some None
    else
      let? sep2 := rd v 7 in
      if negb (N.eqb sep2 sep) then Some None
      else
        let? y := raw_digits_at v 0 4 0 in
        match y with
        | None => Some None
        | Some year =>
            let? m := raw_digits_at v 5 2 0 in
            match m with
            | None => Some None
            | Some month =>
                let? d := raw_digits_at v 8 2 0 in
                match d with
                | None => Some None
                | Some day => Some (
                    if ((month <? 1) || (12 <? month))%Z then None
                    else if ((day <? 1) || (get_days_in_month year month <? day))%Z then None
                    else Some (add_months (Z.to_nat (month - 1)) year 1 (days_from_epoch_to_year year) + (day - 1))%Z)
                end
            end
        end.
(** value[i] >= '0' && value[i] <= '9' *)
Definition raw_digit (v : bytes) (i : nat) : option bool := let? c := rd v i in Some (digit_char c).
(** 104-167 *)
Definition raw_parse_timezone (v : bytes) (start_pos : nat) : option (option Z) :=
  if length v <=? start_pos then Some None
  else
    let? first := rd v start_pos in
    if N.eqb first 90 then Some (Some 0%Z)
    else if negb (N.eqb first 43) && negb (N.eqb first 45) then Some None
    else
      let p := start_pos + 1 in
      if length v <? p + 2 then Some None
      else
        let? h := raw_digits_at v p 2 0 in
        match h with
        | None => Some None
        | Some tz_hour =>
            let p := p + 2 in
            let? minute :=
              (if p <? length v then
                 let? c := rd v p in
                 let p := if N.eqb c 58 then p + 1 else p in
                 let? two := also (p + 2 <=? length v) (let? a := raw_digit v p in also a (raw_digit v (p + 1))) in
                 if two then
                   let? a := rd v p in
                   let? b := rd v (p + 1) in
                   Some (Some ((Z.of_N a - 48) * 10 + (Z.of_N b - 48))%Z)
                 else
                   let? one := also (p <? length v) (raw_digit v p) in
                   Some (if one then None else Some 0%Z)
               else Some (Some 0%Z)) in
            match minute with
            | None => Some None
            | Some tz_minute => Some (
                if ((14 <? tz_hour) || (59 <? tz_minute))%Z then None
                else let offset := (tz_hour * 60 + tz_minute)%Z in Some (if N.eqb first 45 then - offset else offset)%Z)
            end
        end.
(** 227-237: the index of the first Z, + or - from [i] on, or the size *)
Fixpoint raw_zone (fuel : nat) (v : bytes) (i : nat) : option nat :=
  if i <? length v then
    match fuel with
    | O => None
    | S f => let? c := rd v i in
             if N.eqb c 90 || N.eqb c 43 || N.eqb c 45 then Some i else raw_zone f v (i + 1)
    end
  else Some (length v).
(** 239-255; [wanted] = 6 - digits *)
Fixpoint raw_fraction (wanted : nat) (frac : Z) (v : bytes) (frac_end i : nat) : option (option Z) :=
  match wanted with
  | O => Some (Some frac)
  | S n =>
      if i <? frac_end then
        let? c := rd v i in
        if digit_char c then raw_fraction n (frac * 10 + (Z.of_N c - 48))%Z v frac_end (i + 1) else Some None
      else Some (Some (frac * 10 ^ Z.of_nat wanted)%Z)
  end.
(** 179-281 *)
Definition raw_parse_timestamp (v : bytes) : option (option Z) :=
  if length v <? 19 then Some None
  else
    let? date := view v 0 10 in
    let? dd := raw_parse_date date in
    match dd with
    | None => Some None
    | Some days =>
        let? c10 := rd v 10 in
        if negb (N.eqb c10 84) && negb (N.eqb c10 32) then Some None
        else
          let? c13 := rd v 13 in
          let? bad := (if negb (N.eqb c13 58) then Some true else let? c16 := rd v 16 in Some (negb (N.eqb c16 58))) in
          if bad then Some None
          else
            let? h := raw_digits_at v 11 2 0 in
            match h with
            | None => Some None
            | Some hour =>
                let? m := raw_digits_at v 14 2 0 in
                match m with
                | None => Some None
                | Some minute =>
                    let? s := raw_digits_at v 17 2 0 in
                    match s with
                    | None => Some None
                    | Some second =>
                        if ((23 <? hour) || (59 <? minute) || (59 <? second))%Z then Some None
                        else
                          let? dot := also (19 <? length v) (let? c := rd v 19 in Some (N.eqb c 46)) in
                          let? fz := (if dot then
                                        let? frac_end := raw_zone (length v) v 20 in
                                        let? fr := raw_fraction 6 0 v frac_end 20 in
                                        Some (option_map (fun micros => (micros, frac_end)) fr)
                                      else Some (Some (0%Z, 19))) in
                          match fz with
                          | None => Some None
                          | Some (micros, tz_start) =>
                              let? tz := (if tz_start <? length v then raw_parse_timezone v tz_start else Some (Some 0%Z)) in
                              Some (option_map (fun tz_offset_minutes =>
                                (days * 24 * 60 * 60 * 1000000 + hour * 60 * 60 * 1000000 + minute * 60 * 1000000
                                 + second * 1000000 + micros - tz_offset_minutes * 60 * 1000000)%Z) tz)
                          end
                    end
                end
            end
    end.

(** ** type_inference.cpp *)

(** && of isdigit tests *)
Fixpoint raw_all_digits (v : bytes) (l : list nat) : option bool :=
  match l with
  | [] => Some true
  | i :: r => let? b := raw_digit v i in also b (raw_all_digits v r)
  end.
(** 104-107, 119-122: value[4] is - or / and value[7] == value[4] *)
Definition raw_date_separators (v : bytes) : option bool :=
  let? c := rd v 4 in
  also (N.eqb c 45 || N.eqb c 47) (let? c7 := rd v 7 in Some (N.eqb c7 c)).
(** 103-114 *)
Definition raw_looks_date (v : bytes) : option bool :=
  if length v =? 10 then
    let? s := raw_date_separators v in also s (raw_all_digits v [0; 1; 2; 3; 5; 6; 8; 9])
  else Some false.
(** 119-133 *)
Definition raw_looks_timestamp (v : bytes) : option bool :=
  if 19 <=? length v then
    let? s := raw_date_separators v in
    also s (let? c10 := rd v 10 in
            also (N.eqb c10 84 || N.eqb c10 32) (let? c13 := rd v 13 in
            also (N.eqb c13 58) (let? c16 := rd v 16 in
            also (N.eqb c16 58) (raw_all_digits v [11; 12; 14; 15; 17; 18]))))
  else Some false.

Section Inference.
Context {F : Type}.
Variable ff : bytes -> option F.
(** 10-137; the comparisons with the configured values, the digit tests and fast_float stay as in TypesModel *)
Definition raw_infer_field (o : csv_options) (v : bytes) : option data_type :=
  match v with
  | [] => Some NA
  | _ =>
      if in_list (null_values o) v then Some NA
      else if in_list (true_values o) v then Some BOOL
      else if in_list (false_values o) v then Some BOOL
      else if looks_integer v then Some (integer_type v)
      else match ff v with
           | Some _ => Some FLOAT64
           | None =>
               let? d := raw_looks_date v in
               if d then Some DATE
               else let? t := raw_looks_timestamp v in Some (if t then TIMESTAMP else STRING)
           end
  end.
(** 173-215 on data[i .. row_end) *)
Fixpoint raw_sample_loop (fuel : nat) (sep q : byte) (d : bytes) (row_end i : nat) (inq : bool) (cur : bytes) (fields : list bytes)
    : option (list bytes) :=
  if i <? row_end then
    match fuel with
    | O => None
    | S f =>
        let? c := rd d i in
        if is_nl c then Some (fields ++ [drop_while_end is_blank cur])
        else if N.eqb c q then
          let? doubled := also inq (peek d row_end (i + 1) q) in
          if doubled then raw_sample_loop f sep q d row_end (i + 1 + 1) inq (cur ++ [q]) fields
          else raw_sample_loop f sep q d row_end (i + 1) (negb inq) cur fields
        else if N.eqb c sep && negb inq then raw_sample_loop f sep q d row_end (i + 1) inq [] (fields ++ [drop_while_end is_blank cur])
        else if (length cur =? 0) && negb inq && is_blank c then raw_sample_loop f sep q d row_end (i + 1) inq cur fields
        else raw_sample_loop f sep q d row_end (i + 1) inq (cur ++ [c]) fields
    end
  else Some (if length cur =? 0 then fields else fields ++ [drop_while_end is_blank cur]).
(** 218-221 *)
Fixpoint raw_update_types (o : csv_options) (types : list data_type) (fields : list bytes) : option (list data_type) :=
  match types, fields with
  | t :: ts, f :: fs =>
      let? x := raw_infer_field o f in
      let? r := raw_update_types o ts fs in Some (wider_type t x :: r)
  | _, _ => Some types
  end.
(** 159-225 *)
Fixpoint raw_sample_rows (fuel lanes : nat) (clmul : bool) (o : csv_options) (d : bytes) (size offset rows_left : nat) (types : list data_type)
    : option (list data_type) :=
  match fuel with
  | O => None
  | S f =>
      if (size <=? offset) || (rows_left =? 0) then Some types
      else
        let? row_end := raw_row_end lanes clmul (quote o) d size offset in
        if row_end - offset =? 0 then raw_sample_rows f lanes clmul o d size (S offset) rows_left types
        else
          let? fields := raw_sample_loop (S (row_end - offset)) (separator o) (quote o) d row_end offset false [] [] in
          let? types := raw_update_types o types fields in
          raw_sample_rows f lanes clmul o d size row_end (rows_left - 1) types
  end.
(** 139-235 *)
Definition raw_infer (lanes : nat) (clmul : bool) (o : csv_options) (d : bytes) (size n_columns max_rows : nat) : option (list data_type) :=
  let types := repeat UNKNOWN n_columns in
  if (size =? 0) || (n_columns =? 0) then Some types
  else
    let? offset := (if has_header o then raw_row_end lanes clmul (quote o) d size 0 else Some 0) in
    let? types := raw_sample_rows (S size) lanes clmul o d size offset max_rows types in
    Some (map unknown_to_string types).

(** ** csv_reader.cpp:283-391; the inner [None]: an empty file is refused *)
Definition raw_open (lanes : nat) (clmul : bool) (o : csv_options) (d : bytes) (size : nat)
    : option (option (list bytes * list data_type * nat)) :=
  if size =? 0 then Some None
  else
    let? first_end := raw_row_end lanes clmul (quote o) d size 0 in
    let? names := (if has_header o then let? row := load d 0 first_end in raw_parse_header (separator o) (quote o) row first_end
                   else let? n := raw_count_columns (S first_end) (separator o) (quote o) d first_end 0 false 1 in
                        Some (map (fun i => 86%N :: decimal_digits (S i) (S i)) (seq 0 n))) in
    let header_end := if has_header o then first_end else 0 in
    let? sample := load d header_end (size - header_end) in
    let? types := raw_infer lanes clmul o sample (size - header_end) (length names) (sample_rows o) in
    Some (Some (names, types, header_end)).

(** open, then read_all *)
Definition raw_read_file (lanes : nat) (clmul : bool) (num_threads : N) (ne_in : bool) (o : csv_options) (d : bytes) (size : nat)
    : option (option (list bytes * list data_type * @read_result (@value F))) :=
  let? op := raw_open lanes clmul o d size in
  match op with
  | None => Some None
  | Some (names, types, header_end) =>
      let? r := raw_read_all (fun k => append_value ff lanes (nth k types STRING)) lanes clmul (separator o) (quote o)
                  (make_null_checker (null_values o)) num_threads ne_in (length names) d size header_end in
      Some (Some (names, types, r))
  end.
End Inference.
