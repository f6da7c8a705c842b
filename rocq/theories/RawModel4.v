(** Dialect detection written with indices and explicit reads (see RawModel).
    Models src/dialect.cpp at a lower level than DialectModel: every function gets the memory it may read ([d]; for a pointer into the
    buffer the caller loads the range it hands over) and reads it by index; a read outside is [None]. *)
From Coq Require Import SpecFloat.
From Verif Require Import Base RawModel DialectModel.

(** while (i < len and p(d[i])) ++i; *)
Fixpoint raw_while (fuel : nat) (p : byte -> bool) (d : bytes) (len i : nat) : option nat :=
  if i <? len then
    match fuel with
    | O => None
    | S f => let? c := rd d i in if p c then raw_while f p d len (i + 1) else Some i
    end
  else Some i.
(** while (end > start and p(d[end - 1])) --end; *)
Fixpoint raw_while_back (fuel : nat) (p : byte -> bool) (d : bytes) (start stop : nat) : option nat :=
  if start <? stop then
    match fuel with
    | O => None
    | S f => let? c := rd d (stop - 1) in if p c then raw_while_back f p d start (stop - 1) else Some stop
    end
  else Some stop.

(** dialect.cpp:723-747 *)
Definition raw_is_comment_line (o : options) (row : bytes) (row_len : nat) : option bool :=
  if (match comment_chars o with [] => true | _ => false end) || (row_len =? 0) then Some false
  else
    let? i := raw_while (S row_len) blank row row_len 0 in
    if row_len <=? i then Some false
    else let? c := rd row i in Some (is_comment_char o c).

(** 1111-1120 *)
Definition raw_past_eol (d : bytes) (len offset : nat) : option nat :=
  if offset <? len then
    let? c := rd d offset in
    if (c =? 13)%N then
      let? lf := peek d len (offset + 1) 10%N in Some (if lf then offset + 1 + 1 else offset + 1)
    else if (c =? 10)%N then Some (offset + 1)
    else Some offset
  else Some offset.
(** 1076-1121 *)
Fixpoint raw_skip_loop (fuel : nat) (o : options) (d : bytes) (len offset : nat) (ch : byte) (n : nat) : option (nat * byte * nat) :=
  if offset <? len then
    match fuel with
    | O => None
    | S f =>
        let line_start := offset in
        let? offset := raw_while (S len) blank d len offset in
        if len <=? offset then Some (offset, ch, n)
        else
          let? c := rd d offset in
          if negb (is_comment_char o c) then Some (line_start, ch, n)
          else
            let? offset := raw_while (S len) (fun c => negb ((c =? 10) || (c =? 13))%N) d len offset in
            let? offset := raw_past_eol d len offset in
            raw_skip_loop f o d len offset (if (ch =? 0)%N then c else ch) (S n)
    end
  else Some (offset, ch, n).
(** 1063-1126 *)
Definition raw_skip_comments (o : options) (d : bytes) (len : nat) : option (nat * byte * nat) :=
  if (len =? 0) || (match comment_chars o with [] => true | _ => false end) then Some (0, 0%N, 0)
  else raw_skip_loop (S len) o d len 0 0%N 0.

(** 790-795, 804-809 *)
Definition raw_add_row (o : options) (d : bytes) (s e : nat) (rows : list (nat * nat)) : option (list (nat * nat)) :=
  if s <? e then
    let? row := load d s (e - s) in
    let? comment := raw_is_comment_line o row (e - s) in
    Some (if negb comment then rows ++ [(s, e)] else rows)
  else Some rows.
(** 760-814 *)
Fixpoint raw_rows_loop (fuel : nat) (o : options) (dia : dialect) (d : bytes) (len i start : nat) (in_quote : bool) (rows : list (nat * nat))
    : option (list (nat * nat) * nat) :=
  if i <? len then
    match fuel with
    | O => None
    | S f =>
        let? c := rd d i in
        if is_escape dia c && (i + 1 <? len) then raw_rows_loop f o dia d len (i + 1 + 1) start in_quote rows
        else if is_quote dia c then
          let? doubled := also (double_quote dia) (peek d len (i + 1) (quote_char dia)) in
          if doubled then raw_rows_loop f o dia d len (i + 1 + 1) start in_quote rows
          else raw_rows_loop f o dia d len (i + 1) start (negb in_quote) rows
        else if negb in_quote then
          if (c =? 10)%N then
            let? cr := also (start <? i) (let? x := rd d (i - 1) in Some (x =? 13)%N) in
            let? rows' := raw_add_row o d start (if cr then i - 1 else i) rows in
            if max_rows o <=? length rows' then Some (rows', i + 1)
            else raw_rows_loop f o dia d len (i + 1) (i + 1) in_quote rows'
          else
            let? lone := also (c =? 13)%N (let? lf := peek d len (i + 1) 10%N in Some (negb lf)) in
            if lone then
              let? rows' := raw_add_row o d start i rows in
              if max_rows o <=? length rows' then Some (rows', i + 1)
              else raw_rows_loop f o dia d len (i + 1) (i + 1) in_quote rows'
            else raw_rows_loop f o dia d len (i + 1) start in_quote rows
        else raw_rows_loop f o dia d len (i + 1) start in_quote rows
    end
  else Some (rows, start).
(** 750-823 *)
Definition raw_find_rows (o : options) (dia : dialect) (d : bytes) (len : nat) : option (list (nat * nat)) :=
  if len =? 0 then Some []
  else
    let? (rows, start) := raw_rows_loop (S len) o dia d len 0 0 false [] in
    if (start <? len) && (length rows <? max_rows o) then
      let? row := load d start (len - start) in
      let? comment := raw_is_comment_line o row (len - start) in
      Some (if negb comment then rows ++ [(start, len)] else rows)
    else Some rows.

(** 863-871: the text of one field without its quotes; a start behind the stop would wrap *)
Definition raw_cell (dia : dialect) (row : bytes) (start stop : nat) : option bytes :=
  if start <=? stop then
    let? f := load row start (stop - start) in
    let? quoted := also ((2 <=? length f) && negb (quote_char dia =? 0)%N)
                     (let? a := rd f 0 in also (a =? quote_char dia)%N (let? b := rd f (length f - 1) in Some (b =? quote_char dia)%N)) in
    if quoted then load f 1 (length f - 2) else Some f
  else None.
(** 839-864; the quotes are removed at once, not in a second pass *)
Fixpoint raw_fields_loop (fuel : nat) (dia : dialect) (row : bytes) (row_len i field_start : nat) (in_quote : bool) (fields : list bytes)
    : option (list bytes) :=
  if i <? row_len then
    match fuel with
    | O => None
    | S f =>
        let? c := rd row i in
        if is_escape dia c && (i + 1 <? row_len) then raw_fields_loop f dia row row_len (i + 1 + 1) field_start in_quote fields
        else if is_quote dia c then
          let? doubled := also (double_quote dia) (peek row row_len (i + 1) (quote_char dia)) in
          if doubled then raw_fields_loop f dia row row_len (i + 1 + 1) field_start in_quote fields
          else raw_fields_loop f dia row row_len (i + 1) field_start (negb in_quote) fields
        else if negb in_quote && (c =? delimiter dia)%N then
          let? v := raw_cell dia row field_start i in
          raw_fields_loop f dia row row_len (i + 1) (i + 1) in_quote (fields ++ [v])
        else raw_fields_loop f dia row row_len (i + 1) field_start in_quote fields
    end
  else let? v := raw_cell dia row field_start row_len in Some (fields ++ [v]).
(** 825-874 *)
Definition raw_extract_fields (dia : dialect) (row : bytes) (row_len : nat) : option (list bytes) :=
  if row_len =? 0 then Some [] else raw_fields_loop (S row_len) dia row row_len 0 0 false [].

(** 647-658 *)
Fixpoint raw_ending_loop (fuel : nat) (d : bytes) (len i : nat) (crlf lf cr : bool) : option (bool * bool * bool) :=
  if i <? len then
    match fuel with
    | O => None
    | S f =>
        let? c := rd d i in
        if (c =? 13)%N then
          let? two := peek d len (i + 1) 10%N in
          if two then raw_ending_loop f d len (i + 1 + 1) true lf cr
          else raw_ending_loop f d len (i + 1) crlf lf true
        else if (c =? 10)%N then raw_ending_loop f d len (i + 1) crlf true cr
        else raw_ending_loop f d len (i + 1) crlf lf cr
    end
  else Some (crlf, lf, cr).
(** 641-671 *)
Definition raw_line_ending (d : bytes) (len : nat) : option line_ending_kind :=
  let? (crlf, lf, cr) := raw_ending_loop (S len) d len 0 false false false in
  Some (if 1 <? Nat.b2n crlf + Nat.b2n lf + Nat.b2n cr then LE_MIXED
        else if crlf then LE_CRLF else if lf then LE_LF else if cr then LE_CR else LE_UNKNOWN).

(** 31-64 *)
Definition raw_could_be_integer (d : bytes) (len : nat) : option bool :=
  if len =? 0 then Some false
  else
    let? start := raw_while (S len) blank d len 0 in
    let? stop := raw_while_back (S len) blank d start len in
    if stop <=? start then Some false
    else
      let? c := rd d start in
      let start := if sign c then start + 1 else start in
      if stop <=? start then Some false
      else let? i := raw_while (S len) digit d stop start in Some (stop <=? i).

(** to_lower(ptr[i]) == 'x' and ... *)
Fixpoint raw_lower (l : bytes) (i : nat) (word : bytes) : option bool :=
  match word with
  | [] => Some true
  | x :: r => let? c := rd l i in also (to_lower c =? x)%N (raw_lower l (i + 1) r)
  end.
(** 83-107 *)
Definition raw_special (l : bytes) (remaining : nat) : option bool :=
  if 3 <=? remaining then
    let? nan := also (remaining =? 3) (raw_lower l 0 [110; 97; 110]%N) in
    if nan then Some true
    else
      let? c := rd l 0 in
      let offset := if sign c then 1 else 0 in
      let? inf := also (3 <=? remaining - offset) (raw_lower l offset [105; 110; 102]%N) in
      if inf then
        if remaining - offset =? 3 then Some true
        else also (remaining - offset =? 8) (raw_lower l (offset + 3) [105; 110; 105; 116; 121]%N)
      else Some false
  else Some false.
(** 109-157 ([strict]) and 913-957: a number with a point or an exponent *)
Definition raw_float_shape (strict : bool) (l : bytes) (remaining : nat) : option bool :=
  let? c := rd l 0 in
  let i0 := if sign c then 1 else 0 in
  let? i1 := raw_while (S remaining) digit l remaining i0 in
  let? dot := peek l remaining i1 46%N in
  let? i2 := (if dot then raw_while (S remaining) digit l remaining (i1 + 1) else Some i1) in
  let has_digit := (i0 <? i1) || (dot && (i1 + 1 <? i2)) in
  let? exponent := also (i2 <? remaining) (let? c := rd l i2 in Some ((c =? 101) || (c =? 69))%N) in
  if exponent then
    let? s := also (i2 + 1 <? remaining) (let? c := rd l (i2 + 1) in Some (sign c)) in
    let i3 := if s then i2 + 1 + 1 else i2 + 1 in
    if strict then
      let? ok := also (i3 <? remaining) (let? c := rd l i3 in Some (digit c)) in
      if ok then let? i4 := raw_while (S remaining) digit l remaining i3 in Some (has_digit && (i4 =? remaining))
      else Some false
    else let? i4 := raw_while (S remaining) digit l remaining i3 in Some ((i3 <? i4) && has_digit && (i4 =? remaining))
  else Some (has_digit && dot && (i2 =? remaining)).
(** 67-158 *)
Definition raw_could_be_float (d : bytes) (len : nat) : option bool :=
  if len =? 0 then Some false
  else
    let? start := raw_while (S len) blank d len 0 in
    let? stop := raw_while_back (S len) blank d start len in
    if stop <=? start then Some false
    else
      let? l := load d start (stop - start) in
      let? special := raw_special l (stop - start) in
      if special then Some true else raw_float_shape true l (stop - start).

(** std::isdigit(cell[i]) and ... *)
Fixpoint raw_digits (l : bytes) (ps : list nat) : option bool :=
  match ps with
  | [] => Some true
  | i :: r => let? c := rd l i in also (digit c) (raw_digits l r)
  end.
(** 896-910 *)
Definition raw_integer_shape (l : bytes) (n : nat) : option bool :=
  let? c := rd l 0 in
  let i := if sign c then 1 else 0 in
  let? first := also (i <? n) (let? c := rd l i in Some (digit c)) in
  if first then let? j := raw_while (S n) digit l n i in Some (j =? n) else Some false.
(** 962-971, 974-985, 959-990: digits, a separator and the same again *)
Definition raw_date_pattern (l : bytes) (before : list nat) (sep1 : nat) (between : list nat) (sep2 : nat) (after : list nat) : option bool :=
  let? a := raw_digits l before in
  also a (let? s := rd l sep1 in
  also (dash_or_slash s) (let? b := raw_digits l between in
  also b (let? s2 := rd l sep2 in
  also (s2 =? s)%N (raw_digits l after)))).
Definition raw_date_shape (l : bytes) (n : nat) : option bool :=
  if (8 <=? n) && (n <=? 10) then
    let? a := also (n =? 10) (raw_date_pattern l [0; 1; 2; 3] 4 [5; 6] 7 [8; 9]) in
    let? b := also (n =? 10) (raw_date_pattern l [0; 1] 2 [3; 4] 5 [6; 7; 8; 9]) in
    Some (a || b)
  else Some false.
(** 993-1004 *)
Definition raw_time_shape (l : bytes) (n : nat) : option bool :=
  let? head := also ((n =? 5) || (n =? 8)) (let? a := raw_digits l [0; 1] in
    also a (let? c := rd l 2 in also (c =? 58)%N (raw_digits l [3; 4]))) in
  if head then
    if n =? 5 then Some true
    else let? c := rd l 5 in also (c =? 58)%N (raw_digits l [6; 7])
  else Some false.
(** 876-1038; string_view::find, substr and comparisons as in DialectModel (bounds are those of the standard library) *)
Fixpoint raw_infer_with (fuel : nat) (cell0 : bytes) : option cell_type :=
  let? start := raw_while (S (length cell0)) space cell0 (length cell0) 0 in
  let? stop := raw_while_back (S (length cell0)) space cell0 start (length cell0) in
  let? cell := load cell0 start (stop - start) in
  if length cell =? 0 then Some EMPTY
  else if existsb (same_text cell) bool_words then Some BOOLEAN
  else
    let? int := raw_integer_shape cell (length cell) in
    if int then Some INTEGER
    else
      let? fl := raw_float_shape false cell (length cell) in
      if fl then Some FLOAT
      else
        let? date := raw_date_shape cell (length cell) in
        if date then Some DATE
        else
          let? time := raw_time_shape cell (length cell) in
          if time then Some TIME
          else if 16 <=? length cell then
            match (match find_char cell 84%N with Some p => Some p | None => find_char cell 32%N end) with
            | Some p =>
                if 8 <=? p then
                  let? date_part := load cell 0 p in
                  let? time_part := load cell (p + 1) (length cell - (p + 1)) in
                  let time_part := strip_zone time_part in
                  match fuel with
                  | O => None
                  | S f =>
                      let? a := raw_infer_with f date_part in
                      match a with
                      | DATE =>
                          let? b := raw_infer_with f time_part in
                          Some (match b with TIME => DATETIME | _ => if 5 <=? length time_part then DATETIME else STRING end)
                      | _ => Some STRING
                      end
                  end
                else Some STRING
            | None => Some STRING
            end
          else Some STRING.

(** 427-440 *)
Fixpoint raw_escape_loop (fuel : nat) (d : bytes) (len i : nat) (q e : byte) (ne nd : nat) : option (nat * nat) :=
  if i + 1 <? len then
    match fuel with
    | O => None
    | S f =>
        let? esc := also (negb (e =? q)%N) (let? a := rd d i in also (a =? e)%N (let? b := rd d (i + 1) in Some (b =? q)%N)) in
        let? dbl := (let? a := rd d i in also (a =? q)%N (let? b := rd d (i + 1) in Some (b =? q)%N)) in
        raw_escape_loop f d len (i + 1) q e (ne + Nat.b2n esc) (nd + Nat.b2n dbl)
    end
  else Some (ne, nd).
(** 290-295 *)
Definition raw_first_newline (o : options) (d : bytes) (len : nat) : option nat :=
  let limit := Nat.min len (sample_size o) in
  let? i := raw_while (S limit) (fun c => negb (c =? 10)%N) d limit 0 in
  Some (if i <? limit then i + 1 else 0).
