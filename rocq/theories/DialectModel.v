(** Model of the dialect detector: src/dialect.cpp and
    include/libvroom/dialect.h.  A buffer is a list of bytes; [len] is its
    length.  Doubles are IEEE binary64 values of the standard library's
    executable [SpecFloat] (round to nearest even), which is what the C++
    expressions compute on the supported platforms (SSE2 arithmetic, no
    excess precision).  Two things are left to the caller as parameters,
    because the C++ standard leaves them open: the iteration order of
    [std::unordered_map] and the result of [std::sort]. *)
From Coq Require Import SpecFloat.
From Verif Require Import Base.

(** Dialect::LineEnding, dialect.h:43 *)
Inductive line_ending_kind := LE_LF | LE_CRLF | LE_CR | LE_MIXED | LE_UNKNOWN.

(** struct Dialect, dialect.h:35-48 *)
Record dialect := mkDialect {
  delimiter : byte;
  quote_char : byte;
  escape_char : byte;
  double_quote : bool;
  line_ending : line_ending_kind;
  comment_char : byte
}.

(** struct DetectionOptions, dialect.h:112-134; [min_confidence] is never
    read by any code of src/dialect.cpp, so it is not modelled. *)
Record options := mkOptions {
  sample_size : nat;
  min_rows : nat;
  max_rows : nat;
  delimiters : list byte;
  quote_chars : list byte;
  escape_chars : list byte;
  comment_chars : list byte
}.

(** The default member values of dialect.h:113-131. *)
Definition default_options : options :=
  mkOptions 10240 2 100 [44; 59; 9; 124; 58]%N [34; 39]%N [92]%N [35]%N.

(** Default-constructed Dialect, dialect.h:36-48. *)
Definition default_dialect : dialect := mkDialect 44 34 34 true LE_UNKNOWN 0.

(** Dialect::is_valid, dialect.h:76-91 (char comparisons: a byte above 127 is
    negative as signed char and above 126 as unsigned char, rejected either
    way). *)
Definition is_valid (d : dialect) : bool :=
  if (delimiter d =? quote_char d)%N then false
  else if ((delimiter d =? 10) || (delimiter d =? 13))%N%bool then false
  else if ((quote_char d =? 10) || (quote_char d =? 13))%N%bool then false
  else if negb (delimiter d =? 9)%N && ((delimiter d <? 32) || (126 <? delimiter d))%N%bool then false
  else if ((quote_char d <? 32) || (126 <? quote_char d))%N%bool then false
  else true.

(** Dialect::validate, dialect.h:95-105: true = returns, false = throws. *)
Definition validate_passes (d : dialect) : bool :=
  if (delimiter d =? quote_char d)%N then false
  else if ((delimiter d =? 10) || (delimiter d =? 13))%N%bool then false
  else if ((quote_char d =? 10) || (quote_char d =? 13))%N%bool then false
  else true.

(** ' ' or '\t', dialect.cpp:732, :1079 *)
Definition blank (c : byte) : bool := ((c =? 32) || (c =? 9))%N.

Fixpoint drop_blanks (l : bytes) : bytes :=
  match l with
  | [] => []
  | c :: r => if blank c then drop_blanks r else l
  end.

(** [for (char c : options_.comment_chars) if (first_char == c) ...] *)
Definition is_comment_char (o : options) (c : byte) : bool :=
  existsb (fun x => (c =? x)%N) (comment_chars o).

(** DialectDetector::is_comment_line, dialect.cpp:723-747 *)
Definition is_comment_line (o : options) (row : bytes) : bool :=
  if (match comment_chars o with [] => true | _ => false end) ||
     (match row with [] => true | _ => false end)
  then false
  else match drop_blanks row with
       | [] => false
       | c :: _ => is_comment_char o c
       end.

(** ---- skip_comment_lines, dialect.cpp:1063-1126 ---- *)

(** Skip to the end of the line (lines 1106-1108): what is left, and how many
    bytes were passed. *)
Fixpoint to_eol (l : bytes) (off : nat) : bytes * nat :=
  match l with
  | [] => ([], off)
  | c :: r => if ((c =? 10) || (c =? 13))%N%bool then (l, off) else to_eol r (S off)
  end.

(** Skip the line ending, lines 1111-1120. *)
Definition past_eol (l : bytes) (off : nat) : bytes * nat :=
  match l with
  | [] => ([], off)
  | c :: r =>
      if (c =? 13)%N then
        match r with
        | c2 :: r2 => if (c2 =? 10)%N then (r2, S (S off)) else (r, S off)
        | [] => ([], S off)
        end
      else if (c =? 10)%N then (r, S off)
      else (l, off)
  end.

(** Skip leading blanks, lines 1079-1081. *)
Fixpoint past_blanks (l : bytes) (off : nat) : bytes * nat :=
  match l with
  | [] => ([], off)
  | c :: r => if blank c then past_blanks r (S off) else (l, off)
  end.

(** The outer [while (offset < len)], lines 1076-1121.  [fuel] bounds the
    number of turns; every turn that continues passes at least one byte, so
    the length of the buffer is enough (DialectProof.skip_loop_enough). *)
Fixpoint skip_loop (fuel : nat) (o : options) (l : bytes) (off : nat)
    (ch : byte) (n : nat) : nat * byte * nat :=
  match fuel with
  | O => (off, ch, n)
  | S fuel' =>
      match l with
      | [] => (off, ch, n)
      | _ =>
          let (l1, off1) := past_blanks l off in
          match l1 with
          | [] => (off1, ch, n)
          | c :: _ =>
              if negb (is_comment_char o c) then (off, ch, n)
              else
                let ch' := if (ch =? 0)%N then c else ch in
                let (l2, off2) := to_eol l1 off1 in
                let (l3, off3) := past_eol l2 off2 in
                skip_loop fuel' o l3 off3 ch' (S n)
          end
      end
  end.

(** Offset, comment character, number of comment lines. *)
Definition skip_comment_lines (o : options) (buf : bytes) : nat * byte * nat :=
  match buf, comment_chars o with
  | [], _ => (0, 0%N, 0)
  | _, [] => (0, 0%N, 0)
  | _, _ => skip_loop (length buf) o buf 0 0%N 0
  end.

(** ---- find_rows, dialect.cpp:750-823 ---- *)

(** [!dialect.double_quote && dialect.escape_char != '\0' && c == escape_char] *)
Definition is_escape (d : dialect) (c : byte) : bool :=
  negb (double_quote d) && negb (escape_char d =? 0)%N && (c =? escape_char d)%N.

(** [dialect.quote_char != '\0' && c == quote_char] *)
Definition is_quote (d : dialect) (c : byte) : bool :=
  negb (quote_char d =? 0)%N && (c =? quote_char d)%N.

(** [buf[i + 1] == x], when there is such a byte *)
Definition next_is (r : bytes) (x : byte) : bool :=
  match r with [] => false | c :: _ => (c =? x)%N end.

(** Append a row unless it is empty or a comment (lines 790-795, 804-809). *)
Definition add_row (o : options) (buf : bytes) (s e : nat)
    (rows : list (nat * nat)) : list (nat * nat) :=
  if (s <? e) && negb (is_comment_line o (slice s e buf))
  then rows ++ [(s, e)] else rows.

(** The loop of lines 760-814 on the bytes from index [i] on; result: the
    rows and the final [row_start] ([break] leaves it after the newline). *)
Fixpoint rows_loop (o : options) (d : dialect) (buf rest : bytes) (i start : nat)
    (in_quote : bool) (rows : list (nat * nat)) : list (nat * nat) * nat :=
  match rest with
  | [] => (rows, start)
  | c :: r =>
      let plain :=
        if is_quote d c then
          if double_quote d && next_is r (quote_char d) then
            match r with
            | _ :: r' => rows_loop o d buf r' (S (S i)) start in_quote rows
            | [] => (rows, start)
            end
          else rows_loop o d buf r (S i) start (negb in_quote) rows
        else if negb in_quote then
          if (c =? 10)%N then
            let e := if (start <? i) && (nth (i - 1) buf 0 =? 13)%N then i - 1 else i in
            let rows' := add_row o buf start e rows in
            if max_rows o <=? length rows' then (rows', S i)
            else rows_loop o d buf r (S i) (S i) in_quote rows'
          else if (c =? 13)%N && negb (next_is r 10%N) then
            let rows' := add_row o buf start i rows in
            if max_rows o <=? length rows' then (rows', S i)
            else rows_loop o d buf r (S i) (S i) in_quote rows'
          else rows_loop o d buf r (S i) start in_quote rows
        else rows_loop o d buf r (S i) start in_quote rows
      in
      if is_escape d c then
        match r with
        | _ :: r' => rows_loop o d buf r' (S (S i)) start in_quote rows
        | [] => plain
        end
      else plain
  end.

Definition find_rows (o : options) (d : dialect) (buf : bytes) : list (nat * nat) :=
  let (rows, start) := rows_loop o d buf buf 0 0 false [] in
  if (start <? length buf) && (length rows <? max_rows o) then
    (* lines 817-822: no emptiness test is needed, start < len *)
    if negb (is_comment_line o (slice start (length buf) buf))
    then rows ++ [(start, length buf)] else rows
  else rows.

(** ---- extract_fields, dialect.cpp:825-874 ---- *)

(** The loop of lines 839-861; [cur] is the text of the current field so far
    (data[field_start .. i)). *)
Fixpoint fields_loop (d : dialect) (rest : bytes) (in_quote : bool)
    (cur : bytes) (fields : list bytes) : list bytes :=
  match rest with
  | [] => fields ++ [cur]                                   (* line 864 *)
  | c :: r =>
      let plain :=
        if is_quote d c then
          if double_quote d && next_is r (quote_char d) then
            match r with
            | c2 :: r' => fields_loop d r' in_quote (cur ++ [c; c2]) fields
            | [] => fields
            end
          else fields_loop d r (negb in_quote) (cur ++ [c]) fields
        else if negb in_quote && (c =? delimiter d)%N then
          fields_loop d r in_quote [] (fields ++ [cur])
        else fields_loop d r in_quote (cur ++ [c]) fields
      in
      if is_escape d c then
        match r with
        | c2 :: r' => fields_loop d r' in_quote (cur ++ [c; c2]) fields
        | [] => plain
        end
      else plain
  end.

(** Lines 867-871: drop the surrounding quotes. *)
Definition strip_quotes (d : dialect) (f : bytes) : bytes :=
  if (2 <=? length f) && negb (quote_char d =? 0)%N &&
     (hd 0%N f =? quote_char d)%N && (last f 0%N =? quote_char d)%N
  then firstn (length f - 2) (skipn 1 f) else f.

Definition extract_fields (d : dialect) (row : bytes) : list bytes :=
  match row with
  | [] => []
  | _ => map (strip_quotes d) (fields_loop d row false [] [])
  end.

(** ---- detect_line_ending, dialect.cpp:641-671 ---- *)
Fixpoint ending_loop (l : bytes) (crlf lf cr : bool) : bool * bool * bool :=
  match l with
  | [] => (crlf, lf, cr)
  | c :: r =>
      if (c =? 13)%N then
        match r with
        | c2 :: r' => if (c2 =? 10)%N then ending_loop r' true lf cr
                      else ending_loop r crlf lf true
        | [] => ending_loop r crlf lf true
        end
      else if (c =? 10)%N then ending_loop r crlf true cr
      else ending_loop r crlf lf cr
  end.

Definition detect_line_ending (buf : bytes) : line_ending_kind :=
  let '(crlf, lf, cr) := ending_loop buf false false false in
  if 1 <? Nat.b2n crlf + Nat.b2n lf + Nat.b2n cr then LE_MIXED
  else if crlf then LE_CRLF
  else if lf then LE_LF
  else if cr then LE_CR
  else LE_UNKNOWN.

(** ---- cell types ---- *)

(** std::isdigit / the [< '0' || > '9'] tests *)
Definition digit (c : byte) : bool := ((48 <=? c) && (c <=? 57))%N.

Definition sign (c : byte) : bool := ((c =? 45) || (c =? 43))%N.

Fixpoint drop_digits (l : bytes) : bytes :=
  match l with
  | [] => []
  | c :: r => if digit c then drop_digits r else l
  end.

(** Blanks removed at both ends (lines 38-44, 72-76). *)
Definition trim_blanks (l : bytes) : bytes :=
  rev (drop_blanks (rev (drop_blanks l))).

(** could_be_integer, dialect.cpp:31-64 *)
Definition could_be_integer (f : bytes) : bool :=
  match trim_blanks f with
  | [] => false
  | c :: r =>
      if sign c then match r with [] => false | _ => forallb digit r end
      else forallb digit (c :: r)
  end.

(** The lambda [to_lower], line 86 *)
Definition to_lower (c : byte) : byte :=
  if ((65 <=? c) && (c <=? 90))%N then (c + 32)%N else c.

Definition same_text (a b : bytes) : bool :=
  (length a =? length b) && forallb (fun p => (fst p =? snd p)%N) (combine a b).

(** Lines 117-153, also dialect.cpp:927-969: sign? digits* (. digits* )?
    (e sign? digits+)?, with a digit before the exponent and a point or an
    exponent.  The two copies differ only in how they give up on an exponent
    without digits (return false at once, or a flag tested at the end). *)
Definition float_shape (l : bytes) : bool :=
  let l0 := match l with c :: r => if sign c then r else l | [] => l end in
  let l1 := drop_digits l0 in
  let d1 := length l1 <? length l0 in
  let '(dot, d2, l2) :=
    match l1 with
    | c :: r => if (c =? 46)%N then (true, d1 || (length (drop_digits r) <? length r), drop_digits r)
                else (false, d1, l1)
    | [] => (false, d1, l1)
    end in
  match l2 with
  | c :: r =>
      if ((c =? 101) || (c =? 69))%N%bool then
        let r' := match r with c2 :: r2 => if sign c2 then r2 else r | [] => r end in
        match r' with
        | c3 :: _ => digit c3 && d2 && (match drop_digits r' with [] => true | _ => false end)
        | [] => false
        end
      else false
  | [] => d2 && dot
  end.

(** could_be_float, dialect.cpp:67-158 *)
Definition could_be_float (f : bytes) : bool :=
  match trim_blanks f with
  | [] => false
  | c :: r =>
      let l := c :: r in
      let low := map to_lower l in
      let u := if sign c then map to_lower r else low in
      if same_text low [110; 97; 110]%N then true
      else if (3 <=? length l) &&
              (same_text u [105; 110; 102]%N ||
               same_text u [105; 110; 102; 105; 110; 105; 116; 121]%N) then true
      else float_shape l
  end.

(** std::isspace in the C locale *)
Definition space (c : byte) : bool := ((c =? 32) || ((9 <=? c) && (c <=? 13)))%N.

Fixpoint drop_spaces (l : bytes) : bytes :=
  match l with
  | [] => []
  | c :: r => if space c then drop_spaces r else l
  end.

Definition trim_spaces (l : bytes) : bytes :=
  rev (drop_spaces (rev (drop_spaces l))).

Inductive cell_type := EMPTY | INTEGER | FLOAT | DATE | DATETIME | TIME | BOOLEAN | STRING.

(** The six literals of line 890. *)
Definition bool_words : list bytes :=
  [[116; 114; 117; 101]; [102; 97; 108; 115; 101]; [84; 82; 85; 69];
   [70; 65; 76; 83; 69]; [84; 114; 117; 101]; [70; 97; 108; 115; 101]]%N.

(** Lines 896-911 *)
Definition integer_shape (l : bytes) : bool :=
  let r := match l with c :: r => if sign c then r else l | [] => l end in
  match r with
  | [] => false
  | _ => forallb digit r
  end.

(** One pattern character of the date and time tests: a digit, or one given
    separator. *)
Definition digits_at (l : bytes) (ps : list nat) : bool :=
  forallb (fun p => digit (nth p l 0%N)) ps.

Definition dash_or_slash (c : byte) : bool := ((c =? 45) || (c =? 47))%N.

(** Lines 972-1000 *)
Definition date_shape (l : bytes) : bool :=
  (length l =? 10) &&
  ((digits_at l [0; 1; 2; 3; 5; 6; 8; 9] && dash_or_slash (nth 4 l 0%N) &&
    (nth 7 l 0 =? nth 4 l 0)%N) ||
   (digits_at l [0; 1; 3; 4; 6; 7; 8; 9] && dash_or_slash (nth 2 l 0%N) &&
    (nth 5 l 0 =? nth 2 l 0)%N)).

(** Lines 1003-1014 *)
Definition time_shape (l : bytes) : bool :=
  if ((length l =? 5) || (length l =? 8)) && digits_at l [0; 1; 3; 4] &&
     (nth 2 l 0 =? 58)%N
  then (length l =? 5) || ((nth 5 l 0 =? 58)%N && digits_at l [6; 7])
  else false.

(** string_view::find for one character *)
Fixpoint find_char (l : bytes) (x : byte) : option nat :=
  match l with
  | [] => None
  | c :: r => if (c =? x)%N then Some 0 else option_map S (find_char r x)
  end.

(** Lines 1025-1036: the time part with a zone suffix removed. *)
Definition strip_zone (t : bytes) : bytes :=
  let t1 := match t with [] => [] | _ => if (last t 0 =? 90)%N then removelast t else t end in
  match find_char t1 43%N with
  | Some p => if 0 <? p then firstn p t1
              else match find_char t1 45%N with
                   | Some m => if 5 <? m then firstn m t1 else t1
                   | None => t1
                   end
  | None => match find_char t1 45%N with
            | Some m => if 5 <? m then firstn m t1 else t1
            | None => t1
            end
  end.

(** infer_cell_type, dialect.cpp:876-1038.  The recursive calls are on a
    proper part of the cell; [fuel] is the length of the cell. *)
Fixpoint infer_with (fuel : nat) (cell0 : bytes) : cell_type :=
  let cell := trim_spaces cell0 in
  match cell with
  | [] => EMPTY
  | _ =>
      if existsb (same_text cell) bool_words then BOOLEAN
      else if integer_shape cell then INTEGER
      else if float_shape cell then FLOAT
      else if date_shape cell then DATE
      else if time_shape cell then TIME
      else if 16 <=? length cell then
        match (match find_char cell 84%N with Some p => Some p | None => find_char cell 32%N end) with
        | Some p =>
            if 8 <=? p then
              let time_part := strip_zone (skipn (S p) cell) in
              match fuel with
              | O => STRING
              | S fuel' =>
                  match infer_with fuel' (firstn p cell) with
                  | DATE =>
                      match infer_with fuel' time_part with
                      | TIME => DATETIME
                      | _ => if 5 <=? length time_part then DATETIME else STRING
                      end
                  | _ => STRING
                  end
              end
            else STRING
        | None => STRING
        end
      else STRING
  end.

Definition infer_cell_type (cell : bytes) : cell_type := infer_with (length cell) cell.

(** ---- candidates ---- *)

(** generate_candidates, dialect.cpp:380-418 *)
Definition generate_candidates (o : options) : list dialect :=
  flat_map (fun delim =>
    flat_map (fun quote =>
      mkDialect delim quote quote true LE_UNKNOWN 0 ::
      map (fun esc => mkDialect delim quote esc false LE_UNKNOWN 0)
          (filter (fun esc => negb (esc =? quote)%N) (escape_chars o)))
      (quote_chars o) ++
    [mkDialect delim 0 0 false LE_UNKNOWN 0])
    (delimiters o).

(** ---- scores ---- *)
Definition of_size (n : nat) : spec_float := binary_normalize 53 1024 (Z.of_nat n) 0 false.
Definition of_lit (num den : Z) : spec_float :=
  SFdiv 53 1024 (binary_normalize 53 1024 num 0 false) (binary_normalize 53 1024 den 0 false).
Definition fdiv := SFdiv 53 1024.
Definition fmul := SFmul 53 1024.
Definition fsub := SFsub 53 1024.
Definition fsqrt := SFsqrt 53 1024.
(** [a < b] *)
Definition flt (a b : spec_float) : bool := SFltb a b.
(** std::max(a, b): [(a < b) ? b : a] *)
Definition fmax (a b : spec_float) : spec_float := if flt a b then b else a.

Definition lit_0 : spec_float := S754_zero false.
Definition lit_0_1 := of_lit 1 10.
Definition lit_0_5 := of_lit 5 10.
Definition lit_0_6 := of_lit 6 10.
Definition lit_0_8 := of_lit 8 10.
Definition lit_0_9 := of_lit 9 10.
Definition lit_1_1 := of_lit 11 10.
Definition lit_1_2 := of_lit 12 10.
Definition lit_1e_9 := of_lit 1 1000000000.
Definition lit_1e_10 := of_lit 1 10000000000.

(** [count_freq[c]++] for every c, dialect.cpp:464-467, 539-542: the table in
    order of first insertion. *)
Fixpoint bump (c : nat) (t : list (nat * nat)) : list (nat * nat) :=
  match t with
  | [] => [(c, 1)]
  | (k, n) :: t' => if k =? c then (k, S n) :: t' else (k, n) :: bump c t'
  end.

Definition count_freq (counts : list nat) : list (nat * nat) :=
  fold_left (fun t c => bump c t) counts [].

(** Lines 469-474: the first entry, in iteration order, of the highest
    frequency; result (modal_count, modal_freq). *)
Definition modal (entries : list (nat * nat)) : nat * nat :=
  fold_left (fun acc e => if snd acc <? snd e then e else acc) entries (0, 0).

(** The texts of the rows of a sample. *)
Definition row_texts (o : options) (d : dialect) (buf : bytes) : list bytes :=
  map (fun r => slice (fst r) (snd r) buf) (find_rows o d buf).

(** compute_pattern_score, dialect.cpp:514-551: the score and
    [row_field_counts]. *)
Definition pattern_score (o : options) (d : dialect) (buf : bytes) : spec_float * list nat :=
  let rows := row_texts o d buf in
  if length rows <? min_rows o then (lit_0, [])
  else
    let counts := map (fun r => length (extract_fields d r)) rows in
    match counts with
    | [] => (lit_0, [])
    | _ =>
        (fdiv (of_size (fold_left (fun m e => Nat.max m (snd e)) (count_freq counts) 0))
              (of_size (length counts)), counts)
    end.

(** A cell counted as typed: dialect.cpp:606-634. *)
Definition typed_cell (f : bytes) : bool :=
  could_be_integer f || could_be_float f ||
  (match infer_cell_type f with STRING => false | _ => true end).

(** compute_type_score, dialect.cpp:553-639 *)
Definition type_score (o : options) (d : dialect) (buf : bytes) : spec_float :=
  let rows := row_texts o d buf in
  match rows with
  | [] => lit_0
  | _ =>
      let body := if 1 <? length rows then skipn 1 rows else rows in
      let cells := flat_map (extract_fields d) body in
      match cells with
      | [] => lit_0
      | _ => fmax lit_1e_10 (fdiv (of_size (length (filter typed_cell cells)))
                                  (of_size (length cells)))
      end
  end.

(** detect_escape_pattern, dialect.cpp:422-448 (the int counters cannot
    overflow: the sample is at most a few MB unless the caller sets a larger
    sample size). *)
Fixpoint escape_counts (l : bytes) (q e : byte) : nat * nat :=
  match l with
  | a :: r =>
      match r with
      | b :: _ =>
          let (ne, nd) := escape_counts r q e in
          (Nat.b2n (negb (e =? q)%N && (a =? e)%N && (b =? q)%N) + ne,
           Nat.b2n ((a =? q)%N && (b =? q)%N) + nd)
      | [] => (0, 0)
      end
  | [] => (0, 0)
  end.

Definition detect_escape_pattern (buf : bytes) (q e : byte) : Z :=
  let (ne, nd) := escape_counts buf q e in
  if (0 <? ne) && (nd =? 0) then Z.of_nat ne
  else if (0 <? nd) && (ne =? 0) then (- Z.of_nat nd)%Z
  else 0%Z.

(** struct DialectCandidate, dialect.h:139-145 *)
Record candidate := mkCandidate {
  cand_dialect : dialect;
  cand_pattern : spec_float;
  cand_type : spec_float;
  cand_score : spec_float;
  cand_columns : nat
}.

(** score_dialect, dialect.cpp:450-512.  [order] is the iteration order of the
    unordered_map of lines 464-474. *)
Definition score_dialect (order : list (nat * nat) -> list (nat * nat))
    (o : options) (d : dialect) (buf : bytes) : candidate :=
  let (pat, counts) := pattern_score o d buf in
  match counts with
  | [] => mkCandidate d pat lit_0 lit_0 0
  | _ =>
      let cols := fst (modal (order (count_freq counts))) in
      let typ := type_score o d buf in
      let base :=
        if flt lit_0_9 pat && (1 <? cols) then
          fmul pat (fmax lit_0_6 (fsqrt (fmax lit_0_1 typ)))
        else if flt lit_0_8 pat && (1 <? cols) then
          fmul pat (fsqrt (fmax lit_0_1 typ))
        else fmul pat typ in
      let score :=
        if negb (quote_char d =? 0)%N then
          let esc := if double_quote d then 0%N else escape_char d in
          if negb (esc =? 0)%N then
            let s := detect_escape_pattern buf (quote_char d) esc in
            if (0 <? s)%Z && negb (double_quote d) then fmul base lit_1_2
            else if (s <? 0)%Z && double_quote d then fmul base lit_1_2
            else base
          else if double_quote d then
            if (detect_escape_pattern buf (quote_char d) (quote_char d) <? 0)%Z
            then fmul base lit_1_1 else base
          else base
        else base in
      mkCandidate d pat typ score cols
  end.

(** DialectCandidate::operator<, dialect.h:147-176 *)
Definition cand_lt (a b : candidate) : bool :=
  let diff := fsub (cand_score a) (cand_score b) in
  if flt lit_1e_9 diff then true
  else if flt diff (SFopp lit_1e_9) then false
  else if negb (cand_columns a =? cand_columns b) then cand_columns b <? cand_columns a
  else
    let da := cand_dialect a in
    let db := cand_dialect b in
    if negb (quote_char da =? quote_char db)%N then (quote_char da =? 34)%N
    else if negb (Bool.eqb (double_quote da) (double_quote db)) then double_quote da
    else if negb (delimiter da =? delimiter db)%N then (delimiter da =? 44)%N
    else false.

(** detect_header, dialect.cpp:673-720 *)
Definition detect_header (o : options) (d : dialect) (buf : bytes) : bool :=
  match row_texts o d buf with
  | h :: r :: _ =>
      let hf := extract_fields d h in
      let df := extract_fields d r in
      if (length hf =? 0) || (length df =? 0) then false
      else
        let strings := length (filter (fun f =>
          (match infer_cell_type f with STRING => true | _ => false end) &&
          negb (length f =? 0)) hf) in
        let non_empty := length (filter (fun f => negb (length f =? 0)) hf) in
        let typed := length (filter (fun f =>
          match infer_cell_type f with STRING => false | EMPTY => false | _ => true end) df) in
        let ratio := if 0 <? non_empty then fdiv (of_size strings) (of_size non_empty) else lit_0 in
        flt lit_0_5 ratio && ((0 <? typed) || (strings =? length hf))
  | _ => false
  end.

(** The possible values of [warning], dialect.cpp:261-372. *)
Inductive warning := NoWarning | EmptyInput | OnlyComments | Ambiguous | NotDetected | NotOpened.

(** struct DetectionResult, dialect.h:182-203 *)
Record result := mkResult {
  res_dialect : dialect;
  res_confidence : spec_float;
  res_header : bool;
  res_columns : nat;
  res_rows : nat;
  res_warning : warning;
  res_comment : byte;
  res_comment_lines : nat;
  res_candidates : list candidate
}.

(** DetectionResult::success, dialect.h:202 *)
Definition success (r : result) : bool := flt lit_0_5 (res_confidence r).

(** 1 MB, dialect.cpp:308, :315 *)
Definition MAX_ADAPTIVE_SAMPLE : nat := 1024 * 1024.

(** Lines 291-299: index after the first LF of the first sample_size bytes, 0
    if there is none. *)
Definition first_newline (o : options) (data : bytes) : nat :=
  match find_char (firstn (sample_size o) data) 10%N with
  | Some i => S i
  | None => 0
  end.

(** Lines 285-319: length of the sample (size_t arithmetic without wrap-around
    in [first_newline * (min_rows + 1)] and [sample_size * 4]). *)
Definition sample_len (o : options) (data : bytes) : nat :=
  let fn := first_newline o data in
  let eff :=
    if 0 <? fn then
      let needed := fn * (min_rows o + 1) in
      if sample_size o <? needed then Nat.min needed MAX_ADAPTIVE_SAMPLE else sample_size o
    else if sample_size o <? length data then Nat.min (sample_size o * 4) MAX_ADAPTIVE_SAMPLE
    else sample_size o in
  Nat.min (length data) eff.

Definition set_line_ending (d : dialect) (e : line_ending_kind) (c : byte) : dialect :=
  mkDialect (delimiter d) (quote_char d) (escape_char d) (double_quote d) e c.

(** DialectDetector::detect, dialect.cpp:258-376.  [sort] is what std::sort
    makes of the candidate list. *)
Definition detect (sort : list candidate -> list candidate)
    (order : list (nat * nat) -> list (nat * nat)) (o : options) (buf : bytes) : result :=
  match buf with
  | [] => mkResult default_dialect lit_0 false 0 0 EmptyInput 0 0 []
  | _ =>
      let '(off, ch, n) := skip_comment_lines o buf in
      let data := skipn off buf in
      match data with
      | [] => mkResult default_dialect lit_0 false 0 0 OnlyComments ch n []
      | _ =>
          let sample := firstn (sample_len o data) data in
          let cands := sort (map (fun d => score_dialect order o d sample) (generate_candidates o)) in
          let ending := detect_line_ending sample in
          match cands with
          | best :: others =>
              if flt lit_0 (cand_score best) then
                let d := set_line_ending (cand_dialect best) ending ch in
                let warn :=
                  match others with
                  | second :: _ =>
                      if flt (fmul lit_0_9 (cand_score best)) (cand_score second)
                      then Ambiguous else NoWarning
                  | [] => NoWarning
                  end in
                mkResult d (cand_score best) (detect_header o d sample) (cand_columns best)
                         (length (find_rows o d sample)) warn ch n cands
              else mkResult (set_line_ending default_dialect ending 0) lit_0 false 0 0
                            NotDetected ch n cands
          | [] => mkResult (set_line_ending default_dialect ending 0) lit_0 false 0 0
                           NotDetected ch n cands
          end
      end
  end.

(** DialectDetector::detect_file, dialect.cpp:362-376: [None] = the file cannot
    be opened; otherwise only its first sample_size bytes are read. *)
Definition detect_file (sort : list candidate -> list candidate)
    (order : list (nat * nat) -> list (nat * nat)) (o : options) (file : option bytes) : result :=
  match file with
  | None => mkResult default_dialect lit_0 false 0 0 NotOpened 0 0 []
  | Some content => detect sort order o (firstn (sample_size o) content)
  end.
