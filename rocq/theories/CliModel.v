(** Model of the command-line tool: src/cli.cpp.  Standard output and the exit
    code are modelled, standard error is not.  Error collection does not change
    what is printed on standard output for inputs that are read, and is left
    out (DISABLED, as by default). *)
From Verif Require Import Base TypesSpec WordsModel ChunkModel FieldsModel NumModel DateModel DateSpec ReaderModel TypesModel
  MmapModel.

(** ** Printing values *)

(** outputRow, lines 155-178 *)
Definition needs_quote (d q : byte) (f : bytes) : bool :=
  existsb (N.eqb d) f || existsb (N.eqb q) f || existsb (N.eqb LF) f || existsb (N.eqb CR) f.
Definition output_field (d q : byte) (f : bytes) : bytes :=
  if needs_quote d q f then q :: flat_map (fun c => if N.eqb c q then [q; c] else [c]) f ++ [q] else f.
Fixpoint output_fields (d q : byte) (first : bool) (row : list bytes) : bytes :=
  match row with
  | [] => []
  | f :: r => (if first then [] else [d]) ++ output_field d q f ++ output_fields d q false r
  end.
Definition output_row (d q : byte) (row : list bytes) : bytes := output_fields d q true row ++ [LF].

(** std::to_string of an unsigned and of a signed number. *)
Fixpoint digits_of (fuel : nat) (n : N) : bytes :=
  match fuel with
  | O => []
  | S f => (if (n <? 10)%N then [] else digits_of f (n / 10)%N) ++ [(48 + n mod 10)%N]
  end.
Definition to_string_N (n : N) : bytes := digits_of (S (N.size_nat n)) n.
Definition to_string (z : Z) : bytes :=
  if (z <? 0)%Z then 45%N :: to_string_N (Z.to_N (- z)) else to_string_N (Z.to_N z).

(** gmtime of the C library, by the Gregorian calendar (only for days from
    year 0 on, which are all the parsers produce, but for one day). *)
Fixpoint find_year (fuel : nat) (y days : Z) : Z * Z :=
  match fuel with
  | O => (y, days)
  | S f => if (days <? year_length y)%Z then (y, days) else find_year f (y + 1)%Z (days - year_length y)%Z
  end.
Fixpoint find_month (fuel : nat) (y m days : Z) : Z * Z :=
  match fuel with
  | O => (m, days)
  | S f => if (days <? month_length y m)%Z then (m, days) else find_month f y (m + 1)%Z (days - month_length y m)%Z
  end.
Definition gmtime_date (days : Z) : Z * Z * Z :=
  let n := (days + 719528)%Z in
  let (y, r) := find_year (S (Z.to_nat (n / 365))) 0%Z n in
  let (m, r') := find_month 12 y 1%Z r in
  (y, m, (r' + 1)%Z).

(** strftime: %m %d %H %M %S have two digits; C leaves open whether %Y is
    padded (glibc does not). *)
Definition two (n : Z) : bytes := [(48 + Z.to_N (n / 10))%N; (48 + Z.to_N (n mod 10))%N].
Definition show_year (pad : bool) (y : Z) : bytes :=
  let t := to_string y in
  if pad then repeat 48%N (4 - length t) ++ t else t.
Definition show_date (pad : bool) (days : Z) : bytes :=
  let '(y, m, d) := gmtime_date days in
  show_year pad y ++ [45%N] ++ two m ++ [45%N] ++ two d.
(** [us / 1000000] truncates towards zero (line 145). *)
Definition show_timestamp (pad : bool) (us : Z) : bytes :=
  let t := Z.quot us 1000000 in
  let days := (t / 86400)%Z in
  let s := (t mod 86400)%Z in
  show_date pad days ++ [84%N] ++ two (s / 3600) ++ [58%N] ++ two (s / 60 mod 60) ++ [58%N] ++ two (s mod 60).

(** getColumnValueAsString, lines 94-152.  How a double is printed (six
    significant digits) is a parameter. *)
Definition value_text {F} (show_float : F -> bytes) (pad : bool) (t : data_type) (v : option (@value F)) : bytes :=
  match v with
  | None => []
  | Some (VBool b) => if b then s2b "true" else s2b "false"
  | Some (VFloat f) => show_float f
  | Some (VString s) => s
  | Some (VInt z) => match t with
                     | DATE => show_date pad z
                     | TIMESTAMP => show_timestamp pad z
                     | _ => to_string z
                     end
  end.

(** ** Commands *)

(** What the tool is given: standard input, or a path and what the system
    answers (a message, or the content). *)
Inductive input := Stdin (content : bytes) | File (path : bytes) (answer : bytes + bytes).

(** Exit code and standard output; [Throws]: an uncaught exception. *)
Inductive outcome := Exit (code : nat) (out : bytes) | Throws.

(** std::string::find(pattern) != npos *)
Fixpoint has_prefix (p l : bytes) : bool :=
  match p, l with
  | [], _ => true
  | a :: p', b :: l' => N.eqb a b && has_prefix p' l'
  | _ :: _, [] => false
  end.
Fixpoint contains (p l : bytes) : bool :=
  has_prefix p l || match l with [] => false | _ :: r => contains p r end.

Section Commands.
Context {F : Type}.
Variable ff : bytes -> option F.
Variable show_float : F -> bytes.
Variables (pad : bool) (lanes : nat) (clmul : bool) (num_threads : N) (ne_in : bool) (o : csv_options).

(** What the common preamble of the commands obtains: an early exit with the
    text [empty], or the names, types and table (e.g. lines 573-626). *)
Inductive got := Early (r : outcome) | Table (names : list bytes) (types : list data_type) (t : @read_result (@value F)).
Definition load (empty : bytes) (i : input) : got :=
  let reading c := match read_file ff lanes clmul num_threads ne_in o c with
                   | Some (ns, ts, t) => Table ns ts t
                   | None => Early (Exit 1 [])
                   end in
  match i with
  | Stdin [] => Early (Exit 0 empty)
  | Stdin c => reading c
  | File path (inl message) =>
      if contains (s2b "Empty file") (message ++ path) then Early (Exit 0 empty) else Early (Exit 1 [])
  | File path (inr []) => Early (Exit 0 empty)
  | File path (inr c) => reading c
  end.

(** cmd_count, lines 548-614 *)
Definition count (i : input) : outcome :=
  match load (s2b "0" ++ [LF]) i with
  | Early r => r
  | Table _ _ t => Exit 0 (to_string_N (N.of_nat (total_rows t)) ++ [LF])
  end.

(** Row [i] of a chunk, as text (lines 701-704). *)
Definition chunk_row (types : list data_type) (chunk : list (list (option (@value F)))) (i : nat) : list bytes :=
  map (fun tc => value_text show_float pad (fst tc) (nth i (snd tc) None)) (combine types chunk).

(** The loop over chunks and rows of head and pretty, lines 691-709: at most
    [n] rows. *)
Fixpoint first_rows (types : list data_type) (chunks : list (list (list (option (@value F))))) (n : nat) : list (list bytes) :=
  match chunks with
  | [] => []
  | chunk :: r =>
      match chunk with
      | [] => first_rows types r n
      | col :: _ =>
          let k := Nat.min (length col) n in
          map (chunk_row types chunk) (seq 0 k) ++ if n <=? k then [] else first_rows types r (n - k)
      end
  end.

(** cmd_head, lines 620-713 *)
Definition head (n : nat) (i : input) : outcome :=
  match load [] i with
  | Early r => r
  | Table names types t =>
      match chunks t with
      | [] => Exit 0 []
      | cs => Exit 0 (concat (map (output_row (separator o) (quote o))
                       ((if has_header o then [names] else []) ++ first_rows types cs n)))
      end
  end.

(** std::stoul: leading white space, a sign, the longest run of digits; wraps
    for a minus sign; None if it throws. *)
Definition is_space (c : byte) : bool := N.eqb c 32 || ((9 <=? c)%N && (c <=? 13)%N).
Fixpoint skip_space (l : bytes) : bytes :=
  match l with [] => [] | c :: r => if is_space c then skip_space r else l end.
Definition digitb (c : byte) : bool := (48 <=? c)%N && (c <=? 57)%N.
Fixpoint read_digits (l : bytes) (acc : N) : N :=
  match l with
  | [] => acc
  | c :: r => if digitb c then read_digits r (10 * acc + (c - 48))%N else acc
  end.
Definition stoul (l : bytes) : option N :=
  let l1 := skip_space l in
  let negative := match l1 with c :: _ => N.eqb c 45 | [] => false end in
  let l2 := match l1 with c :: r => if N.eqb c 45 || N.eqb c 43 then r else l1 | [] => [] end in
  match l2 with
  | c :: _ =>
      if digitb c then
        let n := read_digits l2 0 in
        if (n <? 2 ^ 64)%N then Some (if negative then ((2 ^ 64 - n) mod 2 ^ 64)%N else n) else None
      else None
  | [] => None
  end.

(** getline(ss, spec, ','): the pieces between commas; an empty last piece does
    not count (line 893). *)
Fixpoint get_lines (l cur : bytes) : list bytes :=
  match l with
  | [] => match cur with [] => [] | _ => [cur] end
  | c :: r => if N.eqb c COMMA then cur :: get_lines r [] else get_lines r (cur ++ [c])
  end.

(** find_first_not_of, find_last_not_of and substr, lines 895-899; None when
    there is nothing but blanks. *)
Fixpoint drop_blanks (l : bytes) : bytes :=
  match l with [] => [] | c :: r => if N.eqb c 32 || N.eqb c 9 then drop_blanks r else l end.
Definition trim (l : bytes) : bytes := rev (drop_blanks (rev (drop_blanks l))).

Fixpoint find_name (name : bytes) (names : list bytes) (i : nat) : option nat :=
  match names with
  | [] => None
  | n :: r => if bytes_eqb n name then Some i else find_name name r (S i)
  end.

(** Lines 890-930.  ::isdigit on a negative char is undefined in C; here it is
    false, as in the usual libraries. *)
Inductive choice := Chosen (l : list nat) | Refused | ChoiceThrows.
Fixpoint choose (names : list bytes) (specs : list bytes) (acc : list nat) : choice :=
  match specs with
  | [] => Chosen acc
  | s :: r =>
      match trim s with
      | [] => choose names r acc
      | s' =>
          if forallb digitb s' then
            match stoul s' with
            | None => ChoiceThrows
            | Some n => if (N.of_nat (length names) <=? n)%N then Refused
                        else choose names r (acc ++ [N.to_nat n])
            end
          else if has_header o then
            match find_name s' names 0 with
            | Some i => choose names r (acc ++ [i])
            | None => Refused
            end
          else Refused
      end
  end.

(** Lines 963-974 *)
Definition selected_row (types : list data_type) (chunk : list (list (option (@value F)))) (idx : list nat) (i : nat) : list bytes :=
  map (fun k => value_text show_float pad (nth k types STRING) (nth i (nth k chunk []) None)) idx.
Definition selected_rows (types : list data_type) (idx : list nat) (chunk : list (list (option (@value F)))) : list (list bytes) :=
  match chunk with
  | [] => []
  | col :: _ => map (selected_row types chunk idx) (seq 0 (length col))
  end.

(** cmd_select, lines 836-978; [columns] is the value of -c, [] if none. *)
Definition select (columns : bytes) (i : input) : outcome :=
  match columns with
  | [] => Exit 1 []
  | _ =>
      match load [] i with
      | Early r => r
      | Table names types t =>
          match choose names (get_lines columns []) [] with
          | ChoiceThrows => Throws
          | Refused => Exit 1 []
          | Chosen [] => Exit 1 []
          | Chosen idx =>
              Exit 0 (concat (map (output_row (separator o) (quote o))
                ((if has_header o then [map (fun k => nth k names []) idx] else []) ++
                 concat (map (selected_rows types idx) (chunks t)))))
          end
      end
  end.

(** ** pretty *)
Definition MAX_COLUMN_WIDTH : nat := 40.
(** Lines 1065-1087 *)
Definition num_columns (rows : list (list bytes)) : nat := fold_left (fun n row => Nat.max n (length row)) rows 0.
Definition widths (rows : list (list bytes)) : list nat :=
  map (fun k => Nat.min (fold_left (fun w row => Nat.max w (length (nth k row []))) rows 0) MAX_COLUMN_WIDTH)
      (seq 0 (num_columns rows)).
(** printSep, lines 1084-1090 *)
Definition sep_line (ws : list nat) : bytes :=
  43%N :: concat (map (fun w => repeat 45%N (w + 2) ++ [43%N]) ws) ++ [LF].
(** Lines 1098-1113 *)
Definition fit (w : nat) (v : bytes) : bytes :=
  if w <? length v then (if 3 <? w then firstn (w - 3) v ++ s2b "..." else firstn w v) else v.
Definition pretty_cell (w : nat) (v : bytes) : bytes :=
  let v' := fit w v in
  32%N :: v' ++ (if length v' <? w then repeat 32%N (w - length v') else []) ++ [32%N; 124%N].
Definition pretty_line (ws : list nat) (row : list bytes) : bytes :=
  124%N :: concat (map (fun kw => pretty_cell (snd kw) (nth (fst kw) row [])) (combine (seq 0 (length ws)) ws)) ++ [LF].
(** Lines 1093-1122 *)
Definition boxed (header : bool) (rows : list (list bytes)) : bytes :=
  let ws := widths rows in
  sep_line ws ++
  concat (map (fun ir => pretty_line ws (snd ir) ++ (if header && (fst ir =? 0) then sep_line ws else []))
              (combine (seq 0 (length rows)) rows)) ++
  sep_line ws.

(** cmd_pretty, lines 984-1124 *)
Definition pretty (n : nat) (i : input) : outcome :=
  match load [] i with
  | Early r => r
  | Table names types t =>
      let rows := (if has_header o then [names] else []) ++ first_rows types (chunks t) n in
      match rows with
      | [] => Exit 0 []
      | _ => Exit 0 (boxed (has_header o) rows)
      end
  end.
End Commands.

(** ** Options *)
Inductive mode := Disabled | FailFast | Collecting.
(** CommonOptions, lines 262-275 *)
Record settings := mkSettings {
  in_path : bytes; delimiter : byte; quoting : byte; header : bool; threads : N; rows : N;
  progress : bool; verbose : bool; error_mode : mode; max_errors : N; columns : bytes
}.
Definition defaults : settings :=
  mkSettings [] COMMA DQ true 0 10 false false Disabled 10000 [].

Inductive parse := Parsed (s : settings) | Stopped (s : settings) (ignored : list bytes) | Missing | Help | ParseThrows.

Definition is (a : bytes) (s : string) : bool := bytes_eqb a (s2b s).
Definition first_char (a : bytes) : byte := match a with c :: _ => c | [] => 0%N end.

(** Lines 296-318 *)
Definition delimiter_of (v : bytes) : option byte :=
  if is v "\t" || is v "tab" then Some TAB
  else if is v "comma" then Some COMMA
  else if is v "semicolon" then Some 59%N
  else if is v "pipe" then Some 124%N
  else if is v "colon" then Some 58%N
  else match v with [c] => Some c | _ => None end.

Definition set_path p s := mkSettings p (delimiter s) (quoting s) (header s) (threads s) (rows s) (progress s) (verbose s) (error_mode s) (max_errors s) (columns s).
Definition set_delimiter c s := mkSettings (in_path s) c (quoting s) (header s) (threads s) (rows s) (progress s) (verbose s) (error_mode s) (max_errors s) (columns s).
Definition set_quoting c s := mkSettings (in_path s) (delimiter s) c (header s) (threads s) (rows s) (progress s) (verbose s) (error_mode s) (max_errors s) (columns s).
Definition set_header b s := mkSettings (in_path s) (delimiter s) (quoting s) b (threads s) (rows s) (progress s) (verbose s) (error_mode s) (max_errors s) (columns s).
Definition set_threads n s := mkSettings (in_path s) (delimiter s) (quoting s) (header s) n (rows s) (progress s) (verbose s) (error_mode s) (max_errors s) (columns s).
Definition set_rows n s := mkSettings (in_path s) (delimiter s) (quoting s) (header s) (threads s) n (progress s) (verbose s) (error_mode s) (max_errors s) (columns s).
Definition set_progress s := mkSettings (in_path s) (delimiter s) (quoting s) (header s) (threads s) (rows s) true (verbose s) (error_mode s) (max_errors s) (columns s).
Definition set_verbose s := mkSettings (in_path s) (delimiter s) (quoting s) (header s) (threads s) (rows s) (progress s) true (error_mode s) (max_errors s) (columns s).
Definition set_mode m s := mkSettings (in_path s) (delimiter s) (quoting s) (header s) (threads s) (rows s) (progress s) (verbose s) m (max_errors s) (columns s).
Definition set_max n s := mkSettings (in_path s) (delimiter s) (quoting s) (header s) (threads s) (rows s) (progress s) (verbose s)
  (match error_mode s with Disabled => Collecting | m => m end) n (columns s).
Definition set_columns c s := mkSettings (in_path s) (delimiter s) (quoting s) (header s) (threads s) (rows s) (progress s) (verbose s) (error_mode s) (max_errors s) c.

(** parseCommonOptions, lines 278-356.  The callers only test for a negative
    result, so [Stopped] is treated like [Parsed]. *)
Fixpoint parse_args (args : list bytes) (s : settings) : parse :=
  match args with
  | [] => Parsed s
  | a :: r =>
      if is a "-n" || is a "--rows" then
        match r with
        | [] => Missing
        | v :: r' => match stoul v with Some n => parse_args r' (set_rows n s) | None => ParseThrows end
        end
      else if is a "-j" || is a "-t" || is a "--threads" then
        match r with
        | [] => Missing
        | v :: r' => match stoul v with Some n => parse_args r' (set_threads n s) | None => ParseThrows end
        end
      else if is a "-d" || is a "--delimiter" then
        match r with
        | [] => Missing
        | v :: r' => match delimiter_of v with Some c => parse_args r' (set_delimiter c s) | None => Missing end
        end
      else if is a "-q" || is a "--quote" then
        match r with
        | [] => Missing
        | v :: r' => parse_args r' (set_quoting (first_char v) s)
        end
      else if is a "--no-header" || is a "-H" then parse_args r (set_header false s)
      else if is a "-p" || is a "--progress" then parse_args r (set_progress s)
      else if is a "-v" || is a "--verbose" then parse_args r (set_verbose s)
      else if is a "--strict" then parse_args r (set_mode FailFast s)
      else if is a "--permissive" then parse_args r (set_mode Collecting s)
      else if is a "--max-errors" then
        match r with
        | [] => Missing
        | v :: r' => match stoul v with Some n => parse_args r' (set_max n s) | None => ParseThrows end
        end
      else if (is a "-c" || is a "--columns") && (length (columns s) =? 0) then
        match r with
        | [] => Missing
        | v :: r' => parse_args r' (set_columns v s)
        end
      else if is a "-h" || is a "--help" then Help
      else if negb (N.eqb (first_char a) 45) && (length (in_path s) =? 0) then parse_args r (set_path a s)
      else if N.eqb (first_char a) 45 then Stopped s r
      else parse_args r s
  end.

(** The argument loop of cmd_convert, lines 362-441. *)
Record conversion := mkConversion { common : settings; out_path : bytes; compression : bytes; row_group : N }.
Definition convert_defaults : conversion := mkConversion defaults [] (s2b "zstd") 1000000.
Inductive convert_parse := CParsed (c : conversion) | CRefused | CHelp | CThrows.
Definition with_common (f : settings -> settings) (c : conversion) : conversion :=
  mkConversion (f (common c)) (out_path c) (compression c) (row_group c).
Fixpoint convert_args (args : list bytes) (c : conversion) : convert_parse :=
  match args with
  | [] => CParsed c
  | a :: r =>
      if is a "-o" || is a "--output" then
        match r with
        | [] => CRefused
        | v :: r' => convert_args r' (mkConversion (common c) v (compression c) (row_group c))
        end
      else if is a "-c" || is a "--compression" then
        match r with
        | [] => CRefused
        | v :: r' => convert_args r' (mkConversion (common c) (out_path c) v (row_group c))
        end
      else if is a "-r" || is a "--row-group" then
        match r with
        | [] => CRefused
        | v :: r' => match stoul v with
                     | Some n => convert_args r' (mkConversion (common c) (out_path c) (compression c) n)
                     | None => CThrows
                     end
        end
      else if is a "-j" || is a "--threads" then
        match r with
        | [] => CRefused
        | v :: r' => match stoul v with
                     | Some n => convert_args r' (with_common (set_threads n) c)
                     | None => CThrows
                     end
        end
      else if is a "-d" || is a "--delimiter" then
        match r with
        | [] => CRefused
        | v :: r' => convert_args r' (with_common (set_delimiter (first_char v)) c)
        end
      else if is a "-q" || is a "--quote" then
        match r with
        | [] => CRefused
        | v :: r' => convert_args r' (with_common (set_quoting (first_char v)) c)
        end
      else if is a "--no-header" then convert_args r (with_common (set_header false) c)
      else if is a "--strict" then convert_args r (with_common (set_mode FailFast) c)
      else if is a "--permissive" then convert_args r (with_common (set_mode Collecting) c)
      else if is a "--max-errors" then
        match r with
        | [] => CRefused
        | v :: r' => match stoul v with
                     | Some n => convert_args r' (with_common (set_max n) c)
                     | None => CThrows
                     end
        end
      else if is a "-p" || is a "--progress" then convert_args r (with_common set_progress c)
      else if is a "-v" || is a "--verbose" then convert_args r (with_common set_verbose c)
      else if is a "-h" || is a "--help" then CHelp
      else if is a "convert" then convert_args r c
      else if negb (N.eqb (first_char a) 45) && (length (in_path (common c)) =? 0)
           then convert_args r (with_common (set_path a) c)
      else CRefused
  end.
