(** What the command-line tool is expected to print, without reference to its
    code. *)
From Verif Require Import Base FieldsSpec ReaderSpec.

(** The text of the cell a raw field denotes (quotes removed). *)
Definition cell_of (q : byte) (f : bytes) : bytes :=
  if starts_with q f then dequoted q (without_cr f) else without_cr f.

(** The table of texts a CSV text denotes. *)
Definition texts (sep q : byte) (l : bytes) : list (list bytes) :=
  map (map (cell_of q)) (table_rows sep q l).

(** The first [n] rows of a table given by its columns, every cell as text. *)
Definition text_table {T V} (show : T -> option V -> bytes) (dt : T) (types : list T) (columns : list (list (option V)))
           (n : nat) : list (list bytes) :=
  map (fun i => map (fun k => show (nth k types dt) (nth i (nth k columns []) None)) (seq 0 (length types))) (seq 0 n).

(** Some columns of every row, in the given order. *)
Definition project (idx : list nat) (rows : list (list bytes)) : list (list bytes) :=
  map (fun row => map (fun k => nth k row []) idx) rows.

(** The longest piece without line breaks at the front of a text, repeatedly:
    the lines of an output (each ended by LF). *)
Fixpoint output_lines (l cur : bytes) : list bytes :=
  match l with
  | [] => match cur with [] => [] | _ => [cur] end
  | c :: r => if N.eqb c LF then cur :: output_lines r [] else output_lines r (cur ++ [c])
  end.

(** Pieces between commas, blanks and tabs around them removed, empty ones left
    out. *)
Definition trimmed (p : bytes) : bytes := trim_right blank (trim_left blank p).
Definition listed_columns (spec : bytes) : list bytes :=
  filter (fun p => negb (length p =? 0)) (map trimmed (comma_pieces spec)).

(** The first position of a name. *)
Fixpoint position (name : bytes) (names : list bytes) : option nat :=
  match names with
  | [] => None
  | n :: r => if list_eq_dec N.eq_dec n name then Some 0 else option_map S (position name r)
  end.

(** The column a piece of the list names: a number counts from 0; a name is
    looked up if the file has a header. *)
Definition digits_only (p : bytes) : bool := forallb (fun c => (48 <=? c)%N && (c <=? 57)%N) p.
Fixpoint number_of (p : bytes) (acc : N) : N :=
  match p with [] => acc | c :: r => number_of r (10 * acc + (c - 48))%N end.
Definition column_named (header : bool) (names : list bytes) (p : bytes) : option nat :=
  if digits_only p then
    if (number_of p 0 <? N.of_nat (length names))%N then Some (N.to_nat (number_of p 0)) else None
  else if header then position p names else None.
Fixpoint columns_named (header : bool) (names pieces : list bytes) : option (list nat) :=
  match pieces with
  | [] => Some []
  | p :: r => match column_named header names p, columns_named header names r with
              | Some k, Some ks => Some (k :: ks)
              | _, _ => None
              end
  end.

(** Names with commas between them. *)
Fixpoint joined (l : list bytes) : bytes :=
  match l with [] => [] | [x] => x | x :: r => x ++ COMMA :: joined r end.

(** ** Boxes *)
Definition widest (cells : list bytes) : nat := fold_right (fun v w => Nat.max (length v) w) 0 cells.
Definition box_widths (limit ncols : nat) (rows : list (list bytes)) : list nat :=
  map (fun k => Nat.min limit (widest (map (fun row => nth k row []) rows))) (seq 0 ncols).
(** A cell cut to the width, the cut marked by dots; or filled with blanks. *)
Definition in_width (w : nat) (v : bytes) : bytes :=
  if length v <=? w then v ++ repeat 32%N (w - length v) else firstn (w - 3) v ++ s2b "...".
Definition box_line (ws : list nat) (row : list bytes) : bytes :=
  s2b "|" ++ concat (map (fun k => s2b " " ++ in_width (nth k ws 0) (nth k row []) ++ s2b " |") (seq 0 (length ws))).
Definition box_rule (ws : list nat) : bytes :=
  s2b "+" ++ concat (map (fun w => repeat 45%N (w + 2) ++ s2b "+") ws).
Definition box (header : bool) (ws : list nat) (rows : list (list bytes)) : list bytes :=
  box_rule ws ::
  (match rows with
   | h :: r => if header then box_line ws h :: box_rule ws :: map (box_line ws) r else map (box_line ws) rows
   | [] => []
   end) ++ [box_rule ws].

(** ** Command-line items, as a user thinks of them *)
Inductive item :=
| Rows (n : N) | Threads (n : N) | Delimiter (c : byte) | Quote (c : byte) | NoHeader
| Progress | Verbose | Strict | Permissive | MaxErrors (n : N) | Columns (s : bytes) | Input (path : bytes).

(** A number below 2^64 in decimal digits. *)
Definition numeral (n : N) (v : bytes) : Prop := v <> [] /\ digits_only v = true /\ number_of v 0 = n /\ (n < 2 ^ 64)%N.

(** The words an item is written with. *)
Inductive written : item -> list bytes -> Prop :=
| w_rows : forall n o v, In o [s2b "-n"; s2b "--rows"] -> numeral n v -> written (Rows n) [o; v]
| w_threads : forall n o v, In o [s2b "-j"; s2b "-t"; s2b "--threads"] -> numeral n v -> written (Threads n) [o; v]
| w_delimiter : forall c o, In o [s2b "-d"; s2b "--delimiter"] -> written (Delimiter c) [o; [c]]
| w_named : forall c v o, In o [s2b "-d"; s2b "--delimiter"] ->
    In (v, c) [(s2b "comma", COMMA); (s2b "tab", TAB); (s2b "semicolon", 59%N); (s2b "pipe", 124%N); (s2b "colon", 58%N)] ->
    written (Delimiter c) [o; v]
| w_quote : forall v o, In o [s2b "-q"; s2b "--quote"] -> written (Quote (hd 0%N v)) [o; v]   (* the first character; none if empty *)
| w_noheader : forall o, In o [s2b "--no-header"; s2b "-H"] -> written NoHeader [o]
| w_progress : forall o, In o [s2b "-p"; s2b "--progress"] -> written Progress [o]
| w_verbose : forall o, In o [s2b "-v"; s2b "--verbose"] -> written Verbose [o]
| w_strict : written Strict [s2b "--strict"]
| w_permissive : written Permissive [s2b "--permissive"]
| w_max : forall n v, numeral n v -> written (MaxErrors n) [s2b "--max-errors"; v]
| w_columns : forall v o, In o [s2b "-c"; s2b "--columns"] -> v <> [] -> written (Columns v) [o; v]
| w_input : forall p, p <> [] -> hd 0%N p <> 45%N -> written (Input p) [p].

(** The value given last, the value given first, and whether there is one. *)
Definition last_given {A} (f : item -> option A) (items : list item) (default : A) : A :=
  fold_left (fun d i => match f i with Some x => x | None => d end) items default.
Fixpoint first_given {A} (f : item -> option A) (items : list item) (default : A) : A :=
  match items with [] => default | i :: r => match f i with Some x => x | None => first_given f r default end end.
Definition given (f : item -> bool) (items : list item) : bool := existsb f items.

(** ** Numbers on the command line, as strtoul reads them: white space, a sign, digits, anything. *)
Definition spaces (l : bytes) : Prop := Forall (fun c => c = 32%N \/ (9 <= c <= 13)%N) l.
Definition number_text (v : bytes) (n : N) : Prop :=
  exists sp sign ds rest, v = sp ++ sign ++ ds ++ rest /\ spaces sp /\
    (sign = [] \/ sign = s2b "+" \/ sign = s2b "-") /\
    ds <> [] /\ digits_only ds = true /\ (forall c r, rest = c :: r -> digits_only [c] = false) /\
    (number_of ds 0 < 2 ^ 64)%N /\
    n = (if list_eq_dec N.eq_dec sign (s2b "-") then (2 ^ 64 - number_of ds 0) mod 2 ^ 64 else number_of ds 0)%N.

(** One text inside another. *)
Definition occurs (p l : bytes) : Prop := exists a b, l = a ++ p ++ b.

(** ** The items of convert *)
Inductive citem :=
| COutput (path : bytes) | CCompression (name : bytes) | CRowGroup (n : N) | CThreads (n : N) | CDelimiter (c : byte) | CQuote (c : byte)
| CNoHeader | CStrict | CPermissive | CMaxErrors (n : N) | CProgress | CVerbose | CInput (path : bytes).
Inductive cwritten : citem -> list bytes -> Prop :=
| cw_output : forall p o, In o [s2b "-o"; s2b "--output"] -> cwritten (COutput p) [o; p]
| cw_compression : forall p o, In o [s2b "-c"; s2b "--compression"] -> cwritten (CCompression p) [o; p]
| cw_row_group : forall n v o, In o [s2b "-r"; s2b "--row-group"] -> numeral n v -> cwritten (CRowGroup n) [o; v]
| cw_threads : forall n v o, In o [s2b "-j"; s2b "--threads"] -> numeral n v -> cwritten (CThreads n) [o; v]
| cw_delimiter : forall v o, In o [s2b "-d"; s2b "--delimiter"] -> cwritten (CDelimiter (hd 0%N v)) [o; v]
| cw_quote : forall v o, In o [s2b "-q"; s2b "--quote"] -> cwritten (CQuote (hd 0%N v)) [o; v]
| cw_noheader : cwritten CNoHeader [s2b "--no-header"]
| cw_strict : cwritten CStrict [s2b "--strict"]
| cw_permissive : cwritten CPermissive [s2b "--permissive"]
| cw_max : forall n v, numeral n v -> cwritten (CMaxErrors n) [s2b "--max-errors"; v]
| cw_progress : forall o, In o [s2b "-p"; s2b "--progress"] -> cwritten CProgress [o]
| cw_verbose : forall o, In o [s2b "-v"; s2b "--verbose"] -> cwritten CVerbose [o]
| cw_input : forall p, p <> [] -> hd 0%N p <> 45%N -> p <> s2b "convert" -> cwritten (CInput p) [p].
Definition last_citem {A} (f : citem -> option A) (items : list citem) (default : A) : A :=
  fold_left (fun d i => match f i with Some x => x | None => d end) items default.
Definition cgiven (f : citem -> bool) (items : list citem) : bool := existsb f items.
