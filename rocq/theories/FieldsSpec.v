(** Independent specification of how a row of CSV bytes is cut into raw fields.
    Nothing here refers to blocks, masks or caches. *)
From Verif Require Import Base ChunkSpec.

Definition cons_first (c : byte) (p : list bytes * bytes) : list bytes * bytes :=
  match fst p with
  | f :: fs => ((c :: f) :: fs, snd p)
  | [] => ([[c]], snd p)
  end.

(** Raw fields of the first row of [l] and the bytes after the row.  Every quote
    character toggles the quoted state; a separator outside quotes ends a field;
    an end-of-line byte outside quotes ends the row. *)
Fixpoint raw_row (is_eol : byte -> bool) (sep q : byte) (inside : bool) (l : bytes)
  : list bytes * bytes :=
  match l with
  | [] => ([[]], [])
  | c :: r =>
      if N.eqb c q then cons_first c (raw_row is_eol sep q (negb inside) r)
      else if inside then cons_first c (raw_row is_eol sep q inside r)
      else if is_eol c then ([[]], r)
      else if N.eqb c sep then
        ([] :: fst (raw_row is_eol sep q false r), snd (raw_row is_eol sep q false r))
      else cons_first c (raw_row is_eol sep q inside r)
  end.

Definition starts_with (q : byte) (f : bytes) : bool :=
  match f with c :: _ => N.eqb c q | [] => false end.

(** Fields joined by the separator. *)
Fixpoint join (sep : byte) (fs : list bytes) : bytes :=
  match fs with
  | [] => []
  | [f] => f
  | f :: r => f ++ sep :: join sep r
  end.

(** Some separator or end-of-line byte of [l] lies inside quotes (quotes counted
    from the beginning of [l]). *)
Definition quoted_delim (sep eol q : byte) (l : bytes) : Prop :=
  exists i, (byte_is l i sep = true \/ byte_is l i eol = true) /\ inside_at false q l i = true.

(** The CSV encoding of a value: quotes around it, inner quotes doubled. *)
Fixpoint double_quotes (q : byte) (v : bytes) : bytes :=
  match v with
  | [] => []
  | c :: r => if N.eqb c q then q :: q :: double_quotes q r else c :: double_quotes q r
  end.
Definition quote_value (q : byte) (v : bytes) : bytes := q :: double_quotes q v ++ [q].

(** Line terminator bytes. *)
Definition newline (c : byte) : bool := N.eqb c LF || N.eqb c CR.

(** Everything after the first unquoted line terminator is line terminators: the
    buffer holds one line. *)
Definition one_line (q : byte) (data : bytes) : Prop :=
  forall i j, i <= j -> j < length data ->
    byte_is data i LF = true \/ byte_is data i CR = true ->
    inside_at false q data i = false ->
    byte_is data j LF = true \/ byte_is data j CR = true.

(** Trimming. *)
Definition blank (c : byte) : bool := N.eqb c SPACE || N.eqb c TAB.
Fixpoint trim_left (p : byte -> bool) (l : bytes) : bytes :=
  match l with
  | [] => []
  | c :: r => if p c then trim_left p r else l
  end.
Definition trim_right (p : byte -> bool) (l : bytes) : bytes := rev (trim_left p (rev l)).

(** What a splitter reports for a raw field: outer quotes removed (and reported),
    then blanks trimmed on both sides. *)
Definition reported_field (q : byte) (f : bytes) : bytes * bool :=
  let quoted := (2 <=? length f) && starts_with q f && starts_with q (rev f) in
  (trim_right blank (trim_left blank (if quoted then firstn (length f - 2) (tl f) else f)), quoted).

(** The fields of a line: as in [raw_row]; a trailing unquoted or unterminated
    newline is not part of the last field. *)
Definition line_fields (sep q : byte) (data : bytes) : list (bytes * bool) :=
  let fs := fst (raw_row newline sep q false data) in
  map (reported_field q) (removelast fs ++ [trim_right newline (last fs [])]).

(** The name denoted by a raw header field: quotes removed, doubled quotes inside
    quotes kept once, leading unquoted blanks skipped. *)
Fixpoint header_chars (q : byte) (f : bytes) (inq : bool) (cur : bytes) : bytes :=
  match f with
  | [] => cur
  | c :: r =>
      if N.eqb c q then
        match inq, r with
        | true, c' :: r' =>
            if N.eqb c' q then header_chars q r' inq (cur ++ [q])
            else header_chars q r false cur
        | _, _ => header_chars q r (negb inq) cur
        end
      else if (length cur =? 0) && negb inq && blank c then header_chars q r inq cur
      else header_chars q r inq (cur ++ [c])
  end.
Definition header_name (q : byte) (f : bytes) : bytes := trim_right blank (header_chars q f false []).

(** Rows the iterator handles: an unquoted field contains no quote, and no
    delimiter within the 63 bytes that follow it is quoted. *)
Definition safe_row (sep eol q : byte) (fs : list bytes) : Prop :=
  forall pre f post, fs = pre ++ f :: post -> starts_with q f = false ->
    ~ In q f /\ ~ quoted_delim sep eol q (firstn 63 (join sep post)).


(** Number of separators outside quotes. *)
Definition unquoted_separators (sep q : byte) (l : bytes) : nat :=
  length (filter (fun i => byte_is l i sep && negb (inside_at false q l i)) (seq 0 (length l))).
