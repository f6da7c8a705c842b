(** Field splitting: the SplitFields iterator, unescaping, the line splitters and
    the header parser.
    Models include/libvroom/split_fields.h, src/parser/split_fields_iter-inl.h,
    src/parser/split_fields.cpp, src/parser/split_fields-inl.h,
    src/parser/line_parser.cpp (parse_header) and
    src/reader/csv_reader.cpp:19-39 (unescape_quotes). *)
From Verif Require Import Base WordsModel ChunkModel.

(** ** SplitFields (include/libvroom/split_fields.h:90-280) *)

(** Members of the class (157-164): v_ and remaining_ are the suffix [sf_v] and
    its length. *)
Record sf := mkSf { sf_v : bytes; sf_finished : bool; sf_prev : N }.

(** Constructor, 92-96. *)
Definition sf_init (slice : bytes) : sf := mkSf slice false 0.

(** split_fields_iter-inl.h:22-58 ScanForCharImpl on a full block (len = 64, the
    only length the iterator passes), same lane loop as the chunk finder's. *)
Definition scan_for_char (lanes : nat) (c : byte) (mem : bytes) : option N :=
  assemble_mask 64 lanes c mem 0 0.

(** split_fields_iter-inl.h:61-99 ScanForTwoCharsImpl.  Simplification: the
    lane-wise hn::Or of the two comparison masks is taken after the bits are
    assembled. *)
Definition scan_for_two_chars (lanes : nat) (c1 c2 : byte) (mem : bytes) : option N :=
  match assemble_mask 64 lanes c1 mem 0 0, assemble_mask 64 lanes c2 mem 0 0 with
  | Some a, Some b => Some (N.lor a b)
  | _, _ => None
  end.

(** split_fields.h:225-240: scalar end of scan_quoted_field; the position
    relative to [l] or [None] for "return remaining_". *)
Fixpoint quoted_tail (sep q eol : byte) (l : bytes) (in_field : bool) : option nat :=
  match l with
  | [] => None
  | c :: r =>
      let in_field := if N.eqb c q then negb in_field else in_field in
      if negb in_field && (N.eqb c sep || N.eqb c eol) then Some 0
      else option_map S (quoted_tail sep q eol r in_field)
  end.

(** split_fields.h:268-278: scalar end of scan_unquoted_field. *)
Fixpoint unquoted_tail (sep eol : byte) (l : bytes) : option nat :=
  match l with
  | [] => None
  | c :: r => if N.eqb c sep || N.eqb c eol then Some 0
              else option_map S (unquoted_tail sep eol r)
  end.

(** Result of a scan: the position (relative to v_; [None] means remaining_) and
    the new previous_valid_ends_ ([None]: not assigned).  The outer option is
    [None] for undefined behaviour. *)
Definition scan_result := (option nat * option N)%type.

(** split_fields.h:209-219 = 252-262: use of a non-zero end mask. *)
Definition take_mask (total : nat) (end_mask : N) : scan_result :=
  let pos := ctz end_mask in
  (Some (total + pos),
   Some (if pos =? 63 then 0%N else shr64 end_mask (N.of_nat (pos + 1)))).

(** split_fields.h:189-241 scan_quoted_field.  [l] is the suffix at total_idx;
    [fuel] counts 64-byte blocks. *)
Fixpoint scan_quoted (fuel lanes : nat) (clmul : bool) (sep q eol : byte)
         (l : bytes) (total : nat) (not_in_field : bool) : option scan_result :=
  if 64 <? length l then
    match fuel with
    | O => None
    | S fuel' =>
        match scan_for_char lanes sep l, scan_for_char lanes eol l, scan_for_char lanes q l with
        | Some sep_mask, Some eol_mask, Some quote_mask =>
            let not_in_quote := prefix_xorsum clmul quote_mask in
            let not_in_quote := if not_in_field then not64 not_in_quote else not_in_quote in
            let not_in_field' := negb (N.eqb (N.land not_in_quote bit63) 0) in
            let end_mask := N.land (N.lor sep_mask eol_mask) not_in_quote in
            if negb (N.eqb end_mask 0) then Some (take_mask total end_mask)
            else scan_quoted fuel' lanes clmul sep q eol (skipn 64 l) (total + 64) not_in_field'
        | _, _, _ => None
        end
    end
  else Some (option_map (Nat.add total) (quoted_tail sep q eol l (negb not_in_field)), None).

(** split_fields.h:243-279 scan_unquoted_field. *)
Fixpoint scan_unquoted (fuel lanes : nat) (sep eol : byte) (l : bytes) (total : nat)
  : option scan_result :=
  if 64 <? length l then
    match fuel with
    | O => None
    | S fuel' =>
        match scan_for_two_chars lanes sep eol l with
        | Some end_mask =>
            if negb (N.eqb end_mask 0) then Some (take_mask total end_mask)
            else scan_unquoted fuel' lanes sep eol (skipn 64 l) (total + 64)
        | None => None
        end
    end
  else Some (option_map (Nat.add total) (unquoted_tail sep eol l), None).

(** What next() returns: [None] for "return false", otherwise the field and
    needs_escaping. *)
Definition sf_out := option (bytes * bool).

(** split_fields.h:179-187 finish. *)
Definition sf_finish (st : sf) (prev : N) (ne : bool) : sf_out * sf :=
  (Some (sf_v st, ne), mkSf [] true prev).

(** split_fields.h:168-177 finish_eol and 114-118, 145-149: the field ends at
    [pos], which holds an end-of-line byte ([is_eol]) or a separator. *)
Definition sf_cut (st : sf) (prev : N) (pos : nat) (is_eol ne : bool) : sf_out * sf :=
  (Some (firstn pos (sf_v st), ne), mkSf (skipn (S pos) (sf_v st)) is_eol prev).

(** split_fields.h:98-150 next().  [ne_in] is the value of the caller's
    needs_escaping variable on entry: line 122 returns without assigning it.
    [None]: undefined behaviour (v_[pos] out of bounds, 110 and 140; a shift by
    64 at 106). *)
Definition sf_next (lanes : nat) (clmul : bool) (sep q eol : byte) (st : sf) (ne_in : bool)
  : option (sf_out * sf) :=
  if sf_finished st then Some (None, st)
  else if negb (N.eqb (sf_prev st) 0) then
    let pos := ctz (sf_prev st) in
    let prev := shr64 (sf_prev st) (N.of_nat (pos + 1)) in
    let ne := negb (N.eqb q 0) && next_is q (sf_v st) in
    if 64 <=? pos + 1 then None
    else match nth_error (sf_v st) pos with
    | None => None
    | Some c => Some (sf_cut st prev pos (N.eqb c eol) ne)
    end
  else
    match sf_v st with
    | [] => Some (sf_finish st 0 ne_in)
    | c0 :: _ =>
        let ne := negb (N.eqb q 0) && N.eqb c0 q in
        match (if ne then scan_quoted (length (sf_v st)) lanes clmul sep q eol (sf_v st) 0 true
               else scan_unquoted (length (sf_v st)) lanes sep eol (sf_v st) 0) with
        | None => None
        | Some (p, np) =>
            let prev := match np with Some x => x | None => sf_prev st end in
            match p with
            | None => Some (sf_finish st prev ne)
            | Some pos =>
                if length (sf_v st) <=? pos then Some (sf_finish st prev ne)
                else match nth_error (sf_v st) pos with
                     | None => None
                     | Some c => Some (sf_cut st prev pos (N.eqb c eol) ne)
                     end
            end
        end
    end.

(** The loop "while (iter.next(...))" (csv_reader.cpp:208-237): the fields with
    their needs_escaping flags, and the bytes left when it stops. *)
Fixpoint sf_all (fuel lanes : nat) (clmul : bool) (sep q eol : byte) (st : sf) (ne_in : bool)
  : option (list (bytes * bool) * bytes) :=
  match fuel with
  | O => None
  | S fuel' =>
      match sf_next lanes clmul sep q eol st ne_in with
      | None => None
      | Some (None, st') => Some ([], sf_v st')
      | Some (Some (f, ne), st') =>
          match sf_all fuel' lanes clmul sep q eol st' ne with
          | None => None
          | Some (fs, rest) => Some ((f, ne) :: fs, rest)
          end
      end
  end.

(** All fields of one row: a fresh iterator on [l]. *)
Definition row_fields (lanes : nat) (clmul : bool) (sep q eol : byte) (l : bytes) (ne_in : bool)
  : option (list (bytes * bool) * bytes) :=
  sf_all (S (S (length l))) lanes clmul sep q eol (sf_init l) ne_in.

(** ** Unquoting (csv_reader.cpp:19-39 and 224-231) *)

(** csv_reader.cpp:28-36.  The fast path 21-23 returns the input unchanged when
    it contains no quote. *)
Fixpoint unescape_loop (q : byte) (v : bytes) : bytes :=
  match v with
  | c :: ((c' :: r') as r) =>
      if N.eqb c q && N.eqb c' q then q :: unescape_loop q r' else c :: unescape_loop q r
  | _ => v
  end.

Definition unescape_quotes (v : bytes) (q : byte) : bytes :=
  if existsb (N.eqb q) v then unescape_loop q v else v.

(** csv_reader.cpp:224-231: strip the outer quotes, then unescape. *)
Definition unquote_field (q : byte) (f : bytes) : bytes :=
  let f' := if (2 <=? length f) && N.eqb (hd 0%N f) q && N.eqb (last f 0%N) q
            then firstn (length f - 2) (tl f) else f in
  unescape_quotes f' q.

(** ** Line splitters (split_fields.cpp, split_fields-inl.h) *)

(** FieldView: the bytes it views and the quoted flag. *)
Definition field_view := (bytes * bool)%type.

Definition is_blank (c : byte) : bool := N.eqb c SPACE || N.eqb c TAB.
Definition is_nl (c : byte) : bool := N.eqb c LF || N.eqb c CR.

Fixpoint drop_while {A} (p : A -> bool) (l : list A) : list A :=
  match l with
  | [] => []
  | c :: r => if p c then drop_while p r else l
  end.
(** "while (size > 0 && p(data[size - 1])) size--". *)
Definition drop_while_end {A} (p : A -> bool) (l : list A) : list A :=
  rev (drop_while p (rev l)).

(** split_fields.cpp:53-68, 90-107, 135-154 and split_fields-inl.h:21-40
    PostProcessField: remove outer quotes, then trim blanks. *)
Definition post_process (q : byte) (f : bytes) : field_view :=
  let quoted := (2 <=? length f) && N.eqb (hd 0%N f) q && N.eqb (last f 0%N) q in
  let f' := if quoted then firstn (length f - 2) (tl f) else f in
  (drop_while_end is_blank (drop_while is_blank f'), quoted).

(** split_fields.cpp:35-77 (loop of split_fields_scalar; also 168-190 of
    split_fields_scalar_into and the tails split_fields-inl.h:152-176, 284-306).
    [l] is the suffix of [data] at index [i].  Returns field_start and the fields. *)
Fixpoint split_loop (sep q : byte) (data l : bytes) (i field_start : nat) (in_quote : bool)
         (fields : list field_view) : nat * list field_view :=
  match l with
  | [] => (field_start, fields)
  | c :: rest =>
      if N.eqb c q then
        match in_quote, rest with
        | true, c' :: rest' =>
            if N.eqb c' q then split_loop sep q data rest' (i + 2) field_start in_quote fields
            else split_loop sep q data rest (i + 1) field_start (negb in_quote) fields
        | _, _ => split_loop sep q data rest (i + 1) field_start (negb in_quote) fields
        end
      else if in_quote then split_loop sep q data rest (i + 1) field_start in_quote fields
      else if N.eqb c sep then
        split_loop sep q data rest (i + 1) (i + 1) in_quote
                   (fields ++ [post_process q (slice field_start i data)])
      else if is_nl c then (field_start, fields)
      else split_loop sep q data rest (i + 1) field_start in_quote fields
  end.

(** split_fields.cpp:79-109, 192-205, split_fields-inl.h:178-191, 308-320: the
    last field extends to the end of the buffer, minus trailing CR/LF. *)
Definition last_field (q : byte) (data : bytes) (r : nat * list field_view) : list field_view :=
  snd r ++ [post_process q (drop_while_end is_nl (skipn (fst r) data))].

(** split_fields.cpp:24-112 split_fields_scalar. *)
Definition split_fields_scalar (data : bytes) (sep q : byte) : list field_view :=
  match data with
  | [] => []
  | _ => last_field q data (split_loop sep q data data 0 0 false [])
  end.

(** split_fields.cpp:157-206 split_fields_scalar_into; [old] is the previous
    content of the reused vector (cleared at 159). *)
Definition split_fields_scalar_into (data : bytes) (sep q : byte) (old : list field_view)
  : list field_view :=
  let fields := [] in
  match data with
  | [] => fields
  | _ => last_field q data (split_loop sep q data data 0 0 false fields)
  end.

(** split_fields-inl.h:114-144 (= 252-276): emit the fields of one block.
    [inl] = fields of the line (end-of-line seen), [inr] = continue. *)
Fixpoint emit_block (fuel : nat) (q : byte) (data : bytes) (pos field_start : nat) (valid_ends : N)
         (fields : list field_view) : option (list field_view + (nat * list field_view)) :=
  if N.eqb valid_ends 0 then Some (inr (field_start, fields))
  else match fuel with
  | O => None
  | S fuel' =>
      let abs_pos := pos + ctz valid_ends in
      match nth_error data abs_pos with
      | None => None
      | Some c =>
          let fields' := fields ++ [post_process q (slice field_start abs_pos data)] in
          if is_nl c then Some (inl fields')
          else emit_block fuel' q data pos (abs_pos + 1)
                          (N.land valid_ends (valid_ends - 1)) fields'
      end
  end.

(** split_fields-inl.h:69-147: block loop, then tail.  is_eol is the lane-wise
    Or of two comparisons (simplified as in [scan_for_two_chars]). *)
Fixpoint split_blocks (fuel lanes : nat) (clmul : bool) (sep q : byte) (data : bytes) (pos : nat)
         (field_start : nat) (state : N) (fields : list field_view) : option (list field_view) :=
  if pos + 64 <=? length data then
    match fuel with
    | O => None
    | S fuel' =>
        match scan_for_char lanes sep (skipn pos data), scan_for_char lanes q (skipn pos data),
              scan_for_two_chars lanes LF CR (skipn pos data) with
        | Some sep_mask, Some quote_mask, Some eol_mask =>
            let '(inside, state') := find_quote_mask clmul quote_mask state in
            match emit_block 64 q data pos field_start
                    (N.land (N.lor sep_mask eol_mask) (not64 inside)) fields with
            | None => None
            | Some (inl done) => Some done
            | Some (inr (fs', fields')) =>
                split_blocks fuel' lanes clmul sep q data (pos + 64) fs' state' fields'
            end
        | _, _, _ => None
        end
    end
  else Some (last_field q data
               (split_loop sep q data (skipn pos data) pos field_start
                           (negb (N.eqb state 0)) fields)).

(** split_fields-inl.h:44-194 SplitFieldsSimdImpl, wrapper split_fields.cpp:115-118. *)
Definition split_fields_simd (lanes : nat) (clmul : bool) (data : bytes) (sep q : byte)
  : option (list field_view) :=
  match data with
  | [] => Some []
  | _ => split_blocks (length data) lanes clmul sep q data 0 0 0%N []
  end.

(** split_fields-inl.h:197-321 SplitFieldsSimdIntoImpl, wrapper 209-212. *)
Definition split_fields_simd_into (lanes : nat) (clmul : bool) (data : bytes) (sep q : byte)
           (old : list field_view) : option (list field_view) :=
  let fields := [] in
  match data with
  | [] => Some fields
  | _ => split_blocks (length data) lanes clmul sep q data 0 0 0%N fields
  end.

(** split_fields.cpp:122-128 split_fields. *)
Definition split_fields (lanes : nat) (clmul : bool) (data : bytes) (sep q : byte)
  : option (list field_view) :=
  if 64 <=? length data then split_fields_simd lanes clmul data sep q
  else Some (split_fields_scalar data sep q).

(** split_fields.cpp:215-222 split_fields_into. *)
Definition split_fields_into (lanes : nat) (clmul : bool) (data : bytes) (sep q : byte)
           (old : list field_view) : option (list field_view) :=
  if 64 <=? length data then split_fields_simd_into lanes clmul data sep q old
  else Some (split_fields_scalar_into data sep q old).

(** ** Header (line_parser.cpp:33-94 parse_header) *)

(** Loop 44-82: [cur] is current_field, [inq] in_quote.  Returns the names pushed
    so far and the leftover current_field. *)
Fixpoint header_loop (sep q : byte) (l : bytes) (inq : bool) (cur : bytes) (names : list bytes)
  : list bytes * bytes :=
  match l with
  | [] => (names, cur)
  | c :: rest =>
      if negb inq && is_nl c then (names ++ [drop_while_end is_blank cur], [])
      else if N.eqb c q then
        match inq, rest with
        | true, c' :: rest' =>
            if N.eqb c' q then header_loop sep q rest' inq (cur ++ [q]) names
            else header_loop sep q rest (negb inq) cur names
        | _, _ => header_loop sep q rest (negb inq) cur names
        end
      else if N.eqb c sep && negb inq then
        header_loop sep q rest inq [] (names ++ [drop_while_end is_blank cur])
      else if (length cur =? 0) && negb inq && is_blank c then header_loop sep q rest inq cur names
      else header_loop sep q rest inq (cur ++ [c]) names
  end.

(** 84-93: the last field. *)
Definition parse_header (sep q : byte) (data : bytes) : list bytes :=
  match data with
  | [] => []
  | _ =>
      let '(names, cur) := header_loop sep q data false [] [] in
      if negb (length cur =? 0) || (length names =? 0)
      then names ++ [drop_while_end is_blank cur] else names
  end.

(** csv_reader.cpp:346-360 (open) and 454-468 (open_from_buffer): number of
    columns when there is no header; [l] is the first row. *)
Fixpoint count_columns (sep q : byte) (l : bytes) (inq : bool) (n : nat) : nat :=
  match l with
  | [] => n
  | c :: rest =>
      if N.eqb c q then
        match inq, rest with
        | true, c' :: rest' =>
            if N.eqb c' q then count_columns sep q rest' inq n
            else count_columns sep q rest (negb inq) n
        | _, _ => count_columns sep q rest (negb inq) n
        end
      else if N.eqb c sep && negb inq then count_columns sep q rest inq (n + 1)
      else count_columns sep q rest inq n
  end.
