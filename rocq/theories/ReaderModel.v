(** The CSV reader's parse loops, serial and parallel.
    Models src/reader/csv_reader.cpp: NullChecker (44-93),
    parse_chunk_with_state (113-252), read_all (516-713), read_all_serial (716-828).
    A column builder is the list of its entries ([None] = null); the typed append
    of column k is the function [conv k] (FastArrowContext::append: the parsed
    value, or null when the field does not parse).  FastArrowContext, reserve and
    the thread pool carry no other state that is read back. *)
From Verif Require Import Base WordsModel ChunkModel FieldsModel.

(** ** NullChecker (44-93) *)
Record null_checker := mkNull { nv_list : list bytes; nv_max : nat; nv_empty : bool }.

(** std::string_view::find(',', start): length of the piece before the next comma. *)
Fixpoint piece_length (s : bytes) : nat :=
  match s with
  | [] => 0
  | c :: r => if N.eqb c COMMA then 0 else S (piece_length r)
  end.

(** Loop 51-66; [s] is the text from [start] on. *)
Fixpoint null_loop (fuel : nat) (s : bytes) (nc : null_checker) : null_checker :=
  match fuel with
  | O => nc
  | S fuel' =>
      match s with
      | [] => nc
      | _ =>
          let n := piece_length s in
          let piece := firstn n s in
          let nc' := match piece with
                     | [] => mkNull (nv_list nc) (nv_max nc) true
                     | _ => mkNull (nv_list nc ++ [piece]) (Nat.max (nv_max nc) n) (nv_empty nc)
                     end in
          null_loop fuel' (skipn (S n) s) nc'
      end
  end.
Definition make_null_checker (spellings : bytes) : null_checker :=
  null_loop (length spellings) spellings (mkNull [] 0 true).

Fixpoint bytes_eqb (a b : bytes) : bool :=
  match a, b with
  | [], [] => true
  | x :: a', y :: b' => N.eqb x y && bytes_eqb a' b'
  | _, _ => false
  end.

(** is_null, 69-87. *)
Definition is_null (nc : null_checker) (v : bytes) : bool :=
  match v with
  | [] => nv_empty nc
  | _ => if nv_max nc <? length v then false else existsb (fun p => bytes_eqb p v) (nv_list nc)
  end.

(** ** Rows *)
Section Rows.
Context {V : Type}.
Variable conv : nat -> bytes -> option V.
Variables (lanes : nat) (clmul : bool) (sep q : byte) (nc : null_checker).

(** fast_contexts[k].append*(...) on the vector of columns. *)
Fixpoint append_at (k : nat) (c : option V) (cols : list (list (option V))) : list (list (option V)) :=
  match k, cols with
  | _, [] => []
  | O, col :: r => (col ++ [c]) :: r
  | S k', col :: r => col :: append_at k' c r
  end.

(** Lines 208-237 (= 783-812): the fields of one row. *)
Fixpoint fields_into (fields : list (bytes * bool)) (col_idx : nat) (cols : list (list (option V)))
  : nat * list (list (option V)) :=
  match fields with
  | [] => (col_idx, cols)
  | (f, needs_escaping) :: rest =>
      let f := if (0 <? length f) && N.eqb (last f 0%N) CR then removelast f else f in
      if length cols <=? col_idx then fields_into rest (col_idx + 1) cols
      else if is_null nc f then fields_into rest (col_idx + 1) (append_at col_idx None cols)
      else if needs_escaping then
        fields_into rest (col_idx + 1) (append_at col_idx (conv col_idx (unquote_field q f)) cols)
      else fields_into rest (col_idx + 1) (append_at col_idx (conv col_idx f) cols)
  end.

(** Lines 239-242: the remaining columns get nulls. *)
Fixpoint fill_nulls (n col_idx : nat) (cols : list (list (option V))) : list (list (option V)) :=
  match n with
  | O => cols
  | S n' => fill_nulls n' (col_idx + 1) (append_at col_idx None cols)
  end.

(** Lines 180-194: skip empty lines. *)
Fixpoint skip_empty (l : bytes) : bytes :=
  match l with
  | [] => []
  | c :: r =>
      if N.eqb c LF then skip_empty r
      else if N.eqb c CR then
        match r with
        | c' :: r' => if N.eqb c' LF then skip_empty r' else skip_empty r
        | [] => []
        end
      else l
  end.

(** Lines 178-247 (= 753-821): the row loop on the bytes from [offset] on.
    [ne_in]: the uninitialised local needs_escaping (205), any value.  Result:
    columns and row_count; [None]: undefined behaviour. *)
Fixpoint read_rows (fuel : nat) (ne_in : bool) (l : bytes) (cols : list (list (option V))) (rows : nat)
  : option (list (list (option V)) * nat) :=
  match l with
  | [] => Some (cols, rows)
  | _ =>
      match fuel with
      | O => None
      | S fuel' =>
          match skip_empty l with
          | [] => Some (cols, rows)
          | l' =>
              match row_fields lanes clmul sep q LF l' ne_in with
              | None => None
              | Some (fields, rest) =>
                  let '(col_idx, cols') := fields_into fields 0 cols in
                  read_rows fuel' ne_in rest (fill_nulls (length cols - col_idx) col_idx cols') (rows + 1)
              end
          end
      end
  end.

(** Lines 135-149: find the closing quote. *)
Fixpoint skip_quoted (l : bytes) : bool * bytes :=
  match l with
  | [] => (true, [])
  | c :: r =>
      if N.eqb c q then
        match r with
        | c' :: r' => if N.eqb c' q then skip_quoted r' else (false, r)
        | [] => (false, [])
        end
      else skip_quoted r
  end.

(** Lines 152-169: skip to the end of the partial row. *)
Fixpoint skip_row (in_quote : bool) (l : bytes) : bytes :=
  match l with
  | [] => []
  | c :: r =>
      if N.eqb c q then
        match in_quote, r with
        | true, c' :: r' => if N.eqb c' q then skip_row in_quote r' else skip_row (negb in_quote) r
        | _, _ => skip_row (negb in_quote) r
        end
      else if negb in_quote && (N.eqb c LF || N.eqb c CR) then
        if N.eqb c CR && next_is LF r then tl r else r
      else skip_row in_quote r
  end.

(** parse_chunk_with_state, 113-252: columns and row count. *)
Definition parse_chunk (ne_in : bool) (data : bytes) (cols : list (list (option V))) (start_inside : bool)
  : option (list (list (option V)) * nat) :=
  if (length data =? 0) || (length cols =? 0) then Some (cols, 0)
  else
    let l := if start_inside then let '(in_quote, r) := skip_quoted data in skip_row in_quote r
             else data in
    read_rows (S (length l)) ne_in l cols 0.

(** ** Reading the whole file *)

(** What read_all leaves observable: result.chunks, result.total_rows and
    row_count(). *)
Record read_result := mkRead
  { chunks : list (list (list (option V))); total_rows : nat; reported_rows : nat }.

Definition empty_columns (ncols : nat) : list (list (option V)) := repeat [] ncols.

(** read_all_serial, 716-828. *)
Definition read_all_serial (ne_in : bool) (ncols : nat) (data : bytes) (header_end : nat)
  : option read_result :=
  if ncols =? 0 then Some (mkRead [] 0 0)
  else
    let l := skipn header_end data in
    match read_rows (S (length l)) ne_in l (empty_columns ncols) 0 with
    | None => None
    | Some (cols, _) =>
        let n := match cols with [] => 0 | c :: _ => length c end in
        Some (mkRead [cols] n n)
    end.

(** The parallel part of read_all, 565-712, for the chunk ranges found by
    540-563.  Tasks write disjoint slots; see TasksModel for their interleaving. *)
Definition read_chunks (ne_in : bool) (ncols : nat) (data : bytes) (ranges : list (nat * nat))
  : option read_result :=
  match map_option (fun c => analyze_chunk_dual_state_simd lanes clmul c q)
                   (map (fun '(s, e) => slice s e data) ranges) with
  | None => None
  | Some ds =>
      let states := link_states false ds in
      match map_option (fun '(r, st) => parse_chunk ne_in (slice (fst r) (snd r) data) (empty_columns ncols) st)
                       (combine ranges states) with
      | None => None
      | Some rs => Some (mkRead (map fst rs) (fold_left Nat.add (map snd rs) 0) (total_row_count ds))
      end
  end.

(** read_all, 516-713, with the chunk size and the threshold (530) as parameters. *)
Definition read_all_with (threshold chunk_size : nat) (ne_in : bool) (ncols : nat) (data : bytes) (header_end : nat)
  : option read_result :=
  if ncols =? 0 then Some (mkRead [] 0 0)
  else if length data - header_end <? threshold then read_all_serial ne_in ncols data header_end
  else
    match chunk_ranges lanes clmul q data header_end chunk_size with
    | None => None
    | Some ranges =>
        if length ranges <=? 1 then read_all_serial ne_in ncols data header_end
        else read_chunks ne_in ncols data ranges
    end.

Definition PARALLEL_THRESHOLD : N := (1024 * 1024)%N.

(** read_all, 516-713. *)
Definition read_all (num_threads : N) (ne_in : bool) (ncols : nat) (data : bytes) (header_end : nat)
  : option read_result :=
  read_all_with (N.to_nat PARALLEL_THRESHOLD)
    (N.to_nat (calculate_chunk_size (N.of_nat (length data - header_end)) (N.of_nat ncols) num_threads))
    ne_in ncols data header_end.
End Rows.
Arguments mkRead {V}. Arguments chunks {V}. Arguments total_rows {V}. Arguments reported_rows {V}.
