(** The scanning code of the reader written with indices and explicit reads, as in the source.
    Models src/parser/simd_chunk_finder.cpp, src/parser/chunk_finder.cpp,
    include/libvroom/split_fields.h, src/parser/split_fields_iter-inl.h,
    src/parser/line_parser.cpp:33-94 and src/reader/csv_reader.cpp:19-39, 113-252, 340-370, 516-828 at a lower
    level than ChunkModel, FieldsModel and ReaderModel, which take bounds for granted.
    [d] is the memory a function may read, [size] what it was told; a read outside [d] is [None].
    [fuel] bounds the rounds of a loop; running out is [None], too. *)
From Verif Require Import Base WordsModel ChunkModel FieldsModel ReaderModel.

(** d[i] *)
Definition rd (d : bytes) (i : nat) : option byte := nth_error d i.
(** i < size && d[i] == c *)
Definition peek (d : bytes) (size i : nat) (c : byte) : option bool :=
  if i <? size then match rd d i with Some x => Some (N.eqb x c) | None => None end else Some false.
(** a && b with b evaluated only if a *)
Definition also (a : bool) (b : option bool) : option bool := if a then b else Some false.
(** hn::LoadU(d + i): [n] lanes *)
Definition load (d : bytes) (i n : nat) : option bytes :=
  if i + n <=? length d then Some (firstn n (skipn i d)) else None.
(** the text of a string_view *)
Definition view (d : bytes) (i n : nat) : option bytes := load d i n.

Notation "'let?' x ':=' a 'in' b" := (match a with Some x => b | None => None end) (at level 200, x pattern, right associativity).

(** ** simd_chunk_finder.cpp *)

(** 73-101, 222-248, 402-428 and split_fields_iter-inl.h:41-55, 80-96: the lanes at d + p. *)
Fixpoint raw_assemble (fuel lanes : nat) (c : byte) (d : bytes) (p chunk_offset : nat) (acc : N) : option N :=
  if chunk_offset <? 64 then
    match fuel with
    | O => None
    | S fuel' =>
        let? block := load d (p + chunk_offset) lanes in
        raw_assemble fuel' lanes c d p (chunk_offset + lanes)
          (or_mask_bytes acc chunk_offset (mask_bytes ((lanes + 7) / 8) c block))
    end
  else Some acc.
Definition raw_masks (lanes : nat) (q : byte) (d : bytes) (p : nat) : option (N * N * N) :=
  let? qb := raw_assemble 64 lanes q d p 0 0 in
  let? nb := raw_assemble 64 lanes LF d p 0 0 in
  let? cb := raw_assemble 64 lanes CR d p 0 0 in
  Some (qb, nb, cb).

(** 108-131, 431-449 *)
Definition raw_valid_eol (clmul : bool) (qb nb cb state : N) (d : bytes) (size offset : nat) : option (N * N) :=
  let '(inside_quote, state') := find_quote_mask clmul qb state in
  let valid_lf := N.land nb (not64 inside_quote) in
  let valid_cr := N.land cb (not64 inside_quote) in
  let crlf_cr := N.land valid_cr (shr64 nb 1) in
  let standalone_cr := N.land valid_cr (not64 crlf_cr) in
  let? crlf := also (negb (N.eqb (N.land standalone_cr bit63) 0)) (peek d size (offset + 64) LF) in
  Some (N.lor valid_lf (if crlf then N.land standalone_cr (not64 bit63) else standalone_cr), state').

(** 144-176 *)
Fixpoint raw_analyze_tail (fuel : nat) (q : byte) (d : bytes) (size offset : nat) (inq : bool) (rows last : nat)
    : option (nat * nat * bool) :=
  if offset <? size then
    match fuel with
    | O => None
    | S f =>
        let? c := rd d offset in
        if N.eqb c q then
          let? doubled := also inq (peek d size (offset + 1) q) in
          if doubled then raw_analyze_tail f q d size (offset + 2) inq rows last
          else raw_analyze_tail f q d size (offset + 1) (negb inq) rows last
        else if negb inq then
          if N.eqb c LF then raw_analyze_tail f q d size (offset + 1) inq (rows + 1) (offset + 1)
          else if N.eqb c CR then
            let? lf := peek d size (offset + 1) LF in
            if lf then raw_analyze_tail f q d size (offset + 1) inq rows last
            else raw_analyze_tail f q d size (offset + 1) inq (rows + 1) (offset + 1)
          else raw_analyze_tail f q d size (offset + 1) inq rows last
        else raw_analyze_tail f q d size (offset + 1) inq rows last
    end
  else Some (rows, last, inq).
(** 67-176 *)
Fixpoint raw_analyze_blocks (fuel lanes : nat) (clmul : bool) (q : byte) (d : bytes) (size offset : nat) (state : N) (rows last : nat)
    : option (nat * nat * bool) :=
  if offset + 64 <=? size then
    match fuel with
    | O => None
    | S f =>
        let? (qb, nb, cb) := raw_masks lanes q d offset in
        let? (eol, state') := raw_valid_eol clmul qb nb cb state d size offset in
        raw_analyze_blocks f lanes clmul q d size (offset + 64) state'
          (rows + popcount eol) (if N.eqb eol 0 then last else offset + high_bit eol + 1)
    end
  else raw_analyze_tail (S size) q d size offset (negb (N.eqb state 0)) rows last.
(** 46-179, 525-530 *)
Definition raw_analyze (lanes : nat) (clmul : bool) (d : bytes) (size : nat) (q : byte) (start_inside : bool) : option (nat * nat * bool) :=
  let st := if start_inside then ones64 else 0%N in
  if size =? 0 then Some (0, 0, negb (N.eqb st 0))
  else raw_analyze_blocks size lanes clmul q d size 0 st 0 0.

(** 552-586 *)
Fixpoint raw_count_scalar (fuel : nat) (q : byte) (d : bytes) (size i : nat) (inq : bool) (rows last : nat) : option (nat * nat) :=
  if i <? size then
    match fuel with
    | O => None
    | S f =>
        let? c := rd d i in
        if N.eqb c q then
          let? doubled := also inq (peek d size (i + 1) q) in
          if doubled then raw_count_scalar f q d size (i + 1 + 1) inq rows last
          else raw_count_scalar f q d size (i + 1) (negb inq) rows last
        else if negb inq then
          if N.eqb c LF then raw_count_scalar f q d size (i + 1) inq (rows + 1) (i + 1)
          else if N.eqb c CR then
            let? lf := peek d size (i + 1) LF in
            if lf then raw_count_scalar f q d size (i + 1) inq rows last
            else raw_count_scalar f q d size (i + 1) inq (rows + 1) (i + 1)
          else raw_count_scalar f q d size (i + 1) inq rows last
        else raw_count_scalar f q d size (i + 1) inq rows last
    end
  else Some (rows, last).
(** chunk_finder.cpp:82-87 *)
Definition raw_count_rows (lanes : nat) (clmul : bool) (d : bytes) (size : nat) (q : byte) : option (nat * nat) :=
  if size <? 64 then raw_count_scalar (S size) q d size 0 false 0 0
  else let? (c, e, _) := raw_analyze lanes clmul d size q false in Some (c, e).

(** 296-338 *)
Fixpoint raw_dual_tail (fuel : nat) (q : byte) (d : bytes) (size offset : nat) (parity : bool) (ro lo ri li : nat) : option dual :=
  if offset <? size then
    match fuel with
    | O => None
    | S f =>
        let? c := rd d offset in
        if N.eqb c q then raw_dual_tail f q d size (offset + 1) (negb parity) ro lo ri li
        else if N.eqb c LF then
          if negb parity then raw_dual_tail f q d size (offset + 1) parity (ro + 1) (offset + 1) ri li
          else raw_dual_tail f q d size (offset + 1) parity ro lo (ri + 1) (offset + 1)
        else if N.eqb c CR then
          let? is_crlf := peek d size (offset + 1) LF in
          if negb is_crlf then
            if negb parity then raw_dual_tail f q d size (offset + 1) parity (ro + 1) (offset + 1) ri li
            else raw_dual_tail f q d size (offset + 1) parity ro lo (ri + 1) (offset + 1)
          else raw_dual_tail f q d size (offset + 1) parity ro lo ri li
        else raw_dual_tail f q d size (offset + 1) parity ro lo ri li
    end
  else Some (mkDual ro lo ri li parity).
(** 250-277 *)
Definition raw_dual_eol (clmul : bool) (qb nb cb state : N) (d : bytes) (size offset : nat) : option (N * N * N) :=
  let quote_parity := N.lxor (prefix_xorsum clmul qb) state in
  let state' := sign_extend63 quote_parity in
  let crlf_cr := N.land cb (shr64 nb 1) in
  let outside_mask := not64 quote_parity in
  let eol_out := N.lor (N.land nb outside_mask) (N.land (N.land cb outside_mask) (not64 crlf_cr)) in
  let eol_in := N.lor (N.land nb quote_parity) (N.land (N.land cb quote_parity) (not64 crlf_cr)) in
  let? crlf := also (negb (N.eqb (N.land cb bit63) 0)) (peek d size (offset + 64) LF) in
  Some (if crlf then (N.land eol_out (not64 bit63), N.land eol_in (not64 bit63), state') else (eol_out, eol_in, state')).
(** 216-338 *)
Fixpoint raw_dual_blocks (fuel lanes : nat) (clmul : bool) (q : byte) (d : bytes) (size offset : nat) (state : N) (ro lo ri li : nat) : option dual :=
  if offset + 64 <=? size then
    match fuel with
    | O => None
    | S f =>
        let? (qb, nb, cb) := raw_masks lanes q d offset in
        let? (eo, ei, state') := raw_dual_eol clmul qb nb cb state d size offset in
        raw_dual_blocks f lanes clmul q d size (offset + 64) state'
          (ro + popcount eo) (if N.eqb eo 0 then lo else offset + high_bit eo + 1)
          (ri + popcount ei) (if N.eqb ei 0 then li else offset + high_bit ei + 1)
    end
  else raw_dual_tail (S size) q d size offset (negb (N.eqb state 0)) ro lo ri li.
(** 197-338, 534-544 *)
Definition raw_dual (lanes : nat) (clmul : bool) (d : bytes) (size : nat) (q : byte) : option dual :=
  if size =? 0 then Some (mkDual 0 0 0 0 false) else raw_dual_blocks size lanes clmul q d size 0 0%N 0 0 0 0.

(** 370-391 with [limit] = aligned_start; 473-493 and 589-622 with [limit] = size: a returned
    offset (inl) or the state the loop is left in. *)
Fixpoint raw_scan_row (fuel limit : nat) (q : byte) (d : bytes) (size offset : nat) (inq : bool) : option (nat + nat * bool) :=
  if (offset <? limit) && (offset <? size) then
    match fuel with
    | O => None
    | S f =>
        let? c := rd d offset in
        if N.eqb c q then
          let? doubled := also inq (peek d size (offset + 1) q) in
          if doubled then raw_scan_row f limit q d size (offset + 2) inq
          else raw_scan_row f limit q d size (offset + 1) (negb inq)
        else if negb inq then
          if N.eqb c LF then Some (inl (offset + 1))
          else if N.eqb c CR then
            let? lf := peek d size (offset + 1) LF in Some (inl (if lf then offset + 2 else offset + 1))
          else raw_scan_row f limit q d size (offset + 1) inq
        else raw_scan_row f limit q d size (offset + 1) inq
    end
  else Some (inr (offset, inq)).
Definition or_size (size : nat) (r : nat + nat * bool) : nat := match r with inl p => p | inr _ => size end.
(** 589-622 *)
Definition raw_row_end_scalar (d : bytes) (size start : nat) (q : byte) : option nat :=
  let? r := raw_scan_row (S size) size q d size start false in Some (or_size size r).
(** 396-496 *)
Fixpoint raw_row_end_blocks (fuel lanes : nat) (clmul : bool) (q : byte) (d : bytes) (size offset : nat) (state : N) : option nat :=
  if offset + 64 <=? size then
    match fuel with
    | O => None
    | S f =>
        let? (qb, nb, cb) := raw_masks lanes q d offset in
        let? (eol, state') := raw_valid_eol clmul qb nb cb state d size offset in
        if N.eqb eol 0 then raw_row_end_blocks f lanes clmul q d size (offset + 64) state'
        else
          let eol_pos := offset + ctz eol in
          let? c := rd d eol_pos in
          if N.eqb c LF then Some (eol_pos + 1)
          else let? lf := peek d size (eol_pos + 1) LF in Some (if lf then eol_pos + 2 else eol_pos + 1)
    end
  else let? r := raw_scan_row (S size) size q d size offset (negb (N.eqb state 0)) in Some (or_size size r).
(** 343-496 *)
Definition raw_row_end_simd (lanes : nat) (clmul : bool) (d : bytes) (size start : nat) (q : byte) : option nat :=
  if size <=? start then Some size
  else
    let aligned := ((start + 63) / 64) * 64 in
    let aligned := if size <? aligned then size else aligned in
    let? r := raw_scan_row (S size) aligned q d size start false in
    match r with
    | inl p => Some p
    | inr (offset, inq) => raw_row_end_blocks size lanes clmul q d size offset (if inq then ones64 else 0%N)
    end.
(** chunk_finder.cpp:12-20 *)
Definition raw_row_end (lanes : nat) (clmul : bool) (q : byte) (d : bytes) (size start : nat) : option nat :=
  if 64 <=? size - start then raw_row_end_simd lanes clmul d size start q else raw_row_end_scalar d size start q.

(** ** split_fields.h: the iterator; [r_v] is an index into [d] *)
Record rsf : Type := mkRsf { r_v : nat; r_remaining : nat; r_finished : bool; r_prev : N }.

(** 226-240 *)
Fixpoint raw_quoted_tail (fuel : nat) (sep q eol : byte) (d : bytes) (p len i : nat) (in_field : bool) : option (option nat) :=
  if i <? len then
    match fuel with
    | O => None
    | S f =>
        let? c := rd d (p + i) in
        let in_field := if N.eqb c q then negb in_field else in_field in
        if negb in_field && (N.eqb c sep || N.eqb c eol) then Some (Some i)
        else raw_quoted_tail f sep q eol d p len (i + 1) in_field
    end
  else Some None.
(** 268-278 *)
Fixpoint raw_unquoted_tail (fuel : nat) (sep eol : byte) (d : bytes) (p len i : nat) : option (option nat) :=
  if i <? len then
    match fuel with
    | O => None
    | S f => let? c := rd d (p + i) in
             if N.eqb c sep || N.eqb c eol then Some (Some i) else raw_unquoted_tail f sep eol d p len (i + 1)
    end
  else Some None.
(** 189-241 *)
Fixpoint raw_scan_quoted (fuel lanes : nat) (clmul : bool) (sep q eol : byte) (d : bytes) (v remaining total : nat) (not_in_field : bool)
    : option scan_result :=
  if 64 <? remaining - total then
    match fuel with
    | O => None
    | S f =>
        let? sep_mask := raw_assemble 64 lanes sep d (v + total) 0 0 in
        let? eol_mask := raw_assemble 64 lanes eol d (v + total) 0 0 in
        let? quote_mask := raw_assemble 64 lanes q d (v + total) 0 0 in
        let not_in_quote := prefix_xorsum clmul quote_mask in
        let not_in_quote := if not_in_field then not64 not_in_quote else not_in_quote in
        let not_in_field' := negb (N.eqb (N.land not_in_quote bit63) 0) in
        let end_mask := N.land (N.lor sep_mask eol_mask) not_in_quote in
        if negb (N.eqb end_mask 0) then Some (take_mask total end_mask)
        else raw_scan_quoted f lanes clmul sep q eol d v remaining (total + 64) not_in_field'
    end
  else
    let? r := raw_quoted_tail (S remaining) sep q eol d (v + total) (remaining - total) 0 (negb not_in_field) in
    Some (option_map (Nat.add total) r, None).
(** 243-279 *)
Fixpoint raw_scan_unquoted (fuel lanes : nat) (sep eol : byte) (d : bytes) (v remaining total : nat) : option scan_result :=
  if 64 <? remaining - total then
    match fuel with
    | O => None
    | S f =>
        let? a := raw_assemble 64 lanes sep d (v + total) 0 0 in
        let? b := raw_assemble 64 lanes eol d (v + total) 0 0 in
        let end_mask := N.lor a b in
        if negb (N.eqb end_mask 0) then Some (take_mask total end_mask)
        else raw_scan_unquoted f lanes sep eol d v remaining (total + 64)
    end
  else
    let? r := raw_unquoted_tail (S remaining) sep eol d (v + total) (remaining - total) 0 in
    Some (option_map (Nat.add total) r, None).

(** 168-187: field_data, field_len, needs_escaping *)
Definition raw_finish (it : rsf) (prev : N) (ne : bool) : option (nat * nat * bool) * rsf :=
  (Some (r_v it, r_remaining it, ne), mkRsf (r_v it + r_remaining it) 0 true prev).
Definition raw_cut (it : rsf) (prev : N) (pos : nat) (is_eol ne : bool) : option (nat * nat * bool) * rsf :=
  (Some (r_v it, pos, ne), mkRsf (r_v it + (pos + 1)) (r_remaining it - (pos + 1)) is_eol prev).
(** 98-150; a shift by 64 (106) is undefined *)
Definition raw_next (lanes : nat) (clmul : bool) (sep q eol : byte) (d : bytes) (it : rsf) (ne_in : bool)
    : option (option (nat * nat * bool) * rsf) :=
  let quoting := negb (N.eqb q 0) in
  if r_finished it then Some (None, it)
  else if negb (N.eqb (r_prev it) 0) then
    let pos := ctz (r_prev it) in
    if 64 <=? pos + 1 then None
    else
      let prev := shr64 (r_prev it) (N.of_nat (pos + 1)) in
      let? ne := also (quoting && (0 <? r_remaining it)) (let? c := rd d (r_v it) in Some (N.eqb c q)) in
      let? c := rd d (r_v it + pos) in
      Some (raw_cut it prev pos (N.eqb c eol) ne)
  else if r_remaining it =? 0 then Some (raw_finish it (r_prev it) ne_in)
  else
    let? ne := also quoting (let? c := rd d (r_v it) in Some (N.eqb c q)) in
    let? (p, np) := (if ne then raw_scan_quoted (r_remaining it) lanes clmul sep q eol d (r_v it) (r_remaining it) 0 true
                     else raw_scan_unquoted (r_remaining it) lanes sep eol d (r_v it) (r_remaining it) 0) in
    let prev := match np with Some x => x | None => r_prev it end in
    let pos := match p with Some pos => pos | None => r_remaining it end in
    if r_remaining it <=? pos then Some (raw_finish it prev ne)
    else let? c := rd d (r_v it + pos) in Some (raw_cut it prev pos (N.eqb c eol) ne).

(** ** csv_reader.cpp *)

(** 19-39 on the text at d + p of length [len]; the search of the fast path reads the same bytes *)
Fixpoint raw_find (fuel : nat) (q : byte) (d : bytes) (p len i : nat) : option bool :=
  if i <? len then
    match fuel with
    | O => None
    | S f => let? c := rd d (p + i) in if N.eqb q c then Some true else raw_find f q d p len (i + 1)
    end
  else Some false.
Fixpoint raw_unescape_loop (fuel : nat) (q : byte) (d : bytes) (p len i : nat) : option bytes :=
  if i <? len then
    match fuel with
    | O => None
    | S f =>
        let? c := rd d (p + i) in
        let? doubled := also (N.eqb c q && (i + 1 <? len)) (let? c' := rd d (p + (i + 1)) in Some (N.eqb c' q)) in
        if doubled then let? r := raw_unescape_loop f q d p len (i + 2) in Some (q :: r)
        else let? r := raw_unescape_loop f q d p len (i + 1) in Some (c :: r)
    end
  else Some [].
Definition raw_unescape (q : byte) (d : bytes) (p len : nat) : option bytes :=
  let? found := raw_find len q d p len 0 in
  if found then raw_unescape_loop len q d p len 0 else view d p len.

Section Rows.
Context {V : Type}.
Variable conv : nat -> bytes -> option V.
Variables (lanes : nat) (clmul : bool) (sep q : byte) (nc : null_checker).

(** 208-237 (= 783-812).  The iterator, the number of columns met and the columns at the end. *)
Fixpoint raw_row (fuel : nat) (d : bytes) (it : rsf) (ne_in : bool) (col_idx : nat) (cols : list (list (option V)))
    : option (rsf * nat * list (list (option V))) :=
  match fuel with
  | O => None
  | S f =>
      let? (out, it') := raw_next lanes clmul sep q LF d it ne_in in
      match out with
      | None => Some (it', col_idx, cols)
      | Some (fd, len, ne) =>
          let? cr := also (0 <? len) (let? c := rd d (fd + (len - 1)) in Some (N.eqb c CR)) in
          let len := if cr then len - 1 else len in
          if length cols <=? col_idx then raw_row f d it' ne (col_idx + 1) cols
          else
            let? field := view d fd len in
            if is_null nc field then raw_row f d it' ne (col_idx + 1) (append_at col_idx None cols)
            else if ne then
              let? outer := also (2 <=? len) (let? a := rd d fd in
                              also (N.eqb a q) (let? b := rd d (fd + (len - 1)) in Some (N.eqb b q))) in
              let? text := (if outer then raw_unescape q d (fd + 1) (len - 2) else raw_unescape q d fd len) in
              raw_row f d it' ne (col_idx + 1) (append_at col_idx (conv col_idx text) cols)
            else raw_row f d it' ne (col_idx + 1) (append_at col_idx (conv col_idx field) cols)
      end
  end.

(** 180-194 (= 755-769) *)
Fixpoint raw_skip_empty (fuel : nat) (d : bytes) (size offset : nat) : option nat :=
  if offset <? size then
    match fuel with
    | O => None
    | S f =>
        let? c := rd d offset in
        if N.eqb c LF then raw_skip_empty f d size (offset + 1)
        else if N.eqb c CR then
          let? lf := peek d size (offset + 1) LF in
          raw_skip_empty f d size (if lf then offset + 1 + 1 else offset + 1)
        else Some offset
    end
  else Some offset.

(** 178-247 (= 753-821) *)
Fixpoint raw_rows (fuel : nat) (ne_in : bool) (d : bytes) (size offset : nat) (cols : list (list (option V))) (rows : nat)
    : option (list (list (option V)) * nat) :=
  if offset <? size then
    match fuel with
    | O => None
    | S f =>
        let? offset := raw_skip_empty (S size) d size offset in
        if size <=? offset then Some (cols, rows)
        else
          let start_remaining := size - offset in
          let? (it, col_idx, cols') := raw_row (S (S start_remaining)) d (mkRsf offset start_remaining false 0) ne_in 0 cols in
          raw_rows f ne_in d size (offset + (start_remaining - r_remaining it))
            (fill_nulls (length cols - col_idx) col_idx cols') (rows + 1)
    end
  else Some (cols, rows).

(** 135-149 *)
Fixpoint raw_skip_quoted (fuel : nat) (d : bytes) (size offset : nat) : option (bool * nat) :=
  if offset <? size then
    match fuel with
    | O => None
    | S f =>
        let? c := rd d offset in
        if N.eqb c q then
          let? doubled := peek d size (offset + 1) q in
          if doubled then raw_skip_quoted f d size (offset + 2) else Some (false, offset + 1)
        else raw_skip_quoted f d size (offset + 1)
    end
  else Some (true, offset).
(** 152-169 *)
Fixpoint raw_skip_row (fuel : nat) (in_quote : bool) (d : bytes) (size offset : nat) : option nat :=
  if offset <? size then
    match fuel with
    | O => None
    | S f =>
        let? c := rd d offset in
        if N.eqb c q then
          let? doubled := also in_quote (peek d size (offset + 1) q) in
          if doubled then raw_skip_row f in_quote d size (offset + 2)
          else raw_skip_row f (negb in_quote) d size (offset + 1)
        else if negb in_quote && (N.eqb c LF || N.eqb c CR) then
          let? lf := also (N.eqb c CR) (peek d size (offset + 1) LF) in
          Some (if lf then offset + 1 + 1 else offset + 1)
        else raw_skip_row f in_quote d size (offset + 1)
    end
  else Some offset.
(** 113-252 *)
Definition raw_parse_chunk (ne_in : bool) (d : bytes) (size : nat) (cols : list (list (option V))) (start_inside : bool)
    : option (list (list (option V)) * nat) :=
  if (size =? 0) || (length cols =? 0) then Some (cols, 0)
  else
    let? offset := (if start_inside
                    then let? (in_quote, o) := raw_skip_quoted (S size) d size 0 in raw_skip_row (S size) in_quote d size o
                    else Some 0) in
    raw_rows (S size) ne_in d size offset cols 0.

(** 716-828 *)
Definition raw_read_serial (ne_in : bool) (ncols : nat) (d : bytes) (size header_end : nat) : option (@read_result V) :=
  if ncols =? 0 then Some (mkRead [] 0 0)
  else
    let? (cols, _) := raw_rows (S size) ne_in d size header_end (empty_columns ncols) 0 in
    let n := match cols with [] => 0 | c :: _ => length c end in
    Some (mkRead [cols] n n).

(** A task on data + s, e - s (595-603, 678-684): the bytes of the chunk only; nothing is done when the range is not
    inside the data. *)
Definition on_chunk {A} (d : bytes) (size : nat) (r : nat * nat) (nothing : A) (f : bytes -> nat -> option A) : option A :=
  let '(s, e) := r in
  if (size <=? s) || (size <? e) || (e <=? s) then Some nothing
  else let? c := load d s (e - s) in f c (e - s).

(** 516-713 with the threshold and the chunk size as parameters *)
Definition raw_read_all_with (threshold chunk_size : nat) (ne_in : bool) (ncols : nat) (d : bytes) (size header_end : nat)
    : option (@read_result V) :=
  if ncols =? 0 then Some (mkRead [] 0 0)
  else if size - header_end <? threshold then raw_read_serial ne_in ncols d size header_end
  else
    let? ranges := chunk_ranges_loop size (raw_row_end lanes clmul q d size) chunk_size size header_end in
    if length ranges <=? 1 then raw_read_serial ne_in ncols d size header_end
    else
      let? ds := map_option (fun r => on_chunk d size r (mkDual 0 0 0 0 false) (fun c n => raw_dual lanes clmul c n q)) ranges in
      let? rs := map_option (fun '(r, st) => on_chunk d size r ([], 0)
                   (fun c n => raw_parse_chunk ne_in c n (empty_columns ncols) st)) (combine ranges (link_states false ds)) in
      Some (mkRead (map fst rs) (fold_left Nat.add (map snd rs) 0) (total_row_count ds)).
Definition raw_read_all (num_threads : N) (ne_in : bool) (ncols : nat) (d : bytes) (size header_end : nat) : option (@read_result V) :=
  raw_read_all_with (N.to_nat PARALLEL_THRESHOLD)
    (N.to_nat (calculate_chunk_size (N.of_nat (size - header_end)) (N.of_nat ncols) num_threads)) ne_in ncols d size header_end.
End Rows.

(** line_parser.cpp:44-82; the names and current_field when the loop ends *)
Fixpoint raw_header_loop (fuel : nat) (sep q : byte) (d : bytes) (size i : nat) (inq : bool) (cur : bytes) (names : list bytes)
    : option (list bytes * bytes) :=
  if i <? size then
    match fuel with
    | O => None
    | S f =>
        let? c := rd d i in
        if negb inq && is_nl c then Some (names ++ [drop_while_end is_blank cur], [])
        else if N.eqb c q then
          let? doubled := also inq (peek d size (i + 1) q) in
          if doubled then raw_header_loop f sep q d size (i + 1 + 1) inq (cur ++ [q]) names
          else raw_header_loop f sep q d size (i + 1) (negb inq) cur names
        else if N.eqb c sep && negb inq then raw_header_loop f sep q d size (i + 1) inq [] (names ++ [drop_while_end is_blank cur])
        else if (length cur =? 0) && negb inq && is_blank c then raw_header_loop f sep q d size (i + 1) inq cur names
        else raw_header_loop f sep q d size (i + 1) inq (cur ++ [c]) names
    end
  else Some (names, cur).
(** line_parser.cpp:33-94 *)
Definition raw_parse_header (sep q : byte) (d : bytes) (size : nat) : option (list bytes) :=
  if size =? 0 then Some []
  else
    let? (names, cur) := raw_header_loop size sep q d size 0 false [] [] in
    Some (if negb (length cur =? 0) || (length names =? 0) then names ++ [drop_while_end is_blank cur] else names).
(** csv_reader.cpp:346-360, 454-468 *)
Fixpoint raw_count_columns (fuel : nat) (sep q : byte) (d : bytes) (first_row_end i : nat) (inq : bool) (n : nat) : option nat :=
  if i <? first_row_end then
    match fuel with
    | O => None
    | S f =>
        let? c := rd d i in
        if N.eqb c q then
          let? doubled := also inq (peek d first_row_end (i + 1) q) in
          if doubled then raw_count_columns f sep q d first_row_end (i + 1 + 1) inq n
          else raw_count_columns f sep q d first_row_end (i + 1) (negb inq) n
        else if N.eqb c sep && negb inq then raw_count_columns f sep q d first_row_end (i + 1) inq (n + 1)
        else raw_count_columns f sep q d first_row_end (i + 1) inq n
    end
  else Some n.
