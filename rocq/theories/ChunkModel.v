(** Row counting, chunk analysis, row-end search and chunking.
    Models src/parser/simd_chunk_finder.cpp, src/parser/chunk_finder.cpp, the
    chunking and linking loops of src/reader/csv_reader.cpp (read_all) and
    include/libvroom/options.h (calculate_chunk_size).

    A buffer (data, size) is a list of bytes; the position [data + offset] is
    represented by the suffix of the list together with [offset].  A test such
    as "offset + 1 < size && data[offset + 1] == c" is [next_is c rest].
    size_t additions are not wrapped: offsets are bounded by the buffer size,
    which is assumed to leave 64 bytes of headroom below 2^64.
    [lanes] and [clmul] are the compile-time SIMD parameters; [None] is the
    undefined behaviour of a vector load that leaves the buffer. *)
From Verif Require Import Base WordsModel.

(** offset + 1 < size && data[offset + 1] == c, where [rest] is the suffix at
    offset + 1. *)
Definition next_is (c : byte) (rest : bytes) : bool :=
  match rest with x :: _ => N.eqb x c | [] => false end.

(** src/parser/simd_chunk_finder.cpp:146-176 (scalar tail of
    AnalyzeChunkSimdImpl).  Returns (row_count, last_row_end, inside). *)
Fixpoint analyze_tail (q : byte) (l : bytes) (off : nat) (inq : bool) (rows last : nat)
  : nat * nat * bool :=
  match l with
  | [] => (rows, last, inq)
  | c :: rest =>
      if N.eqb c q then
        match inq, rest with
        | true, c' :: rest' =>
            if N.eqb c' q then analyze_tail q rest' (off + 2) inq rows last
            else analyze_tail q rest (off + 1) (negb inq) rows last
        | _, _ => analyze_tail q rest (off + 1) (negb inq) rows last
        end
      else if inq then analyze_tail q rest (off + 1) inq rows last
      else if N.eqb c LF then analyze_tail q rest (off + 1) inq (rows + 1) (off + 1)
      else if N.eqb c CR then
        if next_is LF rest then analyze_tail q rest (off + 1) inq rows last
        else analyze_tail q rest (off + 1) inq (rows + 1) (off + 1)
      else analyze_tail q rest (off + 1) inq rows last
  end.

(** src/parser/simd_chunk_finder.cpp:552-586 count_rows_scalar: the same loop
    written with an index ("++i; continue" for an escaped pair). *)
Fixpoint count_rows_scalar_loop (q : byte) (l : bytes) (i : nat) (inq : bool) (rows last : nat)
  : nat * nat :=
  match l with
  | [] => (rows, last)
  | c :: rest =>
      if N.eqb c q then
        match inq, rest with
        | true, c' :: rest' =>
            if N.eqb c' q then count_rows_scalar_loop q rest' (i + 2) inq rows last
            else count_rows_scalar_loop q rest (i + 1) (negb inq) rows last
        | _, _ => count_rows_scalar_loop q rest (i + 1) (negb inq) rows last
        end
      else if inq then count_rows_scalar_loop q rest (i + 1) inq rows last
      else if N.eqb c LF then count_rows_scalar_loop q rest (i + 1) inq (rows + 1) (i + 1)
      else if N.eqb c CR then
        if next_is LF rest then count_rows_scalar_loop q rest (i + 1) inq rows last
        else count_rows_scalar_loop q rest (i + 1) inq (rows + 1) (i + 1)
      else count_rows_scalar_loop q rest (i + 1) inq rows last
  end.

Definition count_rows_scalar (data : bytes) (q : byte) : nat * nat :=
  count_rows_scalar_loop q data 0 false 0 0.

(** The three masks of a block (simd_chunk_finder.cpp:69-101, 218-248, 398-428). *)
Definition block_masks (lanes : nat) (q : byte) (l : bytes) : option (N * N * N) :=
  match assemble_mask 64 lanes q l 0 0, assemble_mask 64 lanes LF l 0 0,
        assemble_mask 64 lanes CR l 0 0 with
  | Some qb, Some nb, Some cb => Some (qb, nb, cb)
  | _, _, _ => None
  end.

Definition bit63 : N := (2 ^ 63)%N.

(** simd_chunk_finder.cpp:108-131 and 431-449: the word of valid line ends of
    one block and the updated quote state.  [l] is the suffix at the block. *)
Definition block_valid_eol (clmul : bool) (qb nb cb state : N) (l : bytes) : N * N :=
  let '(inside_quote, state') := find_quote_mask clmul qb state in
  let valid_lf := N.land nb (not64 inside_quote) in
  let valid_cr := N.land cb (not64 inside_quote) in
  let crlf_cr := N.land valid_cr (shr64 nb 1) in
  let standalone_cr := N.land valid_cr (not64 crlf_cr) in
  let standalone_cr :=
    if negb (N.eqb (N.land standalone_cr bit63) 0) && next_is LF (skipn 64 l)
    then N.land standalone_cr (not64 bit63) else standalone_cr in
  (N.lor valid_lf standalone_cr, state').

(** simd_chunk_finder.cpp:67-178: block loop, then the tail.  [fuel] counts loop
    iterations; [length l] always suffices. *)
Fixpoint analyze_blocks (fuel lanes : nat) (clmul : bool) (q : byte) (l : bytes)
         (off : nat) (state : N) (rows last : nat) : option (nat * nat * bool) :=
  if 64 <=? length l then
    match fuel with
    | O => None
    | S fuel' =>
        match block_masks lanes q l with
        | None => None
        | Some (qb, nb, cb) =>
            let '(eol, state') := block_valid_eol clmul qb nb cb state l in
            analyze_blocks fuel' lanes clmul q (skipn 64 l) (off + 64) state'
              (rows + popcount eol)
              (if N.eqb eol 0 then last else off + high_bit eol + 1)
        end
    end
  else Some (analyze_tail q l off (negb (N.eqb state 0)) rows last).

(** simd_chunk_finder.cpp:46-179 AnalyzeChunkSimdImpl with the wrapper
    analyze_chunk_simd (525-530). *)
Definition analyze_chunk_simd (lanes : nat) (clmul : bool) (data : bytes) (q : byte)
           (start_inside : bool) : option (nat * nat * bool) :=
  let st := if start_inside then ones64 else 0%N in
  match data with
  | [] => Some (0, 0, negb (N.eqb st 0))
  | _ => analyze_blocks (length data) lanes clmul q data 0 st 0 0
  end.

(** simd_chunk_finder.cpp:183-188 CountRowsSimdImpl, wrapper 519-521. *)
Definition count_rows_simd (lanes : nat) (clmul : bool) (data : bytes) (q : byte)
  : option (nat * nat) :=
  match analyze_chunk_simd lanes clmul data q false with
  | Some (c, e, _) => Some (c, e)
  | None => None
  end.

(** chunk_finder.cpp:82-87 ChunkFinder::count_rows (kSimdThreshold = 64, line 8). *)
Definition count_rows (lanes : nat) (clmul : bool) (data : bytes) (q : byte)
  : option (nat * nat) :=
  if length data <? 64 then Some (count_rows_scalar data q)
  else count_rows_simd lanes clmul data q.

(** DualStateResultInternal, simd_chunk_finder.cpp:28-34. *)
Record dual := mkDual {
  row_count_outside : nat; last_row_end_outside : nat;
  row_count_inside : nat; last_row_end_inside : nat;
  ends_inside_quote : bool }.

(** simd_chunk_finder.cpp:296-338 (scalar tail of the dual-state analysis). *)
Fixpoint dual_tail (q : byte) (l : bytes) (off : nat) (parity : bool)
         (ro lo ri li : nat) : dual :=
  match l with
  | [] => mkDual ro lo ri li parity
  | c :: rest =>
      if N.eqb c q then dual_tail q rest (off + 1) (negb parity) ro lo ri li
      else if N.eqb c LF then
        if negb parity then dual_tail q rest (off + 1) parity (ro + 1) (off + 1) ri li
        else dual_tail q rest (off + 1) parity ro lo (ri + 1) (off + 1)
      else if N.eqb c CR then
        if negb (next_is LF rest) then
          if negb parity then dual_tail q rest (off + 1) parity (ro + 1) (off + 1) ri li
          else dual_tail q rest (off + 1) parity ro lo (ri + 1) (off + 1)
        else dual_tail q rest (off + 1) parity ro lo ri li
      else dual_tail q rest (off + 1) parity ro lo ri li
  end.

(** simd_chunk_finder.cpp:250-277: both valid-line-end words and the new parity. *)
Definition dual_block_eol (clmul : bool) (qb nb cb state : N) (l : bytes) : N * N * N :=
  let quote_parity := N.lxor (prefix_xorsum clmul qb) state in
  let state' := sign_extend63 quote_parity in
  let crlf_cr := N.land cb (shr64 nb 1) in
  let outside_mask := not64 quote_parity in
  let eol_out := N.lor (N.land nb outside_mask)
                       (N.land (N.land cb outside_mask) (not64 crlf_cr)) in
  let eol_in := N.lor (N.land nb quote_parity)
                      (N.land (N.land cb quote_parity) (not64 crlf_cr)) in
  if negb (N.eqb (N.land cb bit63) 0) && next_is LF (skipn 64 l)
  then (N.land eol_out (not64 bit63), N.land eol_in (not64 bit63), state')
  else (eol_out, eol_in, state').

(** simd_chunk_finder.cpp:216-294. *)
Fixpoint dual_blocks (fuel lanes : nat) (clmul : bool) (q : byte) (l : bytes)
         (off : nat) (state : N) (ro lo ri li : nat) : option dual :=
  if 64 <=? length l then
    match fuel with
    | O => None
    | S fuel' =>
        match block_masks lanes q l with
        | None => None
        | Some (qb, nb, cb) =>
            let '(eo, ei, state') := dual_block_eol clmul qb nb cb state l in
            dual_blocks fuel' lanes clmul q (skipn 64 l) (off + 64) state'
              (ro + popcount eo) (if N.eqb eo 0 then lo else off + high_bit eo + 1)
              (ri + popcount ei) (if N.eqb ei 0 then li else off + high_bit ei + 1)
        end
    end
  else Some (dual_tail q l off (negb (N.eqb state 0)) ro lo ri li).

(** simd_chunk_finder.cpp:197-338 AnalyzeChunkDualStateSimdImpl, wrapper 534-544. *)
Definition analyze_chunk_dual_state_simd (lanes : nat) (clmul : bool) (data : bytes) (q : byte)
  : option dual :=
  match data with
  | [] => Some (mkDual 0 0 0 0 false)
  | _ => dual_blocks (length data) lanes clmul q data 0 0%N 0 0 0 0
  end.

(** ** Row-end search *)

(** A scanning loop either returns an offset or leaves a state. *)
Inductive scan :=
| Found (pos : nat)
| Cont (l : bytes) (off : nat) (inq : bool).

(** simd_chunk_finder.cpp:370-391: "while (offset < aligned_start && offset <
    size)".  The remaining-tail loop 473-493 and find_row_end_scalar 589-622 are
    the same body with no alignment bound; they use [limit = None]. *)
Fixpoint row_end_scan (limit : option nat) (q : byte) (l : bytes) (off : nat) (inq : bool) : scan :=
  if match limit with Some a => off <? a | None => true end then
    match l with
    | [] => Cont [] off inq
    | c :: rest =>
        if N.eqb c q then
          match inq, rest with
          | true, c' :: rest' =>
              if N.eqb c' q then row_end_scan limit q rest' (off + 2) inq
              else row_end_scan limit q rest (off + 1) (negb inq)
          | _, _ => row_end_scan limit q rest (off + 1) (negb inq)
          end
        else if negb inq then
          if N.eqb c LF then Found (off + 1)
          else if N.eqb c CR then
            if next_is LF rest then Found (off + 2) else Found (off + 1)
          else row_end_scan limit q rest (off + 1) inq
        else row_end_scan limit q rest (off + 1) inq
    end
  else Cont l off inq.

(** simd_chunk_finder.cpp:589-622 find_row_end_scalar. *)
Definition find_row_end_scalar (data : bytes) (start : nat) (q : byte) : nat :=
  match row_end_scan None q (skipn start data) start false with
  | Found p => p
  | Cont _ _ _ => length data
  end.

(** simd_chunk_finder.cpp:396-496: block loop, then tail. *)
Fixpoint row_end_blocks (fuel lanes : nat) (clmul : bool) (q : byte) (size : nat) (l : bytes)
         (off : nat) (state : N) : option nat :=
  if 64 <=? length l then
    match fuel with
    | O => None
    | S fuel' =>
        match block_masks lanes q l with
        | None => None
        | Some (qb, nb, cb) =>
            let '(eol, state') := block_valid_eol clmul qb nb cb state l in
            if N.eqb eol 0 then
              row_end_blocks fuel' lanes clmul q size (skipn 64 l) (off + 64) state'
            else
              (* 453-465: data[eol_pos] and data[eol_pos + 1] *)
              let k := ctz eol in
              match skipn k l with
              | c :: rest =>
                  if N.eqb c LF then Some (off + k + 1)
                  else if next_is LF rest then Some (off + k + 2)
                  else Some (off + k + 1)
              | [] => None
              end
        end
    end
  else
    match row_end_scan None q l off (negb (N.eqb state 0)) with
    | Found p => Some p
    | Cont _ _ _ => Some size
    end.

(** simd_chunk_finder.cpp:343-496 FindRowEndSimdImpl, wrapper 548-550. *)
Definition find_row_end_simd (lanes : nat) (clmul : bool) (data : bytes) (start : nat) (q : byte)
  : option nat :=
  let size := length data in
  if size <=? start then Some size
  else
    let aligned := ((start + 63) / 64) * 64 in
    let aligned := if size <? aligned then size else aligned in
    match row_end_scan (Some aligned) q (skipn start data) start false with
    | Found p => Some p
    | Cont l off inq =>
        row_end_blocks (length data) lanes clmul q size l off (if inq then ones64 else 0%N)
    end.

(** chunk_finder.cpp:12-20 ChunkFinder::find_row_end.  Callers keep
    start <= size (otherwise size - start wraps in size_t). *)
Definition find_row_end (lanes : nat) (clmul : bool) (q : byte) (data : bytes) (start : nat)
  : option nat :=
  if 64 <=? length data - start then find_row_end_simd lanes clmul data start q
  else Some (find_row_end_scalar data start q).

(** ** Chunking *)

(** The "stuck" loop shared by chunk_finder.cpp:47-50 and csv_reader.cpp:555-558. *)
Fixpoint extend_target (fuel : nat) (fre : nat -> option nat) (chunk_size size : nat)
         (target row_end : nat) : option nat :=
  if (row_end =? target) && (row_end <? size) then
    match fuel with
    | O => None
    | S fuel' =>
        let target' := Nat.min (target + chunk_size) size in
        match fre target' with
        | None => None
        | Some e => extend_target fuel' fre chunk_size size target' e
        end
    end
  else Some row_end.

(** End of the chunk that starts at [offset] (chunk_finder.cpp:37-55,
    csv_reader.cpp:546-559; both spell the same computation). *)
Definition chunk_end (fre : nat -> option nat) (chunk_size size offset : nat) : option nat :=
  let target := Nat.min (offset + chunk_size) size in
  if target <? size then
    match fre target with
    | None => None
    | Some e => extend_target (S size) fre chunk_size size target e
    end
  else Some size.

(** csv_reader.cpp:540-563: the chunk ranges of read_all; also the ranges of
    ChunkFinder::find_chunks (chunk_finder.cpp:30-77) with offset 0.  [fuel]
    counts chunks; [None] also means out of fuel. *)
Fixpoint chunk_ranges_loop (fuel : nat) (fre : nat -> option nat) (chunk_size size offset : nat)
  : option (list (nat * nat)) :=
  if offset <? size then
    match fuel with
    | O => None
    | S fuel' =>
        match chunk_end fre chunk_size size offset with
        | None => None
        | Some e =>
            match chunk_ranges_loop fuel' fre chunk_size size e with
            | None => None
            | Some r => Some ((offset, e) :: r)
            end
        end
    end
  else Some [].

Definition chunk_ranges (lanes : nat) (clmul : bool) (q : byte) (data : bytes)
           (data_start chunk_size : nat) : option (list (nat * nat)) :=
  chunk_ranges_loop (length data) (find_row_end lanes clmul q data) chunk_size
                    (length data) data_start.

(** chunk_finder.cpp:57-69: the row count stored in a ChunkBoundary. *)
Fixpoint chunk_row_count (fuel : nat) (fre : nat -> option nat) (stop pos rows : nat)
  : option nat :=
  if pos <? stop then
    match fuel with
    | O => None
    | S fuel' =>
        match fre pos with
        | None => None
        | Some e => if pos <? e then chunk_row_count fuel' fre stop e (rows + 1)
                    else Some rows
        end
    end
  else Some rows.

(** ChunkBoundary: start, end, row_count (ends_in_quote is always false,
    chunk_finder.cpp:73). *)
Record boundary := mkBoundary { b_start : nat; b_end : nat; b_rows : nat }.

Fixpoint map_option {A B} (f : A -> option B) (l : list A) : option (list B) :=
  match l with
  | [] => Some []
  | x :: r => match f x, map_option f r with
              | Some y, Some ys => Some (y :: ys)
              | _, _ => None
              end
  end.

(** chunk_finder.cpp:22-80 ChunkFinder::find_chunks.  The row count of each chunk
    is computed after the loop here (it does not influence the boundaries). *)
Definition find_chunks (lanes : nat) (clmul : bool) (q : byte) (data : bytes) (target : nat)
  : option (list boundary) :=
  match chunk_ranges lanes clmul q data 0 target with
  | None => None
  | Some rs =>
      map_option (fun '(s, e) =>
        match chunk_row_count (S (length data)) (find_row_end lanes clmul q (firstn e data)) e s 0 with
        | Some n => Some (mkBoundary s e n)
        | None => None
        end) rs
  end.

(** csv_reader.cpp:626-646 (phase 2): starting state of each chunk, given the
    state of the first. *)
Fixpoint link_states (st : bool) (ds : list dual) : list bool :=
  match ds with
  | [] => []
  | d :: r =>
      let prev_ends_inside := if st then negb (ends_inside_quote d) else ends_inside_quote d in
      st :: link_states prev_ends_inside r
  end.

(** csv_reader.cpp:648-654: total of the selected row counts. *)
Definition total_row_count (ds : list dual) : nat :=
  fold_left Nat.add
    (map (fun '(st, d) => if st : bool then row_count_inside d else row_count_outside d)
         (combine (link_states false ds) ds)) 0.

(** include/libvroom/options.h:87-106 calculate_chunk_size on size_t values
    (n_threads * 16 wraps modulo 2^64). *)
Local Open Scope N_scope.
Definition ALLOCATION_BUDGET : N := 500000.
Definition MIN_CHUNK_SIZE : N := 1 * 1024 * 1024.
Definition MAX_CHUNK_SIZE : N := 4 * 1024 * 1024.
Definition calculate_chunk_size (file_size n_cols n_threads : N) : N :=
  let max_chunks := ALLOCATION_BUDGET / N.max n_cols 1 in
  let n_parts := N.min (w64 (n_threads * 16)) max_chunks in
  let n_parts := if N.eqb n_parts 0 then 1 else n_parts in
  let chunk_size := file_size / n_parts in
  let chunk_size := if N.ltb chunk_size MIN_CHUNK_SIZE then MIN_CHUNK_SIZE else chunk_size in
  if N.ltb MAX_CHUNK_SIZE chunk_size then MAX_CHUNK_SIZE else chunk_size.
