(** Property theorems C01-C05, C07, C08, C51. *)
From Verif Require Import Base WordsModel ChunkSpec ChunkModel ChunkProof ChunkProof2 ChunkProof3 ChunkProof4 ChunkProof5 ChunkProof6.

(** C01 *)
Theorem C01_count_rows_exact :
  forall (lanes : nat) (clmul : bool) (data : bytes) (q : byte),
    1 <= lanes -> Nat.divide lanes 64 -> q <> LF -> q <> CR ->
    count_rows_simd lanes clmul data q = Some (count_rows_scalar data q) /\
    count_rows lanes clmul data q = Some (count_rows_scalar data q) /\
    count_rows_scalar data q = (spec_row_count false q data, spec_last_row_end false q data).
Proof. exact count_rows_all. Qed.
Print Assumptions C01_count_rows_exact.

Example C01_nonvacuous :
  let data := s2b "a,b" ++ [CR; LF] ++ repeat 120%N 60 ++ [DQ; LF; DQ; CR] in
  length data = 69 /\ count_rows_simd 32 true data DQ = Some (2, 69) /\
  spec_row_count false DQ data = 2.
Proof. vm_compute. repeat split. Qed.

(** C01: the excluded quote characters really are excluded. *)
Theorem C01_quote_LF_disagrees_refuted :
  exists data : bytes, count_rows_simd 32 true data LF <> Some (count_rows_scalar data LF).
Proof. exact count_rows_lf_differs. Qed.
Print Assumptions C01_quote_LF_disagrees_refuted.

(** C02 *)
Theorem C02_analyze_chunk_exact :
  forall (lanes : nat) (clmul : bool) (data : bytes) (q : byte) (start_inside : bool),
    1 <= lanes -> Nat.divide lanes 64 -> q <> LF -> q <> CR ->
    analyze_chunk_simd lanes clmul data q start_inside =
    Some (spec_row_count start_inside q data, spec_last_row_end start_inside q data,
          spec_ends_inside start_inside q data).
Proof. exact (fun lanes clmul data q st H1 H2 => analyze_chunk_simd_spec lanes clmul data q st (conj H1 H2)). Qed.
Print Assumptions C02_analyze_chunk_exact.

Example C02_nonvacuous :
  analyze_chunk_simd 16 false (s2b "x" ++ [LF; DQ; LF] ++ repeat 120%N 70 ++ [LF; DQ]) DQ true
  = Some (2, 75, true).
Proof. vm_compute. reflexivity. Qed.

(** C03 *)
Theorem C03_dual_state_exact :
  forall (lanes : nat) (clmul : bool) (data : bytes) (q : byte),
    1 <= lanes -> Nat.divide lanes 64 -> q <> LF -> q <> CR ->
    exists d ro lo eo ri li ei,
      analyze_chunk_dual_state_simd lanes clmul data q = Some d /\
      analyze_chunk_simd lanes clmul data q false = Some (ro, lo, eo) /\
      analyze_chunk_simd lanes clmul data q true = Some (ri, li, ei) /\
      row_count_outside d = ro /\ last_row_end_outside d = lo /\
      row_count_inside d = ri /\ last_row_end_inside d = li /\
      ends_inside_quote d = eo /\ ei = negb eo.
Proof. exact dual_matches_single. Qed.
Print Assumptions C03_dual_state_exact.

(** C04: any decomposition into chunks. *)
Theorem C04_chunked_row_count :
  forall (lanes : nat) (clmul : bool) (q : byte) (chunks : list bytes) (ds : list dual),
    1 <= lanes -> Nat.divide lanes 64 -> q <> LF -> q <> CR ->
    crlf_safe chunks ->
    map_option (fun c => analyze_chunk_dual_state_simd lanes clmul c q) chunks = Some ds ->
    total_row_count ds = spec_row_count false q (concat chunks) /\
    link_states false ds =
      map (fun k => inside_at false q (concat chunks) (length (concat (firstn k chunks))))
          (seq 0 (length chunks)).
Proof. exact chunked_row_count. Qed.
Print Assumptions C04_chunked_row_count.

Example C04_nonvacuous :
  let chunks := [s2b "a" ++ [DQ; LF]; [LF] ++ s2b "b" ++ [DQ; CR; LF]; s2b "c" ++ [LF]] in
  crlf_safe chunks /\
  option_map total_row_count
    (map_option (fun c => analyze_chunk_dual_state_simd 16 true c DQ) chunks) = Some 2.
Proof. split; [exact crlf_safe_example|vm_compute; reflexivity]. Qed.

(** C04: the chunks actually chosen by the parallel reader. *)
Theorem C04_reader_chunks_row_count :
  forall (lanes : nat) (clmul : bool) (q : byte) (data : bytes) (data_start chunk_size : nat)
         (ranges : list (nat * nat)) (ds : list dual),
    1 <= lanes -> Nat.divide lanes 64 -> q <> LF -> q <> CR ->
    data_start <= length data ->
    chunk_ranges lanes clmul q data data_start chunk_size = Some ranges ->
    map_option (fun c => analyze_chunk_dual_state_simd lanes clmul c q) (pieces data ranges) = Some ds ->
    total_row_count ds = spec_row_count false q (skipn data_start data) /\
    link_states false ds =
      map (fun '(s, _) => inside_at false q (skipn data_start data) (s - data_start)) ranges.
Proof.
  exact (fun lanes clmul q data st ch rs ds H1 H2 =>
           parallel_row_count lanes clmul q data st ch rs ds (conj H1 H2)).
Qed.
Print Assumptions C04_reader_chunks_row_count.

(** C05 *)
Theorem C05_find_row_end_exact :
  forall (lanes : nat) (clmul : bool) (data : bytes) (start : nat) (q : byte),
    1 <= lanes -> Nat.divide lanes 64 -> q <> LF -> q <> CR ->
    find_row_end lanes clmul q data start = Some (spec_find_row_end q data start) /\
    find_row_end_simd lanes clmul data start q = Some (spec_find_row_end q data start) /\
    find_row_end_scalar data start q = spec_find_row_end q data start /\
    (start < length data -> start < spec_find_row_end q data start <= length data) /\
    (length data <= start -> spec_find_row_end q data start = length data).
Proof. exact find_row_end_all. Qed.
Print Assumptions C05_find_row_end_exact.

Example C05_nonvacuous :
  let data := repeat 120%N 70 ++ [DQ; LF; DQ; DQ; DQ; CR; LF] ++ repeat 121%N 70 in
  find_row_end_simd 16 true data 3 DQ = Some 77 /\ find_row_end_scalar data 3 DQ = 77.
Proof. vm_compute. split; reflexivity. Qed.

(** C07 *)
Theorem C07_chunk_ranges_tile :
  forall (lanes : nat) (clmul : bool) (q : byte) (data : bytes) (data_start chunk_size : nat),
    1 <= lanes -> Nat.divide lanes 64 -> q <> LF -> q <> CR ->
    data_start <= length data ->
    exists ranges, chunk_ranges lanes clmul q data data_start chunk_size = Some ranges /\
      tiles data_start (length data) ranges /\
      concat (pieces data ranges) = skipn data_start data.
Proof. exact chunk_ranges_all. Qed.
Print Assumptions C07_chunk_ranges_tile.

Theorem C07_find_chunks_tile :
  forall (lanes : nat) (clmul : bool) (q : byte) (data : bytes) (target : nat),
    1 <= lanes -> Nat.divide lanes 64 -> q <> LF -> q <> CR ->
    exists bs, find_chunks lanes clmul q data target = Some bs /\
      tiles 0 (length data) (map (fun b => (b_start b, b_end b)) bs).
Proof. exact (fun lanes clmul q data t H1 H2 => find_chunks_ok lanes clmul q data t (conj H1 H2)). Qed.
Print Assumptions C07_find_chunks_tile.

(** The row count stored with each chunk is the number of rows of its bytes. *)
Theorem C07_find_chunks_row_counts :
  forall (lanes : nat) (clmul : bool) (q : byte) (data : bytes) (target : nat),
    1 <= lanes -> Nat.divide lanes 64 -> q <> LF -> q <> CR ->
    exists bs, find_chunks lanes clmul q data target = Some bs /\
      Forall (fun b => b_rows b = piece_rows q (slice (b_start b) (b_end b) data)) bs.
Proof. exact (fun lanes clmul q data t H1 H2 => find_chunks_rows lanes clmul q data t (conj H1 H2)). Qed.
Print Assumptions C07_find_chunks_row_counts.

Example C07_nonvacuous :
  chunk_ranges 16 true DQ (s2b "aa" ++ [LF] ++ s2b "bbbb" ++ [LF] ++ s2b "c") 0 2
  = Some [(0, 3); (3, 8); (8, 9)].
Proof. vm_compute. reflexivity. Qed.

(** C08: false in general - for every chunk size there is a buffer whose first
    chunk ends inside a quoted field. *)
Theorem C08_boundary_inside_quotes_refuted :
  forall (lanes : nat) (clmul : bool) (chunk_size : nat),
    1 <= lanes -> Nat.divide lanes 64 -> 1 <= chunk_size ->
    exists (data : bytes) (ranges : list (nat * nat)) (e : nat),
      chunk_ranges lanes clmul DQ data 0 chunk_size = Some ranges /\
      In (0, e) ranges /\ e < length data /\
      inside_at false DQ data e = true.
Proof. exact boundary_inside_quotes. Qed.
Print Assumptions C08_boundary_inside_quotes_refuted.

(** C08, what does hold: a chunk whose split target (chunk start + chunk size)
    is outside quotes ends at a true row end of the buffer; in particular every
    chunk of a buffer without quote characters does. *)
Theorem C08_boundary_is_row_end_partial :
  forall (lanes : nat) (clmul : bool) (q : byte) (data : bytes) (data_start chunk_size : nat)
         (ranges : list (nat * nat)) (s e : nat),
    1 <= lanes -> Nat.divide lanes 64 -> q <> LF -> q <> CR ->
    chunk_ranges lanes clmul q data data_start chunk_size = Some ranges ->
    In (s, e) ranges -> e < length data ->
    (inside_at false q data (s + chunk_size) = false \/ ~ In q data) ->
    In (e - 1) (row_ends false q data).
Proof. exact boundary_is_row_end. Qed.
Print Assumptions C08_boundary_is_row_end_partial.

(** C08, both directions: every chunk but the last ends just after a line break, and that
    is a row end exactly when the split target is outside quotes. *)
Theorem C08_row_end_exactly_when :
  forall (lanes : nat) (clmul : bool) (q : byte) (data : bytes) (data_start chunk_size : nat)
         (ranges : list (nat * nat)) (s e : nat),
    1 <= lanes -> Nat.divide lanes 64 -> q <> LF -> q <> CR ->
    chunk_ranges lanes clmul q data data_start chunk_size = Some ranges ->
    In (s, e) ranges -> e < length data ->
    line_end_at data (e - 1) = true /\
    (In (e - 1) (row_ends false q data) <-> inside_at false q data (s + chunk_size) = false).
Proof. exact boundary_exactly. Qed.
Print Assumptions C08_row_end_exactly_when.

Example C08_nonvacuous :
  let data := [DQ] ++ s2b "a" ++ [LF] ++ s2b "b" ++ [DQ] ++ s2b ",c" ++ [LF] ++ s2b "d" ++ [LF] in
  chunk_ranges 16 true DQ data 0 6 = Some [(0, 8); (8, 10)] /\
  inside_at false DQ data (0 + 6) = false /\ In (8 - 1) (row_ends false DQ data).
Proof. vm_compute. repeat split. auto. Qed.

(** C51 *)
Theorem C51_chunk_size_bounds :
  forall file_size n_cols n_threads : N,
    (1048576 <= calculate_chunk_size file_size n_cols n_threads <= 4194304)%N.
Proof. exact calculate_chunk_size_bounds. Qed.
Print Assumptions C51_chunk_size_bounds.

(** C51: the size is the requested share of the file whenever that lies within
    the bounds; the divisor is never 0. *)
Theorem C51_chunk_size_value :
  forall file_size n_cols n_threads : N,
    (1 <= n_cols)%N -> (1 <= n_threads)%N -> (n_threads * 16 < 2 ^ 64)%N ->
    exists n_parts : N, (1 <= n_parts)%N /\
      n_parts = N.max 1 (N.min (n_threads * 16) (500000 / n_cols)) /\
      calculate_chunk_size file_size n_cols n_threads
      = N.min 4194304 (N.max 1048576 (file_size / n_parts)).
Proof. exact calculate_chunk_size_value. Qed.
Print Assumptions C51_chunk_size_value.

(** C51: the documented budget n_chunks * n_cols <= 500000 (options.h:60) is not
    guaranteed: the 4 MiB cap can force more chunks. *)
Theorem C51_budget_refuted :
  exists file_size n_cols n_threads : N,
    (file_size < 2 ^ 64 /\
     500000 < file_size / calculate_chunk_size file_size n_cols n_threads * n_cols)%N.
Proof. exact budget_exceeded. Qed.
Print Assumptions C51_budget_refuted.
