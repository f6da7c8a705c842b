(** Packaging of the chunk lemmas in the form of the property statements. *)
From Verif Require Import Base WordsModel WordsProof ChunkSpec ChunkModel ChunkProof ChunkProof2 ChunkProof3.

Lemma count_rows_all (lanes : nat) (clmul : bool) (data : bytes) (q : byte) :
    1 <= lanes -> Nat.divide lanes 64 -> q <> LF -> q <> CR ->
    count_rows_simd lanes clmul data q = Some (count_rows_scalar data q) /\
    count_rows lanes clmul data q = Some (count_rows_scalar data q) /\
    count_rows_scalar data q = (spec_row_count false q data, spec_last_row_end false q data).
Proof.
  intros H1 H2 H3 H4. rewrite count_rows_simd_spec, count_rows_spec, count_rows_scalar_spec by (assumption || split; assumption).
  repeat split.
Qed.

Lemma count_rows_lf_differs :
  exists data : bytes, count_rows_simd 32 true data LF <> Some (count_rows_scalar data LF).
Proof. exists (LF :: LF :: repeat 120%N 62). vm_compute. discriminate. Qed.

Lemma dual_matches_single (lanes : nat) (clmul : bool) (data : bytes) (q : byte) :
    1 <= lanes -> Nat.divide lanes 64 -> q <> LF -> q <> CR ->
    exists d ro lo eo ri li ei,
      analyze_chunk_dual_state_simd lanes clmul data q = Some d /\
      analyze_chunk_simd lanes clmul data q false = Some (ro, lo, eo) /\
      analyze_chunk_simd lanes clmul data q true = Some (ri, li, ei) /\
      row_count_outside d = ro /\ last_row_end_outside d = lo /\
      row_count_inside d = ri /\ last_row_end_inside d = li /\
      ends_inside_quote d = eo /\ ei = negb eo.
Proof.
  intros H1 H2 H3 H4. rewrite dual_spec, !analyze_chunk_simd_spec by (assumption || split; assumption).
  repeat eexists. unfold spec_ends_inside, inside_at. destruct (Nat.odd _); reflexivity.
Qed.

Lemma chunked_row_count (lanes : nat) (clmul : bool) (q : byte) (chunks : list bytes) (ds : list dual) :
    1 <= lanes -> Nat.divide lanes 64 -> q <> LF -> q <> CR ->
    crlf_safe chunks ->
    map_option (fun c => analyze_chunk_dual_state_simd lanes clmul c q) chunks = Some ds ->
    total_row_count ds = spec_row_count false q (concat chunks) /\
    link_states false ds =
      map (fun k => inside_at false q (concat chunks) (length (concat (firstn k chunks))))
          (seq 0 (length chunks)).
Proof.
  intros H1 H2 H3 H4 Hs Hd. rewrite map_option_dual in Hd by (assumption || split; assumption).
  injection Hd as <-. split; [apply total_row_count_spec; assumption|apply link_states_spec].
Qed.

Lemma safe_from_crlf_safe_example :
  let chunks := [s2b "a" ++ [DQ; LF]; [LF] ++ s2b "b" ++ [DQ; CR; LF]; s2b "c" ++ [LF]] in
  crlf_safe chunks.
Proof.
  intros chunks a b H [H1 H2]. unfold chunks in H.
  destruct a as [|a0 [|a1 [|a2 [|a3 a]]]]; cbn in H; try discriminate H; inversion H; subst; vm_compute in H1, H2; try discriminate H1; try discriminate H2.
Qed.
Definition crlf_safe_example := safe_from_crlf_safe_example.

Lemma find_row_end_all (lanes : nat) (clmul : bool) (data : bytes) (start : nat) (q : byte) :
    1 <= lanes -> Nat.divide lanes 64 -> q <> LF -> q <> CR ->
    find_row_end lanes clmul q data start = Some (spec_find_row_end q data start) /\
    find_row_end_simd lanes clmul data start q = Some (spec_find_row_end q data start) /\
    find_row_end_scalar data start q = spec_find_row_end q data start /\
    (start < length data -> start < spec_find_row_end q data start <= length data) /\
    (length data <= start -> spec_find_row_end q data start = length data).
Proof.
  intros H1 H2 H3 H4. repeat split.
  - apply find_row_end_spec; (assumption || split; assumption).
  - rewrite spec_find_row_end_ends by assumption. apply find_row_end_simd_ends; (assumption || split; assumption).
  - rewrite spec_find_row_end_ends by assumption. apply find_row_end_scalar_ends; assumption.
  - apply spec_find_row_end_bounds. assumption.
  - apply spec_find_row_end_bounds. assumption.
  - apply spec_find_row_end_out.
Qed.

Lemma chunk_ranges_all (lanes : nat) (clmul : bool) (q : byte) (data : bytes) (data_start chunk_size : nat) :
    1 <= lanes -> Nat.divide lanes 64 -> q <> LF -> q <> CR ->
    data_start <= length data ->
    exists ranges, chunk_ranges lanes clmul q data data_start chunk_size = Some ranges /\
      tiles data_start (length data) ranges /\
      concat (pieces data ranges) = skipn data_start data.
Proof.
  intros H1 H2 H3 H4 H5.
  destruct (chunk_ranges_tiles lanes clmul q data data_start chunk_size) as (rs & Hr & Ht);
    try assumption; [split; assumption|].
  exists rs. repeat split; try assumption.
  rewrite (concat_pieces data rs _ _ Ht) by lia. apply slice_to_end.
Qed.

Lemma boundary_inside_quotes (lanes : nat) (clmul : bool) (chunk_size : nat) :
    1 <= lanes -> Nat.divide lanes 64 -> 1 <= chunk_size ->
    exists (data : bytes) (ranges : list (nat * nat)) (e : nat),
      chunk_ranges lanes clmul DQ data 0 chunk_size = Some ranges /\
      In (0, e) ranges /\ e < length data /\
      inside_at false DQ data e = true.
Proof.
  intros H1 H2 H3. destruct (bad_buffer_boundary lanes clmul chunk_size (conj H1 H2) H3) as (rs & Ha & Hb & Hc & Hd).
  exists (bad_buffer chunk_size), rs, (chunk_size + 2). repeat split; assumption.
Qed.

Lemma boundary_is_row_end (lanes : nat) (clmul : bool) (q : byte) (data : bytes) (data_start chunk_size : nat)
         (ranges : list (nat * nat)) (s e : nat) :
    1 <= lanes -> Nat.divide lanes 64 -> q <> LF -> q <> CR ->
    chunk_ranges lanes clmul q data data_start chunk_size = Some ranges ->
    In (s, e) ranges -> e < length data ->
    (inside_at false q data (s + chunk_size) = false \/ ~ In q data) ->
    In (e - 1) (row_ends false q data).
Proof.
  intros H1 H2 H3 H4 Hr Hin He Ho.
  eapply (chunk_boundaries_rows lanes clmul q data data_start chunk_size ranges); try eassumption; [split; assumption|].
  destruct Ho as [Ho|Ho]; [exact Ho|apply no_quotes_outside; exact Ho].
Qed.

Local Open Scope N_scope.
Lemma calculate_chunk_size_value (file_size n_cols n_threads : N) :
    (1 <= n_cols)%N -> (1 <= n_threads)%N -> (n_threads * 16 < 2 ^ 64)%N ->
    exists n_parts : N, (1 <= n_parts)%N /\
      n_parts = N.max 1 (N.min (n_threads * 16) (500000 / n_cols)) /\
      calculate_chunk_size file_size n_cols n_threads
      = N.min 4194304 (N.max 1048576 (file_size / n_parts)).
Proof.
  intros H1 H2 H3. eexists. split; [|split; [reflexivity|]].
  - apply N.le_max_l.
  - unfold calculate_chunk_size. cbv zeta. change MAX_CHUNK_SIZE with 4194304. change MIN_CHUNK_SIZE with 1048576.
    change ALLOCATION_BUDGET with 500000.
    assert (Hn : N.max n_cols 1 = n_cols) by lia. rewrite Hn.
    unfold w64. rewrite N.mod_small by assumption.
    set (m := N.min (n_threads * 16) (500000 / n_cols)). clearbody m.
    assert (Hm : (if m =? 0 then 1 else m) = N.max 1 m) by (destruct (N.eqb_spec m 0); lia).
    rewrite Hm. set (x := file_size / N.max 1 m). clearbody x.
    destruct (N.ltb_spec x 1048576).
    + destruct (N.ltb_spec 4194304 1048576); lia.
    + destruct (N.ltb_spec 4194304 x); lia.
Qed.

Lemma budget_exceeded :
  exists file_size n_cols n_threads : N,
    (file_size < 2 ^ 64 /\
     500000 < file_size / calculate_chunk_size file_size n_cols n_threads * n_cols)%N.
Proof. exists 100000000000, 100000, 8. split; vm_compute; reflexivity. Qed.
