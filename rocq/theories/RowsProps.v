(** C55, C57: how many rows are reported. *)
From Verif Require Import Base WordsProof ChunkSpec ChunkModel ChunkProof2 FieldsSpec FieldsProof3 ReaderSpec ReaderModel ReaderProof ReaderProof4 ReaderProof6
  DeliverProof RoundProof3 RoundProof4 RowsSpec RowsProof.

(** C55, both directions, for every file C57 covers: row_count() is the number of rows
    returned exactly when the file was not divided, or its blank lines are as many as
    its rows without a line end (none, or one). *)
Theorem C55_exactly_when :
  forall (V : Type) (conv : nat -> bytes -> option V) (lanes : nat) (clmul : bool) (sep q : byte) (nulls : bytes)
         (num_threads : N) (ne : bool) (ncols : nat) (data : bytes) (header_end : nat),
    1 <= lanes -> Nat.divide lanes 64 -> q <> LF -> q <> CR -> q <> sep -> q <> 0%N ->
    0 < ncols -> header_end <= length data ->
    let body := skipn header_end data in
    let own := fun r => own_part q (inside_at false q body (fst r - header_end)) (slice (fst r) (snd r) data) in
    let chunk_size := N.to_nat (calculate_chunk_size (N.of_nat (length data - header_end)) (N.of_nat ncols) num_threads) in
    no_lone_cr body -> Forall (safe_row sep LF q) (table_rows sep q body) ->
    (forall ranges, chunk_ranges lanes clmul q data header_end chunk_size = Some ranges ->
       Forall (fun r => Forall (safe_row sep LF q) (table_rows sep q (own r))) ranges) ->
    exists ranges res,
      chunk_ranges lanes clmul q data header_end chunk_size = Some ranges /\
      read_all conv lanes clmul sep q (make_null_checker nulls) num_threads ne ncols data header_end = Some res /\
      Forall (fun col => length col = total_rows res) (concat_columns ncols (chunks res)) /\
      total_rows res = length (table_rows sep q body) /\
      (reported_rows res = total_rows res <->
       length body < N.to_nat PARALLEL_THRESHOLD \/ length ranges <= 1 \/
       blank_lines q true false body = (if row_open q true false body then 1 else 0)).
Proof.
  intros V conv lanes clmul sep q nulls nt ne ncols data he L1 L2 H1 H2 H3 H4 H5 H6 body own ch H7 H8 H9.
  unfold read_all. fold ch. generalize (N.to_nat PARALLEL_THRESHOLD). intros thr.
  destruct (read_all_with_rect conv lanes clmul sep q nulls (conj L1 L2) H1 H2 thr ch ne ncols data he H5 H6) as (r & Hr & _ & Hlen).
  destruct (read_all_parts conv lanes clmul sep q nulls (conj L1 L2) H1 H2 H3 H4 thr ch ne ncols data he H5 H6 H7 H8 H9) as (r1 & Hr1 & Ht & _).
  destruct (all_delivered conv lanes clmul sep q nulls (conj L1 L2) H1 H2 H3 H4 thr ch ne ncols data he H5 H6) as (rs & Hrs & Hd).
  exists rs, r. split; [exact Hrs|]. split; [exact Hr|]. split; [exact Hlen|].
  rewrite Hr in Hr1, Hd. injection Hr1 as <-. split; [exact Ht|].
  fold body in Ht. pose proof (lines_and_rows sep q body H1 H2 H7) as K. rewrite Ht. injection Hd as Hd. fold body in Hd.
  destruct (Nat.ltb_spec (length body) thr) as [A|A].
  { cbn [orb] in Hd. split; [auto|]. intros _. rewrite <- Ht. rewrite Hd. reflexivity. }
  destruct (Nat.leb_spec (length rs) 1) as [B|B].
  { cbn [orb] in Hd. split; [auto|]. intros _. rewrite <- Ht. rewrite Hd. reflexivity. }
  cbn [orb] in Hd. rewrite Hd. cbn [reported_rows]. unfold b2n in K. clear - A B K. destruct (row_open q true false body); lia.
Qed.
Print Assumptions C55_exactly_when.

(** One blank line and an unended last row: the two errors cancel. *)
Example C55_exactly_when_nonvacuous :
  let text := s2b "1" ++ [LF; CR; LF] ++ s2b "2" in
  blank_lines DQ true false text = 1 /\ row_open DQ true false text = true /\
  blank_lines DQ true false (s2b "1" ++ [LF]) = 0 /\ row_open DQ true false ([DQ; LF; LF; DQ] ++ s2b "1" ++ [LF]) = false /\
  blank_lines DQ true false ([DQ; LF; LF; DQ] ++ s2b "1" ++ [LF]) = 0 /\ row_open DQ true false [DQ; LF] = true /\
  option_map (fun r => (total_rows r, reported_rows r))
    (read_all_with keep 16 true COMMA DQ (make_null_checker []) 3 2 false 1 text 0) = Some (2, 2).
Proof. vm_compute. repeat split. Qed.

(** C57 is false outside the rows C11 covers: two rows are read as three. *)
Definition split_text : bytes := s2b "a," ++ [DQ] ++ s2b "b" ++ [LF] ++ s2b "c" ++ [DQ; LF] ++ s2b "d," ++ repeat 101%N 70 ++ [LF].
Theorem C57_split_row_refuted :
  no_lone_cr split_text /\
  length (table_rows COMMA DQ split_text) = 2 /\
  forall num_threads, exists r,
    read_all keep 16 true COMMA DQ (make_null_checker []) num_threads false 2 split_text 0 = Some r /\ total_rows r = 3.
Proof.
  split. { rewrite <- (app_nil_r split_text). apply nlc_app; [|exact nlc_nil]. unfold split_text. vm_compute. intuition discriminate. }
  split; [vm_compute; reflexivity|].
  intros nt. rewrite small_is_serial by (vm_compute; lia || reflexivity).
  eexists. split; [vm_compute; reflexivity|reflexivity].
Qed.
Print Assumptions C57_split_row_refuted.
