(** Property theorems C09, C10, C53, C55, C56. *)
From Verif Require Import Base WordsModel WordsProof ChunkSpec ChunkModel ChunkProof ChunkProof2 ChunkProof3
  FieldsSpec FieldsModel FieldsProof3 ReaderSpec ReaderModel ReaderProof ReaderProof2 ReaderProof3 ReaderProof4 ReaderProof5 ReaderProof6
  TasksModel TasksProof.

(** C09: for every thread count the chunks, concatenated, are the table of the
    bytes after the header, provided no quoted field spans lines, every CR is part
    of a CRLF and the rows are of the kind C11 covers. *)
Theorem C09_read_all_is_the_table_partial :
  forall (V : Type) (conv : nat -> bytes -> option V) (lanes : nat) (clmul : bool) (sep q : byte) (nulls : bytes)
         (num_threads : N) (ne : bool) (ncols : nat) (data : bytes) (header_end : nat),
    1 <= lanes -> Nat.divide lanes 64 -> q <> LF -> q <> CR -> q <> sep -> q <> 0%N ->
    0 < ncols -> header_end <= length data ->
    let body := skipn header_end data in
    (forall i, line_end_at body i = true -> inside_at false q body i = false) ->
    no_lone_cr body -> Forall (safe_row sep LF q) (table_rows sep q body) ->
    exists r,
      read_all conv lanes clmul sep q (make_null_checker nulls) num_threads ne ncols data header_end = Some r /\
      total_rows r = length (table_rows sep q body) /\
      concat_columns ncols (chunks r) = table_columns conv nulls sep q ncols body.
Proof.
  intros V conv lanes clmul sep q nulls nt ne ncols data he L1 L2 H1 H2 H3 H4 H5 H6 body H7 H8 H9.
  exact (read_all_with_exact conv lanes clmul sep q nulls (conj L1 L2) H1 H2 H3 H4 _ _ ne ncols data he H5 H6
    (cuts_outside conv lanes clmul sep q (conj L1 L2) H1 H2 H3 H4 _ data he H6 H7) H8 H9).
Qed.
Print Assumptions C09_read_all_is_the_table_partial.

(** The same when only the chunk boundaries actually chosen are outside quotes. *)
Theorem C09_boundaries_outside_quotes_partial :
  forall (V : Type) (conv : nat -> bytes -> option V) (lanes : nat) (clmul : bool) (sep q : byte) (nulls : bytes)
         (threshold chunk_size : nat) (ne : bool) (ncols : nat) (data : bytes) (header_end : nat),
    1 <= lanes -> Nat.divide lanes 64 -> q <> LF -> q <> CR -> q <> sep -> q <> 0%N ->
    0 < ncols -> header_end <= length data ->
    let body := skipn header_end data in
    (forall ranges s e, chunk_ranges lanes clmul q data header_end chunk_size = Some ranges ->
       In (s, e) ranges -> e < length data -> inside_at false q body (e - header_end) = false) ->
    no_lone_cr body -> Forall (safe_row sep LF q) (table_rows sep q body) ->
    exists r,
      read_all_with conv lanes clmul sep q (make_null_checker nulls) threshold chunk_size ne ncols data header_end = Some r /\
      total_rows r = length (table_rows sep q body) /\
      concat_columns ncols (chunks r) = table_columns conv nulls sep q ncols body.
Proof.
  intros V conv lanes clmul sep q nulls thr ch ne ncols data he L1 L2 H1 H2 H3 H4 H5 H6 body H7 H8 H9.
  exact (read_all_with_exact conv lanes clmul sep q nulls (conj L1 L2) H1 H2 H3 H4 _ _ ne ncols data he H5 H6 H7 H8 H9).
Qed.
Print Assumptions C09_boundaries_outside_quotes_partial.

(** The same for files without quotes: every thread count, no other condition than
    the absence of lone CRs. *)
Theorem C09_quote_free_files_partial :
  forall (V : Type) (conv : nat -> bytes -> option V) (lanes : nat) (clmul : bool) (sep q : byte) (nulls : bytes)
         (num_threads : N) (ne : bool) (ncols : nat) (data : bytes) (header_end : nat),
    1 <= lanes -> Nat.divide lanes 64 -> q <> LF -> q <> CR -> q <> sep -> q <> 0%N ->
    0 < ncols -> header_end <= length data ->
    ~ In q (skipn header_end data) -> no_lone_cr (skipn header_end data) ->
    exists r,
      read_all conv lanes clmul sep q (make_null_checker nulls) num_threads ne ncols data header_end = Some r /\
      total_rows r = length (table_rows sep q (skipn header_end data)) /\
      concat_columns ncols (chunks r) = table_columns conv nulls sep q ncols (skipn header_end data).
Proof.
  intros V conv lanes clmul sep q nulls nt ne ncols data he L1 L2 H1 H2 H3 H4 H5 H6 H7 H8.
  refine (C09_read_all_is_the_table_partial V conv lanes clmul sep q nulls nt ne ncols data he L1 L2 H1 H2 H3 H4 H5 H6 _ H8 _).
  - intros i _. apply no_quotes_outside. exact H7.
  - apply quote_free_safe. exact H7.
Qed.
Print Assumptions C09_quote_free_files_partial.

(** Single-threaded reading needs neither the condition on line breaks nor on CRs. *)
Theorem C09_serial_is_the_table_partial :
  forall (V : Type) (conv : nat -> bytes -> option V) (lanes : nat) (clmul : bool) (sep q : byte) (nulls : bytes)
         (ne : bool) (ncols : nat) (data : bytes) (header_end : nat),
    1 <= lanes -> Nat.divide lanes 64 -> q <> LF -> q <> CR -> q <> sep -> q <> 0%N -> 0 < ncols ->
    let body := skipn header_end data in
    Forall (safe_row sep LF q) (table_rows sep q body) ->
    read_all_serial conv lanes clmul sep q (make_null_checker nulls) ne ncols data header_end =
    Some (mkRead [table_columns conv nulls sep q ncols body] (length (table_rows sep q body)) (length (table_rows sep q body))).
Proof.
  intros V conv lanes clmul sep q nulls ne ncols data he L1 L2 H1 H2 H3 H4 H5 body H6.
  exact (read_serial_exact conv lanes clmul sep q nulls (conj L1 L2) H1 H2 H3 H4 ne ncols data he H5 H6).
Qed.
Print Assumptions C09_serial_is_the_table_partial.

(** C09 fails in general: for every thread count there is a 64 MB file (one quoted
    field full of line breaks) read differently from the serial reader. *)
Theorem C09_parallel_differs_from_serial_refuted :
  forall num_threads : N, exists data r s,
    read_all keep 16 true COMMA DQ (make_null_checker []) num_threads false 1 data 0 = Some r /\
    read_all_serial keep 16 true COMMA DQ (make_null_checker []) false 1 data 0 = Some s /\
    concat_columns 1 (chunks r) <> concat_columns 1 (chunks s).
Proof. exact parallel_differs. Qed.
Print Assumptions C09_parallel_differs_from_serial_refuted.

Theorem C09_thread_counts_differ_refuted :
  exists data r s,
    read_all keep 16 true COMMA DQ (make_null_checker []) 1 false 1 data 0 = Some r /\
    read_all keep 16 true COMMA DQ (make_null_checker []) 64 false 1 data 0 = Some s /\
    concat_columns 1 (chunks r) <> concat_columns 1 (chunks s).
Proof. exact threads_differ. Qed.
Print Assumptions C09_thread_counts_differ_refuted.

Example C09_nonvacuous :
  let data := s2b "a,b" ++ [LF] ++ s2b "1,NA" ++ [CR; LF; LF] ++ [DQ] ++ s2b "x,y" ++ [DQ; DQ; DQ; COMMA; DQ] ++ s2b "z" ++ [DQ; LF] ++ s2b "2" in
  let body := skipn 4 data in
  table_columns keep (s2b "NA,na") COMMA DQ 2 body =
    [[Some (s2b "1"); Some (s2b "x,y" ++ [DQ]); Some (s2b "2")]; [None; Some (s2b "z"); None]] /\
  (forall i, line_end_at body i = true -> inside_at false DQ body i = false) /\
  no_lone_cr body /\ Forall (safe_row COMMA LF DQ) (table_rows COMMA DQ body) /\
  (* two chunks, read in parallel *)
  option_map (fun r => (length (chunks r), total_rows r))
    (read_all_with keep 16 true COMMA DQ (make_null_checker (s2b "NA,na")) 10 5 false 2 data 4) = Some (2, 3).
Proof.
  cbv zeta. split; [vm_compute; reflexivity|]. split; [|split; [|split]].
  - intros i. do 25 (destruct i as [|i]; [vm_compute; congruence|]). unfold line_end_at, byte_is.
    cbn [skipn app s2b]. vm_compute. destruct i; discriminate.
  - intros i. do 25 (destruct i as [|i]; [vm_compute; congruence|]). vm_compute. destruct i; discriminate.
  - replace (table_rows COMMA DQ _) with
      [[s2b "1"; s2b "NA" ++ [CR]]; [[DQ] ++ s2b "x,y" ++ [DQ; DQ; DQ]; [DQ] ++ s2b "z" ++ [DQ]]; [s2b "2"]] by (vm_compute; reflexivity).
    constructor; [|constructor; [|constructor; [|constructor]]].
    + exact (safe_no_quotes COMMA LF DQ (s2b "1,NA" ++ [CR]) false ltac:(cbn; intuition discriminate)).
    + apply safe_all_quoted. repeat constructor.
    + exact (safe_no_quotes COMMA LF DQ (s2b "2") false ltac:(cbn; intuition discriminate)).
  - vm_compute. reflexivity.
Qed.

(** C10: whatever the bytes, reading succeeds without undefined behaviour, every chunk
    has the schema's columns, all of the same length, and after concatenation every
    column has total_rows entries. *)
Theorem C10_tables_rectangular :
  forall (V : Type) (conv : nat -> bytes -> option V) (lanes : nat) (clmul : bool) (sep q : byte) (nulls : bytes)
         (num_threads : N) (ne : bool) (ncols : nat) (data : bytes) (header_end : nat),
    1 <= lanes -> Nat.divide lanes 64 -> q <> LF -> q <> CR -> 0 < ncols -> header_end <= length data ->
    exists r,
      read_all conv lanes clmul sep q (make_null_checker nulls) num_threads ne ncols data header_end = Some r /\
      Forall (fun cols => length cols = ncols /\ exists n, Forall (fun c => length c = n) cols) (chunks r) /\
      Forall (fun col => length col = total_rows r) (concat_columns ncols (chunks r)).
Proof.
  intros V conv lanes clmul sep q nulls nt ne ncols data he L1 L2 H1 H2 H3 H4.
  exact (read_all_with_rect conv lanes clmul sep q nulls (conj L1 L2) H1 H2 _ _ ne ncols data he H3 H4).
Qed.
Print Assumptions C10_tables_rectangular.

Example C10_nonvacuous :
  let data := s2b "1,2,3" ++ [LF] ++ s2b "4" ++ [LF] ++ s2b "5," ++ [DQ] ++ s2b "6" in
  option_map (fun r => (chunks r, total_rows r))
    (read_all_with keep 16 true COMMA DQ (make_null_checker []) 10 2 false 2 data 0) =
  Some ([[[Some (s2b "1")]; [Some (s2b "2")]];
         [[Some (s2b "4"); Some (s2b "5")]; [None; Some ([DQ] ++ s2b "6")]]], 3).
Proof. vm_compute. reflexivity. Qed.

(** C53: whatever the number of workers and the schedules of the two parallel phases,
    if both phases complete the table is the one of the sequential description. *)
Theorem C53_schedule_independent :
  forall (V : Type) (conv : nat -> bytes -> option V) (lanes : nat) (clmul : bool) (sep q : byte) (nulls : bytes)
         (nworkers : nat) (sched1 sched3 : list nat) (ne : bool) (ncols : nat) (data : bytes)
         (ranges : list (nat * nat)) (r : read_result),
    1 <= lanes -> Nat.divide lanes 64 ->
    read_chunks_sched conv lanes clmul sep q (make_null_checker nulls) nworkers sched1 sched3 ne ncols data ranges = Some r ->
    read_chunks conv lanes clmul sep q (make_null_checker nulls) ne ncols data ranges = Some r.
Proof. intros V conv lanes clmul sep q nulls nw s1 s3 ne ncols data ranges r L1 L2. exact (sched_read conv lanes clmul sep q nulls (conj L1 L2) nw s1 s3 ne ncols data ranges r). Qed.
Print Assumptions C53_schedule_independent.

(** Every pair of unfinished schedules can be continued to completion: no deadlock. *)
Theorem C53_never_stuck :
  forall (V : Type) (conv : nat -> bytes -> option V) (lanes : nat) (clmul : bool) (sep q : byte) (nulls : bytes)
         (nworkers : nat) (sched1 sched3 : list nat) (ne : bool) (ncols : nat) (data : bytes) (ranges : list (nat * nat)),
    1 <= lanes -> Nat.divide lanes 64 -> 1 <= nworkers -> q <> LF -> q <> CR -> 0 < ncols ->
    exists more1 more3 r,
      read_chunks_sched conv lanes clmul sep q (make_null_checker nulls) nworkers (sched1 ++ more1) (sched3 ++ more3)
                        ne ncols data ranges = Some r.
Proof.
  intros V conv lanes clmul sep q nulls nw s1 s3 ne ncols data ranges L1 L2.
  exact (sched_exists conv lanes clmul sep q nulls (conj L1 L2) nw s1 s3 ne ncols data ranges).
Qed.
Print Assumptions C53_never_stuck.

(** No task is executed by two workers at once, so each result slot has one writer. *)
Theorem C53_one_writer_per_slot :
  forall (S R : Type) (step : S -> S + R) (nworkers : nat) (tasks : list S) (sched : list nat) (w1 w2 k : nat),
    let p := run_pool step sched (start_pool nworkers tasks) in
    nth_error (workers p) w1 = Some (Some k) -> nth_error (workers p) w2 = Some (Some k) -> w1 = w2.
Proof. intros S R step nw tasks sched w1 w2 k p. exact (exclusive _ w1 w2 k (run_inv step sched _ (start_inv step nw tasks))). Qed.
Print Assumptions C53_one_writer_per_slot.

Example C53_nonvacuous :
  let data := s2b "1,2" ++ [LF] ++ s2b "3,4" ++ [LF] ++ s2b "5,6" in
  let ranges := [(0, 4); (4, 8); (8, 11)] in
  let s1 := [1; 0; 1; 0; 0; 1; 0; 1; 0; 1] in
  let s3 := [1; 0; 1; 1; 1; 1; 1; 1; 1; 1; 0; 0; 0; 0] in
  option_map (@chunks bytes) (read_chunks_sched keep 16 true COMMA DQ (make_null_checker []) 2 s1 s3 false 2 data ranges) =
  Some [[[Some (s2b "1")]; [Some (s2b "2")]]; [[Some (s2b "3")]; [Some (s2b "4")]]; [[Some (s2b "5")]; [Some (s2b "6")]]].
Proof. vm_compute. reflexivity. Qed.

(** C55: single-threaded reading, any bytes. *)
Theorem C55_serial_row_count :
  forall (V : Type) (conv : nat -> bytes -> option V) (lanes : nat) (clmul : bool) (sep q : byte) (nulls : bytes)
         (ne : bool) (ncols : nat) (data : bytes) (header_end : nat),
    1 <= lanes -> Nat.divide lanes 64 -> 0 < ncols ->
    exists cols n,
      read_all_serial conv lanes clmul sep q (make_null_checker nulls) ne ncols data header_end = Some (mkRead [cols] n n) /\
      length cols = ncols /\ Forall (fun c => length c = n) cols.
Proof.
  intros V conv lanes clmul sep q nulls ne ncols data he L1 L2 Hn.
  exact (read_serial_rect conv lanes clmul sep q nulls (conj L1 L2) ne ncols data he Hn).
Qed.
Print Assumptions C55_serial_row_count.

(** C55 for every thread count, when there is no blank line, the last row is
    terminated and no field spans lines. *)
Theorem C55_row_count_partial :
  forall (V : Type) (conv : nat -> bytes -> option V) (lanes : nat) (clmul : bool) (sep q : byte) (nulls : bytes)
         (num_threads : N) (ne : bool) (ncols : nat) (data : bytes) (header_end : nat),
    1 <= lanes -> Nat.divide lanes 64 -> q <> LF -> q <> CR -> q <> sep -> q <> 0%N ->
    0 < ncols -> header_end <= length data ->
    let body := skipn header_end data in
    (forall i, line_end_at body i = true -> inside_at false q body i = false) ->
    no_lone_cr body -> Forall (safe_row sep LF q) (table_rows sep q body) ->
    tidy_lines q true false body = true ->
    exists r,
      read_all conv lanes clmul sep q (make_null_checker nulls) num_threads ne ncols data header_end = Some r /\
      reported_rows r = total_rows r /\
      Forall (fun col => length col = reported_rows r) (concat_columns ncols (chunks r)).
Proof.
  intros V conv lanes clmul sep q nulls nt ne ncols data he L1 L2 H1 H2 H3 H4 H5 H6 body H7 H8 H9 H10.
  exact (read_all_reported conv lanes clmul sep q nulls (conj L1 L2) H1 H2 H3 H4 nt ne ncols data he H5 H6 H7 H8 H9 H10).
Qed.
Print Assumptions C55_row_count_partial.

(** C55 fails in general: 64 MB of blank lines hold no row, but row_count() is 67108864. *)
Theorem C55_blank_lines_counted_refuted :
  forall num_threads : N, exists data r,
    read_all keep 16 true COMMA DQ (make_null_checker []) num_threads false 1 data 0 = Some r /\
    total_rows r = 0 /\ reported_rows r = N.to_nat 67108864.
Proof. exact reported_differs. Qed.
Print Assumptions C55_blank_lines_counted_refuted.

(** An unterminated last row is not counted either. *)
Example C55_unterminated_row :
  option_map (fun r => (total_rows r, reported_rows r))
    (read_all_with keep 16 true COMMA DQ (make_null_checker []) 3 2 false 1 (s2b "1" ++ [LF] ++ s2b "2" ++ [LF] ++ s2b "3") 0) = Some (3, 2).
Proof. vm_compute. reflexivity. Qed.

Example C55_nonvacuous :
  tidy_lines DQ true false (s2b "1" ++ [CR; LF; DQ] ++ s2b "a" ++ [DQ; LF]) = true /\
  tidy_lines DQ true false (s2b "1" ++ [LF; LF]) = false /\ tidy_lines DQ true false (s2b "1" ++ [LF] ++ s2b "2") = false.
Proof. vm_compute. repeat split. Qed.

(** C56: the field iterator's flag is uninitialised before its first write; the
    table never depends on its value. *)
Theorem C56_uninitialised_flag_unobservable :
  forall (V : Type) (conv : nat -> bytes -> option V) (lanes : nat) (clmul : bool) (sep q : byte) (nulls : bytes)
         (num_threads : N) (ne ne' : bool) (ncols : nat) (data : bytes) (header_end : nat),
    1 <= lanes -> Nat.divide lanes 64 ->
    read_all conv lanes clmul sep q (make_null_checker nulls) num_threads ne ncols data header_end =
    read_all conv lanes clmul sep q (make_null_checker nulls) num_threads ne' ncols data header_end.
Proof.
  intros V conv lanes clmul sep q nulls nt ne ne' ncols data he L1 L2.
  exact (read_all_ne conv lanes clmul sep q nulls (conj L1 L2) nt ne ne' ncols data he).
Qed.
Print Assumptions C56_uninitialised_flag_unobservable.

(** The flag is observable at the iterator: an empty last field returns it unchanged. *)
Example C56_nonvacuous :
  row_fields 16 true COMMA DQ LF (s2b "a,") false = Some ([(s2b "a", false); ([], false)], []) /\
  sf_next 16 true COMMA DQ LF (sf_init []) true <> sf_next 16 true COMMA DQ LF (sf_init []) false.
Proof. split; [vm_compute; reflexivity|vm_compute; discriminate]. Qed.

(** C57: whatever the chunk size, even when quoted fields are cut by chunk
    boundaries, total_rows is the number of rows of the table, and each chunk of the
    parallel result is the table of the rows that begin in its piece of the file. *)
Theorem C57_no_row_lost_or_duplicated_partial :
  forall (V : Type) (conv : nat -> bytes -> option V) (lanes : nat) (clmul : bool) (sep q : byte) (nulls : bytes)
         (threshold chunk_size : nat) (ne : bool) (ncols : nat) (data : bytes) (header_end : nat),
    1 <= lanes -> Nat.divide lanes 64 -> q <> LF -> q <> CR -> q <> sep -> q <> 0%N ->
    0 < ncols -> header_end <= length data ->
    let body := skipn header_end data in
    let own := fun r => own_part q (inside_at false q body (fst r - header_end)) (slice (fst r) (snd r) data) in
    no_lone_cr body -> Forall (safe_row sep LF q) (table_rows sep q body) ->
    (forall ranges, chunk_ranges lanes clmul q data header_end chunk_size = Some ranges ->
       Forall (fun r => Forall (safe_row sep LF q) (table_rows sep q (own r))) ranges) ->
    exists res,
      read_all_with conv lanes clmul sep q (make_null_checker nulls) threshold chunk_size ne ncols data header_end = Some res /\
      total_rows res = length (table_rows sep q body) /\
      (chunks res = [table_columns conv nulls sep q ncols body] \/
       exists ranges, chunk_ranges lanes clmul q data header_end chunk_size = Some ranges /\
         chunks res = map (fun r => table_columns conv nulls sep q ncols (own r)) ranges).
Proof.
  intros V conv lanes clmul sep q nulls thr ch ne ncols data he L1 L2 H1 H2 H3 H4 H5 H6 body own H7 H8 H9.
  exact (read_all_parts conv lanes clmul sep q nulls (conj L1 L2) H1 H2 H3 H4 thr ch ne ncols data he H5 H6 H7 H8 H9).
Qed.
Print Assumptions C57_no_row_lost_or_duplicated_partial.

(** Two rows; the first holds a quoted line break at which the file is cut. *)
Example C57_nonvacuous :
  let data := [DQ] ++ s2b "ab" ++ [LF] ++ s2b "cd" ++ [DQ] ++ s2b "e" ++ [LF] ++ [DQ] ++ s2b "x" ++ [DQ] ++ s2b "y" in
  chunk_ranges 16 true DQ data 0 2 = Some [(0, 4); (4, 13)] /\
  option_map (fun r => (chunks r, total_rows r))
    (read_all_with keep 16 true COMMA DQ (make_null_checker []) 1 2 false 1 data 0) =
    Some ([[[Some ([DQ] ++ s2b "ab" ++ [LF])]]; [[Some ([DQ] ++ s2b "x" ++ [DQ] ++ s2b "y")]]], 2) /\
  length (table_rows COMMA DQ data) = 2 /\
  Forall (safe_row COMMA LF DQ) (table_rows COMMA DQ data) /\
  Forall (safe_row COMMA LF DQ) (table_rows COMMA DQ (slice 0 4 data)).
Proof.
  cbv zeta. split; [vm_compute; reflexivity|]. split; [vm_compute; reflexivity|]. split; [vm_compute; reflexivity|]. split.
  - replace (table_rows COMMA DQ _) with
      [[[DQ] ++ s2b "ab" ++ [LF] ++ s2b "cd" ++ [DQ] ++ s2b "e"]; [[DQ] ++ s2b "x" ++ [DQ] ++ s2b "y"]] by (vm_compute; reflexivity).
    constructor; [|constructor; [|constructor]]; apply safe_all_quoted; repeat constructor.
  - replace (table_rows COMMA DQ _) with [[[DQ] ++ s2b "ab" ++ [LF]]] by (vm_compute; reflexivity).
    constructor; [|constructor]. apply safe_all_quoted. repeat constructor.
Qed.
