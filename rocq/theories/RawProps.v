(** C112: reading never touches a byte outside the file.
    In RawModel and RawModel2 every access to the data is an explicit indexed read, and an access outside it is [None]. *)
From Verif Require Import Base TypesSpec WordsModel ChunkModel FieldsModel NumModel DateModel ReaderModel TypesModel
  RawModel RawProof RawProof2 RawProof3 RawModel2 RawProof4 RawProof5 RawModel3 RawProof6 RawProof7.

(** Opening and reading a file: whatever bytes it holds and whatever the options are (the quote may be a newline, or the separator),
    for every vector width that divides 64, no read leaves the file, and the result is the one the other theorems are about. *)
Theorem C112_whole_file_inside :
  forall (F : Type) (ff : bytes -> option F) (lanes : nat) (clmul : bool) (num_threads : N) (ne : bool) (o : csv_options) (data : bytes),
    1 <= lanes -> Nat.divide lanes 64 ->
    raw_read_file ff lanes clmul num_threads ne o data (length data) = Some (read_file ff lanes clmul num_threads ne o data) /\
    (data <> [] -> exists names types r, read_file ff lanes clmul num_threads ne o data = Some (names, types, r)).
Proof.
  intros F ff lanes clmul nt ne o data H1 H2. destruct (raw_read_file_same ff lanes clmul o (conj H1 H2) nt ne data) as [A B].
  split; [exact A|]. intros Hd. destruct (B Hd) as ([[names types] r] & E). exists names, types, r. exact E.
Qed.
Print Assumptions C112_whole_file_inside.

(** Reading from any header end and for any number of columns, threshold and chunk size. *)
Theorem C112_reading_inside :
  forall (V : Type) (conv : nat -> bytes -> option V) (lanes : nat) (clmul : bool) (sep q : byte) (nulls : bytes)
         (threshold chunk_size : nat) (ne : bool) (ncols : nat) (data : bytes) (header_end : nat),
    1 <= lanes -> Nat.divide lanes 64 -> header_end <= length data ->
    exists r,
      raw_read_all_with conv lanes clmul sep q (make_null_checker nulls) threshold chunk_size ne ncols data (length data) header_end = Some r /\
      read_all_with conv lanes clmul sep q (make_null_checker nulls) threshold chunk_size ne ncols data header_end = Some r.
Proof. intros V conv lanes clmul sep q nulls thr ch ne ncols data he H1 H2 H3. exact (reading_inside conv lanes clmul sep q nulls thr ch ne ncols data he (conj H1 H2) H3). Qed.
Print Assumptions C112_reading_inside.

(** Counting rows, finding the end of a row and the analysis of a chunk. *)
Theorem C112_scanning_inside :
  forall (lanes : nat) (clmul : bool) (q : byte) (data : bytes) (start : nat),
    1 <= lanes -> Nat.divide lanes 64 ->
    (exists n e, raw_count_rows lanes clmul data (length data) q = Some (n, e) /\ count_rows lanes clmul data q = Some (n, e)) /\
    (exists e, raw_row_end lanes clmul q data (length data) start = Some e /\ find_row_end lanes clmul q data start = Some e /\
       e <= length data /\ (start < length data -> start < e)) /\
    (exists d, raw_dual lanes clmul data (length data) q = Some d /\ analyze_chunk_dual_state_simd lanes clmul data q = Some d).
Proof. intros lanes clmul q data start H1 H2. exact (scanning_inside lanes clmul q data start (conj H1 H2)). Qed.
Print Assumptions C112_scanning_inside.

(** The header and the columns of the first row. *)
Theorem C112_header_inside :
  forall (sep q : byte) (data : bytes) (first_row_end : nat), first_row_end <= length data ->
    raw_parse_header sep q data (length data) = Some (parse_header sep q data) /\
    raw_count_columns (S first_row_end) sep q data first_row_end 0 false 1 = Some (count_columns sep q (firstn first_row_end data) false 1).
Proof. intros sep q data e H. split; [apply raw_parse_header_eq|]. rewrite raw_count_columns_eq by lia. reflexivity. Qed.
Print Assumptions C112_header_inside.

(** Dates, timestamps and the guessed type, for every text. *)
Theorem C112_texts_inside :
  forall (F : Type) (ff : bytes -> option F) (o : csv_options) (v : bytes),
    raw_parse_date v = Some (parse_date v) /\ raw_parse_timestamp v = Some (parse_timestamp v) /\
    raw_infer_field ff o v = Some (infer_field ff o v).
Proof. intros F ff o v. split; [apply raw_parse_date_eq|]. split; [apply raw_parse_timestamp_eq|apply raw_infer_field_eq]. Qed.
Print Assumptions C112_texts_inside.

(** The line splitters and LineParser, for every text, quote and separator. *)
Theorem C112_lines_inside :
  forall (lanes : nat) (clmul : bool) (sep q : byte) (data : bytes), 1 <= lanes -> Nat.divide lanes 64 ->
    raw_split_scalar data (length data) sep q = Some (split_fields_scalar data sep q) /\
    (exists r, raw_split_simd lanes clmul data (length data) sep q = Some r /\ split_fields_simd lanes clmul data sep q = Some r) /\
    (exists r, raw_split_fields lanes clmul data (length data) sep q = Some r /\ split_fields lanes clmul data sep q = Some r /\
       forall old, split_fields_into lanes clmul data sep q old = Some r) /\
    forall (V : Type) (conv : nat -> bytes -> option V) (nulls : bytes) (cols : list (list (option V))),
      raw_parse_line conv sep q (init_null_values nulls) data (length data) cols = Some (parse_line conv sep q (init_null_values nulls) data cols).
Proof.
  intros lanes clmul sep q data H1 H2. split; [apply raw_split_scalar_eq|]. split; [|split; [exact (raw_split_fields_eq sep q lanes (conj H1 H2) clmul data)|intros; apply raw_parse_line_eq]].
  destruct (raw_split_simd_eq sep q lanes (conj H1 H2) clmul data) as [A [r B]]. exists r. rewrite A. split; exact B.
Qed.
Print Assumptions C112_lines_inside.

(** The integer parsers, for every text and vector width ([Undefined], a vector larger than the buffer, included). *)
Theorem C112_integers_inside :
  forall (iso : bool) (lanes : nat) (bits : N) (max_len short : nat) (text : bytes),
    raw_parse_uint64 lanes text 0 (length text) = Some (parse_uint64_simd lanes text) /\
    raw_parse_int32 iso lanes text (length text) = Some (parse_int32_simd iso lanes text) /\
    raw_parse_int64 iso lanes text (length text) = Some (parse_int64_simd iso lanes text) /\
    raw_parse_int_fast iso bits max_len short text (length text) = Some (parse_int_fast iso bits max_len short text).
Proof.
  intros iso lanes bits ml sh text. split; [|split; [apply raw_int32_eq|split; [apply raw_int64_eq|apply raw_fast_eq]]].
  rewrite raw_uint64_eq by lia. rewrite whole. reflexivity.
Qed.
Print Assumptions C112_integers_inside.

(** False for vectors of 128 bytes and more: every such width reads past the end of some file, when counting, finding a row end
    and reading. *)
Theorem C112_wide_vectors_refuted :
  forall lanes, 128 <= lanes -> exists data : bytes, forall clmul,
    length data = 65 /\
    raw_count_rows lanes clmul data (length data) DQ = None /\ raw_row_end lanes clmul DQ data (length data) 0 = None /\
    raw_read_all_with (fun _ v => Some v) lanes clmul COMMA DQ (make_null_checker []) 100 100 false 1 data (length data) 0 = None.
Proof. exact wide_vectors. Qed.
Print Assumptions C112_wide_vectors_refuted.

(** The model notices a read outside: told a size one too large, it fails. *)
Example C112_read_outside_noticed :
  let data := s2b "a,b" ++ [LF] ++ s2b "1," ++ [DQ] ++ s2b "x" in
  raw_count_rows 16 true data (S (length data)) DQ = None /\ raw_row_end 16 true DQ data (S (length data)) 4 = None /\
  raw_parse_header COMMA DQ (s2b "a,b") 4 = None /\ raw_digits_at (s2b "20") 1 2 0 = None /\
  raw_skip_empty 5 [LF; CR] 3 0 = None /\ raw_unescape DQ (s2b "ab") 1 2 = None /\ raw_dual 16 true data (S (length data)) DQ = None /\
  raw_split_scalar (s2b "a,b") 4 COMMA DQ = None /\ raw_split_fields 16 true (repeat 97%N 64) 65 COMMA DQ = None /\ raw_split_fields 16 true (repeat 97%N 63) 64 COMMA DQ = None /\
  raw_parse_int32 false 16 (s2b "12") 3 = None /\ raw_parse_int64 false 16 (s2b "123456789012345678") 19 = None /\ raw_parse_int32 false 16 (s2b "-12345678") 10 = None /\
  raw_parse_int_fast false 32 11 9 (s2b "1") 2 = None /\ raw_parse_line (fun _ v => Some v) COMMA DQ (init_null_values []) (s2b "a,b") 4 [[]; []] = None.
Proof. vm_compute. repeat split. Qed.
Example C112_nonvacuous :
  let data := s2b "a,b" ++ [LF] ++ s2b "1," ++ [DQ] ++ s2b "x" ++ [DQ; DQ] ++ s2b "y" ++ [DQ; CR; LF] ++ s2b "2,2024-01-05" ++ [LF] in
  option_map (fun r => (chunks r, total_rows r))
    (raw_read_all_with (fun _ v => Some v) 16 true COMMA DQ (make_null_checker []) 5 5 false 2 data (length data) 4) =
  Some ([[[Some (s2b "1")]; [Some (s2b "x" ++ [DQ] ++ s2b "y")]]; [[Some (s2b "2")]; [Some (s2b "2024-01-05")]]], 2) /\
  raw_parse_timestamp (s2b "2024-01-05T10:00:00.5+01:30") = Some (Some 1704443400500000%Z).
Proof. vm_compute. split; reflexivity. Qed.
Example C112_lines :
  raw_split_fields 16 true (s2b " a ,  ," ++ [DQ] ++ s2b " b,c" ++ [DQ] ++ s2b ",d" ++ [CR; LF]) 17 COMMA DQ =
    Some [(s2b "a", false); ([], false); (s2b "b,c", true); (s2b "d", false)] /\
  (let d := repeat 97%N 62 ++ s2b "," ++ [DQ] ++ s2b "x,y" ++ [DQ] ++ s2b ", z" ++ [LF] in
   raw_split_fields 16 true d (length d) COMMA DQ = Some [(repeat 97%N 62, false); (s2b "x,y", true); (s2b "z", false)]) /\
  raw_parse_int64 false 16 (s2b "-123456789012345") 16 = Some (Value (-123456789012345)%Z).
Proof. vm_compute. repeat split. Qed.
