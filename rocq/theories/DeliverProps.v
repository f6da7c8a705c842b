(** C09, C11, C57, C81: what is read, counted and printed, for every input; no
    condition on quotes, line breaks or chunk boundaries. *)
From Verif Require Import Base NumSpec WordsModel WordsProof ChunkSpec ChunkModel FieldsSpec FieldsModel NumModel
  ReaderSpec ReaderModel TypesSpec TypesModel CliSpec CliModel CliProof5 SplitSpec DeliverSpec DeliverProof DeliverProof2.

(** Every file and every thread count: the chunks are the parts of the file, each cut
    into rows as [delivered_rows] says. *)
Theorem C09_what_is_read :
  forall (V : Type) (conv : nat -> bytes -> option V) (lanes : nat) (clmul : bool) (sep q : byte) (nulls : bytes)
         (num_threads : N) (ne : bool) (ncols : nat) (data : bytes) (header_end : nat),
    1 <= lanes -> Nat.divide lanes 64 -> q <> LF -> q <> CR -> q <> sep -> q <> 0%N ->
    0 < ncols -> header_end <= length data ->
    exists ranges r,
      chunk_ranges lanes clmul q data header_end
        (N.to_nat (calculate_chunk_size (N.of_nat (length data - header_end)) (N.of_nat ncols) num_threads)) = Some ranges /\
      read_all conv lanes clmul sep q (make_null_checker nulls) num_threads ne ncols data header_end = Some r /\
      let parts := file_parts q (N.to_nat PARALLEL_THRESHOLD) data header_end ranges in
      chunks r = map (fun p => columns_of conv nulls q ncols (delivered_rows sep q p)) parts /\
      total_rows r = length (rows_of_parts sep q parts) /\
      concat_columns ncols (chunks r) = columns_of conv nulls q ncols (rows_of_parts sep q parts).
Proof.
  intros V conv lanes clmul sep q nulls nt ne ncols data he H1 H2 H3 H4 H5 H6 H7 H8.
  exact (parts_are_read conv lanes clmul sep q nulls _ _ ne ncols data he H1 H2 H3 H4 H5 H6 H7 H8).
Qed.
Print Assumptions C09_what_is_read.

(** One thread: all of the file is one part. *)
Theorem C09_serial_what_is_read :
  forall (V : Type) (conv : nat -> bytes -> option V) (lanes : nat) (clmul : bool) (sep q : byte) (nulls : bytes)
         (ne : bool) (ncols : nat) (data : bytes) (header_end : nat),
    1 <= lanes -> Nat.divide lanes 64 -> q <> LF -> q <> CR -> q <> sep -> q <> 0%N -> 0 < ncols ->
    let rows := delivered_rows sep q (skipn header_end data) in
    read_all_serial conv lanes clmul sep q (make_null_checker nulls) ne ncols data header_end =
    Some (mkRead [columns_of conv nulls q ncols rows] (length rows) (length rows)).
Proof.
  intros V conv lanes clmul sep q nulls ne ncols data he L1 L2 H1 H2 H3 H4 H5.
  apply (serial_delivered conv lanes clmul sep q nulls (conj L1 L2)); assumption.
Qed.
Print Assumptions C09_serial_what_is_read.

(** What row_count() says, for every file: the rows delivered if the file was not
    divided, otherwise the number of row ends outside quotes. *)
Theorem C55_what_is_reported :
  forall (V : Type) (conv : nat -> bytes -> option V) (lanes : nat) (clmul : bool) (sep q : byte) (nulls : bytes)
         (num_threads : N) (ne : bool) (ncols : nat) (data : bytes) (header_end : nat),
    1 <= lanes -> Nat.divide lanes 64 -> q <> LF -> q <> CR -> q <> sep -> q <> 0%N ->
    0 < ncols -> header_end <= length data ->
    exists ranges r,
      chunk_ranges lanes clmul q data header_end
        (N.to_nat (calculate_chunk_size (N.of_nat (length data - header_end)) (N.of_nat ncols) num_threads)) = Some ranges /\
      read_all conv lanes clmul sep q (make_null_checker nulls) num_threads ne ncols data header_end = Some r /\
      reported_rows r =
        (if (length (skipn header_end data) <? N.to_nat PARALLEL_THRESHOLD) || (length ranges <=? 1)
         then length (delivered_rows sep q (skipn header_end data)) else spec_row_count false q (skipn header_end data)).
Proof.
  intros V conv lanes clmul sep q nulls nt ne ncols data he L1 L2 H1 H2 H3 H4 H5 H6.
  destruct (all_delivered conv lanes clmul sep q nulls (conj L1 L2) H1 H2 H3 H4 (N.to_nat PARALLEL_THRESHOLD)
    (N.to_nat (calculate_chunk_size (N.of_nat (length data - he)) (N.of_nat ncols) nt)) ne ncols data he H5 H6) as (rs & E1 & E2).
  exists rs. eexists. split; [exact E1|]. split; [exact E2|]. destruct (_ || _); reflexivity.
Qed.
Print Assumptions C55_what_is_reported.

(** The rows delivered of a part are those of the text exactly when every field that
    was ended by a delimiter has an even number of quotes. *)
Theorem C09_rows_right_exactly_when_balanced :
  forall (sep q : byte) (part : bytes), q <> LF -> q <> CR -> q <> sep -> q <> 0%N ->
    (delivered_rows sep q part = table_rows sep q part <-> Forall (balanced q) (ended_fields sep q part)).
Proof.
  intros sep q part H1 H2 H3 H4.
  apply (delivered_iff (fun _ v => Some v) 1 true sep q) with (n := length part); first [assumption|lia|split; [lia|exists 64; reflexivity]].
Qed.
Print Assumptions C09_rows_right_exactly_when_balanced.

(** Every input of head and count. *)
Theorem C81_what_is_printed :
  forall (F : Type) (ff : bytes -> option F) (show_float : F -> bytes) (pad : bool) (lanes : nat) (clmul : bool)
         (num_threads : N) (ne : bool) (o : csv_options) (n : nat) (c : bytes),
    1 <= lanes -> Nat.divide lanes 64 -> quote o <> LF -> quote o <> CR ->
    c <> [] -> quote o <> separator o -> quote o <> 0%N ->
    let header_end := if has_header o then spec_find_row_end (quote o) c 0 else 0 in
    exists names types ranges,
      option_map fst (open_file ff lanes clmul o c) = Some (names, types) /\ length types = length names /\ 0 < length names /\
      chunk_ranges lanes clmul (quote o) c header_end
        (N.to_nat (calculate_chunk_size (N.of_nat (length c - header_end)) (N.of_nat (length names)) num_threads)) = Some ranges /\
      let rows := rows_of_parts (separator o) (quote o) (file_parts (quote o) (N.to_nat PARALLEL_THRESHOLD) c header_end ranges) in
      head ff show_float pad lanes clmul num_threads ne o n (Stdin c) =
        Exit 0 (concat (map (output_row (separator o) (quote o))
          ((if has_header o then [names] else []) ++ firstn n (map (shown ff show_float pad lanes o types (length names)) rows)))) /\
      exists v, count ff lanes clmul num_threads ne o (Stdin c) = Exit 0 (v ++ [LF]) /\ integer_text v = Some (Z.of_nat (length rows)).
Proof. intros F ff sf pad lanes clmul nt ne o n c H1 H2 H3 H4. exact (head_delivered ff sf pad lanes clmul nt ne o H1 H2 H3 H4 n c). Qed.
Print Assumptions C81_what_is_printed.

(** A row with a quoted comma after an unquoted field, followed by 60 bytes: three
    fields are delivered instead of two, and the second shows it. *)
Example C09_delivered_meets :
  let row := s2b "a," ++ [DQ] ++ s2b "b,c" ++ [DQ; LF] in
  let data := row ++ repeat 97%N 60 ++ [LF] ++ row in
  delivered_rows COMMA DQ data = [[s2b "a"; [DQ] ++ s2b "b"; s2b "c" ++ [DQ]]; [repeat 97%N 60]; [s2b "a"; [DQ] ++ s2b "b,c" ++ [DQ]]] /\
  table_rows COMMA DQ data = [[s2b "a"; [DQ] ++ s2b "b,c" ++ [DQ]]; [repeat 97%N 60]; [s2b "a"; [DQ] ++ s2b "b,c" ++ [DQ]]] /\
  ~ Forall (balanced DQ) (ended_fields COMMA DQ data) /\ Forall (balanced DQ) (ended_fields COMMA DQ row) /\
  option_map total_rows (read_all (fun _ v => Some v) 16 true COMMA DQ (make_null_checker []) 4 false 2 data 0) = Some 3.
Proof.
  cbv zeta. split; [vm_compute; reflexivity|]. split; [vm_compute; reflexivity|]. split.
  { intros H. match type of H with Forall _ ?l => let l' := eval vm_compute in l in change l with l' in H end.
    inversion H as [|x y _ H']; subst. inversion H' as [|x y B _]; subst. vm_compute in B. discriminate. }
  split; [|vm_compute; reflexivity].
  match goal with |- Forall _ ?l => let l' := eval vm_compute in l in change l with l' end. repeat constructor.
Qed.
Print Assumptions C09_delivered_meets.

(** A file divided inside a quoted field: the parts. *)
Example C09_parts_meet :
  let data := [DQ] ++ s2b "ab" ++ [LF] ++ s2b "cd" ++ [DQ] ++ s2b "e" ++ [LF] ++ [DQ] ++ s2b "x" ++ [DQ] ++ s2b "y" in
  file_parts DQ 1 data 0 [(0, 4); (4, 13)] = [[DQ] ++ s2b "ab" ++ [LF]; [DQ] ++ s2b "x" ++ [DQ] ++ s2b "y"].
Proof. vm_compute. reflexivity. Qed.
Print Assumptions C09_parts_meet.
