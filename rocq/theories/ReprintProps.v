(** C115: what the command-line tool prints is read again as what it was. *)
From Verif Require Import Base NumSpec DateSpec WordsModel ChunkSpec ChunkModel FieldsSpec FieldsModel NumModel DateModel ReaderSpec ReaderModel TypesSpec TypesModel
  KeepSpec RoundSpec CliSpec CliModel CliProof3 CliProof4 CliProof5 DeliverSpec DeliverProof DeliverProof2 ReprintSpec ReprintProof ReprintProof2 ReprintProof3 ReprintProof4 ReprintProof5 ReprintProof6 ReprintProof7.

(** One cell: a value stored for some text is stored again for its printed text, with
    fractions of seconds dropped; printing and reading once more changes nothing. *)
Theorem C115_printed_cell_reads_back_partial :
  forall (F : Type) (ff : bytes -> option F) (show_float : F -> bytes) (pad : bool) (lanes : nat) (T : data_type) (v : bytes) (x : @value F),
    lanes <= 64 -> is_bytes v -> append_value ff lanes T v = Some x -> printable pad T x ->
    append_value ff lanes T (value_text show_float pad T (Some x)) = Some (after_printing T x) /\
    after_printing T (after_printing T x) = after_printing T x.
Proof. intros F ff sf pad lanes T v x Hl Hb H P. split; [exact (printed_again ff sf pad lanes T v x Hl Hb H P)|exact (after_twice T x)]. Qed.
Print Assumptions C115_printed_cell_reads_back_partial.

Example C115_cell_nonvacuous :
  let ff := fun _ : bytes => @None unit in
  append_value ff 16 INT64 (s2b "+0000000000000000017") = Some (VInt 17) /\ printable false INT64 (@VInt unit 17) /\
  append_value ff 16 TIMESTAMP (s2b "1969-12-31 23:59:58.5Z") = Some (VInt (-1500000)) /\ printable false TIMESTAMP (@VInt unit (-1500000)) /\
  value_text (F := unit) (fun _ => []) false TIMESTAMP (Some (VInt (-1500000))) = s2b "1969-12-31T23:59:59" /\
  after_printing TIMESTAMP (@VInt unit (-1500000)) = VInt (-1000000) /\ printable true DATE (@VInt unit (day_number 7 1 2)).
Proof.
  cbv zeta. split; [vm_compute; reflexivity|]. split; [exact I|]. split; [vm_compute; reflexivity|].
  split. { cbn [printable]. unfold four_digit_instant, instant. rewrite dec_31. vm_compute. split; [discriminate|reflexivity]. }
  split; [vm_compute; reflexivity|]. split; [vm_compute; reflexivity|].
  cbn [printable]. unfold four_digit_day. rewrite dec_31. vm_compute. split; discriminate.
Qed.

(** A whole table of truth values, integers, dates and instants, printed with its names and
    read with the default options. *)
Theorem C115_printed_table_reads_back_partial :
  forall (F : Type) (ff : bytes -> option F) (show_float : F -> bytes) (pad : bool) (lanes : nat) (clmul : bool) (num_threads : N) (ne : bool)
         (names : list bytes) (types : list data_type) (columns : list (list (option (@value F)))) (nrows : nat),
    1 <= lanes -> Nat.divide lanes 64 -> 
    (forall v n, date_value v n -> ff v = None) -> (forall v n, timestamp_value v n -> ff v = None) ->
    names <> [] -> length names = length types ->
    (forall k, k < length types ->
       length (nth k columns []) = nrows /\ (forall x, In (Some x) (nth k columns []) -> storable pad (nth k types STRING) x) /\
       well_sampled (nth k types STRING) (nth k columns [])) ->
    (length types = 1 -> ~ In None (nth 0 columns [])) ->
    exists types' r,
      read_file ff lanes clmul num_threads ne default_options
        (concat (map (output_row COMMA DQ) (names :: text_table (value_text show_float pad) STRING types columns nrows)))
        = Some (map column_name (map (written_name COMMA DQ) names), types', r) /\
      length types' = length types /\ total_rows r = nrows /\
      (forall k, k < length types -> type_again (nth k types STRING) (nth k types' STRING)) /\
      concat_columns (length types) (chunks r) =
        map (fun k => map (option_map (after_printing (nth k types STRING))) (nth k columns [])) (seq 0 (length types)).
Proof. intros F ff sf pad lanes clmul nt ne names types columns nrows H1 H2 H3 H4. exact (table_again ff sf pad lanes H1 H2 H3 H4 clmul nt ne names types columns nrows). Qed.
Print Assumptions C115_printed_table_reads_back_partial.

(** head: its output, read again, is the first rows of the table it was printed from. *)
Theorem C115_head_reads_back_partial :
  forall (F : Type) (ff : bytes -> option F) (show_float : F -> bytes) (pad : bool) (lanes : nat) (clmul : bool) (num_threads : N) (ne : bool)
         (n : nat) (c : bytes) (names : list bytes) (types : list data_type) (t : @read_result (@value F)),
    1 <= lanes -> Nat.divide lanes 64 -> 
    (forall v m, date_value v m -> ff v = None) -> (forall v m, timestamp_value v m -> ff v = None) -> c <> [] ->
    read_file ff lanes clmul num_threads ne default_options c = Some (names, types, t) ->
    let column := fun k => firstn n (nth k (concat_columns (length names) (chunks t)) []) in
    (forall k, k < length types ->
       (forall x, In (Some x) (column k) -> storable pad (nth k types STRING) x) /\ well_sampled (nth k types STRING) (column k)) ->
    (length types = 1 -> ~ In None (column 0)) ->
    exists out types' r,
      head ff show_float pad lanes clmul num_threads ne default_options n (Stdin c) = Exit 0 out /\
      read_file ff lanes clmul num_threads ne default_options out = Some (map column_name (map (written_name COMMA DQ) names), types', r) /\
      total_rows r = Nat.min n (total_rows t) /\
      (forall k, k < length types -> type_again (nth k types STRING) (nth k types' STRING)) /\
      concat_columns (length types) (chunks r) =
        map (fun k => map (option_map (after_printing (nth k types STRING))) (column k)) (seq 0 (length types)).
Proof.
  intros F ff sf pad lanes clmul nt ne n c names types t H1 H2 H3 H4 Hc E column HC HN.
  destruct (head_spec ff sf pad lanes clmul nt ne default_options H1 H2 ltac:(discriminate) ltac:(discriminate) n c Hc) as (names' & types' & t' & E' & LT & LN & EH).
  rewrite E in E'. injection E' as <- <- <-.
  destruct (file_delivered ff lanes clmul nt ne default_options H1 H2 ltac:(discriminate) ltac:(discriminate) c Hc ltac:(discriminate) ltac:(discriminate))
    as (names' & types' & t' & rs & E' & _ & _ & _ & TR & CC).
  rewrite E in E'. injection E' as <- <- <-. cbv zeta in TR, CC.
  set (R := rows_of_parts _ _ _) in *. clearbody R.
  change (has_header default_options) with true in EH. cbn [app] in EH. rewrite first_rows_table in EH.
  change (separator default_options) with COMMA in EH. change (quote default_options) with DQ in EH.
  assert (Col : forall k, nth k (map (firstn n) (concat_columns (length names) (chunks t))) [] = column k).
  { intros k. unfold column. rewrite <- (map_nth (firstn n) _ [] k). f_equal. symmetry. apply firstn_nil. }
  destruct (table_again ff sf pad lanes H1 H2 H3 H4 clmul nt ne names types (map (firstn n) (concat_columns (length names) (chunks t))) (Nat.min n (total_rows t))) as (types' & r & A1 & A2 & A3 & A4 & A5).
  - intros ->. cbn in LN. lia.
  - symmetry. exact LT.
  - intros k Hk. rewrite Col. destruct (HC k Hk) as (B1 & B2). split; [|split; assumption].
    unfold column. rewrite firstn_length. f_equal. rewrite CC, TR. unfold columns_of.
    rewrite (nth_indep _ [] ((fun k0 => map (fun row => row_cell (conv_of ff lanes types) (null_values default_options) (quote default_options) row k0) R) 0))
      by (rewrite map_length, seq_length; lia).
    rewrite (map_nth (fun k0 => map (fun row => row_cell (conv_of ff lanes types) (null_values default_options) (quote default_options) row k0) R)).
    apply map_length.
  - intros L. rewrite Col. exact (HN L).
  - eexists. exists types', r. split; [exact EH|]. split; [exact A1|]. split; [exact A3|]. split; [exact A4|]. rewrite A5.
    apply map_ext. intros k. rewrite Col. reflexivity.
Qed.
Print Assumptions C115_head_reads_back_partial.

Definition small_file : bytes :=
  s2b " id ,ok,day" ++ [LF] ++ s2b "7,true,2024-02-29" ++ [LF] ++ s2b "+0012,,1999/12/31" ++ [LF] ++ s2b "-5,no,NA" ++ [LF] ++ s2b "8,no,NA" ++ [LF].
Example C115_head_nonvacuous :
  let ff := fun _ : bytes => @None unit in
  exists t, read_file ff 16 true 4 false default_options small_file = Some ([s2b "id"; s2b "ok"; s2b "day"], [INT32; BOOL; DATE], t) /\
    let column := fun k => firstn 3 (nth k (concat_columns 3 (chunks t)) []) in
    (forall k, k < 3 -> (forall x, In (Some x) (column k) -> storable false (nth k [INT32; BOOL; DATE] STRING) x) /\ well_sampled (nth k [INT32; BOOL; DATE] STRING) (column k)) /\
    head ff (fun _ => []) false 16 true 4 false default_options 3 (Stdin small_file) =
      Exit 0 (s2b "id,ok,day" ++ [LF] ++ s2b "7,true,2024-02-29" ++ [LF] ++ s2b "12,,1999-12-31" ++ [LF] ++ s2b "-5,false," ++ [LF]).
Proof.
  cbv zeta. eexists. split; [vm_compute; reflexivity|]. split; [|vm_compute; reflexivity].
  assert (D : forall n, (0 <= n < 20000)%Z -> four_digit_day false n).
  { intros n Hn. unfold four_digit_day. rewrite dec_31. change (day_number (first_year false) 1 1) with (-354285)%Z. lia. }
  intros k Hk. destruct k as [|[|[|k]]]; [| | |lia]; (split; [intros x Hx; vm_compute in Hx; cbn [nth storable]|]).
  - repeat (destruct Hx as [Hx|Hx]; [try discriminate Hx; injection Hx as <-; eexists; split; [reflexivity|vm_compute; split; [discriminate|reflexivity]]|]); destruct Hx.
  - split; [exists (VInt 12); vm_compute; tauto|]. intros _. left. intros z Hz. vm_compute in Hz.
    repeat (destruct Hz as [Hz|Hz]; [injection Hz as <-; vm_compute; split; [discriminate|reflexivity]|]); destruct Hz.
  - repeat (destruct Hx as [Hx|Hx]; [try discriminate Hx; injection Hx as <-; eexists; reflexivity|]); destruct Hx.
  - split; [exists (VBool false); vm_compute; tauto|]. intros [X|X]; discriminate X.
  - destruct Hx as [Hx|[Hx|[Hx|[]]]]; [| |discriminate Hx]; injection Hx as <-; eexists; (split; [reflexivity|apply D; lia]).
  - split; [exists (VInt 10956); vm_compute; tauto|]. intros [X|X]; discriminate X.
Qed.

(** The first row is not looked at for the types (C19), so an integer of more than 32 bits
    there is lost when the output is read again. *)
Theorem C115_large_first_row_refuted :
  forall (F : Type) (ff : bytes -> option F) (show_float : F -> bytes),
    let column := [Some (VInt 3000000000); Some (VInt 1)] : list (option (@value F)) in
    (forall x, In (Some x) column -> storable false INT64 x) /\ 
    exists r, read_file ff 16 true 4 false default_options
                (concat (map (output_row COMMA DQ) ([s2b "h"] :: text_table (value_text show_float false) STRING [INT64] [column] 2))) = Some ([s2b "h"], [INT32], r) /\
              concat_columns 1 (chunks r) = [[None; Some (VInt 1)]].
Proof.
  intros F ff sf column. split.
  - intros x [H|[H|[]]]; injection H as <-; eexists; (split; [reflexivity|vm_compute; split; [discriminate|reflexivity]]).
  - eexists. split; vm_compute; reflexivity.
Qed.
Print Assumptions C115_large_first_row_refuted.

(** Texts are not printed so that they stay texts: what head prints of a column of texts is read as
    numbers. *)
Theorem C115_texts_become_numbers_refuted :
  let ff := fun _ : bytes => @None unit in
  let c := s2b "h" ++ [LF] ++ s2b "1" ++ [LF] ++ s2b "007" ++ [LF] ++ s2b "x" ++ [LF] in
  exists t out r,
    read_file ff 16 true 4 false default_options c = Some ([s2b "h"], [STRING], t) /\
    concat_columns 1 (chunks t) = [[Some (VString (s2b "1")); Some (VString (s2b "007")); Some (VString (s2b "x"))]] /\
    head ff (fun _ => []) false 16 true 4 false default_options 2 (Stdin c) = Exit 0 out /\
    read_file ff 16 true 4 false default_options out = Some ([s2b "h"], [INT32], r) /\
    concat_columns 1 (chunks r) = [[Some (VInt 1); Some (VInt 7)]].
Proof.
  cbv zeta. eexists. eexists. eexists.
  split; [vm_compute; reflexivity|]. split; [vm_compute; reflexivity|]. split; [vm_compute; reflexivity|]. split; vm_compute; reflexivity.
Qed.
Print Assumptions C115_texts_become_numbers_refuted.

(** Any table: also with texts that do not denote null, and with floating-point numbers whose
    printed digits are read as [again] of them.  Texts may hold line breaks if the rows are less
    than 1 MiB (behind that, reading starts within them, C100); the types are then told from what
    is seen before the line breaks.  The [spread] hypothesis is the distance between plain cells
    and commas within quotes that reading needs (C100). *)
Theorem C115_any_table_reads_back_partial :
  forall (F : Type) (ff : bytes -> option F) (show_float : F -> bytes) (again : F -> F) (pad : bool) (lanes : nat) (clmul : bool) (num_threads : N) (ne : bool)
         (names : list bytes) (types : list data_type) (columns : list (list (option (@value F)))) (nrows : nat),
    1 <= lanes -> Nat.divide lanes 64 -> 
    (forall v n, date_value v n -> ff v = None) -> (forall v n, timestamp_value v n -> ff v = None) ->
    names <> [] -> length names = length types ->
    (forall k, k < length types ->
       length (nth k columns []) = nrows /\ (forall x, In (Some x) (nth k columns []) -> keepable ff show_float again pad (nth k types STRING) x) /\
       seen_enough ff show_float (nth k types STRING) (nth k columns []) (in_sample columns k)) ->
    (length types = 1 -> ~ In None (nth 0 columns [])) ->
    let rows := text_table (value_text show_float pad) STRING types columns nrows in
    (forall row, In row rows -> spread COMMA DQ (map (written_name COMMA DQ) row)) ->
    (forall row t, In row rows -> In t row -> existsb newline t = false) \/ (N.of_nat (length (concat (map (output_row COMMA DQ) rows))) < 1048576)%N ->
    exists types' r,
      read_file ff lanes clmul num_threads ne default_options (concat (map (output_row COMMA DQ) (names :: rows)))
        = Some (map column_name (map (written_name COMMA DQ) names), types', r) /\
      length types' = length types /\ total_rows r = nrows /\
      (forall k, k < length types -> type_again (nth k types STRING) (nth k types' STRING)) /\
      concat_columns (length types) (chunks r) =
        map (fun k => map (option_map (after_reading again (nth k types STRING))) (nth k columns [])) (seq 0 (length types)).
Proof.
  intros F ff sf ag pad lanes clmul nt ne names types columns nrows H1 H2 H3 H4.
  assert (H64 : lanes <= 64) by (apply Nat.divide_pos_le; [lia|exact H2]).
  exact (table_kept ff sf ag pad H3 H4 lanes H64 H1 H2 clmul nt ne names types columns nrows).
Qed.
Print Assumptions C115_any_table_reads_back_partial.

(** A table of two columns with a comma, a quote, blanks and a number in the texts. *)
Definition toy_ff (v : bytes) : option N := if bytes_eqb v (s2b "2.5") then Some 25%N else if bytes_eqb v (s2b "2.75") then Some 27%N else None.
Definition toy_show (f : N) : bytes := if N.eqb f 25 then s2b "2.5" else s2b "2.75".
Definition toy_columns : list (list (option (@value N))) :=
  [[Some (VString (s2b "7")); Some (VString (s2b " a," ++ [LF] ++ s2b "b")); None; Some (VString (s2b "say " ++ [DQ] ++ s2b "x" ++ [DQ]))];
   [Some (VFloat 27%N); Some (VFloat 25%N); Some (VFloat 25%N); None]].
Example C115_any_nonvacuous :
  let rows := text_table (value_text toy_show false) STRING [STRING; FLOAT64] toy_columns 4 in
  (forall k, k < 2 -> length (nth k toy_columns []) = 4 /\
     (forall x, In (Some x) (nth k toy_columns []) -> keepable toy_ff toy_show (fun f => f) false (nth k [STRING; FLOAT64] STRING) x) /\
     seen_enough toy_ff toy_show (nth k [STRING; FLOAT64] STRING) (nth k toy_columns []) (in_sample toy_columns k)) /\
  (forall row, In row rows -> spread COMMA DQ (map (written_name COMMA DQ) row)) /\
  (N.of_nat (length (concat (map (output_row COMMA DQ) rows))) < 1048576)%N /\
  in_sample toy_columns 1 = [Some (VFloat 25%N); None] /\
  concat (map (output_row COMMA DQ) ([s2b "t"; s2b "f"] :: rows)) =
    s2b "t,f" ++ [LF] ++ s2b "7,2.75" ++ [LF; DQ] ++ s2b " a," ++ [LF] ++ s2b "b" ++ [DQ] ++ s2b ",2.5" ++ [LF] ++ s2b ",2.5" ++ [LF; DQ] ++ s2b "say " ++ [DQ; DQ] ++ s2b "x" ++ [DQ; DQ; DQ] ++ s2b "," ++ [LF].
Proof.
  cbv zeta. split; [|split; [|split; [vm_compute; reflexivity|split; vm_compute; reflexivity]]].
  - assert (FT : forall f, forallb (fun c => (33 <=? c)%N && (c <? 128)%N && negb (N.eqb c DQ) && negb (N.eqb c COMMA)) (toy_show f) = true ->
              forall c, In c (toy_show f) -> (33 <= c < 128)%N /\ c <> DQ /\ c <> COMMA).
    { intros f H c Hc. rewrite forallb_forall in H. specialize (H c Hc). rewrite !andb_true_iff, !negb_true_iff, !N.eqb_neq, N.leb_le, N.ltb_lt in H. tauto. }
    intros [|[|k]] Hk; [| |lia]; cbn [nth toy_columns]; (split; [reflexivity|]); split.
    + intros x [H|[H|[H|[H|[]]]]]; try discriminate H; injection H as <-; eexists; (split; reflexivity).
    + exists (s2b "say " ++ [DQ] ++ s2b "x" ++ [DQ]). split; [vm_compute; tauto|reflexivity].
    + intros x [H|[H|[H|[H|[]]]]]; try discriminate H; injection H as <-; eexists; (split; [reflexivity|]); (split; [reflexivity|]); (split; [apply FT; reflexivity|vm_compute; tauto]).
    + exists 25%N. split; [vm_compute; tauto|reflexivity].
  - intros row Hr. apply quoted_then_plain. vm_compute in Hr.
    destruct Hr as [<-|[<-|[<-|[<-|[]]]]].
    + exists [], [s2b "7"; s2b "2.75"]. reflexivity.
    + exists [s2b " a," ++ [LF] ++ s2b "b"], [s2b "2.5"]. reflexivity.
    + exists [], [[]; s2b "2.5"]. reflexivity.
    + exists [s2b "say " ++ [DQ] ++ s2b "x" ++ [DQ]], [[]]. reflexivity.
Qed.

(** head of such a table reads back as the first rows, and head of the output of head is that
    same output, provided the numbers print as they did ([again] is the number read from the
    printed digits) and no name begins with blanks. *)
Theorem C115_head_of_any_table_partial :
  forall (F : Type) (ff : bytes -> option F) (show_float : F -> bytes) (again : F -> F) (pad : bool) (lanes : nat) (clmul : bool) (num_threads : N) (ne : bool)
         (n : nat) (c : bytes) (names : list bytes) (types : list data_type) (t : @read_result (@value F)),
    1 <= lanes -> Nat.divide lanes 64 -> 
    (forall v m, date_value v m -> ff v = None) -> (forall v m, timestamp_value v m -> ff v = None) -> c <> [] ->
    read_file ff lanes clmul num_threads ne default_options c = Some (names, types, t) ->
    let column := fun k => firstn n (nth k (concat_columns (length names) (chunks t)) []) in
    let rows := text_table (value_text show_float pad) STRING types (map column (seq 0 (length types))) (Nat.min n (total_rows t)) in
    (forall k, k < length types ->
       (forall x, In (Some x) (column k) -> keepable ff show_float again pad (nth k types STRING) x) /\
       seen_enough ff show_float (nth k types STRING) (column k) (in_sample (map column (seq 0 (length types))) k)) ->
    (length types = 1 -> ~ In None (column 0)) ->
    (forall row, In row rows -> spread COMMA DQ (map (written_name COMMA DQ) row)) ->
    (forall row t, In row rows -> In t row -> existsb newline t = false) \/ (N.of_nat (length (concat (map (output_row COMMA DQ) rows))) < 1048576)%N ->
    let out := concat (map (output_row COMMA DQ) (names :: rows)) in
    let head_of := fun content => head ff show_float pad lanes clmul num_threads ne default_options n (Stdin content) in
    head_of c = Exit 0 out /\
    (exists types' r,
       read_file ff lanes clmul num_threads ne default_options out = Some (map column_name (map (written_name COMMA DQ) names), types', r) /\
       total_rows r = Nat.min n (total_rows t) /\
       (forall k, k < length types -> type_again (nth k types STRING) (nth k types' STRING)) /\
       concat_columns (length types) (chunks r) =
         map (fun k => map (option_map (after_reading again (nth k types STRING))) (column k)) (seq 0 (length types))) /\
    ((forall f, show_float (again f) = show_float f) -> (forall m, In m names -> column_name (written_name COMMA DQ m) = m) ->
     head_of out = Exit 0 out).
Proof.
  intros F ff sf ag pad lanes clmul nt ne n c names types t H1 H2 H3 H4 Hc E column rows HC HN Sp Br out head_of.
  destruct (head_kept ff sf ag pad lanes clmul nt ne H3 H4 H1 H2 n c names types t Hc E HC HN Sp Br) as (types' & r & A & B & _ & _ & TR & _ & Ty & CC).
  split; [exact A|]. split; [exists types', r; auto|]. intros SA NM.
  destruct (head_twice ff sf ag pad lanes clmul nt ne H3 H4 H1 H2 SA n c names types t Hc E HC HN Sp Br NM) as (out' & A' & B').
  fold column in A. fold rows in A. fold out in A. unfold head_of. rewrite A in A'. injection A' as <-. exact B'.
Qed.
Print Assumptions C115_head_of_any_table_partial.

Definition mixed_file : bytes :=
  s2b "text, id ,when" ++ [LF; DQ] ++ s2b "a,b" ++ [DQ] ++ s2b ",+07,2024-02-29 10:20:30.5Z" ++ [LF] ++
  s2b " plain,8,1999/12/31T00:00:00" ++ [LF; DQ] ++ s2b "q" ++ [DQ; DQ] ++ s2b "r" ++ [DQ] ++ s2b ",-9,NA" ++ [LF] ++ s2b "last,,2001-01-01 01:01:01" ++ [LF].
Definition mixed_head : bytes :=
  s2b "text,id,when" ++ [LF; DQ] ++ s2b "a,b" ++ [DQ] ++ s2b ",7,2024-02-29T10:20:30" ++ [LF] ++
  s2b " plain,8,1999-12-31T00:00:00" ++ [LF; DQ] ++ s2b "q" ++ [DQ; DQ] ++ s2b "r" ++ [DQ] ++ s2b ",-9," ++ [LF].
Example C115_head_of_any_nonvacuous :
  exists t, read_file toy_ff 16 true 4 false default_options mixed_file = Some ([s2b "text"; s2b "id"; s2b "when"], [STRING; INT32; TIMESTAMP], t) /\
    let types := [STRING; INT32; TIMESTAMP] in
    let column := fun k => firstn 3 (nth k (concat_columns 3 (chunks t)) []) in
    let rows := text_table (value_text toy_show false) STRING types (map column (seq 0 3)) (Nat.min 3 (total_rows t)) in
    (forall k, k < 3 -> (forall x, In (Some x) (column k) -> keepable toy_ff toy_show (fun f => f) false (nth k types STRING) x) /\
                        seen_enough toy_ff toy_show (nth k types STRING) (column k) (in_sample (map column (seq 0 3)) k)) /\
    (forall row, In row rows -> spread COMMA DQ (map (written_name COMMA DQ) row)) /\
    (N.of_nat (length (concat (map (output_row COMMA DQ) rows))) < 1048576)%N /\
    (forall m, In m [s2b "text"; s2b "id"; s2b "when"] -> column_name (written_name COMMA DQ m) = m) /\
    concat (map (output_row COMMA DQ) ([s2b "text"; s2b "id"; s2b "when"] :: rows)) = mixed_head.
Proof.
  eexists. split; [vm_compute; reflexivity|]. cbv zeta. split; [|split; [|split; [vm_compute; reflexivity|split; [|vm_compute; reflexivity]]]].
  - assert (D : forall us, (0 <= us < 2000000000000000)%Z -> four_digit_instant false us).
    { intros us Hu. unfold four_digit_instant, instant. rewrite dec_31. change (day_number (first_year false) 1 1) with (-354285)%Z. lia. }
    intros k Hk. destruct k as [|[|[|k]]]; [| | |lia]; (split; [intros x Hx; vm_compute in Hx; cbn [nth keepable storable]|]).
    + repeat (destruct Hx as [Hx|Hx]; [try discriminate Hx; injection Hx as <-; eexists; (split; reflexivity)|]); destruct Hx.
    + exists (s2b " plain"). split; [vm_compute; tauto|reflexivity].
    + repeat (destruct Hx as [Hx|Hx]; [try discriminate Hx; injection Hx as <-; eexists; split; [reflexivity|vm_compute; split; [discriminate|reflexivity]]|]); destruct Hx.
    + split; [exists (VInt 8); vm_compute; tauto|]. intros _. left. intros z Hz. vm_compute in Hz.
      repeat (destruct Hz as [Hz|Hz]; [try discriminate Hz; injection Hz as <-; vm_compute; split; [discriminate|reflexivity]|]); destruct Hz.
    + repeat (destruct Hx as [Hx|Hx]; [try discriminate Hx; injection Hx as <-; eexists; (split; [reflexivity|apply D; lia])|]); destruct Hx.
    + split; [eexists; vm_compute; left; reflexivity|]. intros [X|X]; discriminate X.
  - intros row Hr. apply quoted_then_plain. vm_compute in Hr. destruct Hr as [<-|[<-|[<-|[]]]].
    + exists [s2b "a,b"], [s2b "7"; s2b "2024-02-29T10:20:30"]. reflexivity.
    + exists [], [s2b " plain"; s2b "8"; s2b "1999-12-31T00:00:00"]. reflexivity.
    + exists [s2b "q" ++ [DQ] ++ s2b "r"], [s2b "-9"; []]. reflexivity.
  - intros m [<-|[<-|[<-|[]]]]; reflexivity.
Qed.

(** select: its output, read again, is the chosen columns in the chosen order. *)
Theorem C115_select_reads_back_partial :
  forall (F : Type) (ff : bytes -> option F) (show_float : F -> bytes) (again : F -> F) (pad : bool) (lanes : nat) (clmul : bool) (num_threads : N) (ne : bool)
         (spec c : bytes) (names : list bytes) (types : list data_type) (t : @read_result (@value F)) (chosen : list nat),
    1 <= lanes -> Nat.divide lanes 64 -> 
    (forall v m, date_value v m -> ff v = None) -> (forall v m, timestamp_value v m -> ff v = None) ->
    c <> [] -> spec <> [] -> (N.of_nat (length names) <= 2 ^ 64)%N ->
    read_file ff lanes clmul num_threads ne default_options c = Some (names, types, t) ->
    columns_named true names (listed_columns spec) = Some chosen -> chosen <> [] ->
    let column := fun k => nth k (concat_columns (length names) (chunks t)) [] in
    let rows := text_table (value_text show_float pad) STRING (map (fun k => nth k types STRING) chosen) (map column chosen) (total_rows t) in
    (forall j, j < length chosen -> let k := nth j chosen 0 in
       (forall x, In (Some x) (column k) -> keepable ff show_float again pad (nth k types STRING) x) /\
       seen_enough ff show_float (nth k types STRING) (column k) (in_sample (map column chosen) j)) ->
    (length chosen = 1 -> ~ In None (column (nth 0 chosen 0))) ->
    (forall row, In row rows -> spread COMMA DQ (map (written_name COMMA DQ) row)) ->
    (forall row t, In row rows -> In t row -> existsb newline t = false) \/ (N.of_nat (length (concat (map (output_row COMMA DQ) rows))) < 1048576)%N ->
    exists out types' r,
      select ff show_float pad lanes clmul num_threads ne default_options spec (Stdin c) = Exit 0 out /\
      read_file ff lanes clmul num_threads ne default_options out =
        Some (map column_name (map (written_name COMMA DQ) (map (fun k => nth k names []) chosen)), types', r) /\
      length types' = length chosen /\ total_rows r = total_rows t /\
      (forall j, j < length chosen -> type_again (nth (nth j chosen 0) types STRING) (nth j types' STRING)) /\
      concat_columns (length chosen) (chunks r) = map (fun k => map (option_map (after_reading again (nth k types STRING))) (column k)) chosen.
Proof.
  intros F ff sf ag pad lanes clmul nt ne spec c names types t idx H1 H2 H3 H4 Hc Hs HL E CN NI column rows HC HN Sp Br.
  destruct (select_kept ff sf ag pad lanes clmul nt ne H3 H4 H1 H2 spec c names types t idx Hc Hs HL E CN NI HC HN Sp Br) as (types' & r & A).
  eexists. exists types', r. exact A.
Qed.
Print Assumptions C115_select_reads_back_partial.

Example C115_select_nonvacuous :
  exists t, read_file toy_ff 16 true 4 false default_options mixed_file = Some ([s2b "text"; s2b "id"; s2b "when"], [STRING; INT32; TIMESTAMP], t) /\
    let types := [STRING; INT32; TIMESTAMP] in
    let column := fun k => nth k (concat_columns 3 (chunks t)) [] in
    let chosen := [0; 2] in
    columns_named true [s2b "text"; s2b "id"; s2b "when"] (listed_columns (s2b "text, 2")) = Some chosen /\
    let rows := text_table (value_text toy_show false) STRING (map (fun k => nth k types STRING) chosen) (map column chosen) (total_rows t) in
    (forall j, j < length chosen -> let k := nth j chosen 0 in
       (forall x, In (Some x) (column k) -> keepable toy_ff toy_show (fun f => f) false (nth k types STRING) x) /\
       seen_enough toy_ff toy_show (nth k types STRING) (column k) (in_sample (map column chosen) j)) /\
    (forall row, In row rows -> spread COMMA DQ (map (written_name COMMA DQ) row)) /\
    (N.of_nat (length (concat (map (output_row COMMA DQ) rows))) < 1048576)%N /\
    select toy_ff toy_show false 16 true 4 false default_options (s2b "text, 2") (Stdin mixed_file) =
      Exit 0 (s2b "text,when" ++ [LF; DQ] ++ s2b "a,b" ++ [DQ] ++ s2b ",2024-02-29T10:20:30" ++ [LF] ++ s2b " plain,1999-12-31T00:00:00" ++ [LF; DQ] ++
              s2b "q" ++ [DQ; DQ] ++ s2b "r" ++ [DQ] ++ s2b "," ++ [LF] ++ s2b "last,2001-01-01T01:01:01" ++ [LF]).
Proof.
  eexists. split; [vm_compute; reflexivity|]. cbv zeta. split; [reflexivity|]. split; [|split; [|split; vm_compute; reflexivity]].
  - assert (D : forall us, (0 <= us < 2000000000000000)%Z -> four_digit_instant false us).
    { intros us Hu. unfold four_digit_instant, instant. rewrite dec_31. change (day_number (first_year false) 1 1) with (-354285)%Z. lia. }
    intros j Hj. destruct j as [|[|j]]; [| |cbn in Hj; lia]; cbn [nth]; (split; [intros x Hx; vm_compute in Hx; cbn [nth keepable storable]|]).
    + repeat (destruct Hx as [Hx|Hx]; [try discriminate Hx; injection Hx as <-; eexists; (split; reflexivity)|]); destruct Hx.
    + exists (s2b " plain"). split; [vm_compute; tauto|reflexivity].
    + repeat (destruct Hx as [Hx|Hx]; [try discriminate Hx; injection Hx as <-; eexists; (split; [reflexivity|apply D; lia])|]); destruct Hx.
    + split; [eexists; vm_compute; left; reflexivity|]. intros [X|X]; discriminate X.
  - intros row Hr. apply quoted_then_plain. vm_compute in Hr. destruct Hr as [<-|[<-|[<-|[<-|[]]]]].
    + exists [s2b "a,b"], [s2b "2024-02-29T10:20:30"]. reflexivity.
    + exists [], [s2b " plain"; s2b "1999-12-31T00:00:00"]. reflexivity.
    + exists [s2b "q" ++ [DQ] ++ s2b "r"], [[]]. reflexivity.
    + exists [], [s2b "last"; s2b "2001-01-01T01:01:01"]. reflexivity.
Qed.

(** A text that denotes null was in quotes; it is printed without them and becomes null. *)
Theorem C115_quoted_null_lost_refuted :
  let ff := fun _ : bytes => @None unit in
  let c := s2b "h,k" ++ [LF] ++ s2b "x,y" ++ [LF; DQ] ++ s2b "NA" ++ [DQ] ++ s2b ",z" ++ [LF] ++ s2b "u,v" ++ [LF] in
  exists t out r,
    read_file ff 16 true 4 false default_options c = Some ([s2b "h"; s2b "k"], [STRING; STRING], t) /\
    nth 1 (nth 0 (concat_columns 2 (chunks t)) []) None = Some (VString (s2b "NA")) /\
    head ff (fun _ => []) false 16 true 4 false default_options 10 (Stdin c) = Exit 0 out /\
    read_file ff 16 true 4 false default_options out = Some ([s2b "h"; s2b "k"], [STRING; STRING], r) /\
    nth 1 (nth 0 (concat_columns 2 (chunks r)) []) None = None.
Proof.
  cbv zeta. eexists. eexists. eexists.
  split; [vm_compute; reflexivity|]. split; [vm_compute; reflexivity|]. split; [vm_compute; reflexivity|]. split; vm_compute; reflexivity.
Qed.
Print Assumptions C115_quoted_null_lost_refuted.

(** Nothing behind a line break is seen of a sampled row: in front of texts with line breaks
    integers come back (as select k,h prints them), behind such texts they come back as texts. *)
Theorem C115_integers_behind_line_breaks_refuted :
  let ff := fun _ : bytes => @None unit in
  let quoted := fun t : bytes => [DQ] ++ t ++ [DQ] in
  let c := s2b "h,k" ++ [LF] ++ s2b "x,1" ++ [LF] ++ s2b "y,2" ++ [LF] ++ quoted (s2b "a" ++ [LF] ++ s2b "b") ++ s2b ",3" ++ [LF] in
  let out := s2b "k,h" ++ [LF] ++ s2b "1,x" ++ [LF] ++ s2b "2,y" ++ [LF] ++ s2b "3," ++ quoted (s2b "a" ++ [LF] ++ s2b "b") ++ [LF] in
  let d := s2b "h,k" ++ [LF] ++ s2b "x,1" ++ [LF] ++ quoted (s2b "a" ++ [LF] ++ s2b "b") ++ s2b ",2" ++ [LF] in
  exists t u r,
    read_file ff 16 true 4 false default_options c = Some ([s2b "h"; s2b "k"], [STRING; INT32], t) /\
    select ff (fun _ => []) false 16 true 4 false default_options (s2b "k,h") (Stdin c) = Exit 0 out /\
    read_file ff 16 true 4 false default_options out = Some ([s2b "k"; s2b "h"], [INT32; STRING], u) /\
    concat_columns 2 (chunks u) = rev (concat_columns 2 (chunks t)) /\
    concat (map (output_row COMMA DQ) ([s2b "h"; s2b "k"] :: text_table (value_text (F := unit) (fun _ => []) false) STRING [STRING; INT32]
      [[Some (VString (s2b "x")); Some (VString (s2b "a" ++ [LF] ++ s2b "b"))]; [Some (VInt 1); Some (VInt 2)]] 2)) = d /\
    read_file ff 16 true 4 false default_options d = Some ([s2b "h"; s2b "k"], [STRING; STRING], r) /\
    concat_columns 2 (chunks r) = [[Some (VString (s2b "x")); Some (VString (s2b "a" ++ [LF] ++ s2b "b"))]; [Some (VString (s2b "1")); Some (VString (s2b "2"))]].
Proof.
  cbv zeta. eexists. eexists. eexists.
  split; [vm_compute; reflexivity|]. split; [vm_compute; reflexivity|]. split; [vm_compute; reflexivity|]. split; [vm_compute; reflexivity|].
  split; [vm_compute; reflexivity|]. split; vm_compute; reflexivity.
Qed.
Print Assumptions C115_integers_behind_line_breaks_refuted.

(** ** C80, the exact texts *)

(** Integers are printed without leading zeros, dates as YYYY-MM-DD and timestamps as
    YYYY-MM-DDTHH:MM:SS, for every year from 0 on. *)
Theorem C80_printed_forms :
  forall (F : Type) (show_float : F -> bytes) (pad : bool) (t : data_type),
    let show := value_text show_float pad in
    (forall z, t <> DATE -> t <> TIMESTAMP -> shortest_numeral (show t (Some (VInt z))) z) /\
    (forall y m d, valid_date y m d -> printed_date pad (show DATE (Some (VInt (day_number y m d)))) y m d) /\
    (forall us y m d s, valid_date y m d -> (0 <= s < 86400)%Z -> whole_second us = ((day_number y m d * 86400 + s) * 1000000)%Z ->
       exists dt tt, show TIMESTAMP (Some (VInt us)) = dt ++ [84%N] ++ tt /\ printed_date pad dt y m d /\ printed_time tt s).
Proof.
  intros F sf pad t. cbv zeta. split; [|split].
  - intros z N1 N2. destruct t; try congruence; apply to_string_shortest.
  - intros y m d V. exact (date_printed pad y m d V).
  - intros us y m d s V Hs E. exact (stamp_printed pad us y m d s V Hs E).
Qed.
Print Assumptions C80_printed_forms.

Example C80_forms_nonvacuous :
  valid_date 12 3 4 /\ printed_date true (s2b "0012-03-04") 12 3 4 /\ shortest_numeral (s2b "-907") (-907) /\ whole_second (-1500000) = ((day_number 1969 12 31 * 86400 + 86399) * 1000000)%Z.
Proof.
  split; [vm_compute; repeat split; discriminate|]. split.
  { exists (s2b "00"), (s2b "12"), (s2b "03"), (s2b "04"). split; [reflexivity|]. split.
    - split; [reflexivity|]. right. exists [], 49%N, (s2b "2"). split; [reflexivity|]. split; [left; reflexivity|]. split; [reflexivity|discriminate].
    - repeat split. }
  split; [|vm_compute; reflexivity]. split; [reflexivity|]. right. exists [45%N], 57%N, (s2b "07").
  split; [reflexivity|]. split; [right; reflexivity|]. split; [reflexivity|discriminate].
Qed.
