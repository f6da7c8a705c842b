(** C100, C101: writing a table down and reading it. *)
From Verif Require Import Base ChunkSpec FieldsSpec ReaderSpec TypesSpec RoundSpec ReaderModel TypesModel TypesProof TypesProof3 RoundProof3 RoundProof4 RoundProof5 SeenSpec RoundProof6.

(** C100.  A header line and the rows, cells quoted or plain, LF or CRLF, blank lines
    between rows or not, last line ended or not: names, number of rows and cells come
    back, for every number of threads.  Missing: rows in which a plain cell stands less
    than 63 bytes before a separator or line feed inside a quoted cell (refuted below),
    and files of 1 MiB and more whose cells hold line breaks (C09). *)
Theorem C100_reads_back_partial :
  forall {F : Type} (ff : bytes -> option F) (lanes : nat) (clmul : bool) (num_threads : N) (ne : bool) (o : csv_options)
         (header : list written) (e : ending) (ls : list line),
    1 <= lanes -> Nat.divide lanes 64 -> has_header o = true ->
    let sep := separator o in let q := quote o in
    q <> sep -> q <> LF -> q <> CR -> q <> 0%N -> sep <> LF -> sep <> CR -> ~ In q (null_values o) ->
    header <> [] -> Forall (well_written sep q) header -> proper sep q ls ->
    Forall (fun l => spread sep q (fst l)) ls ->
    Forall (fun l => unbroken (fst l)) ls \/ (N.of_nat (length (csv_text sep q ls)) < 1048576)%N ->
    exists types r,
      TypesModel.read_file ff lanes clmul num_threads ne o (line_text sep q (header, [e]) ++ csv_text sep q ls)
        = Some (map column_name header, types, r) /\
      length types = length header /\ total_rows r = length ls /\
      concat_columns (length header) (chunks r) =
        columns_meant (fun k => append_value ff lanes (nth k types STRING)) (null_values o) (length header) (map fst ls).
Proof.
  intros F ff lanes clmul nt ne o hc e ls L1 L2 HH sep q A B C D E G H NE W P S0 U.
  destruct (file_reads ff lanes clmul nt ne o hc e ls L1 L2 HH A B C D E G H NE W P S0 U) as (ts & r & R1 & R2 & _ & R3 & R4).
  exists ts, r. auto.
Qed.
Print Assumptions C100_reads_back_partial.

(** Rows without plain cells, rows whose quoted cells hold neither separators nor line feeds,
    and rows whose quoted cells come first are of that kind. *)
Theorem C100_usual_rows :
  forall (sep q : byte),
    (forall cells, all_quoted cells -> spread sep q cells) /\ 
    (forall cells, tame sep cells -> spread sep q cells) /\ 
    (forall quoted plain, spread sep q (map Quoted quoted ++ map Plain plain)).
Proof.
  intros sep q. split; [exact (all_quoted_spread sep q)|]. split; [exact (tame_spread sep q)|exact (quoted_first_spread sep q)].
Qed.
Print Assumptions C100_usual_rows.

(** A column of texts (an all-null sample is one): every cell is the text written, or null. *)
Theorem C100_text_column :
  forall {F : Type} (ff : bytes -> option F) (lanes : nat) (types : list data_type) (nulls : bytes) (rows : list (list written)) (ncols k : nat),
    k < ncols -> In (nth k types STRING) [STRING; NA; UNKNOWN] ->
    nth k (columns_meant (fun k => append_value ff lanes (nth k types STRING)) nulls ncols rows) [] =
    map (fun cells => match nth_error cells k with
                      | Some c => option_map VString (meaning nulls c)
                      | None => None
                      end) rows.
Proof.
  intros F ff lanes types nulls rows ncols k H E. unfold columns_meant.
  rewrite (nth_indep _ [] (map (fun cells => cell_value (fun k => append_value ff lanes (nth k types STRING)) nulls cells 0) rows))
    by (rewrite map_length, seq_length; exact H).
  rewrite (map_nth (fun k0 => map (fun cells => cell_value (fun k => append_value ff lanes (nth k types STRING)) nulls cells k0) rows)).
  rewrite seq_nth by exact H. apply map_ext. intros cells. unfold cell_value. cbn [Nat.add].
  destruct (nth_error cells k) as [c|]; [|reflexivity]. destruct (meaning nulls c); [|reflexivity]. destruct E as [<-|[<-|[<-|[]]]]; reflexivity.
Qed.
Print Assumptions C100_text_column.

Ltac now_proper := cbn; repeat split; try discriminate; try (intros X; exfalso; apply X; reflexivity); repeat constructor; try discriminate.
Definition no_float : bytes -> option N := fun _ => None.
Definition reading (data : bytes) := TypesModel.read_file no_float 16 true 4 false default_options data.
Definition shown (x : option (list bytes * list data_type * @read_result (@value N))) (n : nat) :=
  match x with Some (names, types, r) => Some (names, types, total_rows r, concat_columns n (chunks r)) | None => None end.

(** A row may not mix a plain cell with a quoted one that holds a separator. *)
Theorem C100_mixed_row_refuted :
  exists (header : list written) (ls : list line),
    header <> [] /\ Forall (well_written COMMA DQ) header /\ proper COMMA DQ ls /\ Forall (fun l => unbroken (fst l)) ls /\
    exists types r, reading (line_text COMMA DQ (header, [EndLF]) ++ csv_text COMMA DQ ls) = Some (map column_name header, types, r) /\
      concat_columns (length header) (chunks r) <>
      columns_meant (fun k => append_value no_float 16 (nth k types STRING)) (null_values default_options) (length header) (map fst ls).
Proof.
  exists [Plain (s2b "a"); Plain (s2b "b")],
    [([Plain (s2b "x"); Quoted (s2b "u,v")], [EndLF]); ([Plain (s2b "y"); Plain (repeat 98%N 70)], [EndLF])].
  split; [discriminate|]. split; [repeat constructor; discriminate|].
  split. { now_proper. }
  split. { repeat constructor; intros H; cbn in H; repeat (destruct H as [H|H]; try discriminate); contradiction. }
  eexists. eexists. split; [vm_compute; reflexivity|]. vm_compute. discriminate.
Qed.
Print Assumptions C100_mixed_row_refuted.

(** 63 bytes is the right distance: at 62 a row is still misread. *)
Definition far_row (n : nat) : list line :=
  [([Plain []; Quoted (repeat 98%N n); Quoted [COMMA]], [EndLF]); ([Plain (s2b "y"); Plain (repeat 98%N 70)], [EndLF])].
Definition far_header : list written := [Plain (s2b "a"); Plain (s2b "b"); Plain (s2b "c")].
Definition far_read (n : nat) : option (option bool) :=
  option_map (fun x => match nth 0 (nth 2 (concat_columns 3 (chunks (snd x))) []) None with Some (VString t) => Some (bytes_eqb t [COMMA]) | _ => None end)
    (reading (line_text COMMA DQ (far_header, [EndLF]) ++ csv_text COMMA DQ (far_row n))).
Theorem C100_distance_refuted :
  Forall (fun l => spread COMMA DQ (fst l)) (far_row 59) /\ far_read 59 = Some (Some true) /\ far_read 58 = Some (Some false).
Proof.
  split; [|split; vm_compute; reflexivity].
  constructor; [|constructor; [apply tame_spread; repeat constructor; intros []|constructor]].
  intros pre v mid a c b post E D. cbn [fst far_row] in E.
  destruct pre as [|x pre].
  - destruct mid as [|y mid].
    + exfalso. assert (X : In c (a ++ c :: b)) by (apply in_or_app; right; left; reflexivity).
      injection E as _ E _. rewrite <- E in X. change (In c (repeat 98%N 59)) in X.
      apply repeat_spec in X. destruct D; subst; discriminate.
    + injection E as <- <- E. destruct mid as [|z mid]; [|destruct mid; discriminate E].
      cbn [map concat]. rewrite !app_length. cbn [cell_bytes length]. vm_compute (length (quote_value _ _)). lia.
  - exfalso. destruct pre as [|y [|z [|]]]; discriminate E.
Qed.
Print Assumptions C100_distance_refuted.

Definition sample_header : list written := [Plain (s2b " id "); Quoted (s2b "a,b" ++ [LF])].
Definition sample_rows_ : list line :=
  [([Quoted (s2b "1"); Quoted (s2b "say " ++ [DQ] ++ s2b "hi" ++ [DQ; COMMA; LF])], [EndCRLF; EndLF]);
   ([Plain (s2b "2"); Plain []], [EndLF]); ([Plain (s2b "NA"); Quoted []], [EndLF]); ([Quoted (s2b "4"); Quoted (s2b "Doe, Jo")], [EndLF]);
   ([Quoted (s2b "5,"); Plain (s2b "z")], [])].
Example C100_nonvacuous :
  Forall (well_written COMMA DQ) sample_header /\ proper COMMA DQ sample_rows_ /\
  Forall (fun l => spread COMMA DQ (fst l)) sample_rows_ /\
  (N.of_nat (length (csv_text COMMA DQ sample_rows_)) < 1048576)%N /\
  shown (reading (line_text COMMA DQ (sample_header, [EndCRLF]) ++ csv_text COMMA DQ sample_rows_)) 2 =
  Some ([s2b "id"; s2b "a,b" ++ [LF]], [STRING; STRING], 5,
        [[Some (VString (s2b "1")); Some (VString (s2b "2")); None; Some (VString (s2b "4")); Some (VString (s2b "5,"))];
         [Some (VString (s2b "say " ++ [DQ] ++ s2b "hi" ++ [DQ; COMMA; LF])); None; Some (VString []);
          Some (VString (s2b "Doe, Jo")); Some (VString (s2b "z"))]]).
Proof.
  split; [repeat constructor; discriminate|]. split; [now_proper|].
  split. { constructor; [apply all_quoted_spread; repeat constructor; eexists; reflexivity|]. constructor; [apply tame_spread; repeat constructor; intros []|].
           constructor; [apply tame_spread; repeat constructor; intros []|].
           constructor; [exact (quoted_first_spread COMMA DQ [s2b "4"; s2b "Doe, Jo"] [])|].
           constructor; [exact (quoted_first_spread COMMA DQ [s2b "5,"] [s2b "z"])|constructor]. }
  split; vm_compute; reflexivity.
Qed.

(** C101.  LF or CRLF, and a final newline or none, make no difference at all (for files with
    line breaks in cells: if the rows take less than 1 MiB, see C09). *)
Theorem C101_line_endings :
  forall {F : Type} (ff : bytes -> option F) (lanes : nat) (clmul : bool) (num_threads num_threads' : N) (ne ne' : bool) (o : csv_options)
         (header : list written) (e e' : ending) (ls ls' : list line),
    1 <= lanes -> Nat.divide lanes 64 -> has_header o = true ->
    let sep := separator o in let q := quote o in
    q <> sep -> q <> LF -> q <> CR -> q <> 0%N -> sep <> LF -> sep <> CR -> ~ In q (null_values o) ->
    header <> [] -> Forall (well_written sep q) header ->
    map fst ls = map fst ls' -> proper sep q ls -> proper sep q ls' -> one_ending ls -> one_ending ls' ->
    Forall (fun l => spread sep q (fst l)) ls ->
    Forall (fun l => unbroken (fst l)) ls \/
      (N.of_nat (length (csv_text sep q ls)) < 1048576)%N /\ (N.of_nat (length (csv_text sep q ls')) < 1048576)%N ->
    exists names types r r',
      TypesModel.read_file ff lanes clmul num_threads ne o (line_text sep q (header, [e]) ++ csv_text sep q ls) = Some (names, types, r) /\
      TypesModel.read_file ff lanes clmul num_threads' ne' o (line_text sep q (header, [e']) ++ csv_text sep q ls') = Some (names, types, r') /\
      total_rows r = total_rows r' /\
      concat_columns (length names) (chunks r) = concat_columns (length names) (chunks r').
Proof.
  intros F ff lanes clmul nt nt' ne ne' o hc e e' ls ls' L1 L2 HH sep q A B C D E G H NE W EQ P P' O O' S0 U.
  assert (U1 : Forall (fun l => unbroken (fst l)) ls \/ (N.of_nat (length (csv_text sep q ls)) < 1048576)%N) by tauto.
  assert (U' : Forall (fun l => unbroken (fst l)) ls' \/ (N.of_nat (length (csv_text sep q ls')) < 1048576)%N).
  { destruct U as [U|U]; [left; apply Forall_map; rewrite <- EQ; apply Forall_map in U; exact U|right; apply U]. }
  assert (S' : Forall (fun l => spread sep q (fst l)) ls')
    by (apply (Forall_map fst (fun c => spread sep q c)); rewrite <- EQ; apply (Forall_map fst (fun c => spread sep q c)); exact S0).
  destruct (file_reads ff lanes clmul nt ne o hc e ls L1 L2 HH A B C D E G H NE W P S0 U1) as (ts & r & R1 & _ & I1 & R2 & R3).
  destruct (file_reads ff lanes clmul nt' ne' o hc e' ls' L1 L2 HH A B C D E G H NE W P' S' U') as (ts' & r' & R1' & _ & I1' & R2' & R3').
  fold sep q in I1, I1'. rewrite (types_seen ff lanes clmul o _ _ ls ls' L1 L2 A B C E G P O P' O' EQ) in I1. fold sep q in I1.
  rewrite I1' in I1. injection I1 as <-.
  exists (map column_name hc), ts', r, r'. split; [exact R1|]. split; [exact R1'|]. split.
  - rewrite R2, R2'. apply (f_equal (@length _)) in EQ. rewrite !map_length in EQ. exact EQ.
  - rewrite map_length, R3, R3', EQ. reflexivity.
Qed.
Print Assumptions C101_line_endings.

(** Blank lines as well: the same names, the same number of rows, and the same cells
    unless a column type is inferred differently. *)
Theorem C101_blank_lines_partial :
  forall {F : Type} (ff : bytes -> option F) (lanes : nat) (clmul : bool) (num_threads num_threads' : N) (ne ne' : bool) (o : csv_options)
         (header : list written) (e e' : ending) (ls ls' : list line),
    1 <= lanes -> Nat.divide lanes 64 -> has_header o = true ->
    let sep := separator o in let q := quote o in
    q <> sep -> q <> LF -> q <> CR -> q <> 0%N -> sep <> LF -> sep <> CR -> ~ In q (null_values o) ->
    header <> [] -> Forall (well_written sep q) header ->
    map fst ls = map fst ls' -> proper sep q ls -> proper sep q ls' ->
    Forall (fun l => spread sep q (fst l)) ls ->
    Forall (fun l => unbroken (fst l)) ls \/
      (N.of_nat (length (csv_text sep q ls)) < 1048576)%N /\ (N.of_nat (length (csv_text sep q ls')) < 1048576)%N ->
    exists names types types' r r',
      TypesModel.read_file ff lanes clmul num_threads ne o (line_text sep q (header, [e]) ++ csv_text sep q ls) = Some (names, types, r) /\
      TypesModel.read_file ff lanes clmul num_threads' ne' o (line_text sep q (header, [e']) ++ csv_text sep q ls') = Some (names, types', r') /\
      total_rows r = total_rows r' /\
      (types = types' -> concat_columns (length names) (chunks r) = concat_columns (length names) (chunks r')).
Proof.
  intros F ff lanes clmul nt nt' ne ne' o hc e e' ls ls' L1 L2 HH sep q A B C D E G H NE W EQ P P' S0 U.
  assert (U1 : Forall (fun l => unbroken (fst l)) ls \/ (N.of_nat (length (csv_text sep q ls)) < 1048576)%N) by tauto.
  assert (U' : Forall (fun l => unbroken (fst l)) ls' \/ (N.of_nat (length (csv_text sep q ls')) < 1048576)%N).
  { destruct U as [U|U]; [left; apply Forall_map; rewrite <- EQ; apply Forall_map in U; exact U|right; apply U]. }
  assert (S' : Forall (fun l => spread sep q (fst l)) ls')
    by (apply (Forall_map fst (fun c => spread sep q c)); rewrite <- EQ; apply (Forall_map fst (fun c => spread sep q c)); exact S0).
  destruct (file_reads ff lanes clmul nt ne o hc e ls L1 L2 HH A B C D E G H NE W P S0 U1) as (ts & r & R1 & _ & I1 & R2 & R3).
  destruct (file_reads ff lanes clmul nt' ne' o hc e' ls' L1 L2 HH A B C D E G H NE W P' S' U') as (ts' & r' & R1' & _ & I1' & R2' & R3').
  exists (map column_name hc), ts, ts', r, r'. split; [exact R1|]. split; [exact R1'|]. split.
  - rewrite R2, R2'. apply (f_equal (@length _)) in EQ. rewrite !map_length in EQ. exact EQ.
  - intros <-. rewrite map_length, R3, R3', EQ. reflexivity.
Qed.
Print Assumptions C101_blank_lines_partial.

(** A blank line between the rows can change a column's type and turn a cell into null. *)
Theorem C101_blank_line_refuted :
  exists (header : list written) (ls ls' : list line),
    map fst ls = map fst ls' /\ proper COMMA DQ ls /\ proper COMMA DQ ls' /\ Forall (fun l => unbroken (fst l)) ls /\
    shown (reading (line_text COMMA DQ (header, [EndLF]) ++ csv_text COMMA DQ ls)) 1
      = Some ([s2b "a"], [INT32], 3, [[None; Some (VInt 1); Some (VInt 2)]]) /\
    shown (reading (line_text COMMA DQ (header, [EndLF]) ++ [LF] ++ csv_text COMMA DQ ls')) 1
      = Some ([s2b "a"], [STRING], 3, [[Some (VString (s2b "x")); Some (VString (s2b "1")); Some (VString (s2b "2"))]]).
Proof.
  exists [Plain (s2b "a")],
    [([Plain (s2b "x")], [EndLF]); ([Plain (s2b "1")], [EndLF]); ([Plain (s2b "2")], [EndLF])],
    [([Plain (s2b "x")], [EndLF]); ([Plain (s2b "1")], [EndLF]); ([Plain (s2b "2")], [EndLF])].
  split; [reflexivity|]. split; [now_proper|].
  split; [now_proper|].
  split. { repeat constructor; intros H; cbn in H; repeat (destruct H as [H|H]; try discriminate); contradiction. }
  split; vm_compute; reflexivity.
Qed.
Print Assumptions C101_blank_line_refuted.

(** C100, the types.  Each column gets the narrowest type of what is seen of its cells in the
    sampled rows (not the first one, C58): a cell up to its first line break, and nothing of the cells
    after such a cell.  The type of one text, [infer_field], is described in C19. *)
Theorem C100_types_of_written_partial :
  forall {F : Type} (ff : bytes -> option F) (lanes : nat) (clmul : bool) (num_threads : N) (ne : bool) (o : csv_options)
         (header : list written) (e : ending) (ls : list line),
    1 <= lanes -> Nat.divide lanes 64 -> has_header o = true ->
    let sep := separator o in let q := quote o in
    q <> sep -> q <> LF -> q <> CR -> q <> 0%N -> sep <> LF -> sep <> CR -> ~ In q (null_values o) ->
    header <> [] -> Forall (well_written sep q) header -> proper sep q ls ->
    Forall (fun l => spread sep q (fst l)) ls ->
    Forall (fun l => unbroken (fst l)) ls \/ (N.of_nat (length (csv_text sep q ls)) < 1048576)%N ->
    ls <> [] -> one_ending ls ->
    let sampled := map (fun cells => map column_name (seen cells)) (firstn (sample_rows o) (skipn 1 (map fst ls))) in
    exists types r,
      TypesModel.read_file ff lanes clmul num_threads ne o (line_text sep q (header, [e]) ++ csv_text sep q ls)
        = Some (map column_name header, types, r) /\
      length types = length header /\
      forall k, k < length header ->
        let cells := cells_of k sampled in
        (cells = [] -> nth k types STRING = STRING) /\
        (cells <> [] -> narrowest (map (infer_field ff o) cells) (nth k types STRING)).
Proof.
  intros F ff lanes clmul nt ne o hc e ls L1 L2 HH sep q A B C D E G H NE W P S0 U NL O.
  destruct (types_of_written ff lanes clmul nt ne o hc e ls L1 L2 HH A B C D E G H NE W P S0 U NL O) as (r & R).
  eexists. exists r. split; [exact R|]. split; [rewrite map_length, seq_length; reflexivity|]. intros k Hk. cbv zeta.
  unfold header_lines. rewrite HH.
  match goal with |- context [nth k (map ?f (seq 0 ?n)) STRING] => assert (X : nth k (map f (seq 0 n)) STRING = f k) end.
  { rewrite (nth_indep _ STRING (column_type ff o (cells_of 0 (map (fun cells => map column_name (seen cells)) (firstn (sample_rows o) (skipn 1 (map fst ls)))))))
      by (rewrite map_length, seq_length; exact Hk).
    rewrite (map_nth (fun k0 => column_type ff o (cells_of k0 (map (fun cells => map column_name (seen cells)) (firstn (sample_rows o) (skipn 1 (map fst ls))))))).
    rewrite seq_nth by exact Hk. reflexivity. }
  rewrite X. exact (column_type_narrowest ff o _).
Qed.
Print Assumptions C100_types_of_written_partial.

Example C100_types_nonvacuous :
  let ls := [([Plain (s2b "u"); Plain (s2b "1")], [EndLF]); ([Quoted (s2b "7" ++ [LF] ++ s2b "x"); Plain (s2b "y")], [EndLF]); ([Plain (s2b "-8"); Plain (s2b "2.5")], [])] in
  proper COMMA DQ ls /\ one_ending ls /\ Forall (fun l => spread COMMA DQ (fst l)) ls /\ (N.of_nat (length (csv_text COMMA DQ ls)) < 1048576)%N /\
  let sampled := map (fun cells => map column_name (seen cells)) (firstn 1000 (skipn 1 (map fst ls))) in
  sampled = [[s2b "7"]; [s2b "-8"; s2b "2.5"]] /\
  cells_of 0 sampled = [s2b "7"; s2b "-8"] /\ cells_of 1 sampled = [s2b "2.5"].
Proof.
  cbv zeta. split; [now_proper|]. split; [cbn; split; [eexists; reflexivity|split; [eexists; reflexivity|right; split; reflexivity]]|].
  split. { constructor; [exact (quoted_first_spread COMMA DQ [] [s2b "u"; s2b "1"])|].
           constructor; [exact (quoted_first_spread COMMA DQ [s2b "7" ++ [LF] ++ s2b "x"] [s2b "y"])|].
           constructor; [exact (quoted_first_spread COMMA DQ [] [s2b "-8"; s2b "2.5"])|constructor]. }
  split; [reflexivity|]. split; [|split]; vm_compute; reflexivity.
Qed.

(** With line breaks in cells. *)
Example C101_breaks_nonvacuous :
  let a := [([Quoted (s2b "x" ++ [LF] ++ s2b "y"); Plain (s2b "1")], [EndLF]); ([Quoted [CR; LF]; Plain (s2b "2")], [EndLF])] in
  let b := [([Quoted (s2b "x" ++ [LF] ++ s2b "y"); Plain (s2b "1")], [EndCRLF]); ([Quoted [CR; LF]; Plain (s2b "2")], [])] in
  map fst a = map fst b /\ proper COMMA DQ a /\ proper COMMA DQ b /\ one_ending a /\ one_ending b /\
  Forall (fun l => spread COMMA DQ (fst l)) a /\
  (N.of_nat (length (csv_text COMMA DQ a)) < 1048576)%N /\ (N.of_nat (length (csv_text COMMA DQ b)) < 1048576)%N /\
  csv_text COMMA DQ a <> csv_text COMMA DQ b /\
  shown (reading (s2b "n,t" ++ [LF] ++ csv_text COMMA DQ a)) 2 = shown (reading (s2b "n,t" ++ [CR; LF] ++ csv_text COMMA DQ b)) 2.
Proof.
  cbv zeta. split; [reflexivity|]. split; [now_proper|].
  split; [now_proper|].
  split; [split; [eexists; reflexivity|left; eexists; reflexivity]|].
  split; [split; [eexists; reflexivity|right; split; reflexivity]|].
  split. { constructor; [exact (quoted_first_spread COMMA DQ [s2b "x" ++ [LF] ++ s2b "y"] [s2b "1"])|].
           constructor; [exact (quoted_first_spread COMMA DQ [[CR; LF]] [s2b "2"])|constructor]. }
  split; [reflexivity|]. split; [reflexivity|]. split; [discriminate|]. vm_compute. reflexivity.
Qed.

Example C101_nonvacuous :
  let a := [([Plain (s2b "1"); Quoted (s2b "x")], [EndLF]); ([Plain (s2b "2"); Plain (s2b "y")], [EndLF])] in
  let b := [([Plain (s2b "1"); Quoted (s2b "x")], [EndCRLF]); ([Plain (s2b "2"); Plain (s2b "y")], [])] in
  map fst a = map fst b /\ proper COMMA DQ a /\ proper COMMA DQ b /\ one_ending a /\ one_ending b /\
  Forall (fun l => spread COMMA DQ (fst l)) a /\ Forall (fun l => unbroken (fst l)) a /\
  csv_text COMMA DQ a <> csv_text COMMA DQ b /\
  shown (reading (s2b "n,t" ++ [LF] ++ csv_text COMMA DQ a)) 2 = shown (reading (s2b "n,t" ++ [CR; LF] ++ csv_text COMMA DQ b)) 2.
Proof.
  cbv zeta. split; [reflexivity|]. split; [now_proper|].
  split; [now_proper|].
  split; [split; [eexists; reflexivity|left; eexists; reflexivity]|].
  split; [split; [eexists; reflexivity|right; split; reflexivity]|].
  split. { constructor; [apply tame_spread|constructor; [apply tame_spread|constructor]]; repeat constructor; intros H; cbn in H; repeat (destruct H as [H|H]; try discriminate); contradiction. }
  split. { repeat constructor; intros H; cbn in H; repeat (destruct H as [H|H]; try discriminate); contradiction. }
  split; [discriminate|]. vm_compute. reflexivity.
Qed.
