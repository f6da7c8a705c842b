(** C88, C89: the Python module. *)
From Verif Require Import Base TypesSpec WordsModel ChunkSpec ChunkModel FieldsSpec FieldsModel ReaderSpec ReaderModel TypesModel ErrorsSpec ErrorsModel
  CliModel StrictSpec StrictModel PySpec PyModel ParquetProof PyProof.
From Verif Require Import PyLifeSpec PyLifeModel PyLifeProof2.

(** ** C88 *)

(** Files whose data is smaller than 1 MiB: the one batch of the stream holds the
    table of the file, and the schema goes with it. *)
Theorem C88_small_files_partial :
  forall (F : Type) (ff : bytes -> option F) lanes clmul num_threads ne_in o m limit content,
  1 <= lanes -> Nat.divide lanes 64 -> quote o <> LF -> quote o <> CR -> quote o <> separator o -> quote o <> 0%N ->
  let body := skipn (if has_header o then spec_find_row_end (quote o) content 0 else 0) content in
  content <> [] -> length body < N.to_nat (1024 * 1024) ->
  Forall (safe_row (separator o) LF (quote o)) (table_rows (separator o) (quote o) body) ->
  forall t, read_csv ff lanes clmul num_threads ne_in o m limit content = Some t ->
  option_map fst (open_file ff lanes clmul o content) = Some (t_names t, t_types t) /\
  map fst (stream_schema t) = t_names t /\ map snd (stream_schema t) = map format_of (t_types t) /\
  exists b, stream_next t false = Some b /\ stream_next t true = None /\ readable b /\
    PySpec.holds b (length (table_rows (separator o) (quote o) body))
            (table_columns (fun k => append_value ff lanes (nth k (t_types t) STRING)) (null_values o) (separator o) (quote o) (length (t_names t)) body).
Proof.
  intros F ff lanes clmul num_threads ne_in o m limit content A1 A2 A3 A4 A5 A6 body H1 H2 H3 t Ht.
  destruct (csv_small ff lanes clmul num_threads ne_in o m limit A1 A2 A3 A4 A5 A6 content H1 H2 H3 t Ht) as (B1 & B2 & B3 & b & B4 & B5 & B6).
  split; [exact B1|]. split; [exact B2|]. split; [exact B3|]. exists b. split; [exact B4|]. split; [reflexivity|]. split; [exact B5|exact B6].
Qed.
Print Assumptions C88_small_files_partial.

(** An exception is thrown exactly where opening stops (for the files above and
    below). *)
Theorem C88_exceptions :
  forall (F : Type) (ff : bytes -> option F) lanes clmul num_threads ne_in o m limit content names types t,
  read_file ff lanes clmul num_threads ne_in o content = Some (names, types, t) ->
  (read_csv ff lanes clmul num_threads ne_in o m limit content = None <->
   has_header o = true /\ header_is_empty names /\ (m = FAIL_FAST \/ m = PERMISSIVE)).
Proof. intros F ff lanes clmul num_threads ne_in o m limit. exact (read_csv_fails ff lanes clmul num_threads ne_in o m limit). Qed.
Print Assumptions C88_exceptions.

(** The announced formats are those of the buffers: 32- and 64-bit integers,
    doubles, UTF-8 texts, days and microseconds; a boolean is a byte. *)
Theorem C88_formats :
  forall t : data_type, arrow_element (format_of t) =
  Some (match t with
        | INT32 => Signed 32 | INT64 => Signed 64 | FLOAT64 => Double | BOOL => Unsigned 8
        | DATE => DaysSince1970 | TIMESTAMP => MicrosecondsSince1970 | STRING | UNKNOWN | NA => Text
        end).
Proof. destruct t; reflexivity. Qed.
Print Assumptions C88_formats.

(** Larger files: the batch has the length of the whole table, but its columns
    stop at the end of the line that holds byte [size] of the data, with [size]
    between 1 and 4 MiB.  Whenever there are rows after it, a consumer that reads
    the batch reads outside the buffers. *)
Theorem C88_large_files_refuted :
  forall (F : Type) (ff : bytes -> option F) lanes clmul num_threads ne_in o m limit content,
  1 <= lanes -> Nat.divide lanes 64 -> quote o <> LF -> quote o <> CR -> quote o <> separator o -> quote o <> 0%N ->
  let first := if has_header o then spec_find_row_end (quote o) content 0 else 0 in
  let body := skipn first content in
  let rows := table_rows (separator o) (quote o) in
  content <> [] -> N.to_nat (1024 * 1024) <= length body ->
  (forall i, line_end_at body i = true -> inside_at false (quote o) body i = false) -> no_lone_cr body ->
  Forall (safe_row (separator o) LF (quote o)) (rows body) ->
  exists size, N.to_nat (1024 * 1024) <= size <= N.to_nat (4 * 1024 * 1024) /\
  let cut := if first + size <? length content then spec_find_row_end (quote o) content (first + size) else length content in
  forall t, read_csv ff lanes clmul num_threads ne_in o m limit content = Some t ->
  exists b, stream_next t false = Some b /\ b_length b = length (rows body) /\
    b_children b = table_columns (fun k => append_value ff lanes (nth k (t_types t) STRING)) (null_values o) (separator o) (quote o)
                     (length (t_names t)) (slice first cut content) /\
    (readable b <-> rows (slice first cut content) = rows body).
Proof.
  intros F ff lanes clmul num_threads ne_in o m limit content A1 A2 A3 A4 A5 A6 first body rows H1 H2 H3 H4 H5.
  exact (csv_large ff lanes clmul num_threads ne_in o m limit A1 A2 A3 A4 A5 A6 content H1 H2 H3 H4 H5).
Qed.
Print Assumptions C88_large_files_refuted.

(** A file of two rows for which this happens, with every number of threads. *)
Theorem C88_two_rows_refuted :
  forall (F : Type) (ff : bytes -> option F) num_threads m limit,
  exists content, table_rows COMMA DQ content = [[s2b "1"]; [s2b "2"]] /\
  exists t b, read_csv ff 16 true num_threads false (mkOptions COMMA DQ false (s2b "NA,null,NULL,") (s2b "true,TRUE,True,yes,YES,Yes") (s2b "false,FALSE,False,no,NO,No") 1000) m limit content = Some t /\
    stream_next t false = Some b /\
    b_length b = 2 /\ b_children b <> [] /\ Forall (fun col => length col = 1) (b_children b) /\ ~ readable b.
Proof. intros F ff nt m limit. eexists. exact (far_unreadable ff nt m limit). Qed.
Print Assumptions C88_two_rows_refuted.

Example C88_nonvacuous :
  let content := s2b "a,b" ++ [LF] ++ s2b "1,x" ++ [LF] ++ s2b "2," ++ [LF] in
  let ff := fun _ : bytes => @None unit in
  (length (skipn (spec_find_row_end DQ content 0) content) <? 1000) = true /\
  exists t, read_csv ff 16 true 1 false default_options FAIL_FAST 10 content = Some t /\
    stream_schema t = [(s2b "a", s2b "i"); (s2b "b", s2b "u")] /\
    stream_next t false = Some (Batch 2 [[Some (VInt 1%Z); Some (VInt 2%Z)]; [Some (VString (s2b "x")); None]]).
Proof. split; [reflexivity|]. eexists. split; [vm_compute; reflexivity|]. split; vm_compute; reflexivity. Qed.

(** ** C89 *)

(** Every legal history that does not read a moved column after everything else
    of its table is gone is free of undefined behaviour and reads what it should;
    a table lives exactly as long as Python, a stream or a batch has it; and when
    every structure has been released no private object is left. *)
Theorem C89_streams_partial :
  forall (A : Type) (ops : list (op A)) w outs, spec_run start ops = Some (w, outs) -> careful start ops ->
  exists mem, run nothing ops = Some (Finished mem outs) /\
    (forall t cols held, nth_error (w_tables w) t = Some (cols, held) ->
       ((exists n, nth_error (m_tables mem) t = Some (S n, Some cols)) /\ kept w t) \/
       (nth_error (m_tables mem) t = Some (0, None) /\ ~ kept w t)) /\
    (Forall (fun hd => hd = HGone) (w_handles w) -> Forall (fun x => x = None) (m_privates mem)).
Proof. intros A. exact (@histories A). Qed.
Print Assumptions C89_streams_partial.

(** The remaining histories are all broken: reading a moved child, which the C
    data interface allows until the child itself is released, is a use after free
    once the batch it was taken from and the other owners are gone. *)
Theorem C89_moved_children_refuted :
  forall (A : Type) (ops : list (op A)) w outs h t k, spec_run start ops = Some (w, outs) -> careful start ops ->
  nth_error (w_handles w) h = Some (HColumn t k) -> ~ kept w t ->
  (exists out, spec_run start (ops ++ [ReadColumn h]) = Some (w, out)) /\
  run nothing (ops ++ [ReadColumn h]) = Some Broken.
Proof.
  intros A ops w outs h t k E Ca Eh NK. split; [|exact (detached ops w outs h t k E Ca Eh NK)].
  destruct (run_ok ops start nothing w outs PyLifeProof.inv_start E Ca) as (m & _ & I).
  pose proof (PyLifeProof.ok_at _ _ _ _ I Eh) as Lt. cbn [PyLifeProof.table_ok] in Lt.
  destruct (nth_error (w_tables w) t) as [[cols held]|] eqn:Et; [|apply nth_error_None in Et; lia].
  exists (outs ++ [nth_error cols k]).
  assert (G : forall l w0 w1 (o1 : list (option (list A))), spec_run w0 l = Some (w1, o1) -> w1 = w -> spec_run w0 (l ++ [ReadColumn h]) = Some (w, o1 ++ [nth_error cols k])).
  { clear - Eh Et. induction l as [|x l IH]; intros w0 w1 o1 E Ew; cbn [app spec_run] in *.
    - injection E as -> <-. subst w1. cbn [spec_step]. rewrite Eh, Et. reflexivity.
    - destruct (spec_step w0 x) as [[w2 out]|]; [|discriminate]. destruct (spec_run w2 l) as [[w3 os]|] eqn:Er; [|discriminate].
      injection E as -> <-. rewrite (IH w2 w1 os Er Ew). reflexivity. }
  exact (G ops start w outs E eq_refl).
Qed.
Print Assumptions C89_moved_children_refuted.

Example C89_nonvacuous :
  let ops := [NewTable [[1; 2]; [3; 4]]; Export 0; Export 0; Next 0; DropTable 0; Release 0; Move 2; ReadChild 3 1; MoveChild 3 0; Next 1; Next 1;
              ReadColumn 4; Release 1; ReadChild 3 1; ReadColumn 4; Release 3; ReadChild 5 0; Release 5] in
  careful start ops /\
  (exists w, spec_run start ops =
     Some (w, [None; None; None; None; None; None; None; Some [3; 4]; None; None; None; Some [1; 2]; None; Some [3; 4]; Some [1; 2]; None; Some [1; 2]; None]) /\
     nth_error (w_handles w) 4 = Some (HColumn 0 0) /\ ~ kept w 0) /\
  run nothing (ops ++ [ReadColumn 4]) = Some Broken /\
  match run nothing (ops ++ [Release 4]) with Some (Finished m _) => m_privates m = [None; None; None; None; None; None; None; None] /\ m_tables m = [(0, None)] | _ => False end.
Proof.
  cbv zeta. split; [|split].
  - cbn. repeat split; try exact I; intros t k E; injection E as <- <-; right; reflexivity.
  - eexists. split; [vm_compute; reflexivity|]. split; [reflexivity|]. intros [(cols & E)|E]; discriminate.
  - vm_compute. repeat split.
Qed.
