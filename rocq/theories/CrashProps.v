(** C107: conversions that do not end, and disks that are full. *)
From Verif Require Import Base ReaderModel TypesSpec TypesModel WordsModel MetaSpec BuffersModel PlainSpec ParquetSpec ParquetModel ParquetProps QueueSpec QueueModel PipelineModel ConvertModel ConvertProps CrashSpec CrashModel CrashProof.

(** Wherever a conversion dies, under whatever schedule of its threads, it leaves a beginning of
    the one file that it writes when it does not. *)
Theorem C107_left_is_a_beginning :
  forall library below options trace ff lanes clmul num_threads ne o data r file (m : moment) handed left,
    convert library below options trace ff lanes clmul num_threads ne o data true true None = Some r ->
    cv_error r = None -> ps_closed (cv_writer r) = [file] ->
    let input := queue_input library below options ff lanes clmul num_threads ne o data in
    (forall encoded, input = Some encoded -> exists s, run pipeline_capacity (pipeline encoded) trace s /\ finished s) ->
    match m with
    | AtOpen => True
    | Writing steps => forall encoded, input = Some encoded -> exists s, run pipeline_capacity (pipeline encoded) steps s
    | AtClose steps => forall encoded, input = Some encoded -> exists s, run pipeline_capacity (pipeline encoded) steps s /\ finished s
    end ->
    at_death library below options ff lanes clmul num_threads ne o data m = Some handed -> beginning_of left handed ->
    beginning_of left file.
Proof.
  intros library below options trace ff lanes clmul nt ne o data r file m handed left HC HE HF input HT HM HL HB.
  exact (beginning_trans _ _ _ HB (left_is_beginning library below options ff lanes clmul nt ne o data trace r file m handed HC HE HF HT HM HL)).
Qed.
Print Assumptions C107_left_is_a_beginning.

(** If the mark PAR1 stands nowhere inside the file, no reader takes a proper beginning of it for
    a file.  Missing: files with the mark inside, for which it is false (below). *)
Theorem C107_interrupted_unreadable_partial :
  forall decompress (file left : bytes), beginning_of left file -> left <> file -> ~ mark_inside file -> ParquetSpec.read_file decompress left = None.
Proof. exact cut_unreadable. Qed.
Print Assumptions C107_interrupted_unreadable_partial.

(** On a disk with room for k bytes the conversion reports success and leaves the first k bytes of
    the right file. *)
Theorem C107_full_disk_cuts :
  forall library below options trace ff lanes clmul num_threads ne o data r file k,
    convert library below options trace ff lanes clmul num_threads ne o data true true None = Some r ->
    cv_error r = None -> ps_closed (cv_writer r) = [file] ->
    exists r', convert library below options trace ff lanes clmul num_threads ne o data true true (Some k) = Some r' /\
      cv_error r' = None /\ cv_rows r' = cv_rows r /\ ps_closed (cv_writer r') = [firstn k file].
Proof.
  intros library below options trace ff lanes clmul nt ne o data r file k.
  exact (little_room library below options ff lanes clmul nt ne o data trace r file k).
Qed.
Print Assumptions C107_full_disk_cuts.

(** A text whose only cell is the footer of an empty table, with its length and the mark.  Cut
    behind that cell, by a crash or a full disk, the file reads as a table without rows. *)
Definition marked_csv : bytes :=
  s2b "a" ++ [LF; DQ] ++
  [21; 2; 25; 44; 72; 6; 115; 99; 104; 101; 109; 97; 21; 2; 0; 21; 12; 37; 2; 24; 1; 97; 37; 0; 0; 22; 0; 25; 12; 0; 30; 0; 0; 0; 80; 65; 82; 49]%N ++ [DQ; LF].
Definition converting_marked (capacity : option nat) : option conversion :=
  convert no_library (fun _ _ => true) (Options NONE false) [] (fun _ => None) 16 true 4 false default_options marked_csv true true capacity.
Theorem C107_marked_cell_refuted : exists r file cell r' left,
  converting_marked None = Some r /\ cv_error r = None /\ ps_closed (cv_writer r) = [file] /\
  ParquetSpec.read_file no_decompress file = Some (Table [Leaf (s2b "a") P_BYTE_ARRAY true (Some 0%Z)] [[[Some (CBytes cell)]]]) /\
  converting_marked (Some 69) = Some r' /\ cv_error r' = None /\ ps_closed (cv_writer r') = [left] /\
  beginning_of left file /\ length left < length file /\
  ParquetSpec.read_file no_decompress left = Some (Table [Leaf (s2b "a") P_BYTE_ARRAY true (Some 0%Z)] []) /\
  (exists handed, at_death no_library (fun _ _ => true) (Options NONE false) (fun _ => None) 16 true 4 false default_options marked_csv (Writing []) = Some handed /\
     beginning_of left handed).
Proof.
  eexists. eexists. eexists. eexists. eexists.
  split; [vm_compute; reflexivity|]. split; [reflexivity|]. split; [reflexivity|]. split; [vm_compute; reflexivity|].
  split; [vm_compute; reflexivity|]. split; [reflexivity|]. split; [reflexivity|].
  split; [eexists; reflexivity|]. split; [vm_compute; lia|]. split; [vm_compute; reflexivity|].
  eexists. split; [vm_compute; reflexivity|]. eexists. cbn [app]. reflexivity.
Qed.
Print Assumptions C107_marked_cell_refuted.

(** A file of the kind the partial theorem is about, and a conversion that dies. *)
Definition marks (file : bytes) : list nat := filter (fun i => if list_eq_dec N.eq_dec (firstn 4 (skipn i file)) mark then true else false) (seq 0 (length file)).
Lemma marks_inside file : mark_inside file -> exists i, In i (marks file) /\ 0 < i /\ i + 4 < length file.
Proof.
  intros (a & b & -> & A & B). exists (length a). assert (0 < length a /\ 0 < length b) by (destruct a, b; cbn; split; try congruence; lia).
  rewrite !app_length. cbn [length mark]. split; [|lia]. unfold marks. apply filter_In. split; [apply in_seq; rewrite !app_length; cbn [length mark]; lia|].
  rewrite skipn_app, skipn_all, Nat.sub_diag. cbn [skipn app]. change (firstn 4 (mark ++ b)) with mark. destruct (list_eq_dec N.eq_dec mark mark); [reflexivity|congruence].
Qed.
Example C107_nonvacuous : exists r file handed,
  convert no_library (fun _ _ => true) (Options NONE false) [] (fun _ => None) 16 true 4 false small_options small_csv true true None = Some r /\
  cv_error r = None /\ ps_closed (cv_writer r) = [file] /\
  queue_input no_library (fun _ _ => true) (Options NONE false) (fun _ => None) 16 true 4 false small_options small_csv = None /\
  at_death no_library (fun _ _ => true) (Options NONE false) (fun _ => None) 16 true 4 false small_options small_csv (Writing []) = Some handed /\
  handed <> file /\ 20 < length handed /\ ~ mark_inside file.
Proof.
  eexists. eexists. eexists. split; [vm_compute; reflexivity|]. split; [reflexivity|]. split; [reflexivity|]. split; [vm_compute; reflexivity|].
  split; [vm_compute; reflexivity|]. split; [discriminate|]. split; [vm_compute; lia|].
  intros H. apply marks_inside in H. destruct H as (i & H & B). vm_compute in H. cbn [length] in B. destruct H as [H|[H|H]]; [lia|lia|exact H].
Qed.
Print Assumptions C107_nonvacuous.
