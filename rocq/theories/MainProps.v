(** C103: the first words of a command line decide what is done. *)
From Verif Require Import Base CliSpec CliModel CliProof5 CliProof6 CliProps CompressSpec MainSpec MainModel MainProof.

(** Every command line: nothing at all, a word asking for help or the version, a viewer, a
    conversion, a file name standing for its conversion, anything else. *)
Theorem C103_first_word :
  main [] = ShowUsage 1 /\
  forall (w : bytes) (r : list bytes),
    (In w help_words -> main (w :: r) = ShowUsage 0) /\
    (In w version_words -> main (w :: r) = ShowVersion) /\
    (In w later_words -> main (w :: r) = Refuse) /\
    (file_like w -> main (w :: r) = main (s2b "convert" :: w :: r)) /\
    (~ In w reserved_words -> ~ file_like w -> main (w :: r) = Refuse).
Proof.
  split; [reflexivity|]. intros w r. split; [exact (main_help w r)|]. split; [exact (main_version w r)|]. split; [exact (main_later w r)|].
  split; [exact (main_file w r)|exact (main_unknown w r)].
Qed.
Print Assumptions C103_first_word.

(** A viewer followed by documented items runs with the settings they describe; select needs
    its columns. *)
Theorem C103_viewer_runs :
  forall (v : viewer) (w : bytes) (items : list item) (ws : list (list bytes)),
    In (v, w) viewers -> Forall2 written items ws -> length (filter is_columns items) <= 1 ->
    (v = Select -> exists c, In (Columns c) items) ->
    exists s, main (w :: concat ws) = View v s /\
      in_path s = first_given (fun i => match i with Input p => Some p | _ => None end) items [] /\
      columns s = last_given (fun i => match i with Columns v => Some v | _ => None end) items [] /\
      rows s = last_given (fun i => match i with Rows n => Some n | _ => None end) items 10%N /\
      delimiter s = last_given (fun i => match i with Delimiter c => Some c | _ => None end) items COMMA /\
      quoting s = last_given (fun i => match i with Quote c => Some c | _ => None end) items DQ /\
      header s = negb (given (fun i => match i with NoHeader => true | _ => false end) items).
Proof. exact viewer_runs. Qed.
Print Assumptions C103_viewer_runs.

(** A conversion of one input, with an output and a documented compression, runs with them. *)
Theorem C103_convert_runs :
  forall (items : list citem) (ws : list (list bytes)) (p : bytes) (before after : list citem) (k : codec),
    items = before ++ CInput p :: after -> Forall (fun i => match i with CInput _ => False | _ => True end) (before ++ after) ->
    Forall2 cwritten items ws ->
    last_citem (fun i => match i with COutput x => Some x | _ => None end) items [] <> [] ->
    In (last_citem (fun i => match i with CCompression x => Some x | _ => None end) items (s2b "zstd"), k) compression_names ->
    exists c, main (s2b "convert" :: concat ws) = ConvertFile c k /\ in_path (common c) = p /\
      out_path c = last_citem (fun i => match i with COutput x => Some x | _ => None end) items [] /\
      row_group c = last_citem (fun i => match i with CRowGroup x => Some x | _ => None end) items 1000000%N /\
      delimiter (common c) = last_citem (fun i => match i with CDelimiter x => Some x | _ => None end) items COMMA /\
      quoting (common c) = last_citem (fun i => match i with CQuote x => Some x | _ => None end) items DQ /\
      header (common c) = negb (cgiven (fun i => match i with CNoHeader => true | _ => false end) items).
Proof. exact convert_runs. Qed.
Print Assumptions C103_convert_runs.

(** Nothing is run unless it was asked for, and a conversion has an input, an output and the
    documented method of that name.  An input cannot be called convert nor begin with a minus
    sign; in particular the standard input cannot be converted. *)
Theorem C103_runs_only_when_asked :
  forall args : list bytes,
    (forall v s, main args = View v s -> exists w r, args = w :: r /\ In (v, w) viewers /\ (v = Select -> columns s <> [])) /\
    (forall c k, main args = ConvertFile c k ->
       (exists w r, args = w :: r /\ (w = s2b "convert" \/ file_like w)) /\
       in_path (common c) <> [] /\ in_path (common c) <> s2b "convert" /\ hd 0%N (in_path (common c)) <> 45%N /\
       out_path c <> [] /\ In (compression c, k) compression_names).
Proof. exact runs_only_when_asked. Qed.
Print Assumptions C103_runs_only_when_asked.

(** If nothing is run, the exit code is 0 exactly when the usage or the version was asked for. *)
Theorem C103_exit_codes :
  forall args : list bytes,
    (exit_code (main args) = Some 0 <-> (main args = ShowVersion \/ main args = ShowUsage 0)) /\
    (forall n, exit_code (main args) = Some n -> n <= 1) /\
    (main args = ShowVersion <-> exists w r, args = w :: r /\ In w version_words).
Proof. exact exit_codes. Qed.
Print Assumptions C103_exit_codes.

(** A file without a dot in its name is not understood, and a file called like a command is
    never taken for a file; announced commands fail. *)
Theorem C103_file_names_refuted :
  main (map s2b ["data"; "-o"; "out"]%string) = Refuse /\
  main (map s2b ["convert"; "convert"; "-o"; "out"]%string) = Refuse /\
  (forall r, main (s2b "tail" :: r) = Refuse) /\
  main (map s2b ["convert"; "-"; "-o"; "out"]%string) = Refuse /\
  (exists c, main (map s2b ["./convert"; "-o"; "out"]%string) = ConvertFile c C_ZSTD /\ in_path (common c) = s2b "./convert").
Proof.
  split; [reflexivity|]. split; [reflexivity|]. split; [reflexivity|]. split; [reflexivity|]. eexists. split; reflexivity.
Qed.
Print Assumptions C103_file_names_refuted.

Example C103_nonvacuous :
  file_like (s2b "data.csv") /\ ~ file_like (s2b "count") /\ ~ file_like (s2b "-x.csv") /\
  main (map s2b ["data.csv"; "-o"; "out"; "-c"; "lz4"]%string) =
    ConvertFile (mkConversion (set_path (s2b "data.csv") defaults) (s2b "out") (s2b "lz4") 1000000) C_LZ4 /\
  main (map s2b ["select"; "a.csv"]%string) = Refuse /\ main (map s2b ["head"; "-n"; "x"]%string) = Throw /\
  main (map s2b ["head"; "a.csv"; "-h"]%string) = ShowUsage 0 /\
  main (map s2b ["convert"; "a.csv"; "-o"; "o"; "-c"; "brotli"]%string) = Refuse.
Proof.
  split; [split; [vm_compute; intuition discriminate|split; [discriminate|vm_compute; tauto]]|].
  split; [intros (H & _); apply H; vm_compute; tauto|]. split; [intros (_ & H & _); apply H; reflexivity|].
  repeat split; reflexivity.
Qed.
Print Assumptions C103_nonvacuous.
