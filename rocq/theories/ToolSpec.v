(** What a command line of convert asks for. *)
From Verif Require Import Base ReaderModel TypesSpec TypesModel CliSpec CliModel MetaSpec BuffersModel ParquetModel.

(** The options for reading; everything not settable on the command line has its default. *)
Definition reading_options (items : list citem) : csv_options :=
  mkOptions (last_citem (fun i => match i with CDelimiter c => Some c | _ => None end) items COMMA)
            (last_citem (fun i => match i with CQuote c => Some c | _ => None end) items DQ)
            (negb (cgiven (fun i => match i with CNoHeader => true | _ => false end) items))
            (null_values default_options) (true_values default_options) (false_values default_options) (sample_rows default_options).
(** None asked for, or 0, means as many threads as the machine has. *)
Definition reading_threads (hw : N) (items : list citem) : N :=
  let n := last_citem (fun i => match i with CThreads n => Some n | _ => None end) items 0%N in if (n =? 0)%N then hw else n.
Definition output_asked (items : list citem) : bytes := last_citem (fun i => match i with COutput p => Some p | _ => None end) items [].
Definition compression_asked (items : list citem) : bytes :=
  last_citem (fun i => match i with CCompression p => Some p | _ => None end) items (s2b "zstd").
(** Errors are looked for; of --strict and --permissive the last one counts. *)
Definition errors_wanted (items : list citem) : Prop :=
  exists i, In i items /\ (i = CStrict \/ i = CPermissive \/ exists n, i = CMaxErrors n).
Definition strict_wanted (items : list citem) : Prop :=
  exists before after, items = before ++ CStrict :: after /\ ~ In CStrict after /\ ~ In CPermissive after.
Definition errors_kept (items : list citem) : N := last_citem (fun i => match i with CMaxErrors n => Some n | _ => None end) items 10000%N.
(** One input file, among other items. *)
Definition one_input (p : bytes) (items : list citem) : Prop :=
  exists before after, items = before ++ CInput p :: after /\ Forall (fun i => match i with CInput _ => False | _ => True end) (before ++ after).
(** The codec each documented name of -c stands for. *)
Definition codecs_by_name : list (bytes * ParquetModel.compression) :=
  [(s2b "zstd", ZSTD); (s2b "snappy", SNAPPY); (s2b "lz4", LZ4); (s2b "gzip", GZIP); (s2b "none", NONE)].
