(** The program as a whole: main, the settings of the reader (src/cli.cpp 561-569, 632-640,
    732-740, 855-863, 991-999), the choice of the input (94-96, 575-586 and the like), and the
    viewers.  A conversion is only named here; ConvertModel and StrictModel are about it. *)
From Verif Require Import Base ReaderModel TypesSpec TypesModel ErrorsSpec ErrorsModel CliModel ShowModel StrictModel MainSpec MainModel ProgramSpec.

Definition csv_of (s : settings) : csv_options :=
  mkOptions (delimiter s) (quoting s) (header s)
            (null_values default_options) (true_values default_options) (false_values default_options) (sample_rows default_options).
Definition mode_of (m : CliModel.mode) : ErrorsSpec.mode :=
  match m with Disabled => DISABLED | FailFast => FAIL_FAST | Collecting => PERMISSIVE end.

(** input_path.empty() || isStdinInput(...), 94-96 and 575. *)
Definition is_stdin (p : bytes) : bool := match p with [] => true | _ => is p "-" || is p "/dev/stdin" end.
Definition input_of (w : world) (s : settings) : input :=
  if is_stdin (in_path s) then Stdin (standard_input w) else File (in_path s) (file_at w (in_path s)).
Definition content_of (i : input) : bytes := match i with Stdin c => c | File _ (inr c) => c | File _ (inl _) => [] end.

(** Failed: exit code 1, with or without the usage text. *)
Inductive run := Done (r : outcome) | Failed | Converting (c : conversion) (k : CompressSpec.codec) | Aborted.

Section Program.
Context {F : Type}.
Variable ff : bytes -> option F.
Variable show_float : F -> bytes.
(** [hw]: std::thread::hardware_concurrency(), or 4 if that is 0. *)
Variables (pad : bool) (lanes : nat) (clmul : bool) (hw : N) (ne : bool).
(** The texts of print_usage and of the version are not modelled. *)
Variables (usage version : bytes).

(** open fails on a header it does not accept (csv_reader.cpp 311-319); the message does not
    contain the words Empty file. *)
Definition refuses (s : settings) (i : input) : bool :=
  match content_of i with
  | [] => false
  | c => match snd (open_checked ff lanes clmul (csv_of s) (mode_of (error_mode s)) (N.to_nat (max_errors s)) c) with
         | None => true
         | Some _ => false
         end
  end.

(** 567-569 and the like with csv_reader.cpp 267-276. *)
Definition threads_used (s : settings) : N := if (threads s =? 0)%N then hw else threads s.

(** The five viewers.  Once opened, what is read does not depend on the error handling
    (StrictModel.read_checked, C85), so the commands of CliModel are used. *)
Definition run_viewer (v : viewer) (w : world) (s : settings) : outcome :=
  let i := input_of w s in
  let o := csv_of s in
  if refuses s i then Exit 1 []
  else match v with
       | Count => count ff lanes clmul (threads_used s) ne o i
       | Head => head ff show_float pad lanes clmul (threads_used s) ne o (N.to_nat (rows s)) i
       | Select => select ff show_float pad lanes clmul (threads_used s) ne o (columns s) i
       | Pretty => pretty ff show_float pad lanes clmul (threads_used s) ne o (N.to_nat (rows s)) i
       | Info => info ff lanes clmul (threads_used s) ne o (Some (N.of_nat (length (content_of i)))) i
       end.

(** The file does not change while the program runs. *)
Definition program (w : world) (args : list bytes) : run :=
  match main args with
  | ShowUsage n => Done (Exit n usage)
  | ShowVersion => Done (Exit 0 version)
  | Refuse => Failed
  | Throw => Aborted
  | View v s => Done (run_viewer v w s)
  | ConvertFile c k => Converting c k
  end.
End Program.
