(** main and what precedes the work of the commands: src/cli.cpp 1140-1218, 442-487, and the
    argument handling at the start of each command. *)
From Verif Require Import Base ReaderModel CliSpec CliModel CompressSpec MainSpec.

(** What happens before any input is read: usage or version text and an exit code, a refusal
    with exit code 1, an uncaught exception (std::stoul), or a command with its settings. *)
Inductive action :=
| ShowUsage (code : nat) | ShowVersion | Refuse | Throw
| View (v : viewer) (s : settings) | ConvertFile (c : conversion) (k : codec).

(** Lines 548-559, 620-631, 719-730, 836-852, 984-989: parseCommonOptions from the second word
    on; -h in it leaves with exit(0) (345-347); select wants -c (849-852). *)
Definition start_viewer (v : viewer) (args : list bytes) : action :=
  match parse_args args defaults with
  | Missing => Refuse
  | Help => ShowUsage 0
  | ParseThrows => Throw
  | Parsed s | Stopped s _ =>
      match v with
      | Select => match columns s with [] => Refuse | _ => View Select s end
      | _ => View v s
      end
  end.

(** Lines 474-487. *)
Definition codec_of (name : bytes) : option codec :=
  if is name "zstd" then Some C_ZSTD
  else if is name "snappy" then Some C_SNAPPY
  else if is name "lz4" then Some C_LZ4
  else if is name "gzip" then Some C_GZIP
  else if is name "none" then Some C_NONE
  else None.

(** cmd_convert up to the call of convert_csv_to_parquet, 365-487; it walks over all words,
    the command name included. *)
Definition start_convert (args : list bytes) : action :=
  match convert_args args convert_defaults with
  | CRefused => Refuse
  | CHelp => ShowUsage 0
  | CThrows => Throw
  | CParsed c =>
      match in_path (common c), out_path c with
      | [], _ => Refuse
      | _, [] => Refuse
      | _, _ => match codec_of (compression c) with None => Refuse | Some k => ConvertFile c k end
      end
  end.

(** main, 1159-1218; [args] without the name of the program. *)
Definition main (args : list bytes) : action :=
  match args with
  | [] => ShowUsage 1
  | cmd :: rest =>
      if is cmd "help" || is cmd "--help" || is cmd "-h" then ShowUsage 0
      else if is cmd "version" || is cmd "--version" || is cmd "-V" then ShowVersion
      else if is cmd "convert" then start_convert args
      else if is cmd "count" then start_viewer Count rest
      else if is cmd "head" then start_viewer Head rest
      else if is cmd "info" then start_viewer Info rest
      else if is cmd "select" then start_viewer Select rest
      else if is cmd "pretty" then start_viewer Pretty rest
      else if is cmd "tail" then Refuse
      else if is cmd "sample" then Refuse
      else if negb (N.eqb (first_char cmd) 45) && existsb (N.eqb 46) cmd then start_convert args
      else Refuse
  end.

(** The exit code when nothing is run; None: a command runs, or the program is aborted. *)
Definition exit_code (a : action) : option nat :=
  match a with ShowUsage n => Some n | ShowVersion => Some 0 | Refuse => Some 1 | _ => None end.
