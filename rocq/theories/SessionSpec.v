(** Calls of a Parquet writer in the order in which they are meant to be made, and misuse. *)
From Verif Require Import Base TypesSpec MetaSpec ParquetModel QueueSpec QueueModel PipelineModel SessionModel.

(** Is the file open after these calls? *)
Definition file_open (calls : list wop) : bool :=
  fold_left (fun opened o => match o with WOpen ok _ => opened || ok | WClose => false | _ => opened end) calls false.
(** A pipeline was started after [before] and not finished in [since]. *)
Definition started (before since : list wop) : Prop := file_open before = true /\ ~ In WFinish since.
Definition running (calls : list wop) : Prop := exists before since, calls = before ++ WStart :: since /\ started before since.
(** ... and row groups were handed over. *)
Definition handed_over (calls : list wop) : Prop :=
  exists before since columns, calls = before ++ WStart :: since /\ started before since /\ columns <> [] /\ In (WSubmit columns) since.
(** The call does something to the file itself, given the calls before. *)
Definition touches_file (before : list wop) (o : wop) : Prop :=
  match o with
  | WOpen _ _ => True
  | WWrite columns => columns <> [] /\ file_open before = true
  | WClose => file_open before = true
  | _ => False
  end.
Definition misused (calls : list wop) : Prop :=
  running calls \/
  exists before o after, calls = before ++ o :: after /\
    ((o = WStart /\ file_open before = true /\ running before) \/ (touches_file before o /\ handed_over before)).

(** Orderly use, and the same with write in place of the pipeline.  The flag: is the file open? *)
Inductive inside : list wop -> list pop -> Prop :=
| inside_nil : inside [] []
| inside_schema s body plain : inside body plain -> inside (WSetSchema s :: body) (PSetSchema s :: plain)
| inside_submit columns body plain : inside body plain -> inside (WSubmit columns :: body) (PWrite columns :: plain).
Inductive orderly : bool -> list wop -> list pop -> Prop :=
| orderly_nil b : orderly b [] []
| orderly_open b ok cap calls plain : orderly (b || ok) calls plain -> orderly b (WOpen ok cap :: calls) (POpen ok cap :: plain)
| orderly_schema b s calls plain : orderly b calls plain -> orderly b (WSetSchema s :: calls) (PSetSchema s :: plain)
| orderly_write b columns calls plain : orderly b calls plain -> orderly b (WWrite columns :: calls) (PWrite columns :: plain)
| orderly_close b calls plain : orderly false calls plain -> orderly b (WClose :: calls) (PClose :: plain)
| orderly_pipeline body plain calls plain' : inside body plain -> orderly true calls plain' ->
    orderly true (WStart :: body ++ WFinish :: calls) (plain ++ plain').

(** Every pipeline runs to its end, with any interleaving. *)
Definition fair (traces : nat -> list (Z * list encoded_column) -> list (label (Z * list encoded_column))) : Prop :=
  forall k groups, exists s, run pipeline_capacity (pipeline groups) (traces k groups) s /\ finished s.
(** What the calls report, given what they report without the pipeline: starting and finishing succeed. *)
Fixpoint reported (calls : list wop) (oks : list bool) : list bool :=
  match calls with
  | [] => []
  | WStart :: r | WFinish :: r => true :: reported r oks
  | _ :: r => match oks with [] => [] | ok :: t => ok :: reported r t end
  end.
