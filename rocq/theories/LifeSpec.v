(** Histories of one CsvReader, without reference to the code. *)
From Verif Require Import Base MmapModel.

(** The calls a user can make: open a path (with what the system answers), or
    open a buffer. *)
Inductive use := Path (a : answer) | Buffer (b : bytes).

(** The bytes a call hands to the reader; none if the file cannot be opened. *)
Definition handed (u : use) : option bytes :=
  match u with
  | Buffer b => Some b
  | Path (Works _ _ c) => Some c
  | Path (NoMap _ 0) => Some []
  | Path _ => None
  end.

(** The call cannot open its file. *)
Definition cannot_open (u : use) : Prop := handed u = None.

(** The last call opened a file that is not empty. *)
Definition EndsMapped (us : list use) : Prop :=
  exists us1 d a c, us = us1 ++ [Path (Works d a c)] /\ c <> [].

(** A file that is not empty was opened, and since then there were one or more
    calls that could not open their file, and no other calls. *)
Definition Dangling (us : list use) : Prop :=
  exists us1 us2, us = us1 ++ us2 /\ EndsMapped us1 /\ us2 <> [] /\ Forall cannot_open us2.
