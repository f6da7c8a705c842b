(** Specification of what is taken for a date with a time (C72) and of what
    skipping comment lines leaves (C45). *)
From Verif Require Import Base DialectSpec.
Local Open Scope list_scope.

(** What follows the separator: after removing one final Z at least five bytes
    are left, and there is no plus sign among the first five of them, unless
    the very first byte is one. *)
Definition FiveBytes (rest : bytes) : Prop :=
  exists u, (rest = u ++ [90%N] \/ (rest = u /\ forall v, rest <> v ++ [90%N])) /\
    5 <= length u /\ (hd_error u = Some 43%N \/ ~ In 43%N (firstn 5 u)).

(** A date, possibly white space, a separator (a T, or the first space when
    there is no T anywhere) and then five bytes of anything. *)
Definition LooksLikeDateTime (t : bytes) : Prop :=
  exists d w sep rest, t = d ++ w ++ sep :: rest /\ DateText d /\ Forall White w /\
    (sep = 84%N \/ (sep = 32%N /\ ~ In 32%N w /\ ~ In 84%N rest)) /\
    FiveBytes rest.

(** The first of the marks that is not NUL, NUL if there is none. *)
Definition FirstMark (ms : list byte) : byte :=
  hd 0%N (filter (fun c => negb (c =? 0)%N) ms).
