(** What a user of the Python module expects of a table, without reference to
    the code. *)
From Verif Require Import Base.

(** What a consumer of the Arrow stream is given: a struct array of a length,
    and one child array per column. *)
Record batch {A : Type} := Batch { b_length : nat; b_children : list (list A) }.
Arguments batch : clear implicits. Arguments Batch {A}. Arguments b_length {A}. Arguments b_children {A}.

(** The rule of the Arrow C data interface: every child is at least as long as
    the struct array; else reading a row reads outside the buffers. *)
Definition readable {A} (b : batch A) : Prop := Forall (fun col => b_length b <= length col) (b_children b).

(** A batch holds exactly the given columns. *)
Definition holds {A} (b : batch A) (rows : nat) (columns : list (list A)) : Prop :=
  b_length b = rows /\ b_children b = columns /\ Forall (fun col => length col = rows) columns.

(** Format strings of the Arrow C data interface (only those a table can have),
    and what an element of such an array is. *)
Inductive element := Signed (bits : nat) | Unsigned (bits : nat) | Bit | Double | Text | DaysSince1970 | MicrosecondsSince1970.
Definition arrow_element (f : bytes) : option element :=
  let is (s : string) := if list_eq_dec N.eq_dec f (s2b s) then true else false in
  if is "b"%string then Some Bit
  else if is "c"%string then Some (Signed 8) else if is "C"%string then Some (Unsigned 8)
  else if is "i"%string then Some (Signed 32) else if is "I"%string then Some (Unsigned 32)
  else if is "l"%string then Some (Signed 64) else if is "L"%string then Some (Unsigned 64)
  else if is "g"%string then Some Double else if is "u"%string then Some Text
  else if is "tdD"%string then Some DaysSince1970 else if is "tsu:"%string then Some MicrosecondsSince1970
  else None.
