(** What a consumer of the Arrow C stream interface may do with a table of the
    Python module and what it must see, without reference to the code. *)
From Verif Require Import Base.

Section Life.
Context {A : Type}.
Notation column := (list A).

(** Tables and Arrow structures are numbered in the order they come into being.
    [Release h]: the release callback of structure [h], which is not yet
    released.  [Move]: the structure is copied and the original marked released,
    as the C data interface prescribes; [MoveChild h i] does the same to child
    [i] of array [h]. *)
Inductive op :=
| NewTable (columns : list column)   (* read_csv *)
| DropTable (t : nat)                (* Python forgets the table *)
| Export (t : nat)                   (* __arrow_c_stream__ *)
| Next (h : nat)                     (* get_next of a stream *)
| Move (h : nat)
| MoveChild (h i : nat)
| Release (h : nat)
| ReadChild (h i : nat)              (* read child [i] of array [h] *)
| ReadColumn (h : nat).              (* read a moved child *)

(** What a structure stands for: a stream over a table that has given its batch
    or not, a batch with the children it still has, one column, or nothing. *)
Inductive handle := HStream (t : nat) (given : bool) | HArray (t : nat) (attached : list bool) | HColumn (t k : nat) | HGone.

(** [held]: Python still has the table. *)
Record world := World { w_tables : list (list column * bool); w_handles : list handle }.

Definition put {B} (l : list B) (i : nat) (x : B) : list B := firstn i l ++ x :: skipn (S i) l.

(** Some (state, what is read); None: the consumer breaks the rules. *)
Definition spec_step (w : world) (o : op) : option (world * option column) :=
  match o with
  | NewTable cols => Some (World (w_tables w ++ [(cols, true)]) (w_handles w), None)
  | DropTable t => match nth_error (w_tables w) t with
                   | Some (cols, true) => Some (World (put (w_tables w) t (cols, false)) (w_handles w), None)
                   | _ => None
                   end
  | Export t => match nth_error (w_tables w) t with
                | Some (_, true) => Some (World (w_tables w) (w_handles w ++ [HStream t false]), None)
                | _ => None
                end
  | Next h => match nth_error (w_handles w) h with
              | Some (HStream t false) =>
                  match nth_error (w_tables w) t with
                  | Some (cols, _) => Some (World (w_tables w) (put (w_handles w) h (HStream t true) ++ [HArray t (map (fun _ => true) cols)]), None)
                  | None => None
                  end
              | Some (HStream t true) => Some (World (w_tables w) (w_handles w ++ [HGone]), None)
              | _ => None
              end
  | Move h => match nth_error (w_handles w) h with
              | Some HGone | None => None
              | Some x => Some (World (w_tables w) (put (w_handles w) h HGone ++ [x]), None)
              end
  | MoveChild h i => match nth_error (w_handles w) h with
                     | Some (HArray t att) =>
                         match nth_error att i with
                         | Some true => Some (World (w_tables w) (put (w_handles w) h (HArray t (put att i false)) ++ [HColumn t i]), None)
                         | _ => None
                         end
                     | _ => None
                     end
  | Release h => match nth_error (w_handles w) h with
                 | Some HGone | None => None
                 | Some _ => Some (World (w_tables w) (put (w_handles w) h HGone), None)
                 end
  | ReadChild h i => match nth_error (w_handles w) h with
                     | Some (HArray t att) =>
                         match nth_error att i, nth_error (w_tables w) t with
                         | Some true, Some (cols, _) => Some (w, nth_error cols i)
                         | _, _ => None
                         end
                     | _ => None
                     end
  | ReadColumn h => match nth_error (w_handles w) h with
                    | Some (HColumn t k) =>
                        match nth_error (w_tables w) t with
                        | Some (cols, _) => Some (w, nth_error cols k)
                        | None => None
                        end
                    | _ => None
                    end
  end.

(** A legal history and everything read in its course. *)
Fixpoint spec_run (w : world) (ops : list op) : option (world * list (option column)) :=
  match ops with
  | [] => Some (w, [])
  | o :: r => match spec_step w o with
              | None => None
              | Some (w', out) => match spec_run w' r with
                                  | None => None
                                  | Some (w'', outs) => Some (w'', out :: outs)
                                  end
              end
  end.
Definition start : world := World [] [].

(** Something other than moved columns still keeps table [t]: Python, a stream
    or a batch. *)
Definition uses (t : nat) (h : handle) : bool :=
  match h with HStream t' _ => t =? t' | HArray t' _ => t =? t' | _ => false end.
Definition kept (w : world) (t : nat) : Prop :=
  (exists cols, nth_error (w_tables w) t = Some (cols, true)) \/ existsb (uses t) (w_handles w) = true.

(** The history never reads a moved column after everything else of its table is
    gone. *)
Fixpoint careful (w : world) (ops : list op) : Prop :=
  match ops with
  | [] => True
  | o :: r => match o with
              | ReadColumn h => forall t k, nth_error (w_handles w) h = Some (HColumn t k) -> kept w t
              | _ => True
              end /\
              match spec_step w o with Some (w', _) => careful w' r | None => True end
  end.
End Life.
Arguments op : clear implicits. Arguments world : clear implicits.
