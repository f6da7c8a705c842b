(** Model of the lifetime of tables and of the Arrow structures exported from
    them: python/src/bindings.cpp:38-73, 79-83, 147-238, 475-505 and
    include/libvroom/arrow_export.h:15-27, 69-80. *)
From Verif Require Import Base PyLifeSpec.

Section Life.
Context {A : Type}.
Notation column := (list A).

(** An ArrowArrayStream or ArrowArray: whether release is set, and private_data. *)
Record structure := mkStruct { s_release : bool; s_private : nat }.

(** TableStreamPrivate (80-84), StructArrayPrivate (148-154; its child_arrays are
    structures inside it) and ArrowColumnPrivate, whose buffers point into
    column [k] of table [t] but which does not keep it (arrow_export.h:16-19). *)
Inductive private := PStream (t : nat) (batch_returned : bool) | PArray (t : nat) (child_arrays : list structure) | PColumn (t k : nat).

(** Tables: number of shared_ptrs and the columns (None: destroyed).  Private
    objects in the order of creation (None: deleted). *)
Record memory := mkMemory { m_tables : list (nat * option (list column)); m_privates : list (option private); m_structs : list structure }.

(** [Undefined]: use of freed memory or double delete. *)
Inductive result := Ok (m : memory) (out : option column) | Undefined.

Definition set_struct (m : memory) (h : nat) (s : structure) : memory := mkMemory (m_tables m) (m_privates m) (put (m_structs m) h s).
Definition new_struct (m : memory) (s : structure) : memory := mkMemory (m_tables m) (m_privates m) (m_structs m ++ [s]).
Definition set_private (m : memory) (p : nat) (x : option private) : memory := mkMemory (m_tables m) (put (m_privates m) p x) (m_structs m).

(** One more, one fewer shared_ptr; the last one destroys the table. *)
Definition ref (m : memory) (t : nat) : option memory :=
  match nth_error (m_tables m) t with
  | Some (n, Some c) => Some (mkMemory (put (m_tables m) t (S n, Some c)) (m_privates m) (m_structs m))
  | _ => None
  end.
Definition unref (m : memory) (t : nat) : option memory :=
  match nth_error (m_tables m) t with
  | Some (S n, Some c) => Some (mkMemory (put (m_tables m) t (n, if n =? 0 then None else Some c)) (m_privates m) (m_structs m))
  | _ => None
  end.

(** delete of a private object: the destructors of its members drop the table. *)
Definition delete (m : memory) (p : nat) : option memory :=
  match nth_error (m_privates m) p with
  | Some (Some x) =>
      let m1 := set_private m p None in
      match x with
      | PStream t _ | PArray t _ => unref m1 t
      | PColumn _ _ => Some m1
      end
  | _ => None
  end.

(** release_struct_array, 161-164: the children that are not yet released. *)
Fixpoint release_children (m : memory) (l : list structure) : option memory :=
  match l with
  | [] => Some m
  | s :: r => if s_release s then match delete m (s_private s) with None => None | Some m1 => release_children m1 r end
              else release_children m r
  end.

(** The release callbacks: table_stream_release (229-238), release_struct_array
    (157-176), release_arrow_array (arrow_export.h:69-80). *)
Definition release (m : memory) (h : nat) (s : structure) : option memory :=
  match nth_error (m_privates m) (s_private s) with
  | Some (Some x) =>
      match (match x with PArray _ kids => release_children m kids | _ => Some m end) with
      | None => None
      | Some m1 => match delete m1 (s_private s) with
                   | None => None
                   | Some m2 => Some (set_struct m2 h (mkStruct false (s_private s)))
                   end
      end
  | _ => None
  end.

(** The values a structure of column [k] of table [t] gives. *)
Definition read_column (m : memory) (s : structure) : result :=
  match nth_error (m_privates m) (s_private s) with
  | Some (Some (PColumn t k)) =>
      match nth_error (m_tables m) t with
      | Some (_, Some cols) => Ok m (nth_error cols k)
      | _ => Undefined
      end
  | _ => Undefined
  end.

Definition done (x : option memory) : option result := Some (match x with Some m => Ok m None | None => Undefined end).

(** One operation; None where the consumer uses a structure that is released or
    of another kind. *)
Definition step (m : memory) (o : op A) : option result :=
  match o with
  | NewTable cols => done (Some (mkMemory (m_tables m ++ [(1, Some cols)]) (m_privates m) (m_structs m)))  (* make_shared, 325-339 *)
  | DropTable t => done (unref m t)
  | Export t =>                                                                                           (* 479-488 *)
      done (match ref m t with
            | None => None
            | Some m1 => let p := length (m_privates m1) in
                         Some (mkMemory (m_tables m1) (m_privates m1 ++ [Some (PStream t false)]) (m_structs m1 ++ [mkStruct true p]))
            end)
  | Next h =>                                                                                             (* 179-221 *)
      match nth_error (m_structs m) h with
      | Some (mkStruct true p) =>
          match nth_error (m_privates m) p with
          | Some (Some (PStream t true)) => done (Some (new_struct m (mkStruct false 0)))
          | Some (Some (PStream t false)) =>
              match nth_error (m_tables m) t with
              | Some (_, Some cols) =>
                  done (match ref m t with
                        | None => None
                        | Some m1 =>
                            let a := length (m_privates m1) in
                            let kids := map (fun i => mkStruct true (S a + i)) (seq 0 (length cols)) in
                            let m2 := set_private m1 p (Some (PStream t true)) in
                            Some (mkMemory (m_tables m2)
                                    (m_privates m2 ++ Some (PArray t kids) :: map (fun i => Some (PColumn t i)) (seq 0 (length cols)))
                                    (m_structs m2 ++ [mkStruct true a]))
                        end)
              | _ => Some Undefined
              end
          | Some (Some _) => None
          | _ => Some Undefined
          end
      | _ => None
      end
  | Move h =>
      match nth_error (m_structs m) h with
      | Some (mkStruct true p) => done (Some (new_struct (set_struct m h (mkStruct false p)) (mkStruct true p)))
      | _ => None
      end
  | MoveChild h i =>
      match nth_error (m_structs m) h with
      | Some (mkStruct true p) =>
          match nth_error (m_privates m) p with
          | Some (Some (PArray t kids)) =>
              match nth_error kids i with
              | Some (mkStruct true q) =>
                  done (Some (new_struct (set_private m p (Some (PArray t (put kids i (mkStruct false q))))) (mkStruct true q)))
              | _ => None
              end
          | Some (Some _) => None
          | _ => Some Undefined
          end
      | _ => None
      end
  | Release h =>
      match nth_error (m_structs m) h with
      | Some (mkStruct true p) => done (release m h (mkStruct true p))
      | _ => None
      end
  | ReadChild h i =>
      match nth_error (m_structs m) h with
      | Some (mkStruct true p) =>
          match nth_error (m_privates m) p with
          | Some (Some (PArray t kids)) =>
              match nth_error kids i with
              | Some (mkStruct true q) => Some (read_column m (mkStruct true q))
              | _ => None
              end
          | Some (Some _) => None
          | _ => Some Undefined
          end
      | _ => None
      end
  | ReadColumn h =>
      match nth_error (m_structs m) h with
      | Some (mkStruct true p) => Some (read_column m (mkStruct true p))
      | _ => None
      end
  end.

(** A history: the memory afterwards and everything read. *)
Inductive history := Finished (m : memory) (outs : list (option column)) | Broken.
Fixpoint run (m : memory) (ops : list (op A)) : option history :=
  match ops with
  | [] => Some (Finished m [])
  | o :: r => match step m o with
              | None => None
              | Some Undefined => Some Broken
              | Some (Ok m1 out) => match run m1 r with
                                    | Some (Finished m2 outs) => Some (Finished m2 (out :: outs))
                                    | x => x
                                    end
              end
  end.
Definition nothing : memory := mkMemory [] [] [].
End Life.
Arguments memory : clear implicits. Arguments history : clear implicits.
