(** Model of AlignedBuffer (include/libvroom/io_util.h:36-129) and of the two
    loading functions (src/io_util.cpp). *)
From Verif Require Import Base AlignedSpec.

(** 126-128; a pointer is the number of an allocated block. *)
Record buffer := mkBuffer { b_data : option nat; b_size : N; b_capacity : N }.
Definition empty_buffer : buffer := mkBuffer None 0 0.

(** Blocks in the order of allocation (None: given back), the numbers given
    back to free() in order, and the objects (None: destroyed). *)
Record memory := mkMemory { blocks : list (option (list cell)); freed : list nat; objects : list (option buffer) }.

(** [Undefined]: undefined behaviour. *)
Inductive result := Done (m : memory) | Undefined.

(** free_data, 113-124: the object is empty afterwards in any case. *)
Definition free_data (b : buffer) (m : memory) : result :=
  match b_data b with
  | None => Done m
  | Some p => match nth_error (blocks m) p with
              | Some (Some _) => Done (mkMemory (replace (blocks m) p None) (freed m ++ [p]) (objects m))
              | _ => Undefined
              end
  end.

(** memset / memcpy / read of [l] at [at_] in a block: None if it runs over the
    end. *)
Definition store (block : list cell) (at_ : nat) (l : list cell) : option (list cell) :=
  if at_ + length l <=? length block
  then Some (firstn at_ block ++ l ++ skipn (at_ + length l) block)
  else None.

Inductive allocation := Threw | Got (m : memory) (b : buffer) | Broke.

(** allocate, 86-110; size_t arithmetic wraps around. *)
Definition allocate (size padding : N) (enough : bool) (m : memory) : allocation :=
  let capacity := ((size + padding) mod 2 ^ 64)%N in
  if negb enough then Threw
  else
    let p := length (blocks m) in
    let fresh := repeat None (N.to_nat capacity) in
    let filled := if (0 <? padding)%N then store fresh (N.to_nat size) (repeat (Some 0%N) (N.to_nat padding))
                  else Some fresh in
    match filled with
    | None => Broke
    | Some block => Got (mkMemory (blocks m ++ [Some block]) (freed m) (objects m)) (mkBuffer (Some p) size capacity)
    end.

(** Write the bytes read at the front of the block of [b]. *)
Definition fill (m : memory) (b : buffer) (l : bytes) : option memory :=
  match b_data b with
  | None => match l with [] => Some m | _ => None end
  | Some p => match nth_error (blocks m) p with
              | Some (Some block) =>
                  match store block 0 (map Some l) with
                  | Some block' => Some (mkMemory (replace (blocks m) p (Some block')) (freed m) (objects m))
                  | None => None
                  end
              | _ => None
              end
  end.

Definition add_object (m : memory) (b : buffer) : memory := mkMemory (blocks m) (freed m) (objects m ++ [Some b]).
Definition set_object (m : memory) (h : nat) (b : option buffer) : memory :=
  mkMemory (blocks m) (freed m) (replace (objects m) h b).

(** load_file_to_ptr, io_util.cpp:16-39.  An exception leaves no object behind;
    the local buffer is destroyed when it is thrown. *)
Definition load_file (a : file_answer) (padding : N) (enough : bool) (m : memory) : result :=
  match a with
  | NoOpen | NoSize => Done m
  | Sized n got =>
      match allocate n padding enough m with
      | Threw => Done m
      | Broke => Undefined
      | Got m1 b =>
          if (0 <? n)%N then
            match fill m1 b got with
            | None => Undefined
            | Some m2 => if (N.of_nat (length got) <? n)%N then free_data b m2 else Done (add_object m2 b)
            end
          else Done (add_object m1 b)
      end
  end.

(** read_stdin_to_ptr, 41-57.  Inserting std::cin.rdbuf() ends at the end of
    file and at a read error alike and does not touch the state of std::cin, so
    the test in line 47 is never true. *)
Definition load_stdin (s : stream) (padding : N) (enough : bool) (m : memory) : result :=
  let content := delivered s in
  match allocate (N.of_nat (length content)) padding enough m with
  | Threw => Done m
  | Broke => Undefined
  | Got m1 b => match fill m1 b content with
                | None => Undefined
                | Some m2 => Done (add_object m2 b)
                end
  end.

(** One operation; None if it uses an object that does not exist. *)
Definition bstep (m : memory) (o : bop) : option result :=
  match o with
  | Make => Some (Done (add_object m empty_buffer))                      (* 38 *)
  | Allocate size padding enough =>
      Some (match allocate size padding enough m with
            | Threw => Done m | Broke => Undefined | Got m1 b => Done (add_object m1 b) end)
  | LoadFile a padding enough => Some (load_file a padding enough m)
  | LoadStdin s padding enough => Some (load_stdin s padding enough m)
  | MoveNew k =>                                                          (* 41-46 *)
      match nth_error (objects m) k with
      | Some (Some b) => Some (Done (add_object (set_object m k (Some empty_buffer)) b))
      | _ => None
      end
  | MoveTo h k =>                                                         (* 49-60 *)
      match nth_error (objects m) h, nth_error (objects m) k with
      | Some (Some a), Some (Some b) =>
          if h =? k then Some (Done m)
          else Some (match free_data a m with
                     | Undefined => Undefined
                     | Done m1 => Done (set_object (set_object m1 h (Some b)) k (Some empty_buffer))
                     end)
      | _, _ => None
      end
  | Drop h =>                                                             (* 66 *)
      match nth_error (objects m) h with
      | Some (Some b) => Some (match free_data b m with
                               | Undefined => Undefined
                               | Done m1 => Done (set_object m1 h None)
                               end)
      | _ => None
      end
  end.
Fixpoint brun (m : memory) (ops : list bop) : option result :=
  match ops with
  | [] => Some (Done m)
  | o :: r => match bstep m o with
              | None => None
              | Some Undefined => Some Undefined
              | Some (Done m') => brun m' r
              end
  end.
Definition fresh_memory : memory := mkMemory [] [] [].

(** What the accessors data(), size() and capacity() (69-83) show of an object. *)
Definition shown (m : memory) (b : buffer) : option holding :=
  match b_data b with
  | None => if (b_size b =? 0)%N && (b_capacity b =? 0)%N then Some Nothing else None
  | Some p => match nth_error (blocks m) p with
              | Some (Some block) =>
                  if (N.of_nat (length block) =? b_capacity b)%N && (b_size b <=? b_capacity b)%N
                  then Some (Holds (firstn (N.to_nat (b_size b)) block) (skipn (N.to_nat (b_size b)) block))
                  else None
              | _ => None
              end
  end.
