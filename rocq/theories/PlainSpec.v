(** Parquet PLAIN values and version 1 data pages of flat columns, as a standard reader decodes
    them (parquet-format: Encodings.md, README.md). *)
From Verif Require Import Base VarintSpec ThriftSpec BuffersSpec RleSpec.

(** Physical types, and one decoded value. *)
Inductive ptype : Type := P_BOOLEAN | P_INT32 | P_INT64 | P_DOUBLE | P_BYTE_ARRAY.
Inductive cell : Type := CBool (b : bool) | CInt (z : Z) | CDouble (bits : N) | CBytes (s : bytes).

Definition signed (w : N) (n : N) : Z := if (n <? 2 ^ (w - 1))%N then Z.of_N n else (Z.of_N n - 2 ^ Z.of_N w)%Z.

(** One value of a type that is not BOOLEAN. *)
Definition read_plain_value (t : ptype) (bs : bytes) : option (cell * bytes) :=
  match t with
  | P_BOOLEAN => None
  | P_INT32 => match take 4 bs with None => None | Some (d, r) => Some (CInt (signed 32 (le_value d)), r) end
  | P_INT64 => match take 8 bs with None => None | Some (d, r) => Some (CInt (signed 64 (le_value d)), r) end
  | P_DOUBLE => match take 8 bs with None => None | Some (d, r) => Some (CDouble (le_value d), r) end
  | P_BYTE_ARRAY => match take 4 bs with
                    | None => None
                    | Some (d, r) => match take (le_value d) r with None => None | Some (s, r') => Some (CBytes s, r') end
                    end
  end.
Fixpoint read_plain_values (t : ptype) (n : nat) (bs : bytes) : option (list cell * bytes) :=
  match n with
  | O => Some ([], bs)
  | S k => match read_plain_value t bs with
           | None => None
           | Some (c, r) => match read_plain_values t k r with None => None | Some (l, r') => Some (c :: l, r') end
           end
  end.
(** [n] values; booleans are packed eight to a byte. *)
Definition read_plain (t : ptype) (n : nat) (bs : bytes) : option (list cell * bytes) :=
  match t with
  | P_BOOLEAN => match take (N.of_nat (bytes_for n)) bs with
                 | None => None
                 | Some (d, r) => Some (map (fun v => CBool (v =? 1)%N) (unpack 1 n d), r)
                 end
  | _ => read_plain_values t n bs
  end.

(** Values go to the valid positions; the others are null. *)
Fixpoint place {A} (valid : list bool) (vs : list A) : option (list (option A)) :=
  match valid, vs with
  | [], [] => Some []
  | false :: f, _ => match place f vs with None => None | Some l => Some (None :: l) end
  | true :: f, v :: r => match place f r with None => None | Some l => Some (Some v :: l) end
  | _, _ => None
  end.
Definition count_valid (valid : list bool) : nat := length (filter (fun b => b) valid).

(** The values of a column whose null pattern is known. *)
Definition read_plain_column (t : ptype) (valid : list bool) (bs : bytes) : option (list (option cell) * bytes) :=
  match read_plain t (count_valid valid) bs with
  | None => None
  | Some (vs, r) => match place valid vs with None => None | Some l => Some (l, r) end
  end.

(** Values of a page whose indices refer to a dictionary: a width byte, then the indices. *)
Definition read_dictionary_values (dict : list cell) (n : nat) (bs : bytes) : option (list cell * bytes) :=
  match n, bs with
  | O, _ => Some ([], bs)
  | _, [] => None
  | _, w :: data =>
      match decode_hybrid w n data with
      | None => None
      | Some (is, r) =>
          let vs := map (fun i => nth_error dict (N.to_nat i)) is in
          if forallb (fun o => match o with Some _ => true | None => false end) vs
          then Some (concat (map (fun o => match o with Some c => [c] | None => [] end) vs), r)
          else None
      end
  end.

(** Encodings of parquet.thrift. *)
Definition PLAIN : Z := 0%Z.
Definition RLE_DICTIONARY : Z := 8%Z.

(** The content of one data page with [n] rows (decompressed): definition levels if the column is
    optional, then the values; nothing may be left over. *)
Definition read_page (t : ptype) (optional : bool) (dict : list cell) (encoding : Z) (n : nat) (bs : bytes)
  : option (list (option cell)) :=
  match (if optional && negb (n =? 0)
         then match decode_levels 1 n bs with
              | None => None
              | Some (ls, r) => Some (map (fun l => (l =? 1)%N) ls, r)
              end
         else Some (repeat true n, bs)) with
  | None => None
  | Some (valid, r) =>
      match (if (encoding =? PLAIN)%Z then read_plain t (count_valid valid) r
             else if (encoding =? RLE_DICTIONARY)%Z then read_dictionary_values dict (count_valid valid) r
             else None) with
      | Some (vs, []) => place valid vs
      | _ => None
      end
  end.

(** A column given as a vector and a vector of null flags (true = null); no flags = no nulls. *)
Definition legacy_rows {V} (values : list V) (null_bitmap : list bool) : list (option V) :=
  match null_bitmap with
  | [] => map Some values
  | _ => map (fun p : V * bool => if snd p then None else Some (fst p)) (combine values null_bitmap)
  end.

(** What a faithful dictionary is. *)
Definition faithful_dictionary {V} (column : list (option V)) (dict : list V) (indices : list Z) : Prop :=
  NoDup dict /\
  length indices = length column /\
  (forall i v, nth_error column i = Some (Some v) ->
     exists k, nth_error indices i = Some (Z.of_nat k) /\ nth_error dict k = Some v) /\
  (forall i, nth_error column i = Some None -> nth_error indices i = Some (-1)%Z) /\
  (* entries are exactly the values of the column, each at its first occurrence, in order *)
  (forall i k, nth_error indices i = Some (Z.of_nat k) ->
     forall k', k' < k -> exists i', i' < i /\ nth_error indices i' = Some (Z.of_nat k')) /\
  (forall k v, nth_error dict k = Some v -> exists i, nth_error column i = Some (Some v) /\ nth_error indices i = Some (Z.of_nat k)).
