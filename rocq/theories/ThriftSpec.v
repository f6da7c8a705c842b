(** The Thrift compact protocol as a standard reader understands it
    (thrift-compact-protocol.md), for the types Parquet metadata uses. *)
From Verif Require Import Base VarintSpec.

Inductive ttype : Type := TBool | TI16 | TI32 | TI64 | TDouble | TBinary | TList | TStruct.

Inductive value : Type :=
| VBool (b : bool)
| VI16 (z : Z) | VI32 (z : Z) | VI64 (z : Z)
| VDouble (bits : N)                       (* the 64 bits of the double *)
| VBinary (s : bytes)
| VList (elem : ttype) (l : list value)
| VStruct (fields : list (Z * value)).

Definition type_of (v : value) : ttype :=
  match v with
  | VBool _ => TBool | VI16 _ => TI16 | VI32 _ => TI32 | VI64 _ => TI64 | VDouble _ => TDouble
  | VBinary _ => TBinary | VList _ _ => TList | VStruct _ => TStruct
  end.

(** Codes of element and field types; booleans in fields carry their value in the code. *)
Definition type_of_code (c : N) : option ttype :=
  (if c =? 1 then Some TBool else if c =? 2 then Some TBool else
   if c =? 4 then Some TI16 else if c =? 5 then Some TI32 else if c =? 6 then Some TI64 else
   if c =? 7 then Some TDouble else if c =? 8 then Some TBinary else if c =? 9 then Some TList else
   if c =? 12 then Some TStruct else None)%N.

(** Field ids are 16-bit signed, and so is the arithmetic on them. *)
Definition wrap16 (z : Z) : Z := ((z + 2 ^ 15) mod 2 ^ 16 - 2 ^ 15)%Z.

Definition take (n : N) (bs : bytes) : option (bytes * bytes) :=
  if (n <=? N.of_nat (length bs))%N then Some (firstn (N.to_nat n) bs, skipn (N.to_nat n) bs) else None.

Fixpoint le_value (bs : bytes) : N :=
  match bs with [] => 0 | b :: r => b + 256 * le_value r end%N.

(** [fuel] bounds the recursion: three times the number of bytes is always enough. *)
Fixpoint read_value (fuel : nat) (t : ttype) (bs : bytes) {struct fuel} : option (value * bytes) :=
  match fuel with
  | O => None
  | S f =>
      match t with
      | TBool => match bs with [] => None | b :: r => Some (VBool (b =? 1)%N, r) end
      | TI16 => match read_zigzag bs with None => None | Some (z, r) => Some (VI16 z, r) end
      | TI32 => match read_zigzag bs with None => None | Some (z, r) => Some (VI32 z, r) end
      | TI64 => match read_zigzag bs with None => None | Some (z, r) => Some (VI64 z, r) end
      | TDouble => match take 8 bs with None => None | Some (d, r) => Some (VDouble (le_value d), r) end
      | TBinary => match read_uleb bs with
                   | None => None
                   | Some (n, r) => match take n r with None => None | Some (s, r') => Some (VBinary s, r') end
                   end
      | TList => match bs with
                 | [] => None
                 | h :: r =>
                     match type_of_code (h mod 16) with
                     | None => None
                     | Some et =>
                         match (if h / 16 <? 15 then Some (h / 16, r) else read_uleb r)%N with
                         | None => None
                         | Some (n, r') => match read_elems f et n r' with
                                           | None => None
                                           | Some (l, r'') => Some (VList et l, r'')
                                           end
                         end
                     end
                 end
      | TStruct => match read_fields f 0%Z bs with None => None | Some (l, r) => Some (VStruct l, r) end
      end
  end
with read_elems (fuel : nat) (t : ttype) (n : N) (bs : bytes) {struct fuel} : option (list value * bytes) :=
  match fuel with
  | O => None
  | S f => if (n =? 0)%N then Some ([], bs)
           else match read_value f t bs with
                | None => None
                | Some (v, r) => match read_elems f t (N.pred n) r with
                                 | None => None
                                 | Some (l, r') => Some (v :: l, r')
                                 end
                end
  end
with read_fields (fuel : nat) (last : Z) (bs : bytes) {struct fuel} : option (list (Z * value) * bytes) :=
  match fuel with
  | O => None
  | S f =>
      match bs with
      | [] => None
      | h :: r =>
          if (h =? 0)%N then Some ([], r)     (* stop *)
          else match (if h / 16 =? 0 then read_zigzag r
                      else Some (wrap16 (last + Z.of_N (h / 16)), r))%N with
               | None => None
               | Some (id, r1) =>
                   match (if h mod 16 =? 1 then Some (VBool true, r1)
                          else if h mod 16 =? 2 then Some (VBool false, r1)
                          else match type_of_code (h mod 16) with
                               | None => None
                               | Some t => read_value f t r1
                               end)%N with
                   | None => None
                   | Some (v, r2) => match read_fields f id r2 with
                                     | None => None
                                     | Some (l, r3) => Some ((id, v) :: l, r3)
                                     end
                   end
               end
      end
  end.

(** Read one struct from the front of a buffer. *)
Definition read_struct (bs : bytes) : option (list (Z * value) * bytes) :=
  match read_value (3 * length bs) TStruct bs with
  | Some (VStruct l, r) => Some (l, r)
  | _ => None
  end.

(** Trees the writer's argument types can express: integers in range, homogeneous lists with
    fewer than 2^31 elements, 16-bit field ids. *)
Inductive wf : value -> Prop :=
| wf_bool : forall b, wf (VBool b)
| wf_i16 : forall z, int16 z -> wf (VI16 z)
| wf_i32 : forall z, int32 z -> wf (VI32 z)
| wf_i64 : forall z, int64 z -> wf (VI64 z)
| wf_double : forall n, (n < 2 ^ 64)%N -> wf (VDouble n)
| wf_binary : forall s, (N.of_nat (length s) < 2 ^ 64)%N -> wf (VBinary s)
| wf_list : forall t l, (N.of_nat (length l) < 2 ^ 31)%N -> wf_elems t l -> wf (VList t l)
| wf_struct : forall l, wf_fields l -> wf (VStruct l)
with wf_elems : ttype -> list value -> Prop :=
| wfe_nil : forall t, wf_elems t []
| wfe_cons : forall t v l, type_of v = t -> wf v -> wf_elems t l -> wf_elems t (v :: l)
with wf_fields : list (Z * value) -> Prop :=
| wff_nil : wf_fields []
| wff_cons : forall id v l, int16 id -> wf v -> wf_fields l -> wf_fields ((id, v) :: l).
