(** Conversion of one text by the three families of columns:
    ColumnBuilder::append (src/columns/column_builder.cpp), FastColumnContext
    (include/libvroom/fast_column_context.h) and FastArrowContext
    (include/libvroom/fast_arrow_context.h, TypesModel.append_value). *)
From Verif Require Import Base TypesSpec WordsModel ChunkModel FieldsModel NumModel DateModel ReaderModel TypesModel.

Section Layers.
Context {F : Type}.
(** fast_float::from_chars consuming the whole text; None: any other outcome. *)
Variable ff : bytes -> option F.

(** column_builder.cpp 205-221 (int32) and 274-290 (int64). *)
Definition builder_int (bits : N) (v : bytes) : option (@value F) :=
  match v with
  | [] => None
  | _ => match from_chars bits v with
         | Some (z, []) => Some (VInt z)
         | _ => None
         end
  end.

(** column_builder.cpp 542-575. *)
Definition builder_bool (v : bytes) : option (@value F) :=
  match v with
  | [] => None
  | _ => if existsb (bytes_eqb v) (map s2b ["true"; "TRUE"; "True"; "1"; "yes"; "YES"]%string) then Some (VBool true)
         else if existsb (bytes_eqb v) (map s2b ["false"; "FALSE"; "False"; "0"; "no"; "NO"]%string) then Some (VBool false)
         else None
  end.

(** ColumnBuilder::create(t)->append(v), 157-615 and 622-641: the entry added; None
    is a null entry. *)
Definition builder_append (t : data_type) (v : bytes) : option (@value F) :=
  match t with
  | INT32 => builder_int 32 v
  | INT64 => builder_int 64 v
  | FLOAT64 => match v with [] => None | _ => option_map VFloat (ff v) end
  | BOOL => builder_bool v
  | DATE => match v with [] => None | _ => option_map VInt (parse_date v) end
  | TIMESTAMP => match v with [] => None | _ => option_map VInt (parse_timestamp v) end
  | _ => Some (VString v)
  end.

(** fast_column_context.h 189-208. *)
Definition context_bool (v : bytes) : option (@value F) :=
  if existsb (bytes_eqb v) (map s2b ["true"; "TRUE"; "True"; "1"; "yes"; "YES"]%string) then Some (VBool true)
  else if existsb (bytes_eqb v) (map s2b ["false"; "FALSE"; "False"; "0"; "no"; "NO"]%string) then Some (VBool false)
  else None.

(** FastColumnContext::append_string 40-43, append_int32 97-106, append_int64
    158-167, append_float64 175-185, append_bool, append_date 215-229,
    append_timestamp 236-250. *)
Definition context_append (t : data_type) (v : bytes) : option (@value F) :=
  match t with
  | INT32 => of_parsed (parse_int32_fast false v)
  | INT64 => of_parsed (parse_int64_fast false v)
  | FLOAT64 => option_map VFloat (ff v)
  | BOOL => context_bool v
  | DATE => match v with [] => None | _ => option_map VInt (parse_date v) end
  | TIMESTAMP => match v with [] => None | _ => option_map VInt (parse_timestamp v) end
  | _ => Some (VString v)
  end.
End Layers.
