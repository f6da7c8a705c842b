(** ThriftCompactWriter, src/writer/thrift_compact.{h,cpp}. *)
From Verif Require Import Base WordsModel VarintModel ThriftSpec.

(** thrift_compact.h:66-69. *)
Record writer : Type := Writer { w_buffer : bytes; w_last : Z; w_stack : list Z }.

(** thrift_compact.cpp:8-9 *)
Definition new_writer (buffer : bytes) : writer := Writer buffer 0 [].
Definition push_bytes (w : writer) (bs : bytes) : writer := Writer (w_buffer w ++ bs) (w_last w) (w_stack w).

(** 11-15. The stack's top is the head of the list. *)
Definition write_struct_begin (w : writer) : writer := Writer (w_buffer w) 0 (w_last w :: w_stack w).
(** 42-44 *)
Definition write_field_stop (w : writer) : writer := push_bytes w [0%N].
(** 17-25 *)
Definition write_struct_end (w : writer) : writer :=
  let w1 := write_field_stop w in
  match w_stack w1 with
  | [] => w1
  | id :: r => Writer (w_buffer w1) id r
  end.
(** int to int16_t (modular in C++20). *)
Definition to_int16 (z : Z) : Z := ((z + 32768) mod 65536 - 32768)%Z.
(** 27-40 *)
Definition write_field_begin (w : writer) (field_id : Z) (type_id : N) : writer :=
  let delta := to_int16 (field_id - w_last w) in
  let w1 := if ((0 <? delta) && (delta <=? 15))%Z
            then push_bytes w [(N.lor (N.shiftl (Z.to_N delta) 4) type_id mod 256)%N]
            else push_bytes (push_bytes w [type_id]) (write_signed_varint field_id) in
  Writer (w_buffer w1) field_id (w_stack w1).
(** 46-51 *)
Definition write_bool (w : writer) (b : bool) : writer := push_bytes w [if b then 1%N else 0%N].
(** 53-63 *)
Definition write_i16 (w : writer) (z : Z) : writer := push_bytes w (write_signed_varint z).
Definition write_i32 (w : writer) (z : Z) : writer := push_bytes w (write_signed_varint z).
Definition write_i64 (w : writer) (z : Z) : writer := push_bytes w (write_signed_varint z).
(** 65-72 *)
Definition write_double (w : writer) (bits : N) : writer :=
  push_bytes w (map (fun i => (N.shiftr bits (N.of_nat i * 8) mod 256)%N) (seq 0 8)).
(** 74-87 *)
Definition write_binary (w : writer) (s : bytes) : writer :=
  push_bytes (push_bytes w (write_varint64 (N.of_nat (length s)))) s.
(** 89-98; [size] is the int32_t argument, at least 0. *)
Definition write_list_begin (w : writer) (element_type : N) (size : N) : writer :=
  if (size <? 15)%N
  then push_bytes w [(N.lor (N.shiftl size 4) element_type mod 256)%N]
  else push_bytes (push_bytes w [(N.lor 240 element_type mod 256)%N]) (write_varint64 size).
(** 100-102 *)
Definition write_list_end (w : writer) : writer := w.

(** thrift_compact.h:53-64. *)
Definition TYPE_BOOL_TRUE : N := 1.
Definition TYPE_BOOL_FALSE : N := 2.
Definition TYPE_I16 : N := 4.
Definition TYPE_I32 : N := 5.
Definition TYPE_I64 : N := 6.
Definition TYPE_DOUBLE : N := 7.
Definition TYPE_BINARY : N := 8.
Definition TYPE_LIST : N := 9.
Definition TYPE_STRUCT : N := 12.

Definition code_of_type (t : ttype) : N :=
  match t with
  | TBool => TYPE_BOOL_TRUE | TI16 => TYPE_I16 | TI32 => TYPE_I32 | TI64 => TYPE_I64
  | TDouble => TYPE_DOUBLE | TBinary => TYPE_BINARY | TList => TYPE_LIST | TStruct => TYPE_STRUCT
  end.
(** The calling convention of parquet_types.cpp: a boolean field is only its header
    (parquet_types.cpp:129-130), every other field is header then value. *)
Definition code_of_field (v : value) : N :=
  match v with
  | VBool b => if b then TYPE_BOOL_TRUE else TYPE_BOOL_FALSE
  | _ => code_of_type (type_of v)
  end.

(** The calls that write one value, as the write methods of parquet_types.cpp make them
    (e.g. 230-287). *)
Fixpoint emit (w : writer) (v : value) : writer :=
  match v with
  | VBool b => write_bool w b
  | VI16 z => write_i16 w z
  | VI32 z => write_i32 w z
  | VI64 z => write_i64 w z
  | VDouble bits => write_double w bits
  | VBinary s => write_binary w s
  | VList t l =>
      let w1 := write_list_begin w (code_of_type t) (N.of_nat (length l)) in
      write_list_end ((fix go (w : writer) (l : list value) : writer :=
                         match l with [] => w | x :: r => go (emit w x) r end) w1 l)
  | VStruct fields =>
      let w1 := write_struct_begin w in
      write_struct_end ((fix go (w : writer) (l : list (Z * value)) : writer :=
                           match l with
                           | [] => w
                           | (id, x) :: r =>
                               let w2 := write_field_begin w id (code_of_field x) in
                               go (match x with VBool _ => w2 | _ => emit w2 x end) r
                           end) w1 fields)
  end.
Definition emit_fields (w : writer) (l : list (Z * value)) : writer :=
  fold_left (fun w f => let w2 := write_field_begin w (fst f) (code_of_field (snd f)) in
                        match snd f with VBool _ => w2 | _ => emit w2 (snd f) end) l w.
Definition emit_elems (w : writer) (l : list value) : writer := fold_left emit l w.
