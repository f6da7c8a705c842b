(** Variable-length integers as written by the code. *)
From Verif Require Import Base WordsModel.

(** The loop of src/writer/thrift_compact.cpp:108-115, src/encoding/delta_bitpacked.cpp:25-34 and
    src/encoding/rle.cpp:13-22.  [fuel] bounds the rounds: 10 for uint64_t, 5 for uint32_t;
    running out of it would be a modelling error and yields no final byte. *)
Fixpoint varint_loop (fuel : nat) (value : N) : bytes :=
  match fuel with
  | O => []
  | S f => if (128 <=? value)%N
           then N.lor (N.land value 127) 128 :: varint_loop f (N.shiftr value 7)
           else [value]
  end.

(** thrift_compact.cpp:108-115 and delta_bitpacked.cpp:25-34 (value & 0x7F of a value < 0x80 is
    the value). *)
Definition write_varint64 (value : N) : bytes := varint_loop 10 (w64 value).
(** rle.cpp:13-22. *)
Definition write_varint32 (value : N) : bytes := varint_loop 5 (value mod 2 ^ 32).

(** int64_t to uint64_t. *)
Definition u64_of_int64 (z : Z) : N := Z.to_N (z mod 2 ^ 64).
(** thrift_compact.cpp:121-125, delta_bitpacked.cpp:20-22 (C++20: the shifts are defined). *)
Definition zigzag_encode (value : Z) : N :=
  N.lxor (u64_of_int64 (Z.shiftl value 1)) (u64_of_int64 (Z.shiftr value 63)).
(** thrift_compact.cpp:117-119. *)
Definition write_signed_varint (value : Z) : bytes := write_varint64 (zigzag_encode value).
