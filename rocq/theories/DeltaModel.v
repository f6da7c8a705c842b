(** Delta encoders.  Models src/encoding/delta_bitpacked.cpp and src/encoding/delta_length.cpp. *)
From Verif Require Import Base WordsModel VarintModel RleModel.

(** What a call does: append bytes, throw std::length_error, or undefined behaviour. *)
Inductive encoded : Type := Encoded (b : bytes) | Throws | Undefined.

Definition fits64 (z : Z) : bool := ((- 2 ^ 63 <=? z) && (z <? 2 ^ 63))%Z.
(** Signed 64-bit subtraction; None = overflow, undefined. *)
Definition sub64 (a b : Z) : option Z := if fits64 (a - b)%Z then Some (a - b)%Z else None.

(** delta_bitpacked.cpp:37-41 (64 minus the leading zeros). *)
Definition bit_width_for_value (value : N) : N := if (value =? 0)%N then 0%N else (N.log2 value + 1)%N.
(** 44-66: the loop is the one of rle.cpp, RleModel.bit_pack. *)
Definition delta_bit_pack (values : list N) (width : N) : bytes :=
  if (width =? 0)%N then [] else bit_pack (N.to_nat width) values.

(** 83-86 and 162-165.  The int32 version widens to int64_t first, so that one definition on
    integers serves both. *)
Fixpoint delta_list (prev : Z) (r : list Z) : option (list Z) :=
  match r with
  | [] => Some []
  | v :: r' => match sub64 v prev, delta_list v r' with
               | Some d, Some ds => Some (d :: ds)
               | _, _ => None
               end
  end.

(** 95-98. *)
Definition min_delta (block : list Z) : Z := fold_left Z.min block (hd 0%Z block).
(** 112, 136: static_cast<uint64_t>(deltas[i] - min_delta). *)
Fixpoint adjust (m : Z) (block : list Z) : option (list N) :=
  match block with
  | [] => Some []
  | d :: r => match sub64 d m, adjust m r with
              | Some a, Some l => Some (u64_of_int64 a :: l)
              | _, _ => None
              end
  end.
(** 107-108: [b] is block_count; the indices are relative to delta_idx (simplification). *)
Definition mb_start (mb : nat) : nat := mb * 32.
Definition mb_end (b mb : nat) : nat := Nat.min (mb_start mb + 32) b.
(** 110-116; the loop runs for mb_start <= i < mb_end. *)
Definition width_of (adj : list N) (mb : nat) : N :=
  bit_width_for_value (fold_left N.max (slice (mb_start mb) (mb_end (length adj) mb) adj) 0%N).
(** 125-141.  size_t mb_count = mb_end - mb_start wraps when mb_end < mb_start; then
    std::vector<uint64_t>(mb_count) throws std::length_error. *)
Fixpoint write_mini (adj : list N) (mbs : list nat) : encoded :=
  match mbs with
  | [] => Encoded []
  | mb :: r =>
      if mb_end (length adj) mb <? mb_start mb then Throws
      else match write_mini adj r with
           | Encoded rest => Encoded (delta_bit_pack (slice (mb_start mb) (mb_end (length adj) mb) adj) (width_of adj mb) ++ rest)
           | x => x
           end
  end.
(** 90-144: [ds] are the deltas from delta_idx on.  [fuel]: one round per block. *)
Fixpoint write_blocks (fuel : nat) (ds : list Z) : encoded :=
  match fuel, ds with
  | _, [] => Encoded []
  | O, _ => Encoded []
  | S f, _ =>
      let block := firstn 128 ds in
      let m := min_delta block in
      match adjust m block with
      | None => Undefined
      | Some adj =>
          match write_mini adj [0; 1; 2; 3] with
          | Encoded body =>
              match write_blocks f (skipn 128 ds) with
              | Encoded rest => Encoded (write_signed_varint m ++ map (width_of adj) [0; 1; 2; 3] ++ body ++ rest)
              | x => x
              end
          | x => x
          end
      end
  end.
(** 69-145 and 148-216: the bytes appended to output. *)
Definition encode_delta (values : list Z) : encoded :=
  match values with
  | [] => Encoded []
  | v :: r =>
      let header := write_varint64 128 ++ write_varint64 4 ++ write_varint64 (N.of_nat (length values)) ++ write_signed_varint v in
      match r with
      | [] => Encoded header
      | _ => match delta_list v r with
             | None => Undefined
             | Some ds => match write_blocks (length ds) ds with
                          | Encoded b => Encoded (header ++ b)
                          | x => x
                          end
             end
      end
  end.

(** delta_length.cpp:26-30, 40-44: the values that are not null; None = null_bitmap too short. *)
Fixpoint non_null (values : list bytes) (nulls : list bool) : option (list bytes) :=
  match values, nulls with
  | [], _ => Some []
  | v :: r, b :: nb => match non_null r nb with
                       | None => None
                       | Some l => Some (if b then l else v :: l)
                       end
  | _ :: _, [] => None
  end.
(** static_cast<int32_t>(size) *)
Definition int32_of_size (n : nat) : Z := ((Z.of_nat n + 2 ^ 31) mod 2 ^ 32 - 2 ^ 31)%Z.
(** delta_length.cpp:16-45. *)
Definition encode_delta_length_byte_array (values : list bytes) (nulls : list bool) : encoded :=
  match values with
  | [] => Encoded []
  | _ =>
      match (match nulls with [] => Some values | _ => non_null values nulls end) with
      | None => Undefined
      | Some present =>
          match encode_delta (map (fun s => int32_of_size (length s)) present) with
          | Encoded b => Encoded (b ++ concat present)
          | x => x
          end
      end
  end.
