(** Run-length and bit-packing encoders.
    Models src/encoding/rle.cpp, src/encoding/hybrid_rle.cpp and the level and index encoders of
    src/encoding/plain.cpp:385-538, 567-655. *)
From Verif Require Import Base WordsModel VarintModel BuffersModel.

(** rle.cpp:25-34. *)
Fixpoint bits_loop (fuel : nat) (m bits : N) : N :=
  match fuel with
  | O => bits
  | S f => if (0 <? m)%N then bits_loop f (N.shiftr m 1) (bits + 1)%N else bits
  end.
Definition bits_required (max_value : N) : N :=
  if (max_value =? 0)%N then 0%N else bits_loop 32 max_value 0.

(** The inner while loop of every bit packer (rle.cpp:109-113, hybrid_rle.cpp:143-147,
    plain.cpp:516-520, 641-645, delta_bitpacked.cpp:56-60). *)
Fixpoint flush_bytes (fuel : nat) (buffer : N) (bits : nat) : bytes * N * nat :=
  match fuel with
  | O => ([], buffer, bits)
  | S f => if 8 <=? bits
           then let '(out, b, k) := flush_bytes f (N.shiftr buffer 8) (bits - 8) in (N.land buffer 255 :: out, b, k)
           else ([], buffer, bits)
  end.
(** The packing loop and the final flush (rle.cpp:100-119 etc.); uint64_t buffer. *)
Fixpoint pack_loop (bw : nat) (vs : list N) (buffer : N) (bits : nat) : bytes :=
  match vs with
  | [] => if 0 <? bits then [N.land buffer 255] else []
  | v :: r => let '(out, b, k) := flush_bytes (bits + bw) (N.lor buffer (shl64 v (N.of_nat bits))) (bits + bw) in
              out ++ pack_loop bw r b k
  end.
Definition bit_pack (bw : nat) (vs : list N) : bytes := pack_loop bw vs 0 0.

(** static_cast<uint32_t>(n) << 1 *)
Definition shl1_u32 (n : N) : N := (2 * (n mod 2 ^ 32) mod 2 ^ 32)%N.

(** rle.cpp:80-90, hybrid_rle.cpp:112-118, plain.cpp:489-493, 614-618. *)
Definition rle_run (bw : nat) (value : N) (count : N) : bytes :=
  write_varint32 (shl1_u32 count) ++
  map (fun b => N.land (N.shiftr value (N.of_nat b * 8)) 255) (seq 0 ((bw + 7) / 8)).
(** rle.cpp:92-120, hybrid_rle.cpp:123-153: padded with zeros to whole groups of eight. *)
Definition bit_packed_run (bw : nat) (vs : list N) : bytes :=
  let groups := (length vs + 7) / 8 in
  write_varint32 (N.lor (shl1_u32 (N.of_nat groups)) 1) ++
  bit_pack bw (vs ++ repeat 0%N (groups * 8 - length vs)).

(** rle.cpp:58-61, plain.cpp:479-485, 607-610: length of the run of [v] at the front, [n] so far. *)
Fixpoint run_length (v : N) (rest : list N) (n : N) : N :=
  match rest with
  | x :: r => if (x =? v)%N && (n <? 2 ^ 30)%N then run_length v r (n + 1)%N else n
  | [] => n
  end.
(** The outer loop (rle.cpp:51-76, plain.cpp:473-529, 602-654).
    [fuel] is the number of values; every round consumes at least one. *)
Fixpoint encode_runs (fuel : nat) (bw : nat) (vs : list N) : bytes :=
  match fuel with
  | O => []
  | S f =>
      match vs with
      | [] => []
      | v :: rest =>
          let n := run_length v rest 1 in
          if (8 <=? n)%N then rle_run bw v n ++ encode_runs f bw (skipn (N.to_nat n) vs)
          else bit_packed_run bw (firstn 8 vs) ++ encode_runs f bw (skipn 8 vs)
      end
  end.

(** rle.cpp:47-77. *)
Definition rle_encode (bw : nat) (vs : list N) : bytes :=
  match vs, bw with
  | [], _ => []
  | _, O => []
  | _, _ => encode_runs (length vs) bw vs
  end.

(** rle.cpp:127-143; [nulls]: true = null. *)
Definition encode_definition_levels_rle (nulls : list bool) (max : N) : bytes :=
  match nulls with
  | [] => []
  | _ => rle_encode (N.to_nat (bits_required max)) (map (fun b : bool => if b then 0%N else max) nulls)
  end.

(** A uint32_t as four bytes, least significant first (plain.cpp:425-428, 533-537). *)
Definition u32_bytes (n : N) : bytes :=
  [N.land n 255; N.land (N.shiftr n 8) 255; N.land (N.shiftr n 16) 255; N.land (N.shiftr n 24) 255].

(** plain.cpp:471-485: reading the flags one after another; None = out of bounds. *)
Fixpoint valid_flags_from (m : bitmap) (n i : nat) : option (list bool) :=
  match n with
  | O => Some []
  | S k => match is_valid m i, valid_flags_from m k (S i) with
           | Some v, Some l => Some (v :: l)
           | _, _ => None
           end
  end.

(** plain.cpp:403-414. *)
Definition varint_size (header : N) : N :=
  (if header <? 128 then 1 else if header <? 16384 then 2 else if header <? 2097152 then 3
   else if header <? 268435456 then 4 else 5)%N.

(** plain.cpp:387-538: the bytes appended to output.
    The fast path writes into a buffer of exactly 4 + encoded_length bytes: here, the bytes
    written and then cut or zero-filled to that size. *)
Definition encode_def_levels_hybrid_arrow (nulls : bitmap) (max : N) (null_count : nat) : option bytes :=
  if bm_size nulls =? 0 then Some []
  else
    let count := N.of_nat (bm_size nulls) in
    let no_nulls := (null_count =? 0) || negb (bm_has_nulls nulls) in
    if no_nulls && (max =? 1)%N then
      let header := shl1_u32 count in
      let encoded_length := (varint_size header + 1)%N in
      let written := varint_loop 5 header ++ [1%N] in
      if (N.of_nat (length written) =? encoded_length)%N
      then Some (u32_bytes encoded_length ++ written)
      else None    (* would write outside, or leave a gap inside, the reserved bytes *)
    else
      let bw := N.to_nat (bits_required max) in
      match (if no_nulls then Some (rle_run bw max count)
             else match valid_flags_from nulls (bm_size nulls) 0 with
                  | None => None
                  | Some flags => Some (encode_runs (length flags) bw (map (fun v : bool => if v then max else 0%N) flags))
                  end) with
      | None => None
      | Some data => Some (u32_bytes (N.of_nat (length data) mod 2 ^ 32) ++ data)
      end.

(** plain.cpp:570-655.  [indices] are int32_t; the cast to uint32_t of a negative one wraps. *)
Definition u32_of_int32 (z : Z) : N := Z.to_N (z mod 2 ^ 32).
Fixpoint select_valid (flags : list bool) (indices : list Z) : list N :=
  match flags, indices with
  | v :: fs, i :: is => if v then u32_of_int32 i :: select_valid fs is else select_valid fs is
  | _, _ => []
  end.
Definition encode_dictionary_indices (indices : list Z) (nulls : bitmap) (bw : nat) : option bytes :=
  match indices with
  | [] => Some []
  | _ =>
      let non_null_count := length indices - null_count_fast nulls in
      if non_null_count =? 0 then Some []
      else match valid_flags_from nulls (length indices) 0 with
           | None => None
           | Some flags => let vs := select_valid flags indices in
                           Some (N.of_nat bw :: encode_runs (length vs) bw vs)
           end
  end.

(** ** HybridRleEncoder, hybrid_rle.cpp:20-161. *)
Record hybrid : Type := Hybrid { h_out : bytes; h_buf : list N; h_cur : N; h_rep : nat }.
Definition hybrid_new : hybrid := Hybrid [] [] 0 0.
Section Hybrid.
Variable bw : nat.
(** 107-121 *)
Definition flush_rle_run (h : hybrid) : hybrid :=
  if h_rep h =? 0 then h
  else Hybrid (h_out h ++ rle_run bw (h_cur h) (N.of_nat (h_rep h))) (h_buf h) (h_cur h) 0.
(** 123-153 *)
Definition flush_bit_packed (h : hybrid) (count : nat) : hybrid :=
  if count =? 0 then h
  else Hybrid (h_out h ++ bit_packed_run bw (firstn count (h_buf h))) (h_buf h) (h_cur h) (h_rep h).
(** 84-105 *)
Definition flush_buffered (h : hybrid) : hybrid :=
  match h_buf h with
  | [] => h
  | _ =>
      let h1 := if (8 <=? h_rep h) && (length (h_buf h) =? h_rep h) then flush_rle_run h
                else if 8 <=? h_rep h then flush_rle_run (flush_bit_packed h (length (h_buf h) - h_rep h))
                else flush_bit_packed h (length (h_buf h)) in
      Hybrid (h_out h1) [] (h_cur h1) 0
  end.
(** 29-72 *)
Definition hybrid_put (h : hybrid) (value : N) : hybrid :=
  match h_buf h with
  | [] => Hybrid (h_out h) [value] value 1
  | _ =>
      let h1 :=
        if (value =? h_cur h)%N then
          let h2 := Hybrid (h_out h) (h_buf h ++ [value]) (h_cur h) (S (h_rep h)) in
          if 8 <=? h_rep h2 then
            let non_repeated := length (h_buf h2) - h_rep h2 in
            if 0 <? non_repeated then
              let h3 := flush_bit_packed h2 non_repeated in
              Hybrid (h_out h3) (skipn (length (h_buf h3) - h_rep h3) (h_buf h3)) (h_cur h3) (h_rep h3)
            else h2
          else h2
        else
          let h2 := if 8 <=? h_rep h
                    then let h3 := flush_rle_run h in Hybrid (h_out h3) [] (h_cur h3) (h_rep h3)
                    else h in
          Hybrid (h_out h2) (h_buf h2 ++ [value]) value 1 in
      if 64 <=? length (h_buf h1) then flush_buffered h1 else h1
  end.
(** 75-78, 164-177 *)
Definition encode_hybrid_rle (vs : list N) : bytes :=
  match vs with
  | [] => []
  | _ => h_out (flush_buffered (fold_left hybrid_put vs hybrid_new))
  end.
End Hybrid.

(** 181-227 and 230-239; [nulls]: true = null. *)
Definition encode_def_levels_hybrid (nulls : list bool) (max : N) (null_count : nat) : bytes :=
  match nulls with
  | [] => []
  | _ =>
      let bw := N.to_nat (bits_required max) in
      let data := if null_count =? 0 then rle_run bw max (N.of_nat (length nulls))
                  else encode_hybrid_rle bw (map (fun b : bool => if b then 0%N else max) nulls) in
      u32_bytes (N.of_nat (length data) mod 2 ^ 32) ++ data
  end.
Definition count_nulls (nulls : list bool) : nat := length (filter (fun b => b) nulls).
Definition encode_def_levels_hybrid_legacy (nulls : list bool) (max : N) : bytes :=
  encode_def_levels_hybrid nulls max (count_nulls nulls).
