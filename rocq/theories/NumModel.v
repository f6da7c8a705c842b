(** Integer field parsing.
    Models src/parser/simd_atoi-inl.h, include/libvroom/simd_atoi.h and
    parse_int32_fast/parse_int64_fast of include/libvroom/fast_arrow_context.h
    (56-95, 113-152; identical copies in fast_column_context.h 52-93, 113-154).
    [p, len] is the list of bytes. *)
From Verif Require Import Base.

(** Result of a parser: bool result and out parameter; [Undefined]: the execution
    has undefined behaviour. *)
Inductive parsed (A : Type) := Value (a : A) | Reject | Undefined.
Arguments Value {A}. Arguments Reject {A}. Arguments Undefined {A}.

Definition U64 : N := (2 ^ 64)%N.
Definition U32 : N := (2 ^ 32)%N.

(** static_cast of unsigned char(p[i]) minus '0', stored in an unsigned char. *)
Definition digit_of (c : byte) : N := ((c + 256 - 48) mod 256)%N.

(** The digit loop (simd_atoi-inl.h 27-33 = 46-52, simd_atoi.h 21-27, and with
    [m] = U32 fast_arrow_context.h 77-84): unsigned arithmetic modulo [m]. *)
Fixpoint digit_loop (m : N) (result : N) (l : bytes) : option N :=
  match l with
  | [] => Some result
  | p :: r =>
      let c := digit_of p in
      if (9 <? c)%N then None else digit_loop m ((result * 10 + c) mod m)%N r
  end.

(** simd_atoi-inl.h 79-83: lane [i] of the stored comparison vector for the buffer
    byte [c]. *)
Definition invalid_lane (c : byte) : bool := (c <? 48)%N || (57 <? c)%N.

(** simd_atoi-inl.h 86-89: combination after validation (no range test). *)
Fixpoint combine_loop (result : N) (l : bytes) : N :=
  match l with
  | [] => result
  | p :: r => combine_loop ((result * 10 + (p + U64 - 48)) mod U64)%N r
  end.

(** ParseUint64SimdImpl, 20-92; [lanes] = hn::Lanes(d).  The 64-byte stack buffers
    (62, 76): a vector of more than 64 lanes is loaded and stored out of bounds. *)
Definition parse_uint64_simd (lanes : nat) (l : bytes) : parsed N :=
  let len := length l in
  if (len =? 0) || (16 <? len) then Reject
  else if (len <=? 8) || (lanes <? 16) then
    match digit_loop U64 0 l with None => Reject | Some r => Value r end
  else if 64 <? lanes then Undefined
  else
    let buf := l ++ repeat 0%N (64 - len) in
    let invalid_bytes := map invalid_lane (firstn lanes buf) in
    if existsb (fun b => b) (firstn len invalid_bytes) then Reject
    else Value (combine_loop 0 l).

(** Sign handling (99-111 = 132-144, simd_atoi.h 36-48 = 67-79): sign and rest. *)
Definition take_sign (l : bytes) : option (bool * bytes) :=
  match l with
  | [] => None
  | c :: r =>
      if N.eqb c 45 then (match r with [] => None | _ => Some (true, r) end)
      else if N.eqb c 43 then (match r with [] => None | _ => Some (false, r) end)
      else Some (false, l)
  end.

(** Lines 118-124 (bits = 32) and 165-171 (bits = 64): range tests and negation.
    static_cast to the signed type wraps.  Negating the minimum is undefined in
    ISO C++ ([iso] = true); under -fwrapv, or as compilers translate it in practice,
    it yields the minimum ([iso] = false). *)
Definition to_signed (bits : N) (r : N) : Z :=
  if (r <? 2 ^ (bits - 1))%N then Z.of_N r else (Z.of_N r - 2 ^ Z.of_N bits)%Z.
Definition negate_signed (iso : bool) (bits : N) (v : Z) : parsed Z :=
  if Z.eqb v (- 2 ^ (Z.of_N bits - 1)) then (if iso then Undefined else Value v) else Value (- v)%Z.
Definition finish (iso : bool) (bits : N) (negative : bool) (result : N) : parsed Z :=
  if negb negative && (2 ^ (bits - 1) - 1 <? result)%N then Reject
  else if negative && (2 ^ (bits - 1) <? result)%N then Reject
  else if negative then negate_signed iso bits (to_signed bits result)
  else Value (to_signed bits result).

(** ParseInt32SimdImpl, 95-125 (= simd::parse_int32_simd). *)
Definition parse_int32_simd (iso : bool) (lanes : nat) (l : bytes) : parsed Z :=
  if (length l =? 0) || (11 <? length l) then Reject
  else match take_sign l with
       | None => Reject
       | Some (negative, d) =>
           match parse_uint64_simd lanes d with
           | Value result => finish iso 32 negative result
           | Reject => Reject
           | Undefined => Undefined
           end
       end.

(** Lines 149-158: digit loop with overflow test. *)
Fixpoint checked_loop (result : N) (l : bytes) : option N :=
  match l with
  | [] => Some result
  | p :: r =>
      let c := digit_of p in
      if (9 <? c)%N then None
      else if ((18446744073709551615 - c) / 10 <? result)%N then None
      else checked_loop ((result * 10 + c) mod U64)%N r
  end.

(** ParseInt64SimdImpl, 128-172 (= simd::parse_int64_simd). *)
Definition parse_int64_simd (iso : bool) (lanes : nat) (l : bytes) : parsed Z :=
  if (length l =? 0) || (20 <? length l) then Reject
  else match take_sign l with
       | None => Reject
       | Some (negative, d) =>
           if 16 <? length d then
             match checked_loop 0 d with
             | None => Reject
             | Some result => finish iso 64 negative result
             end
           else
             match parse_uint64_simd lanes d with
             | Value result => finish iso 64 negative result
             | Reject => Reject
             | Undefined => Undefined
             end
       end.

(** simd_atoi.h parse_uint64_scalar 18-30, parse_int32_scalar 32-61,
    parse_int64_scalar 63-92. *)
Definition parse_uint64_scalar (l : bytes) : parsed N :=
  if (length l =? 0) || (20 <? length l) then Reject
  else match digit_loop U64 0 l with None => Reject | Some r => Value r end.

Definition parse_int_scalar (iso : bool) (bits : N) (max_len : nat) (l : bytes) : parsed Z :=
  if (length l =? 0) || (max_len <? length l) then Reject
  else match take_sign l with
       | None => Reject
       | Some (negative, d) =>
           match parse_uint64_scalar d with
           | Value result => finish iso bits negative result
           | Reject => Reject
           | Undefined => Undefined
           end
       end.
Definition parse_int32_scalar (iso : bool) := parse_int_scalar iso 32 11.
Definition parse_int64_scalar (iso : bool) := parse_int_scalar iso 64 20.

(** std::from_chars for a signed type, as the C++ standard describes it: optional
    minus sign, longest digit string, base 10; (value, bytes after the match), or
    [None] when nothing matches or the value is out of range. *)
Fixpoint digit_prefix (l : bytes) : bytes :=
  match l with
  | [] => []
  | c :: r => if (48 <=? c)%N && (c <=? 57)%N then c :: digit_prefix r else []
  end.
Definition prefix_value (l : bytes) : N := fold_left (fun a c => a * 10 + (c - 48))%N l 0%N.
Definition from_chars (bits : N) (l : bytes) : option (Z * bytes) :=
  let '(negative, d) := match l with
                        | c :: r => if N.eqb c 45 then (true, r) else (false, l)
                        | [] => (false, [])
                        end in
  match digit_prefix d with
  | [] => None
  | ds =>
      let v := Z.of_N (prefix_value ds) in
      let v := if negative then Z.opp v else v in
      if Z.leb (- 2 ^ (Z.of_N bits - 1)) v && Z.ltb v (2 ^ (Z.of_N bits - 1))
      then Some (v, skipn (length ds) d) else None
  end.

(** parse_int32_fast (bits = 32, max_len = 11, short = 9) and parse_int64_fast
    (bits = 64, max_len = 20, short = 18). *)
Definition parse_int_fast (iso : bool) (bits : N) (max_len short : nat) (l : bytes) : parsed Z :=
  if (length l =? 0) || (max_len <? length l) then Reject
  else match take_sign l with
       | None => Reject
       | Some (negative, d) =>
           if length d <=? short then
             match digit_loop (2 ^ bits) 0 d with
             | None => Reject
             | Some r => if negative then negate_signed iso bits (to_signed bits r) else Value (to_signed bits r)
             end
           else
             match from_chars bits d with
             | Some (v, []) => if negative then negate_signed iso bits v else Value v
             | _ => Reject
             end
       end.
Definition parse_int32_fast (iso : bool) := parse_int_fast iso 32 11 9.
Definition parse_int64_fast (iso : bool) := parse_int_fast iso 64 20 18.
