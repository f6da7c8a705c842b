(** The line splitters, LineParser::parse_line and the integer parsers written with indices and explicit reads (see RawModel).
    Models src/parser/split_fields.cpp, src/parser/split_fields-inl.h, src/parser/line_parser.cpp:96-183,
    src/parser/simd_atoi-inl.h, include/libvroom/simd_atoi.h and parse_int32_fast/parse_int64_fast of
    include/libvroom/fast_arrow_context.h at a lower level than FieldsModel, TypesModel and NumModel. *)
From Verif Require Import Base TypesSpec WordsModel ChunkModel FieldsModel NumModel ReaderModel TypesModel RawModel.

(** split_fields-inl.h:30-33: while (size > 0 and p(data[0])) { data++; size--; } *)
Fixpoint raw_trim_front (fuel : nat) (p : byte -> bool) (d : bytes) (data size : nat) : option (nat * nat) :=
  if 0 <? size then
    match fuel with
    | O => None
    | S f => let? c := rd d data in if p c then raw_trim_front f p d (data + 1) (size - 1) else Some (data, size)
    end
  else Some (data, size).
(** 36-39, 184-187: while (size > 0 and p(data[size - 1])) size--; *)
Fixpoint raw_trim_back (fuel : nat) (p : byte -> bool) (d : bytes) (data size : nat) : option nat :=
  if 0 <? size then
    match fuel with
    | O => None
    | S f => let? c := rd d (data + size - 1) in if p c then raw_trim_back f p d data (size - 1) else Some size
    end
  else Some size.
(** 21-40 PostProcessField, split_fields.cpp:51-68, 90-107, 135-154; then the bytes the view stands for. *)
Definition raw_post_process (q : byte) (d : bytes) (data size : nat) : option field_view :=
  let? quoted :=
    if 2 <=? size then
      let? first := rd d data in
      also (N.eqb first q) (let? final := rd d (data + size - 1) in Some (N.eqb final q))
    else Some false in
  let '(data, size) := if quoted then (data + 1, size - 2) else (data, size) in
  let? (data, size) := raw_trim_front (S size) is_blank d data size in
  let? size := raw_trim_back (S size) is_blank d data size in
  let? v := view d data size in
  Some (v, quoted).

(** The field from [start] to [stop]; the unsigned difference must not wrap. *)
Definition raw_field (q : byte) (d : bytes) (start stop : nat) : option field_view :=
  if start <=? stop then raw_post_process q d start (stop - start) else None.

(** split_fields.cpp:35-77, 168-190, split_fields-inl.h:152-176, 284-306 *)
Fixpoint raw_split_loop (fuel : nat) (sep q : byte) (d : bytes) (size i field_start : nat) (in_quote : bool) (fields : list field_view)
    : option (nat * list field_view) :=
  if i <? size then
    match fuel with
    | O => None
    | S f =>
        let? c := rd d i in
        if N.eqb c q then
          let? doubled := also in_quote (peek d size (i + 1) q) in
          if doubled then raw_split_loop f sep q d size (i + 1 + 1) field_start in_quote fields
          else raw_split_loop f sep q d size (i + 1) field_start (negb in_quote) fields
        else if negb in_quote then
          if N.eqb c sep then
            let? v := raw_field q d field_start i in
            raw_split_loop f sep q d size (i + 1) (i + 1) in_quote (fields ++ [v])
          else if is_nl c then Some (field_start, fields)
          else raw_split_loop f sep q d size (i + 1) field_start in_quote fields
        else raw_split_loop f sep q d size (i + 1) field_start in_quote fields
    end
  else Some (field_start, fields).
(** split_fields.cpp:79-109, 192-205, split_fields-inl.h:178-191, 308-320.  A field start past the size would wrap: [None]. *)
Definition raw_last_field (q : byte) (d : bytes) (size : nat) (r : nat * list field_view) : option (list field_view) :=
  let '(field_start, fields) := r in
  if field_start <=? size then
    let? n := raw_trim_back (S size) is_nl d field_start (size - field_start) in
    let? v := raw_post_process q d field_start n in
    Some (fields ++ [v])
  else None.
(** split_fields.cpp:24-112, 157-206 *)
Definition raw_split_scalar (d : bytes) (size : nat) (sep q : byte) : option (list field_view) :=
  if size =? 0 then Some []
  else let? r := raw_split_loop (S size) sep q d size 0 0 false [] in raw_last_field q d size r.

(** split_fields-inl.h:114-144, 252-276 *)
Fixpoint raw_emit (fuel : nat) (q : byte) (d : bytes) (pos field_start : nat) (valid_ends : N) (fields : list field_view)
    : option (list field_view + (nat * list field_view)) :=
  if N.eqb valid_ends 0 then Some (inr (field_start, fields))
  else match fuel with
  | O => None
  | S f =>
      let abs_pos := pos + ctz valid_ends in
      let? c := rd d abs_pos in
      let? v := raw_field q d field_start abs_pos in
      if is_nl c then Some (inl (fields ++ [v]))
      else raw_emit f q d pos (abs_pos + 1) (N.land valid_ends (valid_ends - 1)) (fields ++ [v])
  end.
(** 69-147, 213-276, then the tail *)
Fixpoint raw_split_blocks (fuel lanes : nat) (clmul : bool) (sep q : byte) (d : bytes) (size pos field_start : nat) (state : N) (fields : list field_view)
    : option (list field_view) :=
  if pos + 64 <=? size then
    match fuel with
    | O => None
    | S f =>
        let? sep_mask := raw_assemble 64 lanes sep d pos 0 0 in
        let? quote_mask := raw_assemble 64 lanes q d pos 0 0 in
        let? lf_mask := raw_assemble 64 lanes LF d pos 0 0 in
        let? cr_mask := raw_assemble 64 lanes CR d pos 0 0 in
        let '(inside, state') := find_quote_mask clmul quote_mask state in
        let? r := raw_emit 64 q d pos field_start (N.land (N.lor sep_mask (N.lor lf_mask cr_mask)) (not64 inside)) fields in
        match r with
        | inl done => Some done
        | inr (fs, fields') => raw_split_blocks f lanes clmul sep q d size (pos + 64) fs state' fields'
        end
    end
  else
    let? r := raw_split_loop (S size) sep q d size pos field_start (negb (N.eqb state 0)) fields in raw_last_field q d size r.
(** 44-194, 197-321 *)
Definition raw_split_simd (lanes : nat) (clmul : bool) (d : bytes) (size : nat) (sep q : byte) : option (list field_view) :=
  if size =? 0 then Some [] else raw_split_blocks size lanes clmul sep q d size 0 0 0%N [].
(** split_fields.cpp:122-128, 215-222 *)
Definition raw_split_fields (lanes : nat) (clmul : bool) (d : bytes) (size : nat) (sep q : byte) : option (list field_view) :=
  if 64 <=? size then raw_split_simd lanes clmul d size sep q else raw_split_scalar d size sep q.

Section ParseLine.
Context {V : Type}.
Variable conv : nat -> bytes -> option V.
Variables (sep q : byte) (ln : line_nulls).
(** line_parser.cpp:107-159 *)
Fixpoint raw_line_loop (fuel : nat) (d : bytes) (size i : nat) (inq : bool) (cur : bytes) (k : nat) (cols : list (list (option V)))
    : option (list (list (option V)) * nat * bytes) :=
  if (i <? size) && (k <? length cols) then
    match fuel with
    | O => None
    | S f =>
        let? c := rd d i in
        if negb inq && is_nl c then Some (put_field conv ln cur k cols, S k, [])
        else if N.eqb c q then
          let? doubled := also inq (peek d size (i + 1) q) in
          if doubled then raw_line_loop f d size (i + 1 + 1) inq (cur ++ [q]) k cols
          else raw_line_loop f d size (i + 1) (negb inq) cur k cols
        else if N.eqb c sep && negb inq then raw_line_loop f d size (i + 1) inq [] (S k) (put_field conv ln cur k cols)
        else if (length cur =? 0) && negb inq && is_blank c then raw_line_loop f d size (i + 1) inq cur k cols
        else raw_line_loop f d size (i + 1) inq (cur ++ [c]) k cols
    end
  else Some (cols, k, cur).
(** 96-183 *)
Definition raw_parse_line (d : bytes) (size : nat) (cols : list (list (option V))) : option (list (list (option V)) * nat) :=
  if (size =? 0) || (length cols =? 0) then Some (cols, 0)
  else
    let? (cols1, k1, cur) := raw_line_loop (S size) d size 0 false [] 0 cols in
    let '(cols2, k2) := if (k1 <? length cols) && negb (length cur =? 0) then (put_field conv ln cur k1 cols1, S k1) else (cols1, k1) in
    Some (fill_nulls (length cols - k2) k2 cols2, k2 + (length cols - k2)).
End ParseLine.

(** ** Integers *)

(** simd_atoi-inl.h:27-33, 46-52, simd_atoi.h:21-27, fast_arrow_context.h:77-84; [p] is where the text starts *)
Fixpoint raw_digit_loop (fuel : nat) (m : N) (d : bytes) (p len i : nat) (result : N) : option (option N) :=
  if i <? len then
    match fuel with
    | O => None
    | S f => let? x := rd d (p + i) in
        let c := digit_of x in if (9 <? c)%N then Some None else raw_digit_loop f m d p len (i + 1) ((result * 10 + c) mod m)%N
    end
  else Some (Some result).
(** 86-89 *)
Fixpoint raw_combine_loop (fuel : nat) (d : bytes) (p len i : nat) (result : N) : option N :=
  if i <? len then
    match fuel with
    | O => None
    | S f => let? x := rd d (p + i) in raw_combine_loop f d p len (i + 1) ((result * 10 + (x + U64 - 48)) mod U64)%N
    end
  else Some result.
(** 63-65: copying into the stack buffer *)
Fixpoint raw_copy (fuel : nat) (d : bytes) (p len i : nat) : option bytes :=
  if (i <? len) && (i <? 64) then
    match fuel with
    | O => None
    | S f => let? x := rd d (p + i) in let? r := raw_copy f d p len (i + 1) in Some (x :: r)
    end
  else Some [].
(** 20-92 *)
Definition raw_parse_uint64 (lanes : nat) (d : bytes) (p len : nat) : option (parsed N) :=
  if (len =? 0) || (16 <? len) then Some Reject
  else if (len <=? 8) || (lanes <? 16) then
    let? r := raw_digit_loop (S len) U64 d p len 0 0%N in Some (match r with None => Reject | Some r => Value r end)
  else if 64 <? lanes then Some Undefined
  else
    let? copied := raw_copy (S len) d p len 0 in
    let buf := copied ++ repeat 0%N (64 - length copied) in
    let invalid_bytes := map invalid_lane (firstn lanes buf) in
    if existsb (fun b => b) (firstn len invalid_bytes) then Some Reject
    else let? r := raw_combine_loop (S len) d p len 0 0%N in Some (Value r).
(** 99-111, 132-144: the sign, and where the digits are; the inner [None]: only a sign *)
Definition raw_take_sign (d : bytes) (p len : nat) : option (option (bool * nat * nat)) :=
  let? c := rd d p in
  if N.eqb c 45 then Some (if len - 1 =? 0 then None else Some (true, p + 1, len - 1))
  else if N.eqb c 43 then Some (if len - 1 =? 0 then None else Some (false, p + 1, len - 1))
  else Some (Some (false, p, len)).
(** 95-125 *)
Definition raw_parse_int32 (iso : bool) (lanes : nat) (d : bytes) (len : nat) : option (parsed Z) :=
  if (len =? 0) || (11 <? len) then Some Reject
  else
    let? s := raw_take_sign d 0 len in
    match s with
    | None => Some Reject
    | Some (negative, p, len) =>
        let? r := raw_parse_uint64 lanes d p len in
        Some (match r with Value result => finish iso 32 negative result | Reject => Reject | Undefined => Undefined end)
    end.
(** 149-158 *)
Fixpoint raw_checked_loop (fuel : nat) (d : bytes) (p len i : nat) (result : N) : option (option N) :=
  if i <? len then
    match fuel with
    | O => None
    | S f => let? x := rd d (p + i) in
        let c := digit_of x in
        if (9 <? c)%N then Some None
        else if ((18446744073709551615 - c) / 10 <? result)%N then Some None
        else raw_checked_loop f d p len (i + 1) ((result * 10 + c) mod U64)%N
    end
  else Some (Some result).
(** 128-172 *)
Definition raw_parse_int64 (iso : bool) (lanes : nat) (d : bytes) (len : nat) : option (parsed Z) :=
  if (len =? 0) || (20 <? len) then Some Reject
  else
    let? s := raw_take_sign d 0 len in
    match s with
    | None => Some Reject
    | Some (negative, p, len) =>
        if 16 <? len then
          let? r := raw_checked_loop (S len) d p len 0 0%N in
          Some (match r with None => Reject | Some result => finish iso 64 negative result end)
        else
          let? r := raw_parse_uint64 lanes d p len in
          Some (match r with Value result => finish iso 64 negative result | Reject => Reject | Undefined => Undefined end)
    end.
(** parse_int32_fast, parse_int64_fast of fast_arrow_context.h:56-95, 113-152; std::from_chars reads the digits it is given. *)
Definition raw_parse_int_fast (iso : bool) (bits : N) (max_len short : nat) (d : bytes) (len : nat) : option (parsed Z) :=
  if (len =? 0) || (max_len <? len) then Some Reject
  else
    let? s := raw_take_sign d 0 len in
    match s with
    | None => Some Reject
    | Some (negative, p, len) =>
        if len <=? short then
          let? r := raw_digit_loop (S len) (2 ^ bits) d p len 0 0%N in
          Some (match r with
                | None => Reject
                | Some r => if negative then negate_signed iso bits (to_signed bits r) else Value (to_signed bits r)
                end)
        else
          let? digits := view d p len in
          Some (match from_chars bits digits with
                | Some (v, []) => if negative then negate_signed iso bits v else Value v
                | _ => Reject
                end)
    end.
