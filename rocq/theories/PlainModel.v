(** PLAIN encoders and dictionaries.
    Models src/encoding/plain.cpp:15-379, 540-565, src/writer/dictionary.cpp and
    src/writer/page_writer.cpp:86-175 (before compression).
    Every encoder returns the bytes appended to output; None = undefined behaviour (an element
    outside a vector, or bytes written outside the part of output that was made room for).
    The host is little endian (as memcpy of integers assumes). *)
From Verif Require Import Base BuffersModel RleModel.

(** The object representation of an integer of [w] bytes. *)
Definition int_bytes (w : nat) (z : Z) : bytes :=
  map (fun k => Z.to_N (Z.shiftr z (8 * Z.of_nat k) mod 256)) (seq 0 w).
Definition int32_bytes : Z -> bytes := int_bytes 4.
Definition int64_bytes : Z -> bytes := int_bytes 8.
(** A double is given by its 64 bits. *)
Definition double_bytes (bits : N) : bytes := int_bytes 8 (Z.of_N bits).

(** output.resize(start + total); then the pieces are copied one after another to dest. *)
Definition fill_region (total : nat) (pieces : list bytes) : option bytes :=
  let written := concat pieces in
  if length written <=? total then Some (written ++ repeat 0%N (total - length written)) else None.

(** The loops over i: the values whose row is valid. *)
Fixpoint keep_valid {V} (nulls : bitmap) (values : list V) (i : nat) : option (list V) :=
  match values with
  | [] => Some []
  | v :: r => match is_valid nulls i, keep_valid nulls r (S i) with
              | Some ok, Some l => Some (if ok then v :: l else l)
              | _, _ => None
              end
  end.

(** plain.cpp:247-271 (int32), 274-298 (int64), 301-325 (double): the same text up to the type. *)
Section FixedArrow.
Context {V : Type}.
Variable size : nat.
Variable repr : V -> bytes.
Definition encode_fixed_plain_arrow (values : list V) (nulls : bitmap) : option bytes :=
  let null_count := null_count_fast nulls in
  if null_count =? 0 then Some (concat (map repr values))
  else if length values <? null_count then None   (* size_t underflow; resize throws *)
  else match keep_valid nulls values 0 with
       | None => None
       | Some kept => fill_region ((length values - null_count) * size) (map repr kept)
       end.
(** plain.cpp:15-56, 59-99, 102-142: null_bitmap[i] true = null. *)
Fixpoint keep_flagged (values : list V) (null_bitmap : list bool) : option (list V) :=
  match values, null_bitmap with
  | [], _ => Some []
  | _ :: _, [] => None
  | v :: r, b :: bs => match keep_flagged r bs with Some l => Some (if b then l else v :: l) | None => None end
  end.
Fixpoint count_not_null (values : list V) (null_bitmap : list bool) (count : nat) : option nat :=
  match values, null_bitmap with
  | [], _ => Some count
  | _ :: _, [] => None
  | _ :: r, b :: bs => count_not_null r bs (if b then count else S count)
  end.
Definition encode_fixed_plain (values : list V) (null_bitmap : list bool) : option bytes :=
  match null_bitmap with
  | [] => Some (concat (map repr values))
  | _ => match count_not_null values null_bitmap 0, keep_flagged values null_bitmap with
         | Some n, Some kept => if n =? length values then Some (concat (map repr values))
                                else fill_region (n * size) (map repr kept)
         | _, _ => None
         end
  end.
End FixedArrow.

Definition encode_int32_plain_arrow := encode_fixed_plain_arrow 4 int32_bytes.
Definition encode_int64_plain_arrow := encode_fixed_plain_arrow 8 int64_bytes.
Definition encode_float64_plain_arrow := encode_fixed_plain_arrow 8 double_bytes.
Definition encode_int32_plain := encode_fixed_plain 4 int32_bytes.
Definition encode_int64_plain := encode_fixed_plain 8 int64_bytes.
Definition encode_float64_plain := encode_fixed_plain 8 double_bytes.

(** output[start + bit_idx / 8] |= (1 << (bit_idx % 8)); bit_idx++ (plain.cpp:338-346, 172-180, 150-154). *)
Fixpoint set_bits (out : bytes) (bit_idx : nat) (vs : list bool) : option bytes :=
  match vs with
  | [] => Some out
  | v :: r => match (if v then or_at out (bit_idx / 8) (bit_idx mod 8) else Some out) with
              | None => None
              | Some out' => set_bits out' (S bit_idx) r
              end
  end.
(** plain.cpp:328-347; values are uint8_t, any non-zero one is true. *)
Definition encode_bool_plain_arrow (values : list N) (nulls : bitmap) : option bytes :=
  let null_count := null_count_fast nulls in
  if length values <? null_count then None
  else match keep_valid nulls values 0 with
       | None => None
       | Some kept => set_bits (repeat 0%N ((length values - null_count + 7) / 8)) 0 (map (fun v => negb (v =? 0)%N) kept)
       end.
(** plain.cpp:158-181. *)
Definition encode_bool_plain (values : list bool) (null_bitmap : list bool) : option bytes :=
  match null_bitmap with
  | [] => set_bits (repeat 0%N ((length values + 7) / 8)) 0 values
  | _ => match count_not_null values null_bitmap 0, keep_flagged values null_bitmap with
         | Some n, Some kept => set_bits (repeat 0%N ((n + 7) / 8)) 0 kept
         | _, _ => None
         end
  end.

(** uint32_t len = s.size(); memcpy of len, then of the bytes (plain.cpp:198-204, 228-236, 368-376, 559-563). *)
Definition string_piece (s : bytes) : bytes := u32_bytes (N.of_nat (length s) mod 2 ^ 32) ++ s.

(** plain.cpp:354-358 and 365-378: n rows left, from row i. *)
Fixpoint string_total (values : strbuf) (nulls : bitmap) (n i : nat) (total : nat) : option nat :=
  match n with
  | O => Some total
  | S k => match is_valid nulls i with
           | None => None
           | Some false => string_total values nulls k (S i) total
           | Some true => match sb_length values i with
                          | None => None
                          | Some len => string_total values nulls k (S i) (total + (4 + N.to_nat len))
                          end
           end
  end.
Fixpoint string_pieces (values : strbuf) (nulls : bitmap) (n i : nat) : option (list bytes) :=
  match n with
  | O => Some []
  | S k => match is_valid nulls i, string_pieces values nulls k (S i) with
           | Some false, Some l => Some l
           | Some true, Some l => match sb_get values i with None => None | Some s => Some (string_piece s :: l) end
           | _, _ => None
           end
  end.
Definition encode_byte_array_plain_arrow (values : strbuf) (nulls : bitmap) : option bytes :=
  match string_total values nulls (sb_size values) 0 0, string_pieces values nulls (sb_size values) 0 with
  | Some total, Some pieces => fill_region total pieces
  | _, _ => None
  end.

(** plain.cpp:185-206, 546-565, page_writer.cpp:92-100. *)
Definition strings_size (l : list bytes) : nat := fold_left (fun total s => total + (4 + length s)) l 0.
Definition encode_string_plain (values : list bytes) : option bytes :=
  fill_region (strings_size values) (map string_piece values).
Definition encode_dictionary_page_strings (dictionary : list bytes) : option bytes :=
  fill_region (strings_size dictionary) (map string_piece dictionary).
(** plain.cpp:209-239. *)
Definition encode_byte_array_plain (values : list bytes) (null_bitmap : list bool) : option bytes :=
  match null_bitmap with
  | [] => encode_string_plain values
  | _ => match keep_flagged values null_bitmap with
         | Some kept => fill_region (strings_size kept) (map string_piece kept)
         | None => None
         end
  end.
(** page_writer.cpp:120-126, 146-151. *)
Definition write_int32_dictionary_page (dictionary : list Z) : bytes :=
  concat (map (fun v => map (fun k => Z.to_N (Z.land (Z.shiftr v k) 255)) [0; 8; 16; 24]%Z) dictionary).
Definition write_int64_dictionary_page (dictionary : list Z) : bytes :=
  concat (map (fun v => map (fun i => Z.to_N (Z.land (Z.shiftr v (Z.of_nat i * 8)) 255)) (seq 0 8)) dictionary).

(** ** Dictionaries.  The unordered_map is an association list: find and insert a key. *)
Section Dictionary.
Context {V : Type}.
Variable eqb : V -> V -> bool.
Fixpoint map_find (m : list (V * Z)) (v : V) : option Z :=
  match m with [] => None | (k, i) :: r => if eqb k v then Some i else map_find r v end.
Definition to_int32 (n : nat) : Z := ((Z.of_nat n + 2 ^ 31) mod 2 ^ 32 - 2 ^ 31)%Z.
Record dict_state : Type := Dict { d_map : list (V * Z); d_entries : list V; d_indices : list Z }.
Definition dict_step (d : dict_state) (row : option V) : dict_state :=
  match row with
  | None => Dict (d_map d) (d_entries d) (d_indices d ++ [-1]%Z)
  | Some v => match map_find (d_map d) v with
              | Some i => Dict (d_map d) (d_entries d) (d_indices d ++ [i])
              | None => let i := to_int32 (length (d_entries d)) in
                        Dict ((v, i) :: d_map d) (d_entries d ++ [v]) (d_indices d ++ [i])
              end
  end.
Definition dict_rows (rows : list (option V)) : list V * list Z :=
  let d := fold_left dict_step rows (Dict [] [] []) in (d_entries d, d_indices d).
(** dictionary.cpp:96-125 (string), 195-222 (int32), 261-288 (int64). *)
Fixpoint flagged_rows (values : list V) (null_bitmap : list bool) : option (list (option V)) :=
  match values, null_bitmap with
  | [], _ => Some []
  | _ :: _, [] => None
  | v :: r, b :: bs => match flagged_rows r bs with Some l => Some ((if b then None else Some v) :: l) | None => None end
  end.
Definition create_dictionary (values : list V) (null_bitmap : list bool) : option (list V * list Z) :=
  match null_bitmap with
  | [] => Some (dict_rows (map Some values))
  | _ => option_map dict_rows (flagged_rows values null_bitmap)
  end.
End Dictionary.
Arguments Dict {V}.

Fixpoint bytes_equal (a b : bytes) : bool :=
  match a, b with
  | [], [] => true
  | x :: r, y :: s => (x =? y)%N && bytes_equal r s
  | _, _ => false
  end.
Definition create_string_dictionary := create_dictionary bytes_equal.
Definition create_int_dictionary := create_dictionary Z.eqb.

(** The rows of a string column, read as dictionary.cpp:66-70 and 136-152 do. *)
Fixpoint string_rows (values : strbuf) (nulls : bitmap) (n i : nat) : option (list (option bytes)) :=
  match n with
  | O => Some []
  | S k => match is_valid nulls i, string_rows values nulls k (S i) with
           | Some false, Some l => Some (None :: l)
           | Some true, Some l => match sb_get values i with None => None | Some s => Some (Some s :: l) end
           | _, _ => None
           end
  end.
(** dictionary.cpp:129-155. *)
Definition create_string_dictionary_arrow (values : strbuf) (nulls : bitmap) : option (list bytes * list Z) :=
  option_map (dict_rows bytes_equal) (string_rows values nulls (sb_size values) 0).

(** dictionary.cpp:53-92.  [below cardinality total]: the comparison ratio < ratio_threshold of
    doubles, left open. *)
Fixpoint insert_all (rows : list (option bytes)) (set : list bytes) : list bytes :=
  match rows with
  | [] => set
  | None :: r => insert_all r set
  | Some s :: r => insert_all r (if existsb (bytes_equal s) set then set else s :: set)
  end.
Definition should_use_dictionary (below : nat -> nat -> bool) (values : strbuf) (nulls : bitmap) : option bool :=
  if sb_size values =? 0 then Some false
  else match string_rows values nulls (sb_size values) 0 with
       | None => None
       | Some rows =>
           let cardinality := length (insert_all rows []) in
           Some ((cardinality <=? 16) || (cardinality <=? 2048) && below cardinality (sb_size values))
       end.
