(** How the observers of the API relate a buffer to the list it should be. *)
From Verif Require Import Base BuffersSpec BuffersModel.

(** What can be observed of a bitmap. *)
Definition shows_flags (m : bitmap) (l : list bool) : Prop :=
  bm_size m = length l /\
  (forall i v, nth_error l i = Some v -> is_valid m i = Some v) /\
  null_count m = Some (nulls_in l) /\
  null_count_fast m = nulls_in l /\
  bm_has_nulls m = some_null l /\
  (some_null l = true -> bits_are (bm_data m) l) /\
  (exists m', bm_finalize m = Some m' /\ bits_are (bm_data m') l).

(** What can be observed of a string buffer. *)
Definition shows_texts (b : strbuf) (l : list bytes) : Prop :=
  sb_size b = length l /\ sb_data b = concat l /\ (forall i s, nth_error l i = Some s ->
     sb_get b i = Some s /\ sb_length b i = Some (N.of_nat (length s))).

(** What can be observed of a column builder: its size, its null count, and cell by cell. *)
Definition shows_fixed {V} (c : column (list V)) (l : list (option V)) : Prop :=
  fx_size c = length l /\ shows_flags (c_nulls c) (valid_flags l) /\ col_null_count c = nulls_in (valid_flags l) /\ (forall i v, nth_error l i = Some (Some v) -> nth_error (c_values c) i = Some v).
Definition shows_strings (c : column strbuf) (l : list (option bytes)) : Prop :=
  shows_texts (c_values c) (map text l) /\ shows_flags (c_nulls c) (valid_flags l) /\ col_null_count c = nulls_in (valid_flags l).
