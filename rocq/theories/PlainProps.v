(** C35: PLAIN encoding.  C36: dictionaries. *)
From Verif Require Import Base VarintSpec ThriftSpec BuffersSpec BuffersModel BuffersObs BuffersReach BuffersReachProof
  RleSpec PlainSpec PlainModel PlainProof PlainProof2.

(** C35, integer and floating-point columns built in any way; [rest] is whatever follows. *)
Theorem C35_int32 : forall dflt c l, fixed_built dflt c l -> (forall z, In (Some z) l -> int32 z) ->
  exists bs, encode_int32_plain_arrow (c_values c) (c_nulls c) = Some bs /\
    forall rest, read_plain_column P_INT32 (valid_flags l) (bs ++ rest) = Some (map (option_map CInt) l, rest).
Proof.
  intros dflt c l Hb HV. eexists. split; [apply fixed_arrow_bytes; [intros v; apply int_bytes_length|apply (fixed_built_shows _ dflt); exact Hb]|].
  intros rest. apply fixed_column_read; [discriminate|]. apply Forall_forall. intros z Hz. apply read_int32, HV, in_present, Hz.
Qed.
Print Assumptions C35_int32.
Theorem C35_int64 : forall dflt c l, fixed_built dflt c l -> (forall z, In (Some z) l -> int64 z) ->
  exists bs, encode_int64_plain_arrow (c_values c) (c_nulls c) = Some bs /\
    forall rest, read_plain_column P_INT64 (valid_flags l) (bs ++ rest) = Some (map (option_map CInt) l, rest).
Proof.
  intros dflt c l Hb HV. eexists. split; [apply fixed_arrow_bytes; [intros v; apply int_bytes_length|apply (fixed_built_shows _ dflt); exact Hb]|].
  intros rest. apply fixed_column_read; [discriminate|]. apply Forall_forall. intros z Hz. apply read_int64, HV, in_present, Hz.
Qed.
Print Assumptions C35_int64.
(** Doubles bit by bit, so NaN payloads and signed zeros included. *)
Theorem C35_float64 : forall dflt c l, fixed_built dflt c l -> (forall bits, In (Some bits) l -> (bits < 2 ^ 64)%N) ->
  exists bs, encode_float64_plain_arrow (c_values c) (c_nulls c) = Some bs /\
    forall rest, read_plain_column P_DOUBLE (valid_flags l) (bs ++ rest) = Some (map (option_map CDouble) l, rest).
Proof.
  intros dflt c l Hb HV. eexists. split; [apply fixed_arrow_bytes; [intros v; apply int_bytes_length|apply (fixed_built_shows _ dflt); exact Hb]|].
  intros rest. apply fixed_column_read; [discriminate|]. apply Forall_forall. intros z Hz. apply read_double, HV, in_present, Hz.
Qed.
Print Assumptions C35_float64.
(** Booleans are stored as bytes; any byte but 0 is true. *)
Theorem C35_bool : forall dflt c l, fixed_built dflt c l ->
  exists bs, encode_bool_plain_arrow (c_values c) (c_nulls c) = Some bs /\
    forall rest, read_plain_column P_BOOLEAN (valid_flags l) (bs ++ rest)
                 = Some (map (option_map (fun v => CBool (negb (v =? 0)%N))) l, rest).
Proof.
  intros dflt c l Hb. destruct (bool_arrow_bytes c l) as (bs & E1 & _ & E2); [apply (fixed_built_shows _ dflt); exact Hb|].
  exists bs. split; [exact E1|]. intros rest. apply bool_column_read, E2.
Qed.
Print Assumptions C35_bool.
Theorem C35_string : forall c l, strings_built c l ->
  exists bs, encode_byte_array_plain_arrow (c_values c) (c_nulls c) = Some bs /\
    forall rest, read_plain_column P_BYTE_ARRAY (valid_flags l) (bs ++ rest) = Some (map (option_map CBytes) l, rest).
Proof.
  intros c l Hb. eexists. split; [apply string_arrow_bytes, strings_built_shows, Hb|].
  intros rest. apply fixed_column_read; [discriminate|]. apply Forall_forall. intros s Hs. apply read_string.
  eapply N.le_lt_trans; [apply texts_size_each; exact Hs|]. apply (strings_built_small _ _ Hb).
Qed.
Print Assumptions C35_string.

(** C35, the same for a vector with a vector of null flags. *)
Theorem C35_vectors_int32 : forall values nulls, nulls = [] \/ length nulls = length values -> Forall int32 values ->
  exists bs, encode_int32_plain values nulls = Some bs /\
    forall rest, read_plain_column P_INT32 (valid_flags (legacy_rows values nulls)) (bs ++ rest)
                 = Some (map (option_map CInt) (legacy_rows values nulls), rest).
Proof.
  intros values nulls Hl HV. eexists. split; [apply fixed_legacy_bytes; [intros v; apply int_bytes_length|exact Hl]|].
  intros rest. apply fixed_column_read; [discriminate|]. eapply Forall_impl; [exact read_int32|]. apply legacy_present, HV.
Qed.
Print Assumptions C35_vectors_int32.
Theorem C35_vectors_int64 : forall values nulls, nulls = [] \/ length nulls = length values -> Forall int64 values ->
  exists bs, encode_int64_plain values nulls = Some bs /\
    forall rest, read_plain_column P_INT64 (valid_flags (legacy_rows values nulls)) (bs ++ rest)
                 = Some (map (option_map CInt) (legacy_rows values nulls), rest).
Proof.
  intros values nulls Hl HV. eexists. split; [apply fixed_legacy_bytes; [intros v; apply int_bytes_length|exact Hl]|].
  intros rest. apply fixed_column_read; [discriminate|]. eapply Forall_impl; [exact read_int64|]. apply legacy_present, HV.
Qed.
Print Assumptions C35_vectors_int64.
Theorem C35_vectors_float64 : forall values nulls, nulls = [] \/ length nulls = length values -> Forall (fun b => (b < 2 ^ 64)%N) values ->
  exists bs, encode_float64_plain values nulls = Some bs /\
    forall rest, read_plain_column P_DOUBLE (valid_flags (legacy_rows values nulls)) (bs ++ rest)
                 = Some (map (option_map CDouble) (legacy_rows values nulls), rest).
Proof.
  intros values nulls Hl HV. eexists. split; [apply fixed_legacy_bytes; [intros v; apply int_bytes_length|exact Hl]|].
  intros rest. apply fixed_column_read; [discriminate|]. eapply Forall_impl; [exact read_double|]. apply legacy_present, HV.
Qed.
Print Assumptions C35_vectors_float64.
Theorem C35_vectors_bool : forall values nulls, nulls = [] \/ length nulls = length values ->
  exists bs, encode_bool_plain values nulls = Some bs /\
    forall rest, read_plain_column P_BOOLEAN (valid_flags (legacy_rows values nulls)) (bs ++ rest)
                 = Some (map (option_map CBool) (legacy_rows values nulls), rest).
Proof.
  intros values nulls Hl. destruct (bool_legacy_bytes values nulls Hl) as (bs & E1 & E2).
  exists bs. split; [exact E1|]. intros rest. apply bool_column_read, E2.
Qed.
Print Assumptions C35_vectors_bool.
Theorem C35_vectors_string : forall values nulls, nulls = [] \/ length nulls = length values ->
  Forall (fun s => (N.of_nat (length s) < 2 ^ 32)%N) values ->
  exists bs, encode_byte_array_plain values nulls = Some bs /\
    forall rest, read_plain_column P_BYTE_ARRAY (valid_flags (legacy_rows values nulls)) (bs ++ rest)
                 = Some (map (option_map CBytes) (legacy_rows values nulls), rest).
Proof.
  intros values nulls Hl HV. eexists. split; [apply string_legacy_bytes, Hl|].
  intros rest. apply fixed_column_read; [discriminate|]. eapply Forall_impl; [exact read_string|]. apply legacy_present, HV.
Qed.
Print Assumptions C35_vectors_string.
(** The dictionary pages hold the entries in PLAIN form. *)
Theorem C35_dictionary_pages : forall (strings : list bytes) (ints : list Z),
  (Forall (fun s => (N.of_nat (length s) < 2 ^ 32)%N) strings ->
     exists bs, encode_dictionary_page_strings strings = Some bs /\
       forall rest, read_plain P_BYTE_ARRAY (length strings) (bs ++ rest) = Some (map CBytes strings, rest)) /\
  (Forall int32 ints ->
     forall rest, read_plain P_INT32 (length ints) (write_int32_dictionary_page ints ++ rest) = Some (map CInt ints, rest)) /\
  (Forall int64 ints ->
     forall rest, read_plain P_INT64 (length ints) (write_int64_dictionary_page ints ++ rest) = Some (map CInt ints, rest)).
Proof. exact dictionary_pages_read. Qed.
Print Assumptions C35_dictionary_pages.

Example C35_meets :
  let l := [Some 5; None; Some (-2147483648)]%Z in
  let m := Bitmap [253]%N 3 1 true in
  fixed_built 0%Z (Column [5; 0; -2147483648]%Z m) l /\
  encode_int32_plain_arrow [5; 0; -2147483648]%Z m = Some [5; 0; 0; 0; 0; 0; 0; 128]%N /\
  read_plain_column P_INT32 (valid_flags l) [5; 0; 0; 0; 0; 0; 0; 128; 77]%N = Some ([Some (CInt 5); None; Some (CInt (-2147483648))], [77%N]) /\
  encode_bool_plain [true; false; true; true; false; true; true; true; true] [false; true; false; false; false; false; false; false; false]
    = Some [247]%N /\
  encode_byte_array_plain [s2b "ab"; s2b "x"; s2b ""] [false; true; false] = Some [2; 0; 0; 0; 97; 98; 0; 0; 0; 0]%N.
Proof.
  cbv zeta. split; [|repeat split; vm_compute; reflexivity].
  exists (New :: map (Push 0) [Some 5; None; Some (-2147483648)]%Z), [[Some 5; None; Some (-2147483648)]%Z], [Column [5; 0; -2147483648]%Z (Bitmap [253]%N 3 1 true)], 0. repeat split; vm_compute; reflexivity.
Qed.
Print Assumptions C35_meets.

(** C36. *)
Theorem C36_string_columns : forall c l, strings_built c l -> (N.of_nat (length l) <= 2 ^ 31)%N ->
  exists dict indices, create_string_dictionary_arrow (c_values c) (c_nulls c) = Some (dict, indices) /\
    faithful_dictionary l dict indices.
Proof.
  intros c l Hb Hl. do 2 eexists. split; [rewrite (create_arrow_rows c l (strings_built_shows _ _ Hb)); apply f_equal, surjective_pairing|].
  apply dict_rows_faithful; [exact bytes_equal_ok|exact Hl].
Qed.
Print Assumptions C36_string_columns.
Theorem C36_vectors_string : forall values nulls, nulls = [] \/ length nulls = length values -> (N.of_nat (length values) <= 2 ^ 31)%N ->
  exists dict indices, create_string_dictionary values nulls = Some (dict, indices) /\
    faithful_dictionary (legacy_rows values nulls) dict indices.
Proof.
  intros values nulls H Hl. do 2 eexists. split; [unfold create_string_dictionary; rewrite create_dictionary_rows by exact H; apply f_equal, surjective_pairing|].
  apply dict_rows_faithful; [exact bytes_equal_ok|rewrite legacy_rows_length by exact H; exact Hl].
Qed.
Print Assumptions C36_vectors_string.
Theorem C36_vectors_int : forall values nulls, nulls = [] \/ length nulls = length values -> (N.of_nat (length values) <= 2 ^ 31)%N ->
  exists dict indices, create_int_dictionary values nulls = Some (dict, indices) /\
    faithful_dictionary (legacy_rows values nulls) dict indices.
Proof.
  intros values nulls H Hl. do 2 eexists. split; [unfold create_int_dictionary; rewrite create_dictionary_rows by exact H; apply f_equal, surjective_pairing|].
  apply dict_rows_faithful; [exact Z.eqb_eq|rewrite legacy_rows_length by exact H; exact Hl].
Qed.
Print Assumptions C36_vectors_int.
Example C36_meets :
  create_string_dictionary [s2b "b"; s2b "a"; s2b "b"; s2b "z"] [false; false; false; true] = Some ([s2b "b"; s2b "a"], [0; 1; 0; -1]%Z) /\
  create_int_dictionary [7; 7; -3]%Z [] = Some ([7; -3]%Z, [0; 0; 1]%Z).
Proof. vm_compute. auto. Qed.
Print Assumptions C36_meets.
