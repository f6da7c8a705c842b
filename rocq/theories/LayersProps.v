(** Property theorems C90: one text through the three families of columns. *)
From Verif Require Import Base NumSpec NumModel NumProof TypesSpec WordsModel ChunkModel FieldsModel DateModel ReaderModel TypesModel LayersSpec LayersModel LayersProof.
Local Open Scope Z_scope.

(** Texts, floats, booleans, dates and timestamps: the same entry in all three,
    whatever the text. *)
Theorem C90_other_types_agree :
  forall {F : Type} (ff : bytes -> option F) (lanes : nat) (t : data_type) (l : bytes),
    ff [] = None -> t <> INT32 -> t <> INT64 ->
    builder_append ff t l = append_value ff lanes t l /\ context_append ff t l = append_value ff lanes t l.
Proof.
  intros F ff lanes t l Hf H32 H64.
  destruct t; try congruence; destruct l; split; cbn [builder_append context_append append_value builder_bool]; try reflexivity.
  rewrite Hf. reflexivity.
Qed.
Print Assumptions C90_other_types_agree.

(** What ColumnBuilder makes of a text in an integer column: an optional minus
    sign and digits, however many, if the value fits; anything else is null. *)
Theorem C90_builder_integers :
  forall {F : Type} (ff : bytes -> option F) (l : bytes) (v : Z),
    (builder_append ff INT32 l = Some (VInt v) <-> minus_text l = Some v /\ in_signed 32 v) /\
    (builder_append ff INT64 l = Some (VInt v) <-> minus_text l = Some v /\ in_signed 64 v) /\
    (forall t x, t = INT32 \/ t = INT64 -> builder_append ff t l = Some x -> exists z, x = VInt z).
Proof.
  intros F ff l v. split; [exact (builder_int_value 32 l v)|]. split; [exact (builder_int_value 64 l v)|].
  intros t x [-> | ->] H; exact (builder_int_ints _ l x H).
Qed.
Print Assumptions C90_builder_integers.

(** What FastColumnContext makes of it: an integer of at most 11 (20) characters
    other than the least one, or a doubled sign followed by 9 (18) digits. *)
Theorem C90_context_integers :
  forall {F : Type} (ff : bytes -> option F) (l : bytes) (v : Z), is_bytes l ->
    (context_append ff INT32 l = Some (VInt v) <->
      (integer_text l = Some v /\ (length l <= 11)%nat /\ in_signed 32 v /\ v <> int_min 32) \/
      (two_signs 9 l /\ integer_text (tl l) = Some (if N.eqb (hd 0%N l) 45 then - v else v))) /\
    (context_append ff INT64 l = Some (VInt v) <->
      (integer_text l = Some v /\ (length l <= 20)%nat /\ in_signed 64 v /\ v <> int_min 64) \/
      (two_signs 18 l /\ integer_text (tl l) = Some (if N.eqb (hd 0%N l) 45 then - v else v))).
Proof.
  intros F ff l v Hb. split.
  - exact (iff_trans (of_parsed_value _ v) (fast_value 32 11 l v (or_introl (conj eq_refl eq_refl)) Hb)).
  - exact (iff_trans (of_parsed_value _ v) (fast_value 64 20 l v (or_intror (conj eq_refl eq_refl)) Hb)).
Qed.
Print Assumptions C90_context_integers.

(** Exactly the texts of integer columns on which the families agree: ColumnBuilder
    differs from FastArrowContext on texts with a plus sign and on long texts (leading
    zeros); FastColumnContext differs on doubled signs and on the least integer. *)
Theorem C90_integers_agree_exactly_partial :
  forall {F : Type} (ff : bytes -> option F) (lanes : nat) (l : bytes), (lanes <= 64)%nat -> is_bytes l ->
    (builder_append ff INT32 l = append_value ff lanes INT32 l <->
      ~ (exists v, in_signed 32 v /\ ((hd 0%N l = 43%N /\ integer_text l = Some v /\ (length l <= 11)%nat) \/
                                     (minus_text l = Some v /\ (11 < length l)%nat)))) /\
    (builder_append ff INT64 l = append_value ff lanes INT64 l <->
      ~ (exists v, in_signed 64 v /\ ((hd 0%N l = 43%N /\ integer_text l = Some v /\ (length l <= 20)%nat) \/
                                     (minus_text l = Some v /\ (20 < length l)%nat)))) /\
    (context_append ff INT32 l = append_value ff lanes INT32 l <->
      ~ two_signs 9 l /\ ~ (integer_text l = Some (int_min 32) /\ (length l <= 11)%nat)) /\
    (context_append ff INT64 l = append_value ff lanes INT64 l <->
      ~ two_signs 18 l /\ ~ (integer_text l = Some (int_min 64) /\ (length l <= 20)%nat)).
Proof.
  intros F ff lanes l Hla Hb. unfold append_value.
  rewrite (int32_spec false lanes l Hla Hb), (int64_spec false lanes l Hla Hb).
  exact (conj (builder_arrow 32 11 l) (conj (builder_arrow 64 20 l)
    (conj (context_arrow 32 11 l (or_introl (conj eq_refl eq_refl)) Hb) (context_arrow 64 20 l (or_intror (conj eq_refl eq_refl)) Hb)))).
Qed.
Print Assumptions C90_integers_agree_exactly_partial.

(** A text whose value depends on the family: 7 with a plus sign, 1 with twelve
    digits, the least integer, two minus signs. *)
Theorem C90_same_text_other_value_refuted :
  forall {F : Type} (ff : bytes -> option F),
    (append_value ff 16 INT32 (s2b "+7") = Some (VInt 7) /\ builder_append ff INT32 (s2b "+7") = None) /\
    (append_value ff 16 INT32 (s2b "000000000001") = None /\ builder_append ff INT32 (s2b "000000000001") = Some (VInt 1)) /\
    (append_value ff 16 INT32 (s2b "-2147483648") = Some (VInt (int_min 32)) /\ context_append ff INT32 (s2b "-2147483648") = None) /\
    (append_value ff 16 INT32 (s2b "--123456789") = None /\ context_append ff INT32 (s2b "--123456789") = Some (VInt 123456789)).
Proof. intros F ff. repeat split; vm_compute; reflexivity. Qed.
Print Assumptions C90_same_text_other_value_refuted.

Example C90_nonvacuous :
  is_bytes (s2b "-42") /\ minus_text (s2b "-42") = Some (-42) /\ in_signed 32 (-42) /\
  builder_append (fun _ => None : option nat) INT32 (s2b "-42") = Some (VInt (-42)) /\
  append_value (fun _ => None : option nat) 16 INT32 (s2b "-42") = Some (VInt (-42)) /\
  context_append (fun _ => None : option nat) INT32 (s2b "-42") = Some (VInt (-42)) /\
  two_signs 9 (s2b "+-123456789") /\ builder_append (fun _ => None : option nat) BOOL (s2b "yes") = Some (VBool true).
Proof.
  repeat split; try (vm_compute; reflexivity); try (vm_compute; intros H; discriminate H); try (repeat constructor; fail).
  exists 43%N, (s2b "123456789"). repeat split; try reflexivity. right. reflexivity.
Qed.
