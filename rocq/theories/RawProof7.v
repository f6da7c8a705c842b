(** parse_line and the integer parsers with explicit reads compute what the list models compute. *)
From Verif Require Import Base TypesSpec WordsModel ChunkModel ChunkProof ChunkProof2 FieldsModel NumModel ReaderModel TypesModel RawModel RawProof RawModel3 RawProof6.

Section Line.
Context {V : Type}.
Variable conv : nat -> bytes -> option V.
Variables (sep q : byte) (ln : line_nulls).
Lemma line_loop_step c rest inq cur k cols : line_loop conv sep q ln (c :: rest) inq cur k cols =
  if length cols <=? k then (cols, k, cur)
  else if negb inq && is_nl c then (put_field conv ln cur k cols, S k, [])
  else if N.eqb c q then
    if inq && next_is q rest then line_loop conv sep q ln (tl rest) inq (cur ++ [q]) k cols
    else line_loop conv sep q ln rest (negb inq) cur k cols
  else if N.eqb c sep && negb inq then line_loop conv sep q ln rest inq [] (S k) (put_field conv ln cur k cols)
  else if (length cur =? 0) && negb inq && is_blank c then line_loop conv sep q ln rest inq cur k cols
  else line_loop conv sep q ln rest inq (cur ++ [c]) k cols.
Proof.
  cbn [line_loop]. destruct (length cols <=? k); [reflexivity|]. destruct (negb inq && is_nl c); [reflexivity|]. destruct (N.eqb c q); [|reflexivity].
  destruct inq; [|destruct rest; reflexivity]. destruct rest as [|x r]; [reflexivity|]. cbn [andb next_is tl]. destruct (N.eqb x q); reflexivity.
Qed.
Lemma line_loop_full l inq cur k cols : length cols <= k -> line_loop conv sep q ln l inq cur k cols = (cols, k, cur).
Proof. intros H. destruct l as [|c l]; [reflexivity|]. rewrite line_loop_step, (proj2 (Nat.leb_le _ _) H). reflexivity. Qed.
Lemma raw_line_loop_eq d : forall f i inq cur k cols, length d - i <= f ->
  raw_line_loop conv sep q ln f d (length d) i inq cur k cols = Some (line_loop conv sep q ln (skipn i d) inq cur k cols).
Proof.
  induction f as [|f IH]; intros i inq cur k cols Hf; cbn [raw_line_loop]; (destruct (Nat.ltb_spec k (length cols)) as [K|K];
    [|rewrite andb_false_r, line_loop_full by assumption; reflexivity]); rewrite andb_true_r.
  - destruct (pos d i) as [-> ->|c E1 E2 E3]; [reflexivity|]. apply Nat.ltb_lt in E1. lia.
  - destruct (pos d i) as [-> ->|c E1 E2 E3]; [reflexivity|]. rewrite E1, E2, E3, line_loop_step, also_peek.
    replace (length cols <=? k) with false by (symmetry; apply Nat.leb_gt; assumption). replace (i + 1 + 1) with (i + 2) by lia.
    destruct (negb inq && is_nl c); [reflexivity|]. destruct (N.eqb c q).
    + destruct (inq && next_is q (skipn (i + 1) d)); [rewrite <- skipn_2|]; apply IH; lia.
    + destruct (N.eqb c sep && negb inq); [apply IH; lia|]. destruct (_ && is_blank c); apply IH; lia.
Qed.
Lemma raw_parse_line_eq d cols : raw_parse_line conv sep q ln d (length d) cols = Some (parse_line conv sep q ln d cols).
Proof.
  unfold raw_parse_line, parse_line. destruct ((length d =? 0) || (length cols =? 0)); [reflexivity|]. rewrite raw_line_loop_eq by lia.
  change (skipn 0 d) with d. destruct (line_loop conv sep q ln d false [] 0 cols) as [[cols1 k1] cur]. destruct (_ && _); reflexivity.
Qed.
End Line.

(** Digits from [p + i] to [p + len]. *)
Definition rest_of (d : bytes) (p len i : nat) : bytes := firstn (len - i) (skipn (p + i) d).
Inductive in_text (d : bytes) (p len i : nat) : Prop :=
| TextEnd : (i <? len) = false -> rest_of d p len i = [] -> in_text d p len i
| TextByte c : (i <? len) = true -> i < len -> rd d (p + i) = Some c -> rest_of d p len i = c :: rest_of d p len (i + 1) -> in_text d p len i.
Lemma in_text_at d p len i : p + len <= length d -> in_text d p len i.
Proof.
  intros H. destruct (Nat.ltb_spec i len) as [L|L].
  - destruct (rd_some d (p + i)) as (c & A & B); [lia|]. apply TextByte with c; [apply Nat.ltb_lt, L|exact L|exact A|].
    unfold rest_of. rewrite B. replace (len - i) with (S (len - (i + 1))) by lia. cbn [firstn]. rewrite Nat.add_assoc. reflexivity.
  - apply TextEnd; [apply Nat.ltb_ge, L|]. unfold rest_of. replace (len - i) with 0 by lia. reflexivity.
Qed.
Section Digits.
Variables (d : bytes) (p len : nat).
Hypothesis Hd : p + len <= length d.
Lemma raw_digit_eq m : forall f i r, len - i < f -> raw_digit_loop f m d p len i r = Some (digit_loop m r (rest_of d p len i)).
Proof.
  induction f as [|f IH]; intros i r Hf; [lia|]. cbn [raw_digit_loop]. destruct (in_text_at d p len i Hd) as [-> ->|c -> L -> ->]; [reflexivity|].
  cbn [digit_loop]. cbv zeta. destruct (9 <? digit_of c)%N; [reflexivity|]. apply IH. lia.
Qed.
Lemma raw_combine_eq : forall f i r, len - i < f -> raw_combine_loop f d p len i r = Some (combine_loop r (rest_of d p len i)).
Proof.
  induction f as [|f IH]; intros i r Hf; [lia|]. cbn [raw_combine_loop]. destruct (in_text_at d p len i Hd) as [-> ->|c -> L -> ->]; [reflexivity|].
  cbn [combine_loop]. apply IH. lia.
Qed.
Lemma raw_checked_eq : forall f i r, len - i < f -> raw_checked_loop f d p len i r = Some (checked_loop r (rest_of d p len i)).
Proof.
  induction f as [|f IH]; intros i r Hf; [lia|]. cbn [raw_checked_loop]. destruct (in_text_at d p len i Hd) as [-> ->|c -> L -> ->]; [reflexivity|].
  cbn [checked_loop]. cbv zeta. destruct (9 <? digit_of c)%N; [reflexivity|]. destruct (_ <? r)%N; [reflexivity|]. apply IH. lia.
Qed.
Lemma raw_copy_eq : len <= 64 -> forall f i, len - i < f -> raw_copy f d p len i = Some (rest_of d p len i).
Proof.
  intros H64. induction f as [|f IH]; intros i Hf; [lia|]. cbn [raw_copy]. destruct (in_text_at d p len i Hd) as [-> ->|c -> L -> ->]; [reflexivity|].
  rewrite (proj2 (Nat.ltb_lt i 64)) by lia. cbn [andb]. rewrite IH by lia. reflexivity.
Qed.
Definition text : bytes := firstn len (skipn p d).
Lemma rest_0 : rest_of d p len 0 = text. Proof. unfold rest_of, text. rewrite Nat.sub_0_r, Nat.add_0_r. reflexivity. Qed.
Lemma text_length : length text = len. Proof. unfold text. rewrite firstn_length_le; [reflexivity|rewrite skipn_length; lia]. Qed.
Lemma raw_uint64_eq lanes : raw_parse_uint64 lanes d p len = Some (parse_uint64_simd lanes text).
Proof.
  unfold raw_parse_uint64, parse_uint64_simd. rewrite text_length. cbv zeta. destruct (Nat.ltb_spec 16 len) as [L|L]; [rewrite orb_true_r; reflexivity|].
  destruct (len =? 0); [reflexivity|]. cbn [orb].
  rewrite raw_digit_eq, raw_copy_eq, raw_combine_eq, rest_0 by lia. rewrite text_length.
  destruct ((len <=? 8) || (lanes <? 16)); [reflexivity|]. destruct (64 <? lanes); [reflexivity|].
  destruct (existsb _ _); reflexivity.
Qed.
End Digits.
Lemma sign_text d p len c : len <> 0 -> p + len <= length d -> rd d p = Some c -> text d p len = c :: text d (p + 1) (len - 1).
Proof.
  intros H L E. unfold text. destruct (rd_some d p) as (c' & A & ->); [lia|]. assert (c' = c) by congruence. subst c'.
  replace len with (S (len - 1)) at 1 by lia. reflexivity.
Qed.
(** The sign and where the digits are. *)
Lemma raw_sign_eq d len : len <> 0 -> len <= length d ->
  match raw_take_sign d 0 len with
  | Some None => take_sign (text d 0 len) = None
  | Some (Some (neg, p, n)) => take_sign (text d 0 len) = Some (neg, text d p n) /\ p + n <= length d
  | None => False
  end.
Proof.
  intros H L. unfold raw_take_sign. destruct (rd_some d 0) as (c & E & _); [lia|]. rewrite E. pose proof (sign_text d 0 len c H L E) as T. change (0 + 1) with 1 in *. rewrite T.
  assert (TL : length (text d 1 (len - 1)) = len - 1) by (apply text_length; lia).
  cbn [take_sign]. destruct (N.eqb c 45); [|destruct (N.eqb c 43); [|split; [rewrite T; reflexivity|lia]]].
  all: destruct (Nat.eqb_spec (len - 1) 0) as [Z|Z]; destruct (text d 1 (len - 1)) as [|x r] eqn:R; cbn [length] in TL; try lia; try reflexivity; split; [reflexivity|lia].
Qed.
Lemma whole (d : bytes) : text d 0 (length d) = d.
Proof. unfold text. change (skipn 0 d) with d. apply firstn_all. Qed.
Section Ints.
Variables (iso : bool) (lanes : nat) (d : bytes).
Lemma raw_int32_eq : raw_parse_int32 iso lanes d (length d) = Some (parse_int32_simd iso lanes d).
Proof.
  unfold raw_parse_int32, parse_int32_simd. destruct (length d =? 0) eqn:Z; [reflexivity|]. apply Nat.eqb_neq in Z. destruct (11 <? length d); [reflexivity|]. cbn [orb].
  pose proof (raw_sign_eq d (length d) Z (le_n _)) as S1. rewrite whole in S1. destruct (raw_take_sign d 0 (length d)) as [[[[neg p] n]|]|]; [|rewrite S1; reflexivity|contradiction].
  destruct S1 as [-> L]. rewrite raw_uint64_eq by assumption. destruct (parse_uint64_simd lanes (text d p n)); reflexivity.
Qed.
Lemma raw_int64_eq : raw_parse_int64 iso lanes d (length d) = Some (parse_int64_simd iso lanes d).
Proof.
  unfold raw_parse_int64, parse_int64_simd. destruct (length d =? 0) eqn:Z; [reflexivity|]. apply Nat.eqb_neq in Z. destruct (20 <? length d); [reflexivity|]. cbn [orb].
  pose proof (raw_sign_eq d (length d) Z (le_n _)) as S1. rewrite whole in S1. destruct (raw_take_sign d 0 (length d)) as [[[[neg p] n]|]|]; [|rewrite S1; reflexivity|contradiction].
  destruct S1 as [-> L]. rewrite raw_uint64_eq, raw_checked_eq, rest_0 by (assumption || lia). rewrite text_length by assumption.
  destruct (16 <? n); [destruct (checked_loop 0 (text d p n)); reflexivity|]. destruct (parse_uint64_simd lanes (text d p n)); reflexivity.
Qed.
Lemma raw_fast_eq bits max_len short : raw_parse_int_fast iso bits max_len short d (length d) = Some (parse_int_fast iso bits max_len short d).
Proof.
  unfold raw_parse_int_fast, parse_int_fast. destruct (length d =? 0) eqn:Z; [reflexivity|]. apply Nat.eqb_neq in Z. destruct (max_len <? length d); [reflexivity|]. cbn [orb].
  pose proof (raw_sign_eq d (length d) Z (le_n _)) as S1. rewrite whole in S1. destruct (raw_take_sign d 0 (length d)) as [[[[neg p] n]|]|]; [|rewrite S1; reflexivity|contradiction].
  destruct S1 as [-> L]. rewrite raw_digit_eq, rest_0, view_some by (assumption || lia). rewrite text_length by assumption.
  destruct (n <=? short); [destruct (digit_loop (2 ^ bits) 0 (text d p n)); reflexivity|]. unfold text.
  destruct (from_chars bits (firstn n (skipn p d))) as [[v [|x r]]|]; reflexivity.
Qed.
End Ints.
