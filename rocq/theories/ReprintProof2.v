From Verif Require Import Base NumSpec NumModel NumProof NumProps DateSpec DateModel DateProof DateProof2 StampSpec FieldsSpec FieldsModel WordsModel ChunkSpec ChunkModel ReaderSpec ReaderModel TypesSpec TypesModel TypesProof TypesProof3
  CliModel CliProof CliProof2 KeepSpec KeepProof RoundSpec RoundProof RoundProof2 RoundProof3 RoundProof4 RoundProof5 ReprintSpec ReprintProof.

(** ** Printed texts have no separators, quotes, blanks and line breaks *)
Definition clean (t : bytes) : Prop := Forall (fun c => (33 <= c < 128 /\ c <> 34 /\ c <> 44)%N) t.

Lemma digits_clean n v l : digits n v l -> clean l.
Proof.
  intros (_ & A & _). apply Forall_forall. intros c Hc. rewrite forallb_forall in A. specialize (A c Hc).
  unfold is_digit in A. apply andb_true_iff in A. rewrite !N.leb_le in A. lia.
Qed.
Lemma clean_app a b : clean a -> clean b -> clean (a ++ b).
Proof. intros A B. apply Forall_app. split; assumption. Qed.
Lemma clean_one c : (33 <= c < 128 /\ c <> 34 /\ c <> 44)%N -> clean [c].
Proof. intros H. constructor; [exact H|constructor]. Qed.
Lemma date_clean l y m d : denotes_date l y m d -> clean l.
Proof.
  intros (sep & yt & mt & dt & Hs & -> & A & B & C & _). apply digits_clean in A, B, C.
  assert (clean [sep]) by (apply clean_one; lia). repeat apply clean_app; assumption.
Qed.
Lemma time_clean l a b c : denotes_time l a b c -> clean l.
Proof.
  intros (ht & mt & st & -> & A & B & C & _). apply digits_clean in A, B, C.
  assert (clean [58%N]) by (apply clean_one; lia). repeat apply clean_app; assumption.
Qed.
Lemma to_string_clean z : clean (to_string z).
Proof.
  assert (D : forall n, clean (to_string_N n)).
  { intros n. destruct (to_string_N_spec n) as (A & _). apply Forall_forall. intros c Hc.
    rewrite forallb_forall in A. specialize (A c Hc). unfold is_digit in A. apply andb_true_iff in A. rewrite !N.leb_le in A. lia. }
  unfold to_string. destruct (z <? 0)%Z; [|apply D]. constructor; [lia|apply D].
Qed.
Lemma clean_bytes t : clean t -> is_bytes t.
Proof. intros H. eapply Forall_impl; [|exact H]. cbn. intros c Hc. lia. Qed.

(** ** The type inferred for a printed text *)
Definition numeric_start (v : bytes) : Prop := exists c r, v = c :: r /\ (is_digit c = true \/ c = 45%N).
Lemma not_word s v : numeric_start v -> (forall p, In p (comma_pieces s) -> match p with c :: _ => is_digit c = false /\ c <> 45%N | [] => True end) ->
  in_list s v = false.
Proof.
  intros (c & r & -> & Hc) H. destruct (in_list s (c :: r)) eqn:E; [|reflexivity]. exfalso.
  rewrite in_list_spec in E by discriminate. unfold piece_of in E. apply existsb_exists in E as (p & Hp & Q).
  destruct (list_eq_dec N.eq_dec p (c :: r)); [|discriminate]. subst p. destruct (H _ Hp). destruct Hc; congruence.
Qed.
Lemma default_words v : numeric_start v ->
  in_list (null_values default_options) v = false /\ in_list (true_values default_options) v = false /\ in_list (false_values default_options) v = false.
Proof.
  intros H. repeat split; apply not_word; try exact H; intros p Hp; vm_compute in Hp;
    repeat (destruct Hp as [<-|Hp]; [first [exact I|split; [reflexivity|discriminate]]|]); destruct Hp.
Qed.

Section I.
Context {F : Type}.
Variable ff : bytes -> option F.

Lemma digits_start v : forallb is_digit v = true -> v <> [] -> numeric_start v.
Proof. destruct v as [|c r]; [congruence|]. cbn [forallb]. intros H _. apply andb_true_iff in H. exists c, r. tauto. Qed.
Lemma to_string_start z : numeric_start (to_string z).
Proof.
  unfold to_string. destruct (z <? 0)%Z; [eexists; eexists; split; [reflexivity|right; reflexivity]|].
  destruct (to_string_N_spec (Z.to_N z)) as (A & _ & C & _). now apply digits_start.
Qed.

Lemma infer_integer_text z :
  infer_field ff default_options (to_string z) = if (length (to_string z) <=? 10) && (Z.abs z <=? 2147483647)%Z then INT32 else INT64.
Proof.
  destruct (default_words _ (to_string_start z)) as (W1 & W2 & W3). pose proof (to_string_spec z) as I.
  unfold infer_field. destruct (to_string z) as [|c r] eqn:E; [discriminate I|].
  rewrite W1, W2, W3, (integer_looks _ z I). apply integer_type_spec. exact I.
Qed.

Lemma four_of l y : digits 4 y l -> exists a b c d, l = [a; b; c; d] /\ is_digit a = true /\ is_digit b = true /\ is_digit c = true /\ is_digit d = true.
Proof.
  intros (L & A & _). destruct l as [|a [|b [|c [|d [|]]]]]; try discriminate L. cbn [forallb] in A. rewrite !andb_true_iff in A.
  exists a, b, c, d. tauto.
Qed.
Lemma two_of l y : digits 2 y l -> exists a b, l = [a; b] /\ is_digit a = true /\ is_digit b = true.
Proof.
  intros (L & A & _). destruct l as [|a [|b [|]]]; try discriminate L. cbn [forallb] in A. rewrite !andb_true_iff in A.
  exists a, b. tauto.
Qed.

Lemma looks_nothing c r : numeric_start (c :: r) -> looks_integer (c :: r) = false -> ff (c :: r) = None ->
  infer_field ff default_options (c :: r) = if looks_date (c :: r) then DATE else if looks_timestamp (c :: r) then TIMESTAMP else STRING.
Proof. intros N L E. destruct (default_words _ N) as (W1 & W2 & W3). unfold infer_field. rewrite W1, W2, W3, L, E. reflexivity. Qed.

Lemma digit_range c : is_digit c = true -> (48 <= c <= 57)%N.
Proof. unfold is_digit. intros H. apply andb_true_iff in H. rewrite !N.leb_le in H. exact H. Qed.

Lemma sep_breaks a b c d sep r : is_digit a = true -> (sep = 45 \/ sep = 47)%N -> looks_integer (a :: b :: c :: d :: sep :: r) = false.
Proof.
  intros A S0. unfold looks_integer. assert (E : forallb digit_char (after_sign (a :: b :: c :: d :: sep :: r)) = false).
  { apply digit_range in A. unfold after_sign, sign_char. destruct (N.eqb_spec a 45); [lia|]. destruct (N.eqb_spec a 43); [lia|].
    cbn [orb forallb]. destruct S0 as [-> | ->]; change (digit_char 45) with false; change (digit_char 47) with false; rewrite ?andb_false_l, ?andb_false_r; reflexivity. }
  rewrite E. reflexivity.
Qed.

Lemma infer_date v y m d : denotes_date v y m d -> ff v = None -> infer_field ff default_options v = DATE.
Proof.
  intros (sep & yt & mt & dt & Hs & -> & A & B & C & _) E.
  destruct (four_of _ _ A) as (a1 & a2 & a3 & a4 & -> & D1 & D2 & D3 & D4).
  destruct (two_of _ _ B) as (b1 & b2 & -> & D5 & D6). destruct (two_of _ _ C) as (c1 & c2 & -> & D7 & D8).
  cbn [app] in *. rewrite looks_nothing; [| |apply sep_breaks; assumption|exact E].
  - assert (L : looks_date [a1; a2; a3; a4; sep; b1; b2; sep; c1; c2] = true).
    { unfold looks_date, at_. cbn [length nth forallb Nat.eqb]. change digit_char with is_digit. rewrite D1, D2, D3, D4, D5, D6, D7, D8, N.eqb_refl.
      destruct Hs as [-> | ->]; reflexivity. }
    rewrite L. reflexivity.
  - eexists. eexists. split; [reflexivity|left; exact D1].
Qed.

Lemma infer_stamp date time y m d hh mi ss : denotes_date date y m d -> denotes_time time hh mi ss -> ff (date ++ [84%N] ++ time) = None ->
  infer_field ff default_options (date ++ [84%N] ++ time) = TIMESTAMP.
Proof.
  intros (sep & yt & mt & dt & Hs & -> & A & B & C & _) (ht & nt & st & -> & A' & B' & C' & _) E.
  destruct (four_of _ _ A) as (a1 & a2 & a3 & a4 & -> & D1 & D2 & D3 & D4).
  destruct (two_of _ _ B) as (b1 & b2 & -> & D5 & D6). destruct (two_of _ _ C) as (c1 & c2 & -> & D7 & D8).
  destruct (two_of _ _ A') as (h1 & h2 & -> & G1 & G2). destruct (two_of _ _ B') as (i1 & i2 & -> & G3 & G4). destruct (two_of _ _ C') as (s1 & s2 & -> & G5 & G6).
  cbn [app] in *. rewrite looks_nothing; [| |apply sep_breaks; assumption|exact E].
  - assert (L : looks_timestamp [a1; a2; a3; a4; sep; b1; b2; sep; c1; c2; 84%N; h1; h2; 58%N; i1; i2; 58%N; s1; s2] = true).
    { unfold looks_timestamp, at_. cbn [length nth forallb Nat.leb]. change digit_char with is_digit. rewrite G1, G2, G3, G4, G5, G6, N.eqb_refl.
      destruct Hs as [-> | ->]; reflexivity. }
    rewrite L. reflexivity.
  - eexists. eexists. split; [reflexivity|left; exact D1].
Qed.
End I.
