(** Proofs for the texts of dialects and of error lists. *)
From Verif Require Import Base NumSpec DialectModel TypesSpec ErrorsSpec ErrorsModel CliSpec CliModel CliProof2 ShowSpec ShowModel ShowProof.

(** ** Dialects *)
Lemma show_delimiter_app_inj a b x y :
  show_delimiter a ++ s2b ", quote=" ++ x = show_delimiter b ++ s2b ", quote=" ++ y -> a = b /\ x = y.
Proof.
  unfold show_delimiter. destruct (N.eqb_spec a 9) as [->|A], (N.eqb_spec b 9) as [->|B]; cbn [app quoted]; intros E.
  - injection E as E. split; [reflexivity|exact E].
  - discriminate E.
  - discriminate E.
  - injection E as -> E. split; [reflexivity|exact E].
Qed.

Lemma show_quote_app_inj a b x y :
  show_quote a ++ s2b ", escape=" ++ x = show_quote b ++ s2b ", escape=" ++ y -> a = b /\ x = y.
Proof.
  unfold show_quote.
  destruct (N.eqb_spec a DQ) as [->|A1]; [|destruct (N.eqb_spec a SQ) as [->|A2]; [|destruct (N.eqb_spec a 0) as [->|A3]]];
  (destruct (N.eqb_spec b DQ) as [->|B1]; [|destruct (N.eqb_spec b SQ) as [->|B2]; [|destruct (N.eqb_spec b 0) as [->|B3]]]);
  cbn [app quoted]; intros E;
  first [discriminate E | (injection E as E; split; [reflexivity|exact E]) | (injection E as E0 E; congruence) | (injection E as -> E; split; [reflexivity|exact E])].
Qed.

(** The part of a dialect the text shows. *)
Definition same_shown (d e : dialect) : Prop :=
  DialectModel.delimiter d = DialectModel.delimiter e /\ quote_char d = quote_char e /\ double_quote d = double_quote e /\
  comment_char d = comment_char e /\ (double_quote d = false -> escape_char d = escape_char e).

Lemma show_tail_inj c c' : (if N.eqb c 0 then [] else s2b ", comment=" ++ quoted c) ++ s2b "}" =
  (if N.eqb c' 0 then [] else s2b ", comment=" ++ quoted c') ++ s2b "}" -> c = c'.
Proof. destruct (N.eqb_spec c 0) as [->|A], (N.eqb_spec c' 0) as [->|B]; cbn [app quoted]; intros E; try discriminate E; [reflexivity|]. injection E as E. exact E. Qed.

Lemma show_escape_inj d e x y : show_escape d ++ x = show_escape e ++ y -> hd 0%N x <> 39%N -> hd 0%N y <> 39%N ->
  double_quote d = double_quote e /\ (double_quote d = false -> escape_char d = escape_char e) /\ x = y.
Proof.
  unfold show_escape. intros E _ _. destruct (double_quote d) eqn:D1, (double_quote e) eqn:D2.
  - injection E as E. split; [reflexivity|]. split; [discriminate|exact E].
  - destruct (N.eqb (escape_char e) 92); discriminate E.
  - destruct (N.eqb (escape_char d) 92); discriminate E.
  - split; [reflexivity|]. destruct (N.eqb_spec (escape_char d) 92) as [->|A], (N.eqb_spec (escape_char e) 92) as [->|B]; cbn [app quoted] in E.
    + injection E as E. split; [reflexivity|exact E].
    + discriminate E.
    + discriminate E.
    + injection E as E1 E2. split; [intros _; exact E1|exact E2].
Qed.

Lemma dialect_text_iff d e : dialect_text d = dialect_text e <-> same_shown d e.
Proof.
  unfold same_shown. split.
  - unfold dialect_text. intros E. apply app_inv_head in E. apply show_delimiter_app_inj in E. destruct E as (E1 & E).
    apply show_quote_app_inj in E. destruct E as (E2 & E).
    assert (K : forall c, hd 0%N ((if N.eqb c 0 then [] else s2b ", comment=" ++ quoted c) ++ s2b "}") <> 39%N)
      by (intros c; destruct (N.eqb c 0); discriminate).
    apply show_escape_inj in E; [|apply K|apply K]. destruct E as (E3 & E4 & E). apply show_tail_inj in E.
    repeat split; assumption.
  - intros (E1 & E2 & E3 & E4 & E5). unfold dialect_text, show_escape. rewrite E1, E2, E3, E4. rewrite E3 in E5.
    destruct (double_quote e); [reflexivity|]. rewrite (E5 eq_refl). reflexivity.
Qed.

(** ** Summaries *)
Lemma how_many_cons s e l : how_many s (e :: l) = (if same_severity s (e_severity e) then 1 else 0) + how_many s l.
Proof. unfold how_many. cbn [filter]. destruct (same_severity s (e_severity e)); reflexivity. Qed.

Lemma tally_spec : forall l w x f, tally l (w, x, f) = (w + how_many WARNING l, x + how_many RECOVERABLE l, f + how_many FATAL l).
Proof.
  induction l as [|e l IH]; intros w x f; cbn [tally].
  - unfold how_many. cbn [filter length]. rewrite !Nat.add_0_r. reflexivity.
  - rewrite !how_many_cons. destruct (e_severity e) eqn:E; rewrite IH; cbn [same_severity]; (apply f_equal2; [apply f_equal2; lia|lia]).
Qed.

Lemma how_many_sum l : how_many FATAL l + how_many RECOVERABLE l + how_many WARNING l = length l.
Proof.
  induction l as [|e l IH]; [reflexivity|]. rewrite !how_many_cons. cbn [length].
  destruct (e_severity e); cbn [same_severity]; lia.
Qed.

(** The pieces of a summary. *)
Definition piece (n : nat) (word : string) : list bytes := if 0 <? n then [to_string_N (N.of_nat n) ++ s2b " " ++ s2b word] else [].
Definition summary_pieces (f x w : nat) : list bytes := piece f "fatal" ++ piece x "errors" ++ piece w "warnings".

Lemma to_string_ne n : to_string_N n <> [].
Proof. destruct (to_string_N_spec n) as (_ & _ & C & _). exact C. Qed.

Lemma with_comma_ne l : l <> [] -> with_comma l = l ++ s2b ", ".
Proof. destruct l; [congruence|reflexivity]. Qed.

Lemma summary_spec l : l <> [] -> error_summary l = comma_list (summary_pieces (how_many FATAL l) (how_many RECOVERABLE l) (how_many WARNING l)).
Proof.
  intros H. unfold error_summary. destruct l as [|e l]; [congruence|]. rewrite tally_spec, !Nat.add_0_l.
  set (f := how_many FATAL _). set (x := how_many RECOVERABLE _). set (w := how_many WARNING _). clearbody f x w.
  unfold summary_pieces, piece.
  assert (NE : forall n s, to_string_N (N.of_nat n) ++ s <> []) by (intros n s K; apply app_eq_nil in K; destruct K; eapply to_string_ne; eassumption).
  destruct (0 <? f), (0 <? x), (0 <? w); cbn [app comma_list with_comma]; try reflexivity;
  try rewrite (with_comma_ne (to_string_N (N.of_nat f) ++ s2b " fatal")) by apply NE;
  repeat (rewrite with_comma_ne; [|first [apply NE | (rewrite <- ?app_assoc; apply NE)]]); rewrite <- ?app_assoc; reflexivity.
Qed.

Lemma has_fatal_spec l : has_fatal_error l = true <-> exists e, In e l /\ e_severity e = FATAL.
Proof.
  induction l as [|e l IH]; cbn [has_fatal_error In]; [split; [discriminate|intros (x & [] & _)]|].
  destruct (e_severity e) eqn:E; [rewrite IH|rewrite IH|]; (split; [|intros (x & [->|X] & Y)]); try congruence; eauto; try (intros (x & X & Y); eauto).
Qed.
Lemma has_warning_spec l : has_warning_error l = true <-> exists e, In e l /\ e_severity e = WARNING.
Proof.
  induction l as [|e l IH]; cbn [has_warning_error In]; [split; [discriminate|intros (x & [] & _)]|].
  destruct (e_severity e) eqn:E; [|rewrite IH|rewrite IH]; (split; [|intros (x & [->|X] & Y)]); try congruence; eauto; try (intros (x & X & Y); eauto).
Qed.

(** Reading the pieces back. *)
Lemma comma_list_inj : forall a b, (forall p, In p a -> p <> [] /\ ~ In COMMA p) -> (forall p, In p b -> p <> [] /\ ~ In COMMA p) ->
  comma_list a = comma_list b -> a = b.
Proof.
  assert (K : forall p q r, ~ In COMMA p -> p = q ++ s2b ", " ++ r -> False).
  { intros p q r H ->. apply H. rewrite in_app_iff. right. left. reflexivity. }
  induction a as [|p a IH]; intros [|q b] A B E.
  - reflexivity.
  - destruct (B q (or_introl eq_refl)) as (N & _). destruct b; cbn [comma_list] in E; [congruence|].
    symmetry in E. apply app_eq_nil in E. destruct E; congruence.
  - destruct (A p (or_introl eq_refl)) as (N & _). destruct a; cbn [comma_list] in E; [congruence|].
    apply app_eq_nil in E. destruct E; congruence.
  - destruct (A p (or_introl eq_refl)) as (N & C). destruct (B q (or_introl eq_refl)) as (N' & C').
    destruct a as [|p' a], b as [|q' b].
    + cbn [comma_list] in E. congruence.
    + cbn [comma_list] in E. exfalso. exact (K _ _ _ C E).
    + cbn [comma_list] in E. exfalso. symmetry in E. exact (K _ _ _ C' E).
    + change (comma_list (p :: p' :: a)) with (p ++ s2b ", " ++ comma_list (p' :: a)) in E.
      change (comma_list (q :: q' :: b)) with (q ++ s2b ", " ++ comma_list (q' :: b)) in E.
      change (s2b ", ") with (COMMA :: [32%N]) in E. cbn [app] in E. apply split_first in E; [|assumption|assumption].
      destruct E as (-> & E). injection E as E. f_equal. apply IH; [intros x X; apply A; right; exact X|intros x X; apply B; right; exact X|exact E].
Qed.

Lemma piece_shape n word p : ~ In COMMA (s2b word) -> In p (piece n word) -> p <> [] /\ ~ In COMMA p.
Proof.
  intros H. unfold piece. destruct (0 <? n); [|intros []]. intros [<-|[]]. split.
  - intros K. apply app_eq_nil in K. destruct K; eapply to_string_ne; eassumption.
  - rewrite !in_app_iff. intros [K|[K|K]].
    + exact (digits_not_in _ n COMMA (says_number n) eq_refl K).
    + cbn in K. intuition discriminate.
    + tauto.
Qed.

Lemma pieces_shape f x w p : In p (summary_pieces f x w) -> p <> [] /\ ~ In COMMA p.
Proof.
  unfold summary_pieces. rewrite !in_app_iff.
  intros [H|[H|H]]; (eapply piece_shape; [|exact H]); cbn; intuition discriminate.
Qed.

(** Number and word of a piece. *)
Lemma piece_inj n m (a b : bytes) : to_string_N (N.of_nat n) ++ s2b " " ++ a = to_string_N (N.of_nat m) ++ s2b " " ++ b -> n = m /\ a = b.
Proof.
  intros E. change (s2b " ") with [32%N] in E. cbn [app] in E.
  apply split_first in E; [|eapply digits_not_in; [apply says_number|reflexivity]|eapply digits_not_in; [apply says_number|reflexivity]].
  destruct E as (E & ->). split; [|reflexivity]. eapply says_inj; [apply says_number|]. rewrite E. apply says_number.
Qed.

Lemma pieces_inj f x w f' x' w' : summary_pieces f x w = summary_pieces f' x' w' -> f = f' /\ x = x' /\ w = w'.
Proof.
  unfold summary_pieces, piece.
  destruct (Nat.ltb_spec 0 f), (Nat.ltb_spec 0 x), (Nat.ltb_spec 0 w), (Nat.ltb_spec 0 f'), (Nat.ltb_spec 0 x'), (Nat.ltb_spec 0 w');
    cbn [app]; intros E; try discriminate E;
    first [ (repeat split; lia)
          | (apply (f_equal (map (fun p => p))) in E; cbn [map] in E;
             match type of E with
             | [?a] = [?b] => assert (E1 : a = b) by congruence; apply piece_inj in E1
             | [?a; ?c] = [?b; ?d] => assert (E1 : a = b) by congruence; assert (E2 : c = d) by congruence; apply piece_inj in E1; apply piece_inj in E2
             | [?a; ?c; ?e] = [?b; ?d; ?g] => assert (E1 : a = b) by congruence; assert (E2 : c = d) by congruence; assert (E3 : e = g) by congruence;
                apply piece_inj in E1; apply piece_inj in E2; apply piece_inj in E3
             end;
             repeat match goal with K : _ /\ _ |- _ => destruct K end;
             try match goal with K : s2b _ = s2b _ |- _ => discriminate K end; repeat split; lia) ].
Qed.

Lemma summary_inj l l' : error_summary l = error_summary l' -> 
  forall s, how_many s l = how_many s l'.
Proof.
  assert (K : forall l, l <> [] -> error_summary l <> s2b "No errors").
  { intros k H. rewrite summary_spec by exact H. intros E.
    assert (S1 := how_many_sum k). assert (L : length k <> 0) by (destruct k; [congruence|discriminate]).
    change (s2b "No errors") with (comma_list [s2b "No errors"]) in E.
    apply comma_list_inj in E; [|intros p P; eapply pieces_shape; exact P|intros p [<-|[]]; split; [discriminate|cbn; intuition discriminate]].
    assert (X : forall n word, ~ In (s2b "No errors") (piece n word)).
    { intros n word. unfold piece. destruct (0 <? n); [|intros []]. intros [X|[]].
      pose proof (says_digits _ _ (says_number n)) as D. destruct (to_string_N (N.of_nat n)) as [|c r] eqn:Z; [eapply to_string_ne; exact Z|].
      injection X as X _. subst c. discriminate D. }
    assert (Y : In (s2b "No errors") (summary_pieces (how_many FATAL k) (how_many RECOVERABLE k) (how_many WARNING k))) by (rewrite E; left; reflexivity).
    unfold summary_pieces in Y. rewrite !in_app_iff in Y. destruct Y as [Y|[Y|Y]]; eapply X; exact Y. }
  intros E. destruct l as [|e l], l' as [|e' l'].
  - reflexivity.
  - exfalso. apply (K (e' :: l')); [discriminate|]. symmetry. exact E.
  - exfalso. apply (K (e :: l)); [discriminate|]. exact E.
  - rewrite !summary_spec in E by discriminate. apply comma_list_inj in E; [|intros p; apply pieces_shape|intros p; apply pieces_shape].
    apply pieces_inj in E. destruct E as (A & B & C). intros []; assumption.
Qed.

Lemma how_many_summary l l' : l <> [] -> l' <> [] -> (forall s, how_many s l = how_many s l') -> error_summary l = error_summary l'.
Proof. intros A B E. rewrite !summary_spec by assumption. rewrite !E. reflexivity. Qed.

Lemma summary_iff l l' : error_summary l = error_summary l' <-> forall s, how_many s l = how_many s l'.
Proof.
  split; [apply summary_inj|]. intros E. pose proof (how_many_sum l) as A. pose proof (how_many_sum l') as B. rewrite !E in A.
  destruct l as [|e l], l' as [|e' l']; [reflexivity|cbn [length] in *; lia|cbn [length] in *; lia|]. apply how_many_summary; [discriminate|discriminate|exact E].
Qed.
