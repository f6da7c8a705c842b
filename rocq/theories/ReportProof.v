(** Proofs for the error reports. *)
From Verif Require Import Base NumSpec ErrorsSpec ErrorsModel CliSpec CliModel CliProof4 ShowSpec ShowModel ShowProof ReportSpec ReportModel.

Lemma print_says n : says (print n) n.
Proof. apply says_number. Qed.

Lemma code_listed c : c < 16 -> In (c, error_code_to_string c) code_words.
Proof.
  intros H. do 16 (destruct c as [|c]; [vm_compute; tauto|]). exfalso. clear - H. lia.
Qed.

Lemma severity_listed s : In (s, error_severity_to_string s) severity_words.
Proof. destruct s; cbn; tauto. Qed.

Lemma severity_inj s s' w : In (s, w) severity_words -> In (s', w) severity_words -> s = s'.
Proof. cbn. intros H H'. repeat (destruct H as [H|H]; [injection H as <- <-; repeat (destruct H' as [H'|H']; [injection H' as <-; try discriminate; reflexivity|]); destruct H'|]). destruct H. Qed.

Lemma severity_shape s w : In (s, w) severity_words -> ~ In 93%N w /\ ~ In LF w.
Proof. cbn. intros H. repeat (destruct H as [H|H]; [injection H as <- <-; split; vm_compute; intuition discriminate|]). destruct H. Qed.

Lemma code_inj_b : forallb (fun p => forallb (fun p' => negb (ReaderModel.bytes_eqb (snd p) (snd p')) || (fst p =? fst p')) code_words) code_words = true.
Proof. vm_compute. reflexivity. Qed.

Lemma code_inj c c' w : In (c, w) code_words -> In (c', w) code_words -> c = c'.
Proof.
  intros H H'. pose proof code_inj_b as B. rewrite forallb_forall in B. specialize (B _ H). rewrite forallb_forall in B. specialize (B _ H'). cbn [fst snd] in B.
  replace (ReaderModel.bytes_eqb w w) with true in B by (symmetry; now apply ReaderProof.bytes_eqb_spec). cbn in B. now apply Nat.eqb_eq.
Qed.

Lemma code_shape_b : forallb (fun p => forallb (fun c => negb (N.eqb c 32) && negb (N.eqb c LF)) (snd p)) code_words = true.
Proof. vm_compute. reflexivity. Qed.

Lemma code_shape c w : In (c, w) code_words -> ~ In 32%N w /\ ~ In LF w.
Proof.
  intros H. pose proof code_shape_b as B. rewrite forallb_forall in B. specialize (B _ H). cbn [snd] in B. rewrite forallb_forall in B.
  split; intros K; apply B in K; discriminate K.
Qed.

Lemma no_lf t : existsb (N.eqb LF) t = false -> ~ In LF t.
Proof. intros E X. assert (existsb (N.eqb LF) t = true) by (apply existsb_exists; exists LF; split; [exact X|reflexivity]). congruence. Qed.

Lemma split_word {A} (c : A) (t a b r s : list A) : ~ In c a -> ~ In c b -> a ++ (c :: t) ++ r = b ++ (c :: t) ++ s -> a = b /\ r = s.
Proof. intros Ha Hb E. cbn [app] in E. apply split_first in E; [|exact Ha|exact Hb]. destruct E as (-> & E). apply app_inv_head in E. split; [reflexivity|exact E]. Qed.

Lemma error_line_inj e e' l : error_line e l -> error_line e' l -> e = e'.
Proof.
  intros (sw & cw & lw & xw & bw & S1 & C1 & L1 & X1 & B1 & ->) (sw' & cw' & lw' & xw' & bw' & S2 & C2 & L2 & X2 & B2 & E).
  destruct (severity_shape _ _ S1) as (SS1 & _). destruct (severity_shape _ _ S2) as (SS2 & _).
  destruct (code_shape _ _ C1) as (CS1 & _). destruct (code_shape _ _ C2) as (CS2 & _).
  apply app_inv_head in E.
  apply (split_word 93%N [32%N]) in E; [|exact SS1|exact SS2]. destruct E as (E1 & E). subst sw'.
  apply (split_word 32%N (s2b "at line ")) in E; [|exact CS1|exact CS2]. destruct E as (E1 & E). subst cw'.
  apply (split_word 44%N (s2b " column ")) in E; [|eapply digits_not_in; [exact L1|reflexivity]|eapply digits_not_in; [exact L2|reflexivity]]. destruct E as (E1 & E). subst lw'.
  apply (split_word 32%N (s2b "(byte ")) in E; [|eapply digits_not_in; [exact X1|reflexivity]|eapply digits_not_in; [exact X2|reflexivity]]. destruct E as (E1 & E). subst xw'.
  apply (split_word 41%N (s2b ": ")) in E; [|eapply digits_not_in; [exact B1|reflexivity]|eapply digits_not_in; [exact B2|reflexivity]]. destruct E as (E1 & E). subst bw'.
  pose proof (severity_inj _ _ _ S1 S2) as Q1. pose proof (code_inj _ _ _ C1 C2) as Q2.
  pose proof (says_inj _ _ _ L1 L2) as Q3. pose proof (says_inj _ _ _ X1 X2) as Q4. pose proof (says_inj _ _ _ B1 B2) as Q5.
  clear - Q1 Q2 Q3 Q4 Q5 E. destruct e, e'. simpl in *. subst. reflexivity.
Qed.

Lemma error_line_no_lf e l : error_line e l -> ~ In LF (e_message e) -> ~ In LF l.
Proof.
  intros (sw & cw & lw & xw & bw & S1 & C1 & L1 & X1 & B1 & ->) H.
  destruct (severity_shape _ _ S1) as (_ & ?). destruct (code_shape _ _ C1) as (_ & ?).
  apply says_no_lf in L1, X1, B1.
  repeat (apply s2b_no_lf_app; [first [assumption|apply no_lf; reflexivity]|]). exact H.
Qed.

Lemma error_line_head e l : error_line e l -> exists r, l = 91%N :: r.
Proof. intros (sw & cw & lw & xw & bw & _ & _ & _ & _ & _ & ->). eexists. reflexivity. Qed.

(** The text of one error. *)
Definition first_line (e : error) : bytes :=
  s2b "[" ++ error_severity_to_string (e_severity e) ++ s2b "] " ++ error_code_to_string (e_code e) ++
  s2b " at line " ++ print (e_line e) ++ s2b ", column " ++ print (e_column e) ++ s2b " (byte " ++ print (e_offset e) ++
  s2b "): " ++ e_message e.

Lemma first_line_spec e : e_code e < 16 -> error_line e (first_line e).
Proof.
  intros H. exists (error_severity_to_string (e_severity e)), (error_code_to_string (e_code e)), (print (e_line e)), (print (e_column e)), (print (e_offset e)).
  split; [apply severity_listed|]. split; [apply code_listed; exact H|]. split; [apply print_says|]. split; [apply print_says|]. split; [apply print_says|]. reflexivity.
Qed.

Lemma to_string_split r : to_string r = first_line (r_error r) ++ match r_context r with [] => [] | _ => LF :: s2b "  Context: " ++ r_context r end.
Proof. unfold to_string, first_line. cbv zeta. rewrite <- !app_assoc. reflexivity. Qed.

Lemma to_string_inj r r' : known_code r -> known_code r' -> ~ In LF (e_message (r_error r)) -> ~ In LF (e_message (r_error r')) ->
  to_string r = to_string r' -> r = r'.
Proof.
  intros K K' H H' E. rewrite !to_string_split in E.
  pose proof (first_line_spec _ K) as F. pose proof (first_line_spec _ K') as F'.
  pose proof (error_line_no_lf _ _ F H) as N. pose proof (error_line_no_lf _ _ F' H') as N'.
  destruct r as [e c], r' as [e' c']. cbn [r_error r_context] in *.
  assert (A : first_line e = first_line e' /\ c = c').
  { destruct c as [|a c], c' as [|a' c'].
    - rewrite !app_nil_r in E. split; [exact E|reflexivity].
    - rewrite app_nil_r in E. exfalso. apply N. rewrite E. apply in_or_app. right. left. reflexivity.
    - rewrite app_nil_r in E. exfalso. apply N'. rewrite <- E. apply in_or_app. right. left. reflexivity.
    - apply split_first in E; [|exact N|exact N']. destruct E as (E1 & E2). split; [exact E1|]. apply app_inv_head in E2. exact E2. }
  destruct A as (A & ->). f_equal. rewrite A in F. exact (error_line_inj _ _ _ F F').
Qed.

Definition lines_of (prefix : bytes) (r : report) : list bytes :=
  (prefix ++ first_line (r_error r)) :: match r_context r with [] => [] | _ => [s2b "  Context: " ++ r_context r] end.

Lemma lines_of_spec prefix r : known_code r -> report_lines prefix r (lines_of prefix r).
Proof. intros H. exists (first_line (r_error r)). split; [apply first_line_spec; exact H|reflexivity]. Qed.

Lemma lines_of_text prefix r : prefix ++ to_string r ++ [LF] = as_text (lines_of prefix r).
Proof.
  rewrite to_string_split. unfold lines_of, as_text. cbn [map concat]. destruct (r_context r).
  - cbn [map concat]. rewrite !app_nil_r, <- !app_assoc. reflexivity.
  - cbn [map concat]. rewrite app_nil_r. rewrite <- !app_assoc. cbn [app]. rewrite <- !app_assoc. reflexivity.
Qed.

Lemma all_lines_spec prefix rs : Forall known_code rs -> all_lines prefix rs (concat (map (lines_of prefix) rs)).
Proof.
  induction 1 as [|r rs H _ IH]; [constructor|]. cbn [map concat]. constructor; [apply lines_of_spec; exact H|exact IH].
Qed.

Lemma all_lines_text prefix rs : concat (map (fun r => prefix ++ to_string r ++ [LF]) rs) = as_text (concat (map (lines_of prefix) rs)).
Proof.
  induction rs as [|r rs IH]; [reflexivity|]. cbn [map concat]. rewrite as_text_app, IH, lines_of_text. reflexivity.
Qed.

(** Lists of errors from their lines. *)
Definition apart (prefix : bytes) : Prop := forall l c, prefix ++ 91%N :: l <> s2b "  Context: " ++ c.

Lemma apart_nil : apart [].
Proof. intros l c E. discriminate E. Qed.
Lemma apart_dash : apart (s2b "  - ").
Proof. intros l c E. discriminate E. Qed.
Lemma apart_blank : apart (s2b "  ").
Proof. intros l c E. discriminate E. Qed.

Definition context_lines (r : report) : list bytes := match r_context r with [] => [] | _ => [s2b "  Context: " ++ r_context r] end.

Lemma all_lines_inv prefix rs ls : all_lines prefix rs ls ->
  match rs with
  | [] => ls = []
  | r :: rs' => exists l ls', error_line (r_error r) l /\ all_lines prefix rs' ls' /\ ls = (prefix ++ l) :: context_lines r ++ ls'
  end.
Proof. intros H. destruct H as [|r rs ls ls' (l & Hl & ->) H]; [reflexivity|]. exists l, ls'. split; [exact Hl|]. split; [exact H|reflexivity]. Qed.

Lemma all_lines_head prefix rs ls : all_lines prefix rs ls -> ls = [] \/ exists t tt, ls = (prefix ++ 91%N :: t) :: tt.
Proof.
  intros H. apply all_lines_inv in H. destruct rs as [|r rs]; [left; exact H|]. right. destruct H as (l & ls' & Hl & _ & ->).
  destruct (error_line_head _ _ Hl) as (t & ->). eexists. eexists. reflexivity.
Qed.

Lemma all_lines_inj prefix : apart prefix -> forall rs rs' ls, all_lines prefix rs ls -> all_lines prefix rs' ls -> rs = rs'.
Proof.
  intros AP. induction rs as [|r rs IH]; intros rs' ls H H'; apply all_lines_inv in H; apply all_lines_inv in H'.
  - subst ls. destruct rs' as [|r' rs']; [reflexivity|]. destruct H' as (l & ls' & _ & _ & E). discriminate E.
  - destruct H as (l & l2 & Hl & Hr & ->). destruct rs' as [|r' rs']; [discriminate H'|].
    destruct H' as (l' & l2' & Hl' & Hr' & E). injection E as F1 F2. apply app_inv_head in F1. subst l'.
    pose proof (error_line_inj _ _ _ Hl Hl') as Ee.
    assert (A : r = r' /\ l2 = l2').
    { destruct r as [e c], r' as [e' c']. unfold context_lines in F2. simpl in Ee, F2. subst e'.
      destruct c as [|a c], c' as [|a' c']; cbn [app] in F2.
      - split; [reflexivity|exact F2].
      - exfalso. destruct (all_lines_head _ _ _ Hr) as [->|(t & tt & ->)]; [discriminate|]. injection F2 as F2 _. exact (AP _ (a' :: c') F2).
      - exfalso. destruct (all_lines_head _ _ _ Hr') as [->|(t & tt & ->)]; [discriminate|]. injection F2 as F2 _. exact (AP _ (a :: c) (eq_sym F2)).
      - injection F2 as F2 F3 F4. subst. split; reflexivity. }
    destruct A as (-> & ->). f_equal. exact (IH _ _ Hr Hr').
Qed.

Lemma lines_of_no_lf prefix r : ~ In LF prefix -> known_code r -> single_line r -> Forall (fun l => ~ In LF l) (lines_of prefix r).
Proof.
  intros P K (M & C). unfold lines_of. constructor.
  - apply s2b_no_lf_app; [exact P|]. exact (error_line_no_lf _ _ (first_line_spec _ K) M).
  - destruct (r_context r); [constructor|]. constructor; [|constructor]. apply s2b_no_lf_app; [apply no_lf; reflexivity|exact C].
Qed.

Lemma all_no_lf prefix rs : ~ In LF prefix -> Forall known_code rs -> Forall single_line rs -> Forall (fun l => ~ In LF l) (concat (map (lines_of prefix) rs)).
Proof.
  intros P. induction rs as [|r rs IH]; intros K C; [constructor|]. inversion K; subst. inversion C; subst. cbn [map concat].
  apply Forall_app. split; [apply lines_of_no_lf; assumption|apply IH; assumption].
Qed.

Lemma as_text_inj a b : Forall (fun l => ~ In LF l) a -> Forall (fun l => ~ In LF l) b -> as_text a = as_text b -> a = b.
Proof. intros A B E. rewrite <- (as_text_lines a A), <- (as_text_lines b B), E. reflexivity. Qed.

(** ** summary *)
Definition counts_line (errors : list report) : bytes :=
  let w := count_of WARNING errors in
  let e := count_of RECOVERABLE errors in
  let f := count_of FATAL errors in
  s2b "Total errors: " ++ print (length errors) ++
      (if 0 <? w then s2b " (Warnings: " ++ print w else []) ++
      (if 0 <? e then s2b ", Errors: " ++ print e else []) ++
      (if 0 <? f then s2b ", Fatal: " ++ print f else []) ++
      (if (0 <? w) || (0 <? e) || (0 <? f) then s2b ")" else []).
Definition limit_line (suppressed : nat) : bytes :=
  s2b "Error limit reached: " ++ print suppressed ++ s2b " additional error" ++ (if suppressed =? 1 then [] else s2b "s") ++ s2b " suppressed".
Definition limit_lines (suppressed : nat) : list bytes := if 0 <? suppressed then [limit_line suppressed] else [].

Lemma counts_no_lf errors : ~ In LF (counts_line errors).
Proof.
  unfold counts_line. assert (P : forall n, ~ In LF (print n)) by (intros n; eapply says_no_lf; apply print_says).
  cbv zeta. apply s2b_no_lf_app; [apply no_lf; reflexivity|]. apply s2b_no_lf_app; [apply P|].
  apply s2b_no_lf_app; [destruct (0 <? count_of WARNING errors); [apply s2b_no_lf_app; [apply no_lf; reflexivity|apply P]|intros []]|].
  apply s2b_no_lf_app; [destruct (0 <? count_of RECOVERABLE errors); [apply s2b_no_lf_app; [apply no_lf; reflexivity|apply P]|intros []]|].
  apply s2b_no_lf_app; [destruct (0 <? count_of FATAL errors); [apply s2b_no_lf_app; [apply no_lf; reflexivity|apply P]|intros []]|].
  destruct (_ || _)%bool; [apply no_lf; reflexivity|intros []].
Qed.

Lemma limit_no_lf n : ~ In LF (limit_line n).
Proof.
  unfold limit_line. apply s2b_no_lf_app; [apply no_lf; reflexivity|]. apply s2b_no_lf_app; [eapply says_no_lf; apply print_says|].
  apply s2b_no_lf_app; [apply no_lf; reflexivity|]. apply s2b_no_lf_app; [|apply no_lf; reflexivity].
  destruct (n =? 1); [intros []|apply no_lf; reflexivity].
Qed.

Lemma limit_inj n m : limit_line n = limit_line m -> n = m.
Proof.
  unfold limit_line. intros E. apply app_inv_head in E.
  assert (P : forall k, ~ In 32%N (print k)) by (intros k; eapply digits_not_in; [apply print_says|reflexivity]).
  destruct (split_word 32%N (s2b "additional error") (print n) (print m) _ _ (P n) (P m) E) as (E1 & _). clear E. rename E1 into E.
  pose proof (print_says n) as A. rewrite E in A. exact (says_inj _ _ _ A (print_says m)).
Qed.

Lemma summary_text errors suppressed : errors <> [] ->
  summary errors suppressed = as_text (counts_line errors :: limit_lines suppressed ++ [] :: s2b "Details:" :: concat (map (lines_of []) errors)).
Proof.
  intros H. rewrite as_text_cons, as_text_app, as_text_cons, as_text_cons, <- all_lines_text.
  assert (E : summary errors suppressed = counts_line errors ++ (if 0 <? suppressed then LF :: limit_line suppressed else []) ++
     LF :: LF :: s2b "Details:" ++ LF :: concat (map (fun r => to_string r ++ [LF]) errors)).
  { destruct errors as [|r errors]; [congruence|]. unfold summary, counts_line, limit_line. cbv zeta. rewrite <- !app_assoc. reflexivity. }
  rewrite E. f_equal. unfold limit_lines. cbn [app]. destruct (0 <? suppressed).
  - rewrite as_text_cons. cbn [app]. f_equal. rewrite <- !app_assoc. reflexivity.
  - reflexivity.
Qed.

Lemma limit_lines_no_lf n : Forall (fun l => ~ In LF l) (limit_lines n).
Proof. unfold limit_lines. destruct (0 <? n); [constructor; [apply limit_no_lf|constructor]|constructor]. Qed.

Lemma limit_head n : exists c r, limit_line n = c :: r.
Proof. eexists. eexists. unfold limit_line. reflexivity. Qed.

Lemma limit_lines_inj n m a b : limit_lines n ++ [] :: a = limit_lines m ++ [] :: b -> n = m /\ a = b.
Proof.
  unfold limit_lines. destruct (Nat.ltb_spec 0 n), (Nat.ltb_spec 0 m); cbn [app]; intros E.
  - split; [exact (limit_inj n m (f_equal (hd []) E))|exact (f_equal (fun l => tl (tl l)) E)].
  - pose proof (f_equal (hd []) E) as E1. cbn [hd] in E1. destruct (limit_head n) as (c & r & X). rewrite X in E1. discriminate E1.
  - pose proof (f_equal (hd []) E) as E1. cbn [hd] in E1. destruct (limit_head m) as (c & r & X). rewrite X in E1. discriminate E1.
  - injection E as E. split; [lia|exact E].
Qed.

Definition summary_lines (errors : list report) (suppressed : nat) : list bytes :=
  counts_line errors :: limit_lines suppressed ++ [] :: s2b "Details:" :: concat (map (lines_of []) errors).

Lemma summary_lines_no_lf errors n : Forall known_code errors -> Forall single_line errors -> Forall (fun l => ~ In LF l) (summary_lines errors n).
Proof.
  intros K C. unfold summary_lines. constructor; [apply counts_no_lf|]. apply Forall_app. split; [apply limit_lines_no_lf|].
  constructor; [intros []|]. constructor; [apply no_lf; reflexivity|]. apply all_no_lf; [intros []|exact K|exact C].
Qed.

Lemma summary_empty n : summary [] n = match n with O => s2b "No errors" | _ => s2b "Total errors: 0" ++ LF :: limit_line n end.
Proof. destruct n; [reflexivity|]. unfold summary, limit_line. cbv zeta. rewrite !app_nil_r. reflexivity. Qed.

Lemma summary_ends errors n : exists t, errors <> [] -> summary errors n = t ++ [LF].
Proof.
  destruct errors as [|r0 errors]; [exists []; congruence|].
  exists (removelast (summary (r0 :: errors) n)). intros H. rewrite summary_text by exact H.
  assert (G : forall ls, ls <> [] -> exists t, as_text ls = t ++ [LF]).
  { intros ls Hl. destruct (exists_last Hl) as (a & l & ->). rewrite as_text_app. exists (as_text a ++ l).
    unfold as_text at 2. cbn [map concat]. rewrite app_nil_r, app_assoc. reflexivity. }
  destruct (G (counts_line (r0 :: errors) :: limit_lines n ++ [] :: s2b "Details:" :: concat (map (lines_of []) (r0 :: errors)))) as (t & E); [discriminate|].
  rewrite E, removelast_last. reflexivity.
Qed.

Lemma last_not_lf : forall t u, ~ In LF u -> u <> [] -> forall a, a ++ u <> t ++ [LF].
Proof.
  intros t u H Hu a E. destruct (exists_last Hu) as (v & c & ->). rewrite app_assoc in E. apply app_inj_tail in E. destruct E as (_ & ->).
  apply H. apply in_or_app. right. left. reflexivity.
Qed.

Lemma summary_empty_ends n t : summary [] n <> t ++ [LF].
Proof.
  rewrite summary_empty. destruct n as [|n].
  - apply (last_not_lf t (s2b "No errors") ltac:(apply no_lf; reflexivity) ltac:(discriminate) []).
  - replace (s2b "Total errors: 0" ++ LF :: limit_line (S n)) with ((s2b "Total errors: 0" ++ [LF]) ++ limit_line (S n)) by (rewrite <- app_assoc; reflexivity).
    apply last_not_lf; [apply limit_no_lf|]. destruct (limit_head (S n)) as (c & r & ->). discriminate.
Qed.

Lemma summary_inj es es' n n' : Forall known_code es -> Forall single_line es -> Forall known_code es' -> Forall single_line es' ->
  summary es n = summary es' n' -> es = es' /\ n = n'.
Proof.
  intros K C K' C' E. destruct es as [|r es], es' as [|r' es'].
  - split; [reflexivity|]. rewrite !summary_empty in E. destruct n as [|n], n' as [|n']; [reflexivity|discriminate E|discriminate E|].
    apply app_inv_head in E. exact (limit_inj _ _ (f_equal (@tl _) E)).
  - exfalso. destruct (summary_ends (r' :: es') n') as (t & T). rewrite T in E by discriminate. exact (summary_empty_ends n t E).
  - exfalso. destruct (summary_ends (r :: es) n) as (t & T). rewrite T in E by discriminate. exact (summary_empty_ends n' t (eq_sym E)).
  - rewrite summary_text in E by discriminate. rewrite summary_text in E by discriminate.
    apply as_text_inj in E; [|apply summary_lines_no_lf; assumption|apply summary_lines_no_lf; assumption].
    apply (f_equal (@tl _)) in E. apply limit_lines_inj in E. destruct E as (-> & E). split; [|reflexivity].
    assert (E2 : concat (map (lines_of []) (r :: es)) = concat (map (lines_of []) (r' :: es'))) by exact (f_equal (@tl _) E).
    eapply (all_lines_inj [] apart_nil); [apply all_lines_spec; exact K|]. rewrite E2. apply all_lines_spec. exact K'.
Qed.

(** ** exceptions and the command line *)
Lemma listing_inj prefix es es' : apart prefix -> ~ In LF prefix -> Forall known_code es -> Forall single_line es -> Forall known_code es' -> Forall single_line es' ->
  concat (map (fun r => prefix ++ to_string r ++ [LF]) es) = concat (map (fun r => prefix ++ to_string r ++ [LF]) es') -> es = es'.
Proof.
  intros A P K C K' C' E. rewrite !all_lines_text in E. apply as_text_inj in E; [|apply all_no_lf; assumption|apply all_no_lf; assumption].
  eapply (all_lines_inj prefix A); [apply all_lines_spec; exact K|]. rewrite E. apply all_lines_spec. exact K'.
Qed.

Lemma format_inj es es' : 2 <= length es -> 2 <= length es' -> Forall known_code es -> Forall single_line es -> Forall known_code es' -> Forall single_line es' ->
  format_errors es = format_errors es' -> es = es'.
Proof.
  intros L L' K C K' C' E.
  assert (F : forall l, 2 <= length l -> format_errors l = (s2b "Multiple parse errors (" ++ print (length l) ++ s2b "):") ++ LF :: concat (map (fun r => s2b "  - " ++ to_string r ++ [LF]) l)).
  { intros l Hl. destruct l as [|a [|b l]]; try (cbn [length] in Hl; lia). unfold format_errors. rewrite <- !app_assoc. reflexivity. }
  rewrite F in E by exact L. rewrite F in E by exact L'.
  assert (N : forall m, ~ In LF (s2b "Multiple parse errors (" ++ print m ++ s2b "):")).
  { intros m. apply s2b_no_lf_app; [apply no_lf; reflexivity|]. apply s2b_no_lf_app; [eapply says_no_lf; apply print_says|apply no_lf; reflexivity]. }
  apply split_first in E; [|apply N|apply N]. destruct E as (_ & E).
  exact (listing_inj (s2b "  - ") es es' apart_dash ltac:(apply no_lf; reflexivity) K C K' C' E).
Qed.

Lemma with_comma_no_lf l : ~ In LF l -> ~ In LF (with_comma l).
Proof. intros H. unfold with_comma. destruct l; [exact H|]. apply s2b_no_lf_app; [exact H|apply no_lf; reflexivity]. Qed.

Lemma counts_summary_no_lf l : ~ In LF (error_summary l).
Proof.
  unfold error_summary. destruct l as [|e l]; [apply no_lf; reflexivity|]. destruct (tally (e :: l) (0, 0, 0)) as [[w x] f]. cbv zeta.
  assert (P : forall n, ~ In LF (to_string_N (N.of_nat n))) by (intros n; eapply says_no_lf; apply says_number).
  assert (A : ~ In LF (if 0 <? f then to_string_N (N.of_nat f) ++ s2b " fatal" else [])).
  { destruct (0 <? f); [apply s2b_no_lf_app; [apply P|apply no_lf; reflexivity]|intros []]. }
  revert A. generalize (if 0 <? f then to_string_N (N.of_nat f) ++ s2b " fatal" else []) as t. intros t A.
  assert (B : ~ In LF (if 0 <? x then with_comma t ++ to_string_N (N.of_nat x) ++ s2b " errors" else t)).
  { destruct (0 <? x); [|exact A]. apply s2b_no_lf_app; [apply with_comma_no_lf; exact A|]. apply s2b_no_lf_app; [apply P|apply no_lf; reflexivity]. }
  revert B. generalize (if 0 <? x then with_comma t ++ to_string_N (N.of_nat x) ++ s2b " errors" else t) as u. intros u B.
  destruct (0 <? w); [|exact B]. apply s2b_no_lf_app; [apply with_comma_no_lf; exact B|]. apply s2b_no_lf_app; [apply P|apply no_lf; reflexivity].
Qed.

Lemma cli_ok_inj es es' : Forall known_code es -> Forall single_line es -> Forall known_code es' -> Forall single_line es' ->
  cli_report None es = cli_report None es' -> es = es'.
Proof.
  intros K C K' C' E. unfold cli_report in E. destruct es as [|r es], es' as [|r' es']; [reflexivity|discriminate E|discriminate E|].
  apply (f_equal (@tl _)) in E. cbn [tl] in E. rewrite !(app_assoc _ (s2b ":")) in E.
  apply split_first in E; [|apply s2b_no_lf_app; [apply counts_summary_no_lf|apply no_lf; reflexivity]|apply s2b_no_lf_app; [apply counts_summary_no_lf|apply no_lf; reflexivity]].
  destruct E as (_ & E).
  exact (listing_inj (s2b "  ") (r :: es) (r' :: es') apart_blank ltac:(apply no_lf; reflexivity) K C K' C' E).
Qed.

Lemma cli_failed_inj m m' es es' : ~ In LF m -> ~ In LF m' -> Forall known_code es -> Forall single_line es -> Forall known_code es' -> Forall single_line es' ->
  cli_report (Some m) es = cli_report (Some m') es' -> m = m' /\ es = es'.
Proof.
  intros M M' K C K' C' E.
  assert (F : forall m l, cli_report (Some m) l = (s2b "Error: " ++ m) ++ LF :: match l with [] => [] | _ =>
     LF :: (s2b "Parse errors (" ++ error_summary (map r_error l) ++ s2b "):") ++ LF :: concat (map (fun r => s2b "  " ++ to_string r ++ [LF]) l) end).
  { intros x l. unfold cli_report. destruct l as [|r l]; rewrite <- !app_assoc; reflexivity. }
  rewrite F in E. rewrite F in E.
  apply split_first in E; [|apply s2b_no_lf_app; [apply no_lf; reflexivity|exact M]|apply s2b_no_lf_app; [apply no_lf; reflexivity|exact M']].
  destruct E as (E1 & E). apply app_inv_head in E1. split; [exact E1|].
  destruct es as [|r es], es' as [|r' es']; [reflexivity|discriminate E|discriminate E|].
  assert (N : forall l, ~ In LF (s2b "Parse errors (" ++ error_summary l ++ s2b "):")).
  { intros l. apply s2b_no_lf_app; [apply no_lf; reflexivity|]. apply s2b_no_lf_app; [apply counts_summary_no_lf|apply no_lf; reflexivity]. }
  apply (f_equal (@tl _)) in E. cbn [tl] in E. apply (split_first LF) in E; [|apply N|apply N]. destruct E as (_ & E).
  exact (listing_inj (s2b "  ") (r :: es) (r' :: es') apart_blank ltac:(apply no_lf; reflexivity) K C K' C' E).
Qed.

Lemma count_how_many s es : count_of s es = how_many s es.
Proof.
  unfold count_of, how_many. induction es as [|r es IH]; [reflexivity|]. cbn [filter map count_occ].
  destruct (severity_dec (e_severity (r_error r)) s) as [E|E]; destruct (e_severity (r_error r)), s; cbn [length]; congruence.
Qed.

Lemma how_many_zero es : how_many WARNING es + how_many RECOVERABLE es + how_many FATAL es = length es.
Proof.
  unfold how_many. induction es as [|r es IH]; [reflexivity|]. cbn [map count_occ length].
  destruct (e_severity (r_error r)); cbn [severity_dec severity_rec severity_rect]; lia.
Qed.

Lemma unless_ltb n p : (if 0 <? n then p else []) = unless_zero n p.
Proof. destruct n; reflexivity. Qed.

Lemma counts_line_says es : es <> [] ->
  counts_line es = s2b "Total errors: " ++ print (length es) ++
      unless_zero (how_many WARNING es) (s2b " (Warnings: " ++ print (how_many WARNING es)) ++
      unless_zero (how_many RECOVERABLE es) (s2b ", Errors: " ++ print (how_many RECOVERABLE es)) ++
      unless_zero (how_many FATAL es) (s2b ", Fatal: " ++ print (how_many FATAL es)) ++ s2b ")".
Proof.
  intros H. unfold counts_line. cbv zeta. rewrite !count_how_many. rewrite !unless_ltb.
  assert (E : (0 <? how_many WARNING es) || (0 <? how_many RECOVERABLE es) || (0 <? how_many FATAL es) = true).
  { pose proof (how_many_zero es) as Z. assert (1 <= length es) by (destruct es; [congruence|cbn; lia]).
    destruct (how_many WARNING es), (how_many RECOVERABLE es), (how_many FATAL es); try reflexivity. lia. }
  rewrite E. reflexivity.
Qed.
