From Coq Require Import Permutation.
From Verif Require Import Base ChunkSpec ChunkModel ChunkProof ChunkProps TypesSpec FieldsModel FieldsSpec FieldsProof FieldsProof2
     FieldsProof3 FieldsProof4 FieldsProof5 FieldsProof6
     NumSpec NumModel NumProof DateModel ReaderSpec ReaderModel ReaderProof TypesModel TypesProof.

(** ** The fields of a sampled line *)
Section SampleLine.
Variables sep q : byte.
Hypothesis Hqn : newline q = false.

Lemma sample_loop_step c r inq cur fs :
  sample_loop sep q (c :: r) inq cur fs =
  if is_nl c then fs ++ [drop_while_end is_blank cur]
  else if N.eqb c q then
    if inq && next_is q r then sample_loop sep q (tl r) inq (cur ++ [q]) fs
    else sample_loop sep q r (negb inq) cur fs
  else if N.eqb c sep && negb inq then sample_loop sep q r inq [] (fs ++ [drop_while_end is_blank cur])
  else if (length cur =? 0) && negb inq && is_blank c then sample_loop sep q r inq cur fs
  else sample_loop sep q r inq (cur ++ [c]) fs.
Proof.
  cbn [sample_loop]. destruct (is_nl c); [reflexivity|].
  destruct (N.eqb c q); [|reflexivity]. destruct inq, r as [|c' r']; reflexivity.
Qed.

Lemma newline_not_q c : newline c = true -> N.eqb c q = false.
Proof. intro H. destruct (N.eqb_spec c q); [subst; congruence|reflexivity]. Qed.

Lemma next_is_app r nl rest : newline nl = true -> next_is q (r ++ nl :: rest) = next_is q r.
Proof. intro H. destruct r as [|c r]; [|reflexivity]. cbn. now apply newline_not_q. Qed.

Lemma sample_loop_cut nl rest : newline nl = true -> forall l inq cur fs, existsb newline l = false ->
  sample_loop sep q (l ++ nl :: rest) inq cur fs =
  let '(n, c) := header_loop sep q l inq cur fs in n ++ [drop_while_end is_blank c].
Proof.
  intro Hnl.
  assert (E0 : forall inq cur fs, sample_loop sep q ([] ++ nl :: rest) inq cur fs = fs ++ [drop_while_end is_blank cur]).
  { intros. cbn [app]. rewrite sample_loop_step. change (is_nl nl) with (newline nl). rewrite Hnl. reflexivity. }
  induction l as [|x|x y l IH1 IH2] using list_two_ind; intros inq cur fs H.
  - rewrite E0. reflexivity.
  - cbn [existsb] in H. rewrite orb_false_r in H.
    change (([x] ++ nl :: rest)) with (x :: ([] ++ nl :: rest)). rewrite sample_loop_step, header_loop_step.
    change (is_nl x) with (newline x). rewrite H, andb_false_r.
    rewrite (next_is_app [] nl rest Hnl). cbn [next_is]. rewrite andb_false_r. rewrite !E0.
    destruct (N.eqb x q); [reflexivity|]. destruct (N.eqb x sep && negb inq); [reflexivity|].
    destruct ((length cur =? 0) && negb inq && is_blank x); reflexivity.
  - change ((x :: y :: l) ++ nl :: rest) with (x :: ((y :: l) ++ nl :: rest)). cbn [existsb] in H.
    apply orb_false_iff in H as [Hx H]. pose proof H as H'. apply orb_false_iff in H' as [Hy Hl].
    rewrite sample_loop_step, header_loop_step. change (is_nl x) with (newline x). rewrite Hx, andb_false_r.
    rewrite (next_is_app (y :: l) nl rest Hnl).
    destruct (N.eqb x q).
    + destruct (inq && next_is q (y :: l)).
      * change (tl ((y :: l) ++ nl :: rest)) with (l ++ nl :: rest). cbn [tl]. apply IH1. exact Hl.
      * apply IH2. exact H.
    + destruct (N.eqb x sep && negb inq); [apply IH2; exact H|].
      destruct ((length cur =? 0) && negb inq && is_blank x); apply IH2; exact H.
Qed.

Lemma sample_loop_open : forall l inq cur fs, existsb newline l = false ->
  sample_loop sep q l inq cur fs =
  let '(n, c) := header_loop sep q l inq cur fs in
  if length c =? 0 then n else n ++ [drop_while_end is_blank c].
Proof.
  induction l as [|x|x y l IH1 IH2] using list_two_ind; intros inq cur fs H.
  - reflexivity.
  - cbn [existsb] in H. rewrite orb_false_r in H.
    rewrite sample_loop_step, header_loop_step.
    change (is_nl x) with (newline x). rewrite H, andb_false_r. cbn [next_is]. rewrite andb_false_r.
    destruct (N.eqb x q); [reflexivity|]. destruct (N.eqb x sep && negb inq); [reflexivity|].
    destruct ((length cur =? 0) && negb inq && is_blank x); reflexivity.
  - cbn [existsb] in H.
    apply orb_false_iff in H as [Hx H]. pose proof H as H'. apply orb_false_iff in H' as [Hy Hl].
    rewrite sample_loop_step, header_loop_step. change (is_nl x) with (newline x). rewrite Hx, andb_false_r.
    destruct (N.eqb x q).
    + destruct (inq && next_is q (y :: l)); [apply IH1; exact Hl|apply IH2; exact H].
    + destruct (N.eqb x sep && negb inq); [apply IH2; exact H|].
      destruct ((length cur =? 0) && negb inq && is_blank x); apply IH2; exact H.
Qed.

Lemma rr_no_newline : forall l st, existsb newline l = false -> join sep (fst (raw_row newline sep q st l)) = l.
Proof.
  assert (J : forall c p, fst p <> [] -> join sep (fst (prepend [c] p)) = c :: join sep (fst p)).
  { intros c p H. unfold prepend. destruct (fst p) as [|f fs]; [congruence|]. destruct fs; reflexivity. }
  induction l as [|c l IH]; intros st H; [reflexivity|]. cbn [existsb] in H. apply orb_false_iff in H as [Hc Hl].
  rewrite rr_cons. pose proof (rr_nonempty newline sep q) as NE.
  destruct (N.eqb c q); [rewrite J by apply NE; rewrite IH by exact Hl; reflexivity|].
  destruct st; [rewrite J by apply NE; rewrite IH by exact Hl; reflexivity|]. rewrite Hc.
  destruct (N.eqb_spec c sep) as [->|]; [|rewrite J by apply NE; rewrite IH by exact Hl; reflexivity].
  cbn [fst]. pose proof (IH false Hl) as E. pose proof (NE false l) as N1.
  destruct (fst (raw_row newline sep q false l)) as [|f fs]; [congruence|]. change (join sep ([] :: f :: fs)) with ([] ++ sep :: join sep (f :: fs)). rewrite E. reflexivity.
Qed.

Lemma header_loop_no_newline l : existsb newline l = false ->
  let fs := map (fun f => header_chars q f false []) (fst (raw_row newline sep q false l)) in
  header_loop sep q l false [] [] = (map (trim_right blank) (removelast fs), last fs []).
Proof.
  intro H. cbv zeta. rewrite (header_loop_spec sep q Hqn). rewrite hnu_names. unfold hres, term.
  rewrite (rr_no_newline l false H). rewrite (proj2 (Nat.ltb_ge _ _)) by lia. reflexivity.
Qed.

Theorem sample_fields_line body nl rest : existsb newline body = false -> newline nl = true ->
  sample_fields sep q (body ++ nl :: rest) = map (header_name q) (fst (raw_row newline sep q false body)).
Proof.
  intros H Hnl. unfold sample_fields. rewrite (sample_loop_cut nl rest Hnl) by exact H.
  rewrite (header_loop_no_newline body H). cbv zeta beta iota.
  pose proof (rr_nonempty newline sep q false body) as NE. set (F := fst (raw_row newline sep q false body)) in *.
  rewrite drop_while_end_trim. change is_blank with blank.
  change [trim_right blank (last (map (fun f => header_chars q f false []) F) [])]
    with (map (trim_right blank) [last (map (fun f => header_chars q f false []) F) []]).
  rewrite <- map_app, <- app_removelast_last; [|destruct F; [congruence|discriminate]].
  rewrite map_map. reflexivity.
Qed.

Theorem sample_fields_last body : existsb newline body = false ->
  let fs := fst (raw_row newline sep q false body) in
  sample_fields sep q body =
  if length (header_chars q (last fs []) false []) =? 0
  then removelast (map (header_name q) fs) else map (header_name q) fs.
Proof.
  intros H. cbv zeta. unfold sample_fields. rewrite (sample_loop_open body) by exact H.
  rewrite (header_loop_no_newline body H). cbv zeta beta iota.
  pose proof (rr_nonempty newline sep q false body) as NE. set (F := fst (raw_row newline sep q false body)) in *.
  assert (EL : last (map (fun f => header_chars q f false []) F) [] = header_chars q (last F []) false []).
  { clear -NE. induction F as [|f F IH]; [congruence|]. destruct F as [|g F]; [reflexivity|].
    change (map (fun f => header_chars q f false []) (f :: g :: F)) with (header_chars q f false [] :: map (fun f => header_chars q f false []) (g :: F)).
    change (last (f :: g :: F) []) with (last (g :: F) []). rewrite <- IH by discriminate. reflexivity. }
  assert (ER : map (trim_right blank) (removelast (map (fun f => header_chars q f false []) F)) = removelast (map (header_name q) F)).
  { clear. induction F as [|f F IH]; [reflexivity|]. destruct F as [|g F]; [reflexivity|].
    change (removelast (map (fun f => header_chars q f false []) (f :: g :: F))) with (header_chars q f false [] :: removelast (map (fun f => header_chars q f false []) (g :: F))).
    change (removelast (map (header_name q) (f :: g :: F))) with (header_name q f :: removelast (map (header_name q) (g :: F))).
    rewrite <- IH. reflexivity. }
  rewrite ER. destruct (length _ =? 0) eqn:E at 1; rewrite EL in E; rewrite E; [reflexivity|].
  rewrite <- ER, drop_while_end_trim. change is_blank with blank.
  change [trim_right blank (last (map (fun f => header_chars q f false []) F) [])]
    with (map (trim_right blank) [last (map (fun f => header_chars q f false []) F) []]).
  rewrite <- map_app, <- app_removelast_last; [|destruct F; [congruence|discriminate]].
  rewrite map_map. reflexivity.
Qed.
End SampleLine.

(** ** parse_line *)
Section ParseLine.
Context {V : Type}.
Variable conv : nat -> bytes -> option V.
Variables (sep q : byte) (ln : line_nulls).

Definition tcell (k : nat) (t : bytes) : option V := if is_null_value ln t then None else conv k t.

(** Append cells for the columns [ts] reaches; the other columns unchanged. *)
Fixpoint putc (k : nat) (ts : list bytes) (cols : list (list (option V))) : list (list (option V)) :=
  match ts, cols with
  | t :: ts', col :: r => (col ++ [tcell k t]) :: putc (S k) ts' r
  | _, _ => cols
  end.

Lemma putc_length ts : forall k cols, length (putc k ts cols) = length cols.
Proof. induction ts as [|t ts IH]; intros k [|c cols]; cbn; auto. Qed.

Lemma put_field_app cur A b B :
  put_field conv ln cur (length A) (A ++ b :: B) = A ++ (b ++ [tcell (length A) (drop_while_end is_blank cur)]) :: B.
Proof. unfold put_field. rewrite append_at_app. reflexivity. Qed.

Lemma line_loop_step c r inq cur k cols :
  line_loop conv sep q ln (c :: r) inq cur k cols =
  if length cols <=? k then (cols, k, cur)
  else if negb inq && is_nl c then (put_field conv ln cur k cols, S k, [])
  else if N.eqb c q then
    if inq && next_is q r then line_loop conv sep q ln (tl r) inq (cur ++ [q]) k cols
    else line_loop conv sep q ln r (negb inq) cur k cols
  else if N.eqb c sep && negb inq then line_loop conv sep q ln r inq [] (S k) (put_field conv ln cur k cols)
  else if (length cur =? 0) && negb inq && is_blank c then line_loop conv sep q ln r inq cur k cols
  else line_loop conv sep q ln r inq (cur ++ [c]) k cols.
Proof.
  cbn [line_loop]. destruct (length cols <=? k); [reflexivity|].
  destruct (negb inq && is_nl c); [reflexivity|].
  destruct (N.eqb c q); [|reflexivity]. destruct inq, r as [|c' r']; reflexivity.
Qed.

Definition line_ok (A B : list (list (option V))) (names : list bytes) (h : list bytes * bytes)
           (r : list (list (option V)) * nat * bytes) : Prop :=
  exists new, fst h = names ++ new /\
    fst (fst r) = A ++ putc (length A) new B /\
    snd (fst r) = length A + Nat.min (length new) (length B) /\
    (length new < length B -> snd r = snd h).

Lemma header_prefix : forall l inq cur names, exists new, fst (header_loop sep q l inq cur names) = names ++ new.
Proof.
  assert (S1 : forall (h : list bytes * bytes) (names : list bytes) x, (exists new, fst h = (names ++ [x]) ++ new) -> exists new, fst h = names ++ new).
  { intros h names x (new & E). exists (x :: new). rewrite E, <- app_assoc. reflexivity. }
  induction l as [|x|x y l IH1 IH2] using list_two_ind; intros inq cur names.
  - exists []. cbn. now rewrite app_nil_r.
  - rewrite header_loop_step. cbn [next_is]. rewrite andb_false_r.
    destruct (negb inq && is_nl x); [exists [drop_while_end is_blank cur]; reflexivity|].
    destruct (N.eqb x q); [exists []; cbn; now rewrite app_nil_r|].
    destruct (N.eqb x sep && negb inq); [eexists; reflexivity|].
    destruct ((length cur =? 0) && negb inq && is_blank x); exists []; cbn; now rewrite app_nil_r.
  - rewrite header_loop_step.
    destruct (negb inq && is_nl x); [exists [drop_while_end is_blank cur]; reflexivity|].
    destruct (N.eqb x q); [destruct (inq && next_is q (y :: l)); [apply IH1|apply IH2]|].
    destruct (N.eqb x sep && negb inq); [eapply S1; apply IH2|].
    destruct ((length cur =? 0) && negb inq && is_blank x); apply IH2.
Qed.

Lemma line_loop_full : forall l inq cur A, line_loop conv sep q ln l inq cur (length A) A = (A, length A, cur).
Proof.
  intros [|c l] inq cur A; [reflexivity|]. rewrite line_loop_step. rewrite Nat.leb_refl. reflexivity.
Qed.

Lemma line_ok_full A names h cur : (exists new, fst h = names ++ new) -> line_ok A [] names h (A, length A, cur).
Proof.
  intros (new & E). exists new. split; [exact E|]. cbn. rewrite Nat.min_0_r, Nat.add_0_r.
  split; [|split; [reflexivity|lia]]. destruct new; cbn; now rewrite app_nil_r.
Qed.

Lemma line_ok_step A b B names h r x : length names = length A ->
  line_ok (A ++ [b ++ [tcell (length A) x]]) B (names ++ [x]) h r -> line_ok A (b :: B) names h r.
Proof.
  intros HL (new & E1 & E2 & E3 & E4). exists (x :: new).
  rewrite app_length in *. cbn [length] in *. split; [rewrite E1, <- app_assoc; reflexivity|].
  split; [rewrite E2, <- app_assoc; cbn [app putc]; rewrite Nat.add_1_r; reflexivity|].
  split; [rewrite E3; lia|]. intro H. apply E4. lia.
Qed.

Lemma line_loop_spec : forall l inq cur A B names, length names = length A ->
  line_ok A B names (header_loop sep q l inq cur names) (line_loop conv sep q ln l inq cur (length A) (A ++ B)).
Proof.
  assert (DONE : forall A B names cur, line_ok A B names (names, cur) (A ++ B, length A, cur)).
  { intros. exists []. rewrite app_nil_r. cbn. repeat split; auto; lia. }
  assert (PUSH : forall A b B names cur cur2, length names = length A ->
     line_ok A (b :: B) names (names ++ [drop_while_end is_blank cur], cur2)
             (put_field conv ln cur (length A) (A ++ b :: B), S (length A), cur2)).
  { intros. exists [drop_while_end is_blank cur]. cbn [fst snd length putc]. rewrite put_field_app.
    repeat split; auto. lia. }
  induction l as [|x|x y l IH1 IH2] using list_two_ind; intros inq cur A B names HL.
  - apply DONE.
  - destruct B as [|b B]; [rewrite app_nil_r, line_loop_full; apply line_ok_full, header_prefix|].
    rewrite line_loop_step, header_loop_step.
    rewrite (proj2 (Nat.leb_gt _ _)) by (rewrite app_length; cbn; lia).
    cbn [next_is]. rewrite andb_false_r.
    destruct (negb inq && is_nl x); [apply PUSH; exact HL|].
    destruct (N.eqb x q); [apply DONE|].
    destruct (N.eqb x sep && negb inq); [apply PUSH; exact HL|].
    destruct ((length cur =? 0) && negb inq && is_blank x); apply DONE.
  - destruct B as [|b B]; [rewrite app_nil_r, line_loop_full; apply line_ok_full, header_prefix|].
    rewrite line_loop_step, header_loop_step.
    rewrite (proj2 (Nat.leb_gt _ _)) by (rewrite app_length; cbn; lia).
    destruct (negb inq && is_nl x); [apply PUSH; exact HL|].
    destruct (N.eqb x q).
    { cbn [tl]. destruct (inq && next_is q (y :: l)); [apply IH1|apply IH2]; exact HL. }
    destruct (N.eqb x sep && negb inq).
    { apply (line_ok_step A b B names _ _ (drop_while_end is_blank cur) HL).
      rewrite put_field_app.
      replace (S (length A)) with (length (A ++ [b ++ [tcell (length A) (drop_while_end is_blank cur)]])) by (rewrite app_length; cbn; lia).
      change (A ++ (b ++ [tcell (length A) (drop_while_end is_blank cur)]) :: B) with
        (A ++ [b ++ [tcell (length A) (drop_while_end is_blank cur)]] ++ B). rewrite app_assoc.
      apply IH2. rewrite !app_length. cbn. lia. }
    destruct ((length cur =? 0) && negb inq && is_blank x); apply IH2; exact HL.
Qed.

(** Every column, with nulls where there is no text. *)
Fixpoint puta (k : nat) (ts : list bytes) (cols : list (list (option V))) : list (list (option V)) :=
  match cols with
  | [] => []
  | col :: r => match ts with
                | [] => (col ++ [None]) :: puta (S k) [] r
                | t :: ts' => (col ++ [tcell k t]) :: puta (S k) ts' r
                end
  end.


Lemma fill_none : forall B A, fill_nulls (length B) (length A) (A ++ B) = A ++ puta (length A) [] B.
Proof.
  induction B as [|b B IH]; intros A; [cbn; reflexivity|].
  cbn [length fill_nulls puta]. rewrite append_at_app. cbn [append_at].
  replace (length A + 1) with (length (A ++ [b ++ [None]])) by (rewrite app_length; reflexivity).
  change (A ++ (b ++ [None]) :: B) with (A ++ [b ++ [@None V]] ++ B). rewrite app_assoc, IH.
  rewrite <- app_assoc, app_length, Nat.add_1_r. reflexivity.
Qed.

Lemma fill_after : forall ts B A,
  fill_nulls (length B - length ts) (length A + Nat.min (length ts) (length B)) (A ++ putc (length A) ts B) =
  A ++ puta (length A) ts B.
Proof.
  induction ts as [|t ts IH]; intros B A.
  - cbn [length Nat.min]. rewrite Nat.sub_0_r, Nat.add_0_r. apply fill_none.
  - destruct B as [|b B].
    + cbn. reflexivity.
    + cbn [length Nat.sub Nat.min putc puta].
      change (A ++ (b ++ [tcell (length A) t]) :: putc (S (length A)) ts B) with
        (A ++ [b ++ [tcell (length A) t]] ++ putc (S (length A)) ts B).
      rewrite app_assoc.
      replace (S (length A)) with (length (A ++ [b ++ [tcell (length A) t]])) by (rewrite app_length; cbn; lia).
      replace (length A + S (Nat.min (length ts) (length B))) with (length (A ++ [b ++ [tcell (length A) t]]) + Nat.min (length ts) (length B))
        by (rewrite app_length; cbn; lia).
      rewrite IH. rewrite <- app_assoc. reflexivity.
Qed.

Lemma put_field_end cur : forall ts A B, length ts < length B ->
  put_field conv ln cur (length A + length ts) (A ++ putc (length A) ts B) =
  A ++ putc (length A) (ts ++ [drop_while_end is_blank cur]) B.
Proof.
  induction ts as [|t ts IH]; intros A B H.
  - destruct B as [|b B]; [cbn in H; lia|]. cbn [length app putc]. rewrite Nat.add_0_r. apply put_field_app.
  - destruct B as [|b B]; [cbn in H; lia|]. cbn [length app putc] in *.
    change (A ++ (b ++ [tcell (length A) t]) :: putc (S (length A)) ts B) with
        (A ++ [b ++ [tcell (length A) t]] ++ putc (S (length A)) ts B).
    rewrite app_assoc.
    replace (S (length A)) with (length (A ++ [b ++ [tcell (length A) t]])) by (rewrite app_length; cbn; lia).
    replace (length A + S (length ts)) with (length (A ++ [b ++ [tcell (length A) t]]) + length ts) by (rewrite app_length; cbn; lia).
    rewrite IH by lia. rewrite <- app_assoc. reflexivity.
Qed.

(** The texts parse_line distributes. *)
Definition line_texts (l : bytes) : list bytes :=
  let '(names, cur) := header_loop sep q l false [] [] in
  if length cur =? 0 then names else names ++ [drop_while_end is_blank cur].

Lemma puta_firstn : forall B ts k, puta k (firstn (length B) ts) B = puta k ts B.
Proof. induction B as [|b B IH]; intros [|t ts] k; cbn; try reflexivity; now rewrite IH. Qed.

Theorem parse_line_spec l cols : l <> [] -> cols <> [] ->
  parse_line conv sep q ln l cols = (puta 0 (line_texts l) cols, length cols).
Proof.
  intros Hl Hc. unfold parse_line, line_texts.
  destruct (Nat.eqb_spec (length l) 0) as [E|_]; [destruct l; [congruence|discriminate]|].
  destruct (Nat.eqb_spec (length cols) 0) as [E|_]; [destruct cols; [congruence|discriminate]|]. cbn [orb].
  pose proof (line_loop_spec l false [] [] cols [] eq_refl) as (new & E1 & E2 & E3 & E4).
  cbn [length app] in *. rewrite Nat.add_0_l in E3.
  destruct (header_loop sep q l false [] []) as [names cur]. cbn [fst snd] in *. subst names.
  destruct (line_loop conv sep q ln l false [] 0 cols) as [[c1 k1] cur1]. cbn [fst snd] in *. subst c1 k1.
  destruct (Nat.ltb_spec (Nat.min (length new) (length cols)) (length cols)) as [L|L]; cbn [andb].
  - assert (Hlt : length new < length cols) by lia. rewrite (E4 Hlt). clear E4.
    rewrite Nat.min_l by lia.
    destruct (length cur =? 0) eqn:Ec; cbn [negb].
    + apply f_equal2; [|lia]. pose proof (fill_after new cols []) as Fl. cbn [length app] in Fl. rewrite Nat.min_l in Fl by lia. exact Fl.
    + apply f_equal2; [|lia]. pose proof (put_field_end cur new [] cols Hlt) as Pf. cbn [length app] in Pf.
      rewrite Nat.add_0_l in Pf. rewrite Pf.
      pose proof (fill_after (new ++ [drop_while_end is_blank cur]) cols []) as Fl. cbn [length app] in Fl.
      rewrite app_length in Fl. cbn [length] in Fl. rewrite Nat.add_0_l in Fl. rewrite Nat.min_l in Fl by lia.
      replace (length cols - S (length new)) with (length cols - (length new + 1)) by lia.
      replace (S (length new)) with (length new + 1) by lia. exact Fl.
  - assert (Hge : length cols <= length new) by lia. rewrite Nat.min_r by lia. rewrite Nat.sub_diag. cbn [fill_nulls].
    apply f_equal2; [|lia]. pose proof (fill_after new cols []) as Fl. cbn [length app] in Fl.
    replace (length cols - length new) with 0 in Fl by lia. cbn [fill_nulls] in Fl. rewrite Fl.
    destruct (length cur =? 0); [reflexivity|].
    rewrite <- (puta_firstn cols new), <- (puta_firstn cols (new ++ _)), firstn_app.
    replace (length cols - length new) with 0 by lia. cbn [firstn]. rewrite app_nil_r. reflexivity.
Qed.

Lemma puta_nth : forall cols ts k j, nth_error (puta k ts cols) j =
  option_map (fun col => col ++ [match nth_error ts j with Some t => tcell (k + j) t | None => None end]) (nth_error cols j).
Proof.
  induction cols as [|c cols IH]; intros ts k j; [destruct j; reflexivity|].
  destruct ts as [|t ts], j as [|j]; cbn [puta nth_error option_map].
  - reflexivity.
  - rewrite IH. destruct (nth_error cols j); [|reflexivity]. cbn. destruct j; reflexivity.
  - now rewrite Nat.add_0_r.
  - rewrite IH. replace (S k + j) with (k + S j) by lia. reflexivity.
Qed.
End ParseLine.
