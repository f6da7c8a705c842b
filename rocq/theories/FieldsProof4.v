(** The line splitters and the header parser. *)
From Verif Require Import Base WordsModel WordsProof ChunkSpec ChunkModel ChunkProof ChunkProof2 ChunkProof3
  FieldsSpec FieldsModel FieldsProof FieldsProof2 FieldsProof3.

Definition hdF (p : list bytes * bytes) : bytes := hd [] (fst p).
Definition prepend (cur : bytes) (p : list bytes * bytes) : list bytes * bytes :=
  match fst p with f :: fs => ((cur ++ f) :: fs, snd p) | [] => ([cur], snd p) end.

Section Gen.
Variable isel : byte -> bool.
Variables sep q : byte.
Hypothesis Hqs : q <> sep.
Hypothesis Hqe : isel q = false.
Notation rr := (raw_row isel sep q).
Definition dlm (c : byte) : bool := N.eqb c sep || isel c.
Definition endg (st : bool) (v : bytes) (i : nat) : bool := nthb dlm v i && negb (inside_at st q v i).

Lemma endg_0 st c r : endg st (c :: r) 0 = dlm c && negb st.
Proof. unfold endg. rewrite inside_at_0. reflexivity. Qed.
Lemma endg_S st c r i : endg st (c :: r) (S i) = endg (xorb st (N.eqb c q)) r i.
Proof. unfold endg. rewrite inside_at_S. reflexivity. Qed.

Lemma rr_nonempty st v : fst (rr st v) <> [].
Proof.
  destruct v as [|c r]; cbn [raw_row]; [discriminate|].
  assert (H : forall x, fst (cons_first c x) <> []) by (intros [[|f fs] t]; discriminate).
  destruct (N.eqb c q); [apply H|]. destruct st; [apply H|].
  destruct (isel c); [discriminate|]. destruct (N.eqb c sep); [discriminate|apply H].
Qed.

Lemma cons_prepend c p : fst p <> [] -> cons_first c p = prepend [c] p.
Proof. destruct p as [[|f fs] t]; cbn; congruence. Qed.
Lemma prepend_app a b p : fst p <> [] -> prepend (a ++ b) p = prepend a (prepend b p).
Proof. destruct p as [[|f fs] t]; cbn; [congruence|]. intros _. unfold prepend. cbn. rewrite app_assoc. reflexivity. Qed.
Lemma prepend_nil p : fst p <> [] -> prepend [] p = p.
Proof. destruct p as [[|f fs] t]; cbn; congruence. Qed.

Lemma prepend_nonempty a p : fst (prepend a p) <> [].
Proof. destruct p as [[|f fs] t]; discriminate. Qed.

(** No field end among the first n bytes. *)
Lemma rr_prefix : forall n v st, n <= length v -> (forall i, i < n -> endg st v i = false) ->
  rr st v = prepend (firstn n v) (rr (endst st q (firstn n v)) (skipn n v)).
Proof.
  induction n as [|n IH]; intros v st Hn H.
  - cbn [firstn skipn endst]. rewrite prepend_nil by apply rr_nonempty. reflexivity.
  - destruct v as [|c r]; [cbn in Hn; lia|]. cbn [firstn skipn length endst] in *.
    pose proof (H 0 ltac:(lia)) as H0. rewrite endg_0 in H0.
    assert (Hr : forall st', st' = (if N.eqb c q then negb st else st) ->
      cons_first c (rr st' r) = prepend (c :: firstn n r) (rr (endst st' q (firstn n r)) (skipn n r))).
    { intros st' E. rewrite (IH r st'); [|lia|].
      - rewrite cons_prepend.
        + change (c :: firstn n r) with ([c] ++ firstn n r). rewrite prepend_app by apply rr_nonempty. reflexivity.
        + apply prepend_nonempty.
      - intros i Hi. specialize (H (S i) ltac:(lia)). rewrite endg_S in H. rewrite E.
        destruct st, (N.eqb c q); exact H. }
    cbn [raw_row]. destruct (N.eqb c q) eqn:Ec; [apply Hr; reflexivity|].
    destruct st; [apply Hr; reflexivity|].
    unfold dlm in H0. rewrite andb_true_r in H0. apply orb_false_iff in H0. destruct H0 as [H1 H2].
    rewrite H2, H1. apply Hr. reflexivity.
Qed.

(** The first field end is at position n. *)
Lemma rr_first n v st c : nth_error v n = Some c -> endg st v n = true -> (forall i, i < n -> endg st v i = false) ->
  rr st v = if isel c then ([firstn n v], skipn (S n) v)
            else (firstn n v :: fst (rr false (skipn (S n) v)), snd (rr false (skipn (S n) v))).
Proof.
  intros Hc He Hl. assert (Hn : n < length v) by (apply nth_error_Some; congruence).
  rewrite (rr_prefix n v st) by (assumption || lia).
  rewrite (skipn_nth_cons _ _ _ Hc).
  unfold endg in He. apply andb_true_iff in He. destruct He as [Hd Hi].
  rewrite nthb_nth_error, Hc in Hd.
  assert (Hst : endst st q (firstn n v) = false).
  { rewrite endst_spec. unfold inside_at, quotes_before in Hi. destruct (xorb _ _); [discriminate|reflexivity]. }
  rewrite Hst. cbn [raw_row].
  assert (Hcq : N.eqb c q = false).
  { apply N.eqb_neq. intros ->. unfold dlm in Hd. apply orb_true_iff in Hd. destruct Hd as [Hd|Hd].
    - apply N.eqb_eq in Hd. congruence.
    - congruence. }
  rewrite Hcq. unfold dlm in Hd. destruct (isel c).
  - unfold prepend. cbn. rewrite app_nil_r. reflexivity.
  - rewrite orb_false_r in Hd. rewrite Hd. unfold prepend. cbn. rewrite app_nil_r. reflexivity.
Qed.

(** Shape. *)
Lemma rr_join : forall v st, exists tail,
  v = join sep (fst (rr st v)) ++ tail /\
  (tail = [] /\ snd (rr st v) = [] \/ exists c, isel c = true /\ tail = c :: snd (rr st v)).
Proof.
  induction v as [|c r IH]; intros st.
  - exists []. split; [reflexivity|]. left. split; reflexivity.
  - assert (Hcf : forall st', exists tail,
      c :: r = join sep (fst (cons_first c (rr st' r))) ++ tail /\
      (tail = [] /\ snd (cons_first c (rr st' r)) = [] \/
       exists d, isel d = true /\ tail = d :: snd (cons_first c (rr st' r)))).
    { intros st'. destruct (IH st') as (tail & Hv & Ht). exists tail.
      pose proof (rr_nonempty st' r) as Hne. unfold cons_first.
      destruct (rr st' r) as [fs rest]. cbn [fst snd] in *.
      destruct fs as [|f fs]; [congruence|]. cbn [fst snd]. split; [|assumption].
      rewrite Hv. destruct fs; reflexivity. }
    cbn [raw_row]. destruct (N.eqb c q); [apply Hcf|]. destruct st; [apply Hcf|].
    destruct (isel c) eqn:Ee.
    + exists (c :: r). split; [reflexivity|right]. exists c. split; [assumption|reflexivity].
    + destruct (N.eqb c sep) eqn:Es; [|apply Hcf].
      apply N.eqb_eq in Es. subst c. destruct (IH false) as (tail & Hv & Ht).
      pose proof (rr_nonempty false r) as Hne.
      destruct (rr false r) as [fs rest]. cbn [fst snd] in *.
      exists tail. split; [|assumption]. destruct fs as [|f fs]; [congruence|]. rewrite Hv. reflexivity.
Qed.
End Gen.

Lemma is_nl_newline : is_nl = newline. Proof. reflexivity. Qed.
Lemma drop_while_trim p l : drop_while p l = trim_left p l.
Proof. induction l as [|c r IH]; [reflexivity|]. cbn. rewrite IH. reflexivity. Qed.
Lemma drop_while_end_trim p l : drop_while_end p l = trim_right p l.
Proof. unfold drop_while_end, trim_right. rewrite drop_while_trim. reflexivity. Qed.

Lemma starts_rev_last q f : 2 <= length f -> starts_with q (rev f) = N.eqb (last f 0%N) q.
Proof.
  intros H. destruct (exists_last (l := f)) as (l & x & ->); [destruct f; cbn in H; [lia|discriminate]|].
  rewrite rev_app_distr, last_last. reflexivity.
Qed.

Lemma post_process_spec q f : post_process q f = reported_field q f.
Proof.
  unfold post_process, reported_field. rewrite drop_while_end_trim, drop_while_trim.
  replace ((2 <=? length f) && N.eqb (hd 0%N f) q && N.eqb (last f 0%N) q)
    with ((2 <=? length f) && starts_with q f && starts_with q (rev f)); [reflexivity|].
  destruct (Nat.leb_spec 2 (length f)) as [H|H]; [|reflexivity]. cbn [andb].
  rewrite starts_rev_last by assumption. destruct f; [cbn in H; lia|]. reflexivity.
Qed.

Section Split.
Variables sep q : byte.
Hypothesis Hqs : q <> sep.
Hypothesis Hqn : newline q = false.
Hypothesis Hsn : newline sep = false.
Notation rr := (raw_row newline sep q).

Lemma split_loop_step data c rest i fs inq fields :
  split_loop sep q data (c :: rest) i fs inq fields =
  if N.eqb c q then
    if inq && next_is q rest then split_loop sep q data (tl rest) (i + 2) fs inq fields
    else split_loop sep q data rest (i + 1) fs (negb inq) fields
  else if inq then split_loop sep q data rest (i + 1) fs inq fields
  else if N.eqb c sep then
    split_loop sep q data rest (i + 1) (i + 1) inq (fields ++ [post_process q (slice fs i data)])
  else if is_nl c then (fs, fields)
  else split_loop sep q data rest (i + 1) fs inq fields.
Proof.
  cbn [split_loop]. destruct (N.eqb c q); [|reflexivity].
  destruct inq, rest as [|c' rest']; reflexivity.
Qed.

Lemma slice_mid {A} (pre cur l : list A) : slice (length pre) (length pre + length cur) (pre ++ cur ++ l) = cur.
Proof.
  unfold slice. rewrite skipn_app, skipn_all, Nat.sub_diag. cbn [app skipn].
  replace (length pre + length cur - length pre) with (length cur + 0) by lia.
  rewrite firstn_app_2. cbn. apply app_nil_r.
Qed.

Lemma rr_cons st c r : rr st (c :: r) =
   if N.eqb c q then prepend [c] (rr (negb st) r)
   else if st then prepend [c] (rr st r)
   else if newline c then ([[]], r)
   else if N.eqb c sep then ([] :: fst (rr false r), snd (rr false r))
   else prepend [c] (rr st r).
Proof.
  cbn [raw_row].
  destruct (N.eqb c q); [apply cons_prepend, rr_nonempty|].
  destruct st; [apply cons_prepend, rr_nonempty|].
  destruct (newline c); [reflexivity|]. destruct (N.eqb c sep); [reflexivity|apply cons_prepend, rr_nonempty].
Qed.

(** split_loop computes the raw fields of the line; the last one is left open. *)
Lemma split_loop_spec : forall l pre cur inq fields,
  let F := fst (prepend cur (rr inq l)) in
  let r := split_loop sep q (pre ++ cur ++ l) l (length pre + length cur) (length pre) inq fields in
  snd r = fields ++ map (post_process q) (removelast F) /\
  exists tail, skipn (fst r) (pre ++ cur ++ l) = last F [] ++ tail /\
   (tail = [] \/ exists c, newline c = true /\ tail = c :: snd (rr inq l)).
Proof.
  induction l as [| x | x y l IH1 IH2] using list_two_ind; intros pre cur inq fields.
  - cbn [raw_row split_loop]. unfold prepend. cbn [fst snd removelast map last]. rewrite !app_nil_r.
    split; [reflexivity|]. exists []. split; [|left; reflexivity].
    rewrite skipn_app, skipn_all, Nat.sub_diag, app_nil_r. reflexivity.
  - cbv zeta. rewrite split_loop_step. cbn [next_is]. rewrite andb_false_r.
    rewrite rr_cons. cbn [split_loop raw_row].
    assert (H1 : skipn (length pre) (pre ++ cur ++ [x]) = cur ++ [x]) by (rewrite skipn_app, skipn_all, Nat.sub_diag; reflexivity).
    assert (H2 : skipn (length pre + length cur + 1) (pre ++ cur ++ [x]) = []).
    { apply skipn_all2. rewrite !app_length. cbn. lia. }
    destruct (N.eqb x q); [|destruct inq; [|destruct (N.eqb x sep) eqn:Es; [|rewrite is_nl_newline; destruct (newline x) eqn:En]]];
      unfold prepend; cbn [fst snd removelast map last hd].
    + rewrite !app_nil_r. split; [reflexivity|]. exists []. rewrite app_nil_r. split; [exact H1|left; reflexivity].
    + rewrite !app_nil_r. split; [reflexivity|]. exists []. rewrite app_nil_r. split; [exact H1|left; reflexivity].
    + apply N.eqb_eq in Es. subst x. rewrite Hsn. cbn [fst snd removelast map last].
      rewrite !app_nil_r. rewrite slice_mid. split; [reflexivity|]. exists []. split; [exact H2|left; reflexivity].
    + rewrite !app_nil_r. split; [reflexivity|]. exists [x]. split; [exact H1|].
      right. exists x. split; [assumption|reflexivity].
    + rewrite !app_nil_r. split; [reflexivity|]. exists []. rewrite app_nil_r. split; [exact H1|left; reflexivity].
  - cbv zeta. rewrite split_loop_step.
    (* moving one byte into the current field *)
    assert (Hmove : forall inq', 
      let F := fst (prepend cur (prepend [x] (rr inq' (y :: l)))) in
      let r := split_loop sep q (pre ++ cur ++ x :: y :: l) (y :: l) (length pre + length cur + 1) (length pre) inq' fields in
      snd r = fields ++ map (post_process q) (removelast F) /\
      exists tail, skipn (fst r) (pre ++ cur ++ x :: y :: l) = last F [] ++ tail /\
       (tail = [] \/ exists c, newline c = true /\ tail = c :: snd (rr inq' (y :: l)))).
    { intros inq'. specialize (IH2 pre (cur ++ [x]) inq' fields). cbv zeta in *.
      rewrite prepend_app in IH2 by apply rr_nonempty. rewrite <- app_assoc in IH2. cbn [app] in IH2.
      rewrite app_length in IH2. cbn [length] in IH2. rewrite Nat.add_assoc in IH2. exact IH2. }
    assert (Hsnd : forall p, snd (prepend [x] p) = snd p) by (intros [[|? ?] ?]; reflexivity).
    rewrite (rr_cons inq x (y :: l)). destruct (N.eqb x q) eqn:Ex.
    + destruct (inq && next_is q (y :: l)) eqn:Eq.
      * apply andb_true_iff in Eq. destruct Eq as [-> Ey]. cbn [next_is] in Ey. cbn [tl negb].
        rewrite (rr_cons false y l), Ey. cbn [negb].
        specialize (IH1 pre (cur ++ [x; y]) true fields). cbv zeta in IH1.
        rewrite prepend_app in IH1 by apply rr_nonempty.
        change [x; y] with ([x] ++ [y]) in IH1. rewrite prepend_app in IH1 by apply rr_nonempty.
        rewrite <- !app_assoc in IH1. cbn [app] in IH1. rewrite app_length in IH1. cbn [length] in IH1.
        rewrite Nat.add_assoc in IH1. rewrite Hsnd.
        assert (Hsnd' : forall p, snd (prepend [y] p) = snd p) by (intros [[|? ?] ?]; reflexivity).
        rewrite Hsnd'. exact IH1.
      * rewrite Hsnd. apply Hmove.
    + destruct inq; [rewrite Hsnd; apply Hmove|].
      destruct (N.eqb x sep) eqn:Es.
      * apply N.eqb_eq in Es. subst x. rewrite Hsn. unfold prepend at 1 2. cbn [fst snd].
        rewrite app_nil_r. specialize (IH2 (pre ++ cur ++ [sep]) [] false (fields ++ [post_process q cur])).
        cbv zeta in IH2. rewrite prepend_nil in IH2 by apply rr_nonempty. cbn [app length] in IH2.
        rewrite Nat.add_0_r, !app_length in IH2. cbn [length] in IH2.
        replace ((pre ++ cur ++ [sep]) ++ y :: l) with (pre ++ cur ++ sep :: y :: l) in IH2
          by (rewrite <- !app_assoc; reflexivity).
        rewrite Nat.add_assoc in IH2. rewrite slice_mid.
        destruct IH2 as (IH2a & IH2b). pose proof (rr_nonempty newline sep q false (y :: l)) as Hne.
        destruct (fst (rr false (y :: l))) as [|f1 fs1] eqn:Ef; [congruence|]. split.
        -- rewrite IH2a. rewrite <- app_assoc.
           change (removelast (cur :: f1 :: fs1)) with (cur :: removelast (f1 :: fs1)). reflexivity.
        -- change (last (cur :: f1 :: fs1) []) with (last (f1 :: fs1) ([] : bytes)). exact IH2b.
      * rewrite is_nl_newline. destruct (newline x) eqn:En; [|rewrite Hsnd; apply Hmove].
        unfold prepend. cbn [fst snd removelast map last]. rewrite !app_nil_r. split; [reflexivity|].
        exists (x :: y :: l). split; [rewrite skipn_app, skipn_all, Nat.sub_diag; reflexivity|].
        right. exists x. split; [assumption|reflexivity].
Qed.
End Split.
