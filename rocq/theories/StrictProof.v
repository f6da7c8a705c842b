From Verif Require Import Base ChunkSpec TypesSpec WordsModel ChunkModel ChunkProps FieldsModel NumModel DateModel ReaderModel TypesModel TypesProof TypesProof3 LifeProof ErrorsSpec ErrorsModel ErrorsProof CliModel StrictSpec StrictModel.

Section Proofs.
Context {F : Type}.
Variable ff : bytes -> option F.
Variables (lanes : nat) (clmul : bool) (num_threads : N) (ne_in : bool) (o : csv_options).
Variables (m : ErrorsSpec.mode) (limit : nat).

(** Whether [validate_header] lets the mode go on. *)
Definition stops (names : list bytes) : bool :=
  has_header o && match names with [] | [[]] => true | _ => false end &&
  match m with FAIL_FAST | PERMISSIVE => true | _ => false end.

Lemma validate_stops names : has_header o = true -> snd (validate_header (new_collector m limit) names) = negb (stops names).
Proof.
  intros H. unfold stops, validate_header. rewrite H. cbn [andb].
  destruct m; unfold is_enabled, new_collector; cbn [c_mode snd].
  - now rewrite andb_false_r.
  - destruct names as [|[|b n] [|n2 r]]; try reflexivity;
      unfold add_error, should_stop, has_errors; cbn [c_errors c_max length];
      destruct (limit <=? 0); reflexivity.
  - destruct names as [|[|b n] [|n2 r]]; try reflexivity;
      unfold add_error, should_stop, has_errors; cbn [c_errors c_max length];
      destruct (limit <=? 0); reflexivity.
  - destruct names as [|[|b n] [|n2 r]]; try reflexivity;
      unfold add_error, should_stop, has_errors; cbn [c_errors c_max length];
      destruct (limit <=? 0); reflexivity.
Qed.

Lemma open_checked_spec data names types he :
  open_file ff lanes clmul o data = Some (names, types, he) ->
  open_checked ff lanes clmul o m limit data =
    (if has_header o then fst (validate_header (new_collector m limit) names) else new_collector m limit,
     if stops names then None else Some (names, types, he)).
Proof.
  unfold open_file, open_checked. destruct data as [|x l]; [discriminate|].
  destruct (find_row_end lanes clmul (quote o) (x :: l) 0) as [e|]; [|discriminate]. cbv zeta.
  destruct (has_header o) eqn:Hh.
  - destruct (infer_from_sample ff lanes clmul o _ _ _) as [ts|] eqn:Ei; [|discriminate].
    intros E. injection E as <- <- <-.
    pose proof (validate_stops (parse_header (separator o) (quote o) (slice 0 e (x :: l))) Hh) as V.
    destruct (validate_header _ _) as [c ok]. cbn [fst snd] in *. rewrite V, negb_involutive.
    destruct (stops _); reflexivity.
  - destruct (infer_from_sample ff lanes clmul o _ _ _) as [ts|] eqn:Ei; [|discriminate].
    intros E. injection E as <- <- <-. unfold stops. rewrite Hh. cbn [andb]. reflexivity.
Qed.

Lemma read_checked_spec data names types t :
  read_file ff lanes clmul num_threads ne_in o data = Some (names, types, t) ->
  read_checked ff lanes clmul num_threads ne_in o m limit data =
    (if has_header o then c_errors (fst (validate_header (new_collector m limit) names)) else [],
     if stops names then None else Some (names, types, t)).
Proof.
  unfold read_file, read_checked. destruct (open_file _ _ _ _ _) as [[[ns ts] he]|] eqn:E; [|discriminate].
  rewrite (open_checked_spec _ _ _ _ E).
  destruct (read_all _ _ _ _ _ _ _ _ _ _ _) as [r|] eqn:R; [|discriminate].
  intros X. apply some_inj in X.
  assert (X1 : ns = names) by (exact (f_equal (fun x : list bytes * list data_type * read_result => fst (fst x)) X)).
  assert (X2 : ts = types) by (exact (f_equal (fun x : list bytes * list data_type * read_result => snd (fst x)) X)).
  assert (X3 : r = t) by (exact (f_equal (fun x : list bytes * list data_type * read_result => snd x) X)).
  subst ns ts r. f_equal.
  - destruct (has_header o); reflexivity.
  - destruct (stops names); try reflexivity. now rewrite R.
Qed.

Lemma stops_iff names : stops names = true <->
  has_header o = true /\ header_is_empty names /\ (m = FAIL_FAST \/ m = PERMISSIVE).
Proof.
  unfold stops, header_is_empty. rewrite !andb_true_iff. split.
  - intros ((H1 & H2) & H3). split; [exact H1|]. split.
    + destruct names as [|[|] [|]]; try discriminate; auto.
    + destruct m; try discriminate; auto.
  - intros (H1 & H2 & H3). repeat split; [exact H1| |].
    + destruct H2 as [->| ->]; reflexivity.
    + destruct H3 as [->| ->]; reflexivity.
Qed.

Lemma modes_read_the_same data names types t :
  read_file ff lanes clmul num_threads ne_in o data = Some (names, types, t) ->
  (snd (read_checked ff lanes clmul num_threads ne_in o m limit data) = Some (names, types, t) /\
   ~ (has_header o = true /\ header_is_empty names /\ (m = FAIL_FAST \/ m = PERMISSIVE))) \/
  (snd (read_checked ff lanes clmul num_threads ne_in o m limit data) = None /\
   has_header o = true /\ header_is_empty names /\ (m = FAIL_FAST \/ m = PERMISSIVE)).
Proof.
  intros H. rewrite (read_checked_spec _ _ _ _ H). cbn [snd]. destruct (stops names) eqn:E.
  - right. split; [reflexivity|]. now apply stops_iff.
  - left. split; [reflexivity|]. rewrite <- stops_iff. congruence.
Qed.

Lemma clean_header names : ~ header_is_empty names -> (forall i, ~ repeats names i) ->
  c_errors (fst (validate_header (new_collector m limit) names)) = [].
Proof.
  intros H1 H2. assert (Hm : m = DISABLED \/ m <> DISABLED) by (destruct m; [now left|right; discriminate ..]).
  destruct Hm as [Hm|Hm].
  - subst m. reflexivity.
  - pose proof (header_duplicates m limit names Hm H1) as D.
    destruct (validate_header _ _) as [c ok]. destruct D as (_ & _ & dups & I & _ & E & _). cbn [fst].
    destruct dups as [|i r]; [now rewrite E, firstn_nil|]. exfalso. apply (H2 i), I. now left.
Qed.

Lemma errors_of_first_line d1 d2 :
  1 <= lanes -> Nat.divide lanes 64 -> quote o <> LF -> quote o <> CR -> d1 <> [] -> d2 <> [] ->
  first_line (quote o) d1 = first_line (quote o) d2 ->
  fst (read_checked ff lanes clmul num_threads ne_in o m limit d1) =
  fst (read_checked ff lanes clmul num_threads ne_in o m limit d2).
Proof.
  intros H1 H2 HL HC N1 N2 E.
  assert (K : forall d, d <> [] -> fst (read_checked ff lanes clmul num_threads ne_in o m limit d) =
    if has_header o then c_errors (fst (validate_header (new_collector m limit)
                             (parse_header (separator o) (quote o) (first_line (quote o) d)))) else []).
  { intros d Nd. unfold read_checked, open_checked, first_line. destruct d as [|x l]; [congruence|].
    destruct (C05_find_row_end_exact lanes clmul (x :: l) 0 (quote o) H1 H2 HL HC) as (E0 & _).
    rewrite E0. unfold slice. cbn [skipn]. rewrite Nat.sub_0_r. rewrite (lines_step (quote o) x l HL HC). cbn [hd].
    destruct (has_header o); [|reflexivity].
    destruct (validate_header _ _) as [c ok]. destruct ok; reflexivity. }
  rewrite (K d1 N1), (K d2 N2), E. reflexivity.
Qed.
End Proofs.
