(** Reader: helper equivalences and the effect of one row. *)
From Verif Require Import Base WordsModel WordsProof ChunkSpec ChunkModel ChunkProof ChunkProof2 ChunkProof3
  FieldsSpec FieldsModel FieldsProof FieldsProof2 FieldsProof3 FieldsProof4 FieldsProof5
  ReaderSpec ReaderModel.

(** ** Helpers *)
Lemma skip_empty_trim : forall l, skip_empty l = trim_left newline l.
Proof.
  induction l as [|x|x y l IH1 IH2] using list_two_ind.
  - reflexivity.
  - cbn [skip_empty trim_left]. unfold newline. destruct (N.eqb x LF); [reflexivity|].
    destruct (N.eqb x CR); reflexivity.
  - assert (Hxy : skip_empty (x :: y :: l) =
      if N.eqb x LF then skip_empty (y :: l)
      else if N.eqb x CR then if N.eqb y LF then skip_empty l else skip_empty (y :: l)
      else x :: y :: l) by reflexivity.
    rewrite Hxy. change (trim_left newline (x :: y :: l)) with (if newline x then trim_left newline (y :: l) else x :: y :: l).
    unfold newline at 1. destruct (N.eqb x LF); cbn [orb]; [exact IH2|].
    destruct (N.eqb x CR); [|reflexivity]. destruct (N.eqb y LF) eqn:Ey; [|exact IH2].
    rewrite IH1. cbn [trim_left]. unfold newline at 2. rewrite Ey. reflexivity.
Qed.

Lemma bytes_eqb_spec : forall a b, bytes_eqb a b = true <-> a = b.
Proof.
  induction a as [|x a IH]; intros [|y b]; cbn; try (split; [discriminate|congruence]); [split; reflexivity|].
  rewrite andb_true_iff, N.eqb_eq, IH. split; [intros [-> ->]; reflexivity|intros E; injection E; auto].
Qed.

Lemma strip_cr f : (if (0 <? length f) && N.eqb (last f 0%N) CR then removelast f else f) = without_cr f.
Proof.
  unfold without_cr. destruct f as [|x f]; [reflexivity|].
  destruct (exists_last (l := x :: f)) as (a & c & E); [discriminate|]. rewrite E.
  rewrite rev_app_distr, app_length. cbn [rev app length]. rewrite last_last, removelast_app by discriminate.
  replace (0 <? length a + 1) with true by (symmetry; apply Nat.ltb_lt; lia). cbn [andb removelast].
  rewrite app_nil_r, rev_involutive. reflexivity.
Qed.

Lemma undouble_step q c r : undouble q true (c :: r) =
  if N.eqb c q then undouble q false r else c :: undouble q false r.
Proof. reflexivity. Qed.

Lemma unescape_undouble q : forall v, unescape_loop q v = undouble q false v.
Proof.
  induction v as [|x|x y v IH1 IH2] using list_two_ind.
  - reflexivity.
  - cbn. destruct (N.eqb x q) eqn:E; [apply N.eqb_eq in E; subst; reflexivity|reflexivity].
  - rewrite unescape_loop_step. cbn [undouble next_is tl]. destruct (N.eqb x q) eqn:Ex.
    + cbn [andb]. destruct (N.eqb y q) eqn:Ey.
      * rewrite IH1. reflexivity.
      * rewrite IH2. apply N.eqb_eq in Ex. subst x. cbn [undouble]. rewrite Ey. reflexivity.
    + cbn [andb]. rewrite IH2. reflexivity.
Qed.

Lemma undouble_no_quote q v : existsb (N.eqb q) v = false -> undouble q false v = v.
Proof.
  induction v as [|c v IH]; intros H; [reflexivity|]. cbn in *. apply orb_false_iff in H. destruct H as [H1 H2].
  rewrite N.eqb_sym, H1, IH by assumption. reflexivity.
Qed.

Lemma unescape_quotes_undouble v q : unescape_quotes v q = undouble q false v.
Proof.
  unfold unescape_quotes. destruct (existsb (N.eqb q) v) eqn:E; [apply unescape_undouble|].
  symmetry. apply undouble_no_quote. exact E.
Qed.

Lemma unquote_dequoted q f : unquote_field q f = dequoted q f.
Proof.
  unfold unquote_field, dequoted.
  replace ((2 <=? length f) && N.eqb (hd 0%N f) q && N.eqb (last f 0%N) q)
    with ((2 <=? length f) && starts_with q f && starts_with q (rev f)).
  - destruct ((2 <=? length f) && starts_with q f && starts_with q (rev f)); apply unescape_quotes_undouble.
  - destruct (Nat.leb_spec 2 (length f)) as [H|H]; [|reflexivity]. cbn [andb].
    rewrite starts_rev_last by assumption. destruct f; [cbn in H; lia|]. reflexivity.
Qed.

(** ** Null spellings *)
Lemma pieces_split s : comma_pieces s =
  firstn (piece_length s) s :: (if piece_length s <? length s then comma_pieces (skipn (S (piece_length s)) s) else []).
Proof.
  induction s as [|c s IH]; [reflexivity|]. cbn [comma_pieces piece_length].
  destruct (N.eqb c COMMA); [reflexivity|]. rewrite IH. cbn [firstn skipn length].
  change (S (piece_length s) <? S (length s)) with (piece_length s <? length s). reflexivity.
Qed.

Definition nonempty (p : bytes) : bool := match p with [] => false | _ => true end.

Lemma comma_pieces_nil_filter : filter nonempty (comma_pieces []) = []. Proof. reflexivity. Qed.

Lemma piece_length_le s : piece_length s <= length s.
Proof. induction s as [|c s IH]; cbn; [lia|]. destruct (N.eqb c COMMA); cbn; lia. Qed.

Lemma null_loop_spec : forall fuel s nc, length s <= fuel ->
  nv_list (null_loop fuel s nc) = nv_list nc ++ filter nonempty (comma_pieces s) /\
  (nv_empty nc = true -> nv_empty (null_loop fuel s nc) = true) /\
  nv_max nc <= nv_max (null_loop fuel s nc) /\
  (forall p, In p (filter nonempty (comma_pieces s)) -> length p <= nv_max (null_loop fuel s nc)).
Proof.
  induction fuel as [|fuel IH]; intros s nc Hf.
  - destruct s; [|cbn in Hf; lia]. cbn. rewrite app_nil_r. repeat split; auto; intros p [].
  - destruct s as [|c s]; [cbn; rewrite app_nil_r; repeat split; auto; intros p []|].
    cbn [null_loop]. set (S0 := c :: s) in *. pose proof (piece_length_le S0) as Hp.
    set (nc' := match firstn (piece_length S0) S0 with [] => _ | _ => _ end).
    assert (Hlen : length (skipn (S (piece_length S0)) S0) <= fuel) by (rewrite skipn_length; unfold S0 in *; cbn [length] in *; lia).
    destruct (IH (skipn (S (piece_length S0)) S0) nc' Hlen) as (I1 & I2 & I3 & I4).
    assert (HT : (if piece_length S0 <? length S0 then filter nonempty (comma_pieces (skipn (S (piece_length S0)) S0)) else [])
                 = filter nonempty (comma_pieces (skipn (S (piece_length S0)) S0))).
    { destruct (Nat.ltb_spec (piece_length S0) (length S0)); [reflexivity|].
      rewrite skipn_all2 by lia. reflexivity. }
    assert (HF : filter nonempty (comma_pieces S0) =
      (if nonempty (firstn (piece_length S0) S0) then [firstn (piece_length S0) S0] else []) ++
      filter nonempty (comma_pieces (skipn (S (piece_length S0)) S0))).
    { rewrite pieces_split. cbn [filter]. rewrite <- HT.
      destruct (nonempty (firstn (piece_length S0) S0)), (piece_length S0 <? length S0); reflexivity. }
    assert (HL : length (firstn (piece_length S0) S0) = piece_length S0) by (apply firstn_length_le; exact Hp).
    rewrite HF. destruct (firstn (piece_length S0) S0) as [|a p0] eqn:EP; cbn [nonempty app] in *.
    + repeat split; try assumption.
      intros _. apply I2. reflexivity.
    + repeat split.
      * rewrite I1. unfold nc'. cbn [nv_list]. rewrite <- app_assoc. reflexivity.
      * intros H. apply I2. exact H.
      * etransitivity; [|exact I3]. unfold nc'. cbn [nv_max]. lia.
      * intros p [<-|Hp0]; [|apply I4; exact Hp0]. rewrite HL. etransitivity; [|exact I3].
        unfold nc'. cbn [nv_max]. lia.
Qed.

Lemma is_null_spec sp v : is_null (make_null_checker sp) v = denotes_null sp v.
Proof.
  unfold make_null_checker. destruct (null_loop_spec (length sp) sp (mkNull [] 0 true) (le_n _)) as (I1 & I2 & _ & I4).
  set (nc := null_loop _ _ _) in *. cbn [nv_list app] in I1. unfold is_null, denotes_null.
  destruct v as [|c v]; [apply I2; reflexivity|]. set (v0 := c :: v) in *.
  assert (H : existsb (fun p => bytes_eqb p v0) (nv_list nc) =
              existsb (fun p => if list_eq_dec N.eq_dec p v0 then true else false) (comma_pieces sp)).
  { apply eq_true_iff_eq. rewrite !existsb_exists. rewrite I1. split.
    - intros (p & Hp & He). apply bytes_eqb_spec in He. subst p. exists v0. apply filter_In in Hp.
      split; [apply Hp|]. destruct (list_eq_dec N.eq_dec v0 v0); congruence.
    - intros (p & Hp & He). destruct (list_eq_dec N.eq_dec p v0) as [->|]; [|discriminate].
      exists v0. split; [apply filter_In; split; [exact Hp|reflexivity]|apply bytes_eqb_spec; reflexivity]. }
  destruct (Nat.ltb_spec (nv_max nc) (length v0)) as [Hl|Hl]; [|exact H].
  rewrite <- H. destruct (existsb (fun p => bytes_eqb p v0) (nv_list nc)) eqn:E; [|reflexivity]. exfalso.
  apply existsb_exists in E. destruct E as (p & Hp & He). apply bytes_eqb_spec in He. subst p.
  rewrite I1 in Hp. apply I4 in Hp. lia.
Qed.

(** ** One row *)
Section Row.
Context {V : Type}.
Variable conv : nat -> bytes -> option V.
Variables (q : byte) (sp : bytes).
Notation nc := (make_null_checker sp).

Definition fcell (k : nat) (f : bytes * bool) : option V :=
  let t := without_cr (fst f) in
  if denotes_null sp t then None else conv k (if snd f then unquote_field q t else t).

Fixpoint put (k : nat) (fs : list (bytes * bool)) (cols : list (list (option V))) : list (list (option V)) :=
  match cols with
  | [] => []
  | col :: r => match fs with
                | [] => (col ++ [None]) :: put (S k) [] r
                | f :: fs' => (col ++ [fcell k f]) :: put (S k) fs' r
                end
  end.

Lemma append_at_app A B c : append_at (length A) c (A ++ B) = A ++ append_at (V := V) 0 c B.
Proof. induction A as [|a A IH]; [reflexivity|]. cbn. rewrite IH. reflexivity. Qed.

Lemma fill_nulls_spec : forall B A, fill_nulls (length B) (length A) (A ++ B) = A ++ put (length A) [] B.
Proof.
  induction B as [|b B IH]; intros A; [cbn; reflexivity|].
  cbn [length fill_nulls put]. rewrite append_at_app. cbn [append_at].
  replace (length A + 1) with (length (A ++ [b ++ [None]])) by (rewrite app_length; reflexivity).
  change (A ++ (b ++ [None]) :: B) with (A ++ [b ++ [None]] ++ B). rewrite app_assoc, IH.
  rewrite <- app_assoc, app_length, Nat.add_1_r. reflexivity.
Qed.

Lemma fields_into_over : forall fs cols k, length cols <= k ->
  fields_into conv q nc fs k cols = (k + length fs, cols).
Proof.
  induction fs as [|[f ne] fs IH]; intros cols k Hk; cbn [fields_into length]; [rewrite Nat.add_0_r; reflexivity|].
  replace (length cols <=? k) with true by (symmetry; apply Nat.leb_le; lia).
  rewrite IH by lia. f_equal. lia.
Qed.

Lemma fields_into_spec : forall fs A B,
  let r := fields_into conv q nc fs (length A) (A ++ B) in
  fst r = length A + length fs /\ length (snd r) = length A + length B /\
  fill_nulls (length (A ++ B) - fst r) (fst r) (snd r) = A ++ put (length A) fs B.
Proof.
  induction fs as [|[f ne] fs IH]; intros A B; cbv zeta.
  - cbn [fields_into fst snd length]. rewrite Nat.add_0_r, app_length. repeat split.
    replace (length A + length B - length A) with (length B) by lia. apply fill_nulls_spec.
  - destruct B as [|b B].
    + rewrite app_nil_r, fields_into_over by lia. cbn [fst snd length put]. rewrite app_nil_r. repeat split; try lia.
      replace (length A - (length A + S (length fs))) with 0 by lia. reflexivity.
    + cbn [fields_into]. rewrite strip_cr.
      replace (length (A ++ b :: B) <=? length A) with false
        by (symmetry; apply Nat.leb_gt; rewrite app_length; cbn; lia).
      assert (Hgo : forall c, c = fcell (length A) (f, ne) ->
        let r := fields_into conv q nc fs (length A + 1) (append_at (length A) c (A ++ b :: B)) in
        fst r = length A + length ((f, ne) :: fs) /\ length (snd r) = length A + length (b :: B) /\
        fill_nulls (length (A ++ b :: B) - fst r) (fst r) (snd r) = A ++ put (length A) ((f, ne) :: fs) (b :: B)).
      { intros c ->. cbv zeta. rewrite append_at_app. cbn [append_at].
        specialize (IH (A ++ [b ++ [fcell (length A) (f, ne)]]) B). cbv zeta in IH.
        rewrite !app_length in IH. cbn [length] in IH. rewrite <- !app_assoc in IH. cbn [app] in IH.
        destruct IH as (I1 & I2 & I3). split; [rewrite I1; cbn [length]; lia|].
        split; [rewrite I2; cbn [length]; lia|]. rewrite app_length. cbn [length put].
        replace (length A + S (length B)) with (length A + 1 + length B) by lia.
        rewrite I3, Nat.add_1_r. reflexivity. }
      rewrite is_null_spec. unfold fcell in Hgo. cbn [fst snd] in Hgo.
      destruct (denotes_null sp (without_cr f)); [apply Hgo; reflexivity|].
      destruct ne; apply Hgo; reflexivity.
Qed.

Lemma put_length : forall cols k fs, length (put k fs cols) = length cols.
Proof. induction cols as [|c cols IH]; intros k fs; [reflexivity|]. destruct fs; cbn; rewrite IH; reflexivity. Qed.

Lemma put_rect n : forall cols k fs, Forall (fun c => length c = n) cols ->
  Forall (fun c => length c = S n) (put k fs cols).
Proof.
  induction cols as [|c cols IH]; intros k fs H; [constructor|]. inversion H; subst.
  destruct fs; cbn [put]; constructor; try (rewrite app_length; cbn; lia); apply IH; assumption.
Qed.

(** The cells of the row. *)
Definition cell_at (fs : list (bytes * bool)) (k : nat) : option V :=
  match nth_error fs k with None => None | Some f => fcell k f end.

Lemma put_spec : forall cols k fs,
  put k fs cols = map (fun p => snd p ++ [match nth_error fs (fst p - k) with None => None | Some f => fcell (fst p) f end])
                      (combine (seq k (length cols)) cols).
Proof.
  induction cols as [|c cols IH]; intros k fs; [reflexivity|]. cbn [length seq combine map fst snd].
  rewrite Nat.sub_diag. destruct fs as [|f fs]; cbn [put nth_error].
  - f_equal. rewrite IH. apply map_ext_in. intros [j col] Hj. apply in_combine_l in Hj. apply in_seq in Hj.
    cbn [fst snd]. destruct (j - S k); destruct (j - k); reflexivity.
  - f_equal. rewrite IH. apply map_ext_in. intros [j col] Hj. apply in_combine_l in Hj. apply in_seq in Hj.
    cbn [fst snd]. replace (j - k) with (S (j - S k)) by lia. reflexivity.
Qed.
End Row.
