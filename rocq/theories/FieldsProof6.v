(** The header parser and the column counter. *)
From Verif Require Import Base WordsModel WordsProof ChunkSpec ChunkModel ChunkProof ChunkProof2 ChunkProof3
  FieldsSpec FieldsModel FieldsProof FieldsProof2 FieldsProof3 FieldsProof4 FieldsProof5.

Section Header.
Variables sep q : byte.
Hypothesis Hqs : q <> sep.
Hypothesis Hqn : newline q = false.
Hypothesis Hsn : newline sep = false.
Notation rr := (raw_row newline sep q).

Definition hnu (inq : bool) (cur : bytes) (F : list bytes) : list bytes :=
  match F with
  | [] => []
  | f :: fs => header_chars q f inq cur :: map (fun f => header_chars q f false []) fs
  end.

Lemma header_chars_step c r inq cur :
  header_chars q (c :: r) inq cur =
  if N.eqb c q then
    if inq && next_is q r then header_chars q (tl r) inq (cur ++ [q])
    else header_chars q r (negb inq) cur
  else if (length cur =? 0) && negb inq && blank c then header_chars q r inq cur
  else header_chars q r inq (cur ++ [c]).
Proof. cbn [header_chars]. destruct (N.eqb c q); [|reflexivity]. destruct inq, r as [|c' r']; reflexivity. Qed.

Lemma header_loop_step c r inq cur names :
  header_loop sep q (c :: r) inq cur names =
  if negb inq && is_nl c then (names ++ [drop_while_end is_blank cur], [])
  else if N.eqb c q then
    if inq && next_is q r then header_loop sep q (tl r) inq (cur ++ [q]) names
    else header_loop sep q r (negb inq) cur names
  else if N.eqb c sep && negb inq then header_loop sep q r inq [] (names ++ [drop_while_end is_blank cur])
  else if (length cur =? 0) && negb inq && is_blank c then header_loop sep q r inq cur names
  else header_loop sep q r inq (cur ++ [c]) names.
Proof.
  cbn [header_loop]. destruct (negb inq && is_nl c); [reflexivity|].
  destruct (N.eqb c q); [|reflexivity]. destruct inq, r as [|c' r']; reflexivity.
Qed.

Lemma next_is_first st r : next_is q (hd [] (fst (rr st r))) = next_is q r.
Proof.
  destruct r as [|c r]; [reflexivity|]. rewrite rr_cons. cbn [next_is].
  destruct (N.eqb c q) eqn:Ec.
  - unfold prepend. pose proof (rr_nonempty newline sep q (negb st) r) as H.
    destruct (fst (rr (negb st) r)); [congruence|]. cbn. exact Ec.
  - assert (Hp : forall st', next_is q (hd [] (fst (prepend [c] (rr st' r)))) = false).
    { intros st'. unfold prepend. pose proof (rr_nonempty newline sep q st' r) as H.
      destruct (fst (rr st' r)); [congruence|]. cbn. exact Ec. }
    destruct st; [apply Hp|]. destruct (newline c); [reflexivity|].
    destruct (N.eqb c sep); [reflexivity|apply Hp].
Qed.

Definition hres (names : list bytes) (term : bool) (H : list bytes) : list bytes * bytes :=
  if term then (names ++ map (trim_right blank) H, [])
  else (names ++ map (trim_right blank) (removelast H), last H []).

Definition term (st : bool) (l : bytes) : bool := length (join sep (fst (rr st l))) <? length l.

Lemma join_len_prepend c p : fst p <> [] ->
  length (join sep (fst (prepend [c] p))) = S (length (join sep (fst p))).
Proof. unfold prepend. destruct (fst p) as [|f fs]; [congruence|]. intros _. destruct fs; reflexivity. Qed.

Lemma term_prepend c st' st r : rr st (c :: r) = prepend [c] (rr st' r) -> term st (c :: r) = term st' r.
Proof.
  intros E. unfold term. rewrite E, join_len_prepend by apply rr_nonempty. reflexivity.
Qed.

Lemma hnu_prepend c st' r inq cur :
  hnu inq cur (fst (prepend [c] (rr st' r))) =
  match fst (rr st' r) with
  | [] => []
  | f :: fs => header_chars q (c :: f) inq cur :: map (fun f => header_chars q f false []) fs
  end.
Proof.
  unfold prepend. pose proof (rr_nonempty newline sep q st' r) as H.
  destruct (fst (rr st' r)) as [|f fs]; [congruence|]. reflexivity.
Qed.

Lemma header_loop_spec : forall l inq cur names,
  header_loop sep q l inq cur names = hres names (term inq l) (hnu inq cur (fst (rr inq l))).
Proof.
  induction l as [| x | x y l IH1 IH2] using list_two_ind; intros inq cur names.
  - cbn. rewrite app_nil_r. reflexivity.
  - rewrite header_loop_step. cbn [next_is]. rewrite andb_false_r. cbn [header_loop].
    unfold term. rewrite rr_cons. cbn [raw_row].
    destruct (N.eqb x q) eqn:Ex.
    + apply N.eqb_eq in Ex. subst x. rewrite is_nl_newline, Hqn, andb_false_r.
      unfold prepend, hres, hnu. cbn [fst app]. rewrite header_chars_step, N.eqb_refl.
      cbn [next_is join length map removelast last header_chars]. rewrite andb_false_r.
      change (1 <? 1) with false. cbv iota. cbn [header_chars]. rewrite app_nil_r. reflexivity.
    + rewrite is_nl_newline. destruct inq; cbn [negb andb].
      * rewrite !andb_false_r. unfold prepend, hres, hnu. cbn [fst app]. rewrite header_chars_step, Ex.
        cbn [next_is join length map removelast last header_chars negb]. rewrite !andb_false_r.
        change (1 <? 1) with false. cbv iota. cbn [andb header_chars]. rewrite app_nil_r. reflexivity.
      * destruct (newline x) eqn:En.
        -- unfold hres, hnu. cbn [fst join length map header_chars]. change (0 <? 1) with true. cbv iota.
           rewrite drop_while_end_trim. reflexivity.
        -- destruct (N.eqb x sep) eqn:Es; cbn [andb].
           ++ unfold hres, hnu. cbn [fst snd join length map header_chars removelast last app].
              change (1 <? 1) with false. cbv iota. rewrite drop_while_end_trim. reflexivity.
           ++ rewrite !andb_true_r. unfold prepend, hres, hnu. cbn [fst app]. rewrite header_chars_step, Ex.
              cbn [next_is join length map removelast last header_chars negb]. rewrite !andb_true_r.
              change (1 <? 1) with false. cbv iota. change is_blank with blank.
              destruct ((length cur =? 0) && blank x); rewrite app_nil_r; reflexivity.
  - rewrite header_loop_step, is_nl_newline, drop_while_end_trim. change is_blank with blank.
    destruct (N.eqb x q) eqn:Ex.
    + apply N.eqb_eq in Ex. subst x. rewrite Hqn, andb_false_r.
      assert (Er : rr inq (q :: y :: l) = prepend [q] (rr (negb inq) (y :: l))) by (rewrite rr_cons, N.eqb_refl; reflexivity).
      destruct (inq && next_is q (y :: l)) eqn:Eq.
      * apply andb_true_iff in Eq. destruct Eq as [-> Ey]. cbn [next_is] in Ey. apply N.eqb_eq in Ey. subst y.
        cbn [tl negb] in *. rewrite IH1.
        assert (Er2 : rr false (q :: l) = prepend [q] (rr true l)) by (rewrite rr_cons, N.eqb_refl; reflexivity).
        rewrite (term_prepend q false true _ Er), (term_prepend q true false _ Er2).
        f_equal. rewrite Er, hnu_prepend, Er2. unfold prepend. pose proof (rr_nonempty newline sep q true l) as H.
        destruct (fst (rr true l)) as [|f fs]; [congruence|]. cbn [fst app hnu]. f_equal.
        rewrite (header_chars_step q), N.eqb_refl. cbn [next_is tl andb]. rewrite N.eqb_refl. reflexivity.
      * rewrite IH2, (term_prepend q _ _ _ Er). f_equal. rewrite Er, hnu_prepend.
        pose proof (rr_nonempty newline sep q (negb inq) (y :: l)) as H.
        pose proof (next_is_first (negb inq) (y :: l)) as Hn.
        destruct (fst (rr (negb inq) (y :: l))) as [|f fs]; [congruence|]. cbn [hnu hd] in *. f_equal.
        rewrite (header_chars_step q), N.eqb_refl, Hn, Eq. reflexivity.
    + assert (Hmove : rr inq (x :: y :: l) = prepend [x] (rr inq (y :: l)) ->
        forall cur', cur' = (if (length cur =? 0) && negb inq && blank x then cur else cur ++ [x]) ->
        header_loop sep q (y :: l) inq cur' names =
        hres names (term inq (x :: y :: l)) (hnu inq cur (fst (rr inq (x :: y :: l))))).
      { intros Er cur' Ec. rewrite IH2, (term_prepend x _ _ _ Er). f_equal. rewrite Er, hnu_prepend.
        pose proof (rr_nonempty newline sep q inq (y :: l)) as H.
        destruct (fst (rr inq (y :: l))) as [|f fs]; [congruence|]. cbn [hnu]. f_equal.
        rewrite (header_chars_step x), Ex, Ec. destruct ((length cur =? 0) && negb inq && blank x); reflexivity. }
      destruct inq; cbn [negb andb].
      * rewrite !andb_false_r. cbn [andb]. apply Hmove; [rewrite rr_cons, Ex; reflexivity|].
        cbn [negb]. rewrite andb_false_r. reflexivity.
      * destruct (newline x) eqn:En.
        -- unfold hres, term. rewrite rr_cons, Ex, En. cbn [fst join length hnu map header_chars].
           change (0 <? S (S (length l))) with true. reflexivity.
        -- destruct (N.eqb x sep) eqn:Es; cbn [andb].
           ++ rewrite IH2. unfold term. rewrite (rr_cons sep q false x), Ex, En, Es. cbn [fst].
              pose proof (rr_nonempty newline sep q false (y :: l)) as H.
              destruct (fst (rr false (y :: l))) as [|f fs]; [congruence|].
              change (join sep ([] :: f :: fs)) with (sep :: join sep (f :: fs)). cbn [length].
              change (S (length (join sep (f :: fs))) <? S (S (length l)))
                with (length (join sep (f :: fs)) <? S (length l)).
              unfold hres, hnu. destruct (length (join sep (f :: fs)) <? S (length l)).
              ** rewrite <- app_assoc. reflexivity.
              ** cbn [map]. rewrite <- app_assoc. reflexivity.
           ++ assert (Er : rr false (x :: y :: l) = prepend [x] (rr false (y :: l))) by (rewrite rr_cons, Ex, En, Es; reflexivity).
              rewrite andb_true_r. destruct ((length cur =? 0) && blank x) eqn:Eb;
                (apply Hmove; [exact Er|cbn [negb]; rewrite andb_true_r, Eb; reflexivity]).
Qed.

Lemma hnu_names F : hnu false [] F = map (fun f => header_chars q f false []) F.
Proof. destruct F; reflexivity. Qed.

Lemma map_removelast {A B} (f : A -> B) l : map f (removelast l) = removelast (map f l).
Proof.
  induction l as [|x l IH]; [reflexivity|]. destruct l as [|y l]; [reflexivity|].
  change (removelast (x :: y :: l)) with (x :: removelast (y :: l)). cbn [map]. rewrite IH. reflexivity.
Qed.

Lemma header_names data : data <> [] ->
  let fs := fst (rr false data) in
  parse_header sep q data =
  if (length (join sep fs) <? length data) || (length fs =? 1) ||
     negb (length (header_chars q (last fs []) false []) =? 0)
  then map (header_name q) fs
  else removelast (map (header_name q) fs).
Proof.
  intros Hd. cbv zeta. unfold parse_header. destruct data as [|c r] eqn:Ed; [congruence|]. rewrite <- Ed in *.
  clear Ed c r. rewrite header_loop_spec, hnu_names. unfold hres, term.
  pose proof (rr_nonempty newline sep q false data) as Hne. set (F := fst (rr false data)) in *.
  assert (Hmap : map (trim_right blank) (map (fun f => header_chars q f false []) F) = map (header_name q) F)
    by (rewrite map_map; reflexivity).
  destruct (length (join sep F) <? length data); cbn [orb app].
  - rewrite Hmap. cbn [length Nat.eqb negb orb].
    destruct F as [|f fs]; [congruence|]. reflexivity.
  - destruct (exists_last Hne) as (G & g & EG). rewrite EG in *.
    rewrite !map_app, removelast_app, last_last by discriminate. cbn [map removelast]. rewrite app_nil_r, !last_last.
    rewrite !map_map.
    replace (length (G ++ [g]) =? 1) with (length G =? 0)
      by (rewrite app_length; cbn [length]; destruct G; [reflexivity|cbn; rewrite Nat.add_1_r; reflexivity]).
    rewrite map_length, drop_while_end_trim, removelast_app by discriminate. cbn [map removelast]. rewrite app_nil_r.
    change (map (fun x => trim_right blank (header_chars q x false [])) G) with (map (header_name q) G).
    change (trim_right is_blank (header_chars q g false [])) with (header_name q g).
    destruct (length (header_chars q g false []) =? 0); cbn [negb orb].
    + rewrite orb_false_r. reflexivity.
    + rewrite orb_true_r. reflexivity.
Qed.
End Header.

(** ** What a name is *)
Lemma header_chars_double q : forall v cur, header_chars q (double_quotes q v ++ [q]) true cur = cur ++ v.
Proof.
  induction v as [|c v IH]; intros cur.
  - cbn [double_quotes app]. rewrite header_chars_step, N.eqb_refl. cbn. rewrite app_nil_r. reflexivity.
  - cbn [double_quotes]. destruct (N.eqb c q) eqn:E.
    + cbn [app]. rewrite header_chars_step, N.eqb_refl. cbn [next_is tl andb]. rewrite N.eqb_refl, IH.
      apply N.eqb_eq in E. subst c. rewrite <- app_assoc. reflexivity.
    + cbn [app]. rewrite header_chars_step, E. cbn [negb]. rewrite andb_false_r. cbn [andb].
      rewrite IH, <- app_assoc. reflexivity.
Qed.

Lemma header_name_quoted q v : header_name q (quote_value q v) = trim_right blank v.
Proof.
  unfold header_name, quote_value. rewrite header_chars_step, N.eqb_refl. cbn [andb negb].
  rewrite header_chars_double. reflexivity.
Qed.

Lemma header_chars_plain q f cur : ~ In q f -> cur <> [] -> header_chars q f false cur = cur ++ f.
Proof.
  revert cur. induction f as [|c f IH]; intros cur Hq Hc; [cbn; rewrite app_nil_r; reflexivity|].
  rewrite header_chars_step. destruct (N.eqb_spec c q) as [->|_]; [exfalso; apply Hq; left; reflexivity|].
  destruct cur as [|x cur]; [congruence|]. cbn [length Nat.eqb andb]. rewrite IH.
  - rewrite <- app_assoc. reflexivity.
  - intros H. apply Hq. right. exact H.
  - discriminate.
Qed.

Lemma header_name_plain q f : ~ In q f -> header_name q f = trim_right blank (trim_left blank f).
Proof.
  intros Hq. unfold header_name. f_equal. induction f as [|c f IH]; [reflexivity|].
  rewrite header_chars_step. destruct (N.eqb_spec c q) as [->|_]; [exfalso; apply Hq; left; reflexivity|].
  cbn [length Nat.eqb negb andb trim_left]. destruct (blank c).
  - apply IH. intros H. apply Hq. right. exact H.
  - cbn [app]. rewrite header_chars_plain; [reflexivity| |discriminate].
    intros H. apply Hq. right. exact H.
Qed.

(** ** Column count without a header *)
Section Count.
Variables sep q : byte.
Hypothesis Hqs : q <> sep.

Lemma cc_toggle c rest inq n : count_columns sep q (c :: rest) inq n =
  if N.eqb c q then count_columns sep q rest (negb inq) n
  else count_columns sep q rest inq (if N.eqb c sep && negb inq then n + 1 else n).
Proof.
  cbn [count_columns]. destruct (N.eqb c q) eqn:E.
  - destruct inq, rest as [|c' rest']; try reflexivity.
    destruct (N.eqb c' q) eqn:E'; [|reflexivity]. cbn [count_columns]. rewrite E'. reflexivity.
  - destruct (N.eqb c sep && negb inq); reflexivity.
Qed.

Lemma cc_gen : forall l inq n, count_columns sep q l inq n =
  n + length (filter (fun i => byte_is l i sep && negb (inside_at inq q l i)) (seq 0 (length l))).
Proof.
  induction l as [|c l IH]; intros inq n; [cbn; lia|].
  rewrite cc_toggle. cbn [length]. rewrite filter_seq_S, app_length, map_length.
  rewrite inside_at_0.
  assert (H : forall st, st = xorb inq (N.eqb c q) ->
    length (filter (fun i => byte_is l i sep && negb (inside_at st q l i)) (seq 0 (length l))) =
    length (filter (fun i => byte_is (c :: l) (S i) sep && negb (inside_at inq q (c :: l) (S i))) (seq 0 (length l)))).
  { intros st ->. f_equal. apply filter_ext. intros i. rewrite inside_at_S. reflexivity. }
  destruct (N.eqb c q) eqn:E.
  - rewrite IH, (H (negb inq)) by (destruct inq; reflexivity).
    change (byte_is (c :: l) 0 sep) with (N.eqb c sep).
    apply N.eqb_eq in E. subst c. replace (N.eqb q sep) with false by (symmetry; apply N.eqb_neq; assumption).
    cbn. lia.
  - rewrite IH, (H inq) by (destruct inq; reflexivity). change (byte_is (c :: l) 0 sep) with (N.eqb c sep).
    destruct (N.eqb c sep && negb inq); cbn [length]; lia.
Qed.
Notation rr := (raw_row newline sep q).
Hypothesis Hqn : newline q = false.
Hypothesis Hsn : newline sep = false.

Lemma cc_fields : forall l inq n, ~ In sep (snd (rr inq l)) -> (forall c, In c (snd (rr inq l)) -> c <> q) ->
  count_columns sep q l inq n + 1 = n + length (fst (rr inq l)).
Proof.
  induction l as [|c l IH]; intros inq n Hs Hq; [cbn; lia|].
  rewrite cc_toggle. rewrite rr_cons in *.
  assert (Hp : forall p c, fst p <> [] -> length (fst (prepend [c] p)) = length (fst p) /\ snd (prepend [c] p) = snd p).
  { intros [[|f fs] t] d H; [cbn in H; congruence|]. split; reflexivity. }
  destruct (N.eqb c q) eqn:E.
  - destruct (Hp (rr (negb inq) l) c (rr_nonempty _ _ _ _ _)) as [H1 H2]. rewrite H1. rewrite H2 in Hs, Hq. apply IH; assumption.
  - destruct inq.
    + rewrite andb_false_r. destruct (Hp (rr true l) c (rr_nonempty _ _ _ _ _)) as [H1 H2]. rewrite H1.
      rewrite H2 in Hs, Hq. apply IH; assumption.
    + destruct (newline c) eqn:En.
      * cbn [fst snd length] in *. destruct (N.eqb c sep) eqn:Es; [apply N.eqb_eq in Es; congruence|]. cbn [andb].
        clear IH. assert (Hz : forall l0, ~ In sep l0 -> (forall c0, In c0 l0 -> c0 <> q) -> forall n0, count_columns sep q l0 false n0 = n0).
        { induction l0 as [|d l0 IHl]; intros A1 A2 n0; [reflexivity|]. rewrite cc_toggle.
          destruct (N.eqb_spec d q) as [->|_]; [exfalso; apply (A2 q); [left; reflexivity|reflexivity]|].
          destruct (N.eqb_spec d sep) as [->|_]; [exfalso; apply A1; left; reflexivity|]. cbn [andb].
          apply IHl; [intros H; apply A1; right; exact H|intros c0 H; apply A2; right; exact H]. }
        rewrite Hz by assumption. lia.
      * destruct (N.eqb c sep) eqn:Es; cbn [andb negb fst snd length] in *.
        -- specialize (IH false (n + 1) Hs Hq). lia.
        -- destruct (Hp (rr false l) c (rr_nonempty _ _ _ _ _)) as [H1 H2]. rewrite H1. rewrite H2 in Hs, Hq. apply IH; assumption.
Qed.
End Count.

(** ** Packaged for the property file *)
Lemma iterator_exact (lanes : nat) (clmul : bool) (sep eol q : byte) (data : bytes) (ne : bool) :
  1 <= lanes -> Nat.divide lanes 64 -> q <> sep -> q <> eol -> q <> 0%N ->
  safe_row sep eol q (fst (raw_row (N.eqb eol) sep q false data)) ->
  option_map (fun r => (map fst (fst r), snd r)) (row_fields lanes clmul sep q eol data ne)
  = Some (raw_row (N.eqb eol) sep q false data).
Proof.
  intros H1 H2 Hqs Hqe Hq0 Hs.
  destruct (row_fields_exact sep eol q Hqs Hqe Hq0 lanes clmul data ne (conj H1 H2) Hs) as (rs & -> & HF).
  cbn [option_map fst snd]. f_equal. destruct (raw_row (N.eqb eol) sep q false data) as [F t].
  cbn [fst snd] in *. f_equal. clear Hs.
  induction HF as [|f r fs rs [Hf _] HF IH]; [reflexivity|]. cbn [map]. rewrite Hf, IH. reflexivity.
Qed.

Lemma columns_counted (sep q : byte) (l : bytes) : q <> sep ->
  count_columns sep q l false 1 = 1 + unquoted_separators sep q l.
Proof. intros H. apply cc_gen. exact H. Qed.

Lemma columns_are_fields (sep q : byte) (l : bytes) : q <> sep -> newline q = false -> newline sep = false ->
  forallb newline (snd (raw_row newline sep q false l)) = true ->
  count_columns sep q l false 1 = length (fst (raw_row newline sep q false l)).
Proof.
  intros H1 H2 H3 H4. rewrite forallb_forall in H4.
  pose proof (cc_fields sep q H1 H2 H3 l false 1) as H.
  assert (Ha : ~ In sep (snd (raw_row newline sep q false l))) by (intros Hi; apply H4 in Hi; congruence).
  assert (Hb : forall c, In c (snd (raw_row newline sep q false l)) -> c <> q) by (intros c Hi ->; apply H4 in Hi; congruence).
  specialize (H Ha Hb). lia.
Qed.
