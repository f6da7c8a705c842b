(** Proofs about the progress bar. *)
From Verif Require Import Base TypesModel CliModel ConvertModel ProgressSpec ProgressModel.

Lemma store_at : forall s i b, i < length s -> store s i b = Some (firstn i s ++ b :: skipn (S i) s).
Proof.
  induction s as [|x s IH]; intros i b H; cbn [length] in H; [lia|].
  destruct i as [|i]; cbn [store]; [reflexivity|]. rewrite IH by lia. reflexivity.
Qed.

Definition half (m w : nat) : bytes := repeat 61%N m ++ repeat 32%N (w - m).
Lemma half_length : forall m w, m <= w -> length (half m w) = w.
Proof. intros m w H. unfold half. rewrite app_length, !repeat_length. lia. Qed.

Lemma firstn_repeat_app : forall (a : N) m (l : bytes), firstn m (repeat a m ++ l) = repeat a m.
Proof. induction m as [|m IH]; intros l; [reflexivity|]. cbn [repeat app firstn]. rewrite IH. reflexivity. Qed.
Lemma skipn_repeat_app : forall (a : N) m k (l : bytes), skipn (k + m) (repeat a m ++ l) = skipn k l.
Proof.
  induction m as [|m IH]; intros k l; [rewrite Nat.add_0_r; reflexivity|].
  rewrite Nat.add_succ_r. cbn [repeat app skipn]. apply IH.
Qed.
Lemma repeat_snoc : forall (a : N) m, repeat a m ++ [a] = repeat a (S m).
Proof. induction m as [|m IH]; [reflexivity|]. cbn [repeat app]. rewrite IH. reflexivity. Qed.

Lemma half_store : forall m w b, m < w -> store (half m w) m b = Some (repeat 61%N m ++ b :: repeat 32%N (w - S m)).
Proof.
  intros m w b H. rewrite store_at by (rewrite half_length; lia). f_equal. unfold half.
  rewrite firstn_repeat_app. change (S m) with (1 + m) at 1. rewrite skipn_repeat_app.
  replace (w - m) with (S (w - S m)) by lia. reflexivity.
Qed.

Lemma fill_loop_is : forall fuel i filled w, w - i < fuel -> i <= w -> (N.of_nat i <= filled)%N ->
  fill_loop fuel (half i w) i filled w = Some (half (N.to_nat (N.min filled (N.of_nat w))) w).
Proof.
  induction fuel as [|fuel IH]; intros i filled w H1 H2 H3; [lia|]. cbn [fill_loop].
  destruct (N.ltb_spec (N.of_nat i) filled); [destruct (Nat.ltb_spec i w)|]; cbn [andb].
  - rewrite half_store by assumption.
    replace (repeat 61%N i ++ 61%N :: repeat 32%N (w - S i)) with (half (S i) w).
    + apply IH; lia.
    + unfold half. rewrite <- repeat_snoc, <- app_assoc. reflexivity.
  - do 2 f_equal. lia.
  - do 2 f_equal. lia.
Qed.

Definition picture (m w : nat) : bytes := if m <? w then repeat 61%N m ++ 62%N :: repeat 32%N (w - S m) else repeat 61%N w.
Lemma picture_length : forall m w, length (picture m w) = w.
Proof.
  intros m w. unfold picture. destruct (Nat.ltb_spec m w); [|apply repeat_length].
  rewrite app_length, repeat_length. cbn [length]. rewrite repeat_length. lia.
Qed.

Lemma drawing_is : forall filled w, drawing filled w = Some (picture (N.to_nat (N.min filled (N.of_nat w))) w).
Proof.
  intros filled w. unfold drawing. change (repeat 32%N w) with (repeat 61%N 0 ++ repeat 32%N w).
  replace (repeat 61%N 0 ++ repeat 32%N w) with (half 0 w) by (unfold half; rewrite Nat.sub_0_r; reflexivity).
  rewrite fill_loop_is by lia. unfold picture.
  destruct (N.ltb_spec filled (N.of_nat w)); destruct (Nat.ltb_spec (N.to_nat (N.min filled (N.of_nat w))) w); try lia.
  - rewrite N.min_l by lia. apply half_store. lia.
  - unfold half. rewrite N.min_r by lia. rewrite Nnat.Nat2N.id, Nat.sub_diag. cbn [repeat]. rewrite app_nil_r. reflexivity.
Qed.

Lemma nth_repeat_in : forall (a : N) n i, i < n -> nth_error (repeat a n) i = Some a.
Proof. induction n as [|n IH]; intros [|i] H; cbn; try lia; auto. apply IH. lia. Qed.

Lemma picture_nth : forall m w i, i < w ->
  nth_error (picture m w) i = Some (if i <? m then 61%N else if i =? m then 62%N else 32%N).
Proof.
  intros m w i H. unfold picture. destruct (Nat.ltb_spec m w).
  - destruct (Nat.ltb_spec i m).
    + rewrite nth_error_app1 by (rewrite repeat_length; assumption). apply nth_repeat_in. assumption.
    + rewrite nth_error_app2; rewrite repeat_length; [|assumption].
      destruct (Nat.eqb_spec i m); [subst; rewrite Nat.sub_diag; reflexivity|].
      replace (i - m) with (S (i - S m)) by lia. cbn [nth_error]. apply nth_repeat_in. lia.
  - destruct (Nat.ltb_spec i m); [|lia]. apply nth_repeat_in. assumption.
Qed.

(** A width that leaves room for the arithmetic. *)
Definition narrow (w : nat) : Prop := (100 * N.of_nat w < 2 ^ 64)%N.

Lemma hundredths_bound : forall p t, sensible (p, t) -> (hundredths p t <= 100)%N.
Proof.
  intros p t (H1 & H2 & H3). cbn [fst snd] in *. unfold hundredths. apply N.div_le_upper_bound; nia.
Qed.
Lemma percent_is : forall p t, sensible (p, t) -> percent_of p t = Z.of_N (hundredths p t).
Proof.
  intros p t H. pose proof (hundredths_bound p t H) as HB. destruct H as (H1 & H2 & H3). cbn [fst snd] in *. unfold percent_of.
  rewrite N.mod_small by nia. rewrite (N.mul_comm p 100). fold (hundredths p t). unfold as_int.
  rewrite Z.mod_small by lia. destruct (Z.ltb_spec (Z.of_N (hundredths p t)) (2 ^ 31)); lia.
Qed.
Lemma filled_is : forall h w, (h <= 100)%N -> narrow w -> filled_of (Z.of_N h) w = (h * N.of_nat w / 100)%N.
Proof.
  intros h w H1 H2. unfold narrow in H2. unfold filled_of, as_size. rewrite Z.mod_small by lia. rewrite N2Z.id.
  rewrite N.mod_small by nia. reflexivity.
Qed.

Definition pic (h : N) (w : nat) : bytes := picture (N.to_nat (h * N.of_nat w / 100)) w.
Lemma drawing_pic : forall h w, (h <= 100)%N -> narrow w -> drawing (filled_of (Z.of_N h) w) w = Some (pic h w).
Proof.
  intros h w H1 H2. rewrite drawing_is, filled_is by assumption. do 2 f_equal.
  rewrite N.min_l; [reflexivity|]. apply N.div_le_upper_bound; nia.
Qed.
Lemma pic_ok : forall h w, picture_of h w (pic h w).
Proof.
  intros h w. split; [apply picture_length|]. intros i H. unfold pic. rewrite picture_nth by assumption. f_equal.
  pose proof (N.div_mod (h * N.of_nat w) 100 ltac:(lia)) as D.
  pose proof (N.mod_lt (h * N.of_nat w) 100 ltac:(lia)) as L.
  set (q := (h * N.of_nat w / 100)%N) in *. set (r := ((h * N.of_nat w) mod 100)%N) in *.
  set (x := (h * N.of_nat w)%N) in *. clearbody q r x.
  destruct (Nat.ltb_spec i (N.to_nat q)); destruct (N.leb_spec (100 * N.of_nat (S i)) x); try lia; try reflexivity.
  destruct (Nat.eqb_spec i (N.to_nat q)); destruct (N.leb_spec (100 * N.of_nat i) x); try lia; reflexivity.
Qed.

(** Three columns. *)
Lemma setw3_is : forall h, (h <= 100)%N -> setw3 (Z.of_N h) = three_columns h.
Proof.
  intros h H. assert (A : forall n, n <= 100 -> setw3 (Z.of_N (N.of_nat n)) = three_columns (N.of_nat n)).
  { intros n Hn. do 101 (destruct n as [|n]; [vm_compute; reflexivity|]). lia. }
  rewrite <- (Nnat.N2Nat.id h). apply A. lia.
Qed.
Lemma three_length : forall h, length (three_columns h) = 3.
Proof. intros h. unfold three_columns. destruct (h <? 10)%N; [reflexivity|]. destruct (h <? 100)%N; reflexivity. Qed.

Definition text (h : N) (w : nat) : bytes := 91%N :: pic h w ++ [93; 32]%N ++ three_columns h ++ [37%N].
Lemma text_length : forall h w, length (text h w) = w + 7.
Proof.
  intros h w. unfold text. cbn [length]. rewrite !app_length, three_length. unfold pic. rewrite picture_length. cbn [length]. lia.
Qed.

(** Bytes that are written where the cursor is. *)
Definition plain (b : N) : Prop := b <> 13%N /\ b <> 10%N.
Lemma play : forall u a l c, Forall plain u -> c <= length l ->
  fold_left shows u (Terminal a l c) = Terminal a (firstn c l ++ u ++ skipn (c + length u) l) (c + length u).
Proof.
  induction u as [|b u IH]; intros a l c H Hc.
  - cbn [fold_left app length]. rewrite Nat.add_0_r, firstn_skipn. reflexivity.
  - inversion H as [|? ? (P1 & P2) Hu]; subst. cbn [fold_left]. unfold shows at 2. cbn [above line cursor].
    destruct (N.eqb_spec b 13); [contradiction|]. destruct (N.eqb_spec b 10); [contradiction|].
    rewrite IH by (try assumption; rewrite app_length, firstn_length; cbn [length]; lia).
    assert (A : firstn (S c) (firstn c l ++ b :: skipn (S c) l) = firstn c l ++ [b]).
    { replace (S c) with (length (firstn c l) + 1) by (rewrite firstn_length; lia). rewrite firstn_app_2. f_equal. }
    assert (B : skipn (S c + length u) (firstn c l ++ b :: skipn (S c) l) = skipn (c + length (b :: u)) l).
    { rewrite skipn_app. rewrite skipn_all2 by (rewrite firstn_length; lia).
      replace (S c + length u - length (firstn c l)) with (S (length u)) by (rewrite firstn_length; lia).
      cbn [app skipn length]. clear. revert l. induction c as [|c IH]; intros l.
      - cbn [Nat.add]. destruct l; [rewrite skipn_nil; reflexivity|reflexivity].
      - destruct l as [|x l]; [rewrite !skipn_nil; reflexivity|]. cbn [skipn Nat.add]. apply IH. }
    rewrite A, B. cbn [length]. rewrite <- app_assoc. cbn [app]. f_equal. lia.
Qed.
Lemma rewrite_line : forall u a l c, Forall plain u -> length l <= length u ->
  fold_left shows (13%N :: u) (Terminal a l c) = Terminal a u (length u).
Proof.
  intros u a l c H Hl. cbn [fold_left]. change (shows (Terminal a l c) 13%N) with (Terminal a l 0).
  rewrite play by (try assumption; lia). cbn [firstn Nat.add app]. rewrite skipn_all2 by assumption. rewrite app_nil_r. reflexivity.
Qed.

Lemma repeat_plain : forall b n, plain b -> Forall plain (repeat b n).
Proof. intros b n H. apply Forall_forall. intros x X. apply repeat_spec in X. congruence. Qed.
Lemma picture_plain : forall m w, Forall plain (picture m w).
Proof.
  intros m w. unfold picture. destruct (m <? w).
  - apply Forall_app. split; [|constructor]; try apply repeat_plain; split; discriminate.
  - apply repeat_plain. split; discriminate.
Qed.
Lemma text_plain : forall h w, (h <= 100)%N -> Forall plain (text h w).
Proof.
  intros h w H. unfold text. constructor; [split; discriminate|]. apply Forall_app. split; [apply picture_plain|].
  repeat (constructor; [split; discriminate|]). apply Forall_app. split.
  - unfold three_columns. pose proof (N.mod_lt h 10 ltac:(lia)). pose proof (N.mod_lt (h / 10) 10 ltac:(lia)).
    destruct (h <? 10)%N; [|destruct (h <? 100)%N]; repeat (constructor; [unfold plain; lia|]); constructor.
  - constructor; [split; discriminate|constructor].
Qed.

(** One report. *)
Lemma update_cases : forall b p t, exists b' out, update b p t = Some (b', out, true) /\
  p_enabled b' = p_enabled b /\ p_width b' = p_width b.
Proof.
  intros b p t. unfold update. destruct (negb (p_enabled b) || (t =? 0)%N); [exists b, []; auto|].
  cbv zeta. destruct (percent_of p t =? p_last b)%Z; [exists b, []; auto|]. rewrite drawing_is. eauto.
Qed.
Lemma updates_cases : forall rs b, exists b' out, updates b rs = Some (b', out, true) /\
  p_enabled b' = p_enabled b /\ p_width b' = p_width b.
Proof.
  induction rs as [|(p & t) rs IH]; intros b; cbn [updates]; [exists b, []; auto|].
  destruct (update_cases b p t) as (b1 & o1 & E1 & A1 & B1). rewrite E1.
  destruct (IH b1) as (b2 & o2 & E2 & A2 & B2). rewrite E2. exists b2, (o1 ++ o2).
  repeat split; congruence.
Qed.

Lemma update_draws : forall w last p t, narrow w -> sensible (p, t) ->
  update (Bar true w last) p t =
    if (Z.of_N (hundredths p t) =? last)%Z then Some (Bar true w last, [], true)
    else Some (Bar true w (Z.of_N (hundredths p t)), 13%N :: text (hundredths p t) w, true).
Proof.
  intros w last p t Hw H. unfold update. cbn [p_enabled p_width p_last negb orb].
  assert (T : (t =? 0)%N = false) by (apply N.eqb_neq; destruct H; cbn [snd] in *; lia). rewrite T. cbv zeta.
  rewrite percent_is by assumption. destruct (Z.of_N (hundredths p t) =? last)%Z; [reflexivity|].
  pose proof (hundredths_bound p t H). rewrite drawing_pic, setw3_is by assumption. reflexivity.
Qed.

Definition drawn_before (w : nat) (last : Z) (t : terminal) : Prop :=
  length (line t) <= w + 7 /\
  (last = (-1)%Z \/ exists h, (h <= 100)%N /\ last = Z.of_N h /\ t = Terminal (above t) (text h w) (w + 7)).
Definition nonempty_last (l : list (N * N)) (d : N) : N := List.last (map (fun r => hundredths (fst r) (snd r)) l) d.

Lemma updates_display : forall rs w last t, narrow w -> Forall sensible rs -> rs <> [] -> drawn_before w last t ->
  exists b out, updates (Bar true w last) rs = Some (b, out, true) /\ b = Bar true w (Z.of_N (nonempty_last rs 0)) /\
    fold_left shows out t = Terminal (above t) (text (nonempty_last rs 0) w) (w + 7).
Proof.
  induction rs as [|(p & q) rs IH]; intros w last t Hw HS HN HD; [congruence|]. inversion HS as [|? ? H1 H2]; subst.
  pose proof (hundredths_bound p q H1) as HB. cbn [updates]. rewrite update_draws by assumption.
  assert (STEP : exists out, (if (Z.of_N (hundredths p q) =? last)%Z then Some (Bar true w last, [], true)
      else Some (Bar true w (Z.of_N (hundredths p q)), 13%N :: text (hundredths p q) w, true)) =
      Some (Bar true w (Z.of_N (hundredths p q)), out, true) /\
      fold_left shows out t = Terminal (above t) (text (hundredths p q) w) (w + 7)).
  { destruct (Z.eqb_spec (Z.of_N (hundredths p q)) last) as [E|E].
    - exists []. split; [congruence|]. destruct HD as (_ & [X|(h & X1 & X2 & X3)]); [lia|].
      assert (h = hundredths p q) by lia. subst h. exact X3.
    - exists (13%N :: text (hundredths p q) w). split; [reflexivity|]. destruct t as [a l c]. cbn [above line] in *.
      rewrite rewrite_line; rewrite ?text_length; [reflexivity|apply text_plain; assumption|destruct HD as (HD & _); exact HD]. }
  destruct STEP as (o1 & E1 & D1). rewrite E1. destruct rs as [|r rs].
  - cbn [updates]. exists (Bar true w (Z.of_N (hundredths p q))), (o1 ++ []). rewrite app_nil_r. auto.
  - destruct (IH w (Z.of_N (hundredths p q)) (Terminal (above t) (text (hundredths p q) w) (w + 7)) Hw H2 ltac:(discriminate)) as (b & o2 & E2 & B2 & D2).
    { split; [cbn [line]; rewrite text_length; lia|]. right. exists (hundredths p q). auto. }
    rewrite E2. exists b, (o1 ++ o2). split; [reflexivity|]. split; [exact B2|]. rewrite fold_left_app, D1, D2. reflexivity.
Qed.

(** Returns to column 0: one per redraw. *)
Definition returns (out : bytes) : nat := length (filter (N.eqb 13) out).
Lemma returns_app : forall a b, returns (a ++ b) = returns a + returns b.
Proof. intros a b. unfold returns. rewrite filter_app, app_length. reflexivity. Qed.
Lemma returns_plain : forall u, Forall plain u -> returns u = 0.
Proof.
  induction 1 as [|b u (H & _) _ IH]; [reflexivity|]. unfold returns in *. cbn [filter].
  destruct (N.eqb_spec 13 b); [congruence|exact IH].
Qed.
Definition was (last : Z) : option N := if (last <? 0)%Z then None else Some (Z.to_N last).
Lemma updates_redraws : forall rs w last, narrow w -> Forall sensible rs -> (-1 <= last)%Z ->
  forall b out ok, updates (Bar true w last) rs = Some (b, out, ok) ->
  returns out = changes (was last) (map (fun r => hundredths (fst r) (snd r)) rs).
Proof.
  induction rs as [|(p & q) rs IH]; intros w last Hw HS HL b out ok E; cbn [updates] in E; [injection E as <- <- <-; reflexivity|].
  inversion HS as [|? ? H1 H2]; subst. rewrite update_draws in E by assumption. cbn [map changes fst snd].
  pose proof (hundredths_bound p q H1) as HB. set (h := hundredths p q) in *.
  assert (W : was (Z.of_N h) = Some h) by (unfold was; destruct (Z.ltb_spec (Z.of_N h) 0); [lia|]; rewrite N2Z.id; reflexivity).
  destruct (Z.eqb_spec (Z.of_N h) last) as [X|X].
  - destruct (updates (Bar true w last) rs) as [((b2 & o2) & k2)|] eqn:E2; [|discriminate]. injection E as <- <- <-.
    subst last. rewrite W. rewrite N.eqb_refl. cbn [app Nat.add]. rewrite <- W. exact (IH w (Z.of_N h) Hw H2 HL _ _ _ E2).
  - destruct (updates (Bar true w (Z.of_N h)) rs) as [((b2 & o2) & k2)|] eqn:E2; [|discriminate]. assert (O : out = (13%N :: text h w) ++ o2) by congruence. rewrite O. clear E O.
    rewrite returns_app. change (returns (13%N :: text h w)) with (S (returns (text h w))).
    rewrite returns_plain by (apply text_plain; assumption). rewrite (IH w (Z.of_N h) Hw H2 ltac:(lia) _ _ _ E2), W.
    unfold was. destruct (Z.ltb_spec last 0); [reflexivity|]. destruct (N.eqb_spec (Z.to_N last) h); [lia|reflexivity].
Qed.

(** The ends. *)
Lemma finish_shows : forall w last t, length (line t) <= w + 7 ->
  fold_left shows (finish (Bar true w last)) t = Terminal (above t ++ [91%N :: repeat 61%N w ++ s2b "] 100%"]) [] 0.
Proof.
  intros w last [a l c] H. cbn [line] in H. unfold finish. cbn [p_enabled p_width].
  change ([13; 91]%N ++ repeat 61%N w ++ s2b "] 100%" ++ [10%N]) with (13%N :: (91%N :: repeat 61%N w ++ s2b "] 100%" ++ [10%N])).
  replace (13%N :: (91%N :: repeat 61%N w ++ s2b "] 100%" ++ [10%N])) with ((13%N :: (91%N :: repeat 61%N w ++ s2b "] 100%")) ++ [10%N])
    by (cbn [app]; rewrite <- app_assoc; reflexivity).
  rewrite fold_left_app, rewrite_line.
  - reflexivity.
  - constructor; [split; discriminate|]. apply Forall_app. split; [apply repeat_plain; split; discriminate|].
    repeat (constructor; [split; discriminate|]). constructor.
  - cbn [length]. rewrite app_length, repeat_length. change (length (s2b "] 100%")) with 6. lia.
Qed.
Lemma clear_shows : forall w last t, length (line t) <= w + 7 ->
  fold_left shows (clear_bar (Bar true w last)) t = Terminal (above t) (repeat 32%N (w + 7)) 0.
Proof.
  intros w last [a l c] H. cbn [line] in H. unfold clear_bar. cbn [p_enabled p_width].
  rewrite app_comm_cons, fold_left_app, rewrite_line.
  - reflexivity.
  - apply repeat_plain. split; discriminate.
  - rewrite repeat_length. exact H.
Qed.
Lemma pic_100 : forall w, pic 100 w = repeat 61%N w.
Proof.
  intros w. unfold pic. rewrite N.mul_comm, N.div_mul by lia. rewrite Nnat.Nat2N.id. unfold picture. rewrite Nat.ltb_irrefl. reflexivity.
Qed.
