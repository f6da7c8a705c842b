(** Dialect detection with explicit reads: numbers, dates and cell types. *)
From Coq Require Import SpecFloat.
From Verif Require Import Base RawModel RawProof RawModel4 DialectModel RawProof8 RawProof9 RawProof10.

Lemma digits_dropw (l : bytes) : forallb digit l = match dropw digit l with [] => true | _ => false end.
Proof. induction l as [|c l IH]; [reflexivity|]. cbn [forallb dropw]. destruct (digit c); [exact IH|reflexivity]. Qed.
Lemma trim_blanks_w (l : bytes) : trim_blanks l = rev (dropw blank (rev (dropw blank l))).
Proof. unfold trim_blanks. rewrite !drop_blanks_w. reflexivity. Qed.
Lemma trim_spaces_w (l : bytes) : trim_spaces l = rev (dropw space (rev (dropw space l))).
Proof. unfold trim_spaces. rewrite !drop_spaces_w. reflexivity. Qed.
Lemma empty_upto (d : bytes) n i : n <= length d -> upto d n i = [] <-> n <= i.
Proof. intros H. split; intros A; [|apply upto_end; exact A]. pose proof (upto_length d n i H) as L. rewrite A in L. cbn in L. lia. Qed.

Lemma could_be_integer_raw (d : bytes) : raw_could_be_integer d (length d) = Some (could_be_integer d).
Proof.
  unfold raw_could_be_integer, could_be_integer. rewrite trim_blanks_w. destruct (Nat.eqb_spec (length d) 0) as [Z|Z].
  { destruct d; [reflexivity|discriminate Z]. }
  destruct (trim_ok blank d) as (s & e & -> & -> & B & T). rewrite <- T. clear T Z.
  destruct (Nat.leb_spec e s) as [G|G]; [rewrite upto_end by exact G; reflexivity|].
  destruct (upto_cons d e s ltac:(lia) G) as (c & R & U). rewrite R, U. destruct (sign c).
  - destruct (Nat.leb_spec e (s + 1)) as [G2|G2]; [rewrite upto_end by exact G2; reflexivity|].
    destruct (while_ok digit d e ltac:(lia) (S (length d)) (s + 1)) as (j & -> & J1 & J2 & J3); [lia|].
    assert (X : forallb digit (upto d e (s + 1)) = (e <=? j)).
    { rewrite digits_dropw, <- J3. destruct (Nat.leb_spec e j) as [K|K]; [rewrite upto_end by exact K; reflexivity|].
      destruct (upto d e j) eqn:Q; [|reflexivity]. apply empty_upto in Q; lia. }
    rewrite <- X. destruct (upto d e (s + 1)) eqn:Q; [apply empty_upto in Q; lia|reflexivity].
  - replace (e <=? s) with false by (symmetry; apply Nat.leb_gt; lia).
    destruct (while_ok digit d e ltac:(lia) (S (length d)) s) as (j & -> & J1 & J2 & J3); [lia|].
    rewrite <- U. rewrite digits_dropw, <- J3. destruct (Nat.leb_spec e j) as [K|K]; [rewrite upto_end by exact K; reflexivity|].
    destruct (upto d e j) eqn:Q; [|reflexivity]. apply empty_upto in Q; lia.
Qed.

(** Running over digits. *)
Lemma digits_ok (l : bytes) i : i <= length l -> exists j, raw_while (S (length l)) digit l (length l) i = Some j /\ i <= j <= length l /\
  skipn j l = drop_digits (skipn i l) /\ (i <? j) = (length (drop_digits (skipn i l)) <? length (skipn i l)) /\
  (j =? length l) = match drop_digits (skipn i l) with [] => true | _ => false end.
Proof.
  intros H. destruct (while_all digit l i H) as (j & A & B & C). exists j. rewrite <- drop_digits_w in C. repeat split; try lia; [exact A|exact C| |].
  - rewrite <- C, !skipn_length. destruct (Nat.ltb_spec i j), (Nat.ltb_spec (length l - j) (length l - i)); lia.
  - rewrite <- C. destruct (pos l j) as [G E|c G _ E]; rewrite E; lia.
Qed.
Lemma first_digit (l : bytes) : (length (drop_digits l) <? length l) = match l with c :: _ => digit c | [] => false end.
Proof.
  destruct l as [|c l]; [reflexivity|]. cbn [drop_digits]. pose proof (dropw_le digit l) as D. rewrite <- drop_digits_w in D.
  destruct (digit c); cbn [length]; [apply Nat.ltb_lt|apply Nat.ltb_ge]; lia.
Qed.
Lemma also_sign (l : bytes) i : also (i <? length l) (let? c := rd l i in Some (sign c)) = Some (match skipn i l with c :: _ => sign c | [] => false end).
Proof. destruct (pos l i) as [G E|c G R E]; rewrite G, E; [reflexivity|]. cbn [also]. rewrite R. reflexivity. Qed.
Lemma also_digit (l : bytes) i : also (i <? length l) (let? c := rd l i in Some (digit c)) = Some (match skipn i l with c :: _ => digit c | [] => false end).
Proof. destruct (pos l i) as [G E|c G R E]; rewrite G, E; [reflexivity|]. cbn [also]. rewrite R. reflexivity. Qed.
Lemma also_exp (l : bytes) i : also (i <? length l) (let? c := rd l i in Some ((c =? 101) || (c =? 69))%N) = Some (match skipn i l with c :: _ => ((c =? 101) || (c =? 69))%N | [] => false end).
Proof. destruct (pos l i) as [G E|c G R E]; rewrite G, E; [reflexivity|]. cbn [also]. rewrite R. reflexivity. Qed.

Lemma float_shape_raw strict (l : bytes) : l <> [] -> raw_float_shape strict l (length l) = Some (float_shape l).
Proof.
  intros NE. unfold raw_float_shape, float_shape. destruct (pos l 0) as [G E|c0 _ R0 E0]; [destruct l; [congruence|discriminate G]|]. rewrite R0.
  change (skipn 0 l) with l in E0. change (0 + 1) with 1 in E0. set (i0 := if sign c0 then 1 else 0).
  assert (L0 : match l with c :: r => if sign c then r else l | [] => l end = skipn i0 l).
  { rewrite E0. unfold i0. destruct (sign c0); [|reflexivity]. rewrite E0 at 1. reflexivity. }
  rewrite L0. assert (I0 : i0 <= length l) by (unfold i0; destruct l; [congruence|]; cbn [length]; destruct (sign c0); lia). clearbody i0. clear L0 E0 R0 c0.
  destruct (digits_ok l i0 I0) as (i1 & -> & B1 & S1 & D1 & _). rewrite <- D1, <- S1. cbv zeta. rewrite peek_is.
  set (dot := next_is (skipn i1 l) 46%N).
  assert (X : exists i2, (if dot then raw_while (S (length l)) digit l (length l) (i1 + 1) else Some i1) = Some i2 /\ i1 <= i2 <= length l /\
    match skipn i1 l with
    | c :: r => if (c =? 46)%N then (true, (i0 <? i1) || (length (drop_digits r) <? length r), drop_digits r) else (false, i0 <? i1, skipn i1 l)
    | [] => (false, i0 <? i1, skipn i1 l) end = (dot, (i0 <? i1) || (dot && (i1 + 1 <? i2)), skipn i2 l)).
  { unfold dot. destruct (pos l i1) as [G E|c G R E].
    - exists i1. rewrite E. cbn [next_is andb]. rewrite orb_false_r. repeat split; lia.
    - rewrite E. cbn [next_is]. apply Nat.ltb_lt in G. destruct (c =? 46)%N.
      + destruct (digits_ok l (i1 + 1) ltac:(lia)) as (j & J1 & J2 & J3 & J4 & _). exists j. rewrite J1, J4, J3. repeat split; lia.
      + exists i1. rewrite <- E. cbn [andb]. rewrite orb_false_r. repeat split; lia. }
  destruct X as (i2 & -> & B2 & ->). clearbody dot. set (has := (i0 <? i1) || _). clearbody has. rewrite also_exp.
  destruct (pos l i2) as [G2 E2|c G2 R2 E2].
  { rewrite E2. replace (i2 =? length l) with true by lia. rewrite andb_true_r. reflexivity. }
  rewrite E2. apply Nat.ltb_lt in G2. replace (i2 =? length l) with false by lia. rewrite andb_false_r.
  destruct ((c =? 101) || (c =? 69))%N; [|reflexivity]. rewrite also_sign.
  set (sg := match skipn (i2 + 1) l with c :: _ => sign c | [] => false end). set (i3 := if sg then i2 + 1 + 1 else i2 + 1).
  assert (Y : match skipn (i2 + 1) l with c2 :: r2 => if sign c2 then r2 else skipn (i2 + 1) l | [] => skipn (i2 + 1) l end = skipn i3 l /\ i3 <= length l).
  { unfold i3, sg. destruct (pos l (i2 + 1)) as [G E|c2 G R E]; rewrite E; [split; [symmetry; exact E|lia]|]. apply Nat.ltb_lt in G. destruct (sign c2); [split; [reflexivity|lia]|split; [symmetry; exact E|lia]]. }
  destruct Y as [Y I3]. clearbody i3. clear sg. rewrite Y. destruct (digits_ok l i3 I3) as (i4 & -> & B4 & S4 & D4 & F4). rewrite also_digit, F4, D4, first_digit.
  destruct (skipn i3 l) as [|c3 r3]; [destruct strict; reflexivity|]. destruct strict; [|reflexivity]. destruct (digit c3); reflexivity.
Qed.
Lemma integer_shape_raw (l : bytes) : l <> [] -> raw_integer_shape l (length l) = Some (integer_shape l).
Proof.
  intros NE. unfold raw_integer_shape, integer_shape. destruct (pos l 0) as [G E|c0 _ R0 E0]; [destruct l; [congruence|discriminate G]|]. rewrite R0.
  change (skipn 0 l) with l in E0. change (0 + 1) with 1 in E0. set (i0 := if sign c0 then 1 else 0).
  assert (L0 : match l with c :: r => if sign c then r else l | [] => l end = skipn i0 l).
  { rewrite E0. unfold i0. destruct (sign c0); [|reflexivity]. rewrite E0 at 1. reflexivity. }
  rewrite L0. assert (I0 : i0 <= length l) by (unfold i0; destruct l; [congruence|]; cbn [length]; destruct (sign c0); lia). clearbody i0. clear L0 E0 R0 c0.
  rewrite also_digit. destruct (digits_ok l i0 I0) as (j & -> & _ & _ & _ & F). rewrite F. rewrite digits_dropw, <- drop_digits_w.
  destruct (skipn i0 l) as [|c r]; [reflexivity|]. cbn [drop_digits]. destruct (digit c); reflexivity.
Qed.

Lemma digits_raw (l : bytes) : forall ps, Forall (fun p => p < length l) ps -> raw_digits l ps = Some (digits_at l ps).
Proof.
  intros ps H. induction H as [|p ps Hp H IH]; [reflexivity|]. cbn [raw_digits]. rewrite nth_rd by exact Hp. unfold digits_at in *. cbn [forallb]. rewrite IH. destruct (digit _); reflexivity.
Qed.
Lemma pattern_raw (l : bytes) a s1 b s2 c : Forall (fun p => p < length l) (a ++ s1 :: b ++ s2 :: c) ->
  raw_date_pattern l a s1 b s2 c = Some (digits_at l (a ++ b ++ c) && dash_or_slash (nth s1 l 0%N) && (nth s2 l 0 =? nth s1 l 0)%N).
Proof.
  intros H. apply Forall_app in H as [A H]. inversion H as [|? ? H1 H2]; subst. apply Forall_app in H2 as [B H2]. inversion H2 as [|? ? H3 C]; subst.
  unfold raw_date_pattern. rewrite !digits_raw by assumption. rewrite !nth_rd by assumption. unfold digits_at. rewrite !forallb_app.
  destruct (forallb _ a); [|reflexivity]. cbn [also andb]. destruct (dash_or_slash _); cbn [also].
  - destruct (forallb _ b); [|reflexivity]. cbn [also andb]. destruct (_ =? _)%N; cbn [also]; [rewrite !andb_true_r; reflexivity|rewrite andb_false_r; reflexivity].
  - rewrite andb_false_r. reflexivity.
Qed.
Ltac all_lt := repeat (apply Forall_cons; [lia|]); apply Forall_nil.
Lemma date_shape_raw (l : bytes) : raw_date_shape l (length l) = Some (date_shape l).
Proof.
  unfold raw_date_shape, date_shape. destruct (Nat.eqb_spec (length l) 10) as [E|E].
  - replace ((8 <=? length l) && (length l <=? 10)) with true by (rewrite E; reflexivity). cbn [also].
    rewrite !pattern_raw by (cbn [app]; all_lt). reflexivity.
  - cbn [also andb orb]. destruct (_ && _); reflexivity.
Qed.
Lemma time_shape_raw (l : bytes) : raw_time_shape l (length l) = Some (time_shape l).
Proof.
  unfold raw_time_shape, time_shape. destruct ((length l =? 5) || (length l =? 8)) eqn:E; [|reflexivity]. cbn [also andb].
  assert (L : 5 <= length l) by lia. rewrite !(digits_raw l [0; 1]), (digits_raw l [3; 4]), nth_rd by (lia || all_lt).
  unfold digits_at. cbn [forallb]. rewrite !andb_true_r.
  destruct (digit (nth 0 l 0%N)), (digit (nth 1 l 0%N)); try reflexivity. cbn [andb also]. destruct (nth 2 l 0 =? 58)%N; cbn [also]; [|rewrite andb_false_r; reflexivity].
  rewrite andb_true_r. destruct (_ && _); [|reflexivity]. destruct (Nat.eqb_spec (length l) 5) as [E5|E5]; [reflexivity|].
  assert (length l = 8) by lia. rewrite nth_rd by lia. cbn [orb]. destruct (nth 5 l 0 =? 58)%N; [|reflexivity]. cbn [also andb]. rewrite digits_raw by all_lt.
  unfold digits_at. cbn [forallb]. rewrite andb_true_r. reflexivity.
Qed.

Lemma lower_raw : forall word (l : bytes) i, i + length word <= length l ->
  raw_lower l i word = Some (same_text (map to_lower (firstn (length word) (skipn i l))) word).
Proof.
  induction word as [|x w IH]; intros l i H; [reflexivity|]. cbn [raw_lower length] in *. destruct (rd_some l i) as (c & R & E); [lia|].
  rewrite R, E. cbn [firstn map]. rewrite IH by lia. unfold same_text. cbn [length combine forallb fst snd]. rewrite !map_length, !firstn_length_le by (rewrite skipn_length; lia).
  rewrite !Nat.eqb_refl. cbn [andb]. destruct (to_lower c =? x)%N; reflexivity.
Qed.
Lemma same_length a b : length a <> length b -> same_text a b = false.
Proof. intros H. unfold same_text. apply Nat.eqb_neq in H. rewrite H. reflexivity. Qed.
Lemma same_app a b x y : length a = length x -> same_text (a ++ b) (x ++ y) = same_text a x && same_text b y.
Proof.
  intros H. unfold same_text. rewrite !app_length, H. rewrite Nat.eqb_refl. cbn [andb].
  assert (C : combine (a ++ b) (x ++ y) = combine a x ++ combine b y) by (clear - H; revert x H; induction a as [|c a IH]; intros [|z x] H; try discriminate H; [reflexivity|]; cbn; f_equal; apply IH; injection H as H; exact H).
  rewrite C, forallb_app. replace (length x + length b =? length x + length y) with (length b =? length y) by lia.
  destruct (length b =? length y), (forallb _ (combine a x)); reflexivity.
Qed.
Lemma special_raw (l : bytes) c r : l = c :: r -> raw_special l (length l) =
  Some (if same_text (map to_lower l) [110; 97; 110]%N then true
        else (3 <=? length l) && (same_text (if sign c then map to_lower r else map to_lower l) [105; 110; 102]%N ||
               same_text (if sign c then map to_lower r else map to_lower l) [105; 110; 102; 105; 110; 105; 116; 121]%N)).
Proof.
  intros EL. unfold raw_special. destruct (Nat.leb_spec 3 (length l)) as [G|G].
  2:{ rewrite same_length; [reflexivity|]. rewrite map_length. cbn [length]. lia. }
  assert (N3 : also (length l =? 3) (raw_lower l 0 [110; 97; 110]%N) = Some (same_text (map to_lower l) [110; 97; 110]%N)).
  { destruct (Nat.eqb_spec (length l) 3) as [E|E]; cbn [also]; [|rewrite same_length by (rewrite map_length; cbn [length]; lia); reflexivity].
    rewrite lower_raw by (cbn [length]; lia). change (skipn 0 l) with l. rewrite firstn_all2 by (cbn [length]; lia). reflexivity. }
  rewrite N3. destruct (same_text _ [110; 97; 110]%N); [reflexivity|]. cbn [andb]. rewrite nth_rd by lia.
  assert (Z : nth 0 l 0%N = c) by (rewrite EL; reflexivity). rewrite Z. set (off := if sign c then 1 else 0).
  assert (U : (if sign c then map to_lower r else map to_lower l) = map to_lower (skipn off l)) by (unfold off; destruct (sign c); [rewrite EL|]; reflexivity).
  rewrite U. assert (O : off <= 1) by (unfold off; destruct (sign c); lia). clearbody off. set (u := map to_lower (skipn off l)).
  assert (LU : length u = length l - off) by (unfold u; rewrite map_length, skipn_length; reflexivity). rewrite <- LU.
  destruct (Nat.leb_spec 3 (length u)) as [G3|G3]; cbn [also].
  2:{ rewrite !same_length by (cbn [length]; lia). reflexivity. }
  rewrite lower_raw by (cbn [length]; lia). cbn [length]. rewrite <- firstn_map. fold u.
  destruct (Nat.eqb_spec (length u) 3) as [E3|E3].
  - rewrite firstn_all2 by lia. rewrite (same_length u [105; 110; 102; 105; 110; 105; 116; 121]%N) by (cbn [length]; lia). rewrite orb_false_r. destruct (same_text u _); reflexivity.
  - rewrite (same_length u [105; 110; 102]%N) by (cbn [length]; lia). cbn [orb].
    destruct (Nat.eqb_spec (length u) 8) as [E8|E8]; cbn [also].
    + rewrite lower_raw by (cbn [length]; lia).
      assert (V : map to_lower (firstn (length [105; 110; 105; 116; 121]%N) (skipn (off + 3) l)) = skipn 3 u).
      { rewrite firstn_all2 by (rewrite skipn_length; cbn [length]; lia). unfold u. rewrite skipn_map, skipn_add. reflexivity. }
      rewrite V.
      assert (W : same_text u [105; 110; 102; 105; 110; 105; 116; 121]%N = same_text (firstn 3 u) [105; 110; 102]%N && same_text (skipn 3 u) [105; 110; 105; 116; 121]%N).
      { rewrite <- (firstn_skipn 3 u) at 1. change [105; 110; 102; 105; 110; 105; 116; 121]%N with ([105; 110; 102] ++ [105; 110; 105; 116; 121])%N.
        apply same_app. rewrite firstn_length. cbn [length]. lia. }
      rewrite W. destruct (same_text (firstn 3 u) _); reflexivity.
    + rewrite (same_length u [105; 110; 102; 105; 110; 105; 116; 121]%N) by (cbn [length]; lia). destruct (same_text _ _); reflexivity.
Qed.
Lemma could_be_float_raw (d : bytes) : raw_could_be_float d (length d) = Some (could_be_float d).
Proof.
  unfold raw_could_be_float, could_be_float. rewrite trim_blanks_w. destruct (Nat.eqb_spec (length d) 0) as [Z|Z].
  { destruct d; [reflexivity|discriminate Z]. }
  destruct (trim_ok blank d) as (s & e & -> & -> & B & T). rewrite <- T. clear T Z.
  destruct (Nat.leb_spec e s) as [G|G]; [rewrite upto_end by exact G; reflexivity|].
  rewrite load_some by lia. pose proof (upto_length d e s ltac:(lia)) as L. unfold upto in *. set (l := firstn (e - s) (skipn s d)) in *. clearbody l.
  rewrite <- L. destruct l as [|c r]; [cbn in L; lia|]. rewrite (special_raw (c :: r) c r eq_refl). cbv zeta. destruct (same_text (map to_lower (c :: r)) _); [reflexivity|]. cbn [map].
  destruct (_ && _); [reflexivity|]. apply float_shape_raw. discriminate.
Qed.

Lemma find_char_lt x : forall (l : bytes) p, find_char l x = Some p -> p < length l.
Proof.
  induction l as [|c l IH]; intros p H; [discriminate H|]. cbn [find_char] in H. destruct (c =? x)%N; [injection H as <-; cbn; lia|].
  destruct (find_char l x) as [q|]; [|discriminate H]. injection H as <-. specialize (IH q eq_refl). cbn [length]. lia.
Qed.
Lemma strip_zone_le (t : bytes) : length (strip_zone t) <= length t.
Proof.
  unfold strip_zone. set (t1 := match t with [] => [] | _ => _ end).
  assert (A : length t1 <= length t). { unfold t1. destruct t as [|x t']; [lia|]. destruct (_ =? _)%N; [|lia]. rewrite (app_removelast_last 0%N (l := x :: t')) at 2 by discriminate. rewrite app_length. lia. }
  clearbody t1. destruct (find_char t1 43%N) as [p|]; [destruct (0 <? p)|]; try (rewrite firstn_length; lia);
    destruct (find_char t1 45%N) as [m|]; try lia; destruct (5 <? m); try lia; rewrite firstn_length; lia.
Qed.
Lemma infer_raw : forall fuel cell0, length cell0 <= fuel -> raw_infer_with fuel cell0 = Some (infer_with fuel cell0).
Proof.
  induction fuel as [|f IH]; intros cell0 H.
  - destruct cell0; [reflexivity|cbn in H; lia].
  - cbn [raw_infer_with infer_with]. rewrite trim_spaces_w. destruct (trim_ok space cell0) as (s & e & -> & -> & B & T). rewrite <- T. clear T.
    rewrite load_some by lia. pose proof (upto_length cell0 e s ltac:(lia)) as L. unfold upto in *. set (l := firstn (e - s) (skipn s cell0)) in *. clearbody l.
    destruct l as [|c r] eqn:EL; [reflexivity|]. rewrite <- EL in *. replace (length l =? 0) with false by (rewrite EL; reflexivity).
    destruct (existsb _ _); [reflexivity|]. assert (NE : l <> []) by (rewrite EL; discriminate).
    rewrite integer_shape_raw by exact NE. destruct (integer_shape l); [reflexivity|]. rewrite float_shape_raw by exact NE. destruct (float_shape l); [reflexivity|].
    rewrite date_shape_raw. destruct (date_shape l); [reflexivity|]. rewrite time_shape_raw. destruct (time_shape l); [reflexivity|].
    destruct (16 <=? length l); [|reflexivity].
    destruct (match find_char l 84%N with Some p => Some p | None => find_char l 32%N end) as [p|] eqn:EP; [|reflexivity]. destruct (8 <=? p) eqn:P8; [|reflexivity]. apply Nat.leb_le in P8.
    assert (PL : p < length l) by (destruct (find_char l 84%N) eqn:F; [injection EP as <-; apply find_char_lt in F; exact F|apply find_char_lt in EP; exact EP]).
    rewrite !load_some by lia. change (skipn 0 l) with l. assert (TP : firstn (length l - (p + 1)) (skipn (p + 1) l) = skipn (S p) l) by (rewrite Nat.add_1_r; apply firstn_all2; rewrite skipn_length; lia).
    rewrite TP. set (t := strip_zone (skipn (S p) l)). assert (LT : length t <= length l - S p) by (unfold t; pose proof (strip_zone_le (skipn (S p) l)) as Q; rewrite skipn_length in Q; exact Q).
    cbv zeta. rewrite IH by (rewrite firstn_length; lia). destruct (infer_with f (firstn p l)); try reflexivity. rewrite IH by lia. destruct (infer_with f t); reflexivity.
Qed.
