(** Reader: the row loop, serial = specification, parallel = serial. *)
From Verif Require Import Base WordsModel WordsProof ChunkSpec ChunkModel ChunkProof ChunkProof2 ChunkProof3
  FieldsSpec FieldsModel FieldsProof FieldsProof2 FieldsProof3 FieldsProof4 FieldsProof5
  ReaderSpec ReaderModel ReaderProof.

Lemma trim_left_length p (l : bytes) : length (trim_left p l) <= length l.
Proof. induction l as [|c l IH]; [reflexivity|]. cbn. destruct (p c); cbn; lia. Qed.

Section Loop.
Context {V : Type}.
Variable conv : nat -> bytes -> option V.
Variables (lanes : nat) (clmul : bool) (sep q : byte) (sp : bytes).
Hypothesis Hl : lanes_ok lanes.
Notation nc := (make_null_checker sp).
Notation rd := (read_rows conv lanes clmul sep q nc).

Lemma read_rows_step fuel ne l cols rows fields rest : l <> [] -> skip_empty l <> [] ->
  row_fields lanes clmul sep q LF (skip_empty l) ne = Some (fields, rest) ->
  rd (S fuel) ne l cols rows = rd fuel ne rest (put conv q sp 0 fields cols) (rows + 1).
Proof.
  intros H1 H2 H3. cbn [read_rows]. destruct l as [|c l]; [congruence|].
  destruct (skip_empty (c :: l)) as [|d l'] eqn:E; [congruence|]. rewrite H3.
  pose proof (fields_into_spec conv q sp fields [] cols) as Hf. cbv zeta in Hf. cbn [app length] in Hf.
  destruct (fields_into conv q nc fields 0 cols) as [k cols'] eqn:Ef. cbn [fst snd] in Hf.
  destruct Hf as (_ & _ & Hf). rewrite Hf. reflexivity.
Qed.

(** Every buffer is read without undefined behaviour into a rectangular table. *)
Lemma read_rows_rect : forall fuel ne l cols rows n, length l <= fuel ->
  Forall (fun c => length c = n) cols ->
  exists cols' rows', rd fuel ne l cols rows = Some (cols', rows') /\ rows <= rows' /\
    length cols' = length cols /\ Forall (fun c => length c = n + (rows' - rows)) cols'.
Proof.
  induction fuel as [|fuel IH]; intros ne l cols rows n Hf HF.
  - destruct l; [|cbn in Hf; lia]. exists cols, rows. cbn. repeat split; try lia.
    rewrite Nat.sub_diag, Nat.add_0_r. assumption.
  - destruct l as [|c l].
    { exists cols, rows. cbn. repeat split; try lia. rewrite Nat.sub_diag, Nat.add_0_r. assumption. }
    destruct (skip_empty (c :: l)) as [|d l'] eqn:Es.
    { exists cols, rows. cbn [read_rows]. rewrite Es. repeat split; try lia.
      rewrite Nat.sub_diag, Nat.add_0_r. assumption. }
    destruct (row_fields_lossless lanes clmul sep q LF (d :: l') ne Hl) as (rs & rest & Hr & Hlen & Hv).
    rewrite (read_rows_step fuel ne (c :: l) cols rows rs rest); [|discriminate|rewrite Es; discriminate|rewrite Es; exact Hr].
    assert (Hrest : length rest <= fuel).
    { assert (Hle : length (d :: l') <= length (c :: l)) by (rewrite <- Es, skip_empty_trim; apply trim_left_length).
      destruct Hv as [[_ ->]|Hv]; [cbn; lia|]. rewrite Hv in Hle. rewrite app_length in Hle. cbn [length] in *. lia. }
    destruct (IH ne rest (put conv q sp 0 rs cols) (rows + 1) (S n) Hrest) as (cols' & rows' & E1 & E2 & E3 & E4).
    { apply put_rect. assumption. }
    exists cols', rows'. split; [exact E1|]. split; [lia|]. split; [rewrite E3; apply put_length|].
    eapply Forall_impl; [|exact E4]. cbn. intros a Ha. lia.
Qed.

Hypothesis Hqs : q <> sep.
Hypothesis HqL : q <> LF.
Hypothesis Hq0 : q <> 0%N.

Lemma fcell_spec k f ne : flag_ok q f ne ->
  fcell conv q sp k (f, ne) = match field_text sp q f with None => None | Some t => conv k t end.
Proof.
  intros Hf. unfold fcell, field_text. cbn [fst snd]. destruct f as [|c f]; [reflexivity|].
  rewrite (Hf ltac:(discriminate)). destruct (denotes_null sp (without_cr (c :: f))); [reflexivity|].
  rewrite unquote_dequoted. reflexivity.
Qed.

Lemma cells_spec row rs k : Forall2 (fun f r => fst r = f /\ flag_ok q f (snd r)) row rs ->
  match nth_error rs k with None => None | Some f => fcell conv q sp k f end = row_cell conv sp q row k.
Proof.
  intros H. unfold row_cell.
  assert (Hk : match nth_error rs k, nth_error row k with
               | Some r, Some f => fst r = f /\ flag_ok q f (snd r)
               | None, None => True
               | _, _ => False end).
  { clear -H. revert k. induction H as [|f r row rs H1 H2 IH]; intros [|k]; cbn [nth_error]; [exact I|exact I|exact H1|apply IH]. }
  destruct (nth_error rs k) as [[f ne]|], (nth_error row k) as [f'|]; try contradiction; [|reflexivity].
  cbn [fst snd] in Hk. destruct Hk as [-> Hk]. apply fcell_spec. exact Hk.
Qed.

Definition add_rows (T : list (list bytes)) (cols : list (list (option V))) : list (list (option V)) :=
  map (fun p => snd p ++ map (fun row => row_cell conv sp q row (fst p)) T) (combine (seq 0 (length cols)) cols).

Lemma add_rows_nil cols : add_rows [] cols = cols.
Proof.
  unfold add_rows. cbn [map]. 
  rewrite (map_ext _ snd) by (intros; apply app_nil_r).
  clear. generalize 0. induction cols as [|c cols IH]; intros k; [reflexivity|]. cbn. rewrite IH. reflexivity.
Qed.

Lemma combine_seq_map {A B} (f : nat -> A -> B) : forall (cols : list A) k,
  combine (seq k (length cols)) (map (fun p => f (fst p) (snd p)) (combine (seq k (length cols)) cols))
  = map (fun p => (fst p, f (fst p) (snd p))) (combine (seq k (length cols)) cols).
Proof. induction cols as [|c cols IH]; intros k; [reflexivity|]. cbn. rewrite IH. reflexivity. Qed.

Lemma add_rows_cons row T cols :
  add_rows T (map (fun p => snd p ++ [row_cell conv sp q row (fst p)]) (combine (seq 0 (length cols)) cols))
  = add_rows (row :: T) cols.
Proof.
  unfold add_rows at 1. rewrite map_length, combine_length, seq_length, Nat.min_id.
  rewrite (combine_seq_map (fun k c => c ++ [row_cell conv sp q row k])). rewrite map_map. cbn [fst snd].
  unfold add_rows. apply map_ext. intros [k c]. cbn [fst snd map]. rewrite <- app_assoc. reflexivity.
Qed.

Lemma rows_upto_nil n : rows_upto n sep q [] = [].
Proof. destruct n; reflexivity. Qed.

Lemma rr_rest_shorter l : l <> [] -> length (snd (raw_row (N.eqb LF) sep q false l)) < length l.
Proof.
  intros H. destruct (rr_join (N.eqb LF) sep q l false) as (tail & Hv & Ht).
  destruct Ht as [[_ ->]|(c & _ & ->)]; [destruct l; cbn; [congruence|lia]|].
  rewrite Hv at 2. rewrite app_length. cbn. lia.
Qed.

Lemma rows_upto_fuel : forall n m l, length l <= n -> length l <= m -> rows_upto n sep q l = rows_upto m sep q l.
Proof.
  induction n as [|n IH]; intros m l Hn Hm.
  - destruct l; [|cbn in Hn; lia]. rewrite !rows_upto_nil. reflexivity.
  - destruct m as [|m]; [destruct l; [|cbn in Hm; lia]; rewrite !rows_upto_nil; reflexivity|].
    cbn [rows_upto]. destruct (trim_left newline l) as [|c l'] eqn:E; [reflexivity|]. f_equal.
    pose proof (trim_left_length newline l) as Ht. rewrite E in Ht.
    pose proof (rr_rest_shorter (c :: l') ltac:(discriminate)) as Hr.
    apply IH; lia.
Qed.

Lemma table_rows_step l c l' : trim_left newline l = c :: l' ->
  table_rows sep q l = fst (raw_row (N.eqb LF) sep q false (c :: l')) ::
                       table_rows sep q (snd (raw_row (N.eqb LF) sep q false (c :: l'))).
Proof.
  intros E. unfold table_rows. pose proof (trim_left_length newline l) as Ht. rewrite E in Ht.
  destruct l as [|x l]; [discriminate|]. 
  change (rows_upto (length (x :: l)) sep q (x :: l)) with
    (match trim_left newline (x :: l) with
      | [] => []
      | l'0 => fst (raw_row (N.eqb LF) sep q false l'0)
              :: rows_upto (length l) sep q (snd (raw_row (N.eqb LF) sep q false l'0))
      end).
  rewrite E. cbv zeta. f_equal. pose proof (rr_rest_shorter (c :: l') ltac:(discriminate)) as Hr.
  apply rows_upto_fuel; cbn [length] in *; lia.
Qed.
Lemma table_rows_blank l : trim_left newline l = [] -> table_rows sep q l = [].
Proof. unfold table_rows. destruct l as [|x l]; [reflexivity|]. intros E. cbn [length rows_upto]. rewrite E. reflexivity. Qed.

Lemma read_rows_exact : forall fuel ne l cols rows, length l <= fuel ->
  Forall (safe_row sep LF q) (table_rows sep q l) ->
  rd fuel ne l cols rows = Some (add_rows (table_rows sep q l) cols, rows + length (table_rows sep q l)).
Proof.
  induction fuel as [|fuel IH]; intros ne l cols rows Hf HS.
  - destruct l; [|cbn in Hf; lia]. cbn. rewrite add_rows_nil, Nat.add_0_r. reflexivity.
  - destruct l as [|c l]; [cbn; rewrite add_rows_nil, Nat.add_0_r; reflexivity|].
    destruct (trim_left newline (c :: l)) as [|d l'] eqn:Es.
    { cbn [read_rows]. rewrite skip_empty_trim, Es, (table_rows_blank _ Es), add_rows_nil, Nat.add_0_r. reflexivity. }
    rewrite (table_rows_step _ _ _ Es) in *. pose proof (Forall_inv HS) as HS1. pose proof (Forall_inv_tail HS) as HS2.
    destruct (row_fields_exact sep LF q Hqs HqL Hq0 lanes clmul (d :: l') ne Hl HS1) as (rs & Hr & HF).
    rewrite (read_rows_step fuel ne (c :: l) cols rows rs (snd (raw_row (N.eqb LF) sep q false (d :: l')))); [|discriminate|rewrite skip_empty_trim, Es; discriminate|rewrite skip_empty_trim, Es; exact Hr].
    pose proof (trim_left_length newline (c :: l)) as Ht. rewrite Es in Ht.
    pose proof (rr_rest_shorter (d :: l') ltac:(discriminate)) as Hrs.
    rewrite IH; [|cbn [length] in *; lia|exact HS2]. f_equal. f_equal; [|cbn [length]; lia].
    rewrite <- add_rows_cons. f_equal. rewrite put_spec. apply map_ext. intros [k col]. cbn [fst snd].
    rewrite Nat.sub_0_r. rewrite (cells_spec _ _ k HF). reflexivity.
Qed.

(** ** Cutting a buffer after an unquoted LF *)
Definition row_cut (a : bytes) : Prop := a = [] \/ (endst false q a = false /\ exists b, a = b ++ [LF]).

Lemma rr_cut : forall a b st, (exists a0, a = a0 ++ [LF]) -> endst st q a = false ->
  raw_row (N.eqb LF) sep q st (a ++ b) =
    (fst (raw_row (N.eqb LF) sep q st a), snd (raw_row (N.eqb LF) sep q st a) ++ b) /\
  row_cut (snd (raw_row (N.eqb LF) sep q st a)).
Proof.
  induction a as [|c a IH]; intros b st (a0 & Ha) He; [destruct a0; discriminate|].
  assert (Hcf : forall st', endst st' q a = false -> a <> [] ->
     cons_first c (raw_row (N.eqb LF) sep q st' (a ++ b)) =
       (fst (cons_first c (raw_row (N.eqb LF) sep q st' a)), snd (cons_first c (raw_row (N.eqb LF) sep q st' a)) ++ b) /\
     row_cut (snd (cons_first c (raw_row (N.eqb LF) sep q st' a)))).
  { intros st' He' Hne. destruct (IH b st') as [I1 I2]; [|exact He'|].
    - destruct a0 as [|x a0]; [injection Ha as _ Ha; congruence|]. injection Ha as _ Ha. exists a0. exact Ha.
    - rewrite I1. unfold cons_first. cbn [fst snd]. destruct (fst (raw_row (N.eqb LF) sep q st' a)); split; try reflexivity; exact I2. }
  assert (Hne : c <> LF -> a <> []) by (intros Hc ->; destruct a0 as [|x [|y a0]]; [injection Ha as ->; congruence|discriminate|discriminate]).
  cbn [raw_row app endst] in *. destruct (N.eqb c q) eqn:Ec.
  { apply Hcf; [exact He|]. apply Hne. intros ->. apply N.eqb_eq in Ec. congruence. }
  destruct st.
  { destruct a as [|x a1]; [cbn in He; discriminate|]. apply Hcf; [exact He|discriminate]. }
  destruct (N.eqb LF c) eqn:EL.
  { split; [reflexivity|]. cbn [snd]. destruct a as [|x a1]; [left; reflexivity|]. right. split; [exact He|].
    destruct a0 as [|y a0]; [discriminate|]. injection Ha as _ Ha. exists a0. exact Ha. }
  assert (Hc : c <> LF) by (intros ->; cbn in EL; discriminate).
  destruct (N.eqb c sep).
  - destruct (IH b false) as [I1 I2]; [|exact He|].
    + destruct a0 as [|x a0]; [injection Ha as -> _; congruence|]. injection Ha as _ Ha. exists a0. exact Ha.
    + rewrite I1. cbn [fst snd]. split; [reflexivity|exact I2].
  - apply Hcf; [exact He|apply Hne; exact Hc].
Qed.

Lemma trim_left_app p (a b : bytes) : trim_left p (a ++ b) =
  match trim_left p a with [] => trim_left p b | l => l ++ b end.
Proof. induction a as [|c a IH]; [reflexivity|]. cbn. destruct (p c); [exact IH|reflexivity]. Qed.

Lemma trim_left_suffix p (a : bytes) : exists x, a = x ++ trim_left p a /\ forallb p x = true.
Proof.
  induction a as [|c a (x & Hx & Hf)]; [exists []; split; reflexivity|]. cbn. destruct (p c) eqn:E.
  - exists (c :: x). cbn. rewrite E, <- Hx. split; [reflexivity|exact Hf].
  - exists []. split; reflexivity.
Qed.

Lemma table_rows_app : q <> CR -> forall n a b, length a <= n -> row_cut a ->
  table_rows sep q (a ++ b) = table_rows sep q a ++ table_rows sep q b.
Proof.
  intros HqC. induction n as [|n IH]; intros a b Hn Hc.
  - destruct a; [reflexivity|cbn in Hn; lia].
  - destruct Hc as [->|[He (a0 & Ha)]]; [reflexivity|].
    destruct (trim_left newline a) as [|d a'] eqn:Et.
    + rewrite (table_rows_blank a Et). cbn [app].
      assert (E : trim_left newline (a ++ b) = trim_left newline b) by (rewrite trim_left_app, Et; reflexivity).
      destruct (trim_left newline b) as [|x b'] eqn:Eb.
      * rewrite (table_rows_blank b Eb). apply table_rows_blank. exact E.
      * rewrite (table_rows_step _ _ _ E), (table_rows_step _ _ _ Eb). reflexivity.
    + assert (E : trim_left newline (a ++ b) = d :: (a' ++ b)) by (rewrite trim_left_app, Et; reflexivity).
      rewrite (table_rows_step _ _ _ E), (table_rows_step _ _ _ Et).
      destruct (trim_left_suffix newline a) as (x & Hx & Hfx). rewrite Et in Hx.
      assert (Hcut : exists y, d :: a' = y ++ [LF]).
      { destruct (exists_last (l := d :: a')) as (y & z & Ey); [discriminate|]. exists y. rewrite Ey. f_equal. f_equal.
        rewrite Ey in Hx. rewrite Hx in Ha. rewrite app_assoc in Ha. apply app_inj_tail in Ha. destruct Ha as [_ Ha]. exact Ha. }
      assert (Hst : endst false q (d :: a') = false).
      { rewrite Hx, endst_app in He. replace (endst false q x) with false in He; [exact He|].
        symmetry. clear -Hfx HqL HqC. rewrite endst_spec. 
        replace (count_occ N.eq_dec x q) with 0; [reflexivity|]. symmetry. apply count_occ_not_In.
        intros Hin. rewrite forallb_forall in Hfx. apply Hfx in Hin. unfold newline in Hin.
        apply orb_true_iff in Hin. destruct Hin as [Hin|Hin]; apply N.eqb_eq in Hin; congruence. }
      destruct (rr_cut (d :: a') b false Hcut Hst) as [R1 R2].
      change (d :: (a' ++ b)) with ((d :: a') ++ b). rewrite R1. cbn [fst snd app]. f_equal.
      apply IH; [|exact R2].
      pose proof (rr_rest_shorter (d :: a') ltac:(discriminate)) as Hr.
      pose proof (trim_left_length newline a) as Ht. rewrite Et in Ht. lia.
Qed.
End Loop.
