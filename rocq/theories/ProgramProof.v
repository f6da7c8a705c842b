(** Proofs about the program as a whole. *)
From Verif Require Import Base ChunkSpec NumSpec ReaderSpec ReaderModel TypesSpec TypesModel ErrorsSpec ErrorsModel StrictSpec StrictModel StrictProof CliSpec CliModel CliProof2 CliProof3 CliProof4 CliProof5
  ShowSpec ShowModel ShowProof MainSpec MainModel MainProof ProgramSpec ProgramModel.

Definition is_mode (i : item) : bool := match i with Strict | Permissive => true | _ => false end.

Lemma mode_given items : forall d, match last_given f_mode items d with
  | Some m => existsb is_mode items = true /\ m <> Disabled \/ existsb is_mode items = false /\ d = Some m
  | None => existsb is_mode items = false /\ d = None end.
Proof.
  unfold last_given. induction items as [|i items IH]; intros d; [cbn; destruct d; [right|]; split; reflexivity|].
  cbn [fold_left existsb]. specialize (IH (match f_mode i with Some x => x | None => d end)).
  destruct (fold_left _ items _) as [m|] eqn:E.
  - destruct IH as [(A & B)|(A & B)]; [left; rewrite A, orb_true_r; auto|]. rewrite A. destruct i; cbn [f_mode is_mode orb] in *; try (right; split; [reflexivity|exact B]);
      left; (split; [reflexivity|]); injection B as <-; discriminate.
  - destruct IH as (A & B). rewrite A. destruct i; cbn [f_mode is_mode orb] in *; try (split; [reflexivity|exact B]); discriminate B.
Qed.

Lemma mode_checking items :
  match last_given f_mode items None with Some m => m | None => if given f_has_max items then Collecting else Disabled end <> Disabled <-> checking items.
Proof.
  assert (M : existsb is_mode items = true -> checking items).
  { intros H. apply existsb_exists in H. destruct H as (i & Hi & H). exists i. split; [exact Hi|]. destruct i; try discriminate H; auto. }
  pose proof (mode_given items None) as L. destruct (last_given f_mode items None) as [m|].
  - destruct L as [(A & B)|(_ & B)]; [|discriminate B]. split; [intros _; exact (M A)|intros _; exact B].
  - destruct L as (A & _). unfold given. destruct (existsb f_has_max items) eqn:E.
    + split; [intros _|intros _; discriminate]. apply existsb_exists in E. destruct E as (i & Hi & H). exists i. split; [exact Hi|].
      destruct i; try discriminate H. right. right. eexists. reflexivity.
    + split; [congruence|]. intros (i & Hi & H). exfalso.
      assert (X : existsb is_mode items = true \/ existsb f_has_max items = true); [|destruct X; congruence].
      destruct H as [->|[->|(n & ->)]]; [left|left|right]; apply existsb_exists; eexists; (split; [exact Hi|reflexivity]).
Qed.

Lemma main_with_items v word items ws : In (v, word) viewers -> Forall2 written items ws -> length (filter is_columns items) <= 1 ->
  (v = Select -> exists c, In (Columns c) items) ->
  exists s, main (word :: concat ws) = View v s /\ csv_of s = options_of items /\ in_path s = path_of items /\ threads s = threads_given items /\
    N.to_nat (rows s) = rows_of items /\ columns s = columns_of items /\ (error_mode s <> Disabled <-> checking items) /\
    (v = Select -> columns s <> []).
Proof.
  intros Hv HW HC HS.
  destruct (options_spec items ws HW HC) as (s & P & A1 & A2 & A3 & A4 & A5 & _ & _ & _ & A9 & A10 & A11).
  exists s. rewrite (main_viewer v word _ Hv).
  assert (NE : v = Select -> columns s <> []).
  { intros Ev. rewrite A9. apply last_columns; [exact (HS Ev)|]. clear - HW. induction HW as [|i w items ws H _ IH]; [constructor|]. constructor; [|exact IH].
    destruct H; try exact I. assumption. }
  split.
  { unfold start_viewer. rewrite P. destruct v; try reflexivity. specialize (NE eq_refl). destruct (columns s); [congruence|reflexivity]. }
  split; [unfold csv_of; rewrite A3, A4, A5; reflexivity|]. split; [exact A10|]. split; [exact A2|]. split; [rewrite A1; reflexivity|]. split; [exact A9|].
  split; [|exact NE].
  rewrite A11. apply mode_checking.
Qed.

Lemma is_spec a s : is a s = true <-> a = s2b s.
Proof. apply is_iff. Qed.

Section Whole.
Context {F : Type}.
Variable ff : bytes -> option F.
Variable show_float : F -> bytes.
Variables (pad : bool) (lanes : nat) (clmul : bool) (hw : N) (ne : bool) (usage version : bytes).
Hypothesis L1 : 1 <= lanes.
Hypothesis L2 : Nat.divide lanes 64.

Lemma input_given w s c : (hd 0%N (in_path s) <> 45)%N -> comes_from w (in_path s) c ->
  (standard (in_path s) /\ input_of w s = Stdin c) \/ (~ standard (in_path s) /\ input_of w s = File (in_path s) (inr c)).
Proof.
  intros H0 H. unfold input_of, is_stdin.
  assert (N : is (in_path s) "-" = false). { apply not_true_iff_false. rewrite is_spec. intros E. rewrite E in H0. apply H0. reflexivity. }
  destruct H as [(H & E)|(H & E)].
  - left. split; [exact H|]. destruct H as [->| ->]; [|change (is (s2b "/dev/stdin") "-" || is (s2b "/dev/stdin") "/dev/stdin") with true]; cbn; rewrite E; reflexivity.
  - right. split; [exact H|]. rewrite N.
    assert (X : is (in_path s) "/dev/stdin" = false) by (apply not_true_iff_false; rewrite is_spec; intros Z; apply H; right; exact Z).
    rewrite X, E. destruct (in_path s) as [|x p]; [exfalso; apply H; left; reflexivity|reflexivity].
Qed.

Lemma viewer_shows w v word items ws c :
  In (v, word) viewers -> Forall2 written items ws -> length (filter is_columns items) <= 1 ->
  (v = Select -> exists c, In (Columns c) items) ->
  let o := options_of items in
  quote o <> LF -> quote o <> CR -> comes_from w (path_of items) c -> c <> [] ->
  exists names types t,
    TypesModel.read_file ff lanes clmul (threads_of hw items) ne o c = Some (names, types, t) /\
    (checking items /\ has_header o = true /\ header_is_empty names ->
       program ff show_float pad lanes clmul hw ne usage version w (word :: concat ws) = Done (Exit 1 [])) /\
    (~ (checking items /\ has_header o = true /\ header_is_empty names) ->
       exists r, program ff show_float pad lanes clmul hw ne usage version w (word :: concat ws) = Done r /\
         shows show_float pad v items c names types t r).
Proof.
  intros Hv HW HC HS o HqL HqC HF Hc.
  destruct (main_with_items v word items ws Hv HW HC HS) as (s & M & E1 & E2 & E3 & E4 & E5 & E6 & E7).
  assert (HP : (hd 0%N (in_path s) <> 45)%N).
  { rewrite E2. unfold path_of. clear - HW. induction HW as [|i x items ws H _ IH]; [discriminate|]. cbn [first_given]. destruct H; try exact IH. assumption. }
  rewrite <- E2 in HF. pose proof (input_given w s c HP HF) as HI.
  destruct (head_spec ff show_float pad lanes clmul (threads_of hw items) ne o L1 L2 HqL HqC (rows_of items) c Hc) as (names & types & t & R & LT & LN & HH).
  exists names, types, t. split; [exact R|].
  unfold program. rewrite M. unfold run_viewer, threads_used. rewrite E1, E3, E4, E5. fold (threads_of hw items).
  assert (CI : content_of (input_of w s) = c) by (destruct HI as [(_ & ->)|(_ & ->)]; reflexivity).
  assert (RF : refuses ff lanes clmul s (input_of w s) = true <-> checking items /\ has_header o = true /\ header_is_empty names).
  { unfold refuses. rewrite CI, E1. fold o. destruct c as [|x c']; [congruence|].
    assert (O : exists he, open_file ff lanes clmul o (x :: c') = Some (names, types, he)).
    { unfold TypesModel.read_file in R. destruct (open_file ff lanes clmul o (x :: c')) as [[[n1 t1] h1]|]; [|discriminate R].
      destruct (read_all _ _ _ _ _ _ _ _ _ _ _) in R; [|discriminate R]. injection R as -> -> _. eexists. reflexivity. }
    destruct O as (he & O). rewrite (open_checked_spec ff lanes clmul o (mode_of (error_mode s)) (N.to_nat (max_errors s)) _ _ _ _ O). cbn [snd].
    pose proof (stops_iff o (mode_of (error_mode s)) names) as ST.
    assert (MM : (mode_of (error_mode s) = FAIL_FAST \/ mode_of (error_mode s) = PERMISSIVE) <-> checking items).
    { rewrite <- E6. destruct (error_mode s); cbn; split; intros H; try discriminate; try tauto; try (destruct H; discriminate); auto. }
    destruct (stops o (mode_of (error_mode s)) names).
    - split; [intros _|reflexivity]. destruct ST as (ST & _). specialize (ST eq_refl). tauto.
    - split; [discriminate|]. intros (A & B & C). apply ST. tauto. }
  split.
  { intros H. rewrite (proj2 RF H). reflexivity. }
  intros H. destruct (refuses ff lanes clmul s (input_of w s)); [exfalso; apply H; apply RF; reflexivity|].
  assert (LD : forall e, load ff lanes clmul (threads_of hw items) ne o e (input_of w s) = Table names types t).
  { intros e. destruct HI as [(_ & ->)|(_ & ->)]; unfold load; (destruct c as [|x c']; [congruence|]); fold o; rewrite R; reflexivity. }
  assert (LD' : forall e, load ff lanes clmul (threads_of hw items) ne o e (Stdin c) = Table names types t).
  { intros e. unfold load. destruct c as [|x c']; [congruence|]. fold o. rewrite R. reflexivity. }
  fold o. eexists. split; [reflexivity|]. destruct v; cbn [shows].
  - unfold count. rewrite LD. eexists. split; [|reflexivity]. apply says_number.
  - unfold head in *. rewrite LD' in HH. rewrite LD. exact HH.
  - assert (LB : exists label, named (path_of items) label /\ source_text (input_of w s) = label).
    { destruct HI as [(S0 & ->)|(S0 & ->)]; eexists; (split; [|reflexivity]); rewrite <- E2; [left|right]; split; try assumption; reflexivity. }
    destruct LB as (label & LB1 & LB2).
    assert (NE : names <> []) by (destruct names; [cbn in LN; lia|congruence]).
    destruct (describing_lines label (Some (length c)) (separator o) (quote o) (total_rows t) (has_header o) names types LT NE) as (ls & D & T).
    exists label, ls. split; [exact LB1|]. split; [|exact D]. rewrite T. unfold info. rewrite LD, LB2, CI. do 3 f_equal.
    destruct HI as [(_ & ->)|(_ & ->)]; reflexivity.
  - assert (CN : columns_of items <> []) by (rewrite <- E5; apply E7; reflexivity).
    destruct (select_spec ff show_float pad lanes clmul (threads_of hw items) ne o L1 L2 HqL HqC (columns_of items) c Hc CN) as (n2 & t2 & r2 & R2 & _ & _ & SS).
    rewrite R in R2. injection R2 as <- <- <-. cbv zeta in SS. intros HB. specialize (SS HB).
    assert (SE : select ff show_float pad lanes clmul (threads_of hw items) ne o (columns_of items) (input_of w s) =
                 select ff show_float pad lanes clmul (threads_of hw items) ne o (columns_of items) (Stdin c)).
    { unfold select. rewrite LD, LD'. reflexivity. }
    rewrite SE. fold o. destruct (columns_named (has_header o) names (listed_columns (columns_of items))) as [[|k ks]|]; [| |]; try exact SS; tauto.
  - destruct (pretty_spec ff show_float pad lanes clmul (threads_of hw items) ne o L1 L2 HqL HqC (rows_of items) c Hc) as (n2 & t2 & r2 & R2 & _ & _ & PP & _).
    rewrite R in R2. injection R2 as <- <- <-.
    assert (SE : pretty ff show_float pad lanes clmul (threads_of hw items) ne o (rows_of items) (input_of w s) =
                 pretty ff show_float pad lanes clmul (threads_of hw items) ne o (rows_of items) (Stdin c)).
    { unfold pretty. rewrite LD, LD'. reflexivity. }
    rewrite SE. exact PP.
Qed.
End Whole.
