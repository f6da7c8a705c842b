From Verif Require Import Base ChunkedSpec ChunkedModel ChunkedProof.
From Verif Require Import StatsSpec StatsSpec3 StatsModel StatsProof StatsProof2 StatsProof3 StatsProof4 StatsProof5.

(** what a lane remembers *)
Definition keep (mem : list N) (x : N) : list N := if dbl_nan x then [] else mem ++ [x].
Definition memory (first : N) (c : list N) : list N := fold_left keep c [first].

Lemma memory_in : forall first c v, dbl_nan first = false ->
  (In v (memory first c) <-> exists before after, first :: c = before ++ v :: after /\ Forall (fun x => dbl_nan x = false) (v :: after)).
Proof.
  intros first c v Hf. unfold memory. induction c as [|x c IH] using rev_ind.
  - cbn [fold_left]. split.
    + intros [<-|[]]. exists [], []. split; [reflexivity|]. constructor; [assumption|constructor].
    + intros (b & a & E & H). destruct b as [|y b]; cbn [app] in E; [injection E as -> _; left; reflexivity|].
      exfalso. injection E as _ E. destruct b; discriminate E.
  - rewrite fold_left_app. cbn [fold_left]. unfold keep at 1. destruct (dbl_nan x) eqn:Ex.
    + split; [intros []|]. intros (b & a & E & H). exfalso.
      destruct (@exists_last _ (v :: a)) as (a' & y & Ea); [discriminate|]. rewrite Ea in E, H.
      rewrite app_assoc in E. change (first :: c ++ [x]) with ((first :: c) ++ [x]) in E. apply app_inj_tail in E. destruct E as (_ & <-).
      apply Forall_app in H. destruct H as (_ & H). inversion H as [|? ? Hx _]. congruence.
    + rewrite in_app_iff, IH. split.
      * intros [(b & a & E & H)|[<-|[]]].
        -- exists b, (a ++ [x]). split; [change (first :: c ++ [x]) with ((first :: c) ++ [x]); rewrite E, <- app_assoc; reflexivity|].
           change (v :: a ++ [x]) with ((v :: a) ++ [x]). apply Forall_app. split; [assumption|constructor; [assumption|constructor]].
        -- exists (first :: c), []. split; [reflexivity|constructor; [assumption|constructor]].
      * intros (b & a & E & H). destruct a as [|y a] using rev_ind.
        -- change (first :: c ++ [x]) with ((first :: c) ++ [x]) in E. apply app_inj_tail in E. destruct E as (_ & <-). right. left. reflexivity.
        -- left. change (first :: c ++ [x]) with ((first :: c) ++ [x]) in E.
           replace (b ++ v :: a ++ [y]) with ((b ++ v :: a) ++ [y]) in E by (rewrite <- app_assoc; reflexivity).
           apply app_inj_tail in E. destruct E as (E & _). exists b, a. split; [exact E|].
           change (v :: a ++ [y]) with ((v :: a) ++ [y]) in H. apply Forall_app in H. apply H.
Qed.
Lemma memory_numbers : forall first c, dbl_nan first = false -> Forall number (memory first c).
Proof. intros first c Hf. apply Forall_forall. intros v Hv. apply memory_in in Hv; [|assumption]. destruct Hv as (_ & a & _ & H). inversion H; assumption. Qed.

Definition lane_ok (lt : N -> N -> bool) (mem : list N) (m : N) : Prop :=
  (mem = [] -> dbl_nan m = true) /\ (mem <> [] -> is_least lt mem m).
Lemma fold_lane : forall lt f, order lt number -> right_op lt number f ->
  (forall a b, dbl_nan a || dbl_nan b = true -> f a b = b) ->
  forall c mem m, Forall number mem -> lane_ok lt mem m -> lane_ok lt (fold_left keep c mem) (fold_left f c m).
Proof.
  intros lt f O Rf Nf. induction c as [|x c IH]; intros mem m Hm L; cbn [fold_left]; [exact L|].
  destruct L as (L0 & L1). unfold keep at 2. destruct (dbl_nan x) eqn:Ex.
  - apply IH; [constructor|]. rewrite Nf by (rewrite Ex; apply orb_true_r). split; [intros _; exact Ex|intros H; contradiction].
  - assert (Fx : Forall number [x]) by (constructor; [exact Ex|constructor]).
    apply IH; [apply Forall_app; auto|]. destruct mem as [|y mem].
    + rewrite Nf by (rewrite (L0 eq_refl); reflexivity). split; [discriminate|]. intros _. apply (least_single _ _ O). exact Ex.
    + split; [discriminate|]. intros _. apply (fold_right_op _ lt number f [x] (y :: mem) m O Rf Hm Fx). apply L1. discriminate.
Qed.

Lemma column_short : forall lanes l data, length data < lanes -> column lanes l data = [].
Proof. intros lanes l data H. unfold column. rewrite Nat.div_small by assumption. reflexivity. Qed.
Lemma div_less : forall lanes n, 0 < lanes -> lanes <= n -> n / lanes = S ((n - lanes) / lanes).
Proof. intros lanes n H1 H2. replace n with ((n - lanes) + 1 * lanes) at 1 by lia. rewrite Nat.div_add by lia. lia. Qed.
Lemma column_step : forall lanes l data, 0 < lanes -> lanes <= length data ->
  column lanes l data = nth l data 0%N :: column lanes l (skipn lanes data).
Proof.
  intros lanes l data H1 H2. unfold column. rewrite (div_less lanes (length data)) by assumption. rewrite skipn_length.
  cbn [seq map]. f_equal. rewrite <- seq_shift, map_map. apply map_ext. intros k.
  rewrite <- (firstn_skipn lanes data) at 1. rewrite app_nth2; rewrite firstn_length, Nat.min_l by lia; [f_equal; lia|lia].
Qed.
Lemma nth_lanewise : forall (f : N -> N -> N) a b l, length a = length b -> l < length a ->
  nth l (lanewise f a b) 0%N = f (nth l a 0%N) (nth l b 0%N).
Proof.
  induction a as [|x a IH]; intros [|y b] l E H; cbn [length lanewise] in *; try lia; try discriminate E.
  destruct l; cbn [nth]; [reflexivity|]. apply IH; lia.
Qed.
Lemma loop_columns : forall lanes fmin fmax, 0 < lanes -> forall fuel vmin vmax data,
  length data <= fuel -> length vmin = lanes -> length vmax = lanes ->
  exists vmin' vmax', vector_loop fuel lanes fmin fmax vmin vmax data = (vmin', vmax', left_over lanes data) /\
    length vmin' = lanes /\ length vmax' = lanes /\
    forall l, l < lanes -> nth l vmin' 0%N = fold_left fmin (column lanes l data) (nth l vmin 0%N) /\
                           nth l vmax' 0%N = fold_left fmax (column lanes l data) (nth l vmax 0%N).
Proof.
  intros lanes fmin fmax Hl. induction fuel as [|fuel IH]; intros vmin vmax data Hf L1 L2.
  - destruct data; [|cbn in Hf; lia]. exists vmin, vmax. cbn [vector_loop]. split; [unfold left_over; rewrite skipn_nil; reflexivity|].
    split; [assumption|]. split; [assumption|]. intros l H. rewrite column_short by (cbn; lia). auto.
  - cbn [vector_loop]. destruct (Nat.leb_spec lanes (length data)) as [Hle|Hgt].
    + assert (Lf : length (firstn lanes data) = lanes) by (rewrite firstn_length; lia).
      destruct (IH (lanewise fmin vmin (firstn lanes data)) (lanewise fmax vmax (firstn lanes data)) (skipn lanes data)) as (vm & vx & E & M1 & M2 & M);
        [rewrite skipn_length; lia|rewrite lanewise_length; lia|rewrite lanewise_length; lia|].
      exists vm, vx. split; [rewrite E; f_equal; unfold left_over; rewrite (div_less lanes (length data)), skipn_length by assumption|].
      { set (d := (length data - lanes) / lanes). clearbody d. replace (lanes * S d) with (lanes + lanes * d) by nia.
        generalize (lanes * d). clear - Hle. intros n. revert data Hle. induction lanes as [|k IHk]; intros data H; [reflexivity|].
        destruct data as [|x data]; [cbn in H; lia|]. cbn [skipn Nat.add]. apply IHk. cbn in H. lia. }
      split; [assumption|]. split; [assumption|]. intros l H. destruct (M l H) as (A & B). rewrite column_step by assumption. cbn [fold_left].
      assert (Nf : nth l (firstn lanes data) 0%N = nth l data 0%N).
      { rewrite <- (firstn_skipn lanes data) at 2. rewrite app_nth1 by lia. reflexivity. }
      rewrite A, B, !nth_lanewise, Nf by lia. auto.
    + exists vmin, vmax. split; [unfold left_over; rewrite Nat.div_small by assumption; rewrite Nat.mul_0_r; reflexivity|].
      split; [assumption|]. split; [assumption|]. intros l H. rewrite column_short by assumption. auto.
Qed.

Lemma memory_nonempty : forall first c, dbl_nan (last c 0%N) = false -> memory first c <> [].
Proof.
  intros first c H. unfold memory. destruct c as [|x c] using rev_ind; [discriminate|]. rewrite last_last in H.
  rewrite fold_left_app. cbn [fold_left]. unfold keep at 1. rewrite H. intros E. apply app_eq_nil in E. destruct E as (_ & E). discriminate E.
Qed.

(** least of all lanes from the least of each *)
Definition memories (lanes : nat) (first : N) (later : list N) : list N :=
  flat_map (fun l => memory first (column lanes l later)) (seq 0 lanes).
Lemma memories_in : forall lanes first later v, dbl_nan first = false ->
  (In v (memories lanes first later ++ numbers (left_over lanes later)) <-> remembered lanes first later v).
Proof.
  intros lanes first later v Hf. rewrite in_app_iff. unfold memories, numbers. rewrite in_flat_map, filter_In. unfold remembered. split.
  - intros [(l & Hl & Hv)|(A & B)]; [left|right].
    + apply in_seq in Hl. apply memory_in in Hv; [|assumption]. destruct Hv as (b & a & E & H). exists l, b, a. split; [lia|auto].
    + split; [assumption|]. destruct (dbl_nan v); [discriminate B|reflexivity].
  - intros [(l & b & a & Hl & E & H)|(A & B)]; [left|right].
    + exists l. split; [apply in_seq; lia|]. apply memory_in; [assumption|]. exists b, a. auto.
    + rewrite B. auto.
Qed.
Lemma lanes_least : forall lt lanes first later v, order lt number -> dbl_nan first = false -> 0 < lanes -> length v = lanes ->
  (forall l, l < lanes -> is_least lt (memory first (column lanes l later)) (nth l v 0%N)) ->
  forall m, is_least lt v m -> is_least lt (memories lanes first later) m.
Proof.
  intros lt lanes first later v O Hf H0 L H m (Mi & Ml).
  assert (NV : Forall number v).
  { apply Forall_forall. intros x Hx. destruct (In_nth _ _ 0%N Hx) as (l & Hl & <-). rewrite L in Hl. destruct (H l Hl) as (Hi & _).
    exact (proj1 (Forall_forall _ _) (memory_numbers first _ Hf) _ Hi). }
  split.
  - destruct (In_nth _ _ 0%N Mi) as (l & Hl & <-). rewrite L in Hl. apply in_flat_map. exists l. split; [apply in_seq; lia|]. apply H. assumption.
  - intros x Hx. apply in_flat_map in Hx. destruct Hx as (l & Hl & Hx). apply in_seq in Hl. destruct (H l) as (Hi & Hle); [lia|].
    assert (In (nth l v 0%N) v) by (apply nth_In; lia).
    rewrite Forall_forall in NV. apply (o_neg O x (nth l v 0%N) m); auto.
    exact (proj1 (Forall_forall _ _) (memory_numbers first _ Hf) _ Hx).
Qed.

Theorem minmax_takes_second : forall hw nans first later, right_on_numbers hw -> takes_second hw ->
  Forall (fun v => dbl_nan v = true) nans -> dbl_nan first = false -> last_vector_numbers (hw_lanes hw) later ->
  let r := compute_minmax_float64 hw (nans ++ first :: later) in
  let l := memories (hw_lanes hw) first later ++ numbers (left_over (hw_lanes hw) later) in
  is_least dbl_lt l (fst r) /\ is_least gt l (snd r).
Proof.
  intros hw nans first later (Hn & Hop & Hred) T Hnan Hf Hlast. cbv zeta. unfold compute_minmax_float64.
  assert (Ed : drop_nans (nans ++ first :: later) = first :: later).
  { clear - Hnan Hf. induction Hnan as [|x r Hx _ IH]; cbn [app drop_nans]; [rewrite Hf; reflexivity|rewrite Hx; exact IH]. }
  rewrite Ed.
  assert (R1 : right_op dbl_lt number (hw_min hw)). { intros a b Ha Hb. apply Hop; assumption. }
  assert (R2 : right_op gt number (hw_max hw)). { intros a b Ha Hb. apply Hop; assumption. }
  destruct (loop_columns (hw_lanes hw) (hw_min hw) (hw_max hw) Hn (length later) (repeat first (hw_lanes hw)) (repeat first (hw_lanes hw)) later
              (le_n _) (repeat_length _ _) (repeat_length _ _)) as (vmin & vmax & E & L1 & L2 & Hl).
  rewrite E.
  assert (NR : forall l, l < hw_lanes hw -> nth l (repeat first (hw_lanes hw)) 0%N = first).
  { intros l H. apply (repeat_spec (hw_lanes hw) first). apply nth_In. rewrite repeat_length. assumption. }
  assert (F0 : Forall number [first]) by (constructor; [exact Hf|constructor]).
  assert (K1 : forall l, l < hw_lanes hw -> is_least dbl_lt (memory first (column (hw_lanes hw) l later)) (nth l vmin 0%N)).
  { intros l H. rewrite (proj1 (Hl l H)), NR by assumption.
    apply (fold_lane dbl_lt (hw_min hw) dbl_order R1 (fun a b Q => proj1 (T a b Q)) (column (hw_lanes hw) l later) [first] first F0).
    - split; [discriminate|]. intros _. apply (least_single _ _ dbl_order). exact Hf.
    - apply memory_nonempty, Hlast, H. }
  assert (K2 : forall l, l < hw_lanes hw -> is_least gt (memory first (column (hw_lanes hw) l later)) (nth l vmax 0%N)).
  { intros l H. rewrite (proj2 (Hl l H)), NR by assumption.
    apply (fold_lane gt (hw_max hw) gt_order R2 (fun a b Q => proj2 (T a b Q)) (column (hw_lanes hw) l later) [first] first F0).
    - split; [discriminate|]. intros _. apply (least_single _ _ gt_order). exact Hf.
    - apply memory_nonempty, Hlast, H. }
  assert (FM : Forall number (memories (hw_lanes hw) first later)).
  { apply Forall_forall. intros x Hx. apply in_flat_map in Hx. destruct Hx as (l & _ & Hx). exact (proj1 (Forall_forall _ _) (memory_numbers first _ Hf) _ Hx). }
  assert (FV : forall v, length v = hw_lanes hw -> (forall l, l < hw_lanes hw -> In (nth l v 0%N) (memory first (column (hw_lanes hw) l later))) -> Forall number v).
  { intros v L H. apply Forall_forall. intros x Hx. destruct (In_nth _ _ 0%N Hx) as (l & Hl' & <-). rewrite L in Hl'.
    exact (proj1 (Forall_forall _ _) (memory_numbers first _ Hf) _ (H l Hl')). }
  assert (N1 : vmin <> []) by (destruct vmin; cbn in *; [lia|discriminate]).
  assert (N2 : vmax <> []) by (destruct vmax; cbn in *; [lia|discriminate]).
  pose proof (lanes_least _ _ first later vmin dbl_order Hf Hn L1 K1 _ (proj1 (Hred vmin N1 (FV vmin L1 (fun l H => proj1 (K1 l H)))))) as M1.
  pose proof (lanes_least _ _ first later vmax gt_order Hf Hn L2 K2 _ (proj2 (Hred vmax N2 (FV vmax L2 (fun l H => proj1 (K2 l H)))))) as M2.
  destruct (scalar_numbers (left_over (hw_lanes hw) later) _ _ _ FM M1 M2) as (S1 & S2).
  assert (FA : Forall number (memories (hw_lanes hw) first later ++ numbers (left_over (hw_lanes hw) later))).
  { apply Forall_app. split; [exact FM|apply numbers_all]. }
  assert (Q1 := least_ok _ number _ _ FA S1). assert (Q2 := least_ok _ number _ _ FA S2).
  unfold number in Q1, Q2. rewrite Q1, Q2. cbn [orb]. split; assumption.
Qed.

Lemma remembered_number : forall lanes first later v, 0 < lanes -> remembered lanes first later v ->
  In v (first :: later) /\ dbl_nan v = false.
Proof.
  intros lanes first later v H0 [(l & b & a & Hl & E & H)|(A & B)].
  - split; [|inversion H; assumption].
    assert (Hi : In v (first :: column lanes l later)) by (rewrite E; apply in_elt).
    destruct Hi as [<-|Hi]; [left; reflexivity|right]. unfold column in Hi. apply in_map_iff in Hi. destruct Hi as (k & <- & Hk).
    apply in_seq in Hk. apply nth_In. assert (lanes * (length later / lanes) <= length later) by (apply Nat.mul_div_le; lia). nia.
  - split; [|assumption]. right. unfold left_over in A. rewrite <- (firstn_skipn (lanes * (length later / lanes)) later). apply in_or_app. right. exact A.
Qed.
Theorem takes_second_exact : forall hw nans first later, right_on_numbers hw -> takes_second hw ->
  Forall (fun v => dbl_nan v = true) nans -> dbl_nan first = false -> last_vector_numbers (hw_lanes hw) later ->
  let '(lo, hi) := compute_minmax_float64 hw (nans ++ first :: later) in
  (remembered (hw_lanes hw) first later lo /\ forall v, remembered (hw_lanes hw) first later v -> dbl_lt v lo = false) /\
  (remembered (hw_lanes hw) first later hi /\ forall v, remembered (hw_lanes hw) first later v -> dbl_lt hi v = false).
Proof.
  intros hw nans first later R T Hn Hf Hl. assert (H := minmax_takes_second hw nans first later R T Hn Hf Hl). cbv zeta in H.
  destruct (compute_minmax_float64 hw (nans ++ first :: later)) as (lo, hi). cbn [fst snd] in H. destruct H as ((A & B) & (C & D)).
  split; (split; [apply memories_in; assumption|]); intros v Hv; apply memories_in in Hv; auto. exact (D v Hv).
Qed.
Lemma numbers_of : forall nans first later, Forall (fun v => dbl_nan v = true) nans -> dbl_nan first = false ->
  forall v, In v (numbers (nans ++ first :: later)) <-> In v (first :: later) /\ dbl_nan v = false.
Proof.
  intros nans first later Hn Hf v. unfold numbers. rewrite filter_In, in_app_iff. split.
  - intros ([H|H] & E); destruct (dbl_nan v) eqn:Q; try discriminate E; [|auto]. rewrite Forall_forall in Hn. specialize (Hn v H). cbv beta in Hn. congruence.
  - intros (H & ->). auto.
Qed.
(** right exactly when a least (greatest) number is remembered *)
Theorem takes_second_right : forall hw nans first later, right_on_numbers hw -> takes_second hw ->
  Forall (fun v => dbl_nan v = true) nans -> dbl_nan first = false -> last_vector_numbers (hw_lanes hw) later ->
  let data := nans ++ first :: later in
  let '(lo, hi) := compute_minmax_float64 hw data in
  (is_least dbl_lt (numbers data) lo <-> exists v, remembered (hw_lanes hw) first later v /\ is_least dbl_lt (numbers data) v) /\
  (is_greatest dbl_lt (numbers data) hi <-> exists v, remembered (hw_lanes hw) first later v /\ is_greatest dbl_lt (numbers data) v).
Proof.
  intros hw nans first later R T Hn Hf Hl. cbv zeta. assert (H := takes_second_exact hw nans first later R T Hn Hf Hl).
  destruct (compute_minmax_float64 hw (nans ++ first :: later)) as (lo, hi). destruct H as ((A & B) & (C & D)).
  assert (Hp : 0 < hw_lanes hw) by apply R.
  assert (NN : forall v, In v (numbers (nans ++ first :: later)) -> dbl_nan v = false) by (intros v Hv; apply (numbers_of nans first later Hn Hf v); exact Hv).
  assert (RI : forall v, remembered (hw_lanes hw) first later v -> In v (numbers (nans ++ first :: later))).
  { intros v Hv. apply numbers_of; auto. apply (remembered_number _ _ _ _ Hp Hv). }
  split; split.
  - intros H. exists lo. auto.
  - intros (v & Hv & Hi & Hm). split; [apply RI; exact A|]. intros x Hx. apply (o_neg dbl_order x v lo); try (apply NN; auto).
    + apply Hm, Hx.
    + apply B, Hv.
  - intros H. exists hi. auto.
  - intros (v & Hv & Hi & Hm). split; [apply RI; exact C|]. intros x Hx. apply (o_neg gt_order x v hi); try (apply NN; auto).
    + apply Hm, Hx.
    + apply D, Hv.
Qed.
Lemma x86_takes_second : forall lanes, takes_second (x86 lanes).
Proof.
  intros lanes a b H. cbn [x86 hw_min hw_max]. unfold x86_min, x86_max, dbl_lt.
  destruct (dbl_nan a), (dbl_nan b); try discriminate H; cbn [negb andb]; auto.
Qed.
