(** Proofs about the lifetime of exported tables. *)
From Coq Require Import Permutation.
From Verif Require Import Base PyLifeSpec PyLifeModel.

Section Lists.
Context {B : Type}.
Lemma nth_split_at (l : list B) h y : nth_error l h = Some y -> l = firstn h l ++ y :: skipn (S h) l.
Proof.
  revert h. induction l as [|x l IH]; intros [|h] H; try discriminate.
  - injection H as ->. reflexivity.
  - cbn [nth_error] in H. cbn [firstn skipn app]. f_equal. apply IH. exact H.
Qed.
Lemma put_length (l : list B) h x : h < length l -> length (put l h x) = length l.
Proof. intros H. unfold put. rewrite app_length, firstn_length. cbn [length]. rewrite skipn_length. lia. Qed.
Lemma nth_put_same (l : list B) h x : h < length l -> nth_error (put l h x) h = Some x.
Proof. intros H. unfold put. rewrite nth_error_app2; rewrite firstn_length; [|lia]. replace (h - Nat.min h (length l)) with 0 by lia. reflexivity. Qed.
Lemma nth_put_other (l : list B) h x j : h < length l -> j <> h -> nth_error (put l h x) j = nth_error l j.
Proof.
  revert h j. induction l as [|y l IH]; intros h j H D; [cbn in H; lia|].
  destruct h as [|h]; destruct j as [|j]; try reflexivity; [congruence|].
  change (put (y :: l) (S h) x) with (y :: put l h x). cbn [nth_error]. apply IH; [cbn in H; lia|congruence].
Qed.
Lemma nth_lt (l : list B) h y : nth_error l h = Some y -> h < length l.
Proof. intros H. apply nth_error_Some. congruence. Qed.
Lemma nth_snoc (l : list B) x : nth_error (l ++ [x]) (length l) = Some x.
Proof. rewrite nth_error_app2, Nat.sub_diag by lia. reflexivity. Qed.
Lemma nth_snoc_inv (l : list B) x j y : nth_error (l ++ [x]) j = Some y -> nth_error l j = Some y \/ (j = length l /\ y = x).
Proof.
  intros H. destruct (Nat.lt_ge_cases j (length l)) as [L|L]; [left; rewrite nth_error_app1 in H by exact L; exact H|].
  right. rewrite nth_error_app2 in H by lia. destruct (j - length l) as [|k] eqn:E.
  - injection H as <-. split; [lia|reflexivity].
  - destruct k; discriminate.
Qed.
Lemma nth_put_inv (l : list B) h x j y : h < length l -> nth_error (put l h x) j = Some y -> (j = h /\ y = x) \/ (j <> h /\ nth_error l j = Some y).
Proof.
  intros L H. destruct (Nat.eq_dec j h) as [->|D].
  - left. rewrite nth_put_same in H by exact L. injection H as <-. auto.
  - right. rewrite nth_put_other in H by assumption. auto.
Qed.
End Lists.

Lemma concat_put {B} (gs : list (list B)) h g : nth_error gs h = Some g -> exists rest,
  Permutation (concat gs) (g ++ rest) /\ (forall g', Permutation (concat (put gs h g')) (g' ++ rest)) /\
  (forall j gj, j <> h -> nth_error gs j = Some gj -> incl gj rest).
Proof.
  intros H. exists (concat (firstn h gs) ++ concat (skipn (S h) gs)). pose proof (nth_split_at _ _ _ H) as E. split; [|split].
  - rewrite E at 1. rewrite concat_app. cbn [concat]. apply Permutation_app_swap_app.
  - intros g'. unfold put. rewrite concat_app. cbn [concat]. apply Permutation_app_swap_app.
  - intros j gj D Hj x Hx. rewrite E in Hj. destruct (Nat.lt_ge_cases j h) as [L|L].
    + rewrite nth_error_app1 in Hj by (rewrite firstn_length; pose proof (nth_lt _ _ _ H); lia).
      apply in_or_app. left. apply in_concat. exists gj. split; [eapply nth_error_In; exact Hj|exact Hx].
    + rewrite nth_error_app2 in Hj by (rewrite firstn_length; lia). rewrite firstn_length in Hj. pose proof (nth_lt _ _ _ H) as HL.
      replace (j - Nat.min h (length gs)) with (S (j - h - 1)) in Hj by lia. cbn [nth_error] in Hj.
      apply in_or_app. right. apply in_concat. exists gj. split; [eapply nth_error_In; exact Hj|exact Hx].
Qed.

Section Life.
Context {A : Type}.
Notation column := (list A).
Notation memory := (memory A).
Notation world := (world A).

(** ** The live private objects *)
Definition tracks (ps : list (option private)) (l : list nat) : Prop :=
  NoDup l /\ forall p, In p l <-> exists x, nth_error ps p = Some (Some x).

Lemma tracks_perm ps l l' : Permutation l l' -> tracks ps l -> tracks ps l'.
Proof.
  intros P (N & H). split; [eapply Permutation_NoDup; eassumption|]. intros p. rewrite <- H.
  split; intros I; [eapply Permutation_in; [apply Permutation_sym; exact P|exact I]|eapply Permutation_in; [exact P|exact I]].
Qed.
Lemma tracks_delete ps p l : tracks ps (p :: l) -> tracks (put ps p None) l.
Proof.
  intros (N & H). inversion N as [|? ? N1 N2]; subst. destruct (proj1 (H p)) as (x & Hp); [left; reflexivity|]. pose proof (nth_lt _ _ _ Hp) as L.
  split; [exact N2|]. intros q. destruct (Nat.eq_dec q p) as [->|D].
  - rewrite nth_put_same by exact L. split; [intros I; contradiction|]. intros (y & E). discriminate.
  - rewrite nth_put_other by assumption. rewrite <- H. cbn [In]. split; [auto|]. intros [E|I]; [congruence|exact I].
Qed.
Lemma tracks_set ps p x l : In p l -> tracks ps l -> tracks (put ps p (Some x)) l.
Proof.
  intros I (N & H). destruct (proj1 (H p) I) as (y & Hp). pose proof (nth_lt _ _ _ Hp) as L. split; [exact N|]. intros q.
  destruct (Nat.eq_dec q p) as [->|D].
  - rewrite nth_put_same by exact L. split; [eauto|auto].
  - rewrite nth_put_other by assumption. apply H.
Qed.
Lemma tracks_new ps l xs : tracks ps l -> tracks (ps ++ map Some xs) (seq (length ps) (length xs) ++ l).
Proof.
  intros (N & H). assert (B : forall p, In p l -> p < length ps).
  { intros p I. apply H in I as (x & E). eapply nth_lt; exact E. }
  split.
  - assert (G : forall a b : list nat, NoDup a -> NoDup b -> (forall x, In x a -> ~ In x b) -> NoDup (a ++ b)).
    { clear. induction a as [|x a IH]; intros b Ha Hb D; [exact Hb|]. inversion Ha; subst. cbn [app]. constructor.
      - rewrite in_app_iff. intros [I|I]; [contradiction|]. apply (D x); [left; reflexivity|exact I].
      - apply IH; [assumption|assumption|]. intros y I. apply D. right. exact I. }
    apply G; [apply seq_NoDup|exact N|]. intros x I J. apply in_seq in I. apply B in J. lia.
  - intros p. rewrite in_app_iff, in_seq. destruct (Nat.lt_ge_cases p (length ps)) as [L|L].
    + rewrite nth_error_app1 by exact L. rewrite <- H. split; [intros [C|C]; [lia|exact C]|auto].
    + rewrite nth_error_app2 by exact L. split.
      * intros [C|C]; [|apply B in C; lia]. destruct (nth_error xs (p - length ps)) as [x|] eqn:E.
        -- exists x. apply map_nth_error. exact E.
        -- apply nth_error_None in E. lia.
      * intros (x & E). left. apply nth_lt in E. rewrite map_length in E. lia.
Qed.

(** ** Structures and what they stand for *)
Definition stands (ps : list (option private)) (hd : handle) (s : structure) (g : list nat) : Prop :=
  match hd with
  | HGone => s_release s = false /\ g = []
  | HStream t d => s_release s = true /\ g = [s_private s] /\ nth_error ps (s_private s) = Some (Some (PStream t d))
  | HColumn t k => s_release s = true /\ g = [s_private s] /\ nth_error ps (s_private s) = Some (Some (PColumn t k))
  | HArray t att => s_release s = true /\ exists kids, nth_error ps (s_private s) = Some (Some (PArray t kids)) /\
      g = s_private s :: map s_private (filter s_release kids) /\ map s_release kids = att /\
      forall i k, nth_error kids i = Some k -> s_release k = true -> nth_error ps (s_private k) = Some (Some (PColumn t i))
  end.

Lemma stands_keep ps ps' hd s g : stands ps hd s g -> (forall p, In p g -> nth_error ps' p = nth_error ps p) -> stands ps' hd s g.
Proof.
  destruct hd as [t d|t att|t k|]; cbn [stands]; intros H K; try exact H.
  - destruct H as (H1 & -> & H3). rewrite K by (left; reflexivity). auto.
  - destruct H as (H1 & kids & H2 & -> & H4 & H5). split; [exact H1|]. exists kids. rewrite K by (left; reflexivity).
    split; [exact H2|]. split; [reflexivity|]. split; [exact H4|]. intros i k Hk Hr. rewrite K; [exact (H5 i k Hk Hr)|].
    right. apply in_map. apply filter_In. split; [eapply nth_error_In; exact Hk|exact Hr].
  - destruct H as (H1 & -> & H3). rewrite K by (left; reflexivity). auto.
Qed.

Definition table_ok (n : nat) (hd : handle) : Prop :=
  match hd with HStream t _ | HArray t _ | HColumn t _ => t < n | HGone => True end.

(** ** Reference counts *)
Definition users (t : nat) (l : list handle) : nat := length (filter (uses t) l).
Definition count (w : world) (t : nat) : nat :=
  match nth_error (w_tables w) t with Some (_, true) => 1 | _ => 0 end + users t (w_handles w).
Definition counted (wt : list (list column * bool)) (mt : list (nat * option (list column))) (N : nat -> nat) : Prop :=
  length mt = length wt /\
  forall t cols held, nth_error wt t = Some (cols, held) -> nth_error mt t = Some (N t, if N t =? 0 then None else Some cols).

Lemma counted_ext wt mt N N' : (forall t, t < length wt -> N t = N' t) -> counted wt mt N -> counted wt mt N'.
Proof. intros H (L & C). split; [exact L|]. intros t cols held E. rewrite <- H by (eapply nth_lt; exact E). eapply C, E. Qed.

Lemma ref_ok wt (m : memory) N t : counted wt (m_tables m) N -> t < length wt -> N t <> 0 ->
  exists mt, ref m t = Some (mkMemory mt (m_privates m) (m_structs m)) /\ counted wt mt (fun j => if j =? t then S (N j) else N j).
Proof.
  intros (L & C) Ht Hn. destruct (nth_error wt t) as [(cols, held)|] eqn:E; [|apply nth_error_None in E; lia].
  unfold ref. rewrite (C t cols held E). rewrite (proj2 (Nat.eqb_neq _ _) Hn). eexists. split; [reflexivity|]. split; [rewrite put_length by lia; exact L|].
  intros j cols' held' E'. destruct (Nat.eqb_spec j t) as [->|D].
  - rewrite nth_put_same by lia. rewrite E in E'. injection E' as <- <-. reflexivity.
  - rewrite nth_put_other by (lia || exact D). exact (C j cols' held' E').
Qed.

Lemma unref_ok wt (m : memory) N t : counted wt (m_tables m) N -> t < length wt -> N t <> 0 ->
  exists mt, unref m t = Some (mkMemory mt (m_privates m) (m_structs m)) /\ counted wt mt (fun j => if j =? t then N j - 1 else N j).
Proof.
  intros (L & C) Ht Hn. destruct (nth_error wt t) as [(cols, held)|] eqn:E; [|apply nth_error_None in E; lia].
  unfold unref. rewrite (C t cols held E). rewrite (proj2 (Nat.eqb_neq _ _) Hn). destruct (N t) as [|n] eqn:EN; [congruence|].
  eexists. split; [reflexivity|]. split; [rewrite put_length by lia; exact L|].
  intros j cols' held' E'. destruct (Nat.eqb_spec j t) as [->|D].
  - rewrite nth_put_same by lia. rewrite E in E'. injection E' as <- <-. rewrite EN. cbn [Nat.sub]. rewrite Nat.sub_0_r. reflexivity.
  - rewrite nth_put_other by (lia || exact D). exact (C j cols' held' E').
Qed.

Lemma users_app t l l' : users t (l ++ l') = users t l + users t l'.
Proof. unfold users. rewrite filter_app, app_length. reflexivity. Qed.
Lemma users_put t l h x y : nth_error l h = Some y -> users t (put l h x) + (if uses t y then 1 else 0) = users t l + (if uses t x then 1 else 0).
Proof.
  intros H. pose proof (nth_split_at _ _ _ H) as E. set (a := firstn h l) in *. set (b := skipn (S h) l) in *.
  assert (G : forall z, users t (a ++ z :: b) = users t a + (if uses t z then 1 else 0) + users t b).
  { intros z. rewrite users_app. unfold users at 2. cbn [filter]. destruct (uses t z); cbn [length]; fold (users t b); unfold users; lia. }
  unfold put. fold a b. rewrite E at 1. rewrite !G. lia.
Qed.
Lemma users_one t x : users t [x] = if uses t x then 1 else 0.
Proof. unfold users. cbn [filter]. destruct (uses t x); reflexivity. Qed.
Lemma users_pos t l : existsb (uses t) l = true <-> users t l <> 0.
Proof.
  unfold users. induction l as [|x l IH]; cbn [existsb filter]; [split; [discriminate|intros H; destruct H; reflexivity]|].
  destruct (uses t x); cbn [orb length]; [split; [discriminate|reflexivity]|exact IH].
Qed.
Lemma kept_count w t : kept w t <-> count w t <> 0.
Proof.
  unfold kept, count. rewrite users_pos. split.
  - intros [(cols & ->)|H]; [discriminate|]. destruct (match nth_error (w_tables w) t with Some (_, true) => 1 | _ => 0 end); lia.
  - intros H. destruct (nth_error (w_tables w) t) as [(cols, [|])|]; [left; eauto|right; exact H|right; exact H].
Qed.

(** ** The invariant *)
Definition Inv (w : world) (m : memory) : Prop :=
  length (m_structs m) = length (w_handles w) /\
  counted (w_tables w) (m_tables m) (count w) /\
  Forall (table_ok (length (w_tables w))) (w_handles w) /\
  exists gs, length gs = length (w_handles w) /\ tracks (m_privates m) (concat gs) /\
    forall h hd s g, nth_error (w_handles w) h = Some hd -> nth_error (m_structs m) h = Some s -> nth_error gs h = Some g ->
      stands (m_privates m) hd s g.

Lemma inv_start : Inv start nothing.
Proof.
  split; [reflexivity|]. split; [split; [reflexivity|intros [|] ? ? E; discriminate]|]. split; [constructor|]. exists []. split; [reflexivity|]. split.
  - split; [constructor|]. intros p. cbn [concat In nothing m_privates]. split; [intros []|]. intros (x & E). destruct p; discriminate.
  - intros [|] ? ? ? E; discriminate.
Qed.

Lemma at_handle w m h hd : Inv w m -> nth_error (w_handles w) h = Some hd ->
  exists s gs g rest, nth_error (m_structs m) h = Some s /\ length gs = length (w_handles w) /\ nth_error gs h = Some g /\ stands (m_privates m) hd s g /\
    tracks (m_privates m) (g ++ rest) /\ (forall g', Permutation (concat (put gs h g')) (g' ++ rest)) /\ Permutation (concat gs) (g ++ rest) /\
    (forall j gj, j <> h -> nth_error gs j = Some gj -> incl gj rest) /\
    (forall h hd s g, nth_error (w_handles w) h = Some hd -> nth_error (m_structs m) h = Some s -> nth_error gs h = Some g -> stands (m_privates m) hd s g).
Proof.
  intros (L & _ & _ & gs & Lg & T & ST) H. pose proof (nth_lt _ _ _ H) as HL.
  destruct (nth_error (m_structs m) h) as [s|] eqn:Es; [|apply nth_error_None in Es; lia].
  destruct (nth_error gs h) as [g|] eqn:Eg; [|apply nth_error_None in Eg; lia].
  destruct (concat_put gs h g Eg) as (rest & P1 & P2 & P3).
  exists s, gs, g, rest. split; [reflexivity|]. split; [exact Lg|]. split; [exact Eg|]. split; [exact (ST h hd s g H Es Eg)|].
  split; [eapply tracks_perm; [exact P1|exact T]|]. split; [exact P2|]. split; [exact P1|]. split; [exact P3|exact ST].
Qed.

(** Replacing the structure [h]. *)
Lemma change_one w m h hd hd' s' g' ps' mt' N' gs rest :
  Inv w m -> nth_error (w_handles w) h = Some hd -> length gs = length (w_handles w) ->
  (forall g', Permutation (concat (put gs h g')) (g' ++ rest)) ->
  (forall j gj, j <> h -> nth_error gs j = Some gj -> incl gj rest) ->
  (forall h hd s g, nth_error (w_handles w) h = Some hd -> nth_error (m_structs m) h = Some s -> nth_error gs h = Some g -> stands (m_privates m) hd s g) ->
  stands ps' hd' s' g' -> table_ok (length (w_tables w)) hd' ->
  tracks ps' (g' ++ rest) -> (forall p, In p rest -> nth_error ps' p = nth_error (m_privates m) p) ->
  counted (w_tables w) mt' N' -> (forall t, t < length (w_tables w) -> N' t = count (World (w_tables w) (put (w_handles w) h hd')) t) ->
  Inv (World (w_tables w) (put (w_handles w) h hd')) (mkMemory mt' ps' (put (m_structs m) h s')).
Proof.
  intros (L & C & TO & _) H Lg P P3 ST S1 T1 TR K C' CN. pose proof (nth_lt _ _ _ H) as HL.
  split; [cbn [w_handles m_structs]; rewrite !put_length by lia; exact L|]. cbn [w_handles w_tables m_structs m_privates m_tables].
  split; [eapply counted_ext; [exact CN|exact C']|].
  split.
  - unfold put. rewrite (nth_split_at _ _ _ H) in TO. rewrite Forall_app in TO |- *. destruct TO as (A1 & A2). inversion A2; subst. split; [exact A1|]. constructor; assumption.
  - exists (put gs h g'). split; [rewrite !put_length by lia; lia|]. split; [eapply tracks_perm; [apply Permutation_sym, P|exact TR]|].
    intros j hdj sj gj Hj Sj Gj. rewrite <- Lg in HL.
    destruct (Nat.eq_dec j h) as [->|D].
    + rewrite nth_put_same in Hj by lia. rewrite nth_put_same in Sj by lia. rewrite nth_put_same in Gj by lia. injection Hj as <-. injection Sj as <-. injection Gj as <-. exact S1.
    + rewrite nth_put_other in Hj by (lia || exact D). rewrite nth_put_other in Sj by (lia || exact D). rewrite nth_put_other in Gj by (lia || exact D).
      apply (stands_keep (m_privates m)); [exact (ST j hdj sj gj Hj Sj Gj)|]. intros p Ip. apply K. apply (P3 j gj D Gj p Ip).
Qed.

(** Adding a structure at the end. *)
Lemma add_one w m hd s g ps mt N :
  Inv w m -> stands ps hd s g -> table_ok (length (w_tables w)) hd ->
  (forall l, tracks (m_privates m) l -> tracks ps (g ++ l)) ->
  (forall p, p < length (m_privates m) -> nth_error ps p = nth_error (m_privates m) p) ->
  counted (w_tables w) mt N -> (forall t, t < length (w_tables w) -> N t = count (World (w_tables w) (w_handles w ++ [hd])) t) ->
  Inv (World (w_tables w) (w_handles w ++ [hd])) (mkMemory mt ps (m_structs m ++ [s])).
Proof.
  intros (L & C & TO & gs & Lg & T & ST) S1 T1 TR K C' CN.
  split; [cbn [w_handles m_structs]; rewrite !app_length, L; reflexivity|]. cbn [w_handles w_tables m_structs m_privates m_tables].
  split; [eapply counted_ext; [exact CN|exact C']|]. split; [apply Forall_app; split; [exact TO|constructor; [exact T1|constructor]]|].
  exists (gs ++ [g]). split; [rewrite !app_length, Lg; reflexivity|]. split.
  - rewrite concat_app. cbn [concat]. rewrite app_nil_r. eapply tracks_perm; [apply Permutation_app_comm|]. apply TR. exact T.
  - intros j hdj sj gj Hj Sj Gj. apply nth_snoc_inv in Hj, Sj, Gj.
    destruct Hj as [Hj|(Ej & ->)].
    + pose proof (nth_lt _ _ _ Hj) as JL. destruct Sj as [Sj|(Ej & _)]; [|lia]. destruct Gj as [Gj|(Ej & _)]; [|lia].
      apply (stands_keep (m_privates m)); [exact (ST j hdj sj gj Hj Sj Gj)|]. intros p Ip. apply K.
      destruct T as (_ & T). assert (I : In p (concat gs)) by (apply in_concat; exists gj; split; [eapply nth_error_In; exact Gj|exact Ip]).
      apply T in I as (x & E). eapply nth_lt; exact E.
    + destruct Sj as [Sj|(_ & ->)]; [apply nth_lt in Sj; lia|]. destruct Gj as [Gj|(_ & ->)]; [apply nth_lt in Gj; lia|]. exact S1.
Qed.

(** Replacing the structure [h] and adding one. *)
Lemma change_add w m h hd hd' s' g' hd2 s2 g2 ps' mt' N' gs rest :
  Inv w m -> nth_error (w_handles w) h = Some hd -> length gs = length (w_handles w) ->
  (forall g', Permutation (concat (put gs h g')) (g' ++ rest)) ->
  (forall j gj, j <> h -> nth_error gs j = Some gj -> incl gj rest) ->
  (forall h hd s g, nth_error (w_handles w) h = Some hd -> nth_error (m_structs m) h = Some s -> nth_error gs h = Some g -> stands (m_privates m) hd s g) ->
  stands ps' hd' s' g' -> stands ps' hd2 s2 g2 -> table_ok (length (w_tables w)) hd' -> table_ok (length (w_tables w)) hd2 ->
  tracks ps' (g2 ++ g' ++ rest) -> (forall p, In p rest -> nth_error ps' p = nth_error (m_privates m) p) ->
  counted (w_tables w) mt' N' -> (forall t, t < length (w_tables w) -> N' t = count (World (w_tables w) (put (w_handles w) h hd' ++ [hd2])) t) ->
  Inv (World (w_tables w) (put (w_handles w) h hd' ++ [hd2])) (mkMemory mt' ps' (put (m_structs m) h s' ++ [s2])).
Proof.
  intros (L & C & TO & _) H Lg P P3 ST S1 S2 T1 T2 TR K C' CN. pose proof (nth_lt _ _ _ H) as HL.
  split; [cbn [w_handles m_structs]; rewrite !app_length, !put_length by lia; cbn [length]; lia|]. cbn [w_handles w_tables m_structs m_privates m_tables].
  split; [eapply counted_ext; [exact CN|exact C']|].
  split.
  - apply Forall_app. split; [|constructor; [exact T2|constructor]].
    unfold put. rewrite (nth_split_at _ _ _ H) in TO. rewrite Forall_app in TO |- *. destruct TO as (A1 & A2). inversion A2; subst. split; [exact A1|]. constructor; assumption.
  - exists (put gs h g' ++ [g2]). split; [rewrite !app_length, !put_length by lia; cbn [length]; lia|]. split.
    + rewrite concat_app. cbn [concat]. rewrite app_nil_r. eapply tracks_perm; [|exact TR].
      eapply Permutation_trans; [apply Permutation_app_comm|]. apply Permutation_app_tail. apply Permutation_sym, P.
    + intros j hdj sj gj Hj Sj Gj. rewrite <- Lg in HL.
      apply nth_snoc_inv in Hj, Sj, Gj. rewrite put_length in Hj by lia. rewrite put_length in Sj by lia. rewrite put_length in Gj by lia.
      destruct Hj as [Hj|(Ej & ->)].
      * pose proof (nth_lt _ _ _ Hj) as JL. rewrite put_length in JL by lia.
        destruct Sj as [Sj|(Ej & _)]; [|lia]. destruct Gj as [Gj|(Ej & _)]; [|lia].
        destruct (Nat.eq_dec j h) as [->|D].
        -- rewrite nth_put_same in Hj by lia. rewrite nth_put_same in Sj by lia. rewrite nth_put_same in Gj by lia. injection Hj as <-. injection Sj as <-. injection Gj as <-. exact S1.
        -- rewrite nth_put_other in Hj by (lia || exact D). rewrite nth_put_other in Sj by (lia || exact D). rewrite nth_put_other in Gj by (lia || exact D).
           apply (stands_keep (m_privates m)); [exact (ST j hdj sj gj Hj Sj Gj)|]. intros p Ip. apply K. apply (P3 j gj D Gj p Ip).
      * destruct Sj as [Sj|(_ & ->)]; [apply nth_lt in Sj; rewrite put_length in Sj by lia; lia|].
        destruct Gj as [Gj|(_ & ->)]; [apply nth_lt in Gj; rewrite put_length in Gj by lia; lia|]. exact S2.
Qed.

Lemma put_same {B} (l : list B) h x : nth_error l h = Some x -> put l h x = l.
Proof. intros H. unfold put. symmetry. apply nth_split_at. exact H. Qed.

Lemma users_fresh n l : Forall (table_ok n) l -> users n l = 0.
Proof.
  unfold users. induction 1 as [|x l H _ IH]; [reflexivity|]. cbn [filter].
  assert (E : uses n x = false) by (destruct x; cbn in *; try reflexivity; apply Nat.eqb_neq; lia). rewrite E. exact IH.
Qed.

Lemma ok_at w m h hd : Inv w m -> nth_error (w_handles w) h = Some hd -> table_ok (length (w_tables w)) hd.
Proof. intros (_ & _ & TO & _) H. rewrite Forall_forall in TO. apply TO. eapply nth_error_In; exact H. Qed.

Lemma users_here t l h hd : nth_error l h = Some hd -> uses t hd = true -> users t l <> 0.
Proof. intros H U. apply users_pos. apply existsb_exists. exists hd. split; [eapply nth_error_In; exact H|exact U]. Qed.

Lemma table_at {w m} : Inv w m -> forall t, t < length (w_tables w) -> exists cols held, nth_error (w_tables w) t = Some (cols, held) /\
  nth_error (m_tables m) t = Some (count w t, if count w t =? 0 then None else Some cols).
Proof.
  intros (_ & (_ & C) & _) t Ht. destruct (nth_error (w_tables w) t) as [(cols, held)|] eqn:E; [|apply nth_error_None in E; lia].
  exists cols, held. split; [reflexivity|]. eapply C, E.
Qed.

Lemma children_ok : forall kids (m : memory) t rest i0,
  (forall i k, nth_error kids i = Some k -> s_release k = true -> nth_error (m_privates m) (s_private k) = Some (Some (PColumn t (i0 + i)))) ->
  tracks (m_privates m) (map s_private (filter s_release kids) ++ rest) ->
  exists ps, release_children m kids = Some (mkMemory (m_tables m) ps (m_structs m)) /\ tracks ps rest /\
    (forall p, In p rest -> nth_error ps p = nth_error (m_privates m) p) /\ length ps = length (m_privates m).
Proof.
  induction kids as [|k kids IH]; intros m t rest i0 HK T.
  - exists (m_privates m). cbn in T. split; [destruct m; reflexivity|]. auto.
  - cbn [release_children]. destruct (s_release k) eqn:R.
    + cbn [filter] in T. rewrite R in T. cbn [map app] in T. pose proof (HK 0 k eq_refl R) as Hk.
      unfold delete. rewrite Hk. cbv zeta.
      pose proof (tracks_delete _ _ _ T) as T'. pose proof (nth_lt _ _ _ Hk) as L.
      destruct (IH (set_private m (s_private k) None) t rest (S i0)) as (ps & E & T2 & K & LL).
      * intros i k' Hk' R'. cbn [set_private m_privates]. rewrite nth_put_other; [replace (S i0 + i) with (i0 + S i) by lia; exact (HK (S i) k' Hk' R')|exact L|].
        intros E. destruct T as (N & _). inversion N as [|? ? N1 _]; subst. apply N1. apply in_or_app. left. rewrite <- E. apply in_map. apply filter_In.
        split; [eapply nth_error_In; exact Hk'|exact R'].
      * exact T'.
      * exists ps. split; [exact E|]. split; [exact T2|]. split; [|rewrite LL; cbn [set_private m_privates]; apply put_length; exact L].
        intros p Ip. rewrite K by exact Ip. cbn [set_private m_privates]. apply nth_put_other; [exact L|].
        intros ->. destruct T as (N & _). inversion N as [|? ? N1 _]; subst. apply N1. apply in_or_app. right. exact Ip.
    + cbn [filter] in T. rewrite R in T. apply (IH m t rest (S i0)); [|exact T].
      intros i k' Hk' R'. replace (S i0 + i) with (i0 + S i) by lia. exact (HK (S i) k' Hk' R').
Qed.

Lemma filter_put kids i k q : nth_error kids i = Some k -> s_release k = true ->
  Permutation (map s_private (filter s_release kids)) (s_private k :: map s_private (filter s_release (put kids i (mkStruct false q)))).
Proof.
  intros H R. pose proof (nth_split_at _ _ _ H) as E. unfold put. set (a := firstn i kids) in *. set (b := skipn (S i) kids) in *.
  rewrite E at 1. rewrite !filter_app, !map_app. cbn [filter]. rewrite R. cbn [s_release map].
  apply Permutation_sym, Permutation_middle.
Qed.

Lemma map_put {B C} (f : B -> C) l i x : map f (put l i x) = put (map f l) i (f x).
Proof. unfold put. rewrite map_app, firstn_map, skipn_map. reflexivity. Qed.

Definition reads_kept (w : world) (o : op A) : Prop :=
  match o with
  | ReadColumn h => forall t k, nth_error (w_handles w) h = Some (HColumn t k) -> kept w t
  | _ => True
  end.
End Life.
