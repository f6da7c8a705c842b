(** The steps of a history of exported tables. *)
From Coq Require Import Permutation.
From Verif Require Import Base PyLifeSpec PyLifeModel PyLifeProof.

Section Life.
Context {A : Type}.
Notation column := (list A).
Notation memory := (memory A).
Notation world := (world A).

Lemma step_new (w : world) (m : memory) cols : Inv w m -> exists m', step m (NewTable cols) = Some (Ok m' None) /\
  Inv (World (w_tables w ++ [(cols, true)]) (w_handles w)) m'.
Proof.
  intros (L & (LC & C) & TO & gs & Lg & T & ST). eexists. split; [reflexivity|].
  split; [exact L|]. cbn [w_handles w_tables m_structs m_privates m_tables]. split; [|split].
  - split; [rewrite !app_length, LC; reflexivity|]. intros t cols' held E. apply nth_snoc_inv in E. destruct E as [E|(-> & E)].
    + pose proof (nth_lt _ _ _ E) as Lt. rewrite nth_error_app1 by lia. rewrite (C t cols' held E).
      assert (G : count (World (w_tables w ++ [(cols, true)]) (w_handles w)) t = count w t).
      { unfold count. cbn [w_tables w_handles]. rewrite nth_error_app1 by exact Lt. reflexivity. }
      rewrite G. reflexivity.
    + injection E as -> ->. rewrite <- LC, nth_snoc, LC.
      assert (G : count (World (w_tables w ++ [(cols, true)]) (w_handles w)) (length (w_tables w)) = 1).
      { unfold count. cbn [w_tables w_handles]. rewrite nth_snoc, (users_fresh _ _ TO). reflexivity. }
      rewrite G. reflexivity.
  - eapply Forall_impl; [|exact TO]. intros x Hx. destruct x; cbn in *; try exact I; rewrite app_length; cbn; lia.
  - exists gs. auto.
Qed.

Lemma step_drop (w : world) (m : memory) t cols : Inv w m -> nth_error (w_tables w) t = Some (cols, true) ->
  exists m', step m (DropTable t) = Some (Ok m' None) /\ Inv (World (put (w_tables w) t (cols, false)) (w_handles w)) m'.
Proof.
  intros (L & C & TO & gs & Lg & T & ST) E. pose proof (nth_lt _ _ _ E) as Lt.
  assert (N1 : count w t <> 0) by (unfold count; rewrite E; lia).
  destruct (unref_ok (w_tables w) m (count w) t C Lt N1) as (mt & Eu & Cu). cbn [step]. rewrite Eu. eexists. split; [reflexivity|].
  split; [exact L|]. cbn [w_handles w_tables m_structs m_privates m_tables]. split; [|split].
  - destruct Cu as (Lu & Cu). split; [rewrite put_length by exact Lt; exact Lu|]. intros j cols' held' Ej. apply nth_put_inv in Ej; [|exact Lt].
    destruct Ej as [(-> & Ej)|(D & Ej)].
    + injection Ej as -> ->. rewrite (Cu t cols true E). rewrite Nat.eqb_refl.
      assert (G : count (World (put (w_tables w) t (cols, false)) (w_handles w)) t = count w t - 1).
      { unfold count. cbn [w_tables w_handles]. rewrite nth_put_same by exact Lt. rewrite E. lia. }
      rewrite G. reflexivity.
    + rewrite (Cu j cols' held' Ej). rewrite (proj2 (Nat.eqb_neq _ _) D).
      assert (G : count (World (put (w_tables w) t (cols, false)) (w_handles w)) j = count w j).
      { unfold count. cbn [w_tables w_handles]. rewrite nth_put_other by assumption. reflexivity. }
      rewrite G. reflexivity.
  - rewrite put_length by exact Lt. exact TO.
  - exists gs. auto.
Qed.

Lemma step_export (w : world) (m : memory) t cols : Inv w m -> nth_error (w_tables w) t = Some (cols, true) ->
  exists m', step m (Export t) = Some (Ok m' None) /\ Inv (World (w_tables w) (w_handles w ++ [HStream t false])) m'.
Proof.
  intros I E. pose proof (nth_lt _ _ _ E) as Lt. pose proof I as (_ & C & _).
  assert (N1 : count w t <> 0) by (unfold count; rewrite E; lia).
  destruct (ref_ok (w_tables w) m (count w) t C Lt N1) as (mt & Er & Cr). cbn [step]. rewrite Er. cbv zeta. cbn [m_privates m_structs m_tables].
  eexists. split; [reflexivity|]. eapply (add_one w m (HStream t false) _ [length (m_privates m)]).
  - exact I.
  - cbn [stands s_release s_private]. split; [reflexivity|]. split; [reflexivity|]. apply nth_snoc.
  - exact Lt.
  - intros l Tl. exact (tracks_new (m_privates m) l [PStream t false] Tl).
  - intros p Hp. apply nth_error_app1. exact Hp.
  - exact Cr.
  - intros j Hj. unfold count. cbn [w_tables w_handles]. rewrite users_app, users_one. cbn [uses]. destruct (j =? t); lia.
Qed.

Lemma step_next_end (w : world) (m : memory) h t : Inv w m -> nth_error (w_handles w) h = Some (HStream t true) ->
  exists m', step m (Next h) = Some (Ok m' None) /\ Inv (World (w_tables w) (w_handles w ++ [HGone])) m'.
Proof.
  intros I E. destruct (at_handle w m h _ I E) as (s & gs & g & rest & Hs & _ & _ & ST & _). cbn [stands] in ST. destruct ST as (R & _ & P).
  cbn [step]. rewrite Hs. destruct s as [r p]. cbn [s_release s_private] in R, P. subst r. rewrite P. eexists. split; [reflexivity|].
  pose proof I as (_ & C & _). unfold new_struct. eapply (add_one w m HGone _ []).
  - exact I.
  - split; reflexivity.
  - exact Logic.I.
  - intros l Tl. exact Tl.
  - reflexivity.
  - exact C.
  - intros j Hj. unfold count. cbn [w_tables w_handles]. rewrite users_app, users_one. cbn [uses]. lia.
Qed.

Lemma kids_fresh a n : map s_private (filter s_release (map (fun i => mkStruct true (S a + i)) (seq 0 n))) = seq (S a) n.
Proof.
  assert (G : forall k, map s_private (filter s_release (map (fun i => mkStruct true (S a + i)) (seq k n))) = seq (S a + k) n).
  { induction n as [|n IH]; intros k; [reflexivity|]. cbn [seq map filter s_release s_private]. f_equal. rewrite IH. f_equal. lia. }
  rewrite G. f_equal. lia.
Qed.

Lemma nth_map_seq {B} (f : nat -> B) n i x : nth_error (map f (seq 0 n)) i = Some x -> i < n /\ x = f i.
Proof.
  intros H. pose proof (nth_lt _ _ _ H) as L. rewrite map_length, seq_length in L. split; [exact L|].
  rewrite (map_nth_error f i (seq 0 n) (d := i)) in H; [congruence|].
  rewrite (nth_error_nth' _ 0) by (rewrite seq_length; exact L). rewrite seq_nth by exact L. reflexivity.
Qed.

Lemma step_next (w : world) (m : memory) h t cols held : Inv w m -> nth_error (w_handles w) h = Some (HStream t false) -> nth_error (w_tables w) t = Some (cols, held) ->
  exists m', step m (Next h) = Some (Ok m' None) /\
    Inv (World (w_tables w) (put (w_handles w) h (HStream t true) ++ [HArray t (map (fun _ => true) cols)])) m'.
Proof.
  intros I E Et. pose proof (nth_lt _ _ _ Et) as Lt. pose proof I as (_ & C & _).
  destruct (at_handle w m h _ I E) as (s & gs & g & rest & Hs & Lg & Hg & ST & TR & P2 & P1 & P3 & STS). cbn [stands] in ST. destruct ST as (R & -> & P).
  cbn [step]. rewrite Hs. destruct s as [r p]. cbn [s_release s_private] in R, P, TR, P1, Hg. subst r. rewrite P.
  assert (N1 : count w t <> 0). { unfold count. pose proof (users_here t _ _ _ E (Nat.eqb_refl t)). lia. }
  rewrite (proj2 C t cols held Et), (proj2 (Nat.eqb_neq _ _) N1).
  destruct (ref_ok (w_tables w) m (count w) t C Lt N1) as (mt & Er & Cr). rewrite Er. cbv zeta.
  cbn [set_private m_privates m_structs m_tables]. eexists. split; [reflexivity|].
  pose proof (nth_lt _ _ _ P) as Lp. set (a := length (m_privates m)). set (n := length cols).
  assert (La : length (put (m_privates m) p (Some (PStream t true))) = a) by (apply put_length; exact Lp).
  match goal with |- Inv _ (mkMemory _ ?ps (_ ++ [?s2])) => set (ps' := ps); set (sn := s2) end.
  assert (K1 : forall q, q < a -> nth_error ps' q = nth_error (put (m_privates m) p (Some (PStream t true))) q).
  { intros q Hq. unfold ps'. apply nth_error_app1. rewrite La. exact Hq. }
  assert (K2 : nth_error ps' a = Some (Some (PArray t (map (fun i => mkStruct true (S a + i)) (seq 0 n))))).
  { unfold ps'. rewrite nth_error_app2 by lia. rewrite La, Nat.sub_diag. reflexivity. }
  assert (K3 : forall i, i < n -> nth_error ps' (S a + i) = Some (Some (PColumn t i))).
  { intros i Hi. unfold ps'. rewrite nth_error_app2 by lia. rewrite La. replace (S a + i - a) with (S i) by lia. cbn [nth_error].
    rewrite (map_nth_error (fun i => Some (PColumn t i)) i (seq 0 n) (d := i)); [reflexivity|].
    rewrite (nth_error_nth' _ 0) by (rewrite seq_length; exact Hi). rewrite seq_nth by exact Hi. reflexivity. }
  assert (TP : tracks ps' (seq a (S n) ++ p :: rest)).
  { pose proof (tracks_new (put (m_privates m) p (Some (PStream t true))) (p :: rest) (PArray t (map (fun i => mkStruct true (S a + i)) (seq 0 n)) :: map (PColumn t) (seq 0 n))) as G.
    rewrite La in G. cbn [length] in G. rewrite map_length, seq_length in G. cbn [map] in G. rewrite map_map in G. apply G.
    apply tracks_set; [left; reflexivity|exact TR]. }
  clearbody ps'.
  rewrite <- (put_same _ _ _ Hs).
  apply (change_add w m h (HStream t false) (HStream t true) (mkStruct true p) [p] (HArray t (map (fun _ => true) cols)) sn (seq a (S n)) ps' mt
     (fun j => if j =? t then S (count w j) else count w j) gs rest I E Lg P2 P3 STS).
  - cbn [stands s_release s_private]. split; [reflexivity|]. split; [reflexivity|]. rewrite K1 by exact Lp. apply nth_put_same. exact Lp.
  - cbn [stands]. unfold sn. cbn [s_release s_private]. split; [reflexivity|]. eexists. split; [exact K2|]. split; [|split].
    + fold a. rewrite kids_fresh. reflexivity.
    + rewrite map_map. cbn [s_release]. unfold n. clear. generalize 0. induction cols as [|c l IH]; intros k; [reflexivity|]. cbn [length seq map]. f_equal. apply IH.
    + intros i k Hk _. apply nth_map_seq in Hk as (Hi & ->). cbn [s_private]. apply K3. exact Hi.
  - exact Lt.
  - exact Lt.
  - exact TP.
  - intros q Iq. destruct TR as (ND & HI). assert (Hq : q < a).
    { destruct (proj1 (HI q)) as (x & Ex); [right; exact Iq|]. eapply nth_lt; exact Ex. }
    rewrite K1 by exact Hq. apply nth_put_other; [exact Lp|]. intros ->. inversion ND as [|? ? ND1 _]; subst. contradiction.
  - exact Cr.
  - intros j Hj. unfold count. cbn [w_tables w_handles]. rewrite users_app, users_one. pose proof (users_put j (w_handles w) h (HStream t true) _ E) as U.
    cbn [uses] in U |- *. destruct (j =? t); lia.
Qed.

Lemma step_move (w : world) (m : memory) h hd : Inv w m -> nth_error (w_handles w) h = Some hd -> hd <> HGone ->
  exists m', step m (Move h) = Some (Ok m' None) /\ Inv (World (w_tables w) (put (w_handles w) h HGone ++ [hd])) m'.
Proof.
  intros I E NG. pose proof I as (_ & C & _).
  destruct (at_handle w m h _ I E) as (s & gs & g & rest & Hs & Lg & Hg & ST & TR & P2 & P1 & P3 & STS).
  assert (R : s_release s = true) by (destruct hd; cbn [stands] in ST; [tauto|tauto|tauto|congruence]).
  cbn [step]. rewrite Hs. destruct s as [r p]. cbn [s_release] in R. subst r. eexists. split; [reflexivity|].
  unfold new_struct, set_struct. cbn [m_tables m_privates m_structs].
  apply (change_add w m h hd HGone (mkStruct false p) [] hd (mkStruct true p) g (m_privates m) (m_tables m) (count w) gs rest I E Lg P2 P3 STS).
  - split; reflexivity.
  - exact ST.
  - exact Logic.I.
  - exact (ok_at _ _ _ _ I E).
  - exact TR.
  - reflexivity.
  - exact C.
  - intros j Hj. unfold count. cbn [w_tables w_handles]. rewrite users_app, users_one. pose proof (users_put j (w_handles w) h HGone _ E) as U.
    change (uses j HGone) with false in U. cbv iota in U. destruct (uses j hd); lia.
Qed.

Lemma step_child (w : world) (m : memory) h i t att : Inv w m -> nth_error (w_handles w) h = Some (HArray t att) -> nth_error att i = Some true ->
  exists m', step m (MoveChild h i) = Some (Ok m' None) /\ Inv (World (w_tables w) (put (w_handles w) h (HArray t (put att i false)) ++ [HColumn t i])) m'.
Proof.
  intros I E Ea. pose proof I as (_ & C & _). pose proof (ok_at _ _ _ _ I E) as Lt. cbn in Lt.
  destruct (at_handle w m h _ I E) as (s & gs & g & rest & Hs & Lg & Hg & ST & TR & P2 & P1 & P3 & STS).
  cbn [stands] in ST. destruct ST as (R & kids & Hp & -> & Hk & HC).
  cbn [step]. rewrite Hs. destruct s as [r p]. cbn [s_release s_private] in R, Hp, TR, P1, Hg. subst r. rewrite Hp.
  destruct (nth_error kids i) as [k|] eqn:Ek.
  2:{ apply nth_error_None in Ek. apply nth_lt in Ea. rewrite <- Hk, map_length in Ea. lia. }
  assert (Rk : s_release k = true) by (rewrite <- Hk, (map_nth_error s_release i kids Ek) in Ea; congruence).
  pose proof (HC i k Ek Rk) as Hq. pose proof (nth_lt _ _ _ Ek) as Lk. pose proof (nth_lt _ _ _ Hp) as Lp.
  destruct k as [r q]. cbn [s_release s_private] in Rk, Hq. subst r. eexists. split; [reflexivity|].
  unfold new_struct, set_private. cbn [m_tables m_privates m_structs].
  set (kids' := put kids i (mkStruct false q)). pose proof (filter_put kids i (mkStruct true q) q Ek eq_refl) as PF. fold kids' in PF. cbn [s_private] in PF.
  assert (Dq : q <> p) by (intros ->; congruence).
  rewrite <- (put_same _ _ _ Hs).
  set (x := PArray t kids').
  assert (TR' : tracks (m_privates m) ([q] ++ (p :: map s_private (filter s_release kids')) ++ rest)).
  { eapply tracks_perm; [|exact TR]. cbn [app]. etransitivity; [|apply perm_swap]. constructor.
    change (q :: map s_private (filter s_release kids') ++ rest) with ((q :: map s_private (filter s_release kids')) ++ rest). apply Permutation_app_tail. exact PF. }
  assert (NP : forall y, In y (map s_private (filter s_release kids') ++ rest) -> y <> p).
  { intros y Iy ->. destruct TR' as (ND & _). cbn [app] in ND. inversion ND as [|? ? _ ND1]; subst. inversion ND1; subst. contradiction. }
  apply (change_add w m h (HArray t att) (HArray t (put att i false)) (mkStruct true p) (p :: map s_private (filter s_release kids'))
     (HColumn t i) (mkStruct true q) [q] (put (m_privates m) p (Some x)) (m_tables m) (count w) gs rest I E Lg P2 P3 STS).
  - cbn [stands s_release s_private]. split; [reflexivity|]. exists kids'. split; [apply nth_put_same; exact Lp|]. split; [reflexivity|].
    split; [unfold kids'; rewrite map_put, Hk; reflexivity|]. intros j k' Hk' Rk'.
    rewrite nth_put_other; [|exact Lp|].
    + apply nth_put_inv in Hk'; [|exact Lk]. destruct Hk' as [(-> & ->)|(D & Hk')]; [discriminate|]. exact (HC j k' Hk' Rk').
    + apply NP. apply in_or_app. left. apply in_map, filter_In. split; [eapply nth_error_In; exact Hk'|exact Rk'].
  - cbn [stands s_release s_private]. split; [reflexivity|]. split; [reflexivity|]. rewrite nth_put_other by assumption. exact Hq.
  - exact Lt.
  - exact Lt.
  - apply tracks_set; [right; left; reflexivity|exact TR'].
  - intros y Iy. apply nth_put_other; [exact Lp|]. apply NP. apply in_or_app. right. exact Iy.
  - exact C.
  - intros j Hj. unfold count. cbn [w_tables w_handles]. rewrite users_app, users_one. pose proof (users_put j (w_handles w) h (HArray t (put att i false)) _ E) as U.
    cbn [uses] in U |- *. destruct (j =? t); lia.
Qed.

Lemma step_release (w : world) (m : memory) h hd : Inv w m -> nth_error (w_handles w) h = Some hd -> hd <> HGone ->
  exists m', step m (Release h) = Some (Ok m' None) /\ Inv (World (w_tables w) (put (w_handles w) h HGone)) m'.
Proof.
  intros I E NG. pose proof I as (_ & C & _). pose proof (ok_at _ _ _ _ I E) as Lt.
  destruct (at_handle w m h _ I E) as (s & gs & g & rest & Hs & Lg & Hg & ST & TR & P2 & P1 & P3 & STS).
  assert (R : s_release s = true) by (destruct hd; cbn [stands] in ST; [tauto|tauto|tauto|congruence]).
  cbn [step]. rewrite Hs. destruct s as [r p]. cbn [s_release] in R. subst r. unfold release. cbn [s_private].
  assert (FIN : forall ps mt, tracks ps rest -> (forall q, In q rest -> nth_error ps q = nth_error (m_privates m) q) ->
     (exists N, counted (w_tables w) mt N /\ forall j, j < length (w_tables w) -> N j = count w j - (if uses j hd then 1 else 0)) ->
     Inv (World (w_tables w) (put (w_handles w) h HGone)) (mkMemory mt ps (put (m_structs m) h (mkStruct false p)))).
  { intros ps mt T K (N & CN & EN).
    apply (change_one w m h hd HGone (mkStruct false p) [] ps mt N gs rest I E Lg P2 P3 STS).
    - split; reflexivity.
    - exact Logic.I.
    - exact T.
    - exact K.
    - exact CN.
    - intros j Hj. rewrite EN by exact Hj. unfold count. cbn [w_tables w_handles]. pose proof (users_put j (w_handles w) h HGone _ E) as U.
      change (uses j HGone) with false in U. cbv iota in U. destruct (uses j hd); lia. }
  assert (KD : forall (ps : list (option private)) l, tracks ps (p :: l) -> forall q, In q l -> nth_error (put ps p None) q = nth_error ps q).
  { intros ps l (ND & HI) q Iq. destruct (proj1 (HI p)) as (x & Ex); [left; reflexivity|]. apply nth_put_other; [eapply nth_lt; exact Ex|].
    intros ->. inversion ND; subst. contradiction. }
  assert (UN : forall t, (forall j, uses j hd = (j =? t)) -> t < length (w_tables w) -> forall ps st, exists mt,
     unref (mkMemory (m_tables m) ps st) t = Some (mkMemory mt ps st) /\
     (exists N, counted (w_tables w) mt N /\ forall j, j < length (w_tables w) -> N j = count w j - (if uses j hd then 1 else 0))).
  { intros t U Ht ps st. assert (N1 : count w t <> 0).
    { unfold count. assert (users t (w_handles w) <> 0); [|lia]. eapply users_here; [exact E|]. rewrite U. apply Nat.eqb_refl. }
    destruct (unref_ok (w_tables w) (mkMemory (m_tables m) ps st) (count w) t C Ht N1) as (mt & Eu & Cu). exists mt. split; [exact Eu|].
    eexists. split; [exact Cu|]. intros j Hj. rewrite U. cbv beta. destruct (j =? t); lia. }
  destruct hd as [t d|t att|t k|]; [| | |congruence]; cbn [stands] in ST; cbn [s_private] in ST.
  - destruct ST as (_ & -> & Hp). rewrite Hp. unfold delete. rewrite Hp. cbv zeta. unfold set_private.
    cbn [table_ok] in Lt. destruct (UN t (fun j => eq_refl) Lt (put (m_privates m) p None) (m_structs m)) as (mt & Eu & Cu). rewrite Eu.
    eexists. split; [reflexivity|]. unfold set_struct. cbn [m_tables m_privates m_structs].
    apply FIN; [apply tracks_delete; exact TR|apply (KD _ _ TR)|exact Cu].
  - destruct ST as (_ & kids & Hp & -> & Hk & HC). rewrite Hp.
    destruct (children_ok kids m t (p :: rest) 0) as (ps & ER & T2 & K & LL).
    { intros i k Hk' Rk. exact (HC i k Hk' Rk). }
    { eapply tracks_perm; [|exact TR]. cbn [app]. apply Permutation_middle. }
    rewrite ER. unfold delete. cbn [m_privates]. rewrite (K p (or_introl eq_refl)), Hp. cbv zeta. unfold set_private. cbn [m_tables m_privates m_structs].
    cbn [table_ok] in Lt. destruct (UN t (fun j => eq_refl) Lt (put ps p None) (m_structs m)) as (mt & Eu & Cu). rewrite Eu.
    eexists. split; [reflexivity|]. unfold set_struct. cbn [m_tables m_privates m_structs].
    apply FIN; [apply tracks_delete; exact T2| |exact Cu].
    intros q Iq. rewrite (KD _ _ T2 q Iq). apply K. right. exact Iq.
  - destruct ST as (_ & -> & Hp). rewrite Hp. unfold delete. rewrite Hp. cbv zeta.
    eexists. split; [reflexivity|]. unfold set_struct, set_private. cbn [m_tables m_privates m_structs].
    apply FIN; [apply tracks_delete; exact TR|apply (KD _ _ TR)|]. exists (count w). split; [exact C|]. intros j Hj. cbn [uses]. lia.
Qed.

Lemma step_ok (w : world) (m : memory) o w' out : Inv w m -> spec_step w o = Some (w', out) -> reads_kept w o ->
  exists m', step m o = Some (Ok m' out) /\ Inv w' m'.
Proof.
  intros I E RK. destruct o as [cols|t|t|h|h|h i|h|h i|h]; cbn [spec_step] in E.
  - injection E as <- <-. apply step_new. exact I.
  - destruct (nth_error (w_tables w) t) as [[cols [|]]|] eqn:Et; try discriminate. injection E as <- <-. exact (step_drop w m t cols I Et).
  - destruct (nth_error (w_tables w) t) as [[cols [|]]|] eqn:Et; try discriminate. injection E as <- <-. exact (step_export w m t cols I Et).
  - destruct (nth_error (w_handles w) h) as [[t [|]| | |]|] eqn:Eh; try discriminate.
    + injection E as <- <-. exact (step_next_end w m h t I Eh).
    + destruct (nth_error (w_tables w) t) as [[cols held]|] eqn:Et; [|discriminate]. injection E as <- <-. exact (step_next w m h t cols held I Eh Et).
  - destruct (nth_error (w_handles w) h) as [hd|] eqn:Eh; [|discriminate].
    destruct hd as [t d|t att|t k|]; try discriminate; injection E as <- <-; (apply step_move; [exact I|exact Eh|discriminate]).
  - destruct (nth_error (w_handles w) h) as [[|t att| |]|] eqn:Eh; try discriminate.
    destruct (nth_error att i) as [[|]|] eqn:Ei; try discriminate. injection E as <- <-. exact (step_child w m h i t att I Eh Ei).
  - destruct (nth_error (w_handles w) h) as [hd|] eqn:Eh; [|discriminate].
    destruct hd as [t d|t att|t k|]; try discriminate; injection E as <- <-; (apply (step_release w m h _ I Eh); discriminate).
  - destruct (nth_error (w_handles w) h) as [[|t att| |]|] eqn:Eh; try discriminate.
    destruct (nth_error att i) as [[|]|] eqn:Ei; try discriminate.
    destruct (nth_error (w_tables w) t) as [[cols held]|] eqn:Et; [|discriminate]. injection E as <- <-.
    destruct (at_handle w m h _ I Eh) as (s & gs & g & rest & Hs & _ & _ & ST & _). cbn [stands] in ST. destruct ST as (R & kids & Hp & -> & Hk & HC).
    cbn [step]. rewrite Hs. destruct s as [r p]. cbn [s_release s_private] in R, Hp. subst r. rewrite Hp.
    destruct (nth_error kids i) as [k|] eqn:Ek.
    2:{ apply nth_error_None in Ek. apply nth_lt in Ei. rewrite <- Hk, map_length in Ei. lia. }
    assert (Rk : s_release k = true) by (rewrite <- Hk, (map_nth_error s_release i kids Ek) in Ei; congruence).
    pose proof (HC i k Ek Rk) as Hq. destruct k as [r q]. cbn [s_release s_private] in Rk, Hq. subst r.
    unfold read_column. cbn [s_private]. rewrite Hq. pose proof I as (_ & (_ & C) & _). rewrite (C t cols held Et).
    assert (N1 : count w t <> 0). { unfold count. pose proof (users_here t _ _ _ Eh (Nat.eqb_refl t)). lia. }
    rewrite (proj2 (Nat.eqb_neq _ _) N1). exists m. split; [reflexivity|exact I].
  - destruct (nth_error (w_handles w) h) as [[| |t k|]|] eqn:Eh; try discriminate.
    destruct (nth_error (w_tables w) t) as [[cols held]|] eqn:Et; [|discriminate]. injection E as <- <-.
    destruct (at_handle w m h _ I Eh) as (s & gs & g & rest & Hs & _ & _ & ST & _). cbn [stands] in ST. destruct ST as (R & -> & Hp).
    cbn [step]. rewrite Hs. destruct s as [r p]. cbn [s_release s_private] in R, Hp. subst r.
    unfold read_column. cbn [s_private]. rewrite Hp. pose proof I as (_ & (_ & C) & _). rewrite (C t cols held Et).
    cbn [reads_kept] in RK. pose proof (proj1 (kept_count w t) (RK t k Eh)) as N1.
    rewrite (proj2 (Nat.eqb_neq _ _) N1). exists m. split; [reflexivity|exact I].
Qed.

Lemma read_gone (w : world) (m : memory) h t k : Inv w m -> nth_error (w_handles w) h = Some (HColumn t k) -> ~ kept w t ->
  step m (ReadColumn h) = Some Undefined.
Proof.
  intros I Eh NK. pose proof (ok_at _ _ _ _ I Eh) as Lt. cbn [table_ok] in Lt.
  destruct (at_handle w m h _ I Eh) as (s & gs & g & rest & Hs & _ & _ & ST & _). cbn [stands] in ST. destruct ST as (R & -> & Hp).
  cbn [step]. rewrite Hs. destruct s as [r p]. cbn [s_release s_private] in R, Hp. subst r.
  unfold read_column. cbn [s_private]. rewrite Hp. destruct (table_at I t Lt) as (cols & held & _ & E). rewrite E.
  rewrite kept_count in NK. destruct (count w t); [reflexivity|]. exfalso. apply NK. discriminate.
Qed.

Lemma run_ok : forall ops (w : world) (m : memory) w' outs, Inv w m -> spec_run w ops = Some (w', outs) -> careful w ops ->
  exists m', run m ops = Some (Finished m' outs) /\ Inv w' m'.
Proof.
  induction ops as [|o ops IH]; intros w m w' outs I E Ca.
  - injection E as <- <-. exists m. split; [reflexivity|exact I].
  - cbn [spec_run] in E. cbn [careful] in Ca. destruct Ca as (C1 & C2). destruct (spec_step w o) as [[w1 out]|] eqn:Es; [|discriminate].
    destruct (spec_run w1 ops) as [[w2 os]|] eqn:Er; [|discriminate]. injection E as <- <-.
    destruct (step_ok w m o w1 out I Es) as (m1 & E1 & I1).
    { destruct o; exact C1. }
    destruct (IH w1 m1 w2 os I1 Er C2) as (m2 & E2 & I2). exists m2. split; [|exact I2]. cbn [run]. rewrite E1, E2. reflexivity.
Qed.

Lemma run_app_broken : forall ops (m m' : memory) outs o, run m ops = Some (Finished m' outs) -> step m' o = Some Undefined -> run m (ops ++ [o]) = Some Broken.
Proof.
  induction ops as [|x ops IH]; intros m m' outs o E S.
  - injection E as <- <-. cbn [app run]. rewrite S. reflexivity.
  - cbn [app run] in *. destruct (step m x) as [[m1 out|]|]; [|discriminate|discriminate].
    destruct (run m1 ops) as [[m2 os|]|] eqn:Er; [|discriminate|discriminate]. injection E as <- <-.
    rewrite (IH m1 m2 os o Er S). reflexivity.
Qed.

Theorem histories ops (w : world) outs : spec_run start ops = Some (w, outs) -> careful start ops ->
  exists m, run nothing ops = Some (Finished m outs) /\
    (forall t cols held, nth_error (w_tables w) t = Some (cols, held) ->
       ((exists n, nth_error (m_tables m) t = Some (S n, Some cols)) /\ kept w t) \/ (nth_error (m_tables m) t = Some (0, None) /\ ~ kept w t)) /\
    (Forall (fun hd => hd = HGone) (w_handles w) -> Forall (fun x => x = None) (m_privates m)).
Proof.
  intros E Ca. destruct (run_ok ops start nothing w outs inv_start E Ca) as (m & R & I). exists m. split; [exact R|]. split.
  - intros t cols held Et. pose proof I as (_ & (_ & C) & _). pose proof (C t cols held Et) as Em. rewrite kept_count.
    destruct (count w t) as [|n]; [right|left; split; [exists n; exact Em|discriminate]]. split; [exact Em|]. intros H. apply H. reflexivity.
  - intros G. destruct I as (L & _ & _ & gs & Lg & (_ & T) & ST). apply Forall_forall. intros x Ix. destruct x as [x|]; [exfalso|reflexivity].
    apply In_nth_error in Ix as (p & Ep). pose proof (proj2 (T p) (ex_intro _ x Ep)) as J. apply in_concat in J as (g & Jg & Jp).
    apply In_nth_error in Jg as (h & Eh). pose proof (nth_lt _ _ _ Eh) as Lh.
    destruct (nth_error (w_handles w) h) as [hd|] eqn:Eh2; [|apply nth_error_None in Eh2; lia].
    destruct (nth_error (m_structs m) h) as [s|] eqn:Es; [|apply nth_error_None in Es; lia].
    pose proof (ST h hd s g Eh2 Es Eh) as S1. rewrite Forall_forall in G. rewrite (G hd (nth_error_In _ _ Eh2)) in S1.
    destruct S1 as (_ & ->). destruct Jp.
Qed.

Theorem detached ops (w : world) outs h t k : spec_run start ops = Some (w, outs) -> careful start ops ->
  nth_error (w_handles w) h = Some (HColumn t k) -> ~ kept w t ->
  run nothing (ops ++ [ReadColumn h]) = Some Broken.
Proof.
  intros E Ca Eh NK. destruct (run_ok ops start nothing w outs inv_start E Ca) as (m & R & I).
  exact (run_app_broken ops nothing m outs (ReadColumn h) R (read_gone w m h t k I Eh NK)).
Qed.
End Life.
