From Verif Require Import Base BuffersSpec BuffersModel BuffersObs BuffersProof BuffersProof2 BuffersProof3 BuffersProps BuffersReach.

Lemma built_shows : forall S L E (I : impl S E) (A : impl L E) (R : S -> L -> Prop),
  (forall ops lists, run A [] ops = Some lists -> exists st, run I [] ops = Some st /\ Forall2 R st lists) ->
  forall s l, built I A s l -> R s l.
Proof.
  intros S L E I A R H s l (ops & lists & states & i & E1 & E2 & E3 & E4).
  destruct (H _ _ E1) as (st & E5 & HF). rewrite E3 in E5. injection E5 as <-.
  destruct (Forall2_nth _ _ _ _ _ _ _ HF E2) as (c & Ec & HR). rewrite E4 in Ec. injection Ec as <-. exact HR.
Qed.
Lemma flags_built_shows : forall m l, flags_built m l -> shows_flags m l.
Proof. apply built_shows. exact C21_bitmap_is_a_list_of_flags. Qed.
Lemma fixed_built_shows : forall V (dflt : V) c l, fixed_built dflt c l -> shows_fixed c l.
Proof. intros V dflt. apply built_shows. exact (C23_merging_fixed_columns V dflt). Qed.
Lemma strings_built_shows : forall c l, strings_built c l -> shows_strings c l.
Proof. apply built_shows. exact C23_merging_string_columns. Qed.
