(** C45 and C72, exactly. *)
From Coq Require Import SpecFloat Permutation.
From Verif Require Import Base DialectSpec DialectSpec2 DialectModel DialectObs DialectProof3 DialectProof8.

(** ** C45: what is skipped, for every buffer.  [ls] are the leading comment
    lines, [ms] their comment characters, [rest] what follows.  Exactly the
    comment lines are skipped unless only blanks follow, which are skipped too. *)
Theorem C45_skips_exactly : forall o buf ls rest ms,
  ~ In LF (comment_chars o) -> ~ In CR (comment_chars o) ->
  Leading (comment_chars o) buf ls rest -> Forall2 Marks ms ls ->
  exists off, skip_comment_lines o buf = (off, FirstMark ms, length ls) /\
    (comment_chars o <> [] -> Forall Blank rest -> off = length buf) /\
    (comment_chars o = [] \/ ~ Forall Blank rest -> off <= length buf /\ skipn off buf = rest).
Proof. intros o buf ls rest ms A B. exact (skip_exactly o A B buf ls rest ms). Qed.
Print Assumptions C45_skips_exactly.
(** A comment, an indented comment, then a row: # x, CR LF, blank # LF, a,b *)
Example C45_exactly_meets :
  let buf := [35;120;13;10;32;35;10;97;44;98;10]%N in
  Leading (comment_chars default_options) buf [[35;120]%N; [32;35]%N] [97;44;98;10]%N /\
  Forall2 Marks [35;35]%N [[35;120]%N; [32;35]%N] /\
  skip_comment_lines default_options buf = (7, FirstMark [35;35]%N, 2).
Proof.
  assert (B : forall c, c <> 32%N -> c <> 9%N -> ~ Blank c)
    by (unfold Blank, SPACE, TAB; intros; intros [->| ->]; congruence).
  split; [|split].
  - eapply Leading_line with (r := [32;35;10;97;44;98;10]%N).
    + apply (FL_crlf [35;120]%N). repeat constructor; discriminate.
    + exists [], 35%N, [120]%N. repeat split; [constructor|apply B; discriminate|left; reflexivity].
    + eapply Leading_line with (r := [97;44;98;10]%N).
      * apply (FL_lf [32;35]%N). repeat constructor; discriminate.
      * exists [32]%N, 35%N, []. repeat split; [repeat constructor|apply B; discriminate|left; reflexivity].
      * constructor. intros l r FL (bl & c & x & -> & F & N & I).
        destruct I as [<-|[]].
        assert (X : exists t, [97;44;98;10]%N = (bl ++ 35%N :: x) ++ t).
        { remember [97;44;98;10]%N as b0. destruct FL; [exists []; rewrite app_nil_r; reflexivity|eexists; reflexivity..]. }
        destruct X as (t & X). destruct bl as [|y bl]; [discriminate X|]. injection X as X _.
        inversion F; subst. destruct H1; discriminate.
  - constructor; [exists [], [120]%N; repeat split; [constructor|apply B; discriminate]|].
    constructor; [exists [32]%N, []; repeat split; [repeat constructor|apply B; discriminate]|constructor].
  - reflexivity.
Qed.

(** ** C72: exactly which cells are taken for a date with a time. *)
Theorem C72_date_time_exactly : forall cell t, Trimmed White cell t ->
  (infer_cell_type cell = DATETIME <-> LooksLikeDateTime t).
Proof. exact datetime_exact. Qed.
Print Assumptions C72_date_time_exactly.
(** 2024-01-01 and abcde: recognised; with a plus sign at the third byte not. *)
Example C72_exactly_meets :
  LooksLikeDateTime [50;48;50;52;45;48;49;45;48;49;84;97;98;99;100;101]%N /\
  infer_cell_type [50;48;50;52;45;48;49;45;48;49;84;97;98;43;100;101;102]%N = STRING.
Proof.
  split; [|reflexivity].
  exists [50;48;50;52;45;48;49;45;48;49]%N, [], 84%N, [97;98;99;100;101]%N.
  split; [reflexivity|]. split; [apply date_shape_ok; reflexivity|]. split; [constructor|].
  split; [left; reflexivity|]. exists [97;98;99;100;101]%N. split; [right; split; [reflexivity|]|split; [cbn; lia|]].
  - intros v E. assert (X : last [97;98;99;100;101]%N 0%N = 90%N) by (rewrite E; apply last_last). discriminate X.
  - right. cbn [firstn In]. intros H. repeat (destruct H as [H|H]; [discriminate|]). exact H.
Qed.
