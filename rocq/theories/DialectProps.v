(** C45, C46, C47, C70 to C76: dialect detection. *)
From Coq Require Import SpecFloat Permutation.
From Verif Require Import Base DialectSpec DialectModel DialectObs DialectProof DialectProof2
  DialectProof3 DialectProof4 DialectProof5 DialectProof6 DialectProof7.

(** the samples used below *)
Definition plain_sample : bytes := [97;44;98;10;49;44;50;10;51;44;52;10]%N.           (* a,b 1,2 3,4 *)
Definition doubled_sample : bytes :=
  [34;97;34;34;98;34;44;99;10;49;44;50;10;51;44;52;10]%N.                             (* first cell: a doubled quote *)
Definition odd_quotes_sample : bytes := [97;34;39;98;44;99;10;49;44;50;10;51;44;52;10]%N.
Definition candidates_of (o : options) (sample : bytes) : list candidate :=
  map (fun d => score_dialect (fun t => t) o d sample) (generate_candidates o).

(** A straightforward sort, used only to show that hypotheses about sorting
    can be met. *)
Fixpoint place (x : candidate) (l : list candidate) : list candidate :=
  match l with
  | [] => [x]
  | y :: r => if cand_lt x y then x :: l else y :: place x r
  end.
Definition some_sort (l : list candidate) : list candidate := fold_right place [] l.
Lemma some_sort_perm l : Permutation (some_sort l) l.
Proof.
  induction l as [|x l IH]; [constructor|]. cbn [some_sort fold_right]. fold (some_sort l).
  transitivity (x :: some_sort l); [|constructor; exact IH].
  generalize (some_sort l). clear. induction l as [|y l IH]; [reflexivity|]. cbn [place].
  destruct (cand_lt x y); [reflexivity|]. transitivity (y :: x :: l); [constructor; exact IH|constructor].
Qed.

Lemma winner_check l d : forallb (fun x => negb (cand_lt x (hd d (some_sort l)))) l = true ->
  Winner cand_lt l (some_sort l).
Proof.
  intros F h t E x I. rewrite E in F. cbn [hd] in F. rewrite forallb_forall in F.
  apply negb_true_iff. exact (F x I).
Qed.

(** ** C45: skipping comment lines.
    Missing from the full property: a last line of blanks only, without a
    terminator, is swallowed (see the refutation), and comment characters that
    are line breaks are excluded. *)
Theorem C45_skip_comments_partial : forall o buf,
  ~ In LF (comment_chars o) -> ~ In CR (comment_chars o) ->
  exists off ch ls, skip_comment_lines o buf = (off, ch, length ls) /\
    off <= length buf /\
    (Leading (comment_chars o) buf ls (skipn off buf) \/
     (off = length buf /\ exists b, b <> [] /\ Forall Blank b /\ Leading (comment_chars o) buf ls b)) /\
    match ls with
    | [] => ch = 0%N
    | l :: _ => exists c, Marks c l /\ In c (comment_chars o) /\ (c <> 0%N -> ch = c)
    end.
Proof. exact skip_spec. Qed.
Print Assumptions C45_skip_comments_partial.
Example C45_meets : ~ In LF (comment_chars default_options) /\ ~ In CR (comment_chars default_options) /\
  skip_comment_lines default_options ([35;120;13;10;32;35;10;97;44;98;10]%N) = (7, 35%N, 2).
Proof. split; [intros [H|[]]; discriminate|]. split; [intros [H|[]]; discriminate|reflexivity]. Qed.

(** A line of blanks is not a comment line, but when it is the last line and
    has no terminator it is skipped: a buffer of two blanks is reported to hold
    nothing but comments, and so is a comment line followed by three blanks. *)
Theorem C45_skip_stops_at_first_non_comment_refuted :
  (exists buf off ch n, skip_comment_lines default_options buf = (off, ch, n) /\
     ~ exists ls, Leading (comment_chars default_options) buf ls (skipn off buf)) /\
  (forall sort order, res_warning (detect sort order default_options [32;32]%N) = OnlyComments /\
     res_comment_lines (detect sort order default_options [32;32]%N) = 0) /\
  skip_comment_lines default_options [35;99;10;32;32;32]%N = (6, 35%N, 1).
Proof.
  split; [|split; [intros; split; reflexivity|reflexivity]].
  exists [32;32]%N, 2, 0%N, 0. split; [reflexivity|].
  intros (ls & L). cbn [skipn] in L. inversion L as [|? l r ? ? FL C]; subst.
  destruct C as (bl & c & x & -> & _ & N & _).
  destruct (FirstLine_prefix _ _ _ FL) as (t & E). rewrite <- app_assoc in E.
  assert (I : In c [32;32]%N) by (rewrite E; apply in_or_app; right; left; reflexivity).
  apply N. left. destruct I as [<-|[<-|[]]]; reflexivity.
Qed.
Print Assumptions C45_skip_stops_at_first_non_comment_refuted.

(** ** C46: rows *)
Theorem C46_rows_are_the_first_lines : forall o d buf, 0 < max_rows o ->
  Rows (quoting_of d) (comment_chars o) (max_rows o) buf (find_rows o d buf).
Proof. exact rows_spec. Qed.
Print Assumptions C46_rows_are_the_first_lines.
(** Bounded, not empty, ordered, without a line end or comment inside; and
    unless the limit was reached, every byte outside the rows belongs to a line
    end or to a comment line. *)
Theorem C46_rows_partition_the_sample : forall o d buf, 0 < max_rows o ->
  let g := quoting_of d in
  length (find_rows o d buf) <= max_rows o /\
  (forall s e, In (s, e) (find_rows o d buf) ->
     s < e /\ e <= length buf /\ (forall j, s <= j < e -> ~ LineEnd g buf j) /\
     ~ CommentLine (comment_chars o) (slice s e buf)) /\
  (forall i j p q, i < j -> nth_error (find_rows o d buf) i = Some p ->
     nth_error (find_rows o d buf) j = Some q -> snd p < fst q) /\
  (length (find_rows o d buf) < max_rows o ->
   forall p, p < length buf ->
     (exists s e, In (s, e) (find_rows o d buf) /\ s <= p < e) \/
     (exists s e, s <= p < e /\ CommentLine (comment_chars o) (slice s e buf)) \/
     LineEnd g buf p \/ (LineEnd g buf (S p) /\ nth_error buf p = Some CR)).
Proof. exact rows_facts. Qed.
Print Assumptions C46_rows_partition_the_sample.
(** x,quote y LF z quote LF # c CR LF LF 5 : two rows, the first with a quoted
    line feed *)
Example C46_meets : 0 < max_rows default_options /\
  find_rows default_options default_dialect
    [120;44;34;121;10;122;34;10;35;99;13;10;10;53]%N = [(0, 7); (13, 14)].
Proof. split; [cbn; lia|reflexivity]. Qed.

(** ** C47: ranking.
    Missing from the full property: candidate sets with scores that are close
    to each other without being tied as a group, and sets with two quote
    characters other than the double quote (see the refutations). *)
Theorem C47_ranking_consistent_partial : forall (P : candidate -> Prop) (rank : candidate -> nat) (q : byte),
  (forall a b, P a -> P b ->
     (flt lit_1e_9 (fsub (cand_score a) (cand_score b)) = true <-> rank b < rank a)) ->
  (forall a, P a -> quote_char (cand_dialect a) = 34%N \/ quote_char (cand_dialect a) = q) ->
  strict_weak_order cand_lt P.
Proof. exact ranked_swo. Qed.
Print Assumptions C47_ranking_consistent_partial.
Theorem C47_ranking_antisymmetric_partial : forall a b, cand_lt a b = true -> cand_lt b a = false.
Proof. exact cand_asym. Qed.
Print Assumptions C47_ranking_antisymmetric_partial.
(** With the double quote as the only quote character, the candidates of a
    plain sample meet the hypotheses: two ranks. *)
Definition dq_options := mkOptions 4096 2 100 [44; 59]%N [34]%N [92]%N [35]%N.
Definition dq_rank (c : candidate) : nat := if flt lit_0_5 (cand_score c) then 1 else 0.
Example C47_meets :
  let P := fun c => In c (candidates_of dq_options plain_sample) in
  (forall a b, P a -> P b ->
     (flt lit_1e_9 (fsub (cand_score a) (cand_score b)) = true <-> dq_rank b < dq_rank a)) /\
  (forall a, P a -> quote_char (cand_dialect a) = 34%N \/ quote_char (cand_dialect a) = 0%N).
Proof.
  cbv zeta. split.
  - assert (F : forallb (fun a => forallb (fun b =>
       Bool.eqb (flt lit_1e_9 (fsub (cand_score a) (cand_score b))) (dq_rank b <? dq_rank a))
         (candidates_of dq_options plain_sample)) (candidates_of dq_options plain_sample) = true)
      by (vm_compute; reflexivity).
    intros a b Ia Ib. rewrite forallb_forall in F. specialize (F a Ia). cbv beta in F.
    rewrite forallb_forall in F. specialize (F b Ib). cbv beta in F.
    apply Bool.eqb_prop in F. rewrite F. apply Nat.ltb_lt.
  - assert (F : forallb (fun a => (quote_char (cand_dialect a) =? 34)%N || (quote_char (cand_dialect a) =? 0)%N)
       (candidates_of dq_options plain_sample) = true) by (vm_compute; reflexivity).
    intros a Ia. rewrite forallb_forall in F. specialize (F a Ia). cbv beta in F.
    apply orb_true_iff in F. destruct F as [F|F]; apply N.eqb_eq in F; auto.
Qed.
(** With the default options and the sample of three rows of two cells, the
    candidates handed to std::sort are not weakly ordered, whatever the hash
    table's iteration order. *)
Theorem C47_strict_weak_order_refuted : forall order, (forall t, Permutation (order t) t) ->
  ~ strict_weak_order cand_lt
      (fun c => In c (map (fun d => score_dialect order default_options d plain_sample)
                          (generate_candidates default_options))).
Proof.
  intros order HO. rewrite (scores_any_order order) by (auto; vm_compute; reflexivity).
  intros (_ & _ & H).
  set (l := map (fun d => score_dialect (fun t => t) default_options d plain_sample)
                (generate_candidates default_options)) in *.
  assert (I : forall k x, nth_error l k = Some x -> In x l) by (intros k x E; eapply nth_error_In; exact E).
  destruct (nth_error l 2) as [x|] eqn:X; [|vm_compute in X; discriminate].
  destruct (nth_error l 4) as [y|] eqn:Y; [|vm_compute in Y; discriminate].
  destruct (nth_error l 3) as [z|] eqn:Z; [|vm_compute in Z; discriminate].
  specialize (H x y z (I _ _ X) (I _ _ Y) (I _ _ Z)).
  vm_compute in X; vm_compute in Y; vm_compute in Z.
  injection X as <-; injection Y as <-; injection Z as <-.
  assert (G : true = false /\ false = false).
  { apply H; split; vm_compute; reflexivity. }
  destruct G; discriminate.
Qed.
Print Assumptions C47_strict_weak_order_refuted.
(** And as a relation on candidates at large it has a cycle. *)
Theorem C47_transitivity_refuted : exists a b c,
  cand_lt a b = true /\ cand_lt b c = true /\ cand_lt c a = true.
Proof.
  exists (mkCandidate default_dialect lit_0 lit_0 (of_lit 16 10000000000) 1),
         (mkCandidate default_dialect lit_0 lit_0 (of_lit 0 1) 3),
         (mkCandidate default_dialect lit_0 lit_0 (of_lit 8 10000000000) 2).
  repeat split; vm_compute; reflexivity.
Qed.
Print Assumptions C47_transitivity_refuted.

(** ** C70: what a detection reports is true of the sample *)
Theorem C70_report_is_true : forall sort order o buf,
  (forall l, Permutation (sort l) l) -> (forall t, Permutation (order t) t) ->
  0 < max_rows o ->
  let r := detect sort order o buf in
  let d := res_dialect r in
  flt lit_0 (res_confidence r) = true ->
  In (delimiter d) (delimiters o) /\
  ((In (quote_char d) (quote_chars o) /\
    ((double_quote d = true /\ escape_char d = quote_char d) \/
     (double_quote d = false /\ In (escape_char d) (escape_chars o) /\ escape_char d <> quote_char d)))
   \/ (quote_char d = 0%N /\ escape_char d = 0%N /\ double_quote d = false)) /\
  exists off len sample rows counts,
    sample = firstn len (skipn off buf) /\
    Nat.min (length buf - off) (Nat.min (sample_size o) MAX_ADAPTIVE_SAMPLE) <= len /\
    skip_comment_lines o buf = (off, res_comment r, res_comment_lines r) /\
    comment_char d = res_comment r /\
    line_ending d = detect_line_ending sample /\
    Rows (quoting_of d) (comment_chars o) (max_rows o) sample rows /\
    res_rows r = length rows /\ min_rows o <= length rows /\
    Forall2 (FieldCount (quoting_of d) (delimiter d))
            (map (fun p => slice (fst p) (snd p) sample) rows) counts /\
    Mode (res_columns r) counts.
Proof. exact report_spec. Qed.
Print Assumptions C70_report_is_true.
Example C70_meets :
  let r := detect some_sort (fun t => t) default_options plain_sample in
  flt lit_0 (res_confidence r) = true /\ delimiter (res_dialect r) = 44%N /\
  res_columns r = 2 /\ res_rows r = 3 /\ res_header r = true.
Proof. vm_compute. repeat split. Qed.

(** ** C71: confidence *)
(** Not even for an ordinary sample: the boost for doubled quotes takes it to
    1.1, with any sort that ranks correctly here and any hash order. *)
Theorem C71_confidence_at_most_one_refuted : exists buf, forall sort order,
  (forall t, Permutation (order t) t) ->
  (let l := candidates_of default_options buf in Permutation (sort l) l /\ Winner cand_lt l (sort l)) ->
  flt (of_size 1) (res_confidence (detect sort order default_options buf)) = true.
Proof.
  exists doubled_sample. intros sort order HO (H1 & H2).
  assert (N : exists best, nth_error (candidates_of default_options doubled_sample) 0 = Some best)
    by (eexists; vm_compute; reflexivity).
  destruct N as (best & N).
  destruct (best_at _ _ _ N) as (B1 & B2).
  { vm_compute in N. injection N as <-. vm_compute. reflexivity. }
  assert (S1 : sample_len default_options doubled_sample = length doubled_sample) by (vm_compute; reflexivity).
  destruct (detect_winner sort order default_options doubled_sample 0 0%N 0 best HO) as (C & _).
  - reflexivity.
  - discriminate.
  - vm_compute; reflexivity.
  - exact H1.
  - exact H2.
  - exact B1.
  - exact B2.
  - vm_compute in N. injection N as <-. reflexivity.
  - rewrite C. vm_compute in N. injection N as <-. reflexivity.
Qed.
Print Assumptions C71_confidence_at_most_one_refuted.
Example C71_meets : let l := candidates_of default_options doubled_sample in
  Permutation (some_sort l) l /\ Winner cand_lt l (some_sort l).
Proof.
  split; [apply some_sort_perm|].
  apply (winner_check _ (mkCandidate default_dialect lit_0 lit_0 lit_0 0)). vm_compute. reflexivity.
Qed.

(** ** C72: cell types *)
Theorem C72_cell_types : forall cell t, Trimmed White cell t ->
  let r := infer_cell_type cell in
  (r = EMPTY <-> t = []) /\
  (r = BOOLEAN <-> In t [[116; 114; 117; 101]; [102; 97; 108; 115; 101]; [84; 82; 85; 69];
                         [70; 65; 76; 83; 69]; [84; 114; 117; 101]; [70; 97; 108; 115; 101]]%N) /\
  (r = INTEGER <-> IntegerText t) /\ (r = FLOAT <-> FloatText t) /\
  (r = DATE <-> DateText t) /\ (r = TIME <-> TimeText t) /\
  (r = DATETIME -> exists dp sep rest x, t = dp ++ sep :: rest /\ (sep = 84%N \/ sep = 32%N) /\
                     Trimmed White dp x /\ DateText x).
Proof. intros cell t H. exact (classify (length cell) cell t H). Qed.
Print Assumptions C72_cell_types.
Example C72_meets : Trimmed White [32;45;55;9]%N [45;55]%N /\ infer_cell_type [32;45;55;9]%N = INTEGER.
Proof.
  split; [|reflexivity]. exists [32]%N, [9]%N. split; [reflexivity|].
  split; [repeat constructor; unfold White; lia|]. split; [repeat constructor; unfold White; lia|].
  split; intros c r E.
  - injection E as <- _. unfold White. lia.
  - destruct r as [|? [|? [|]]]; try discriminate. injection E as _ <-. unfold White. lia.
Qed.
Theorem C72_every_date_time_is_recognised : forall d s t z,
  DateText d -> s = 84%N \/ s = 32%N -> TimeText t -> ZoneText z ->
  infer_cell_type (d ++ s :: t ++ z) = DATETIME.
Proof. exact datetime_complete. Qed.
Print Assumptions C72_every_date_time_is_recognised.
Example C72_date_time_meets :
  DateText [50;48;50;52;45;48;49;45;48;50]%N /\ TimeText [49;50;58;51;48]%N /\ ZoneText [43;48;49;58;48;48]%N.
Proof.
  assert (D : forall l, forallb digit l = true -> Digits l) by (intros; apply forallb_digits; assumption).
  split; [|split].
  - exists 45%N, [50;48;50;52]%N, [48;49]%N, [48;50]%N. repeat split; auto; apply D; reflexivity.
  - exists [49;50]%N, [51;48]%N. split; [apply D; reflexivity|]. split; [apply D; reflexivity|]. repeat split; auto.
  - right; right. exists 43%N, [48;49]%N, [48;48]%N. split; [auto|]. split; [apply D; reflexivity|].
    split; [reflexivity|]. split; [apply D; reflexivity|]. split; [reflexivity|]. right; reflexivity.
Qed.
(** But not only those: the text after the date is not looked at.  The cell
    here is 2024-01-01 lorem ipsum. *)
Theorem C72_date_time_has_a_time_refuted : exists d rest, DateText d /\
  Forall (fun c => ~ Digit c) rest /\ infer_cell_type (d ++ 32%N :: rest) = DATETIME.
Proof.
  exists [50;48;50;52;45;48;49;45;48;49]%N, [108;111;114;101;109;32;105;112;115;117;109]%N.
  split; [|split; [|reflexivity]].
  - apply date_shape_ok. reflexivity.
  - apply Forall_forall. intros c I. cbn [In] in I. unfold Digit.
    repeat (destruct I as [<-|I]; [lia|]). destruct I.
Qed.
Print Assumptions C72_date_time_has_a_time_refuted.
(** The cells that raise the type score. *)
Theorem C72_typed_cells : forall f t, Trimmed Blank f t ->
  typed_cell f = true <-> (infer_cell_type f <> STRING \/ SpecialFloat t).
Proof. exact typed_cell_ok. Qed.
Print Assumptions C72_typed_cells.
Example C72_typed_meets : typed_cell [45;105;110;102]%N = true /\ infer_cell_type [45;105;110;102]%N = STRING /\
  typed_cell [97]%N = false.
Proof. repeat split. Qed.

(** ** C73: fields *)
Theorem C73_fields_split_at_free_delimiters : forall d row, row <> [] -> exists raw,
  join (delimiter d) raw = row /\
  Lists (fun i => FreeAt (quoting_of d) row i /\ nth_error row i = Some (delimiter d)) (separators 0 raw) /\
  Forall2 (Unquoted (q_quote (quoting_of d))) raw (extract_fields d row).
Proof. exact extract_fields_ok. Qed.
Print Assumptions C73_fields_split_at_free_delimiters.
Example C73_meets : extract_fields default_dialect [34;97;44;98;34;44;99]%N = [[97;44;98]; [99]]%N.
Proof. reflexivity. Qed.

(** ** C74: how much of the input matters *)
Theorem C74_only_a_prefix_matters : forall sort order o p x off ch n,
  skip_comment_lines o p = (off, ch, n) ->
  off + sample_size o < length p -> off + 1024 * 1024 <= length p ->
  detect sort order o (p ++ x) = detect sort order o p.
Proof. exact detect_local. Qed.
Print Assumptions C74_only_a_prefix_matters.
Example C74_meets : exists p, skip_comment_lines default_options p = (0, 0%N, 0) /\
  0 + sample_size default_options < length p /\ 0 + 1024 * 1024 <= length p.
Proof.
  exists (97%N :: repeat 97%N (1024 * 1024 + sample_size default_options)).
  split; [|cbn [length]; rewrite repeat_length; split; lia].
  unfold skip_comment_lines. set (r := repeat _ _). clearbody r. reflexivity.
Qed.
(** A file with three rows of 3001 cells each: detect on its content succeeds
    with confidence 1, detect_file on the same file does not succeed, for any
    sort and any hash order. *)
Definition wide_row : bytes := concat (repeat [49;44]%N 3000) ++ [49;10]%N.
Definition wide_file : bytes := wide_row ++ wide_row ++ wide_row.
Definition comma_options : options := mkOptions 10240 2 100 [44]%N [] [] [35]%N.
Theorem C74_detect_file_agrees_with_detect_refuted : forall sort order,
  (forall l, Permutation (sort l) l) -> (forall t, Permutation (order t) t) ->
  res_confidence (detect sort order comma_options wide_file) = of_size 1 /\
  success (detect sort order comma_options wide_file) = true /\
  success (detect_file sort order comma_options (Some wide_file)) = false.
Proof.
  intros sort order HS HO.
  unfold detect_file. rewrite !(detect_one sort order comma_options (mkDialect 44 0 0 false LE_UNKNOWN 0)) by auto.
  assert (E : res_confidence (detect (fun l => l) order comma_options wide_file) = of_size 1).
  { rewrite (detect_single_score order comma_options (mkDialect 44 0 0 false LE_UNKNOWN 0) wide_file 0 0 HO);
      [vm_compute; reflexivity|reflexivity|vm_compute; reflexivity|discriminate|vm_compute; reflexivity|vm_compute; reflexivity]. }
  split; [exact E|]. split; [unfold success; rewrite E; reflexivity|].
  vm_compute. reflexivity.
Qed.
Print Assumptions C74_detect_file_agrees_with_detect_refuted.
Example C74_length : length wide_row = 6002.
Proof. vm_compute. reflexivity. Qed.
Theorem C74_small_files_agree : forall sort order o content, length content <= sample_size o ->
  detect_file sort order o (Some content) = detect sort order o content.
Proof. intros. unfold detect_file. rewrite firstn_all2 by assumption. reflexivity. Qed.
Print Assumptions C74_small_files_agree.
Example C74_small_meets : length plain_sample <= sample_size default_options.
Proof. apply Nat.leb_le. reflexivity. Qed.

(** ** C75: line endings *)
Theorem C75_line_ending_exact : forall buf,
  match detect_line_ending buf with
  | LE_LF => HasLF buf /\ ~ HasCRLF buf /\ ~ HasCR buf
  | LE_CRLF => HasCRLF buf /\ ~ HasLF buf /\ ~ HasCR buf
  | LE_CR => HasCR buf /\ ~ HasLF buf /\ ~ HasCRLF buf
  | LE_UNKNOWN => ~ HasLF buf /\ ~ HasCRLF buf /\ ~ HasCR buf
  | LE_MIXED => (HasLF buf /\ HasCRLF buf) \/ (HasLF buf /\ HasCR buf) \/ (HasCRLF buf /\ HasCR buf)
  end.
Proof. exact line_ending_ok. Qed.
Print Assumptions C75_line_ending_exact.
Example C75_meets : detect_line_ending [97;13;10;98;13;10]%N = LE_CRLF /\
  detect_line_ending [97;13;98;10]%N = LE_MIXED /\ detect_line_ending [97;13]%N = LE_CR.
Proof. repeat split. Qed.

(** ** C76: the detected dialect can be used *)
Theorem C76_separable_options_validate : forall sort order o buf,
  (forall l, Permutation (sort l) l) -> (forall t, Permutation (order t) t) ->
  0 < max_rows o ->
  (forall d q, In d (delimiters o) -> In q (0%N :: quote_chars o) -> Separable d q) ->
  validate_passes (res_dialect (detect sort order o buf)) = true.
Proof.
  intros sort order o buf HS HO HM H.
  destruct (flt lit_0 (res_confidence (detect sort order o buf))) eqn:E.
  - destruct (report_spec sort order o buf HS HO HM E) as (D & Q & _).
    apply validate_separable. apply H; [exact D|].
    destruct Q as [(Q & _)|(-> & _)]; [right; exact Q|left; reflexivity].
  - unfold detect in *. destruct buf as [|c b]; [reflexivity|].
    destruct (skip_comment_lines o (c :: b)) as ((off, ch), n).
    destruct (skipn off (c :: b)); [reflexivity|].
    match goal with |- context [sort ?l] => destruct (sort l) as [|best others]; [reflexivity|] end.
    destruct (flt lit_0 (cand_score best)) eqn:F; [|reflexivity].
    cbn [res_confidence] in E. congruence.
Qed.
Print Assumptions C76_separable_options_validate.
Example C76_meets : forall d q, In d (delimiters default_options) -> In q (0%N :: quote_chars default_options) -> Separable d q.
Proof.
  intros d q Id Iq. cbn [delimiters default_options In quote_chars] in Id, Iq.
  repeat (destruct Id as [<-|Id]; [|]); try (destruct Id; fail);
    (repeat (destruct Iq as [<-|Iq]; [|]); try (destruct Iq; fail)); repeat split; discriminate.
Qed.
(** is_valid is stricter: a sample whose quote marks do not pair makes the
    dialect without quotes the clear winner, whose quote character 0 is_valid
    rejects. *)
Theorem C76_detected_dialect_is_valid_refuted : exists buf, forall sort order,
  (forall t, Permutation (order t) t) ->
  (let l := candidates_of default_options buf in Permutation (sort l) l /\ Winner cand_lt l (sort l)) ->
  success (detect sort order default_options buf) = true /\
  is_valid (res_dialect (detect sort order default_options buf)) = false.
Proof.
  exists odd_quotes_sample. intros sort order HO (H1 & H2).
  assert (N : exists best, nth_error (candidates_of default_options odd_quotes_sample) 4 = Some best)
    by (eexists; vm_compute; reflexivity).
  destruct N as (best & N).
  destruct (best_at _ _ _ N) as (B1 & B2).
  { vm_compute in N. injection N as <-. vm_compute. reflexivity. }
  destruct (detect_winner sort order default_options odd_quotes_sample 0 0%N 0 best HO) as (C & _ & D).
  - reflexivity.
  - discriminate.
  - vm_compute; reflexivity.
  - exact H1.
  - exact H2.
  - exact B1.
  - exact B2.
  - vm_compute in N. injection N as <-. reflexivity.
  - unfold success. rewrite C, D. vm_compute in N. injection N as <-. split; vm_compute; reflexivity.
Qed.
Print Assumptions C76_detected_dialect_is_valid_refuted.
Example C76_winner_meets : let l := candidates_of default_options odd_quotes_sample in
  Permutation (some_sort l) l /\ Winner cand_lt l (some_sort l).
Proof.
  split; [apply some_sort_perm|].
  apply (winner_check _ (mkCandidate default_dialect lit_0 lit_0 lit_0 0)). vm_compute. reflexivity.
Qed.
