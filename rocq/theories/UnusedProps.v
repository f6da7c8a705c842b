(** C99: the options that do nothing. *)
From Verif Require Import Base TypesSpec WordsModel ChunkModel FieldsModel NumModel ReaderModel TypesModel UnusedSpec UnusedModel.

(** Names and columns of what is read. *)
Definition seen (r : option (list bytes * list data_type * @read_result (@value N))) : option (list bytes * list (list (list (option (@value N))))) :=
  option_map (fun x => let '(ns, _, t) := x in (ns, chunks t)) r.
Definition reading (a : all_options) (c : bytes) := seen (read_with (fun _ => None) 16 true 1 false a c).

Theorem C99_members_without_effect :
  forall (F : Type) (ff : bytes -> option F) (lanes : nat) (clmul : bool) (num_threads : N) (ne : bool) (a b : all_options) (c : bytes),
    used a = used b -> read_with ff lanes clmul num_threads ne a c = read_with ff lanes clmul num_threads ne b c.
Proof. intros F ff lanes clmul nt ne a b c E. unfold read_with. rewrite E. reflexivity. Qed.
Print Assumptions C99_members_without_effect.

(** comment: a commented line is a row. *)
Theorem C99_comment_refuted :
  ~ (forall (a : all_options) (c : bytes), comment a <> 0%N -> reading a c = reading a (without_comment_lines (comment a) c)).
Proof.
  intros H. specialize (H (mkAll default_options 92%N 35%N true 0%N [] []) (s2b "x" ++ [LF] ++ s2b "#no" ++ [LF] ++ s2b "y" ++ [LF]) ltac:(discriminate)).
  vm_compute in H. discriminate H.
Qed.
Print Assumptions C99_comment_refuted.

(** columns, column_indices: all columns are read. *)
Theorem C99_selection_refuted :
  ~ (forall (a : all_options) (c : bytes) names chunks, reading a c = Some (names, chunks) ->
       (columns a <> [] -> incl names (columns a)) /\ (column_indices a <> [] -> length names <= length (column_indices a))).
Proof.
  intros H. specialize (H (mkAll default_options 92%N 0%N true 0%N [s2b "b"] [1]) (s2b "a,b" ++ [LF] ++ s2b "1,2" ++ [LF])).
  destruct (reading _ _) as [[ns ch]|] eqn:E in H; [|vm_compute in E; discriminate E].
  destruct (H ns ch eq_refl) as (_ & K). specialize (K ltac:(discriminate)).
  vm_compute in E. injection E as <- _. cbn in K. lia.
Qed.
Print Assumptions C99_selection_refuted.

(** skip_empty_rows = false: empty rows are skipped all the same. *)
Theorem C99_empty_rows_refuted :
  ~ (forall (a : all_options) (c : bytes) names types t,
       read_with (fun _ => @None N) 16 true 1 false a c = Some (names, types, t) -> skip_empty_rows a = false ->
       S (total_rows t) = length (CliSpec.output_lines c [])).
Proof.
  intros H. specialize (H (mkAll default_options 92%N 0%N false 0%N [] []) (s2b "x,y" ++ [LF; LF] ++ s2b "1,2" ++ [LF])).
  destruct (read_with _ _ _ _ _ _ _) as [[[ns ts] t]|] eqn:E in H; [|vm_compute in E; discriminate E].
  specialize (H ns ts t eq_refl eq_refl). vm_compute in E. injection E as _ _ <-. vm_compute in H. discriminate H.
Qed.
Print Assumptions C99_empty_rows_refuted.

(** escape: an escaped quote ends the field, and the rest of the line is other fields. *)
Theorem C99_escape_refuted :
  exists (a : all_options) (c : bytes), escape a = 92%N /\
    c = s2b "x,y" ++ [LF; DQ] ++ s2b "p\" ++ [DQ] ++ s2b ",q" ++ [DQ] ++ s2b ",r" ++ [LF] /\
    reading a c = Some ([s2b "x"; s2b "y"], [[[Some (VString (s2b "p\"))]; [Some (VString (s2b "q" ++ [DQ]))]]]).
Proof. exists all_defaults. eexists. split; [reflexivity|]. split; [reflexivity|]. vm_compute. reflexivity. Qed.
Print Assumptions C99_escape_refuted.

(** The same rows are read whatever the other members say. *)
Example C99_meets :
  reading (mkAll default_options 0%N 35%N false 7%N [s2b "b"] [1]) (s2b "a,b" ++ [LF] ++ s2b "1,2" ++ [LF]) =
  reading all_defaults (s2b "a,b" ++ [LF] ++ s2b "1,2" ++ [LF]) /\
  option_map fst (reading all_defaults (s2b "a,b" ++ [LF] ++ s2b "1,2" ++ [LF])) = Some [s2b "a"; s2b "b"].
Proof. split; vm_compute; reflexivity. Qed.
Print Assumptions C99_meets.
