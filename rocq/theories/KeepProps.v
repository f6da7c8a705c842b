(** C20, exactly: what each column type stores of a text, and which sampled cells are lost. *)
From Verif Require Import Base NumSpec DateSpec StampSpec ReaderSpec TypesSpec TypesModel TypesProof TypesProof2 TypesProof3 KeepSpec KeepProof.

(** A cell is stored as [x] exactly when that is what the text means in a column of the type. *)
Theorem C20_stored_exactly :
  forall (F : Type) (ff : bytes -> option F) (lanes : nat) (T : data_type) (v : bytes) (x : @value F),
    lanes <= 64 -> is_bytes v -> (append_value ff lanes T v = Some x <-> means ff T v x).
Proof. intros F ff. exact (kept_iff ff). Qed.
Print Assumptions C20_stored_exactly.

(** A text means at most one thing in a column. *)
Theorem C20_meaning_unique :
  forall (F : Type) (ff : bytes -> option F) (T : data_type) (v : bytes) (x y : @value F),
    is_bytes v -> means ff T v x -> means ff T v y -> x = y.
Proof.
  intros F ff T v x y Hb Hx Hy. assert (L : 1 <= 64) by lia.
  apply (kept_iff ff 1 T v x L Hb) in Hx. apply (kept_iff ff 1 T v y L Hb) in Hy. congruence.
Qed.
Print Assumptions C20_meaning_unique.

(** A sampled cell of the column whose type is the narrowest for the sample is read as null
    exactly in the listed cases. *)
Theorem C20_lost_exactly :
  forall (F : Type) (ff : bytes -> option F) (lanes : nat) (o : csv_options) (cells : list bytes) (T : data_type) (v : bytes),
    lanes <= 64 -> is_bytes v -> narrowest (map (infer_field ff o) cells) T -> In v cells -> infer_field ff o v <> NA ->
    (append_value ff lanes T v = None <-> lost ff (infer_field ff o v) T v).
Proof. intros F ff. exact (lost_iff ff). Qed.
Print Assumptions C20_lost_exactly.

(** The same with the default spellings of true and false, none of which is a number. *)
Theorem C20_lost_by_default_exactly :
  forall (F : Type) (ff : bytes -> option F) (lanes : nat) (cells : list bytes) (T : data_type) (v : bytes),
    (forall w, In w (comma_pieces (true_values default_options)) \/ In w (comma_pieces (false_values default_options)) -> w <> [] -> ff w = None) ->
    lanes <= 64 -> is_bytes v -> narrowest (map (infer_field ff default_options) cells) T -> In v cells -> infer_field ff default_options v <> NA ->
    let t := infer_field ff default_options v in
    append_value ff lanes T v = None <->
      (T = BOOL /\ (v = s2b "Yes" \/ v = s2b "No")) \/
      (t = BOOL /\ (T = INT32 \/ T = INT64 \/ T = FLOAT64)) \/
      (t = INT64 /\ T = INT64 /\ ~ (exists z, integer_in 64 20 v z)) \/
      ((t = INT32 \/ t = INT64) /\ T = FLOAT64 /\ ff v = None) \/
      (t = DATE /\ T = DATE /\ ~ (exists n, date_value v n)) \/
      (t = DATE /\ T = TIMESTAMP) \/
      (t = TIMESTAMP /\ T = TIMESTAMP /\ ~ (exists n, timestamp_value v n)).
Proof. intros F ff. exact (lost_default ff). Qed.
Print Assumptions C20_lost_by_default_exactly.

(** A float parser that refuses a leading plus loses the integer +5 of a column with 2.5. *)
Theorem C20_plus_in_float_column_refuted :
  forall (F : Type) (ff : bytes -> option F), ff (s2b "+5") = None -> ff (s2b "2.5") <> None ->
    narrowest (map (infer_field ff default_options) [s2b "+5"; s2b "2.5"]) FLOAT64 /\
    infer_field ff default_options (s2b "+5") = INT32 /\ append_value ff 16 FLOAT64 (s2b "+5") = None.
Proof.
  intros F ff H1 H2. assert (E1 : infer_field ff default_options (s2b "+5") = INT32) by reflexivity.
  assert (E2 : infer_field ff default_options (s2b "2.5") = FLOAT64) by (vm_compute; vm_compute in H2; destruct (ff [50%N; 46%N; 53%N]); [reflexivity|exfalso; apply H2; reflexivity]).
  split; [|split; [exact E1|cbn [append_value]; rewrite H1; reflexivity]].
  cbn [map]. rewrite E1, E2. apply (narrowest_pair INT32 FLOAT64); discriminate.
Qed.
Print Assumptions C20_plus_in_float_column_refuted.

Definition toy_float (v : bytes) : option unit := if ReaderModel.bytes_eqb v (s2b "2.5") then Some tt else None.

Example C20_exact_nonvacuous :
  means toy_float INT32 (s2b "-2147483648") (VInt (-2147483648)) /\ means toy_float BOOL (s2b "yes") (VBool true) /\
  means toy_float DATE (s2b "1970-01-03") (VInt 2) /\ ~ (exists x, means toy_float DATE (s2b "2023-02-29") x) /\
  lost toy_float INT32 FLOAT64 (s2b "7") /\ ~ lost toy_float INT32 INT64 (s2b "7") /\
  (forall w, In w (comma_pieces (true_values default_options)) \/ In w (comma_pieces (false_values default_options)) -> w <> [] -> toy_float w = None).
Proof.
  assert (L : 16 <= 64) by lia.
  assert (K : forall T v x, is_bytes v -> append_value toy_float 16 T v = Some x -> means toy_float T v x) by (intros T v x Hb; exact (proj1 (kept_iff toy_float 16 T v x L Hb))).
  assert (B : forall v, forallb (fun c => N.ltb c 256) v = true -> is_bytes v).
  { intros v H. apply Forall_forall. intros c Hc. rewrite forallb_forall in H. now apply N.ltb_lt, H. }
  split; [apply K; [apply B|]; reflexivity|]. split; [apply K; [apply B|]; reflexivity|]. split; [apply K; [apply B|]; reflexivity|].
  split; [apply (none_iff toy_float 16 DATE); [exact L|apply B; reflexivity|reflexivity]|].
  split; [cbn [lost]; split; [tauto|reflexivity]|].
  split.
  - cbn [lost]. intros [[H|H] _]; discriminate H.
  - intros w [H|H] _; vm_compute in H; repeat (destruct H as [<-|H]; [reflexivity|]); destruct H.
Qed.
Print Assumptions C20_exact_nonvacuous.
