(** C11: what the field iterator delivers for every row. *)
From Verif Require Import Base ChunkSpec FieldsSpec FieldsModel SplitSpec SplitProof.

(** Every row: the fields are those of the division in blocks. *)
Theorem C11_what_is_split :
  forall (lanes : nat) (clmul : bool) (sep eol q : byte) (data : bytes) (ne : bool),
    1 <= lanes -> Nat.divide lanes 64 -> q <> sep -> q <> eol -> q <> 0%N ->
    option_map (fun r => (map fst (fst r), snd r)) (row_fields lanes clmul sep q eol data ne)
    = Some (split_in_blocks sep eol q data).
Proof. intros lanes clmul sep eol q data ne H1 H2 H3 H4 H5. exact (iterator_blocks sep eol q H3 H4 H5 lanes clmul data ne H1 H2). Qed.
Print Assumptions C11_what_is_split.

(** Exactly when they are right: every field that was ended by a delimiter has an
    even number of quotes.  A wrong split always shows in the fields delivered. *)
Theorem C11_right_exactly_when_balanced :
  forall (lanes : nat) (clmul : bool) (sep eol q : byte) (data : bytes) (ne : bool) fs rest,
    1 <= lanes -> Nat.divide lanes 64 -> q <> sep -> q <> eol -> q <> 0%N ->
    option_map (fun r => (map fst (fst r), snd r)) (row_fields lanes clmul sep q eol data ne) = Some (fs, rest) ->
    ((fs, rest) = raw_row (N.eqb eol) sep q false data <-> Forall (balanced q) (delimited sep data fs)).
Proof. intros lanes clmul sep eol q data ne fs rest H1 H2 H3 H4 H5. exact (iterator_right_iff sep eol q H3 H4 H5 lanes clmul data ne fs rest H1 H2). Qed.
Print Assumptions C11_right_exactly_when_balanced.

(** A row of a and a quoted b,c is split wrongly if more than 64 bytes follow its
    start, and the field with one quote shows it; it is split rightly in a short buffer. *)
Example C11_split_meets :
  let row := s2b "a," ++ [DQ] ++ s2b "b,c" ++ [DQ; LF] in
  split_in_blocks COMMA LF DQ row = ([s2b "a"; [DQ] ++ s2b "b,c" ++ [DQ]], []) /\
  delimited COMMA row (fst (split_in_blocks COMMA LF DQ row)) = [s2b "a"; [DQ] ++ s2b "b,c" ++ [DQ]] /\
  fst (split_in_blocks COMMA LF DQ (row ++ repeat 97%N 60)) = [s2b "a"; [DQ] ++ s2b "b"; s2b "c" ++ [DQ]] /\
  ~ balanced DQ ([DQ] ++ s2b "b") /\ balanced DQ ([DQ] ++ s2b "b,c" ++ [DQ]).
Proof. vm_compute. repeat split. discriminate. Qed.
Print Assumptions C11_split_meets.
