(** Buffers and columns as they come out of any history of public operations. *)
From Verif Require Import Base BuffersSpec BuffersModel BuffersObs.

(** Some history, run on the code, leaves [s] at a handle; run on plain lists, it leaves [l] there. *)
Definition built {S L E} (I : impl S E) (A : impl L E) (s : S) (l : L) : Prop :=
  exists ops lists states i,
    run A [] ops = Some lists /\ nth_error lists i = Some l /\
    run I [] ops = Some states /\ nth_error states i = Some s.

Definition flags_built : bitmap -> list bool -> Prop := built bitmap_impl (as_lists bool).
Definition fixed_built {V} (dflt : V) : column (list V) -> list (option V) -> Prop :=
  built (fixed_impl dflt) (as_lists (option V)).
(** The texts of one column together stay below 4 GiB. *)
Definition strings_built : column strbuf -> list (option bytes) -> Prop :=
  built string_impl (as_small_lists texts_size two32).
