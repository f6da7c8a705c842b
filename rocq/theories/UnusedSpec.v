(** What the options of the reader promise by their names and comments. *)
From Verif Require Import Base CliSpec.

(** The text without the lines that start with the comment character. *)
Definition without_comment_lines (k : byte) (c : bytes) : bytes :=
  concat (map (fun l => l ++ [LF]) (filter (fun l => match l with x :: _ => negb (N.eqb x k) | [] => true end) (output_lines c []))).
