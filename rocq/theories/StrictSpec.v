(** Which texts the documentation of error handling calls erroneous
    (docs/error-handling.qmd, docs/cli.qmd), without reference to the code. *)
From Verif Require Import Base ChunkSpec TypesSpec ReaderSpec.

(** The first line of a text: what stands before the first line end outside quotes. *)
Definition first_line (q : byte) (data : bytes) : bytes := hd [] (lines q data).

(** Some row has another number of cells than the first one. *)
Definition ragged (sep q : byte) (data : bytes) : Prop :=
  exists header rows row,
    table_rows sep q data = header :: rows /\ In row rows /\ length row <> length header.

(** The text ends inside quotes. *)
Definition unclosed_quote (q : byte) (data : bytes) : Prop := inside_at false q data (length data) = true.
