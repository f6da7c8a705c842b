(** What a command line asks for. *)
From Verif Require Import Base CliSpec CompressSpec.

Definition help_words : list bytes := map s2b ["help"; "--help"; "-h"]%string.
Definition version_words : list bytes := map s2b ["version"; "--version"; "-V"]%string.
(** The commands that read a table and print, and the two that are announced for later. *)
Inductive viewer := Count | Head | Info | Select | Pretty.
Definition viewers : list (viewer * bytes) :=
  [(Count, s2b "count"); (Head, s2b "head"); (Info, s2b "info"); (Select, s2b "select"); (Pretty, s2b "pretty")].
Definition later_words : list bytes := map s2b ["tail"; "sample"]%string.
Definition reserved_words : list bytes :=
  help_words ++ version_words ++ s2b "convert" :: map snd viewers ++ later_words.
(** A word taken for the name of a file. *)
Definition file_like (w : bytes) : Prop := ~ In w reserved_words /\ hd 0%N w <> 45%N /\ In 46%N w.

(** The documented names of the compression methods. *)
Definition compression_names : list (bytes * codec) :=
  [(s2b "zstd", C_ZSTD); (s2b "snappy", C_SNAPPY); (s2b "lz4", C_LZ4); (s2b "gzip", C_GZIP); (s2b "none", C_NONE)].
