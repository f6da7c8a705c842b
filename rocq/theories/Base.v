(** Shared basics: bytes, buffers, character constants.  No code of /repo is
    modelled here; the constants are the C++ character literals used there. *)
From Coq Require Export Ascii String.
From Coq Require Export List Arith NArith ZArith Lia Bool.
From Coq Require Export ZifyBool ZifyNat ZifyN.
Export ListNotations.

(** A C++ [char]/[uint8_t], seen as its unsigned value. *)
Notation byte := N (only parsing).
Notation bytes := (list N) (only parsing).

Definition LF : byte := 10%N.     (* '\n' *)
Definition CR : byte := 13%N.     (* '\r' *)
Definition DQ : byte := 34%N.     (* double quote *)
Definition COMMA : byte := 44%N.  (* ','  *)
Definition SPACE : byte := 32%N.  (* ' '  *)
Definition TAB : byte := 9%N.     (* '\t' *)

(** [s2b] turns a Coq string literal into a buffer (used in examples only). *)
Fixpoint s2b (s : string) : bytes :=
  match s with
  | EmptyString => []
  | String a r => N_of_ascii a :: s2b r
  end.
Arguments s2b s%string.

(** [slice a b l] = the bytes at offsets a .. b-1. *)
Definition slice {A} (a b : nat) (l : list A) : list A := firstn (b - a) (skipn a l).
