(** The protection rules a [Dialect] value stands for: a quote or escape
    character of 0 means there is none, and the escape character is not used
    when quotes are doubled (dialect.h:35-39, dialect.cpp:766-770). *)
From Verif Require Import Base DialectSpec DialectModel.

Definition quoting_of (d : dialect) : quoting :=
  mkQuoting (if (quote_char d =? 0)%N then None else Some (quote_char d))
            (if double_quote d || (escape_char d =? 0)%N then None else Some (escape_char d))
            (double_quote d).
