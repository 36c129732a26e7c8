(* Lexicographic (dictionary) order on strings of numbers: how basic_string compares. *)
From Coq Require Import ZArith List.
Import ListNotations.
Local Open Scope Z_scope.

Inductive lex_lt : list Z -> list Z -> Prop :=
| lex_nil y ys : lex_lt [] (y :: ys)
| lex_here x y xs ys : x < y -> lex_lt (x :: xs) (y :: ys)
| lex_next x xs ys : lex_lt xs ys -> lex_lt (x :: xs) (x :: ys).
