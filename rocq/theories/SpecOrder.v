(** Specification: orders on keys, stated without reference to the code. *)
From Verif Require Import Base.
Local Open Scope N_scope.

(** Strict lexicographic order on byte strings, a proper prefix being smaller. *)
Inductive lex : bytes -> bytes -> Prop :=
| lex_nil y b : lex [] (y :: b)
| lex_lt x y a b : x < y -> lex (x :: a) (y :: b)
| lex_eq x a b : lex a b -> lex (x :: a) (x :: b).

Definition lex_le (a b : bytes) : Prop := a = b \/ lex a b.
