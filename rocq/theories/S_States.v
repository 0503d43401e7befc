(** * Specification: programs whose lexemes depend on what came before. *)
From Coq Require Import List NArith.
From Verif Require Import M_Base S_Lexemes.
Import ListNotations.

(** [lexeme s p rest s'] says that in state [s] the pieces [p] form a lexeme if the text [rest] follows, and lead to state [s']. *)
Inductive sequence {A : Type} (lexeme : A -> list piece -> str -> A -> Prop) : A -> list piece -> Prop :=
| sequence_end s : sequence lexeme s []
| sequence_lexeme s p s' l : lexeme s p (text l) s' -> sequence lexeme s' l -> sequence lexeme s (p ++ l).
