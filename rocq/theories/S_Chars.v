(** * Specification of character sets and case-insensitive comparison, independent of their
    implementation. *)
From Coq Require Import List NArith Bool Sorted.
From Verif Require Import M_Base M_Charset.
Import ListNotations.
Local Open Scope N_scope.

(** The object [s] is a well-formed set of width [w] which contains exactly the code units on
    which [p] holds, as seen through the membership operator. *)
Definition denotes (w : N) (s : charset) (p : N -> bool) : Prop :=
  N.of_nat (length s) = limb_count w
  /\ Forall (fun l => l < 2 ^ 64) s
  /\ forall c, c < w -> cs_has w s c = Ok (p c).

(** The lower-case form of an ASCII letter; every other code unit is itself. *)
Definition lower (c : N) : N := if (65 <=? c) && (c <=? 90) then c + 32 else c.

(** Lexicographic order on strings of code units. *)
Inductive lex_lt : str -> str -> Prop :=
| lex_nil : forall b y, lex_lt [] (b :: y)
| lex_head : forall a b x y, a < b -> lex_lt (a :: x) (b :: y)
| lex_tail : forall a x y, lex_lt x y -> lex_lt (a :: x) (a :: y).

(** [c] lies in one of the closed ranges of the list. *)
Definition in_ranges (l : list (N * N)) (c : N) : Prop :=
  exists r, In r l /\ fst r <= c <= snd r.
