(** * Specification: YAML *)
From Coq Require Import List NArith Bool Arith.
From Verif Require Import M_Base M_Types S_Lexemes.
Import ListNotations.

(** ** Entries *)
(** The number of block entries that a text can have at most: hyphens followed by a space, and colons at the end of a line or
    followed by a space. *)
Definition line_end (s : str) : bool := match s with [] => true | c :: _ => (c =? 13)%N || (c =? 10)%N end.
Definition entry_start (s : str) : bool :=
  match s with
  | c :: t => (c =? ch "-")%N && starts_with t (bs " ") || (c =? ch ":")%N && (line_end t || starts_with t (bs " "))
  | [] => false
  end.
Fixpoint entries (s : str) : nat := match s with [] => 0 | _ :: t => (if entry_start s then 1 else 0) + entries t end.
