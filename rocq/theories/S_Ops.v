(** * Specification: output operations performed in source order. *)
From Coq Require Import List NArith Arith.
From Verif Require Import S_Tokens M_Emit.
Import ListNotations.

(** Operations performed in increasing source order, in bounds: everything lies in [lo, hi]. *)
Inductive ops_in : nat -> nat -> list out_op -> Prop :=
| ops_nil lo hi : lo <= hi -> ops_in lo hi []
| ops_emit lo hi begin len ty f r : lo <= begin -> 0 < len ->
    ops_in (begin + len) hi r -> ops_in lo hi (OEmit begin len ty f :: r)
| ops_nested lo hi cap off len ops r : lo <= off -> 0 < cap ->
    ops_in 0 len ops -> ops_in (off + len) hi r -> ops_in lo hi (ONested cap off len ops :: r).
