(** * Specification: what a user expects of a language highlighter. *)
From Coq Require Import List NArith Bool Arith.
From Verif Require Import M_Base S_Tokens M_Emit S_Ops M_Api.
Import ListNotations.

(** Highlighting succeeds on every source, with both values of each option and any token buffer
    (no assertion failure, no undefined behaviour, no exception, termination), and gives a
    well-formed token stream. *)
Definition always_highlights (h : highlighter) : Prop :=
  forall src strict coal cap, 0 < cap ->
  exists ops chunks, h src strict = Ok (true, ops)
    /\ token_output coal cap (length src) ops = Ok chunks
    /\ well_formed (length src) (concat chunks).

(** The same for the source [src] only. *)
Definition highlights (h : highlighter) (src : str) : Prop :=
  forall strict coal cap, 0 < cap ->
  exists ops chunks, h src strict = Ok (true, ops)
    /\ token_output coal cap (length src) ops = Ok chunks
    /\ well_formed (length src) (concat chunks).
(** Highlighting [src] succeeds and performs its output operations in source order, in bounds.
    This is what a nested language's highlighter has to do. *)
Definition in_order (h : highlighter) (src : str) : Prop :=
  forall strict, exists ops, h src strict = Ok (true, ops) /\ ops_in 0 (length src) ops.
(** [piece] occurs in [src]. *)
Definition occurs (piece src : str) : Prop := exists a b, src = a ++ piece ++ b.

(** ... and every byte outside [gap] is highlighted. *)
Definition always_highlights_except (gap : N -> Prop) (h : highlighter) : Prop :=
  forall src strict coal cap, 0 < cap ->
  exists ops chunks, h src strict = Ok (true, ops)
    /\ token_output coal cap (length src) ops = Ok chunks
    /\ well_formed (length src) (concat chunks)
    /\ forall pos c, nth_error src pos = Some c -> ~ gap c ->
         exists ty, highlighted (concat chunks) pos ty.

(** The operations [ops] are contiguous and cover exactly [lo, hi). *)
Fixpoint covers (lo hi : nat) (ops : list out_op) : Prop :=
  match ops with
  | [] => lo = hi
  | OEmit b n _ _ :: r => b = lo /\ 0 < n /\ covers (lo + n) hi r
  | ONested _ _ _ _ :: _ => False
  end.

(** No UTF-8 lead byte announces a sequence that goes beyond the end of the source. Valid UTF-8 has
    this property, but also any source whose last three bytes are ASCII. *)
Definition announced_length (c : N) : nat :=
  if (c <? 0x80)%N then 1 else if (c <? 0xC2)%N then 0 else if (c <? 0xE0)%N then 2
  else if (c <? 0xF0)%N then 3 else if (c <? 0xF5)%N then 4 else 0.
Definition untruncated (s : str) : Prop :=
  forall k c, nth_error s k = Some c -> k + announced_length c <= length s.
