(** * Specification vocabulary for token streams. *)
From Coq Require Import List NArith Arith.
Import ListNotations.

(** A token: first byte, number of bytes, highlight type (ulight.h:732-739). *)
Record token : Type := mk_token { tk_begin : nat; tk_len : nat; tk_type : N }.

Definition tk_end (t : token) : nat := tk_begin t + tk_len t.

(** A well-formed token stream over a source of [n] bytes: tokens are nonempty, in bounds, and
    every token ends before every later token begins. *)
Definition well_formed (n : nat) (toks : list token) : Prop :=
  (forall t, In t toks -> 0 < tk_len t /\ tk_end t <= n)
  /\ (forall i j t u, i < j -> nth_error toks i = Some t -> nth_error toks j = Some u ->
      tk_end t <= tk_begin u).

(** Byte [pos] is highlighted with type [ty] by the stream. *)
Definition highlighted (toks : list token) (pos : nat) (ty : N) : Prop :=
  exists t, In t toks /\ tk_begin t <= pos < tk_end t /\ tk_type t = ty.

(** Two consecutive tokens that touch and have the same type. *)
Definition mergeable (t u : token) : Prop := tk_end t = tk_begin u /\ tk_type t = tk_type u.

Definition shift_token (off : nat) (t : token) : token :=
  mk_token (tk_begin t + off) (tk_len t) (tk_type t).
