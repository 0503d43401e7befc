(** * Specification: values in memory *)
From Coq Require Import List NArith Arith.
From Verif Require Import M_Base.
Import ListNotations.

(** The value of an unsigned integer with the given bytes, least significant first *)
Fixpoint value_of (bytes : list N) : N := match bytes with [] => 0 | b :: r => b + 256 * value_of r end%N.
(** The element with index [i] in memory that holds elements of [w] bytes *)
Definition element (w : nat) (memory : list N) (i : nat) : N := value_of (firstn w (skipn (i * w) memory)).
(** What a copy is expected to do: elements [0 .. length src) of the destination become the values of the source, converted to the
    type of the destination, and all other elements are kept. *)
Definition copied (w : nat) (src dest dest' : list N) : Prop :=
  length dest' = length dest
  /\ (forall i v, nth_error src i = Some v -> element w dest' i = v mod 256 ^ N.of_nat w)%N
  /\ (forall i, length src <= i -> element w dest' i = element w dest i).
