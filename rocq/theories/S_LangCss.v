(** * Specification of the CSS tokens (https://www.w3.org/TR/css-syntax-3), independent of the code *)
From Coq Require Import List NArith.
From Verif Require Import M_Base.
Import ListNotations.

Definition css_digit (c : N) : Prop := (48 <= c <= 57)%N.
(** "+", "-" or nothing *)
Definition css_sign (t : str) : Prop := t = [] \/ t = [43%N] \/ t = [45%N].
(** "." and at least one digit *)
Definition css_fraction (t : str) : Prop := exists d, t = 46%N :: d /\ d <> [] /\ Forall css_digit d.
(** "e" or "E", a sign or none, at least one digit *)
Definition css_exponent (t : str) : Prop :=
  exists e g d, t = e :: g ++ d /\ (e = 101 \/ e = 69)%N /\ css_sign g /\ d <> [] /\ Forall css_digit d.
(** The <number-token> of CSS: a sign or none, digits or a fraction or both, an exponent or none. *)
Definition css_number_text (t : str) : Prop :=
  exists g i f e, t = g ++ i ++ f ++ e /\ css_sign g /\ Forall css_digit i
    /\ (f = [] \/ css_fraction f) /\ (e = [] \/ css_exponent e) /\ (i <> [] \/ f <> []).
