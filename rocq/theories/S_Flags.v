(** * Specification: what a program sees of a conversion *)
From Coq Require Import List NArith.
From Verif Require Import M_Base M_Api.

(** The status and the calls of the callback, or the failure *)
Definition seen {A} (r : res (api_result A)) : res (N * option (list (list A))) :=
  match r with Ok (status, _, calls) => Ok (status, calls) | Fail f => Fail f end.
(** ULIGHT_COALESCE and ULIGHT_STRICT, ulight.h:200-224 *)
Definition same_coalesce (f g : N) : Prop := N.testbit f 0 = N.testbit g 0.
Definition same_strict (f g : N) : Prop := N.testbit f 1 = N.testbit g 1.
