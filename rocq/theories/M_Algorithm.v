(** * Model of the helper algorithms (include/ulight/impl/algorithm) *)
From Coq Require Import List NArith Bool Arith.
From Verif Require Import M_Base.
Import ListNotations.

(** all_of.hpp:8-16 (all_of) *)
Fixpoint all_of {A} (predicate : A -> bool) (r : list A) : bool :=
  match r with
  | [] => true
  | e :: r => if negb (predicate e) then false else all_of predicate r
  end.

(** min_max.hpp:8-12 (min2) and 14-18 (max2), for any order [lt] *)
Definition min2 {A} (lt : A -> A -> bool) (x y : A) : A := if lt y x then y else x.
Definition max2 {A} (lt : A -> A -> bool) (x y : A) : A := if lt x y then y else x.
(** min_max.hpp:22-39 (min): the arguments are [x :: l]. *)
Fixpoint min_of {A} (lt : A -> A -> bool) (x : A) (l : list A) : A :=
  match l with
  | [] => x
  | [y] => min2 lt x y
  | y :: l => min2 lt x (min_of lt y l)
  end.
(** min_max.hpp:41-58 (max) *)
Fixpoint max_of {A} (lt : A -> A -> bool) (x : A) (l : list A) : A :=
  match l with
  | [] => x
  | [y] => max2 lt x y
  | y :: l => max2 lt x (max_of lt y l)
  end.

(** The bytes of an unsigned integer of [w] bytes. Simplification: the least significant byte is first. *)
Fixpoint object_bytes (w : nat) (v : N) : list N :=
  match w with 0 => [] | S w => (v mod 256)%N :: object_bytes w (v / 256) end.

(** copy.hpp:15-20 (bitwise_convertible_to) for integer types of [t] and [u] bytes *)
Definition bitwise_convertible (t u : nat) : bool := t =? u.
(** copy.hpp:25-31: Out_Element is declared as the value type of Iter, as Iter_Element is, so [wo] is not used. *)
Definition can_memmove (contiguous : bool) (wi wo : nat) : bool := contiguous && bitwise_convertible wi wi.
(** copy.hpp:22-46 (copy): the source has elements of [wi] bytes with the values [src], and the destination is memory with the bytes
    [dest], used as elements of [wo] bytes. [contiguous] tells whether both iterators are contiguous, [constant] whether
    this is a constant evaluation. The result is the new contents of the destination; writing beyond its end is undefined.
    Simplification: the address of the end is computed without a dereference. *)
Definition copy (contiguous constant : bool) (wi wo : nat) (src : list N) (dest : list N) : res (list N) :=
  let written :=
    if can_memmove contiguous wi wo && negb constant
    then concat (map (object_bytes wi) src)
    else concat (map (object_bytes wo) src) in
  let* _ := check (length written <=? length dest) FUB in
  Ok (written ++ skipn (length written) dest).
