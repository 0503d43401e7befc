(** * Model of the sorted keyword tables of the language highlighters. *)
From Coq Require Import List NArith Bool Arith.
From Verif Require Import M_Base M_Lang.
Import ListNotations.

(** The pattern of cpp.cpp:80-88 (cpp_token_type_by_code) and its copies in the other languages:
    std::ranges::lower_bound in the array of codes, then a comparison with the element found. The
    parallel arrays of codes and of attributes are one list here; the enumerator is replaced by the
    attributes it indexes. *)
Definition table_find {A} (l : list (str * A)) (code : str) : option A :=
  match nth_error l (lower_bound (fun e => str_ltb (fst e) code) l) with
  | Some (c, v) => if str_eqb c code then Some v else None
  | None => None
  end.

(** std::ranges::is_sorted of the codes (the static_assert beside each table); strictly, so that
    the codes are also distinct. *)
Fixpoint table_sorted {A} (l : list (str * A)) : bool :=
  match l with
  | [] => true
  | (a, _) :: t => match t with [] => true | (b, _) :: _ => str_ltb a b && table_sorted t end
  end.
