(** * Model of the ASCII character predicates and algorithms
    (include/ulight/impl/ascii_chars.hpp, include/ulight/impl/ascii_algorithm.hpp,
    include/ulight/impl/strings.hpp).
    The predicates built as Charset256 are modelled as the boolean functions they denote; the
    Charset class itself is modelled in M_Charset. *)
From Coq Require Import List NArith ZArith Bool Arith.
From Verif Require Import M_Base.
Import ListNotations.
Local Open Scope N_scope.

Definition between (lo hi c : N) : bool := (lo <=? c) && (c <=? hi).

(** ascii_chars.hpp:10-22 (is_ascii) *)
Definition is_ascii (c : N) : bool := c <=? 0x7f.
(** ascii_chars.hpp:25-38 (is_ascii_digit) *)
Definition is_ascii_digit (c : N) : bool := between 48 57 c.
(** ascii_chars.hpp:42-67 (is_ascii_digit_base); the precondition on the base is asserted. *)
Definition is_ascii_digit_base (c : N) (base : Z) : bool :=
  (if (base <? 10)%Z then (48 <=? c) && (Z.of_N c <? 48 + base)%Z
   else is_ascii_digit c || ((97 <=? c) && (Z.of_N c <? 97 + base - 10)%Z)
        || ((65 <=? c) && (Z.of_N c <? 65 + base - 10)%Z)).
(** ascii_chars.hpp:69-82 (is_ascii_binary_digit) *)
Definition is_ascii_binary_digit (c : N) : bool := (c =? 48) || (c =? 49).
(** ascii_chars.hpp:86-99 (is_ascii_octal_digit) *)
Definition is_ascii_octal_digit (c : N) : bool := between 48 55 c.
(** ascii_chars.hpp:103-105 (is_ascii_lower_hex_digit, is_ascii_upper_hex_digit,
    is_ascii_hex_digit) *)
Definition is_ascii_lower_hex_digit (c : N) : bool := between 48 57 c || between 97 102 c.
Definition is_ascii_upper_hex_digit (c : N) : bool := between 48 57 c || between 65 70 c.
Definition is_ascii_hex_digit (c : N) : bool :=
  is_ascii_lower_hex_digit c || is_ascii_upper_hex_digit c.
(** ascii_chars.hpp:107-120 (is_ascii_upper_alpha) *)
Definition is_ascii_upper_alpha (c : N) : bool := between 65 90 c.
(** ascii_chars.hpp:124-138 (is_ascii_lower_alpha) *)
Definition is_ascii_lower_alpha (c : N) : bool := between 97 122 c.
(** ascii_chars.hpp:142-158 (to_ascii_upper) *)
Definition to_ascii_upper (c : N) : N := if is_ascii_lower_alpha c then N.land c 0xdf else c.
(** ascii_chars.hpp:160-176 (to_ascii_lower) *)
Definition to_ascii_lower (c : N) : N := if is_ascii_upper_alpha c then N.lor c 0x20 else c.
(** ascii_chars.hpp:178-180 (is_ascii_alpha) *)
Definition is_ascii_alpha (c : N) : bool := is_ascii_lower_alpha c || is_ascii_upper_alpha c.
(** ascii_chars.hpp:182-183 (is_ascii_alphanumeric) *)
Definition is_ascii_alphanumeric (c : N) : bool := is_ascii_alpha c || is_ascii_digit c.
(** ascii_chars.hpp:185 (is_ascii_punctuation) *)
Definition is_ascii_punctuation (c : N) : bool :=
  between 33 47 c || between 58 64 c || between 91 96 c || between 123 126 c.
(** ascii_chars.hpp:187-188 (is_ascii_printing) *)
Definition is_ascii_printing (c : N) : bool :=
  is_ascii_alphanumeric c || is_ascii_punctuation c || (c =? 32).
(** unicode_chars.hpp:117, 129 (is_ascii_xid_start, is_ascii_xid_continue) *)
Definition is_ascii_xid_start (c : N) : bool := is_ascii_alpha c.
Definition is_ascii_xid_continue (c : N) : bool := is_ascii_alphanumeric c || (c =? 95).
(** unicode_chars.hpp:131-134 (is_character_name) *)
Definition is_character_name (c : N) : bool :=
  is_ascii_upper_alpha c || is_ascii_digit c || (c =? 32) || (c =? 45).
(** strings.hpp:37 (all_ascii_whitespace8): "\t\n\f\r " *)
Definition all_ascii_whitespace : str := [9; 10; 12; 13; 32].
(** strings.hpp:41 (all_cpp_whitespace8): "\t\n\f\r\v " *)
Definition all_cpp_whitespace : str := [9; 10; 12; 13; 11; 32].

(** ascii_algorithm.hpp:14-27 (detail::find_if): position of the first code unit at or after
    [start] on which the predicate gives [expected]; [npos] as None. The assertion
    start <= length is part of the callers that can violate it (see ascii_find_checked). *)
Definition ascii_find (s : str) (start : nat) (p : N -> bool) (expected : bool) : option nat :=
  find_if_from (fun c => Bool.eqb (p c) expected) s start.

(** The same with its debug assertion. *)
Definition ascii_find_checked (s : str) (start : nat) (p : N -> bool) (expected : bool)
  : res (option nat) :=
  let* _ := check (start <=? length s)%nat FDebugAssert in Ok (ascii_find s start p expected).

Definition or_length (s : str) (r : option nat) : nat :=
  match r with Some i => i | None => length s end.

(** ascii_algorithm.hpp:55-62 (length_if), with start = 0 (every use in the library) *)
Definition length_if (s : str) (p : N -> bool) : nat := or_length s (ascii_find s 0 p false).
(** The same with an explicit start. *)
Definition length_if_from (s : str) (p : N -> bool) (start : nat) : res nat :=
  let* r := ascii_find_checked s start p false in Ok (or_length s r).
(** ascii_algorithm.hpp:79-86 (length_if_not) *)
Definition length_if_not (s : str) (p : N -> bool) : nat := or_length s (ascii_find s 0 p true).
(** ascii_algorithm.hpp:64-77 (length_if_head_tail) *)
Definition length_if_head_tail (s : str) (head tail : N -> bool) : nat :=
  match s with
  | [] => 0%nat
  | c :: _ => if negb (head c) then 0%nat else or_length s (ascii_find s 1 tail false)
  end.
(** ascii_algorithm.hpp:88-101 (length_if_not_head_tail) *)
Definition length_if_not_head_tail (s : str) (head tail : N -> bool) : nat :=
  match s with
  | [] => 0%nat
  | c :: _ => if negb (head c) then 0%nat else or_length s (ascii_find s 1 tail true)
  end.
(** ascii_algorithm.hpp:103-111 (length_before) *)
Definition length_before (s : str) (delimiter : N) (start : nat) : nat :=
  or_length s (find_ch s delimiter start).
(** ascii_algorithm.hpp:113-121 (length_before_not) *)
Definition length_before_not (s : str) (delimiter : N) (start : nat) : nat :=
  or_length s (find_if_from (fun c => negb (c =? delimiter)) s start).
(** ascii_algorithm.hpp:123-131 (length_until) *)
Definition length_until (s : str) (delimiter : N) (start : nat) : nat :=
  match find_ch s delimiter start with Some i => S i | None => length s end.
(** ascii_algorithm.hpp:133-141 (length_until_not) *)
Definition length_until_not (s : str) (delimiter : N) (start : nat) : nat :=
  match find_if_from (fun c => negb (c =? delimiter)) s start with
  | Some i => S i | None => length s end.

(** ascii_algorithm.hpp:143-156 (compare_to_lower) *)
Fixpoint compare_to_lower (x y : str) : comparison :=
  match x, y with
  | [], [] => Eq
  | [], _ :: _ => Lt
  | _ :: _, [] => Gt
  | a :: x', b :: y' =>
    let x_low := to_ascii_lower a in
    let y_low := to_ascii_lower b in
    if negb (x_low =? y_low) then (x_low ?= y_low) else compare_to_lower x' y'
  end.

(** ascii_algorithm.hpp:166-170 and 182-186: the loop comparing the first [length y] code units *)
Fixpoint equal_upper (x y : str) : bool :=
  match y, x with
  | [], _ => true
  | b :: y', a :: x' => (to_ascii_upper a =? to_ascii_upper b) && equal_upper x' y'
  | _ :: _, [] => false
  end.

(** ascii_algorithm.hpp:158-172 (equals_ignore_case) *)
Definition equals_ignore_case (x y : str) : bool :=
  if negb (length x =? length y)%nat then false else equal_upper x y.

(** ascii_algorithm.hpp:174-188 (starts_with_ignore_case) *)
Definition starts_with_ignore_case (s prefix : str) : bool :=
  if (length s <? length prefix)%nat then false else equal_upper s prefix.

(** ascii_algorithm.hpp:190-204 (contains_ignore_case): the loop over i, [s] being the haystack
    from i on. *)
Fixpoint contains_ignore_case_loop (s needle : str) : bool :=
  if (length s <? length needle)%nat then false
  else if equals_ignore_case (firstn (length needle) s) needle then true
  else match s with
       | [] => false
       | _ :: s' => contains_ignore_case_loop s' needle
       end.
Definition contains_ignore_case (haystack needle : str) : bool :=
  match needle with
  | [] => true
  | _ => contains_ignore_case_loop haystack needle
  end.
