(** * Model of Charset (include/ulight/impl/charset.hpp). *)
From Coq Require Import List NArith Bool Arith.
From Verif Require Import M_Base.
Import ListNotations.
Local Open Scope N_scope.

(** charset.hpp:12-15, 63: the limbs; [w] is the template parameter N. *)
Definition charset := list N.
Definition limb_count (w : N) : N := w / 64 + (if w mod 64 =? 0 then 0 else 1).

(** charset.hpp:66-68 (default constructor: all limbs zero) *)
Definition cs_empty (w : N) : charset := repeat 0 (N.to_nat (limb_count w)).

(** limbs[k] *)
Definition limb (s : charset) (k : N) : N := nth (N.to_nat k) s 0.
(** Assigning limbs[k]. *)
Fixpoint set_nth (s : charset) (k : nat) (v : N) : charset :=
  match s, k with
  | [], _ => []
  | _ :: s, O => v :: s
  | x :: s, S k => x :: set_nth s k v
  end.
Definition set_limb (s : charset) (k v : N) : charset := set_nth s (N.to_nat k) v.

(** ~x on uint64_t *)
Definition not64 (x : N) : N := N.lnot x 64.

(** charset.hpp:199-204 (get) *)
Definition cs_get (w : N) (s : charset) (i : N) : res bool :=
  let* _ := check (i <? w) FDebugAssert in
  Ok (N.testbit (N.shiftr (limb s (i / 64)) (i mod 64)) 0).
(** charset.hpp:206-210 (clear(i)) *)
Definition cs_clear (w : N) (s : charset) (i : N) : res charset :=
  let* _ := check (i <? w) FDebugAssert in
  Ok (set_limb s (i / 64) (N.land (limb s (i / 64)) (not64 (N.shiftl 1 (i mod 64))))).
(** charset.hpp:212-216 (set(i)) *)
Definition cs_set (w : N) (s : charset) (i : N) : res charset :=
  let* _ := check (i <? w) FDebugAssert in
  Ok (set_limb s (i / 64) (N.lor (limb s (i / 64)) (N.shiftl 1 (i mod 64)))).

(** charset.hpp:69-80 (constructors from a character and from a string) *)
Definition cs_char (w c : N) : res charset := cs_set w (cs_empty w) c.
Fixpoint cs_insert_all (w : N) (s : charset) (chars : str) : res charset :=
  match chars with
  | [] => Ok s
  | c :: chars => let* s := cs_set w s c in cs_insert_all w s chars
  end.
Definition cs_string (w : N) (chars : str) : res charset := cs_insert_all w (cs_empty w) chars.

(** charset.hpp:82-91 (operator() for char8_t and for char32_t) *)
Definition cs_has (w : N) (s : charset) (c : N) : res bool := cs_get w s c.
Definition cs_has32 (w : N) (s : charset) (c : N) : res bool :=
  if c <=? 0xff then cs_get w s (c mod 256) else Ok false.

(** charset.hpp:98-106 (remove, insert), 130-134, 144-150, 176-180 and 190-196 (|= and -= with a character) *)
Definition cs_remove (w : N) (s : charset) (c : N) : res charset := cs_clear w s c.
Definition cs_insert (w : N) (s : charset) (c : N) : res charset := cs_set w s c.

Fixpoint map2 (f : N -> N -> N) (a b : charset) : charset :=
  match a, b with
  | x :: a, y :: b => f x y :: map2 f a b
  | _, _ => []
  end.

(** charset.hpp:112-120 (operator~) *)
Definition cs_compl (s : charset) : charset := map not64 s.
(** charset.hpp:122-128, 136-142 (|=, |) *)
Definition cs_union (a b : charset) : charset := map2 N.lor a b.
(** charset.hpp:152-166 (&=, &) *)
Definition cs_inter (a b : charset) : charset := map2 N.land a b.
(** charset.hpp:168-174, 182-188 (-=, -) *)
Definition cs_diff (a b : charset) : charset := map2 (fun x y => N.land x (not64 y)) a b.
(** charset.hpp:108-110 (operator==, defaulted) *)
Fixpoint cs_eqb (a b : charset) : bool :=
  match a, b with
  | [], [] => true
  | x :: a, y :: b => (x =? y) && cs_eqb a b
  | _, _ => false
  end.

(** charset.hpp:47-60 (from_predicate), for w >= 256 *)
Fixpoint cs_from_predicate_loop (w : N) (p : N -> bool) (k : nat) (i : N) (s : charset)
  : res charset :=
  match k with
  | O => Ok s
  | S k => let* s := if p i then cs_insert w s i else Ok s in
           cs_from_predicate_loop w p k (i + 1) s
  end.
Definition cs_from_predicate (w : N) (p : N -> bool) : res charset :=
  cs_from_predicate_loop w p 256 0 (cs_empty w).

(** std::size_t subtraction, which wraps around. *)
Definition size_sub (a b : N) : N := (a + 2 ^ 64 - b) mod 2 ^ 64.

(** charset.hpp:27-36: one iteration of the loop of range_before, giving limbs[limb]. Shifting
    by 64 or more is undefined. *)
Definition range_limb (i j l : N) : res N :=
  let begin := l * 64 in
  let lo := if begin <? i then size_sub i begin else 0 in
  let hi := if j <? begin + 64 then size_sub j begin else 64 in
  if lo <? hi then
    let* _ := check (lo <? 64) FUB in
    let lo_mask := (N.shiftl (2 ^ 64 - 1) lo) mod 2 ^ 64 in
    let* hi_mask := if hi =? 64 then Ok (2 ^ 64 - 1)
                    else let* _ := check (hi <? 64) FUB in
                         Ok (size_sub (N.shiftl 1 hi) 1) in
    Ok (N.land lo_mask hi_mask)
  else Ok 0.

Fixpoint range_limbs (i j : N) (count : nat) (l : N) : res charset :=
  match count with
  | O => Ok []
  | S count => let* x := range_limb i j l in
               let* r := range_limbs i j count (l + 1) in
               Ok (x :: r)
  end.

(** charset.hpp:17-38 (range_before) *)
Definition range_before (w i j : N) : res charset :=
  let* _ := check (i <? 256) FAssert in
  let* _ := check (j <=? 256) FAssert in
  let* _ := check (i <=? j) FAssert in
  range_limbs i j (N.to_nat (limb_count w)) 0.

(** charset.hpp:40-45 (range_until) *)
Definition range_until (w i j : N) : res charset := range_before w i (j + 1).

(** The predefined sets, built the way the headers build them. *)
From Verif Require Import M_Chars.

(** ascii_chars.hpp:121-122, 139-140, 39-40 (is_ascii_upper_alpha_set, is_ascii_lower_alpha_set,
    is_ascii_digit_set) *)
Definition is_ascii_upper_alpha_set : res charset := cs_from_predicate 256 is_ascii_upper_alpha.
Definition is_ascii_lower_alpha_set : res charset := cs_from_predicate 256 is_ascii_lower_alpha.
Definition is_ascii_digit_set : res charset := cs_from_predicate 256 is_ascii_digit.
(** ascii_chars.hpp:103-105 (the hexadecimal digit sets) *)
Definition is_ascii_lower_hex_digit_cs : res charset := cs_string 256 (bs "0123456789abcdef").
Definition is_ascii_upper_hex_digit_cs : res charset := cs_string 256 (bs "0123456789ABCDEF").
Definition is_ascii_hex_digit_cs : res charset :=
  let* a := is_ascii_lower_hex_digit_cs in
  let* b := is_ascii_upper_hex_digit_cs in Ok (cs_union a b).
(** ascii_chars.hpp:178-188 (is_ascii_alpha, is_ascii_alphanumeric, is_ascii_punctuation,
    is_ascii_printing) *)
Definition is_ascii_alpha_cs : res charset :=
  let* a := is_ascii_lower_alpha_set in
  let* b := is_ascii_upper_alpha_set in Ok (cs_union a b).
Definition is_ascii_alphanumeric_cs : res charset :=
  let* a := is_ascii_alpha_cs in
  let* b := is_ascii_digit_set in Ok (cs_union a b).
Definition is_ascii_punctuation_cs : res charset :=
  cs_string 256 (bs "!""#$%&'()*+,-./:;<=>?@[\]^_`{|}~").
Definition is_ascii_printing_cs : res charset :=
  let* a := is_ascii_alphanumeric_cs in
  let* b := is_ascii_punctuation_cs in
  cs_insert 256 (cs_union a b) 32.
(** unicode_chars.hpp:117, 129, 131-134 (is_ascii_xid_start, is_ascii_xid_continue,
    is_character_name) *)
Definition is_ascii_xid_continue_cs : res charset :=
  let* a := is_ascii_alphanumeric_cs in cs_insert 256 a 95.
Definition is_character_name_cs : res charset :=
  let* a := is_ascii_upper_alpha_set in
  let* b := is_ascii_digit_set in
  let* c := cs_string 256 (bs " -") in Ok (cs_union (cs_union a b) c).
