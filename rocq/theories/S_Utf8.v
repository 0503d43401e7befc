(** * Specification: UTF-8 as defined by the Unicode Standard (chapter 3, D92, D93b, Table 3-7).
    Nothing here refers to the model. *)
From Coq Require Import List NArith Arith.
From Verif Require Import M_Base.
Import ListNotations.
Local Open Scope N_scope.

(** D76: a Unicode scalar value. *)
Definition scalar_value (c : N) : Prop := c <= 0x10FFFF /\ ~ (0xD800 <= c <= 0xDFFF).

(** Table 3-6: the UTF-8 encoding form, as arithmetic. *)
Definition utf8_encoding (c : N) : str :=
  if c <? 0x80 then [c]
  else if c <? 0x800 then [0xC0 + c / 64; 0x80 + c mod 64]
  else if c <? 0x10000 then [0xE0 + c / 4096; 0x80 + c / 64 mod 64; 0x80 + c mod 64]
  else [0xF0 + c / 262144; 0x80 + c / 4096 mod 64; 0x80 + c / 64 mod 64; 0x80 + c mod 64].

(** Table 3-7: well-formed UTF-8 byte sequences. *)
Definition table_3_7 : list (list (N * N)) := [
  [(0x00, 0x7F)];
  [(0xC2, 0xDF); (0x80, 0xBF)];
  [(0xE0, 0xE0); (0xA0, 0xBF); (0x80, 0xBF)];
  [(0xE1, 0xEC); (0x80, 0xBF); (0x80, 0xBF)];
  [(0xED, 0xED); (0x80, 0x9F); (0x80, 0xBF)];
  [(0xEE, 0xEF); (0x80, 0xBF); (0x80, 0xBF)];
  [(0xF0, 0xF0); (0x90, 0xBF); (0x80, 0xBF); (0x80, 0xBF)];
  [(0xF1, 0xF3); (0x80, 0xBF); (0x80, 0xBF); (0x80, 0xBF)];
  [(0xF4, 0xF4); (0x80, 0x8F); (0x80, 0xBF); (0x80, 0xBF)]
].

Definition in_range (b : N) (r : N * N) : Prop := fst r <= b <= snd r.

Definition well_formed_sequence (s : str) : Prop :=
  exists row, In row table_3_7 /\ Forall2 in_range s row.

(** A string that starts with a well-formed sequence of [n] bytes denoting [c]. *)
Definition starts_with_scalar (s : str) (c : N) (n : nat) : Prop :=
  scalar_value c /\ length (utf8_encoding c) = n /\ exists t, s = utf8_encoding c ++ t.

(** Initial subsequence of a well-formed sequence (not necessarily proper). *)
Definition initial_subsequence (p : str) : Prop :=
  p <> [] /\ exists q, well_formed_sequence (p ++ q).

(** D93b: [k] bytes of [s] are the maximal subpart of the ill-formed subsequence at the start:
    the longest initial subsequence of a well-formed sequence, or one byte if there is none. *)
Definition maximal_subpart (s : str) (k : nat) : Prop :=
  (1 <= k <= length s)%nat /\
  (initial_subsequence (firstn k s) \/
   (k = 1%nat /\ forall j, (j <= length s)%nat -> ~ initial_subsequence (firstn j s))) /\
  (forall j, (k < j <= length s)%nat -> ~ initial_subsequence (firstn j s)).

(** One step of decoding with U+FFFD substitution of maximal subparts. *)
Inductive next_code_point (s : str) : N -> nat -> Prop :=
| next_valid : forall c n, starts_with_scalar s c n -> next_code_point s c n
| next_invalid : forall k, s <> [] -> (forall c n, ~ starts_with_scalar s c n) ->
    maximal_subpart s k -> next_code_point s 0xFFFD k.

(** The first code point satisfying [p], found by a naive scan: [first_code_point p s i] where
    [i = Some k] is the offset of the first one in code units, and [None] if there is none. *)
Inductive first_code_point (p : N -> bool) : str -> option nat -> Prop :=
| first_end : first_code_point p [] None
| first_hit : forall s c n, next_code_point s c n -> p c = true ->
    first_code_point p s (Some 0%nat)
| first_miss : forall s c n r, next_code_point s c n -> p c = false ->
    first_code_point p (skipn n s) r -> first_code_point p s (option_map (Nat.add n) r).

(** Valid UTF-8: a sequence of encodings of scalar values. *)
Definition valid_utf8 (s : str) : Prop :=
  exists cs, Forall scalar_value cs /\ s = concat (map utf8_encoding cs).
