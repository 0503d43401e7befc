(** * Specifications for the parsing helpers: what an escape sequence, a blank line, a line, a
    number literal is, independently of how the code finds them. *)
From Coq Require Import List NArith ZArith Bool Arith.
From Verif Require Import M_Base M_Parse.
Import ListNotations.

Definition octal (c : N) : Prop := (48 <= c <= 55)%N.
Definition hex (c : N) : Prop := (48 <= c <= 57 \/ 65 <= c <= 70 \/ 97 <= c <= 102)%N.

(** The documented shape of each kind of escape (the comments of escapes.hpp:30-55), for the text
    after the introducer. *)
Definition well_formed_escape (k : escape_kind) (e : str) : Prop :=
  match k with
  | octal_1_to_2 => 1 <= length e <= 2 /\ Forall octal e
  | octal_1_to_3 => 1 <= length e <= 3 /\ Forall octal e
  | octal_3 => length e = 3 /\ Forall octal e
  | octal_braced => exists d, e = (123 :: d ++ [125])%N /\ d <> [] /\ Forall octal d
  | hex_1_to_2 => 1 <= length e <= 2 /\ Forall hex e
  | hex_1_to_inf => 1 <= length e /\ Forall hex e
  | hex_2 => length e = 2 /\ Forall hex e
  | hex_4 => length e = 4 /\ Forall hex e
  | hex_8 => length e = 8 /\ Forall hex e
  | nonempty_braced => exists d, e = (123 :: d ++ [125])%N /\ d <> [] /\ ~ In 125%N d
  | hex_braced => exists d, e = (123 :: d ++ [125])%N /\ d <> [] /\ Forall hex d
  | lf_cr_crlf => e = [10]%N \/ e = [13]%N \/ e = [13; 10]%N
  end.

(** [e] is the longest prefix of [s] with property [P]. *)
Definition longest_prefix (P : str -> Prop) (s e : str) : Prop :=
  (exists t, s = e ++ t) /\ P e
  /\ forall e' t', s = e' ++ t' -> P e' -> length e' <= length e.

(** White space other than a line feed. *)
Definition space_not_lf (c : N) : Prop := (c = 32 \/ c = 9 \/ c = 12 \/ c = 13)%N.

(** [s = a ++ l ++ [LF] ++ b] where [a] is empty or ends with LF and [l] is white space:
    a blank line starting at [length a]. *)
Definition line_start (a : str) : Prop := a = [] \/ exists a', a = a' ++ [10%N].
Definition blank_line_at (s : str) (begin : nat) : Prop :=
  exists a l b, s = a ++ l ++ 10%N :: b /\ length a = begin /\ line_start a
                /\ Forall space_not_lf l.

(** A digit sequence with a leading, trailing or doubled separator. *)
Definition leading_sep (m : str) (sep : N) : Prop := exists t, m = sep :: t.
Definition trailing_sep (m : str) (sep : N) : Prop := exists t, m = t ++ [sep].
Definition doubled_sep (m : str) (sep : N) : Prop := exists a b, m = a ++ sep :: sep :: b.

(** Values of digits and of digit strings (least significant digit last). *)
Definition digit_value (c : N) : option N :=
  if ((48 <=? c) && (c <=? 57))%N then Some (c - 48)%N
  else if ((97 <=? c) && (c <=? 122))%N then Some (c - 97 + 10)%N
  else if ((65 <=? c) && (c <=? 90))%N then Some (c - 65 + 10)%N
  else None.
Definition is_digit_of (base c : N) : Prop := exists v, digit_value c = Some v /\ (v < base)%N.
Inductive digits_value (base : N) : str -> N -> Prop :=
| dv_nil : digits_value base [] 0
| dv_snoc l v c d : digits_value base l v -> digit_value c = Some d -> (d < base)%N ->
    digits_value base (l ++ [c]) (v * base + d).

(** The integer literals of parse_utils.hpp:126-133 and their values. *)
Inductive literal : str -> N -> Prop :=
| lit_binary d v : d <> [] -> digits_value 2 d v -> literal (bs "0b" ++ d) v
| lit_hex d v : d <> [] -> digits_value 16 d v -> literal (bs "0x" ++ d) v
| lit_octal d v : digits_value 8 d v -> literal (bs "0" ++ d) v
| lit_decimal c d v : c <> 48%N -> digits_value 10 (c :: d) v -> literal (c :: d) v.
