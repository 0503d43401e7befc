(** * Specification of C and C++ lexical elements, after the standards. *)
From Coq Require Import List NArith Bool.
From Verif Require Import M_Base M_Xid S_Chars.
Import ListNotations.

Definition begins (s p : str) : Prop := exists r, s = p ++ r.

(** ** Operators and punctuators
    C17 6.4.6: the punctuators of C. C++ [lex.operators]: the operators and punctuators of C++
    that are not spelled as identifiers; [^^] is C++26. *)
Local Open Scope string_scope.
Definition c_punctuators : list str := map bs
  ["["; "]"; "("; ")"; "{"; "}"; "."; "->"; "++"; "--"; "&"; "*"; "+"; "-"; "~"; "!"; "/"; "%";
   "<<"; ">>"; "<"; ">"; "<="; ">="; "=="; "!="; "^"; "|"; "&&"; "||"; "?"; ":"; ";"; "...";
   "="; "*="; "/="; "%="; "+="; "-="; "<<="; ">>="; "&="; "^="; "|="; ","; "#"; "##";
   "<:"; ":>"; "<%"; "%>"; "%:"; "%:%:"].
Definition cpp_punctuators : list str :=
  c_punctuators ++ map bs ["::"; ".*"; "->*"; "<=>"; "^^"].
Local Close Scope string_scope.
Definition punctuators (is_cpp : bool) : list str := if is_cpp then cpp_punctuators else c_punctuators.

(** C++ [lex.pptoken]/3.2: if the next three characters are [<::] and the next is neither [:] nor
    [>], the [<] is a token by itself. C has no such rule. *)
Definition lone_less (is_cpp : bool) (s : str) : Prop :=
  is_cpp = true /\ begins s (bs "<::") /\ ~ begins s (bs "<:::") /\ ~ begins s (bs "<::>").

(** Maximal munch. *)
Definition next_punctuator (is_cpp : bool) (s t : str) : Prop :=
  (lone_less is_cpp s /\ t = bs "<")
  \/ (~ lone_less is_cpp s /\ In t (punctuators is_cpp) /\ begins s t
      /\ forall u, In u (punctuators is_cpp) -> begins s u -> length u <= length t).

(** ** Comments *)
Definition cpp_space (c : N) : Prop := In c [32; 9; 10; 11; 12; 13]%N.

(** A line ends at position [k]: LF or CR LF. *)
Definition line_break (s : str) (k : nat) : Prop :=
  begins (skipn k s) [10]%N \/ begins (skipn k s) [13; 10]%N.
(** The line break at [k] is spliced away: a backslash precedes it, with only horizontal white
    space in between. *)
Definition spliced (s : str) (k : nat) : Prop :=
  exists j, j < k /\ nth_error s j = Some 92%N
    /\ forall i c, j < i < k -> nth_error s i = Some c -> cpp_space c /\ c <> 10%N.
(** [n] is where the logical line containing the first two characters of [s] ends. *)
Definition logical_line_end (s : str) (n : nat) : Prop :=
  2 <= n <= length s
  /\ (n = length s \/ (line_break s n /\ ~ spliced s n))
  /\ forall k, 2 <= k < n -> line_break s k -> spliced s k.

(** ** Raw string literals: [lex.string] *)
(** Characters of delimiters: ASCII, except white space, parentheses and backslash. *)
Definition d_char (c : N) : Prop := (c < 128)%N /\ ~ In c [32; 9; 11; 12; 10; 13; 40; 41; 92]%N.
Definition raw_end (d : str) : str := bs ")" ++ d ++ [34]%N.
(** The first closing sequence is the one at the end. *)
Definition raw_body (d body : str) : Prop :=
  forall a b, body ++ raw_end d = a ++ raw_end d ++ b -> b = [].

(** ** Identifiers: [lex.name], UAX #31 with [_] *)
Definition id_start (c : N) : Prop := c = 95%N \/ in_ranges XID_Start_Ranges c.
Definition id_continue (c : N) : Prop :=
  c = 95%N \/ in_ranges XID_Start_Ranges c \/ in_ranges XID_Continue_Minus_XID_Start c.
Definition identifier (cs : list N) : Prop :=
  exists c r, cs = c :: r /\ id_start c /\ Forall id_continue r.
(** The identifier at the start of a text of code points; empty if there is none. *)
Definition identifier_at (cs ids : list N) : Prop :=
  exists rest, cs = ids ++ rest
    /\ (ids = [] \/ identifier ids)
    /\ forall ids' rest', cs = ids' ++ rest' -> identifier ids' -> length ids' <= length ids.
