(** * Specification: JSON texts (RFC 8259), optionally with comments, and the calls a visitor
    receives for one. Nothing here refers to the parser. *)
From Coq Require Import List NArith Bool Arith.
From Verif Require Import M_Base S_Utf8 M_Json.
Import ListNotations.

(** ** Numbers (RFC 8259 section 6) *)
Definition digit (c : N) : Prop := (48 <= c <= 57)%N.
Inductive digits1 : str -> Prop :=
| digits_one : forall c, digit c -> digits1 [c]
| digits_more : forall c s, digit c -> digits1 s -> digits1 (c :: s).
Inductive json_int : str -> Prop :=
| int_zero : json_int (bs "0")
| int_digit : forall c, (49 <= c <= 57)%N -> json_int [c]
| int_digits : forall c s, (49 <= c <= 57)%N -> digits1 s -> json_int (c :: s).
Inductive json_frac : str -> Prop :=
| frac_none : json_frac []
| frac_some : forall s, digits1 s -> json_frac (bs "." ++ s).
Inductive json_exp : str -> Prop :=
| exp_none : json_exp []
| exp_some : forall e sign s, In e [bs "e"; bs "E"] -> In sign [[]; bs "+"; bs "-"] ->
    digits1 s -> json_exp (e ++ sign ++ s).
Inductive json_number : str -> Prop :=
| number_intro : forall m i f e, In m [[]; bs "-"] -> json_int i -> json_frac f -> json_exp e ->
    json_number (m ++ i ++ f ++ e).

(** ** Strings (section 7): an escape sequence and the code point it stands for *)
Definition hex_value (c : N) (v : N) : Prop :=
  ((48 <= c <= 57) /\ v = c - 48 \/ (65 <= c <= 70) /\ v = c - 55
   \/ (97 <= c <= 102) /\ v = c - 87)%N.
Inductive json_escape : str -> N -> Prop :=
| escape_simple : forall c v,
    In (c, v) [(34, 34); (92, 92); (47, 47); (98, 8); (102, 12); (110, 10); (114, 13); (116, 9)]%N ->
    json_escape [92%N; c] v
| escape_u : forall a b c d va vb vc vd,
    hex_value a va -> hex_value b vb -> hex_value c vc -> hex_value d vd ->
    json_escape (bs "\u" ++ [a; b; c; d]) (((va * 16 + vb) * 16 + vc) * 16 + vd)%N.
(** A character that stands for itself in a string. *)
Definition unescaped (c : N) : Prop := (0x20 <= c)%N /\ c <> 34%N /\ c <> 92%N.

(** ** Whitespace (section 2). *)
Definition rfc_blank (c : N) : Prop := In c [32; 9; 10; 13]%N.

(** ... and with form feeds. *)
Definition lenient_blank (c : N) : Prop := rfc_blank c \/ c = 12%N.

(** ** Comments (ECMAScript): [//] to the end of the line, [/*] to the next [*/] *)
Definition contains (s t : str) : Prop := exists a b, s = a ++ t ++ b.
Definition line_terminators : list str :=
  [[10]; [13]; [0xE2; 0x80; 0xA8]; [0xE2; 0x80; 0xA9]]%N.
Definition line_comment (t : str) : Prop :=
  exists body, t = bs "//" ++ body /\ forall l, In l line_terminators -> ~ contains body l.
Definition block_comment (t : str) : Prop :=
  exists body, t = bs "/*" ++ body ++ bs "*/" /\ ~ contains (body ++ bs "*") (bs "*/").

(** ** The grammar, with the calls made for each construct. [pos] gives the position of an offset
    in the source; every construct is indexed by the offset where it starts. *)
Section Grammar.
Variable blank : N -> Prop.
Variable o : json_options.
Variable pos : nat -> position.

(** Whitespace and comments between tokens. A line comment is followed by a line break. *)
Inductive jws : nat -> str -> list event -> Prop :=
| ws_nil : forall i, jws i [] []
| ws_blank : forall i c w e, blank c -> jws (i + 1) w e -> jws i (c :: w) e
| ws_line : forall i t c w e, jo_comments o = true -> line_comment t ->
    In c [10; 13]%N -> jws (i + length t) (c :: w) e ->
    jws i (t ++ c :: w) (EvLineComment (pos i) t :: e)
| ws_block : forall i t w e, jo_comments o = true -> block_comment t ->
    jws (i + length t) w e -> jws i (t ++ w) (EvBlockComment (pos i) t :: e).
(** At the end of the text a line comment needs no line break. *)
Inductive jws_end : nat -> str -> list event -> Prop :=
| ws_end : forall i w e, jws i w e -> jws_end i w e
| ws_end_line : forall i w e t, jo_comments o = true -> jws i w e -> line_comment t ->
    jws_end i (w ++ t) (e ++ [EvLineComment (pos (i + length w)) t]).

Definition escape_event (p : position) (t : str) (v : N) (e : event) : Prop :=
  match jo_escapes o with
  | esc_none => e = EvEscape p t None None
  | esc_parse => e = EvEscape p t (Some v) None
  | esc_parse_encode => e = EvEscape p t (Some v) (Some (utf8_encoding v))
  end.

(** The inside of a string; runs of literal characters are reported as a whole. *)
Inductive jchars : nat -> str -> list event -> Prop :=
| chars_end : forall i, jchars i [] []
| chars_escape : forall i t v s e es, json_escape t v -> escape_event (pos i) t v e ->
    jchars (i + length t) s es -> jchars i (t ++ s) (e :: es)
| chars_literal : forall i t s es, t <> [] -> Forall unescaped t -> (forall c r, s = c :: r -> c = 92%N) ->
    jchars (i + length t) s es -> jchars i (t ++ s) (EvLiteral (pos i) t :: es).

Definition number_event (p : position) (t : str) : event :=
  if jo_numbers o then EvNumberValue p t t else EvNumber p t.

Inductive jvalue : nat -> str -> list event -> Prop :=
| value_null : forall i, jvalue i (bs "null") [EvNull (pos i)]
| value_true : forall i, jvalue i (bs "true") [EvBoolean (pos i) true]
| value_false : forall i, jvalue i (bs "false") [EvBoolean (pos i) false]
| value_number : forall i t, json_number t -> jvalue i t [number_event (pos i) t]
| value_string : forall i s es, jchars (i + 1) s es ->
    jvalue i ([34%N] ++ s ++ [34%N])
      ([EvPushString (pos i)] ++ es ++ [EvPopString (pos (i + 1 + length s))])
| value_array_empty : forall i w e, jws (i + 1) w e ->
    jvalue i (bs "[" ++ w ++ bs "]")
      ([EvPushArray (pos i)] ++ e ++ [EvPopArray (pos (i + 1 + length w))])
| value_array : forall i w e s es, jws (i + 1) w e -> jelements (i + 1 + length w) s es ->
    jvalue i (bs "[" ++ w ++ s ++ bs "]")
      ([EvPushArray (pos i)] ++ e ++ es ++ [EvPopArray (pos (i + 1 + length w + length s))])
| value_object_empty : forall i w e, jws (i + 1) w e ->
    jvalue i (bs "{" ++ w ++ bs "}")
      ([EvPushObject (pos i)] ++ e ++ [EvPopObject (pos (i + 1 + length w))])
| value_object : forall i w e s es, jws (i + 1) w e -> jmembers (i + 1 + length w) s es ->
    jvalue i (bs "{" ++ w ++ s ++ bs "}")
      ([EvPushObject (pos i)] ++ e ++ es ++ [EvPopObject (pos (i + 1 + length w + length s))])
with jelements : nat -> str -> list event -> Prop :=
| elements_one : forall i v ev w ew, jvalue i v ev -> jws (i + length v) w ew ->
    jelements i (v ++ w) (ev ++ ew)
| elements_more : forall i v ev w ew w' ew' s es, jvalue i v ev -> jws (i + length v) w ew ->
    jws (i + length v + length w + 1) w' ew' ->
    jelements (i + length v + length w + 1 + length w') s es ->
    jelements i (v ++ w ++ bs "," ++ w' ++ s) (ev ++ ew ++ ew' ++ es)
with jmember : nat -> str -> list event -> Prop :=
| member_intro : forall i k ek w1 e1 w2 e2 v ev, jchars (i + 1) k ek ->
    jws (i + 2 + length k) w1 e1 -> jws (i + 3 + length k + length w1) w2 e2 ->
    jvalue (i + 3 + length k + length w1 + length w2) v ev ->
    jmember i ([34%N] ++ k ++ [34%N] ++ w1 ++ bs ":" ++ w2 ++ v)
      ([EvPushProperty (pos i)] ++ ek ++ [EvPopProperty (pos (i + 1 + length k))]
       ++ e1 ++ e2 ++ ev)
with jmembers : nat -> str -> list event -> Prop :=
| members_one : forall i m em w ew, jmember i m em -> jws (i + length m) w ew ->
    jmembers i (m ++ w) (em ++ ew)
| members_more : forall i m em w ew w' ew' s es, jmember i m em -> jws (i + length m) w ew ->
    jws (i + length m + length w + 1) w' ew' ->
    jmembers (i + length m + length w + 1 + length w') s es ->
    jmembers i (m ++ w ++ bs "," ++ w' ++ s) (em ++ ew ++ ew' ++ es).

(** A JSON text: one value with whitespace around it. *)
Inductive jtext : str -> list event -> Prop :=
| text_intro : forall w1 e1 v ev w2 e2, jws 0 w1 e1 -> jvalue (length w1) v ev ->
    jws_end (length w1 + length v) w2 e2 -> jtext (w1 ++ v ++ w2) (e1 ++ ev ++ e2).
End Grammar.

(** ** True positions: lines end after each line feed. *)
Definition after (p : position) (c : N) : position :=
  if (c =? 10)%N then mk_position (code_unit p + 1) (line p + 1) 0
  else mk_position (code_unit p + 1) (line p) (line_code_unit p + 1).
Definition position_of (src : str) (i : nat) : position :=
  fold_left after (firstn i src) (mk_position 0 0 0).

(** A source that is a JSON text, and what a visitor is to be told about it. *)
Definition json_text (blank : N -> Prop) (o : json_options) (src : str) (evs : list event) : Prop :=
  jtext blank o (position_of src) src evs.

(** ** Nesting: a stack of open constructs. *)
Inductive open_construct := in_string | in_property | in_object | in_array.
Definition event_stack (e : event) (st : list open_construct) : option (list open_construct) :=
  match e with
  | EvPushString _ => Some (in_string :: st)
  | EvPushProperty _ => match st with in_object :: _ => Some (in_property :: st) | _ => None end
  | EvPushObject _ => Some (in_object :: st)
  | EvPushArray _ => Some (in_array :: st)
  | EvPopString _ => match st with in_string :: r => Some r | _ => None end
  | EvPopProperty _ => match st with in_property :: r => Some r | _ => None end
  | EvPopObject _ => match st with in_object :: r => Some r | _ => None end
  | EvPopArray _ => match st with in_array :: r => Some r | _ => None end
  | EvLiteral _ _ | EvEscape _ _ _ _ =>
    match st with in_string :: _ | in_property :: _ => Some st | _ => None end
  | EvLineComment _ _ | EvBlockComment _ _ | EvNumber _ _ | EvNumberValue _ _ _ | EvNull _
  | EvBoolean _ _ =>
    match st with in_string :: _ | in_property :: _ => None | _ => Some st end
  | EvError _ _ => Some st
  end.
Fixpoint nested (st : list open_construct) (evs : list event) : option (list open_construct) :=
  match evs with
  | [] => Some st
  | e :: r => match event_stack e st with Some st' => nested st' r | None => None end
  end.
Definition balanced (evs : list event) : Prop := nested [] evs = Some [].

(** ** The place of an event in the source: its position is that of some offset where its text is. *)
Definition event_position (e : event) : position :=
  match e with
  | EvLineComment p _ | EvBlockComment p _ | EvLiteral p _ | EvEscape p _ _ _ | EvNumber p _
  | EvNumberValue p _ _ | EvNull p | EvBoolean p _ | EvPushString p | EvPopString p
  | EvPushProperty p | EvPopProperty p | EvPushObject p | EvPopObject p | EvPushArray p
  | EvPopArray p | EvError p _ => p
  end.
Definition event_text (e : event) : str :=
  match e with
  | EvLineComment _ t | EvBlockComment _ t | EvLiteral _ t | EvEscape _ t _ _ | EvNumber _ t
  | EvNumberValue _ t _ => t
  | EvNull _ => bs "null"
  | EvBoolean _ true => bs "true"
  | EvBoolean _ false => bs "false"
  | EvPushString _ | EvPopString _ | EvPushProperty _ | EvPopProperty _ => [34%N]
  | EvPushObject _ => bs "{" | EvPopObject _ => bs "}"
  | EvPushArray _ => bs "[" | EvPopArray _ => bs "]"
  | EvError _ _ => []
  end.
Definition located (src : str) (e : event) : Prop :=
  exists a b, src = a ++ event_text e ++ b /\ event_position e = position_of src (length a).
Definition is_error (e : event) : Prop := match e with EvError _ _ => True | _ => False end.
Definition is_block_comment (e : event) : Prop :=
  match e with EvBlockComment _ _ => True | _ => False end.

(** The call [e'] is the call [e], except that a block comment may come with another text and
    position and, if [loose], the value of a number may have been read from another text. *)
Inductive reported (loose : bool) : event -> event -> Prop :=
| rep_same : forall e, reported loose e e
| rep_block : forall p t p' t', reported loose (EvBlockComment p t) (EvBlockComment p' t')
| rep_number : forall p t c, loose = true ->
    reported loose (EvNumberValue p t t) (EvNumberValue p t c).

(** ** Why a parse can end without an error call: where a value should start, the text ends, or
    starts with the first letter of a keyword that it does not continue. *)
Definition value_missing (r : str) : Prop :=
  r = [] \/ exists k c, In k [bs "true"; bs "false"; bs "null"] /\ firstn 1 k = [c]
             /\ firstn 1 r = [c] /\ ~ exists t, r = k ++ t.
(** ... and with a failed assertion: after an opening brace or a comma, and whitespace, comes
    something other than a quotation mark. *)
Definition key_missing (o : json_options) (src : str) : Prop :=
  exists a c w e b, src = a ++ [c] ++ w ++ b /\ In c (bs "{,")
    /\ jws_end lenient_blank o (position_of src) (length a + 1) w e /\ firstn 1 b <> [34%N].
