(** * Specification for HTML highlighting. *)
From Coq Require Import List NArith Bool.
From Verif Require Import M_Base S_Chars S_Parse.
Import ListNotations.

(** HTML whitespace: space, tab, newline, form feed, carriage return. *)
Definition html_space (c : N) : Prop := In c [32; 9; 10; 12; 13]%N.

(** How a source may end so that the highlighter does not read past the end: not with a
    semicolon, and not with an unfinished closing script or style tag followed by exactly one
    character that cannot follow its name (such as "</scriptx"). *)
Definition good_end (s : str) : Prop :=
  s = [] \/ exists p c, s = p ++ [c] /\ c <> ch ";"
    /\ ((html_space c \/ c = ch ">" \/ c = ch "/")
        \/ forall name, In name [bs "script"; bs "style"] ->
             ~ exists q m, p = q ++ bs "</" ++ m /\ map lower m = map lower name).

(** ** Character references
    https://html.spec.whatwg.org/dev/syntax.html#character-references *)
Inductive reference_body : str -> Prop :=
| ref_hex d : d <> [] -> Forall hex d -> reference_body (bs "#x" ++ d)
| ref_dec d : d <> [] -> Forall (fun c => 48 <= c <= 57)%N d -> reference_body (bs "#" ++ d)
| ref_named d : d <> [] ->
    Forall (fun c => 48 <= c <= 57 \/ 65 <= c <= 90 \/ 97 <= c <= 122)%N d -> reference_body d.

(** ** Comments
    https://html.spec.whatwg.org/dev/syntax.html#comments: the text between [<!--] and [-->] must
    not start with [>] or [->], contain [<!--], [-->] or [--!>], or end with [<!-]. *)
Definition contains (s p : str) : Prop := exists a b, s = a ++ p ++ b.
Definition comment_text (t : str) : Prop :=
  (~ exists b, t = bs ">" ++ b) /\ (~ exists b, t = bs "->" ++ b)
  /\ ~ contains t (bs "<!--") /\ ~ contains t (bs "-->") /\ ~ contains t (bs "--!>")
  /\ ~ exists a, t = a ++ bs "<!-".

(** ** Elements that contain source code
    A closing tag with a longer name, such as [</scripts>] *)
Definition longer_close (name s : str) : Prop :=
  exists a m x r, s = a ++ bs "</" ++ m ++ x :: r /\ map lower m = map lower name
    /\ ~ (html_space x \/ x = ch ">" \/ x = ch "/").
(** [piece] directly follows a [>] somewhere after [<] and the name, in any case; it is followed by the end or by [</]
    unless there is such a closing tag. *)
Definition element_text (name piece s : str) : Prop :=
  exists x n y b, s = x ++ bs "<" ++ n ++ y ++ bs ">" ++ piece ++ b /\ map lower n = map lower name
    /\ (b = [] \/ (exists b', b = bs "</" ++ b') \/ longer_close name (piece ++ b)).
