(** * Specification: which JavaScript and TypeScript sources are highlighted *)
From Coq Require Import List NArith Bool Arith.
From Verif Require Import M_Base.
Import ListNotations.

(** A character that neither ends a string literal nor starts an escape sequence *)
Definition inside (c : N) : Prop := c <> 34%N /\ c <> 39%N /\ c <> 92%N /\ c <> 10%N.

(** What follows a backslash: after an x two characters, after a u four or a sequence enclosed in braces, all of which
    can be inside a string literal. Every well-formed escape sequence satisfies this. *)
Definition escape_inside (after : str) : Prop :=
  (forall t, after = ch "x" :: t -> exists d r, t = d ++ r /\ length d = 2 /\ Forall inside d)
  /\ (forall t, after = ch "u" :: t ->
        (exists d r, t = d ++ r /\ length d = 4 /\ Forall inside d /\ hd 0%N d <> ch "{")
        \/ (exists d r, t = ch "{" :: d ++ ch "}" :: r /\ Forall inside d)).
Definition escapes_inside (src : str) : Prop := forall a b, src = a ++ 92%N :: b -> escape_inside b.

(** What follows a less-than sign that cannot start a JSX tag: characters of names and whitespace, up to the end or to
    another ASCII character that is none of > / { and the quotes. *)
Definition name_or_blank (c : N) : Prop :=
  (97 <= c <= 122)%N \/ (65 <= c <= 90)%N \/ (48 <= c <= 57)%N \/ c = 32%N \/ (9 <= c <= 13)%N \/ In c (bs "_$.-:=").
Definition ends_tag (c : N) : Prop :=
  (c < 128)%N /\ ~ name_or_blank c /\ ~ In c (34%N :: 39%N :: bs ">/{").
Definition no_tag (after : str) : Prop :=
  exists w rest, after = w ++ rest /\ Forall name_or_blank w /\ (rest = [] \/ exists c t, rest = c :: t /\ ends_tag c).
Definition no_tags (src : str) : Prop := forall a b, src = a ++ ch "<" :: b -> no_tag b.
