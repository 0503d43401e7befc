(** * Specification: names of HTML tags and attributes, for texts given as lists of code points

    https://html.spec.whatwg.org/dev/custom-elements.html#valid-custom-element-name (PCENChar) and
    https://html.spec.whatwg.org/dev/syntax.html#syntax-attribute-name. Nothing here refers to the model. *)
From Coq Require Import List NArith.
Import ListNotations.
Local Open Scope N_scope.

Definition ascii_letter (c : N) : Prop := 0x41 <= c <= 0x5A \/ 0x61 <= c <= 0x7A.
(** PCENChar, and upper case letters *)
Definition name_character (c : N) : Prop :=
  ascii_letter c \/ 0x30 <= c <= 0x39 \/ c = 0x2D \/ c = 0x2E \/ c = 0x5F \/ c = 0xB7
  \/ 0xC0 <= c <= 0xD6 \/ 0xD8 <= c <= 0xF6 \/ 0xF8 <= c <= 0x37D \/ 0x37F <= c <= 0x1FFF \/ 0x200C <= c <= 0x200D
  \/ 0x203F <= c <= 0x2040 \/ 0x2070 <= c <= 0x218F \/ 0x2C00 <= c <= 0x2FEF \/ 0x3001 <= c <= 0xD7FF
  \/ 0xF900 <= c <= 0xFDCF \/ 0xFDF0 <= c <= 0xFFFD \/ 0x10000 <= c <= 0xEFFFF.
Inductive tag_name : list N -> Prop :=
| tag_name_of c rest : ascii_letter c -> Forall name_character rest -> tag_name (c :: rest).

(** https://infra.spec.whatwg.org/#control: C0 controls, and U+007F to U+009F *)
Definition control (c : N) : Prop := c <= 0x1F \/ 0x7F <= c <= 0x9F.
(** https://infra.spec.whatwg.org/#noncharacter: U+FDD0 to U+FDEF, and the last two code points of each plane *)
Definition noncharacter (c : N) : Prop := 0xFDD0 <= c <= 0xFDEF \/ c mod 0x10000 = 0xFFFE \/ c mod 0x10000 = 0xFFFF.
(** Space, quotation marks, greater-than sign, slash and equals sign *)
Definition attribute_character (c : N) : Prop :=
  ~ control c /\ ~ In c [0x20; 0x22; 0x27; 0x3E; 0x2F; 0x3D] /\ ~ noncharacter c.
Inductive attribute_name : list N -> Prop :=
| attribute_name_of c rest : Forall attribute_character (c :: rest) -> attribute_name (c :: rest).
(** The controls U+0080 to U+009F *)
Definition c1_control (c : N) : Prop := 0x80 <= c <= 0x9F.
