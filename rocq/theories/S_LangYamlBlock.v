(** * Specification: the tokens of block scalars in YAML documents *)
From Coq Require Import List NArith Bool Arith.
From Verif Require Import M_Base M_Types M_Emit M_Api S_Lexemes S_LangYamlLexemes.
Import ListNotations.

(** Lines of text with [n] spaces in front, and empty lines, before [rest] *)
Inductive block_text (n : nat) (rest : str) : list piece -> Prop :=
| block_end : block_text n rest []
| block_blank w l : newline w (text l ++ rest) -> block_text n rest l -> block_text n rest ((w, None) :: l)
| block_line k c w l : spaces k -> length k = n -> c <> [] -> same_line c -> line_ends w (text l ++ rest) -> block_text n rest l ->
    block_text n rest ((k, None) :: (c, Some hl_string) :: (w, None) :: l).
(** The indicators of a block scalar: the style, and perhaps what becomes of the last line breaks *)
Inductive block_header : list piece -> Prop :=
| header_style c : In c (bs "|>") -> block_header [quote c]
| header_chomping c d : In c (bs "|>") -> In d (bs "+-") -> block_header [quote c; ([d], Some hl_number_decor)].
(** The text: the first line has [n] spaces in front, and its text begins with another character. *)
Definition block_body (n : nat) (rest : str) (p : list piece) : Prop :=
  exists k x u w b, spaces k /\ length k = n /\ x <> 32%N /\ same_line (x :: u) /\ line_ends w (text b ++ rest) /\ block_text n rest b /\ p = (k, None) :: (x :: u, Some hl_string) :: (w, None) :: b.
Definition block_value (n : nat) (rest : str) (p : list piece) : Prop :=
  exists h w q, block_header h /\ newline w (text q ++ rest) /\ block_body n rest q /\ p = h ++ (w, None) :: q.
(** The entry after the text is not indented. *)
Definition next_entry (l : list piece) : Prop := l = [] \/ exists p w l', l = ([], None) :: p ++ (w, None) :: l' /\ yaml_entry p /\ line_ends w (text l').
