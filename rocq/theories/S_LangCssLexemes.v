(** * Specification: CSS style sheets as sequences of lexemes with the tokens a user expects. *)
From Coq Require Import List NArith Bool Arith.
From Verif Require Import M_Base M_Types S_Parse S_LangCss S_Lexemes S_LexemesForced.
Import ListNotations.

(** White space and line ends (https://www.w3.org/TR/css-syntax-3) *)
Definition css_newline (c : N) : Prop := c = 10%N \/ c = 12%N \/ c = 13%N.
Definition css_white (c : N) : Prop := c = 9%N \/ c = 32%N \/ css_newline c.
(** What a name starts with and consists of; non-ASCII names are left out (C180). *)
Definition css_start (c : N) : Prop := letter c \/ c = 95%N.
Definition css_char (c : N) : Prop := letter c \/ c = 95%N \/ digit c \/ c = 45%N.
(** What would continue a name *)
Definition css_more (c : N) : Prop := css_char c \/ c = 92%N \/ (128 <= c)%N.
(** What would start a name or a number *)
Definition css_word (c : N) : Prop := css_more c \/ c = 46%N.

(** An escape before the text [next]: a backslash with one to six hexadecimal digits and at most one white space, or with another ASCII
    character. *)
Inductive css_escape : str -> str -> Prop :=
| escape_hex d w next : d <> [] -> length d <= 6 -> Forall hex_digit d -> length w <= 1 -> Forall css_white w ->
    (length d = 6 \/ not_before hex_digit (w ++ next)) -> (w = [] -> not_before css_white next) -> css_escape (92%N :: d ++ w) next
| escape_char c next : (c < 128)%N -> ~ hex_digit c -> ~ css_newline c -> css_escape [92; c]%N next.

(** A name with highlight [h] before the text [rest]: runs of characters, which are joined with what comes before, and escapes. *)
Inductive css_name (h : N) : list fpiece -> str -> Prop :=
| name_last r rest : Forall css_char r -> not_before css_more rest -> css_name h (fopt_joined r h) rest
| name_escape r e p rest : Forall css_char r -> css_escape e (ftext p ++ rest) -> css_name h p rest ->
    css_name h (fopt_joined r h ++ alone e hl_string_escape :: p) rest.
(** A whole identifier starts with a letter, an underscore or an escape, perhaps after a dash. *)
Definition css_plain (p : list fpiece) : Prop := exists c t, ftext p = c :: t /\ (css_start c \/ c = 92%N).
Definition css_dash (p : list fpiece) : Prop := exists c t, ftext p = 45%N :: c :: t /\ (css_start c \/ c = 92%N).
Definition css_custom (p : list fpiece) : Prop := exists c t, ftext p = 45%N :: 45%N :: c :: t /\ css_start c.

(** A string with quote [q] before [rest], after the text [pre] of its first run: runs of characters and escapes, up to the closing quote or
    the end of the line. *)
Definition css_continuation (e next : str) : Prop :=
  e = [92; 10]%N \/ e = [92; 12]%N \/ e = [92; 13]%N /\ not_before (fun c => c = 10%N) next.
Inductive css_string (q : N) : str -> list fpiece -> str -> Prop :=
| string_close pre r rest : Forall (fun c => c <> q /\ c <> 92%N /\ ~ css_newline c) r -> css_string q pre [alone (pre ++ r ++ [q]) hl_string] rest
| string_open pre r rest : Forall (fun c => c <> q /\ c <> 92%N /\ ~ css_newline c) r -> (forall c, hd_error rest = Some c -> css_newline c) ->
    css_string q pre (fopt (pre ++ r) hl_string) rest
| string_escape pre r e p rest : Forall (fun c => c <> q /\ c <> 92%N /\ ~ css_newline c) r ->
    css_escape e (ftext p ++ rest) \/ css_continuation e (ftext p ++ rest) -> css_string q [] p rest ->
    css_string q pre (fopt (pre ++ r) hl_string ++ alone e hl_string_escape :: p) rest.

(** A number is as long as possible, and so is its unit. *)
Definition css_unit (p : list fpiece) (rest : str) : Prop :=
  p = [] /\ not_before (fun c => css_start c \/ c = 92%N \/ c = 45%N \/ c = 37%N \/ (128 <= c)%N) rest
  \/ p = [alone (bs "%") hl_number_decor]
  \/ css_name hl_number_decor p rest /\ (css_plain p \/ css_dash p).
(** The letters of a key word in either case *)
Definition css_same_letter (c d : N) : Prop := c = d \/ (c + 32)%N = d.

(** Where a lexeme stands: among selectors, after an at-key word, at the start of a declaration, in the value of a declaration. *)
Inductive css_role := at_selector | at_prelude | at_property | at_value.
(** The highlight of a name, of an identifier in a value *)
Definition css_name_highlight (r : css_role) (rest : str) : N :=
  match r with
  | at_selector => hl_markup_tag
  | at_prelude => hl_name_macro
  | at_property => hl_markup_attr
  | at_value => if match rest with c :: _ => (c =? 40)%N | [] => false end then hl_name_function else hl_name
  end.

Inductive css_lexeme : css_role -> list fpiece -> str -> css_role -> Prop :=
| lex_white r w rest : w <> [] -> Forall css_white w -> not_before css_white rest -> css_lexeme r [bare w] rest r
| lex_string r q p rest : q = 34%N \/ q = 39%N -> css_string q [q] p rest -> css_lexeme r p rest r
| lex_name r p rest : css_plain p -> css_name (css_name_highlight r rest) p rest -> css_lexeme r p rest r
| lex_dash p rest : css_dash p \/ css_custom p -> css_name (css_name_highlight at_value rest) p rest -> css_lexeme at_value p rest at_value
| lex_id p rest : p <> [] -> css_name hl_markup_tag p rest -> css_lexeme at_selector (alone (bs "#") hl_markup_tag :: p) rest at_selector
| lex_color p rest : p <> [] -> css_name hl_value p rest -> css_lexeme at_value (alone (bs "#") hl_value :: p) rest at_value
| lex_class rest : not_before digit rest -> css_lexeme at_selector [joined (bs ".") hl_markup_tag] rest at_selector
| lex_pseudo rest : css_lexeme at_selector [joined (bs ":") hl_markup_tag] rest at_selector
| lex_combinator c rest : In c (bs ">~*") -> css_lexeme at_selector [joined [c] hl_markup_tag] rest at_selector
| lex_number r d p rest : r = at_prelude \/ r = at_value -> longest_prefix css_number_text (d ++ ftext p ++ rest) d -> css_unit p rest ->
    css_lexeme r (alone d hl_number :: p) rest r
| lex_operator r c rest : r <> at_selector -> In c (bs ">~*") -> css_lexeme r [alone [c] hl_symbol_op] rest r
| lex_sign r c rest : r = at_prelude \/ r = at_value -> In c (bs "+-") -> not_before css_word rest -> css_lexeme r [alone [c] hl_symbol_op] rest r
| lex_less r rest : not_before (fun c => c = 33%N) rest -> css_lexeme r [alone (bs "<") hl_symbol_op] rest r
| lex_cdo r rest : css_lexeme r [alone (bs "<!--") hl_comment_delim] rest r
| lex_cdc r rest : css_lexeme r [alone (bs "-->") hl_comment_delim] rest r
| lex_comma r rest : css_lexeme r [alone (bs ",") hl_symbol_punc] rest r
| lex_colon r rest : r = at_prelude \/ r = at_value -> css_lexeme r [alone (bs ":") hl_symbol_punc] rest r
| lex_property rest : css_lexeme at_property [alone (bs ":") hl_symbol_punc] rest at_value
| lex_semicolon r rest : css_lexeme r [alone (bs ";") hl_symbol_punc] rest
    match r with at_value => at_property | at_prelude => at_selector | _ => r end
| lex_parens r c rest : In c (bs "()") -> css_lexeme r [alone [c] hl_symbol_parens] rest r
| lex_square r c rest : In c (bs "[]") -> css_lexeme r [alone [c] hl_symbol_square] rest r
| lex_at p rest : css_plain p \/ css_dash p -> css_name hl_name_macro p rest ->
    css_lexeme at_selector (alone (bs "@") hl_name_macro_delim :: p) rest at_prelude
| lex_important w k rest : Forall css_white w -> Forall2 css_same_letter k (bs "important") -> not_before css_more rest ->
    css_lexeme at_value [alone (bs "!" ++ w ++ k) hl_keyword] rest at_value
| lex_begin r rest : r = at_selector \/ r = at_prelude -> css_lexeme r [alone (bs "{") hl_symbol_brace] rest at_property
| lex_end r rest : r = at_property \/ r = at_value -> css_lexeme r [alone (bs "}") hl_symbol_brace] rest at_selector
| lex_other r c rest : In c (bs "=^$|&") \/ c = ch "/" /\ not_before (fun d => d = ch "*") rest -> css_lexeme r [bare [c]] rest r.

(** A comment, which may be unclosed at the end *)
Definition css_comment (p : list fpiece) (rest : str) : Prop :=
  exists t closed, p = alone (bs "/*") hl_comment_delim :: fopt t hl_comment ++ (if closed : bool then [alone (bs "*/") hl_comment_delim] else [])
    /\ (forall a b, t <> a ++ bs "*/" ++ b) /\ (closed = false -> rest = []).

(** A style sheet: lexemes and comments, from role [r] on. *)
Inductive css_code : css_role -> list fpiece -> Prop :=
| css_end r : css_code r []
| css_note r p l : css_comment p (ftext l) -> css_code r l -> css_code r (p ++ l)
| css_next r p r' l : css_lexeme r p (ftext l) r' -> css_code r' l -> css_code r (p ++ l).
Definition css_sheet (l : list fpiece) : Prop := css_code at_selector l.
(** An identifier without escapes *)
Definition css_identifier (w : str) : Prop := exists c t, w = c :: t /\ css_start c /\ Forall css_char t.
