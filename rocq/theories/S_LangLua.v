(** * Specification: Lua (https://www.lua.org/manual/5.4/manual.html, section 3.1) *)
From Coq Require Import List NArith Bool Arith.
From Verif Require Import M_Base M_Types S_Tokens M_Emit M_Api S_Json S_Lexemes.
Import ListNotations.

(** Tokens in source order, in bounds, without overlap; they may be empty. *)
Definition in_sequence (n : nat) (toks : list token) : Prop :=
  (forall t, In t toks -> tk_end t <= n)
  /\ (forall i j t u, i < j -> nth_error toks i = Some t -> nth_error toks j = Some u -> tk_end t <= tk_begin u).

Definition lua_space (c : N) : Prop := In c [9; 10; 11; 12; 13; 32]%N.
Definition lua_words : list (str * N) :=
  map (fun w => (w, hl_keyword)) [bs "and"; bs "function"; bs "in"; bs "local"; bs "not"; bs "or"]
  ++ map (fun w => (w, hl_keyword_control)) [bs "break"; bs "do"; bs "else"; bs "elseif"; bs "end"; bs "for"; bs "goto"; bs "if"; bs "repeat"; bs "return"; bs "then";
    bs "until"; bs "while"]
  ++ map (fun w => (w, hl_bool)) [bs "false"; bs "true"]
  ++ map (fun w => (w, hl_null)) [bs "nil"].
Definition lua_symbols : list (str * N) :=
  map (fun w => (w, hl_symbol_op)) [bs "#"; bs "%"; bs "&"; bs "*"; bs "+"; bs "-"; bs "."; bs ".."; bs "..."; bs "/"; bs "//"; bs ":"; bs "::"; bs "<";
    bs "<<"; bs "<="; bs "="; bs "=="; bs ">"; bs ">="; bs ">>"; bs "^"; bs "|"; bs "~"; bs "~="]
  ++ map (fun w => (w, hl_symbol_parens)) [bs "("; bs ")"]
  ++ map (fun w => (w, hl_symbol_punc)) [bs ","; bs ";"]
  ++ map (fun w => (w, hl_symbol_square)) [bs "["; bs "]"]
  ++ map (fun w => (w, hl_symbol_brace)) [bs "{"; bs "}"].

(** Numerals *)
Inductive lua_mantissa (d : N -> Prop) : str -> Prop :=
| lua_whole m : m <> [] -> Forall d m -> lua_mantissa d m
| lua_fractional a b : a ++ b <> [] -> Forall d a -> Forall d b -> lua_mantissa d (a ++ ch "." :: b).
Inductive lua_exponent (marks : list N) : str -> Prop :=
| lua_no_exponent : lua_exponent marks []
| lua_with_exponent e sign ds : In e marks -> In sign [[]; bs "+"; bs "-"] -> ds <> [] -> Forall digit ds -> lua_exponent marks (e :: sign ++ ds).
Inductive lua_numeral : str -> Prop :=
| lua_decimal m e : lua_mantissa digit m -> lua_exponent (bs "eE") e -> lua_numeral (m ++ e)
| lua_hexadecimal x m e : In x (bs "xX") -> lua_mantissa hex_digit m -> lua_exponent (bs "pP") e -> lua_numeral (ch "0" :: x :: m ++ e).

(** The contents of quoted strings: a backslash keeps the next character from having a meaning. *)
Inductive lua_contents (q : N) : str -> Prop :=
| lua_contents_end : lua_contents q []
| lua_contents_plain c b : c <> q -> c <> ch "\" -> c <> 10%N -> lua_contents q b -> lua_contents q (c :: b)
| lua_contents_escape c b : lua_contents q b -> lua_contents q (ch "\" :: c :: b).

(** Long brackets of level [n] *)
Definition lua_open (n : nat) : str := bs "[" ++ repeat (ch "=") n ++ bs "[".
Definition lua_close (n : nat) : str := bs "]" ++ repeat (ch "=") n ++ bs "]".
Definition no_long_bracket (s : str) : Prop := forall n v, s <> lua_open n ++ v.
(** The text [body] between long brackets: the closing bracket occurs only at its end. *)
Definition lua_between (n : nat) (body : str) : Prop := ~ contains (body ++ bs "]" ++ repeat (ch "=") n) (lua_close n).
(** Open bracket, text (a token of its own even if it is empty), closing bracket unless at the end of the source *)
Inductive lua_long_text (intro : str) (hd ht : N) : list piece -> str -> Prop :=
| lua_long_closed n body rest : lua_between n body ->
    lua_long_text intro hd ht [(intro ++ lua_open n, Some hd); (body, Some ht); (lua_close n, Some hd)] rest
| lua_long_unclosed n body : ~ contains body (lua_close n) -> lua_long_text intro hd ht [(intro ++ lua_open n, Some hd); (body, Some ht)] [].

Inductive lua_lexeme : list piece -> str -> Prop :=
| lua_word w h rest : In (w, h) lua_words -> not_before ident_or_non_ascii rest -> lua_lexeme [(w, Some h)] rest
| lua_name w rest : identifier w -> (forall h, ~ In (w, h) lua_words) -> not_before ident_or_non_ascii rest -> lua_lexeme [(w, Some hl_name)] rest
| lua_number w rest : lua_numeral w -> not_before (fun c => ident_char c \/ c = ch ".") rest -> lua_lexeme [(w, Some hl_number)] rest
| lua_symbol t h rest : In (t, h) lua_symbols -> longest lua_symbols t rest ->
    (t = bs "-" -> not_before (fun c => c = ch "-") rest) -> (t = bs "." -> not_before digit rest) ->
    (t = bs "[" -> no_long_bracket (t ++ rest)) -> (t = bs "<" -> forall v, rest <> bs "const>" ++ v) -> lua_lexeme [(t, Some h)] rest
| lua_attribute rest : lua_lexeme [(bs "<", Some hl_name_attr_delim); (bs "const", Some hl_name_attr); (bs ">", Some hl_name_attr_delim)] rest
| lua_quoted_string q body rest : q = 34%N \/ q = 39%N -> lua_contents q body -> lua_lexeme [(q :: body ++ [q], Some hl_string)] rest
| lua_unfinished_string q body rest : q = 34%N \/ q = 39%N -> lua_contents q body -> rest = [] \/ hd_error rest = Some 10%N ->
    lua_lexeme [(q :: body, Some hl_string)] rest
| lua_long_string p rest : lua_long_text [] hl_string hl_string p rest -> lua_lexeme p rest
| lua_line_comment t rest : Forall (fun c => c <> 10%N) t -> rest = [] \/ hd_error rest = Some 10%N -> no_long_bracket (t ++ rest) ->
    lua_lexeme [(bs "--", Some hl_comment_delim); (t, Some hl_comment)] rest
| lua_block_comment p rest : lua_long_text (bs "--") hl_comment_delim hl_comment p rest -> lua_lexeme p rest.

(** Section 3.1: the contents of a quoted string also admit a backslash before a line break of two characters, and [\z], which
    skips the following white space, line breaks included. *)
Inductive lua_valid_contents (q : N) : str -> Prop :=
| lua_valid_end : lua_valid_contents q []
| lua_valid_plain c b : c <> q -> c <> ch "\" -> c <> 10%N -> c <> 13%N -> lua_valid_contents q b -> lua_valid_contents q (c :: b)
| lua_valid_simple c b : In c (bs "abfnrtv\" ++ [10; 13; 34; 39]%N) -> lua_valid_contents q b -> lua_valid_contents q (ch "\" :: c :: b)
| lua_valid_line_break b w : In w [[13; 10]; [10; 13]]%N -> lua_valid_contents q b -> lua_valid_contents q (ch "\" :: w ++ b)
| lua_valid_skip w b : Forall lua_space w -> lua_valid_contents q b -> lua_valid_contents q (ch "\" :: ch "z" :: w ++ b)
| lua_valid_hex x y b : hex_digit x -> hex_digit y -> lua_valid_contents q b -> lua_valid_contents q (ch "\" :: ch "x" :: x :: y :: b)
| lua_valid_decimal ds b : 1 <= length ds <= 3 -> Forall digit ds -> lua_valid_contents q b -> lua_valid_contents q (ch "\" :: ds ++ b)
| lua_valid_unicode ds b : ds <> [] -> Forall hex_digit ds -> lua_valid_contents q b -> lua_valid_contents q (ch "\" :: bs "u{" ++ ds ++ bs "}" ++ b).
(** The same without the two forms in which a line break does not directly follow a backslash *)
Inductive lua_single_line_contents (q : N) : str -> Prop :=
| lua_single_end : lua_single_line_contents q []
| lua_single_plain c b : c <> q -> c <> ch "\" -> c <> 10%N -> c <> 13%N -> lua_single_line_contents q b -> lua_single_line_contents q (c :: b)
| lua_single_simple c b : In c (bs "abfnrtv\" ++ [10; 13; 34; 39]%N) -> lua_single_line_contents q b -> lua_single_line_contents q (ch "\" :: c :: b)
| lua_single_skip w b : Forall (fun c => lua_space c /\ c <> 10%N) w -> lua_single_line_contents q b -> lua_single_line_contents q (ch "\" :: ch "z" :: w ++ b)
| lua_single_hex x y b : hex_digit x -> hex_digit y -> lua_single_line_contents q b -> lua_single_line_contents q (ch "\" :: ch "x" :: x :: y :: b)
| lua_single_decimal ds b : 1 <= length ds <= 3 -> Forall digit ds -> lua_single_line_contents q b -> lua_single_line_contents q (ch "\" :: ds ++ b)
| lua_single_unicode ds b : ds <> [] -> Forall hex_digit ds -> lua_single_line_contents q b -> lua_single_line_contents q (ch "\" :: bs "u{" ++ ds ++ bs "}" ++ b).
(** Section 3.3.7: the attributes of local variables *)
Definition lua_attributes : list str := [bs "const"; bs "close"].
