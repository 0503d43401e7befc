(** * Specification: the lexemes of Python and their tokens. *)
From Coq Require Import List NArith Bool Arith.
From Verif Require Import M_Base M_Types M_Emit S_Lexemes.
Import ListNotations.

Definition py_space (c : N) : Prop := In c [32; 9; 10; 12; 13]%N.

Definition py_words : list (str * N) :=
  map (fun w => (w, hl_keyword)) [bs "and"; bs "as"; bs "assert"; bs "async"; bs "class"; bs "def"; bs "del"; bs "from"; bs "global";
    bs "import"; bs "in"; bs "is"; bs "lambda"; bs "nonlocal"; bs "not"; bs "or"; bs "with"]
  ++ map (fun w => (w, hl_keyword_control)) [bs "await"; bs "break"; bs "case"; bs "continue"; bs "elif"; bs "else"; bs "except"; bs "finally";
    bs "for"; bs "if"; bs "match"; bs "pass"; bs "raise"; bs "return"; bs "try"; bs "while"; bs "yield"]
  ++ [(bs "True", hl_bool); (bs "False", hl_bool); (bs "None", hl_null)].
Definition py_symbols : list (str * N) :=
  map (fun w => (w, hl_symbol_op)) [bs "!="; bs "%"; bs "%="; bs "&"; bs "&="; bs "*"; bs "**"; bs "**="; bs "*="; bs "+"; bs "+="; bs "-"; bs "-=";
    bs "/"; bs "//"; bs "//="; bs "/="; bs ":="; bs "<"; bs "<<"; bs "<<="; bs "<="; bs "=="; bs ">"; bs ">="; bs ">>"; bs ">>="; bs "@"; bs "@=";
    bs "^"; bs "^="; bs "|"; bs "|="; bs "~"]
  ++ map (fun w => (w, hl_symbol_punc)) [bs ","; bs "->"; bs "."; bs "..."; bs ":"; bs ";"; bs "="; bs ">>>"]
  ++ [(bs "(", hl_symbol_parens); (bs ")", hl_symbol_parens); (bs "[", hl_symbol_square); (bs "]", hl_symbol_square);
      (bs "{", hl_symbol_brace); (bs "}", hl_symbol_brace); (bs "\", hl_string_escape)].

(** ** Numbers *)
Definition py_digits (base : str) : N -> Prop :=
  match base with
  | [_; x] => if mem x (bs "bB") then binary_digit else if mem x (bs "oO") then octal_digit else hex_digit
  | _ => digit
  end.
(** The grammar of numbers; a digit group separator may not occur in exponents. *)
Inductive py_number : list piece -> Prop :=
| py_based base n : In base [bs "0b"; bs "0B"; bs "0o"; bs "0O"; bs "0x"; bs "0X"] -> grouped (py_digits base) 95 n ->
    py_number (number_pieces base n None None [])
| py_decimal n frac exp suffix : grouped digit 95 n ->
    (forall f, frac = Some f -> f = [] \/ grouped digit 95 f) ->
    (forall e d, exp = Some (e, d) -> In e [bs "e"; bs "E"; bs "e+"; bs "E+"; bs "e-"; bs "E-"] /\ d <> [] /\ Forall digit d) ->
    In suffix [[]; bs "j"; bs "J"] ->
    py_number (number_pieces [] n frac exp suffix).

(** ** String literals *)
Definition py_lower (c : N) : N := if (65 <=? c)%N && (c <=? 90)%N then (c + 32)%N else c.
Definition py_raw_prefixes : list str := [bs "r"; bs "br"; bs "rb"; bs "fr"; bs "rf"].
Definition py_byte_prefixes : list str := [bs "b"; bs "br"; bs "rb"].
Definition py_all_prefixes : list str := [[]; bs "r"; bs "u"; bs "b"; bs "br"; bs "rb"; bs "f"; bs "fr"; bs "rf"].
(** Two prefixes that the highlighter does not know *)
Definition py_unknown_prefixes : list str := [bs "u"; bs "Rf"].
(** Prefixes in any combination of cases *)
Definition py_has (l : list str) (w : str) : Prop := In (map py_lower w) l.

(** The escape sequences in a literal with prefix [w]; [rest] follows. *)
Inductive py_escape (w : str) : str -> str -> Prop :=
| py_esc_line nl rest : newline nl rest -> py_escape w (92%N :: nl) rest
| py_esc_simple c rest : In c (34%N :: bs "\'abfnrtv") -> py_escape w [92; c]%N rest
| py_esc_octal d rest : exactly 3 octal_digit d -> py_escape w (92%N :: d) rest
| py_esc_hex d rest : exactly 2 hex_digit d -> py_escape w (bs "\x" ++ d) rest
| py_esc_u4 d rest : ~ py_has py_byte_prefixes w -> exactly 4 hex_digit d -> py_escape w (bs "\u" ++ d) rest
| py_esc_u8 d rest : ~ py_has py_byte_prefixes w -> exactly 8 hex_digit d -> py_escape w (bs "\U" ++ d) rest
| py_esc_name d rest : ~ py_has py_byte_prefixes w -> ~ In (ch "}") d -> py_escape w (bs "\N{" ++ d ++ bs "}") rest.
(** In raw literals a backslash keeps the next character from ending the literal. *)
Inductive py_item (w : str) : list piece -> str -> Prop :=
| py_item_raw c rest : py_has py_raw_prefixes w -> (c < 128)%N -> py_item w [([92; c]%N, Some hl_string)] rest
| py_item_escape e rest : ~ py_has py_raw_prefixes w -> py_escape w e rest -> py_item w [(e, Some hl_string_escape)] rest.
(** Plain text up to the closing delimiter *)
Definition py_plain (delim run rest : str) : Prop :=
  ~ In (ch "\") run /\ (length delim = 1 -> Forall (fun c => c <> 10 /\ c <> 13)%N run) /\
  forall a b t, run = a ++ b -> b <> [] -> b ++ rest <> delim ++ t.
Definition py_delims : list str := [[34]; [39]; [34; 34; 34]; [39; 39; 39]]%N.
(** How literals end: with the delimiter, or without at the end of the line or of the text *)
Inductive py_closing (delim : str) : list piece -> str -> Prop :=
| py_closed rest : py_closing delim [(delim, Some hl_string_delim)] rest
| py_unclosed : py_closing delim [] []
| py_unclosed_line c rest : length delim = 1 -> (c = 10 \/ c = 13)%N -> py_closing delim [] (c :: rest).
Inductive py_string (w : str) : list piece -> str -> Prop :=
| py_string_literal delim body close rest : In delim py_delims -> py_closing delim close rest ->
    string_body hl_string (py_plain delim) (py_item w) (text close ++ rest) true body ->
    (* the literal does not start with three quotes *)
    (length delim = 1 -> forall t, text body ++ text close ++ rest <> delim ++ delim ++ t) ->
    py_string w (opt_piece w hl_string_decor ++ [(delim, Some hl_string_delim)] ++ body ++ close) rest.

(** ** Lexemes *)
Definition py_quote (c : N) : Prop := c = 34%N \/ c = 39%N.
Inductive py_lexeme : list piece -> str -> Prop :=
| py_comment t rest : Forall (fun c => c <> 10 /\ c <> 13)%N t -> not_before (fun c => c <> 10 /\ c <> 13)%N rest ->
    py_lexeme ((bs "#", Some hl_comment_delim) :: opt_piece t hl_comment) rest
| py_word w h rest : In (w, h) py_words -> not_before (fun c => ident_or_non_ascii c \/ py_quote c) rest -> py_lexeme [(w, Some h)] rest
| py_name w rest : identifier w -> (forall h, ~ In (w, h) py_words) -> not_before (fun c => ident_or_non_ascii c \/ py_quote c) rest ->
    py_lexeme [(w, Some hl_name)] rest
| py_symbol t h rest : In (t, h) py_symbols -> longest py_symbols t rest -> (t = bs "." -> not_before digit rest) -> py_lexeme [(t, Some h)] rest
| py_num n rest : py_number n -> not_before (fun c => ident_char c \/ c = ch ".") rest ->
    (* a fraction without digits does not end the text *)
    (rest = [] -> ~ exists a, text n = a ++ bs ".") ->
    py_lexeme n rest
| py_str w p rest : py_has py_all_prefixes w -> ~ In w py_unknown_prefixes -> py_string w p rest -> py_lexeme p rest.

(** ** What Python allows beyond [py_lexeme] *)
(** Numbers: the fraction may come without integer part. *)
Inductive py_any_number : list piece -> Prop :=
| py_any n : py_number n -> py_any_number n
| py_point f exp suffix : grouped digit 95 f ->
    (forall e d, exp = Some (e, d) -> In e [bs "e"; bs "E"; bs "e+"; bs "E+"; bs "e-"; bs "E-"] /\ d <> [] /\ Forall digit d) ->
    In suffix [[]; bs "j"; bs "J"] ->
    py_any_number (number_pieces [] [] (Some f) exp suffix).
(** A literal of nothing but one octal escape sequence *)
Definition py_octal_literal (d : str) : list piece :=
  [(bs "'", Some hl_string_delim); (92%N :: d, Some hl_string_escape); (bs "'", Some hl_string_delim)].
