(** * Specification: the lexemes of JavaScript and TypeScript and their tokens. *)
From Coq Require Import List NArith Bool Arith.
From Verif Require Import M_Base M_Types M_Emit S_Json S_Lexemes S_Comments S_LangJs.
Import ListNotations.

Definition js_space (c : N) : Prop := In c [32; 9; 10; 11; 12; 13]%N.
(** Names: letters, digits, underscores and dollar signs *)
Definition js_name_start (c : N) : Prop := ident_start c \/ c = ch "$".
Definition js_name_char (c : N) : Prop := ident_char c \/ c = ch "$".
Definition js_name (w : str) : Prop := exists c t, w = c :: t /\ js_name_start c /\ Forall js_name_char t.
Definition after_name (rest : str) : Prop := not_before (fun c => js_name_char c \/ (128 <= c)%N) rest.

(** ** Keywords *)
Definition javascript_words : list (str * N) :=
  map (fun w => (w, hl_keyword)) [bs "as"; bs "async"; bs "await"; bs "class"; bs "const"; bs "debugger"; bs "delete"; bs "enum"; bs "export"; bs "extends";
    bs "from"; bs "function"; bs "get"; bs "import"; bs "in"; bs "instanceof"; bs "let"; bs "new"; bs "of"; bs "set"; bs "static"; bs "typeof"; bs "var"; bs "void"; bs "yield"]
  ++ map (fun w => (w, hl_keyword_control)) [bs "break"; bs "case"; bs "catch"; bs "continue"; bs "default"; bs "do"; bs "else"; bs "finally"; bs "for"; bs "if";
    bs "return"; bs "switch"; bs "throw"; bs "try"; bs "while"; bs "with"]
  ++ map (fun w => (w, hl_bool)) [bs "false"; bs "true"]
  ++ map (fun w => (w, hl_null)) [bs "null"; bs "undefined"]
  ++ map (fun w => (w, hl_keyword_this)) [bs "super"; bs "this"]
  ++ map (fun w => (w, hl_name_type_builtin)) [bs "boolean"; bs "number"; bs "string"].
Definition typescript_words : list (str * N) :=
  javascript_words
  ++ map (fun w => (w, hl_keyword)) [bs "abstract"; bs "asserts"; bs "constructor"; bs "declare"; bs "implements"; bs "interface"; bs "is"; bs "private"; bs "protected"; bs "public"; bs "type"]
  ++ [(bs "any", hl_keyword_type)].
(** Keywords that an operand follows, and keywords that are operands *)
Definition prefix_words : list str :=
  [bs "return"; bs "throw"; bs "case"; bs "delete"; bs "void"; bs "typeof"; bs "yield"; bs "await"; bs "instanceof"; bs "in"; bs "new"].
Definition operand_words : list str := [bs "false"; bs "true"; bs "null"; bs "undefined"; bs "super"; bs "this"].

(** ** Symbols, without braces *)
Definition javascript_symbols : list (str * N) :=
  map (fun w => (w, hl_symbol_op)) [bs "!"; bs "!="; bs "!=="; bs "%"; bs "%="; bs "&"; bs "&&"; bs "&&="; bs "&="; bs "*"; bs "**"; bs "**="; bs "*="; bs "+"; bs "++";
    bs "+="; bs "-"; bs "--"; bs "-="; bs "."; bs "..."; bs "/"; bs "/="; bs ":"; bs "<"; bs "<<"; bs "<<="; bs "<="; bs "="; bs "=="; bs "==="; bs "=>"; bs ">"; bs ">="; bs ">>";
    bs ">>="; bs ">>>"; bs ">>>="; bs "?"; bs "?."; bs "??"; bs "??="; bs "^"; bs "^="; bs "|"; bs "|="; bs "||"; bs "||="; bs "~"]
  ++ map (fun w => (w, hl_symbol_punc)) [bs ","; bs ";"]
  ++ map (fun w => (w, hl_symbol_parens)) [bs "("; bs ")"]
  ++ map (fun w => (w, hl_symbol_square)) [bs "["; bs "]"].
Definition typescript_symbols : list (str * N) := (bs "@", hl_symbol_punc) :: javascript_symbols.
(** Symbols that end an operand *)
Definition closing_symbols : list str := [bs ")"; bs "]"; bs "++"; bs "--"].

(** ** What can come next *)
Inductive js_goal :=
| js_begin     (** nothing came before *)
| js_blank     (** only white space and a hashbang came before *)
| js_operand   (** an operand; a slash starts a regular expression *)
| js_operator  (** an operator; a slash divides *)
| js_block     (** after a block or a keyword like "else", where a slash could be either *)
| js_remark.   (** after a comment that follows an operand, a block or a keyword, and after "is" *)
Definition wants_operand (g : js_goal) : Prop := g = js_begin \/ g = js_blank \/ g = js_operand.
Definition after_space (g : js_goal) : js_goal := match g with js_begin => js_blank | g => g end.
Definition after_comment (g : js_goal) : js_goal := match g with js_operator | js_block | js_remark => js_remark | _ => js_operand end.
Inductive after_word (w : str) : js_goal -> Prop :=
| after_prefix : In w prefix_words -> after_word w js_operand
| after_operand : In w operand_words -> after_word w js_operator
| after_other : ~ In w prefix_words -> ~ In w operand_words -> w <> bs "is" -> after_word w js_block
| after_is : w = bs "is" -> after_word w js_remark.
Inductive after_symbol (t : str) : js_goal -> Prop :=
| after_closing : In t closing_symbols -> after_symbol t js_operator
| after_open : ~ In t closing_symbols -> after_symbol t js_operand.

(** ** Numbers *)
Definition js_exp (exp : option (str * str)) : Prop :=
  forall e d, exp = Some (e, d) -> In e [bs "e"; bs "e+"; bs "e-"; bs "E"; bs "E+"; bs "E-"] /\ d <> [] /\ Forall digit d.
(** No leading zeros. The digits after "0." must be octal: see C156. *)
Definition js_decimal (n : list piece) : Prop := grouped digit 95 n /\ (text n = bs "0" \/ not_before (fun c => c = ch "0") (text n)).
Inductive js_number : list piece -> Prop :=
| js_binary base n suffix : In base [bs "0b"; bs "0B"] -> grouped binary_digit 95 n -> In suffix [[]; bs "n"] -> js_number (number_pieces base n None None suffix)
| js_octal base n suffix : In base [bs "0o"; bs "0O"] -> grouped octal_digit 95 n -> In suffix [[]; bs "n"] -> js_number (number_pieces base n None None suffix)
| js_hex base n suffix : In base [bs "0x"; bs "0X"] -> grouped hex_digit 95 n -> In suffix [[]; bs "n"] -> js_number (number_pieces base n None None suffix)
| js_integer n suffix : js_decimal n -> In suffix [[]; bs "n"] -> js_number (number_pieces [] n None None suffix)
| js_float n frac exp : js_decimal n -> (forall f, frac = Some f -> grouped digit 95 f /\ (text n = bs "0" -> grouped octal_digit 95 f)) -> js_exp exp ->
    js_number (number_pieces [] n frac exp [])
| js_point f exp : grouped digit 95 f -> js_exp exp -> js_number (number_pieces [] [] (Some f) exp []).

(** ** Literals *)
Inductive js_escape : str -> str -> Prop :=
| js_escape_char c rest : (c < 128)%N -> ~ In c (13%N :: bs "xu01234567") -> js_escape [92; c]%N rest
| js_escape_digit c rest : octal_digit c -> not_before octal_digit rest -> js_escape [92; c]%N rest
| js_escape_hex d rest : exactly 2 hex_digit d -> js_escape (bs "\x" ++ d) rest
| js_escape_unicode d rest : exactly 4 hex_digit d -> js_escape (bs "\u" ++ d) rest
| js_escape_braced d rest : d <> [] -> Forall hex_digit d -> js_escape (bs "\u{" ++ d ++ bs "}") rest.
Inductive js_escape_item : list piece -> str -> Prop :=
| js_item_escape e rest : js_escape e rest -> js_escape_item [(e, Some hl_string_escape)] rest.
Definition js_string_plain (q : N) (run rest : str) : Prop := Forall (fun c => ~ In c [q; 92; 10; 13]%N) run.
Definition js_quote (q : N) : piece := ([q], Some hl_string_delim).
(** A string ends with its quote or, without, at the end of the line or of the text. *)
Inductive js_closing (q : N) : list piece -> str -> Prop :=
| js_closed rest : js_closing q [js_quote q] rest
| js_unclosed : js_closing q [] []
| js_unclosed_line rest : js_closing q [] (10%N :: rest).
(** The text of a regular expression without unescaped slashes *)
Inductive js_regex_text : str -> Prop :=
| js_regex_end : js_regex_text []
| js_regex_char c t : ~ In c [47; 92]%N -> js_regex_text t -> js_regex_text (c :: t)
| js_regex_escape c t : js_regex_text t -> js_regex_text (92%N :: c :: t).

(** ** Lexemes without nested code *)
Section language.
Variable words symbols : list (str * N).
(** What may follow a less-than sign *)
Variable after_less : str -> Prop.
Inductive js_lexeme : js_goal -> list piece -> str -> js_goal -> Prop :=
| js_white g b rest : b <> [] -> Forall js_space b -> not_before (fun c => js_space c \/ (128 <= c)%N) rest -> js_lexeme g [(b, None)] rest (after_space g)
| js_hashbang t rest : js_line t -> not_before (fun c => c <> 10 /\ c <> 13)%N rest ->
    js_lexeme js_begin ((bs "#!", Some hl_comment_delim) :: opt_piece t hl_comment) rest js_blank
| js_comment g p rest : c_comment js_line p rest -> js_lexeme g p rest (after_comment g)
| js_word g w h rest g' : In (w, h) words -> after_name rest -> after_word w g' -> js_lexeme g [(w, Some h)] rest g'
| js_identifier g w rest : js_name w -> not_before (fun c => c = ch "_") w -> (forall h, ~ In (w, h) words) -> after_name rest ->
    js_lexeme g [(w, Some hl_name)] rest js_operator
| js_private g w rest : js_name w -> after_name rest -> js_lexeme g [(bs "#" ++ w, Some hl_name)] rest js_operator
| js_num g n rest : js_number n -> not_before (fun c => ident_char c \/ c = ch ".") rest -> js_lexeme g n rest js_operator
| js_string g q body close rest : (q = 34 \/ q = 39)%N -> js_closing q close rest ->
    string_body hl_string (js_string_plain q) js_escape_item (text close ++ rest) true body ->
    js_lexeme g (js_quote q :: body ++ close) rest js_operator
| js_regex g t flags rest : wants_operand g -> t <> [] -> not_before (fun c => c = ch "*") t -> js_regex_text t -> js_line t ->
    Forall js_name_char flags -> after_name rest ->
    js_lexeme g ((bs "/", Some hl_string_delim) :: (t, Some hl_string) :: (bs "/", Some hl_string_delim) :: opt_piece flags hl_string_decor) rest js_operator
| js_symbol g t h rest g' : In (t, h) symbols -> longest symbols t rest -> after_symbol t g' ->
    (t = bs "." \/ t = bs "?." -> not_before digit rest) ->
    (t = bs "<" -> after_less rest) ->
    (t = bs "/" \/ t = bs "/=" -> g = js_operator) ->
    (t = bs "/" -> not_before (fun c => c = ch "/" \/ c = ch "*") rest) ->
    js_lexeme g [(t, Some h)] rest g'.

(** ** Templates; [code] is what may stand between the braces, with the text that follows it. *)
Section nesting.
Variable code : list piece -> str -> Prop.
Inductive js_template_item : list piece -> str -> Prop :=
| js_template_escape e rest : js_escape e rest -> not_before (fun c => c = 10%N) (skipn 1 e) -> js_template_item [(e, Some hl_string_escape)] rest
| js_template_code c rest : code c (bs "}" ++ rest) ->
    js_template_item ((bs "${", Some hl_string_interpolation_delim) :: c ++ [(bs "}", Some hl_string_interpolation_delim)]) rest.
(** No back quote, no backslash and no start of a substitution *)
Definition js_template_plain (run rest : str) : Prop :=
  Forall (fun c => ~ In c [96; 92]%N) run /\ forall a b t, run = a ++ b -> b <> [] -> b ++ rest <> bs "${" ++ t.
Inductive js_template : list piece -> str -> Prop :=
| js_template_of body rest : string_body hl_string js_template_plain js_template_item ([96]%N ++ rest) true body ->
    js_template (js_quote 96 :: body ++ [js_quote 96]) rest.
(** ** Code: lexemes, with balanced braces *)
Inductive js_code_of : js_goal -> list piece -> str -> Prop :=
| js_code_end g rest : js_code_of g [] rest
| js_code_lexeme g p g' l rest : js_lexeme g p (text l ++ rest) g' -> js_code_of g' l rest -> js_code_of g (p ++ l) rest
| js_code_template g p l rest : js_template p (text l ++ rest) -> js_code_of js_operator l rest -> js_code_of g (p ++ l) rest
| js_code_braces g c l rest : js_code_of js_operand c (bs "}" ++ text l ++ rest) -> js_code_of js_block l rest ->
    js_code_of g ((bs "{", Some hl_symbol_brace) :: c ++ (bs "}", Some hl_symbol_brace) :: l) rest.
End nesting.
(** Code with templates nested at most [n] deep *)
Fixpoint js_code (n : nat) : list piece -> str -> Prop :=
  match n with 0 => fun _ _ => False | S n => js_code_of (js_code n) js_operand end.
(** A whole program *)
Definition js_program (l : list piece) : Prop := exists n, js_code_of (js_code n) js_begin l [].
End language.
(** In JavaScript, a less-than sign must not start what could be a JSX tag. *)
Definition javascript_program : list piece -> Prop := js_program javascript_words javascript_symbols no_tag.
Definition typescript_program : list piece -> Prop := js_program typescript_words typescript_symbols (fun _ => True).
