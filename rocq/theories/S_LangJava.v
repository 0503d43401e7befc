(** * Specification: the lexemes of Java and their tokens. *)
From Coq Require Import List NArith Bool Arith.
From Verif Require Import M_Base M_Types M_Emit S_Json S_Lexemes S_Comments.
Import ListNotations.

Definition java_space (c : N) : Prop := In c [32; 9; 10; 12; 13]%N.

Definition java_words : list (str * N) :=
  map (fun w => (w, hl_keyword)) [bs "_"; bs "abstract"; bs "assert"; bs "class"; bs "const"; bs "enum"; bs "exports"; bs "extends"; bs "final"; bs "goto";
    bs "implements"; bs "import"; bs "instanceof"; bs "interface"; bs "module"; bs "native"; bs "new"; bs "open";
    bs "opens"; bs "package"; bs "permits"; bs "private"; bs "protected"; bs "provides"; bs "public"; bs "record";
    bs "requires"; bs "sealed"; bs "static"; bs "strictfp"; bs "synchronized"; bs "throws"; bs "to"; bs "transient";
    bs "transitive"; bs "uses"; bs "var"; bs "volatile"; bs "when"; bs "with"]
  ++ map (fun w => (w, hl_keyword_type)) [bs "boolean"; bs "byte"; bs "char"; bs "double"; bs "float"; bs "int"; bs "long"; bs "short"; bs "void"]
  ++ map (fun w => (w, hl_keyword_control)) [bs "break"; bs "case"; bs "catch"; bs "continue"; bs "default"; bs "do"; bs "else"; bs "finally"; bs "for"; bs "if";
    bs "return"; bs "switch"; bs "throw"; bs "try"; bs "while"; bs "yield"]
  ++ map (fun w => (w, hl_bool)) [bs "false"; bs "true"]
  ++ map (fun w => (w, hl_null)) [bs "null"]
  ++ map (fun w => (w, hl_keyword_this)) [bs "super"; bs "this"].
Definition java_symbols : list (str * N) :=
  map (fun w => (w, hl_symbol_op)) [bs "!"; bs "!="; bs "%"; bs "%="; bs "&"; bs "&&"; bs "&="; bs "*"; bs "*="; bs "+"; bs "++"; bs "+="; bs "-"; bs "--";
    bs "-="; bs "/"; bs "/="; bs "<"; bs "<<"; bs "<<="; bs "<="; bs "=="; bs ">"; bs ">="; bs ">>"; bs ">>="; bs ">>>";
    bs ">>>="; bs "?"; bs "^"; bs "^="; bs "|"; bs "|="; bs "||"; bs "~"]
  ++ map (fun w => (w, hl_symbol_parens)) [bs "("; bs ")"]
  ++ map (fun w => (w, hl_symbol_punc)) [bs ","; bs "->"; bs "."; bs "..."; bs ":"; bs "::"; bs ";"; bs "="; bs "@"]
  ++ map (fun w => (w, hl_symbol_square)) [bs "["; bs "]"]
  ++ map (fun w => (w, hl_symbol_brace)) [bs "{"; bs "}"].

(** ** Numbers. A digit group separator may not occur in exponents. *)
Definition java_exp (letters : list str) (exp : option (str * str)) : Prop :=
  forall e d, exp = Some (e, d) -> (exists l s, In l letters /\ In s [[]; bs "+"; bs "-"] /\ e = l ++ s) /\ d <> [] /\ Forall digit d.
Inductive java_number : list piece -> Prop :=
| java_binary base n suffix : In base [bs "0b"; bs "0B"] -> grouped binary_digit 95 n -> In suffix [[]; bs "l"; bs "L"] ->
    java_number (number_pieces base n None None suffix)
| java_hex base n suffix : In base [bs "0x"; bs "0X"] -> grouped hex_digit 95 n -> In suffix [[]; bs "l"; bs "L"] ->
    java_number (number_pieces base n None None suffix)
| java_hex_float base n frac exp suffix : In base [bs "0x"; bs "0X"] -> grouped hex_digit 95 n ->
    (forall f, frac = Some f -> grouped hex_digit 95 f) -> exp <> None -> java_exp [bs "p"; bs "P"] exp ->
    In suffix [[]; bs "f"; bs "F"; bs "d"; bs "D"] ->
    java_number (number_pieces base n frac exp suffix)
| java_int n suffix : grouped digit 95 n -> In suffix [[]; bs "l"; bs "L"] -> java_number (number_pieces [] n None None suffix)
| java_float n frac exp suffix : grouped digit 95 n -> (forall f, frac = Some f -> grouped digit 95 f) -> java_exp [bs "e"; bs "E"] exp ->
    In suffix [[]; bs "f"; bs "F"; bs "d"; bs "D"] ->
    java_number (number_pieces [] n frac exp suffix)
| java_point f exp suffix : grouped digit 95 f -> java_exp [bs "e"; bs "E"] exp -> In suffix [[]; bs "f"; bs "F"; bs "d"; bs "D"] ->
    java_number (number_pieces [] [] (Some f) exp suffix).

(** ** Character literals, strings and text blocks *)
(** Escape sequences; [block] says whether line breaks can be escaped. *)
Inductive java_escape (block : bool) : str -> str -> Prop :=
| java_esc_simple c rest : In c (34%N :: bs "bstnfr'\") -> java_escape block [92; c]%N rest
| java_esc_unicode d rest : exactly 4 hex_digit d -> java_escape block (bs "\u" ++ d) rest
| java_esc_octal d rest : d <> [] -> length d <= 2 -> Forall octal_digit d -> not_before octal_digit rest -> java_escape block (92%N :: d) rest
| java_esc_octal_2 d e rest : (52 <= d <= 55)%N -> octal_digit e -> java_escape block [92; d; e]%N rest
| java_esc_octal_3 d e f rest : (48 <= d <= 51)%N -> octal_digit e -> octal_digit f -> java_escape block [92; d; e; f]%N rest
| java_esc_line nl rest : block = true -> newline nl rest -> java_escape block (92%N :: nl) rest.
Inductive java_item (block : bool) : list piece -> str -> Prop :=
| java_item_escape e rest : java_escape block e rest -> java_item block [(e, Some hl_string_escape)] rest.

(** A character literal of an ASCII character or an escape sequence *)
Inductive java_char : list piece -> Prop :=
| java_char_plain c : (c < 128)%N -> ~ In c [39; 92; 10; 13]%N ->
    java_char [(bs "'", Some hl_string_delim); ([c], Some hl_string); (bs "'", Some hl_string_delim)]
| java_char_escape e : java_escape false e (bs "'") ->
    java_char [(bs "'", Some hl_string_delim); (e, Some hl_string_escape); (bs "'", Some hl_string_delim)].

(** Strings end with a quote, or without at the end of the line or of the text. *)
Definition java_quote : piece := ([34]%N, Some hl_string_delim).
Definition java_plain (run rest : str) : Prop := Forall (fun c => ~ In c [34; 92; 10; 13]%N) run.
Inductive java_closing : list piece -> str -> Prop :=
| java_closed rest : java_closing [java_quote] rest
| java_unclosed : java_closing [] []
| java_unclosed_line c rest : (c = 10 \/ c = 13)%N -> java_closing [] (c :: rest).
Inductive java_string : list piece -> str -> Prop :=
| java_string_literal body close rest : java_closing close rest ->
    string_body hl_string java_plain (java_item false) (text close ++ rest) true body ->
    (* the literal does not start with three quotes *)
    (body = [] -> close = [java_quote] -> not_before (fun c => c = 34%N) rest) ->
    java_string (java_quote :: body ++ close) rest.

Definition java_block_quotes : piece := ([34; 34; 34]%N, Some hl_string_delim).
(** The contents of a text block: neither a backslash, nor the start of three quotes *)
Definition java_block_plain (run rest : str) : Prop :=
  ~ In 92%N run /\ forall a b t, run = a ++ b -> b <> [] -> b ++ rest <> [34; 34; 34]%N ++ t.
Inductive java_block_closing : list piece -> str -> Prop :=
| java_block_closed rest : java_block_closing [java_block_quotes] rest
| java_block_unclosed : java_block_closing [] [].
Inductive java_text_block : list piece -> str -> Prop :=
| java_text_block_literal ws nl body close rest : Forall (fun c => In c [32; 9; 12]%N) ws -> newline nl (text body ++ text close ++ rest) ->
    java_block_closing close rest ->
    string_body hl_string java_block_plain (java_item true) (text close ++ rest) true body ->
    java_text_block (java_block_quotes :: (ws ++ nl, None) :: body ++ close) rest.

(** ** Annotations *)
Inductive java_annotation_name : list piece -> Prop :=
| java_name_one w : identifier w -> java_annotation_name [(w, Some hl_name_attr)]
| java_name_more w l : identifier w -> java_annotation_name l ->
    java_annotation_name ((w, Some hl_name_attr) :: (bs ".", Some hl_name_attr_delim) :: l).

(** ** Lexemes *)
Definition no_underscore (w : str) : Prop := not_before (fun c => c = ch "_") w.
Inductive java_lexeme : list piece -> str -> Prop :=
| java_comment p rest : c_comment js_line p rest -> java_lexeme p rest
| java_word w h rest : In (w, h) java_words -> no_underscore w -> not_before ident_or_non_ascii rest -> java_lexeme [(w, Some h)] rest
| java_name w rest : identifier w -> no_underscore w -> (forall h, ~ In (w, h) java_words) -> not_before ident_or_non_ascii rest ->
    java_lexeme [(w, Some hl_name)] rest
| java_symbol t h rest : In (t, h) java_symbols -> longest java_symbols t rest ->
    (t = bs "." -> not_before digit rest) ->
    (t = bs "@" -> not_before (fun c => ident_start c \/ (128 <= c)%N) rest) ->
    (t = bs "/" -> not_before (fun c => c = ch "/" \/ c = ch "*") rest) ->
    java_lexeme [(t, Some h)] rest
| java_num n rest : java_number n -> not_before (fun c => ident_char c \/ c = ch ".") rest -> java_lexeme n rest
| java_annotation n rest : java_annotation_name n -> text n <> bs "interface" -> not_before (fun c => ident_or_non_ascii c \/ c = ch ".") rest ->
    java_lexeme ((bs "@", Some hl_name_attr_delim) :: n) rest
| java_character p rest : java_char p -> java_lexeme p rest
| java_str p rest : java_string p rest -> java_lexeme p rest
| java_block p rest : java_text_block p rest -> java_lexeme p rest.

(** ** What Java allows beyond [java_lexeme] *)
(** Identifiers may contain dollar signs, and begin with an underscore. *)
Definition java_identifier (w : str) : Prop := exists c t, w = c :: t /\ (ident_start c \/ c = ch "$") /\ Forall (fun c => ident_char c \/ c = ch "$") t.
(** The fraction may have no digits. *)
Definition java_no_fraction : list piece := number_pieces [] [(bs "1", Some hl_number)] (Some []) None [].
Inductive java_any_number : list piece -> Prop :=
| java_any_common n : java_number n -> java_any_number n
| java_any_no_fraction n suffix : grouped digit 95 n -> In suffix [[]; bs "f"; bs "F"; bs "d"; bs "D"] ->
    java_any_number (number_pieces [] n (Some []) None suffix).
