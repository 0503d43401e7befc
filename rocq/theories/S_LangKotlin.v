(** * Specification: the lexemes of Kotlin and their tokens. *)
From Coq Require Import List NArith Bool Arith.
From Verif Require Import M_Base M_Types M_Emit S_Lexemes S_Comments.
Import ListNotations.

Definition kotlin_space (c : N) : Prop := In c [32; 9; 10; 12; 13]%N.

Definition kotlin_words : list (str * N) :=
  map (fun w => (w, hl_keyword)) [bs "abstract"; bs "actual"; bs "annotation"; bs "as"; bs "assert"; bs "async"; bs "by"; bs "class"; bs "companion";
    bs "const"; bs "constructor"; bs "data"; bs "delegate"; bs "dynamic"; bs "enum"; bs "expect"; bs "field"; bs "file";
    bs "final"; bs "fun"; bs "get"; bs "import"; bs "in"; bs "init"; bs "inline"; bs "interface"; bs "internal"; bs "is";
    bs "lateinit"; bs "noinline"; bs "object"; bs "open"; bs "operator"; bs "out"; bs "package"; bs "param"; bs "private";
    bs "protected"; bs "public"; bs "receiver"; bs "reified"; bs "sealed"; bs "set"; bs "setparam"; bs "suspend";
    bs "typealias"; bs "typeof"; bs "val"; bs "value"; bs "var"; bs "vararg"]
  ++ map (fun w => (w, hl_keyword_control)) [bs "await"; bs "break"; bs "catch"; bs "continue"; bs "do"; bs "else"; bs "finally"; bs "for"; bs "if"; bs "property";
    bs "return"; bs "throw"; bs "try"; bs "when"; bs "while"]
  ++ map (fun w => (w, hl_bool)) [bs "false"; bs "true"]
  ++ map (fun w => (w, hl_null)) [bs "null"]
  ++ map (fun w => (w, hl_keyword_this)) [bs "this"].
(** Keywords that end with a symbol *)
Definition kotlin_labels : list (str * N) :=
  [(bs "as?", hl_keyword); (bs "break@", hl_keyword_control); (bs "continue@", hl_keyword_control); (bs "return@", hl_keyword_control);
   (bs "super@", hl_keyword_this); (bs "this@", hl_keyword_this)].
Definition kotlin_symbols : list (str * N) :=
  map (fun w => (w, hl_symbol_op)) [bs "!"; bs "!="; bs "#"; bs "%"; bs "%="; bs "&&"; bs "*"; bs "*="; bs "+"; bs "++"; bs "+="; bs "-"; bs "--"; bs "-=";
    bs "/"; bs "/="; bs "<"; bs "<="; bs "=="; bs "==="; bs ">"; bs ">="; bs "?"; bs "?."; bs "?:"; bs "@"; bs "||"]
  ++ map (fun w => (w, hl_keyword)) [bs "!in"; bs "!is"]
  ++ map (fun w => (w, hl_symbol_parens)) [bs "("; bs ")"]
  ++ map (fun w => (w, hl_symbol_punc)) [bs ","; bs "->"; bs "."; bs ".."; bs "..."; bs ":"; bs "::"; bs ";"; bs ";;"; bs "="]
  ++ map (fun w => (w, hl_symbol_square)) [bs "["; bs "]"].

(** ** Numbers *)
Definition kotlin_exp (exp : option (str * str)) : Prop :=
  forall e d, exp = Some (e, d) -> In e [bs "e"; bs "e+"; bs "e-"; bs "E"; bs "E+"; bs "E-"] /\ d <> [] /\ Forall digit d.
Inductive kotlin_number : list piece -> Prop :=
| kotlin_binary base n suffix : In base [bs "0b"; bs "0B"] -> grouped binary_digit 95 n -> In suffix [[]; bs "l"; bs "L"; bs "u"; bs "U"] ->
    kotlin_number (number_pieces base n None None suffix)
| kotlin_hex base n suffix : In base [bs "0x"; bs "0X"] -> grouped hex_digit 95 n -> In suffix [[]; bs "l"; bs "L"; bs "u"; bs "U"] ->
    kotlin_number (number_pieces base n None None suffix)
| kotlin_int n suffix : grouped digit 95 n -> In suffix [[]; bs "l"; bs "L"; bs "u"; bs "U"] -> kotlin_number (number_pieces [] n None None suffix)
| kotlin_float n frac exp suffix : grouped digit 95 n -> (forall f, frac = Some f -> grouped digit 95 f) -> kotlin_exp exp ->
    In suffix [[]; bs "f"; bs "F"] -> kotlin_number (number_pieces [] n frac exp suffix)
| kotlin_point f exp suffix : grouped digit 95 f -> kotlin_exp exp -> In suffix [[]; bs "f"; bs "F"] ->
    kotlin_number (number_pieces [] [] (Some f) exp suffix).

(** ** Annotations: dotted names, lists of them in brackets, and use-site targets *)
Inductive kotlin_dotted : list piece -> Prop :=
| kotlin_dotted_one w : identifier w -> kotlin_dotted [(w, Some hl_name_attr)]
| kotlin_dotted_more w l : identifier w -> kotlin_dotted l -> kotlin_dotted ((w, Some hl_name_attr) :: (bs ".", Some hl_name_attr_delim) :: l).
Definition dotted_end (rest : str) : Prop := not_before (fun c => ident_or_non_ascii c \/ c = ch ".") rest.
Inductive kotlin_list : list piece -> Prop :=
| kotlin_list_end : kotlin_list [(bs "]", Some hl_symbol_square)]
| kotlin_list_space b l : Forall kotlin_space b -> kotlin_list l -> kotlin_list ((b, None) :: l)
| kotlin_list_name n l : kotlin_dotted n -> dotted_end (text l) -> kotlin_list l -> kotlin_list (n ++ l).
Inductive kotlin_annotation : list piece -> str -> Prop :=
| kotlin_at_name n rest : kotlin_dotted n -> dotted_end rest -> not_before (fun c => c = ch ":") rest ->
    kotlin_annotation ((bs "@", Some hl_name_attr_delim) :: n) rest
| kotlin_at_target t n rest : kotlin_dotted t -> kotlin_dotted n -> dotted_end rest ->
    kotlin_annotation ((bs "@", Some hl_name_attr_delim) :: t ++ (bs ":", Some hl_name_attr_delim) :: n) rest
| kotlin_at_list l rest : kotlin_list l ->
    kotlin_annotation ((bs "@", Some hl_name_attr_delim) :: (bs "[", Some hl_symbol_square) :: l) rest
| kotlin_at_target_list t l rest : kotlin_dotted t -> kotlin_list l ->
    kotlin_annotation ((bs "@", Some hl_name_attr_delim) :: t ++ (bs ":", Some hl_name_attr_delim) :: (bs "[", Some hl_symbol_square) :: l) rest.

(** ** Lexemes without nested code *)
Definition no_label (s : str) : Prop := forall u h v, In (u, h) kotlin_labels -> s <> u ++ v.
Definition not_underscore (w : str) : Prop := not_before (fun c => c = ch "_") w.
Inductive kotlin_simple : list piece -> str -> Prop :=
| kotlin_comment p rest : c_comment js_line p rest -> kotlin_simple p rest
| kotlin_word w h rest : In (w, h) kotlin_words -> no_label (w ++ rest) -> not_before ident_or_non_ascii rest -> kotlin_simple [(w, Some h)] rest
| kotlin_label w h rest : In (w, h) kotlin_labels -> kotlin_simple [(w, Some h)] rest
| kotlin_name w rest : identifier w -> not_underscore w -> (forall h, ~ In (w, h) kotlin_words) -> no_label (w ++ rest) -> not_before ident_or_non_ascii rest ->
    kotlin_simple [(w, Some hl_name)] rest
| kotlin_backtick w rest : w <> [] -> Forall (fun c => ~ In c [96; 10; 13]%N) w ->
    kotlin_simple [([96]%N, Some hl_name_delim); (w, Some hl_name); ([96]%N, Some hl_name_delim)] rest
| kotlin_symbol t h rest : In (t, h) kotlin_symbols -> longest kotlin_symbols t rest ->
    (t = bs "." -> not_before digit rest) ->
    (t = bs "@" -> not_before (fun c => ident_start c \/ (128 <= c)%N \/ c = ch "[") rest) ->
    (t = bs "/" -> not_before (fun c => c = ch "/" \/ c = ch "*") rest) ->
    kotlin_simple [(t, Some h)] rest
| kotlin_num n rest : kotlin_number n -> not_before (fun c => ident_char c \/ c = ch ".") rest -> kotlin_simple n rest
(* the start of a range, as in "0..9" *)
| kotlin_range n rest : grouped digit 95 n -> kotlin_simple n (bs ".." ++ rest)
| kotlin_annotated p rest : kotlin_annotation p rest -> kotlin_simple p rest.

(** ** Literals *)
Definition kotlin_escape (e : str) : Prop :=
  (exists c, In c (34%N :: bs "tbrn'\$") /\ e = [92; c]%N) \/ exists d, exactly 4 hex_digit d /\ e = bs "\u" ++ d.
(** Interpolations; [code] is what may stand between the braces, with the text that follows it. *)
Section nesting.
Variable code : list piece -> str -> Prop.
Inductive kotlin_interpolation : list piece -> str -> Prop :=
| kotlin_variable w rest : identifier w -> not_before ident_or_non_ascii rest -> kotlin_interpolation [(bs "$" ++ w, Some hl_string_interpolation)] rest
| kotlin_expression c rest : code c (bs "}" ++ rest) ->
    kotlin_interpolation ((bs "${", Some hl_string_interpolation_delim) :: c ++ [(bs "}", Some hl_string_interpolation_delim)]) rest.
Inductive kotlin_line_item : list piece -> str -> Prop :=
| kotlin_line_escape e rest : kotlin_escape e -> kotlin_line_item [(e, Some hl_string_escape)] rest
| kotlin_line_interpolation p rest : kotlin_interpolation p rest -> kotlin_line_item p rest.
Inductive kotlin_char_item : list piece -> str -> Prop :=
| kotlin_char_escape e rest : kotlin_escape e -> kotlin_char_item [(e, Some hl_string_escape)] rest.

Definition kotlin_char_plain (run rest : str) : Prop := Forall (fun c => ~ In c [39; 92; 10; 13]%N) run.
Definition kotlin_line_plain (run rest : str) : Prop := Forall (fun c => ~ In c [34; 92; 36; 10; 13]%N) run.
(** Neither a dollar sign, nor the start of three quotes *)
Definition kotlin_multi_plain (run rest : str) : Prop :=
  ~ In 36%N run /\ forall a b t, run = a ++ b -> b <> [] -> b ++ rest <> [34; 34; 34]%N ++ t.

(** Literals end with their quotes or, without, at the end of the line (unless multi-line) or of the text. *)
Definition kotlin_quotes (q : str) : piece := (q, Some hl_string_delim).
Inductive kotlin_closing (q : str) : list piece -> str -> Prop :=
| kotlin_closed rest : kotlin_closing q [kotlin_quotes q] rest
| kotlin_unclosed : kotlin_closing q [] []
| kotlin_unclosed_line c rest : (c = 10 \/ c = 13)%N -> kotlin_closing q [] (c :: rest).
Inductive kotlin_multi_closing : list piece -> str -> Prop :=
| kotlin_multi_closed rest : not_before (fun c => c = 34%N) rest -> kotlin_multi_closing [kotlin_quotes [34; 34; 34]%N] rest
| kotlin_multi_unclosed : kotlin_multi_closing [] [].
Inductive kotlin_string : list piece -> str -> Prop :=
| kotlin_string_char body close rest : kotlin_closing [39]%N close rest ->
    string_body hl_string kotlin_char_plain kotlin_char_item (text close ++ rest) true body ->
    kotlin_string (kotlin_quotes [39]%N :: body ++ close) rest
| kotlin_string_line body close rest : kotlin_closing [34]%N close rest ->
    string_body hl_string kotlin_line_plain kotlin_line_item (text close ++ rest) true body ->
    (* the literal does not start with three quotes *)
    (body = [] -> close = [kotlin_quotes [34]%N] -> not_before (fun c => c = 34%N) rest) ->
    kotlin_string (kotlin_quotes [34]%N :: body ++ close) rest
| kotlin_string_multi body close rest : kotlin_multi_closing close rest ->
    string_body hl_string kotlin_multi_plain kotlin_interpolation (text close ++ rest) true body ->
    kotlin_string (kotlin_quotes [34; 34; 34]%N :: body ++ close) rest.

(** ** Code: lexemes and white space, with balanced braces *)
Inductive kotlin_code_of : list piece -> str -> Prop :=
| kotlin_code_end rest : kotlin_code_of [] rest
| kotlin_code_space b l rest : Forall kotlin_space b -> kotlin_code_of l rest -> kotlin_code_of ((b, None) :: l) rest
| kotlin_code_simple p l rest : kotlin_simple p (text l ++ rest) -> kotlin_code_of l rest -> kotlin_code_of (p ++ l) rest
| kotlin_code_string p l rest : kotlin_string p (text l ++ rest) -> kotlin_code_of l rest -> kotlin_code_of (p ++ l) rest
| kotlin_code_braces c l rest : kotlin_code_of c (bs "}" ++ text l ++ rest) -> kotlin_code_of l rest ->
    kotlin_code_of ((bs "{", Some hl_symbol_brace) :: c ++ (bs "}", Some hl_symbol_brace) :: l) rest.
End nesting.
(** Code with interpolations nested at most [n] deep *)
Fixpoint kotlin_code (n : nat) : list piece -> str -> Prop :=
  match n with 0 => fun _ _ => False | S n => kotlin_code_of (kotlin_code n) end.
(** A whole program *)
Definition kotlin_program (l : list piece) : Prop := exists n, kotlin_code n l [].

(** ** What a user expects beyond that *)
Definition kotlin_hard_words : list (str * N) := (bs "super", hl_keyword_this) :: kotlin_words.
Definition kotlin_operators : list (str * N) := (bs "!==", hl_symbol_op) :: kotlin_symbols.
(** Integers with any of the suffixes of Kotlin *)
Inductive kotlin_integer : list piece -> Prop :=
| kotlin_integer_suffix n suffix : grouped digit 95 n -> In suffix [[]; bs "l"; bs "L"; bs "u"; bs "U"; bs "uL"; bs "UL"] ->
    kotlin_integer (number_pieces [] n None None suffix).
(** A dollar sign before neither a brace nor an identifier is text. *)
Definition kotlin_dollar_plain (run rest : str) : Prop :=
  Forall (fun c => ~ In c [34; 92; 10; 13]%N) run
  /\ forall a b, run = a ++ bs "$" ++ b -> not_before (fun c => ident_or_non_ascii c \/ In c [96; 123]%N) (b ++ rest).
