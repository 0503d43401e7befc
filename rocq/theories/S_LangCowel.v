(** * Specification: COWEL documents as text, directives, splices, escapes and comments, nested to any depth. *)
From Coq Require Import List NArith Bool Arith.
From Verif Require Import M_Base M_Types S_Json S_Lexemes.
Import ListNotations.

(** ** White space and comments *)
Definition cowel_horizontal (c : N) : Prop := In c [32; 9; 12]%N.
Definition cowel_newline (c : N) : Prop := In c [10; 13]%N.
Definition cowel_space (c : N) : Prop := cowel_horizontal c \/ cowel_newline c.
Definition begins (d : N -> Prop) (s : str) : Prop := exists c t, s = c :: t /\ d c.
(** A line comment lasts until the end of the line, a block comment until the first closing delimiter. *)
Inductive cowel_comment : list piece -> str -> Prop :=
| cowel_line_comment t rest : Forall (fun c => ~ cowel_newline c) t -> rest = [] \/ begins cowel_newline rest ->
    cowel_comment ((bs "\:", Some hl_comment_delim) :: opt_piece t hl_comment) rest
| cowel_block_comment t rest : ~ contains t (bs "*\") ->
    cowel_comment ((bs "\*", Some hl_comment_delim) :: opt_piece t hl_comment ++ [(bs "*\", Some hl_comment_delim)]) rest.
(** Blanks: characters in [space], and comments *)
Inductive cowel_blanks (space : N -> Prop) : list piece -> str -> Prop :=
| blanks_end rest : cowel_blanks space [] rest
| blanks_space w l rest : Forall space w -> cowel_blanks space l rest -> cowel_blanks space ((w, None) :: l) rest
| blanks_comment c l rest : cowel_comment c (text l ++ rest) -> cowel_blanks space l rest -> cowel_blanks space (c ++ l) rest.
Definition cowel_blank : list piece -> str -> Prop := cowel_blanks cowel_space.
(** [rest] does not begin with a blank. *)
Definition cowel_solid (rest : str) : Prop := not_before cowel_space rest /\ forall c t, rest = 92%N :: c :: t -> ~ In c (bs ":*").
(** [rest] is a blank and then a text that does not begin with a blank and for which [p] holds. *)
Definition after_blank (p : str -> Prop) (rest : str) : Prop := exists b t, rest = text b ++ t /\ cowel_blank b t /\ cowel_solid t /\ p t.

(** ** Escapes *)
Definition cowel_name_char (c : N) : Prop := (65 <= c <= 90)%N \/ digit c \/ In c (bs " -").
Inductive cowel_escape_sequence : list piece -> str -> Prop :=
| escape_char c rest : In c [123; 125; 92; 34]%N -> cowel_escape_sequence [([92%N; c], Some hl_string_escape)] rest
| escape_newline rest : begins cowel_newline rest -> cowel_escape_sequence [([92%N], Some hl_string_escape)] rest
(* Four or eight hexadecimal digits, all upper case or all lower case *)
| escape_hex d rest : Forall (fun c => digit c \/ 65 <= c <= 70)%N d \/ Forall (fun c => digit c \/ 97 <= c <= 102)%N d ->
    length d = 8 \/ length d = 4 /\ not_before hex_digit rest -> cowel_escape_sequence [(bs "\+" ++ d, Some hl_string_escape)] rest
| escape_named w rest : w <> [] -> Forall cowel_name_char w -> hd 0%N w <> 32%N -> last w 0%N <> 32%N ->
    cowel_escape_sequence [(bs "\'" ++ w ++ bs "'", Some hl_string_escape)] rest.

(** ** Words, numbers and operators *)
Definition cowel_words : list (str * N) :=
  [(bs "unit", hl_keyword); (bs "null", hl_keyword); (bs "let", hl_keyword); (bs "true", hl_bool); (bs "false", hl_bool); (bs "infinity", hl_value)].
Definition cowel_word (w : str) (h : N) : Prop := In (w, h) cowel_words \/ h = hl_name_var /\ w <> bs "fun" /\ ~ In w (map fst cowel_words).
Definition plain_digits (d : N -> Prop) (w : str) : Prop := w <> [] /\ Forall d w.
Definition cowel_exponent (e : option (str * str)) : Prop :=
  match e with None => True | Some (e, d) => In e [bs "e"; bs "E"; bs "e+"; bs "E+"; bs "e-"; bs "E-"] /\ plain_digits digit d end.
Inductive cowel_number : list piece -> Prop :=
| cowel_based base d n : In (base, d) [(bs "0b", binary_digit); (bs "0o", octal_digit); (bs "0x", hex_digit)] -> plain_digits d n ->
    cowel_number (number_pieces base [(n, Some hl_number)] None None [])
| cowel_decimal n f e : plain_digits digit n -> match f with None => True | Some f => plain_digits digit f end -> cowel_exponent e ->
    cowel_number (number_pieces [] [(n, Some hl_number)] (option_map (fun f => [(f, Some hl_number)]) f) e [])
| cowel_fraction f e : plain_digits digit f -> cowel_exponent e -> cowel_number (number_pieces [] [] (Some [(f, Some hl_number)]) e []).
Definition cowel_operators : list (str * N) :=
  (bs "=", hl_symbol_punc) :: map (fun t => (t, hl_symbol_op))
  [bs "||"; bs "&&"; bs "=="; bs "!="; bs "<="; bs ">="; bs "+"; bs "-"; bs "*"; bs "/"; bs "%"; bs "<"; bs ">"; bs "~"; bs "!"].
Inductive cowel_operator : list piece -> str -> Prop :=
| cowel_operator_ t h rest : In (t, h) cowel_operators -> longest cowel_operators t rest ->
    (t = bs "-" -> forall r, rest <> bs "infinity" ++ r) -> cowel_operator [(t, Some h)] rest.

(** ** Documents *)
(** Content appears in the document, in braces, in a string, or in the quoted name of a member. *)
Inductive cowel_context := in_document | in_braces | in_quotes | in_member_name.
Definition text_highlight (k : cowel_context) : option N :=
  match k with in_document | in_braces => None | in_quotes => Some hl_string | in_member_name => Some hl_markup_attr end.
(** What ends the content *)
Definition content_closed (k : cowel_context) (rest : str) : Prop :=
  match k with
  | in_document => rest = []
  | in_braces => begins (fun c => c = ch "}") rest
  | in_quotes | in_member_name => begins (fun c => c = 34%N) rest
  end.
(** Plain text, with the depth of braces in the text before and after it. Only content in braces counts braces. *)
Inductive cowel_plain : cowel_context -> nat -> str -> nat -> Prop :=
| plain_end k n : cowel_plain k n [] n
| plain_char k n c w m : c <> 92%N -> (k = in_braces -> ~ In c (bs "{}")) -> (k = in_quotes \/ k = in_member_name -> c <> 34%N) ->
    cowel_plain k n w m -> cowel_plain k n (c :: w) m
| plain_open n w m : cowel_plain in_braces (S n) w m -> cowel_plain in_braces n (ch "{" :: w) m
| plain_close n w m : cowel_plain in_braces n w m -> cowel_plain in_braces (S n) (ch "}" :: w) m.

(** [cowel_x p rest]: the pieces [p] form an x if the text [rest] follows. *)
Inductive cowel_content : cowel_context -> nat -> list piece -> str -> Prop :=
| content_end k rest : content_closed k rest -> cowel_content k 0 [] rest
| content_text k n w m l rest : w <> [] -> cowel_plain k n w m -> l = [] \/ begins (fun c => c = 92%N) (text l) ->
    cowel_content k m l rest -> cowel_content k n ((w, text_highlight k) :: l) rest
| content_escape k n p l rest : cowel_escape_sequence p (text l ++ rest) -> cowel_content k n l rest -> cowel_content k n (p ++ l) rest
| content_comment k n p l rest : cowel_comment p (text l ++ rest) -> cowel_content k n l rest -> cowel_content k n (p ++ l) rest
| content_item k n p l rest : k <> in_member_name -> cowel_item p (text l ++ rest) -> cowel_content k n l rest -> cowel_content k n (p ++ l) rest
with cowel_item : list piece -> str -> Prop :=
(* \name(arguments){block} *)
| item_directive n a b rest : identifier n -> not_before ident_char (text a ++ text b ++ rest) ->
    cowel_arguments a (text b ++ rest) -> cowel_optional_block b rest -> cowel_item ((92%N :: n, Some hl_markup_tag) :: a ++ b) rest
(* \(expression) *)
| item_splice b s rest : cowel_blank b (text s ++ rest) -> cowel_operand s rest -> cowel_item ((bs "\(", Some hl_string_interpolation_delim) :: b ++ s) rest
(* A backslash, a space, and an expression until the end of the line *)
| item_line l rest : cowel_line l rest -> cowel_item ((bs "\ ", Some hl_string_interpolation_delim) :: l) rest
with cowel_arguments : list piece -> str -> Prop :=
| arguments_none rest : not_before (fun c => c = ch "(") rest -> cowel_arguments [] rest
| arguments_some g rest : cowel_group g rest -> cowel_arguments g rest
with cowel_optional_block : list piece -> str -> Prop :=
| block_none rest : not_before (fun c => c = ch "{") rest -> cowel_optional_block [] rest
| block_some b rest : cowel_block b rest -> cowel_optional_block b rest
with cowel_block : list piece -> str -> Prop :=
| block_ c rest : cowel_content in_braces 0 c (bs "}" ++ rest) ->
    cowel_block ((bs "{", Some hl_symbol_brace) :: c ++ [(bs "}", Some hl_symbol_brace)]) rest
with cowel_group : list piece -> str -> Prop :=
| group_ b m rest : cowel_blank b (text m ++ rest) -> cowel_members m rest -> cowel_group ((bs "(", Some hl_symbol_parens) :: b ++ m) rest
(* What follows in a group, up to the closing parenthesis *)
with cowel_members : list piece -> str -> Prop :=
| members_end rest : cowel_members [(bs ")", Some hl_symbol_parens)] rest
| members_comma b m rest : cowel_blank b (text m ++ rest) -> cowel_members m rest -> cowel_members ((bs ",", Some hl_symbol_punc) :: b ++ m) rest
| members_more p b m rest : cowel_member p (text b ++ text m ++ rest) -> cowel_blank b (text m ++ rest) -> cowel_members m rest ->
    cowel_members (p ++ b ++ m) rest
with cowel_member : list piece -> str -> Prop :=
(* name = expression *)
| member_named n b1 b2 e rest : identifier n -> cowel_blank b1 (bs "=" ++ text b2 ++ text e ++ rest) -> cowel_blank b2 (text e ++ rest) ->
    cowel_expression e rest -> cowel_member ((n, Some hl_markup_attr) :: b1 ++ (bs "=", Some hl_symbol_punc) :: b2 ++ e) rest
(* "name" = expression *)
| member_quoted c b1 b2 e rest : cowel_content in_member_name 0 c ([34%N] ++ text b1 ++ bs "=" ++ text b2 ++ text e ++ rest) ->
    cowel_blank b1 (bs "=" ++ text b2 ++ text e ++ rest) -> cowel_blank b2 (text e ++ rest) -> cowel_expression e rest ->
    cowel_member (([34%N], Some hl_markup_attr_delim) :: c ++ ([34%N], Some hl_markup_attr_delim) :: b1 ++ (bs "=", Some hl_symbol_punc) :: b2 ++ e) rest
| member_ellipsis rest : cowel_member [(bs "...", Some hl_name_attr)] rest
(* An expression that is not followed by a single equals sign *)
| member_expression e rest : cowel_expression e rest -> after_blank (fun t => forall u, t = ch "=" :: u -> begins (fun c => c = ch "=") u) rest ->
    cowel_member e rest
| member_operator p rest : cowel_operator p rest -> cowel_member p rest
with cowel_expression : list piece -> str -> Prop :=
(* A name, even a keyword, that comes before arguments or a block is a call. *)
| expression_call n b1 a b2 b rest : identifier n -> cowel_blank b1 (text a ++ text b2 ++ text b ++ rest) ->
    begins (fun c => In c (bs "({")) (text a ++ text b2 ++ text b ++ rest) ->
    cowel_arguments a (text b2 ++ text b ++ rest) -> cowel_blank b2 (text b ++ rest) -> cowel_solid (text b ++ rest) -> cowel_optional_block b rest ->
    cowel_expression ((n, Some hl_markup_tag) :: b1 ++ a ++ b2 ++ b) rest
| expression_word w h rest : identifier w -> cowel_word w h -> not_before ident_char rest -> after_blank (not_before (fun c => In c (bs "({"))) rest ->
    cowel_expression [(w, Some h)] rest
| expression_fun b n rest : cowel_blanks cowel_horizontal b (n ++ rest) -> text b <> [] -> identifier n -> not_before ident_char rest ->
    cowel_expression ((bs "fun", Some hl_keyword) :: b ++ [(n, Some hl_name_function_decl)]) rest
| expression_minus_infinity rest : not_before ident_char rest ->
    cowel_expression [(bs "-", Some hl_value_delim); (bs "infinity", Some hl_value)] rest
(* A plus or minus after a final e belongs to the number. *)
| expression_number n rest : cowel_number n -> not_before (fun c => letter c \/ digit c \/ c = ch ".") rest ->
    (In (last (text n) 0%N) (bs "eE") -> not_before (fun c => In c (bs "+-")) rest) -> cowel_expression n rest
| expression_string c rest : cowel_content in_quotes 0 c ([34%N] ++ rest) ->
    cowel_expression (([34%N], Some hl_string_delim) :: c ++ [([34%N], Some hl_string_delim)]) rest
| expression_block b rest : cowel_block b rest -> cowel_expression b rest
| expression_group g rest : cowel_group g rest -> cowel_expression g rest
(* In a splice: an operand may come next *)
with cowel_operand : list piece -> str -> Prop :=
| operand_none p rest : cowel_operation p rest -> cowel_operand p rest
| operand_some e b p rest : cowel_expression e (text b ++ text p ++ rest) -> cowel_blank b (text p ++ rest) -> cowel_operation p rest ->
    cowel_operand (e ++ b ++ p) rest
(* In a splice: an operator or the closing parenthesis comes next *)
with cowel_operation : list piece -> str -> Prop :=
| operation_end rest : cowel_operation [(bs ")", Some hl_string_interpolation_delim)] rest
| operation_more p b s rest : cowel_operator p (text b ++ text s ++ rest) -> cowel_blank b (text s ++ rest) -> cowel_operand s rest ->
    cowel_operation (p ++ b ++ s) rest
(* In a line splice. White space at the end of the line and line breaks in expressions are left out; see C129 and C130. *)
with cowel_line : list piece -> str -> Prop :=
| line_end w rest : newline w rest -> cowel_line [(w, None)] rest
| line_space w l rest : w <> [] -> Forall cowel_horizontal w -> not_before cowel_space (text l ++ rest) -> cowel_line l rest -> cowel_line ((w, None) :: l) rest
| line_escape p l rest : cowel_escape_sequence p (text l ++ rest) -> cowel_line l rest -> cowel_line (p ++ l) rest
| line_comment p l rest : cowel_comment p (text l ++ rest) -> cowel_line l rest -> cowel_line (p ++ l) rest
| line_expression e l rest : cowel_expression e (text l ++ rest) -> Forall (fun c => ~ cowel_newline c) (text e) -> cowel_line l rest -> cowel_line (e ++ l) rest
| line_operator p l rest : cowel_operator p (text l ++ rest) -> cowel_line l rest -> cowel_line (p ++ l) rest.

(** A document: its tokens are those of its pieces. *)
Definition cowel_pieces (l : list piece) : Prop := cowel_content in_document 0 l [].
