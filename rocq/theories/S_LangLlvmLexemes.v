(** * Specification: LLVM IR as a sequence of lexemes with the tokens a user expects (LLVM Language Reference: identifiers,
    constants, comments, labels). *)
From Coq Require Import List NArith Bool Arith.
From Verif Require Import M_Base M_Types S_Json S_Lexemes S_LangLlvm.
Import ListNotations.

Definition llvm_blank (c : N) : Prop := In c [32; 9; 13; 10]%N.
(** What names of variables and functions are made of: letters, digits, - $ . _ *)
Definition llvm_name_char (c : N) : Prop := llvm_word_char c \/ c = ch "$" \/ c = ch ".".
Definition llvm_symbols : list (N * N) :=
  [(ch "(", hl_symbol_parens); (ch ")", hl_symbol_parens); (ch "[", hl_symbol_square); (ch "]", hl_symbol_square);
   (ch "{", hl_symbol_brace); (ch "}", hl_symbol_brace); (ch ",", hl_symbol_punc); (ch ":", hl_symbol_punc);
   (ch "<", hl_symbol_punc); (ch "=", hl_symbol_punc); (ch ">", hl_symbol_punc)].
Definition llvm_exponents : list str := [bs "e+"; bs "e-"; bs "e"; bs "E+"; bs "E-"; bs "E"].
(** What must not follow a number *)
Definition llvm_number_char (c : N) : Prop := llvm_word_char c \/ c = ch ".".

(** Plain text of strings, escapes: two backslashes, or a backslash and two hexadecimal digits *)
Definition llvm_plain (run rest : str) : Prop := Forall (fun c => c <> 34 /\ c <> ch "\")%N run.
Inductive llvm_escape : list piece -> str -> Prop :=
| llvm_backslash rest : llvm_escape [(bs "\\", Some hl_string_escape)] rest
| llvm_hex d rest : exactly 2 hex_digit d -> llvm_escape [(bs "\" ++ d, Some hl_string_escape)] rest.

Inductive llvm_lexeme : list piece -> str -> Prop :=
| llvm_line t w rest : Forall (fun c => c <> 10 /\ c <> 13)%N t -> newline w rest \/ w = [] /\ rest = [] ->
    llvm_lexeme ((bs ";", Some hl_comment_delim) :: opt_piece t hl_comment ++ [(w, None)]) rest
| llvm_block t rest : ~ contains (t ++ bs "*") (bs "*/") ->
    llvm_lexeme ((bs "/*", Some hl_comment_delim) :: opt_piece t hl_comment ++ [(bs "*/", Some hl_comment_delim)]) rest
| llvm_variable t rest : Forall llvm_name_char t -> not_before llvm_name_char rest ->
    llvm_lexeme ((bs "%", Some hl_name_var_delim) :: opt_piece t hl_name_var) rest
| llvm_function t rest : Forall llvm_name_char t -> not_before llvm_name_char rest ->
    llvm_lexeme ((bs "@", Some hl_name_function_delim) :: opt_piece t hl_name_function) rest
| llvm_string body close rest : string_body hl_string llvm_plain llvm_escape (text close ++ rest) true body ->
    close = [([34%N], Some hl_string_delim)] \/ close = [] /\ rest = [] ->
    llvm_lexeme (([34%N], Some hl_string_delim) :: body ++ close) rest
| llvm_symbol c h rest : In (c, h) llvm_symbols -> llvm_lexeme [([c], Some h)] rest
(** Decimal digits with an optional fraction and an optional exponent *)
| llvm_decimal d f e rest : d <> [] -> Forall digit d ->
    match f with Some f => Forall digit f /\ (f = [] -> e <> None \/ rest <> []) | None => True end ->
    match e with Some (e, x) => In e llvm_exponents /\ x <> [] /\ Forall digit x | None => True end ->
    not_before llvm_number_char rest ->
    llvm_lexeme (number_pieces [] [(d, Some hl_number)] (match f with Some f => Some (opt_piece f hl_number) | None => None end) e []) rest
| llvm_hexadecimal p d rest : In p [bs "0x"; bs "s0x"; bs "u0x"] -> d <> [] -> Forall hex_digit d -> not_before llvm_word_char rest ->
    llvm_lexeme (number_pieces p [(d, Some hl_number)] None None []) rest
(** Words begin neither with a digit nor with s0x, u0x; a colon makes them labels. *)
| llvm_label w rest : w <> [] -> Forall llvm_word_char w -> not_before digit w -> (~ exists t, w = bs "s0x" ++ t \/ w = bs "u0x" ++ t) ->
    llvm_lexeme [(w, Some hl_name_label_decl); (bs ":", Some hl_name_label_delim)] rest
| llvm_other w h rest : w <> [] -> Forall llvm_word_char w -> not_before digit w -> (~ exists t, w = bs "s0x" ++ t \/ w = bs "u0x" ++ t) ->
    llvm_word w h -> not_before (fun c => llvm_word_char c \/ c = ch ":") rest -> llvm_lexeme [(w, Some h)] rest.
