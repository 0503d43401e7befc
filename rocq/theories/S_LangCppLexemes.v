(** * Specification: the lexemes of C and C++ and their tokens. *)
From Coq Require Import List NArith Bool Arith.
From Verif Require Import M_Base M_Types M_Emit M_Parse S_Parse S_Utf8 S_LangCpp S_Lexemes.
Import ListNotations.
Local Open Scope list_scope.

(** ** Words. The C++ highlighter also knows the words of C, unless it is strict; extensions are known unless it is strict. *)
Local Open Scope string_scope.
Definition words_common : list (str * N) := (
  map (fun w => (bs w, hl_keyword)) ["_Atomic"; "_Pragma"; "alignas"; "alignof"; "and"; "and_eq"; "auto"; "bitand"; "bitor"; "compl"; "const";
    "constexpr"; "default"; "enum"; "extern"; "inline"; "not"; "not_eq"; "or"; "or_eq"; "register"; "sizeof";
    "static"; "static_assert"; "struct"; "thread_local"; "typedef"; "union"; "volatile"; "xor"; "xor_eq"]
  ++map (fun w => (bs w, hl_keyword_control)) ["asm"; "break"; "case"; "catch"; "continue"; "do"; "else"; "for"; "goto"; "if"; "return"; "switch"; "while"]
  ++map (fun w => (bs w, hl_keyword_type)) ["bool"; "char"; "double"; "float"; "int"; "long"; "short"; "signed"; "unsigned"; "void"]
  ++map (fun w => (bs w, hl_bool)) ["false"; "true"]
  ++map (fun w => (bs w, hl_null)) ["nullptr"])%list.
Definition words_c : list (str * N) := (
  map (fun w => (bs w, hl_keyword)) ["_Alignas"; "_Alignof"; "_Complex"; "_Generic"; "_Imaginary"; "_Noreturn"; "_Static_assert"; "_Thread_local";
    "complex"; "imaginary"; "noreturn"; "restrict"; "typeof"; "typeof_unqual"]
  ++map (fun w => (bs w, hl_keyword_type)) ["_BitInt"; "_Bool"; "_Decimal128"; "_Decimal32"; "_Decimal64"; "_Float128"; "_Float128x"; "_Float16";
    "_Float32"; "_Float32x"; "_Float64"; "_Float64x"])%list.
Definition words_cpp : list (str * N) := (
  map (fun w => (bs w, hl_keyword_type)) ["char16_t"; "char32_t"; "char8_t"; "wchar_t"]
  ++map (fun w => (bs w, hl_keyword)) ["class"; "concept"; "const_cast"; "consteval"; "constinit"; "contract_assert"; "decltype"; "delete";
    "dynamic_cast"; "explicit"; "export"; "final"; "friend"; "import"; "module"; "mutable"; "namespace"; "new";
    "noexcept"; "operator"; "override"; "post"; "pre"; "private"; "protected"; "public"; "reinterpret_cast";
    "replaceable_if_eligible"; "requires"; "static_cast"; "template"; "throw"; "trivially_relocatable_if_eligible";
    "try"; "typeid"; "typename"; "using"; "virtual"]
  ++map (fun w => (bs w, hl_keyword_control)) ["co_await"; "co_return"; "co_yield"]
  ++map (fun w => (bs w, hl_keyword_this)) ["this"])%list.
Definition words_ext : list (str * N) := (
  map (fun w => (bs w, hl_keyword_type)) ["_ExtInt"; "__float128"; "__float80"; "__fp16"; "__ibm128"; "__int128"; "__int16"; "__int256"; "__int32";
    "__int64"; "__int8"; "__m128"; "__m128d"; "__m128i"; "__m256"; "__m256d"; "__m256i"; "__m512"; "__m512d";
    "__m512i"; "__m64"; "__mmask16"; "__mmask32"; "__mmask64"; "__mmask8"; "__ptr32"; "__ptr64"]
  ++map (fun w => (bs w, hl_keyword)) ["__asm__"; "__attribute__"; "__extension__"; "__imag__"; "__label__"; "__real__"; "__restrict"])%list.
(** ** Operators and punctuation *)
Definition cpp_symbols : list (str * N) := (
  map (fun w => (bs w, hl_symbol_op)) ["!"; "!="; "%"; "%="; "&"; "&&"; "&="; "*"; "*="; "+"; "++"; "+="; "-"; "--"; "-="; "->"; "->*"; "."; ".*";
    "..."; "/"; "/="; "::"; "<"; "<<"; "<<="; "<="; "<=>"; "="; "=="; ">"; ">="; ">>"; ">>="; "?"; "^"; "^="; "^^";
    "|"; "|="; "||"; "~"]
  ++ map (fun w => (bs w, hl_name_macro_delim)) ["#"; "##"; "%:"; "%:%:"]
  ++ map (fun w => (bs w, hl_symbol_brace)) ["%>"; "<%"; "{"; "}"]
  ++ map (fun w => (bs w, hl_symbol_parens)) ["("; ")"]
  ++ map (fun w => (bs w, hl_symbol_punc)) [","; ":"; ";"]
  ++ map (fun w => (bs w, hl_symbol_square)) [":>"; "<:"; "["; "]"])%list.
Local Close Scope string_scope.
Definition cpp_words (is_cpp strict : bool) : list (str * N) :=
  words_common ++ (if is_cpp then words_cpp else []) ++ (if is_cpp && strict then [] else words_c) ++ (if strict then [] else words_ext).
(** Names that end with _t are types. *)
Definition name_highlight (w : str) (h : N) : Prop :=
  (h = hl_name_type /\ exists v, w = v ++ bs "_t") \/ (h = hl_name /\ ~ exists v, w = v ++ bs "_t").

(** ** Numbers *)
(** Integer and fraction may be empty (not both), the sign belongs to the digits of the exponent, the suffix may be any word. *)
Definition opt_grouped (d : N -> Prop) (l : list piece) : Prop := l = [] \/ grouped d 39 l.
Definition cpp_exp (letters : list N) (exp : option (str * str)) : Prop :=
  forall e d, exp = Some (e, d) -> exists l s ds, In l letters /\ In s [[]; bs "+"; bs "-"] /\ ds <> [] /\ Forall digit ds /\ e = [l] /\ d = s ++ ds.
Definition suffix_of (start : N -> Prop) (w : str) : Prop := w = [] \/ exists c t, w = c :: t /\ start c /\ Forall ident_char t.
Inductive cpp_number : list piece -> Prop :=
| cpp_decimal n frac exp suffix : opt_grouped digit n -> (forall f, frac = Some f -> opt_grouped digit f) ->
    (n = [] -> exists f, frac = Some f /\ f <> []) -> cpp_exp [ch "e"; ch "E"] exp ->
    suffix_of (fun c => ident_start c /\ ~ In c (bs "eE")) suffix ->
    (* 0x and 0b would be a prefix *)
    ((exists h, n = [(bs "0", h)]) -> frac = None -> exp = None -> not_before (fun c => In c (bs "xXbB")) suffix) ->
    cpp_number (number_pieces [] n frac exp suffix)
| cpp_binary base n suffix : In base [bs "0b"; bs "0B"] -> grouped binary_digit 39 n ->
    suffix_of (fun c => ident_start c /\ ~ In c (bs "eE")) suffix -> cpp_number (number_pieces base n None None suffix)
| cpp_hex base n suffix : In base [bs "0x"; bs "0X"] -> grouped hex_digit 39 n ->
    suffix_of (fun c => ident_start c /\ ~ hex_digit c /\ ~ In c (bs "pP")) suffix -> cpp_number (number_pieces base n None None suffix)
| cpp_hex_float base n frac exp suffix : In base [bs "0x"; bs "0X"] -> opt_grouped hex_digit n -> (forall f, frac = Some f -> opt_grouped hex_digit f) ->
    (n = [] -> exists f, frac = Some f /\ f <> []) -> exp <> None -> cpp_exp [ch "p"; ch "P"] exp ->
    suffix_of (fun c => ident_start c /\ ~ hex_digit c /\ ~ In c (bs "pP")) suffix -> cpp_number (number_pieces base n frac exp suffix).
(** What may follow a number *)
Definition after_number (p : list piece) (rest : str) : Prop :=
  not_before (fun c => ident_or_non_ascii c \/ In c (bs "'.")) rest
  /\ (forall v c, text p = v ++ [c] -> In c (bs "eEpP") -> not_before (fun d => In d (bs "+-")) rest).

(** ** Character and string literals *)
Inductive cpp_escape_sequence : str -> str -> Prop :=
| cpp_esc_simple c rest : In c (34 :: bs "'?\abfnrtv")%N -> cpp_escape_sequence [92; c]%N rest
| cpp_esc_octal d rest : longest_prefix (well_formed_escape octal_1_to_3) (d ++ rest) d -> cpp_escape_sequence (bs "\" ++ d) rest
| cpp_esc_hex d rest : longest_prefix (well_formed_escape hex_1_to_inf) (d ++ rest) d -> cpp_escape_sequence (bs "\x" ++ d) rest
| cpp_esc_u d rest : well_formed_escape hex_4 d -> cpp_escape_sequence (bs "\u" ++ d) rest
| cpp_esc_U d rest : well_formed_escape hex_8 d -> cpp_escape_sequence (bs "\U" ++ d) rest
| cpp_esc_braces c d rest : In c (bs "xu") -> well_formed_escape hex_braced d -> cpp_escape_sequence (92%N :: c :: d) rest
| cpp_esc_octal_braces d rest : well_formed_escape octal_braced d -> cpp_escape_sequence (bs "\o" ++ d) rest
| cpp_esc_name d rest : d <> [] -> ~ In 125%N d -> ~ In 10%N d -> cpp_escape_sequence (bs "\N{" ++ d ++ bs "}") rest.
Inductive cpp_item : list piece -> str -> Prop :=
| cpp_item_escape e rest : cpp_escape_sequence e rest -> cpp_item [(e, Some hl_string_escape)] rest.
(** Line breaks that are spliced away *)
Definition splice (w : str) : Prop := exists b, w = 92%N :: b ++ [10]%N /\ Forall (fun c => cpp_space c /\ c <> 10%N) b.
(** Plain text: characters in UTF-8, and splices *)
Inductive cpp_plain (quote : N) : str -> str -> Prop :=
| cpp_plain_end rest : cpp_plain quote [] rest
| cpp_plain_text c t w rest : scalar_value c -> utf8_encoding c = t -> ~ In c [quote; 92; 10; 13]%N -> cpp_plain quote w rest -> cpp_plain quote (t ++ w) rest
| cpp_plain_splice t w rest : splice t -> cpp_plain quote w rest -> cpp_plain quote (t ++ w) rest.
(** Literals end with a quote and perhaps a suffix, or without at the end of the line or of the text. The state after the literal tells whether
    a line begins. *)
Inductive cpp_suffix (is_cpp strict : bool) : list piece -> str -> Prop :=
| cpp_no_suffix rest : not_before (fun c => ident_start c \/ (128 <= c)%N) rest -> cpp_suffix is_cpp strict [] rest
| cpp_a_suffix w rest : identifier w -> (forall h, ~ In (w, h) (cpp_words is_cpp strict)) -> not_before ident_or_non_ascii rest ->
    cpp_suffix is_cpp strict [(w, Some hl_string_decor)] rest.
Inductive cpp_closing (is_cpp strict : bool) (quote : N) : list piece -> str -> bool -> Prop :=
| cpp_closed s rest : cpp_suffix is_cpp strict s rest -> cpp_closing is_cpp strict quote (([quote], Some hl_string_delim) :: s) rest false
| cpp_unclosed : cpp_closing is_cpp strict quote [] [] false
| cpp_unclosed_line c rest : (c = 10 \/ c = 13)%N -> cpp_closing is_cpp strict quote [] (c :: rest) true.
Inductive cpp_literal (is_cpp strict : bool) : list piece -> str -> bool -> Prop :=
| cpp_quoted quote prefix body close rest f : In (quote, prefix) (map (pair 39%N) [[]; bs "u8"; bs "u"; bs "U"; bs "L"] ++ map (pair 34%N) [[]; bs "u8"; bs "u"; bs "U"; bs "L"]) ->
    cpp_closing is_cpp strict quote close rest f ->
    string_body hl_string (cpp_plain quote) cpp_item (text close ++ rest) true body ->
    cpp_literal is_cpp strict (opt_piece prefix hl_string_decor ++ ([quote], Some hl_string_delim) :: body ++ close) rest f
| cpp_operator body close rest f :
    cpp_closing is_cpp strict 34 close rest f ->
    string_body hl_string (cpp_plain 34) cpp_item (text close ++ rest) true body ->
    cpp_literal is_cpp strict ((bs "operator", Some hl_keyword) :: ([34]%N, Some hl_string_delim) :: body ++ close) rest f
| cpp_raw prefix d body s rest : In prefix [bs "R"; bs "u8R"; bs "uR"; bs "UR"; bs "LR"] -> Forall d_char d -> raw_body d body ->
    cpp_suffix is_cpp strict s rest ->
    cpp_literal is_cpp strict ((prefix, Some hl_string_decor) :: (34%N :: d ++ bs "(", Some hl_string_delim)
      :: opt_piece body hl_string ++ (raw_end d, Some hl_string_delim) :: s) rest false.

(** ** Directives, at the beginning of a line *)
Definition blanks (w : str) : Prop := Forall (fun c => In c [32; 9]%N) w.
(** The file name of an include *)
Inductive cpp_header : list piece -> str -> Prop :=
| cpp_header_none rest : not_before (fun c => cpp_space c \/ c = ch "<") rest -> cpp_header [] rest
| cpp_header_angle path rest : Forall (fun c => ~ In c [62; 13; 10]%N) path ->
    cpp_header ((bs "<", Some hl_string_delim) :: opt_piece path hl_string ++ [(bs ">", Some hl_string_delim)]) rest.
Inductive cpp_directive : list piece -> str -> Prop :=
| cpp_directive_name hash b w rest : In hash [bs "#"; bs "%:"] -> blanks b -> identifier w -> w <> bs "include" -> not_before ident_or_non_ascii rest ->
    cpp_directive [(hash, Some hl_name_macro_delim); (b, None); (w, Some hl_name_macro)] rest
| cpp_directive_include hash b b2 header rest : In hash [bs "#"; bs "%:"] -> blanks b -> blanks b2 -> cpp_header header rest ->
    not_before ident_or_non_ascii (b2 ++ text header ++ rest) ->
    cpp_directive ((hash, Some hl_name_macro_delim) :: (b, None) :: (bs "include", Some hl_name_macro) :: (b2, None) :: header) rest.

(** ** Lexemes. The state tells whether nothing but white space and comments precedes in the line. *)
Inductive cpp_lexeme (is_cpp strict : bool) : bool -> list piece -> str -> bool -> Prop :=
| cpp_white f w rest : w <> [] -> Forall cpp_space w -> not_before cpp_space rest ->
    cpp_lexeme is_cpp strict f [(w, None)] rest (f || existsb (N.eqb 10) w)
| cpp_line_comment f t rest : logical_line_end (bs "//" ++ t ++ rest) (2 + length t) ->
    cpp_lexeme is_cpp strict f ((bs "//", Some hl_comment_delim) :: opt_piece t hl_comment) rest true
| cpp_block_comment f t rest : (forall a b, t <> a ++ bs "*/" ++ b) ->
    cpp_lexeme is_cpp strict f ((bs "/*", Some hl_comment_delim) :: opt_piece t hl_comment ++ [(bs "*/", Some hl_comment_delim)]) rest f
| cpp_open_comment f t : (forall a b, t <> a ++ bs "*/" ++ b) ->
    cpp_lexeme is_cpp strict f ((bs "/*", Some hl_comment_delim) :: opt_piece t hl_comment) [] f
| cpp_direct p rest : cpp_directive p rest -> cpp_lexeme is_cpp strict true p rest true
| cpp_lit f p rest f' : cpp_literal is_cpp strict p rest f' -> cpp_lexeme is_cpp strict f p rest f'
| cpp_num f p rest : cpp_number p -> after_number p rest -> cpp_lexeme is_cpp strict f p rest false
| cpp_word f w h rest : In (w, h) (cpp_words is_cpp strict) -> not_before (fun c => ident_or_non_ascii c \/ In c [34; 39]%N) rest ->
    cpp_lexeme is_cpp strict f [(w, Some h)] rest false
| cpp_name f w h rest : identifier w -> (forall h, ~ In (w, h) (cpp_words is_cpp strict)) -> name_highlight w h ->
    not_before (fun c => ident_or_non_ascii c \/ In c [34; 39]%N) rest ->
    cpp_lexeme is_cpp strict f [(w, Some h)] rest false
| cpp_symbol f t h rest : In (t, h) cpp_symbols -> next_punctuator is_cpp (t ++ rest) t -> t <> bs "%>" ->
    (is_cpp = false -> ~ lone_less true (t ++ rest)) ->
    (f = true -> t <> bs "#" /\ t <> bs "%:") ->
    (t = bs "." -> not_before digit rest) -> (t = bs "/" -> not_before (fun c => In c (bs "/*")) rest) ->
    cpp_lexeme is_cpp strict f [(t, Some h)] rest false
(** Other characters, and what follows up to white space, are not highlighted. *)
| cpp_other f c t rest : In c (bs "@$`\") -> Forall (fun c => ~ cpp_space c) t -> not_before (fun c => ~ cpp_space c) rest ->
    cpp_lexeme is_cpp strict f [(c :: t, None)] rest false.
