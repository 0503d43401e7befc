(** * Model of C and C++ highlighting (src/main/cpp/lang/cpp.cpp, include/ulight/impl/lang/cpp.hpp). *)
From Coq Require Import List NArith ZArith Bool Arith.
From Verif Require Import M_Base M_Emit M_Types M_Chars M_Xid M_Parse M_Utf8 M_Api M_Table M_Highlighter.
Import ListNotations.

(** ** Characters *)

(** cpp.hpp:14-40 (is_cpp_ascii_identifier_start/continue, is_cpp_identifier_start/continue) *)
Definition is_cpp_ascii_identifier_start (c : N) : bool := is_ascii_xid_start c || (c =? 95)%N.
Definition is_cpp_ascii_identifier_continue (c : N) : bool := is_ascii_xid_continue c.
Definition is_cpp_identifier_start (c : N) : bool := (c =? 95)%N || is_xid_start c.
Definition is_cpp_identifier_continue (c : N) : bool := (c =? 95)%N || is_xid_continue c.
(** cpp.hpp:43 (is_cpp_whitespace), 47-48 (is_cpp_basic), 50 (is_cpp_d_char) *)
Definition is_cpp_whitespace (c : N) : bool := mem c [9; 10; 12; 13; 32; 11]%N.
Definition is_cpp_basic (c : N) : bool :=
  is_ascii_alphanumeric c || mem c ([9; 11; 12; 13; 10; 34]%N ++ bs "!#$%&'()*+,-./:;<>=?@[]\^_`{|}~").
Definition is_cpp_d_char (c : N) : bool :=
  is_ascii c && negb (is_cpp_whitespace c) && negb (mem c (bs "()\")).

(** ** Tokens *)

(** cpp.hpp:52-61 (Feature_Source) *)
Inductive feature_source := src_ext | src_c | src_cpp | src_c_cpp.

(** cpp.hpp:75-297 (ULIGHT_CPP_TOKEN_ENUM_DATA), cpp.cpp:26-49 (the arrays made from it). A
    Token_Type is represented by its code. *)
Definition cpp_tokens : list (str * (N * feature_source)) := [
  (bs "!", (hl_symbol_op, src_c_cpp)); (bs "!=", (hl_symbol_op, src_c_cpp));
  (bs "#", (hl_name_macro_delim, src_c_cpp)); (bs "##", (hl_name_macro_delim, src_c_cpp));
  (bs "%", (hl_symbol_op, src_c_cpp)); (bs "%:", (hl_name_macro_delim, src_c_cpp));
  (bs "%:%:", (hl_name_macro_delim, src_c_cpp)); (bs "%=", (hl_symbol_op, src_c_cpp));
  (bs "%>", (hl_symbol_brace, src_c_cpp)); (bs "&", (hl_symbol_op, src_c_cpp));
  (bs "&&", (hl_symbol_op, src_c_cpp)); (bs "&=", (hl_symbol_op, src_c_cpp));
  (bs "(", (hl_symbol_parens, src_c_cpp)); (bs ")", (hl_symbol_parens, src_c_cpp));
  (bs "*", (hl_symbol_op, src_c_cpp)); (bs "*=", (hl_symbol_op, src_c_cpp));
  (bs "+", (hl_symbol_op, src_c_cpp)); (bs "++", (hl_symbol_op, src_c_cpp));
  (bs "+=", (hl_symbol_op, src_c_cpp)); (bs ",", (hl_symbol_punc, src_c_cpp));
  (bs "-", (hl_symbol_op, src_c_cpp)); (bs "--", (hl_symbol_op, src_c_cpp));
  (bs "-=", (hl_symbol_op, src_c_cpp)); (bs "->", (hl_symbol_op, src_c_cpp));
  (bs "->*", (hl_symbol_op, src_cpp)); (bs ".", (hl_symbol_op, src_c_cpp));
  (bs ".*", (hl_symbol_op, src_cpp)); (bs "...", (hl_symbol_op, src_c_cpp));
  (bs "/", (hl_symbol_op, src_c_cpp)); (bs "/=", (hl_symbol_op, src_c_cpp));
  (bs ":", (hl_symbol_punc, src_c_cpp)); (bs "::", (hl_symbol_op, src_cpp));
  (bs ":>", (hl_symbol_square, src_c_cpp)); (bs ";", (hl_symbol_punc, src_c_cpp));
  (bs "<", (hl_symbol_op, src_c_cpp)); (bs "<%", (hl_symbol_brace, src_c_cpp));
  (bs "<:", (hl_symbol_square, src_c_cpp)); (bs "<<", (hl_symbol_op, src_c_cpp));
  (bs "<<=", (hl_symbol_op, src_c_cpp)); (bs "<=", (hl_symbol_op, src_c_cpp));
  (bs "<=>", (hl_symbol_op, src_cpp)); (bs "=", (hl_symbol_op, src_c_cpp));
  (bs "==", (hl_symbol_op, src_c_cpp)); (bs ">", (hl_symbol_op, src_c_cpp));
  (bs ">=", (hl_symbol_op, src_c_cpp)); (bs ">>", (hl_symbol_op, src_c_cpp));
  (bs ">>=", (hl_symbol_op, src_c_cpp)); (bs "?", (hl_symbol_op, src_c_cpp));
  (bs "[", (hl_symbol_square, src_c_cpp)); (bs "]", (hl_symbol_square, src_c_cpp));
  (bs "^", (hl_symbol_op, src_c_cpp)); (bs "^=", (hl_symbol_op, src_c_cpp));
  (bs "^^", (hl_symbol_op, src_cpp)); (bs "_Alignas", (hl_keyword, src_c));
  (bs "_Alignof", (hl_keyword, src_c)); (bs "_Atomic", (hl_keyword, src_c_cpp));
  (bs "_BitInt", (hl_keyword_type, src_c)); (bs "_Bool", (hl_keyword_type, src_c));
  (bs "_Complex", (hl_keyword, src_c)); (bs "_Decimal128", (hl_keyword_type, src_c));
  (bs "_Decimal32", (hl_keyword_type, src_c)); (bs "_Decimal64", (hl_keyword_type, src_c));
  (bs "_ExtInt", (hl_keyword_type, src_ext)); (bs "_Float128", (hl_keyword_type, src_c));
  (bs "_Float128x", (hl_keyword_type, src_c)); (bs "_Float16", (hl_keyword_type, src_c));
  (bs "_Float32", (hl_keyword_type, src_c)); (bs "_Float32x", (hl_keyword_type, src_c));
  (bs "_Float64", (hl_keyword_type, src_c)); (bs "_Float64x", (hl_keyword_type, src_c));
  (bs "_Generic", (hl_keyword, src_c)); (bs "_Imaginary", (hl_keyword, src_c));
  (bs "_Noreturn", (hl_keyword, src_c)); (bs "_Pragma", (hl_keyword, src_c_cpp));
  (bs "_Static_assert", (hl_keyword, src_c)); (bs "_Thread_local", (hl_keyword, src_c));
  (bs "__asm__", (hl_keyword, src_ext)); (bs "__attribute__", (hl_keyword, src_ext));
  (bs "__extension__", (hl_keyword, src_ext)); (bs "__float128", (hl_keyword_type, src_ext));
  (bs "__float80", (hl_keyword_type, src_ext)); (bs "__fp16", (hl_keyword_type, src_ext));
  (bs "__ibm128", (hl_keyword_type, src_ext)); (bs "__imag__", (hl_keyword, src_ext));
  (bs "__int128", (hl_keyword_type, src_ext)); (bs "__int16", (hl_keyword_type, src_ext));
  (bs "__int256", (hl_keyword_type, src_ext)); (bs "__int32", (hl_keyword_type, src_ext));
  (bs "__int64", (hl_keyword_type, src_ext)); (bs "__int8", (hl_keyword_type, src_ext));
  (bs "__label__", (hl_keyword, src_ext)); (bs "__m128", (hl_keyword_type, src_ext));
  (bs "__m128d", (hl_keyword_type, src_ext)); (bs "__m128i", (hl_keyword_type, src_ext));
  (bs "__m256", (hl_keyword_type, src_ext)); (bs "__m256d", (hl_keyword_type, src_ext));
  (bs "__m256i", (hl_keyword_type, src_ext)); (bs "__m512", (hl_keyword_type, src_ext));
  (bs "__m512d", (hl_keyword_type, src_ext)); (bs "__m512i", (hl_keyword_type, src_ext));
  (bs "__m64", (hl_keyword_type, src_ext)); (bs "__mmask16", (hl_keyword_type, src_ext));
  (bs "__mmask32", (hl_keyword_type, src_ext)); (bs "__mmask64", (hl_keyword_type, src_ext));
  (bs "__mmask8", (hl_keyword_type, src_ext)); (bs "__ptr32", (hl_keyword_type, src_ext));
  (bs "__ptr64", (hl_keyword_type, src_ext)); (bs "__real__", (hl_keyword, src_ext));
  (bs "__restrict", (hl_keyword, src_ext)); (bs "alignas", (hl_keyword, src_c_cpp));
  (bs "alignof", (hl_keyword, src_c_cpp)); (bs "and", (hl_keyword, src_c_cpp));
  (bs "and_eq", (hl_keyword, src_c_cpp)); (bs "asm", (hl_keyword_control, src_c_cpp));
  (bs "auto", (hl_keyword, src_c_cpp)); (bs "bitand", (hl_keyword, src_c_cpp));
  (bs "bitor", (hl_keyword, src_c_cpp)); (bs "bool", (hl_keyword_type, src_c_cpp));
  (bs "break", (hl_keyword_control, src_c_cpp)); (bs "case", (hl_keyword_control, src_c_cpp));
  (bs "catch", (hl_keyword_control, src_c_cpp)); (bs "char", (hl_keyword_type, src_c_cpp));
  (bs "char16_t", (hl_keyword_type, src_cpp)); (bs "char32_t", (hl_keyword_type, src_cpp));
  (bs "char8_t", (hl_keyword_type, src_cpp)); (bs "class", (hl_keyword, src_cpp));
  (bs "co_await", (hl_keyword_control, src_cpp)); (bs "co_return", (hl_keyword_control, src_cpp));
  (bs "co_yield", (hl_keyword_control, src_cpp)); (bs "compl", (hl_keyword, src_c_cpp));
  (bs "complex", (hl_keyword, src_c)); (bs "concept", (hl_keyword, src_cpp));
  (bs "const", (hl_keyword, src_c_cpp)); (bs "const_cast", (hl_keyword, src_cpp));
  (bs "consteval", (hl_keyword, src_cpp)); (bs "constexpr", (hl_keyword, src_c_cpp));
  (bs "constinit", (hl_keyword, src_cpp)); (bs "continue", (hl_keyword_control, src_c_cpp));
  (bs "contract_assert", (hl_keyword, src_cpp)); (bs "decltype", (hl_keyword, src_cpp));
  (bs "default", (hl_keyword, src_c_cpp)); (bs "delete", (hl_keyword, src_cpp));
  (bs "do", (hl_keyword_control, src_c_cpp)); (bs "double", (hl_keyword_type, src_c_cpp));
  (bs "dynamic_cast", (hl_keyword, src_cpp)); (bs "else", (hl_keyword_control, src_c_cpp));
  (bs "enum", (hl_keyword, src_c_cpp)); (bs "explicit", (hl_keyword, src_cpp));
  (bs "export", (hl_keyword, src_cpp)); (bs "extern", (hl_keyword, src_c_cpp));
  (bs "false", (hl_bool, src_c_cpp)); (bs "final", (hl_keyword, src_cpp));
  (bs "float", (hl_keyword_type, src_c_cpp)); (bs "for", (hl_keyword_control, src_c_cpp));
  (bs "friend", (hl_keyword, src_cpp)); (bs "goto", (hl_keyword_control, src_c_cpp));
  (bs "if", (hl_keyword_control, src_c_cpp)); (bs "imaginary", (hl_keyword, src_c));
  (bs "import", (hl_keyword, src_cpp)); (bs "inline", (hl_keyword, src_c_cpp));
  (bs "int", (hl_keyword_type, src_c_cpp)); (bs "long", (hl_keyword_type, src_c_cpp));
  (bs "module", (hl_keyword, src_cpp)); (bs "mutable", (hl_keyword, src_cpp));
  (bs "namespace", (hl_keyword, src_cpp)); (bs "new", (hl_keyword, src_cpp));
  (bs "noexcept", (hl_keyword, src_cpp)); (bs "noreturn", (hl_keyword, src_c));
  (bs "not", (hl_keyword, src_c_cpp)); (bs "not_eq", (hl_keyword, src_c_cpp));
  (bs "nullptr", (hl_null, src_c_cpp)); (bs "operator", (hl_keyword, src_cpp));
  (bs "or", (hl_keyword, src_c_cpp)); (bs "or_eq", (hl_keyword, src_c_cpp));
  (bs "override", (hl_keyword, src_cpp)); (bs "post", (hl_keyword, src_cpp));
  (bs "pre", (hl_keyword, src_cpp)); (bs "private", (hl_keyword, src_cpp));
  (bs "protected", (hl_keyword, src_cpp)); (bs "public", (hl_keyword, src_cpp));
  (bs "register", (hl_keyword, src_c_cpp)); (bs "reinterpret_cast", (hl_keyword, src_cpp));
  (bs "replaceable_if_eligible", (hl_keyword, src_cpp)); (bs "requires", (hl_keyword, src_cpp));
  (bs "restrict", (hl_keyword, src_c)); (bs "return", (hl_keyword_control, src_c_cpp));
  (bs "short", (hl_keyword_type, src_c_cpp)); (bs "signed", (hl_keyword_type, src_c_cpp));
  (bs "sizeof", (hl_keyword, src_c_cpp)); (bs "static", (hl_keyword, src_c_cpp));
  (bs "static_assert", (hl_keyword, src_c_cpp)); (bs "static_cast", (hl_keyword, src_cpp));
  (bs "struct", (hl_keyword, src_c_cpp)); (bs "switch", (hl_keyword_control, src_c_cpp));
  (bs "template", (hl_keyword, src_cpp)); (bs "this", (hl_keyword_this, src_cpp));
  (bs "thread_local", (hl_keyword, src_c_cpp)); (bs "throw", (hl_keyword, src_cpp));
  (bs "trivially_relocatable_if_eligible", (hl_keyword, src_cpp));
  (bs "true", (hl_bool, src_c_cpp)); (bs "try", (hl_keyword, src_cpp));
  (bs "typedef", (hl_keyword, src_c_cpp)); (bs "typeid", (hl_keyword, src_cpp));
  (bs "typename", (hl_keyword, src_cpp)); (bs "typeof", (hl_keyword, src_c));
  (bs "typeof_unqual", (hl_keyword, src_c)); (bs "union", (hl_keyword, src_c_cpp));
  (bs "unsigned", (hl_keyword_type, src_c_cpp)); (bs "using", (hl_keyword, src_cpp));
  (bs "virtual", (hl_keyword, src_cpp)); (bs "void", (hl_keyword_type, src_c_cpp));
  (bs "volatile", (hl_keyword, src_c_cpp)); (bs "wchar_t", (hl_keyword_type, src_cpp));
  (bs "while", (hl_keyword_control, src_c_cpp)); (bs "xor", (hl_keyword, src_c_cpp));
  (bs "xor_eq", (hl_keyword, src_c_cpp)); (bs "{", (hl_symbol_brace, src_c_cpp));
  (bs "|", (hl_symbol_op, src_c_cpp)); (bs "|=", (hl_symbol_op, src_c_cpp));
  (bs "||", (hl_symbol_op, src_c_cpp)); (bs "}", (hl_symbol_brace, src_c_cpp));
  (bs "~", (hl_symbol_op, src_c_cpp))
].

(** cpp.cpp:54-78 (cpp_token_type_code, _length, _highlight, _source), for a token of the table *)
Definition cpp_token_type_length (code : str) : nat := length code.
Definition cpp_token_type_highlight (code : str) : N :=
  match table_find cpp_tokens code with Some (h, _) => h | None => hl_none end.
(** cpp.cpp:80-88 (cpp_token_type_by_code) *)
Definition cpp_token_type_by_code (code : str) : option (N * feature_source) :=
  table_find cpp_tokens code.

(** ** Matchers *)

(** cpp.cpp:90-98 (match_whitespace, match_non_whitespace) *)
Definition cpp_match_whitespace (s : str) : nat := length_if s is_cpp_whitespace.
Definition cpp_match_non_whitespace (s : str) : nat := length_if_not s is_cpp_whitespace.

(** cpp.cpp:102-111 (is_string_literal_prefix); the binary search in the nine sorted strings is
    membership *)
Definition is_string_literal_prefix (s : str) : bool :=
  existsb (str_eqb s)
    [bs "L"; bs "LR"; bs "R"; bs "U"; bs "UR"; bs "u"; bs "u8"; bs "u8R"; bs "uR"].

(** cpp.cpp:113-135 (match_newline_escape): the loop, from [length] on *)
Fixpoint newline_escape_loop (s : str) (len : nat) : nat :=
  match s with
  | [] => 0
  | c :: s' =>
    if (c =? 10)%N then len + 1
    else if negb (is_cpp_whitespace c) then 0
    else newline_escape_loop s' (len + 1)
  end.
Definition match_newline_escape (s : str) : nat :=
  match s with
  | c :: s' => if (c =? ch "\")%N then newline_escape_loop s' 1 else 0
  | [] => 0
  end.

(** cpp.cpp:139-163 (match_line_comment): the loop; [s] is the text from [length] on *)
Fixpoint line_comment_loop (fuel : nat) (s : str) (len : nat) : res nat :=
  match s with
  | [] => Ok len
  | _ :: s' =>
    match fuel with
    | O => Fail FFuel
    | S fuel =>
      if starts_with_ch s 10 || starts_with s [13; 10]%N then Ok len
      else
        let e := match_newline_escape s in
        if negb (e =? 0) then line_comment_loop fuel (skipn e s) (len + e)
        else line_comment_loop fuel s' (len + 1)
    end
  end.
Definition cpp_match_line_comment (s : str) : res nat :=
  if negb (starts_with s (bs "//")) then Ok 0
  else line_comment_loop (length s) (skipn 2 s) 2.

(** cpp.cpp:194-206 (match_block_comment) *)
Definition cpp_match_block_comment (s : str) : enclosed :=
  if negb (starts_with s (bs "/*")) then mk_enclosed 0 false
  else match find_str s (bs "*/") 2 with
       | None => mk_enclosed (length s) false
       | Some i => mk_enclosed (i + 2) true
       end.

(** cpp.cpp:242-257 (is_identifier_start_likely_ascii, is_identifier_continue_likely_ascii) *)
Definition is_identifier_start_likely_ascii (c : N) : bool :=
  if is_ascii c then is_cpp_ascii_identifier_start c else is_cpp_identifier_start c.
Definition is_identifier_continue_likely_ascii (c : N) : bool :=
  if is_ascii c then is_cpp_ascii_identifier_continue c else is_cpp_identifier_continue c.

(** cpp.cpp:261-323 (match_pp_number): the loop; [s] is the text from [length] on *)
Fixpoint pp_number_loop (fuel : nat) (s : str) (len : nat) : res nat :=
  match s with
  | [] => Ok len
  | c :: s' =>
    match fuel with
    | O => Fail FFuel
    | S fuel =>
      if (c =? 39)%N then
        match s' with
        | d :: s'' =>
          if is_cpp_ascii_identifier_continue d then pp_number_loop fuel s'' (len + 2) else Ok len
        | [] => Ok len
        end
      else if mem c (bs "eEpP") then
        match s' with
        | d :: s'' =>
          if mem d (bs "-+") then pp_number_loop fuel s'' (len + 2)
          else pp_number_loop fuel s' (len + 1)
        | [] => pp_number_loop fuel s' (len + 1)
        end
      else if (c =? ch ".")%N then pp_number_loop fuel s' (len + 1)
      else
        let* r := decode_and_length_or_replacement s in
        let (cp, units) := r in
        if is_identifier_continue_likely_ascii cp
        then pp_number_loop fuel (skipn units s) (len + units) else Ok len
    end
  end.
Definition match_pp_number (s : str) : res nat :=
  match s with
  | c :: s' =>
    if (c =? ch ".")%N && match s' with d :: _ => is_ascii_digit d | [] => false end
    then pp_number_loop (length s) (skipn 2 s) 2
    else if is_ascii_digit c then pp_number_loop (length s) s' 1
    else Ok 0
  | [] => Ok 0
  end.

(** cpp.cpp:325-348 (match_identifier): the second loop *)
Fixpoint identifier_loop (fuel : nat) (s : str) (len : nat) : res nat :=
  match s with
  | [] => Ok len
  | _ =>
    match fuel with
    | O => Fail FFuel
    | S fuel =>
      let* r := decode_and_length_or_replacement s in
      let (cp, units) := r in
      if negb (is_identifier_continue_likely_ascii cp) then Ok len
      else let* s' := M_Utf8.remove_prefix s units in identifier_loop fuel s' (len + units)
    end
  end.
Definition cpp_match_identifier (s : str) : res nat :=
  match s with
  | [] => Ok 0
  | _ =>
    let* r := decode_and_length_or_replacement s in
    let (cp, units) := r in
    if negb (is_identifier_start_likely_ascii cp) then Ok 0
    else let* s' := M_Utf8.remove_prefix s units in identifier_loop (length s) s' units
  end.

(** cpp.hpp:420-446 (Escape_Type), 448-470 (Escape_Result); only whether the type is newline
    matters to the highlighter *)
Record cpp_escape := mk_cpp_escape { ce_length : nat; ce_newline : bool; ce_erroneous : bool }.
Definition with_type (r : res escape) : res cpp_escape :=
  let* e := r in Ok (mk_cpp_escape (es_length e) false (es_erroneous e)).

(** cpp.cpp:350-457 (match_escape_sequence) *)
Definition cpp_match_escape_sequence (s : str) : res cpp_escape :=
  match s with
  | b :: c :: _ =>
    let braced := starts_with_ch (skipn 2 s) (ch "{") in
    if negb (b =? ch "\")%N then Ok (mk_cpp_escape 0 false false)
    else if mem c (39 :: 34 :: bs "?\abfnrtv")%N then Ok (mk_cpp_escape 2 false false)
    else if mem c [32; 9; 11; 12; 13]%N then
      let n := match_newline_escape s in
      Ok (if negb (n =? 0) then mk_cpp_escape n true false else mk_cpp_escape 2 true true)
    else if (c =? 10)%N then Ok (mk_cpp_escape 2 true false)
    else if (c =? ch "u")%N then
      with_type (match_common_escape_at (if braced then hex_braced else hex_4) s 2)
    else if (c =? ch "U")%N then with_type (match_common_escape_at hex_8 s 2)
    else if (c =? ch "N")%N then
      Ok (if braced then
            match find_first_of s [125; 10]%N 0 with
            | None => mk_cpp_escape 3 false true
            | Some e =>
              if (nth e s 0 =? ch "}")%N then mk_cpp_escape (e + 1) false (e + 1 <=? 4)
              else mk_cpp_escape 3 false true
            end
          else mk_cpp_escape 2 false true)
    else if (c =? ch "x")%N then
      with_type (match_common_escape_at (if braced then hex_braced else hex_1_to_inf) s 2)
    else if (c =? ch "o")%N then
      if braced then with_type (match_common_escape_at octal_braced s 2)
      else Ok (mk_cpp_escape 2 false true)
    else if between 48 55 c then with_type (match_common_escape_at octal_1_to_3 s 1)
    else Ok (mk_cpp_escape 2 false (negb (is_cpp_basic c)))
  | _ => Ok (mk_cpp_escape 0 false false)
  end.

(** The first alternative of a chain of conditional operators that applies. *)
Fixpoint first_alternative (alts : list (bool * String.string)) (default : String.string) : option str :=
  match alts with
  | [] => Some (bs default)
  | (b, t) :: alts' => if b then Some (bs t) else first_alternative alts' default
  end.

Local Open Scope string_scope.
(** cpp.cpp:468-549 (match_preprocessing_op_or_punc): the code of the token returned. The right
    brace digraph is answered with the token of the right square bracket digraph (cpp.cpp:482). *)
Definition match_preprocessing_op_or_punc (is_cpp : bool) (s : str) : option str :=
  let sw (p : String.string) := starts_with s (bs p) in
  match s with
  | [] => None
  | c :: _ =>
    if (c =? ch "#")%N then first_alternative [(sw "##", "##")] "#"
    else if (c =? ch "%")%N then
      first_alternative [(sw "%:%:", "%:%:"); (sw "%:", "%:"); (sw "%=", "%="); (sw "%>", ":>")] "%"
    else if (c =? ch "{")%N then Some (bs "{")
    else if (c =? ch "}")%N then Some (bs "}")
    else if (c =? ch "[")%N then Some (bs "[")
    else if (c =? ch "]")%N then Some (bs "]")
    else if (c =? ch "(")%N then Some (bs "(")
    else if (c =? ch ")")%N then Some (bs ")")
    else if (c =? ch "<")%N then
      if sw "<::" && negb (sw "<:::") && negb (sw "<::>") then Some (bs "<")
      else first_alternative
        [(is_cpp && sw "<=>", "<=>"); (sw "<<=", "<<="); (sw "<=", "<="); (sw "<<", "<<");
         (sw "<%", "<%"); (sw "<:", "<:")] "<"
    else if (c =? ch ";")%N then Some (bs ";")
    else if (c =? ch ":")%N then first_alternative [(sw ":>", ":>"); (is_cpp && sw "::", "::")] ":"
    else if (c =? ch ".")%N then first_alternative [(sw "...", "..."); (is_cpp && sw ".*", ".*")] "."
    else if (c =? ch "?")%N then Some (bs "?")
    else if (c =? ch "-")%N then
      first_alternative [(is_cpp && sw "->*", "->*"); (sw "-=", "-="); (sw "->", "->"); (sw "--", "--")] "-"
    else if (c =? ch ">")%N then first_alternative [(sw ">>=", ">>="); (sw ">=", ">="); (sw ">>", ">>")] ">"
    else if (c =? ch "~")%N then Some (bs "~")
    else if (c =? ch "!")%N then first_alternative [(sw "!=", "!=")] "!"
    else if (c =? ch "+")%N then first_alternative [(sw "++", "++"); (sw "+=", "+=")] "+"
    else if (c =? ch "*")%N then first_alternative [(sw "*=", "*=")] "*"
    else if (c =? ch "/")%N then first_alternative [(sw "/=", "/=")] "/"
    else if (c =? ch "^")%N then first_alternative [(is_cpp && sw "^^", "^^"); (sw "^=", "^=")] "^"
    else if (c =? ch "&")%N then first_alternative [(sw "&=", "&="); (sw "&&", "&&")] "&"
    else if (c =? ch "|")%N then first_alternative [(sw "|=", "|="); (sw "||", "||")] "|"
    else if (c =? ch "=")%N then first_alternative [(sw "==", "==")] "="
    else if (c =? ch ",")%N then Some (bs ",")
    else None
  end.
Local Close Scope string_scope.

(** cpp.cpp:553-577 (the masks, feature_in_mask, usual_fallback_highlight) *)
Definition feature_in_mask (is_cpp strict : bool) (f : feature_source) : bool :=
  match f with
  | src_ext => negb strict
  | src_c => negb (is_cpp && strict)
  | src_cpp => is_cpp
  | src_c_cpp => true
  end.
Definition ends_with (s suffix : str) : bool :=
  (length suffix <=? length s) && str_eqb (skipn (length s - length suffix) s) suffix.
Definition usual_fallback_highlight (id : str) : N :=
  if ends_with id (bs "_t") then hl_name_type else hl_name.

(** ** The highlighter *)

(** cpp.cpp:583-600: the members of cpp::Highlighter. index may exceed source.size(); [rem] is
    source from index on, empty when index is beyond the end, and [cl_size] is source.size(). *)
Record cpp_loc := mk_cpp_loc { cl_fresh_line : bool; cl_size : nat }.
Definition set_fresh_line (b : bool) : M cpp_loc unit :=
  let! l := get_loc in set_loc (mk_cpp_loc b (cl_size l)).

(** cpp.cpp:617-631 (emit): no range check. The condition for coalescing is that of the base class
    (highlighter.hpp:75-96), so the operation recorded is the same. *)
Definition cpp_emit (b len : nat) (ty : N) : M cpp_loc unit := fun st =>
  if negb (len =? 0)
  then Ok (tt, mk_hst (rem st) (idx st) (OEmit b len ty false :: rops st) (loc st))
  else Fail FDebugAssert.
(** cpp.cpp:639-642 (advance): no range check *)
Definition cpp_advance (len : nat) : M cpp_loc unit := fun st =>
  Ok (tt, mk_hst (skipn len (rem st)) (idx st + len) (rops st) (loc st)).
(** cpp.cpp:633-637 (emit_and_advance) *)
Definition cpp_emit_and_advance (len : nat) (ty : N) : M cpp_loc unit :=
  let! i := get_idx in cpp_emit i len ty ;; cpp_advance len.
(** cpp.cpp:644-648 (remainder): source.substr(index) throws when index is beyond the end *)
Definition cpp_remainder : M cpp_loc str := fun st =>
  if idx st <=? cl_size (loc st) then Ok (rem st, st) else Fail FThrow.

(** cpp.cpp:669-677 (expect_whitespace) *)
Definition cpp_expect_whitespace : M cpp_loc bool :=
  let! r := cpp_remainder in
  let n := cpp_match_whitespace r in
  if n =? 0 then ret false
  else
    let! l := get_loc in
    set_fresh_line (cl_fresh_line l || mem 10 (firstn n r)) ;;
    cpp_advance n ;; ret true.

(** cpp.cpp:679-690 (expect_line_comment) *)
Definition cpp_expect_line_comment : M cpp_loc bool :=
  let! r := cpp_remainder in
  let! n := lift (cpp_match_line_comment r) in
  if n =? 0 then ret false
  else
    cpp_emit_and_advance 2 hl_comment_delim ;;
    when (2 <? n) (cpp_emit_and_advance (n - 2) hl_comment) ;;
    set_fresh_line true ;; ret true.

(** cpp.cpp:692-708 (expect_block_comment) *)
Definition cpp_expect_block_comment : M cpp_loc bool :=
  let! r := cpp_remainder in
  let b := cpp_match_block_comment r in
  if en_length b =? 0 then ret false
  else
    let! i := get_idx in
    let term := if en_terminated b then 2 else 0 in
    cpp_emit i 2 hl_comment_delim ;;
    let content := en_length b - 2 - term in
    when (negb (content =? 0)) (cpp_emit (i + 2) content hl_comment) ;;
    when (en_terminated b) (cpp_emit (i + en_length b - 2) 2 hl_comment_delim) ;;
    cpp_advance (en_length b) ;; ret true.

(** cpp.cpp:992-1007 (expect_identifier_or_keyword) *)
Definition cpp_expect_identifier_or_keyword (is_cpp strict : bool) (fallback : str -> N)
  : M cpp_loc bool :=
  let! r := cpp_remainder in
  let! n := lift (cpp_match_identifier r) in
  if n =? 0 then ret false
  else
    let id := firstn n r in
    let h := match cpp_token_type_by_code id with
             | Some (h, f) => if feature_in_mask is_cpp strict f then h else fallback id
             | None => fallback id
             end in
    cpp_emit_and_advance n h ;; set_fresh_line false ;; ret true.

(** cpp.cpp:870-875 (consume_string_suffix) *)
Definition cpp_consume_string_suffix (is_cpp strict : bool) : M cpp_loc unit :=
  let! _ := cpp_expect_identifier_or_keyword is_cpp strict (fun _ => hl_string_decor) in ret tt.

(** cpp.cpp:772-779 (flush_chars) *)
Definition cpp_flush_chars (chars : nat) : M cpp_loc unit :=
  when (negb (chars =? 0))
    (let! i := get_idx in
     checkM (chars <=? i) FDebugAssert ;; cpp_emit (i - chars) chars hl_string).

(** cpp.cpp:770-823 (consume_char_sequence_and_suffix): one iteration, with chars_length *)
Definition cpp_char_sequence_body (is_cpp strict : bool) (quote : N) (chars : nat)
  : M cpp_loc (nat + unit) :=
  let! e := eof in
  if e then cpp_flush_chars chars ;; set_fresh_line false ;; ret (inr tt)
  else
    let! s := get_rem in
    let! c := at_ s 0 in
    if (c =? quote)%N then
      cpp_flush_chars chars ;; cpp_emit_and_advance 1 hl_string_delim ;;
      cpp_consume_string_suffix is_cpp strict ;; set_fresh_line false ;; ret (inr tt)
    else if (c =? ch "\")%N then
      let! r := cpp_remainder in
      let! esc := lift (cpp_match_escape_sequence r) in
      if negb (ce_length esc =? 0) then
        if ce_newline esc then cpp_advance (ce_length esc) ;; ret (inl (chars + ce_length esc))
        else
          cpp_flush_chars chars ;;
          cpp_emit_and_advance (ce_length esc) (if ce_erroneous esc then hl_error else hl_string_escape) ;;
          ret (inl 0)
      else cpp_flush_chars chars ;; cpp_emit_and_advance 1 hl_error ;; ret (inl 0)
    else if mem c [13; 10]%N then cpp_flush_chars chars ;; set_fresh_line true ;; ret (inr tt)
    else
      (* utf8::sequence_length(c, 1): unicode.hpp:145-152, the fallback for an invalid lead byte *)
      let n := if sequence_length c =? 0 then 1 else sequence_length c in
      cpp_advance n ;; ret (inl (chars + n)).
Definition cpp_consume_char_sequence_and_suffix (is_cpp strict : bool) (quote : N) : M cpp_loc unit :=
  hloop 1 (cpp_char_sequence_body is_cpp strict quote) 0.

(** cpp.cpp:846-850 (match_raw_terminator) *)
Definition match_raw_terminator (d s : str) : bool :=
  starts_with_ch s (ch ")") && starts_with (skipn 1 s) d
  && starts_with_ch (skipn (1 + length d) s) 34.
(** cpp.cpp:852-864: the loop over raw_length, as a search *)
Fixpoint find_raw_terminator (d s : str) : option nat :=
  match s with
  | [] => None
  | _ :: s' => if match_raw_terminator d s then Some 0 else option_map S (find_raw_terminator d s')
  end.

(** cpp.cpp:825-868 (consume_raw_string_and_suffix), 461-464 (match_d_char_sequence) *)
Definition cpp_consume_raw_string_and_suffix (is_cpp strict : bool) : M cpp_loc unit :=
  let! r := cpp_remainder in
  checkM (starts_with_ch r 34) FDebugAssert ;;
  set_fresh_line false ;;
  let n := length_if (skipn 1 r) is_cpp_d_char in
  let d := substr r 1 n in
  if length r <=? n + 1 then cpp_emit_and_advance (n + 1) hl_error
  else
    let! c := at_ r (n + 1) in
    if negb (c =? ch "(")%N then cpp_emit_and_advance (n + 2) hl_error
    else
      let! r := lift (M_Utf8.remove_prefix r (n + 2)) in
      cpp_emit_and_advance (n + 2) hl_string_delim ;;
      match find_raw_terminator d r with
      | Some raw =>
        when (negb (raw =? 0)) (cpp_emit_and_advance raw hl_string) ;;
        cpp_emit_and_advance (n + 2) hl_string_delim ;;
        cpp_consume_string_suffix is_cpp strict
      | None => when (negb (length r =? 0)) (cpp_emit_and_advance (length r) hl_string)
      end.

(** cpp.cpp:710-734 (expect_character_literal) *)
Definition cpp_expect_character_literal (is_cpp strict : bool) : M cpp_loc bool :=
  let! r := cpp_remainder in
  let! n := lift (cpp_match_identifier r) in
  if negb (starts_with_ch (skipn n r) 39) then ret false
  else
    when (negb (n =? 0))
      (let prefix := firstn n r in
       cpp_emit_and_advance n
         (if existsb (str_eqb prefix) [bs "u8"; bs "u"; bs "U"; bs "L"] then hl_string_decor else hl_error)) ;;
    let! s := get_rem in
    checkM (starts_with_ch s 39) FDebugAssert ;;
    cpp_emit_and_advance 1 hl_string_delim ;;
    cpp_consume_char_sequence_and_suffix is_cpp strict 39 ;; ret true.

(** cpp.cpp:736-768 (expect_string_literal) *)
Definition cpp_expect_string_literal (is_cpp strict : bool) : M cpp_loc bool :=
  let! r := cpp_remainder in
  let! n := lift (cpp_match_identifier r) in
  if negb (starts_with_ch (skipn n r) 34) then ret false
  else
    let prefix := firstn n r in
    when (negb (n =? 0))
      (cpp_emit_and_advance n
         (if str_eqb prefix (bs "operator") then hl_keyword
          else if is_string_literal_prefix prefix then hl_string_decor else hl_error)) ;;
    let is_raw := negb (n =? 0) && ends_with prefix (bs "R") in
    let! s := get_rem in
    checkM (starts_with_ch s 34) FDebugAssert ;;
    (if is_raw then cpp_consume_raw_string_and_suffix is_cpp strict
     else
       cpp_emit_and_advance 1 hl_string_delim ;;
       cpp_consume_char_sequence_and_suffix is_cpp strict 34) ;;
    ret true.

(** cpp.cpp:905-911 (flush_digits) *)
Definition cpp_flush_digits (digits : nat) : M cpp_loc unit :=
  when (negb (digits =? 0)) (cpp_emit_and_advance digits hl_number).

(** cpp.cpp:913-990: the loop of highlight_pp_number *)
Fixpoint cpp_pp_number_loop (is_hex : bool) (p : str) (digits : nat) : M cpp_loc unit :=
  match p with
  | [] => cpp_flush_digits digits
  | c :: p' =>
    let exponent := match p' with d :: _ => mem d (bs "-+") || is_ascii_digit d | [] => false end in
    if (c =? 39)%N then
      cpp_flush_digits digits ;; cpp_emit_and_advance 1 hl_number_delim ;;
      cpp_pp_number_loop is_hex p' 0
    else if mem c (bs "eE") then
      if is_hex then cpp_pp_number_loop is_hex p' (digits + 1)
      else
        cpp_flush_digits digits ;;
        if exponent then cpp_emit_and_advance 1 hl_number_delim ;; cpp_pp_number_loop is_hex p' 0
        else cpp_emit_and_advance (length p) hl_number_decor
    else if mem c (bs "pP") then
      cpp_flush_digits digits ;;
      if exponent && is_hex then
        cpp_emit_and_advance 1 hl_number_delim ;; cpp_pp_number_loop is_hex p' 0
      else cpp_emit_and_advance (length p) hl_number_decor
    else if (c =? ch ".")%N then
      cpp_flush_digits digits ;; cpp_emit_and_advance 1 hl_number_delim ;;
      cpp_pp_number_loop is_hex p' 0
    else if mem c (bs "+-0123456789") then cpp_pp_number_loop is_hex p' (digits + 1)
    else if is_hex && is_ascii_hex_digit c then cpp_pp_number_loop is_hex p' (digits + 1)
    else cpp_flush_digits digits ;; cpp_emit_and_advance (length p) hl_number_decor
  end.
(** cpp.cpp:893-903 (highlight_pp_number) *)
Definition cpp_highlight_pp_number (p : str) : M cpp_loc unit :=
  checkM (match p with [] => false | _ => true end) FAssert ;;
  let is_hex := starts_with p (bs "0x") || starts_with p (bs "0X") in
  let is_binary := starts_with p (bs "0b") || starts_with p (bs "0B") in
  if is_hex || is_binary then
    cpp_emit_and_advance 2 hl_number_decor ;; cpp_pp_number_loop is_hex (skipn 2 p) 0
  else cpp_pp_number_loop is_hex p 0.

(** cpp.cpp:877-891 (expect_pp_number) *)
Definition cpp_expect_pp_number : M cpp_loc bool :=
  let! r := cpp_remainder in
  let! n := lift (match_pp_number r) in
  if n =? 0 then ret false
  else
    let! old := get_idx in
    cpp_highlight_pp_number (firstn n r) ;;
    let! i := get_idx in
    checkM (old + n =? i) FDebugAssert ;;
    set_fresh_line false ;; ret true.

Definition is_pound (op : option str) : bool :=
  match op with Some t => str_eqb t (bs "#") || str_eqb t (bs "%:") | None => false end.

(** cpp.cpp:1009-1021 (expect_preprocessing_op_or_punc) *)
Definition cpp_expect_preprocessing_op_or_punc (is_cpp : bool) : M cpp_loc bool :=
  let! r := cpp_remainder in
  match match_preprocessing_op_or_punc is_cpp r with
  | None => ret false
  | Some t =>
    let! l := get_loc in
    checkM (negb (cl_fresh_line l) || negb (is_pound (Some t))) FAssert ;;
    cpp_emit_and_advance (cpp_token_type_length t) (cpp_token_type_highlight t) ;;
    set_fresh_line false ;; ret true
  end.

(** cpp.cpp:1023-1075 (expect_directive) *)
Definition cpp_expect_directive (is_cpp : bool) : M cpp_loc bool :=
  let! l := get_loc in
  if negb (cl_fresh_line l) then ret false
  else
    let! r := cpp_remainder in
    let op := match_preprocessing_op_or_punc is_cpp r in
    if negb (is_pound op) then ret false
    else
      cpp_emit_and_advance (match op with Some t => cpp_token_type_length t | None => 0 end)
        hl_name_macro_delim ;;
      let! r := cpp_remainder in
      cpp_advance (cpp_match_whitespace r) ;;
      let! r := cpp_remainder in
      let! n := lift (cpp_match_identifier r) in
      if n =? 0 then ret true
      else
        cpp_emit_and_advance n hl_name_macro ;;
        if str_eqb (firstn n r) (bs "include") then
          let! r := cpp_remainder in
          cpp_advance (cpp_match_whitespace r) ;;
          let! r := cpp_remainder in
          if starts_with_ch r (ch "<") then
            cpp_emit_and_advance 1 hl_string_delim ;;
            let! r := cpp_remainder in
            match find_first_of r [62; 13; 10]%N 0 with
            | None => when (negb (length r =? 0)) (cpp_emit_and_advance (length r) hl_string)
            | Some e =>
              let! c := at_ r e in
              when (negb (e =? 0)) (cpp_emit_and_advance e hl_string) ;;
              when (c =? ch ">")%N (cpp_emit_and_advance 1 hl_string_delim)
            end ;;
            ret true
          else ret true
        else ret true.

(** cpp.cpp:1077-1089 (expect_non_whitespace) *)
Definition cpp_expect_non_whitespace : M cpp_loc bool :=
  let! r := cpp_remainder in
  let n := cpp_match_non_whitespace r in
  if n =? 0 then ret false
  else set_fresh_line false ;; cpp_advance n ;; ret true.

(** Short-circuit disjunction of calls. *)
Definition or_else {S} (m k : M S bool) : M S bool := let! b := m in if b then ret true else k.

(** cpp.cpp:650-667 (operator()): one iteration *)
Definition cpp_body (is_cpp strict : bool) : M cpp_loc unit :=
  let! any_matched :=
    or_else cpp_expect_whitespace
    (or_else cpp_expect_line_comment
    (or_else cpp_expect_block_comment
    (or_else (cpp_expect_directive is_cpp)
    (or_else (cpp_expect_string_literal is_cpp strict)
    (or_else (cpp_expect_character_literal is_cpp strict)
    (or_else cpp_expect_pp_number
    (or_else (cpp_expect_identifier_or_keyword is_cpp strict usual_fallback_highlight)
    (or_else (cpp_expect_preprocessing_op_or_punc is_cpp)
    cpp_expect_non_whitespace)))))))) in
  checkM any_matched FAssert.

(** cpp.cpp:1094-1112 (highlight_c, highlight_cpp) *)
Definition highlight_c_or_cpp (is_cpp : bool) : highlighter := fun src strict =>
  run (mk_cpp_loc true (length src)) (while_rem (cpp_body is_cpp strict) ;; ret true) src.
Definition highlight_c : highlighter := highlight_c_or_cpp false.
Definition highlight_cpp : highlighter := highlight_c_or_cpp true.
