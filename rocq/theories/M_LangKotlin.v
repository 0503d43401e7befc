(** * Model of Kotlin highlighting (src/main/cpp/lang/kotlin.cpp, include/ulight/impl/lang/kotlin.hpp). *)
From Coq Require Import List NArith ZArith Bool Arith.
From Verif Require Import M_Base M_Emit M_Types M_Chars M_Parse M_Api M_Table M_LangCpp M_Utf8 M_Highlighter M_TokenLoop M_Json M_LangPython.
Import ListNotations.

(** lang/kotlin.hpp:14-139 (ULIGHT_KOTLIN_TOKEN_ENUM_DATA); the entry of super has the code "super@", too *)
Definition kotlin_tokens : list (str * N) := [
  (bs "!", hl_symbol_op); (bs "!=", hl_symbol_op); (bs "!in", hl_keyword); (bs "!is", hl_keyword);
  ([34]%N, hl_string_delim); ([34; 34; 34]%N, hl_string_delim); (bs "#", hl_symbol_op); (bs "%", hl_symbol_op);
  (bs "%=", hl_symbol_op); (bs "&&", hl_symbol_op); (bs "(", hl_symbol_parens); (bs ")", hl_symbol_parens);
  (bs "*", hl_symbol_op); (bs "*=", hl_symbol_op); (bs "+", hl_symbol_op); (bs "++", hl_symbol_op);
  (bs "+=", hl_symbol_op); (bs ",", hl_symbol_punc); (bs "-", hl_symbol_op); (bs "--", hl_symbol_op);
  (bs "-=", hl_symbol_op); (bs "->", hl_symbol_punc); (bs ".", hl_symbol_punc); (bs "..", hl_symbol_punc);
  (bs "...", hl_symbol_punc); (bs "/", hl_symbol_op); (bs "/=", hl_symbol_op); (bs ":", hl_symbol_punc);
  (bs "::", hl_symbol_punc); (bs ";", hl_symbol_punc); (bs ";;", hl_symbol_punc); (bs "<", hl_symbol_op);
  (bs "<=", hl_symbol_op); (bs "=", hl_symbol_punc); (bs "==", hl_symbol_op); (bs "===", hl_symbol_op);
  (bs "=>", hl_symbol_punc); (bs ">", hl_symbol_op); (bs ">=", hl_symbol_op); (bs "?", hl_symbol_op);
  (bs "?.", hl_symbol_op); (bs "?:", hl_symbol_op); (bs "@", hl_symbol_op); (bs "[", hl_symbol_square);
  (bs "]", hl_symbol_square); (bs "abstract", hl_keyword); (bs "actual", hl_keyword); (bs "annotation", hl_keyword);
  (bs "as", hl_keyword); (bs "as?", hl_keyword); (bs "assert", hl_keyword); (bs "async", hl_keyword);
  (bs "await", hl_keyword_control); (bs "break", hl_keyword_control); (bs "break@", hl_keyword_control);
  (bs "by", hl_keyword); (bs "catch", hl_keyword_control); (bs "class", hl_keyword); (bs "companion", hl_keyword);
  (bs "const", hl_keyword); (bs "constructor", hl_keyword); (bs "continue", hl_keyword_control);
  (bs "continue@", hl_keyword_control); (bs "data", hl_keyword); (bs "delegate", hl_keyword);
  (bs "do", hl_keyword_control); (bs "dynamic", hl_keyword); (bs "else", hl_keyword_control); (bs "enum", hl_keyword);
  (bs "expect", hl_keyword); (bs "false", hl_bool); (bs "field", hl_keyword); (bs "file", hl_keyword);
  (bs "final", hl_keyword); (bs "finally", hl_keyword_control); (bs "for", hl_keyword_control); (bs "fun", hl_keyword);
  (bs "get", hl_keyword); (bs "if", hl_keyword_control); (bs "import", hl_keyword); (bs "in", hl_keyword);
  (bs "init", hl_keyword); (bs "inline", hl_keyword); (bs "interface", hl_keyword); (bs "internal", hl_keyword);
  (bs "is", hl_keyword); (bs "lateinit", hl_keyword); (bs "noinline", hl_keyword); (bs "null", hl_null);
  (bs "object", hl_keyword); (bs "open", hl_keyword); (bs "operator", hl_keyword); (bs "out", hl_keyword);
  (bs "package", hl_keyword); (bs "param", hl_keyword); (bs "private", hl_keyword);
  (bs "property", hl_keyword_control); (bs "protected", hl_keyword); (bs "public", hl_keyword);
  (bs "receiver", hl_keyword); (bs "reified", hl_keyword); (bs "return", hl_keyword_control);
  (bs "return@", hl_keyword_control); (bs "sealed", hl_keyword); (bs "set", hl_keyword); (bs "setparam", hl_keyword);
  (bs "super@", hl_keyword_this); (bs "super@", hl_keyword_this); (bs "suspend", hl_keyword);
  (bs "this", hl_keyword_this); (bs "this@", hl_keyword_this); (bs "throw", hl_keyword_control); (bs "true", hl_bool);
  (bs "try", hl_keyword_control); (bs "typealias", hl_keyword); (bs "typeof", hl_keyword); (bs "val", hl_keyword);
  (bs "value", hl_keyword); (bs "var", hl_keyword); (bs "vararg", hl_keyword); (bs "when", hl_keyword_control);
  (bs "while", hl_keyword_control); (bs "{", hl_symbol_brace); (bs "||", hl_symbol_op); (bs "}", hl_symbol_brace)].

(** kotlin.cpp:36-45 (token_type_by_code) with 53-57 (token_type_highlight) *)
Definition kotlin_token_by_code (s : str) : option N := table_find kotlin_tokens s.

(** kotlin.cpp:61-83 (match_number): the options *)
Definition kotlin_number_options : number_options :=
  mk_number_options false false
    [mk_prefix (bs "0b") 2 false; mk_prefix (bs "0B") 2 false; mk_prefix (bs "0x") 16 false; mk_prefix (bs "0X") 16 false]
    (map (fun e => (e, 10%Z)) [bs "E+"; bs "E-"; bs "E"; bs "e+"; bs "e-"; bs "e"])
    [bs "F"; bs "L"; bs "U"; bs "UL"; bs "f"; bs "l"; bs "u"; bs "uL"] None 10 10 95 false false.
(** kotlin.cpp:84-91 (match_number): the corrections of the result *)
Definition kotlin_match_number (s : str) : res number_result :=
  let* r := match_common_number s kotlin_number_options in
  let err := nr_erroneous r || (negb (nr_fractional r =? 0) || negb (nr_radix_point r =? 0)) && negb (nr_prefix r =? 0) in
  if negb (nr_radix_point r =? 0) && (nr_fractional r =? 0) && (nr_length r <? length s) && (nth (nr_length r) s 0 =? ch ".")%N
  then Ok (mk_number (nr_length r - 1) (nr_sign r) (nr_prefix r) (nr_integer r) 0 (nr_fractional r) (nr_exponent_sep r) (nr_exponent_digits r) (nr_suffix r) err)
  else Ok (mk_number (nr_length r) (nr_sign r) (nr_prefix r) (nr_integer r) (nr_radix_point r) (nr_fractional r) (nr_exponent_sep r) (nr_exponent_digits r) (nr_suffix r) err).

(** kotlin.cpp:94-154 (match_symbol); the result is the code of the token. In the case of '=' the code asks whether the
    text starts with ">=", which never holds. *)
Definition kotlin_match_symbol (s : str) : option str :=
  let first := first_of s in
  match s with
  | [] => None
  | c :: _ =>
    let one := Some [c] in
    if (c =? ch "!")%N then first [bs "!="; bs "!in"; bs "!is"] one
    else if (c =? 34)%N then first [[34; 34; 34]%N] one
    else if (c =? ch "%")%N then first [bs "%="] one
    else if (c =? ch "&")%N then first [bs "&&"] None
    else if (c =? ch "*")%N then first [bs "*="] one
    else if (c =? ch "+")%N then first [bs "++"; bs "+="] one
    else if (c =? ch "-")%N then first [bs "--"; bs "-="; bs "->"] one
    else if (c =? ch ".")%N then first [bs "..."; bs ".."] one
    else if (c =? ch "/")%N then first [bs "/="] one
    else if (c =? ch ":")%N then first [bs "::"] one
    else if (c =? ch ";")%N then first [bs ";;"] one
    else if (c =? ch "<")%N then first [bs "<="] one
    else if (c =? ch "=")%N then first [bs "==="; bs "=="] (if starts_with s (bs ">=") then Some (bs "=>") else one)
    else if (c =? ch ">")%N then first [bs ">="] one
    else if (c =? ch "?")%N then first [bs "?."; bs "?:"] one
    else if (c =? ch "a")%N then first [bs "as?"] None
    else if (c =? ch "b")%N then first [bs "break@"] None
    else if (c =? ch "c")%N then first [bs "continue@"] None
    else if (c =? ch "r")%N then first [bs "return@"] None
    else if (c =? ch "s")%N then first [bs "super@"] None
    else if (c =? ch "t")%N then first [bs "this@"] None
    else if (c =? ch "|")%N then first [bs "||"] None
    else if mem c (bs "#(),@[]{}") then one
    else None
  end.

(** kotlin.cpp:165-188 (match_escape_sequence) *)
Definition kotlin_match_escape_sequence (s : str) : res escape :=
  match s with
  | b :: c :: _ =>
    if negb (b =? 92)%N then Ok (mk_escape 1 true)
    else if (c =? ch "u")%N then match_common_escape_at hex_4 s 2
    else if mem c (34 :: bs "tbrn'\$")%N then Ok (mk_escape 2 false)
    else Ok (mk_escape 1 true)
  | _ => Ok (mk_escape (Nat.min (length s) 1) true)
  end.

(** kotlin.cpp:278-306 (expect_line_comment, expect_block_comment): the code of json.cpp, with the same matchers of
    js.cpp (kotlin.cpp:161-163) *)
Definition kotlin_expect_line_comment : M unit bool := json_expect_line_comment.
Definition kotlin_expect_block_comment : M unit bool := json_expect_block_comment.

(** kotlin.cpp:308-338 (expect_backtick_identifier). Simplified: the loop is the length of the longest prefix
    without backtick, CR and LF. *)
Definition kotlin_expect_backtick_identifier : M unit bool :=
  let! r := get_rem in
  if negb (starts_with_ch r 96) then ret false
  else
    let len := 1 + length_if (skipn 1 r) (fun c => negb (mem c [96; 13; 10]%N)) in
    if starts_with_ch (skipn len r) 96 then
      if len =? 1 then emit_and_advance 2 hl_error ;; ret true
      else
        emit_and_advance 1 hl_name_delim ;;
        emit_and_advance (len - 1) hl_name ;;
        emit_and_advance 1 hl_name_delim ;;
        ret true
    else emit_and_advance len hl_error ;; ret true.

(** kotlin.cpp:340-349 (expect_identifier) *)
Definition kotlin_expect_identifier : M unit bool :=
  let! r := get_rem in
  let! len := lift (cpp_match_identifier r) in
  if len =? 0 then ret false
  else
    emit_and_advance len (match kotlin_token_by_code (firstn len r) with Some h => h | None => hl_name end) ;;
    ret true.

(** kotlin.cpp:353-375: the kinds of literals, as terminator, is_multiline and is_character *)
Record kotlin_kind := mk_kind { kk_terminator : str; kk_multiline : bool; kk_character : bool }.
Definition kotlin_character : kotlin_kind := mk_kind [39]%N false true.
Definition kotlin_line : kotlin_kind := mk_kind [34]%N false false.
Definition kotlin_multiline : kotlin_kind := mk_kind [34; 34; 34]%N true false.

(** kotlin.cpp:379-461: one round of the loop of expect_string_or_character. [nested] is the call of
    consume_brace_balanced_tokens(Context::string). *)
Definition kotlin_string_body (nested : M unit unit) (k : kotlin_kind) (len : nat) : M unit (nat + unit) :=
  let flush := when (negb (len =? 0)) (emit_and_advance len hl_string) in
  let! r := get_rem in
  if negb (len <? length r) then flush ;; ret (inr tt)
  else
    let! t := substr_from r len in
    if starts_with t (kk_terminator k) then
      flush ;;
      (if kk_multiline k then
        let! r := get_rem in
        let quotes := length_if r (fun c => (c =? 34)%N) in
        checkM (3 <=? quotes) FDebugAssert ;;
        when (3 <? quotes) (emit_and_advance_c true (quotes - 3) hl_string) ;;
        emit_and_advance 3 hl_string_delim
      else emit_and_advance 1 hl_string_delim) ;;
      ret (inr tt)
    else
      let! c := at_ r len in
      if negb (kk_multiline k) && mem c [13; 10]%N then flush ;; ret (inr tt)
      else if negb (kk_character k) && (c =? ch "$")%N then
        flush ;;
        let! r := get_rem in
        if starts_with r (bs "${") then
          emit_and_advance 2 hl_string_interpolation_delim ;;
          nested ;;
          let! e := eof in
          if e then ret (inr tt)
          else
            let! r := get_rem in
            checkM (starts_with_ch r (ch "}")) FAssert ;;
            emit_and_advance 1 hl_string_interpolation_delim ;;
            ret (inl 0)
        else
          let! t := substr_from r 1 in
          let! id := lift (cpp_match_identifier t) in
          if negb (id =? 0) then emit_and_advance (1 + id) hl_string_interpolation ;; ret (inl 0)
          else emit_and_advance 1 hl_error ;; ret (inl 0)
      else if negb (kk_multiline k) && (c =? 92)%N then
        flush ;;
        let! r := get_rem in
        let! e := lift (kotlin_match_escape_sequence r) in
        checkM (negb (es_length e =? 0)) FAssert ;;
        emit_and_advance (es_length e) (if es_erroneous e then hl_error else hl_string_escape) ;;
        ret (inl 0)
      else ret (inl (len + 1)).
(** kotlin.cpp:377-461: a literal of the kind [k] *)
Definition kotlin_literal (nested : M unit unit) (k : kotlin_kind) : M unit bool :=
  let! r := get_rem in
  checkM (starts_with r (kk_terminator k)) FDebugAssert ;;
  emit_and_advance (length (kk_terminator k)) hl_string_delim ;;
  hloop 1 (kotlin_string_body nested k) 0 ;;
  ret true.
(** kotlin.cpp:351-461 (expect_string_or_character) *)
Definition kotlin_expect_string (nested : M unit unit) : M unit bool :=
  let! r := get_rem in
  if starts_with_ch r 39 then kotlin_literal nested kotlin_character
  else if starts_with_ch r 34 then
    if starts_with r [34; 34; 34]%N then kotlin_literal nested kotlin_multiline else kotlin_literal nested kotlin_line
  else ret false.

(** kotlin.cpp:463-470 (expect_number) *)
Definition kotlin_expect_number : M unit bool :=
  let! r := get_rem in
  let! n := lift (kotlin_match_number r) in
  if nr_length n =? 0 then ret false else highlight_number_sep n 95 ;; ret true.

(** kotlin.cpp:472-485 (consume_dotted_annotation_name) *)
Definition kotlin_dotted_body (_ : unit) : M unit (unit + unit) :=
  let! r := get_rem in
  let! len := lift (cpp_match_identifier r) in
  if len =? 0 then ret (inr tt)
  else
    emit_and_advance len hl_name_attr ;;
    let! r := get_rem in
    if negb (starts_with_ch r (ch ".")) then ret (inr tt)
    else emit_and_advance 1 hl_name_attr_delim ;; ret (inl tt).
Definition kotlin_dotted_name : M unit unit := hloop 1 kotlin_dotted_body tt.

(** kotlin.cpp:272-276 (consume_whitespace) *)
Definition kotlin_whitespace : M unit unit := let! r := get_rem in advance (length_if r is_python_whitespace).

(** kotlin.cpp:487-506 (consume_multi_annotation) *)
Definition kotlin_multi_body (_ : unit) : M unit (unit + unit) :=
  let! r := get_rem in
  if (length r =? 0) || starts_with_ch r (ch "]") then ret (inr tt)
  else
    kotlin_whitespace ;;
    let! r := get_rem in
    if (length r =? 0) || starts_with_ch r (ch "]") then ret (inr tt)
    else
      let! len := lift (cpp_match_identifier r) in
      if negb (len =? 0) then kotlin_dotted_name ;; ret (inl tt)
      else emit_and_advance 1 hl_error ;; ret (inl tt).
Definition kotlin_multi_annotation : M unit unit :=
  let! r := get_rem in
  checkM (starts_with_ch r (ch "[")) FAssert ;;
  emit_and_advance 1 hl_symbol_square ;;
  hloop 1 kotlin_multi_body tt ;;
  let! r := get_rem in
  when (starts_with_ch r (ch "]")) (emit_and_advance 1 hl_symbol_square).

(** kotlin.cpp:508-546 (expect_annotation) *)
Definition kotlin_expect_annotation : M unit bool :=
  let! r := get_rem in
  if negb (starts_with_ch r (ch "@")) then ret false
  else if starts_with_ch (skipn 1 r) (ch "[") then
    emit_and_advance 1 hl_name_attr_delim ;; kotlin_multi_annotation ;; ret true
  else
    let! n := lift (cpp_match_identifier (skipn 1 r)) in
    if n =? 0 then ret false
    else
      emit_and_advance 1 hl_name_attr_delim ;;
      kotlin_dotted_name ;;
      let! r := get_rem in
      (if starts_with_ch r (ch ":") then
        emit_and_advance 1 hl_name_attr_delim ;;
        let! r := get_rem in
        if starts_with_ch r (ch "[") then kotlin_multi_annotation else kotlin_dotted_name
      else ret tt) ;;
      ret true.

(** kotlin.cpp:548-555 (expect_symbol); the highlight is the entry of the token in the table *)
Definition kotlin_expect_symbol : M unit bool :=
  let! r := get_rem in
  match kotlin_match_symbol r with
  | None => ret false
  | Some t =>
    match kotlin_token_by_code t with
    | Some h => emit_and_advance (length t) h ;; ret true
    | None => fail FUB
    end
  end.

(** kotlin.cpp:243-249, 253-264: the end of a round of consume_brace_balanced_tokens, with expect_token *)
Definition kotlin_token (nested : M unit unit) : M unit unit :=
  let! b := kotlin_expect_line_comment in if b then ret tt else
  let! b := kotlin_expect_block_comment in if b then ret tt else
  let! b := kotlin_expect_string nested in if b then ret tt else
  let! b := kotlin_expect_number in if b then ret tt else
  let! b := kotlin_expect_annotation in if b then ret tt else
  let! b := kotlin_expect_symbol in if b then ret tt else
  let! b := kotlin_expect_backtick_identifier in if b then ret tt else
  let! b := kotlin_expect_identifier in if b then ret tt else
  emit_error_code_point.

(** kotlin.cpp:216-251: one round of consume_brace_balanced_tokens with the current brace_level *)
Definition kotlin_round (nested : M unit unit) (in_string : bool) (level : nat) : M unit (nat + unit) :=
  kotlin_whitespace ;;
  let! r := get_rem in
  match r with
  | [] => ret (inr tt)
  | c :: _ =>
    if (c =? ch "{")%N then emit_and_advance 1 hl_symbol_brace ;; ret (inl (level + 1))
    else if (c =? ch "}")%N then
      if level =? 0 then
        if in_string then ret (inr tt) else emit_and_advance 1 hl_error ;; ret (inl 0)
      else emit_and_advance 1 hl_symbol_brace ;; ret (inl (level - 1))
    else kotlin_token nested ;; ret (inl level)
  end.
(** kotlin.cpp:216-251 (consume_brace_balanced_tokens). The fuel bounds the depth of the recursion; the C++ call
    stack is not modelled. *)
Fixpoint kotlin_tokens_loop (fuel : nat) (in_string : bool) : M unit unit :=
  match fuel with
  | 0 => fail FFuel
  | S fuel => hloop 1 (kotlin_round (kotlin_tokens_loop fuel true) in_string) 0
  end.

(** kotlin.cpp:204-208 (operator()), 562-570 (highlight_kotlin). Each nested call consumes two characters first, so
    one more than the length of the source is enough fuel. *)
Definition highlight_kotlin : highlighter := fun src _ =>
  run tt (kotlin_tokens_loop (length src + 1) false ;; ret true) src.
