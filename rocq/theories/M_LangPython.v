(** * Model of Python highlighting (src/main/cpp/lang/python.cpp, include/ulight/impl/lang/python.hpp). *)
From Coq Require Import List NArith ZArith Bool Arith.
From Verif Require Import M_Base M_Emit M_Types M_Chars M_Parse M_Api M_Table M_LangBash M_LangCpp M_Utf8 M_Highlighter M_TokenLoop.
Import ListNotations.

(** lang/python.hpp:15 (is_python_whitespace), 17 (is_python_newline) *)
Definition is_python_whitespace (c : N) : bool := mem c [32; 9; 12; 10; 13]%N.
Definition is_python_newline (c : N) : bool := mem c [10; 13]%N.

(** lang/python.hpp:20-106 (ULIGHT_PYTHON_TOKEN_ENUM_DATA) *)
Definition python_tokens : list (str * N) := [
  (bs "!=", hl_symbol_op); (bs "%", hl_symbol_op); (bs "%=", hl_symbol_op); (bs "&", hl_symbol_op);
  (bs "&=", hl_symbol_op); (bs "(", hl_symbol_parens); (bs ")", hl_symbol_parens); (bs "*", hl_symbol_op);
  (bs "**", hl_symbol_op); (bs "**=", hl_symbol_op); (bs "*=", hl_symbol_op); (bs "+", hl_symbol_op);
  (bs "+=", hl_symbol_op); (bs ",", hl_symbol_punc); (bs "-", hl_symbol_op); (bs "-=", hl_symbol_op);
  (bs "->", hl_symbol_punc); (bs ".", hl_symbol_punc); (bs "...", hl_symbol_punc); (bs "/", hl_symbol_op);
  (bs "//", hl_symbol_op); (bs "//=", hl_symbol_op); (bs "/=", hl_symbol_op); (bs ":", hl_symbol_punc);
  (bs ":=", hl_symbol_op); (bs ";", hl_symbol_punc); (bs "<", hl_symbol_op); (bs "<<", hl_symbol_op);
  (bs "<<=", hl_symbol_op); (bs "<=", hl_symbol_op); (bs "=", hl_symbol_punc); (bs "==", hl_symbol_op);
  (bs ">", hl_symbol_op); (bs ">=", hl_symbol_op); (bs ">>", hl_symbol_op); (bs ">>=", hl_symbol_op);
  (bs ">>>", hl_symbol_punc); (bs "@", hl_symbol_op); (bs "@=", hl_symbol_op); (bs "False", hl_bool);
  (bs "None", hl_null); (bs "True", hl_bool); (bs "[", hl_symbol_square); (bs "\", hl_string_escape);
  (bs "]", hl_symbol_square); (bs "^", hl_symbol_op); (bs "^=", hl_symbol_op); (bs "and", hl_keyword);
  (bs "as", hl_keyword); (bs "assert", hl_keyword); (bs "async", hl_keyword);
  (bs "await", hl_keyword_control); (bs "break", hl_keyword_control); (bs "case", hl_keyword_control);
  (bs "class", hl_keyword); (bs "continue", hl_keyword_control); (bs "def", hl_keyword);
  (bs "del", hl_keyword); (bs "elif", hl_keyword_control); (bs "else", hl_keyword_control);
  (bs "except", hl_keyword_control); (bs "finally", hl_keyword_control); (bs "for", hl_keyword_control);
  (bs "from", hl_keyword); (bs "global", hl_keyword); (bs "if", hl_keyword_control);
  (bs "import", hl_keyword); (bs "in", hl_keyword); (bs "is", hl_keyword); (bs "lambda", hl_keyword);
  (bs "match", hl_keyword_control); (bs "nonlocal", hl_keyword); (bs "not", hl_keyword);
  (bs "or", hl_keyword); (bs "pass", hl_keyword_control); (bs "raise", hl_keyword_control);
  (bs "return", hl_keyword_control); (bs "try", hl_keyword_control); (bs "while", hl_keyword_control);
  (bs "with", hl_keyword); (bs "yield", hl_keyword_control); (bs "{", hl_symbol_brace);
  (bs "|", hl_symbol_op); (bs "|=", hl_symbol_op); (bs "}", hl_symbol_brace); (bs "~", hl_symbol_op)].
(** python.cpp:42-51 (token_type_by_code) with 59-63 (token_type_highlight) *)
Definition python_token_by_code (s : str) : option N := table_find python_tokens s.

(** lang/python.hpp:114-134 (String_Prefix, string_prefix_is_raw, string_prefix_is_byte) *)
Inductive py_prefix := py_unicode | py_raw | py_byte | py_raw_byte | py_formatted | py_raw_formatted.
Definition py_is_raw (p : py_prefix) : bool :=
  match p with py_raw | py_raw_byte | py_raw_formatted => true | _ => false end.
Definition py_is_byte (p : py_prefix) : bool :=
  match p with py_byte | py_raw_byte => true | _ => false end.
(** python.cpp:88-111 (prefixes) *)
Definition py_prefixes : list (str * py_prefix) := [
  (bs "B", py_byte); (bs "BR", py_raw_byte); (bs "Br", py_raw_byte); (bs "F", py_formatted);
  (bs "FR", py_raw_formatted); (bs "Fr", py_raw_formatted); (bs "R", py_raw); (bs "RB", py_raw_byte);
  (bs "RF", py_raw_formatted); (bs "Rb", py_raw_byte); (bs "U", py_unicode); (bs "b", py_byte);
  (bs "bR", py_raw_byte); (bs "br", py_raw_byte); (bs "f", py_formatted); (bs "fR", py_raw_formatted);
  (bs "fr", py_raw_formatted); (bs "r", py_raw); (bs "rB", py_raw_byte); (bs "rF", py_raw_formatted);
  (bs "rb", py_raw_byte); (bs "rf", py_raw_formatted)].
(** python.cpp:80-119 (classify_string_prefix) *)
Definition classify_string_prefix (s : str) : option py_prefix := table_find py_prefixes s.

(** python.cpp:121-144 (match_number): the options *)
Definition python_number_options : number_options :=
  mk_number_options false false
    [mk_prefix (bs "0b") 2 false; mk_prefix (bs "0B") 2 false; mk_prefix (bs "0o") 8 false; mk_prefix (bs "0O") 8 false;
     mk_prefix (bs "0x") 16 false; mk_prefix (bs "0X") 16 false]
    (map (fun e => (e, 10%Z)) [bs "E+"; bs "E-"; bs "E"; bs "e+"; bs "e-"; bs "e"])
    [bs "j"; bs "J"] None 10 10 95 true false.

(** python.cpp:146-204 (match_escape_sequence) *)
Definition py_match_escape_sequence (s : str) (p : py_prefix) : res escape :=
  match s with
  | b :: c :: _ =>
    if negb (b =? 92)%N then Ok (mk_escape 0 true)
    else
      let unicode_only r := let* e := r in Ok (mk_escape (es_length e) (es_erroneous e || py_is_byte p)) in
      if mem c [13; 10]%N then match_common_escape_at lf_cr_crlf s 1
      else if between 48 55 c then match_common_escape_at octal_3 s 1
      else if (c =? ch "x")%N then match_common_escape_at hex_2 s 2
      else if (c =? ch "N")%N then unicode_only (match_common_escape_at nonempty_braced s 2)
      else if (c =? ch "u")%N then unicode_only (match_common_escape_at hex_4 s 2)
      else if (c =? ch "U")%N then unicode_only (match_common_escape_at hex_8 s 2)
      else if mem c (34 :: bs "\'abfnrtv")%N then Ok (mk_escape 2 false)
      else Ok (mk_escape 0 true)
  | _ => Ok (mk_escape 0 true)
  end.

(** python.cpp:206-260 (match_symbol); the result is the code of the token *)
Definition python_match_symbol (s : str) : option str :=
  let first := first_of s in
  match s with
  | [] => None
  | c :: _ =>
    let one := Some [c] in
    if (c =? ch "!")%N then first [bs "!="] None
    else if (c =? ch "%")%N then first [bs "%="] one
    else if (c =? ch "&")%N then first [bs "&="] one
    else if (c =? ch "*")%N then first [bs "**="; bs "**"; bs "*="] one
    else if (c =? ch "+")%N then first [bs "+="] one
    else if (c =? ch "-")%N then first [bs "-="; bs "->"] one
    else if (c =? ch ".")%N then first [bs "..."] one
    else if (c =? ch "/")%N then first [bs "//="; bs "//"; bs "/="] one
    else if (c =? ch ":")%N then first [bs ":="] one
    else if (c =? ch "<")%N then first [bs "<<="; bs "<<"; bs "<="] one
    else if (c =? ch "=")%N then first [bs "=="] one
    else if (c =? ch ">")%N then first [bs ">>="; bs ">>>"; bs ">="; bs ">>"] one
    else if (c =? ch "@")%N then first [bs "@="] one
    else if (c =? ch "^")%N then first [bs "^="] one
    else if (c =? ch "|")%N then first [bs "|="] one
    else if mem c (bs "(),;[\]{}~") then one
    else None
  end.

(** python.cpp:310-320 (expect_comment) *)
Definition py_expect_comment : M unit bool :=
  let! r := get_rem in
  if negb (starts_with_ch r (ch "#")) then ret false
  else
    emit_and_advance 1 hl_comment_delim ;;
    let! r := get_rem in
    let len := length_if_not r is_python_newline in
    when (negb (len =? 0)) (emit_and_advance len hl_comment) ;;
    ret true.

(** python.cpp:322-331 (expect_identifier) *)
Definition py_expect_identifier : M unit bool :=
  let! r := get_rem in
  let! len := lift (cpp_match_identifier r) in
  if len =? 0 then ret false
  else
    emit_and_advance len (match python_token_by_code (firstn len r) with Some h => h | None => hl_name end) ;;
    ret true.

(** python.cpp:405-450: one round of the loop of consume_string *)
Definition py_string_body (p : py_prefix) (terminator : str) (is_long : bool) (len : nat) : M unit (nat + unit) :=
  let flush := when (negb (len =? 0)) (emit_and_advance len hl_string) in
  let! r := get_rem in
  if negb (len <? length r) then flush ;; ret (inr tt)
  else
    let! t := substr_from r len in
    if starts_with t terminator then
      flush ;; emit_and_advance (length terminator) hl_string_delim ;; ret (inr tt)
    else
      let! c := at_ r len in
      if (c =? 92)%N then
        flush ;;
        let! r := get_rem in
        (if py_is_raw p then
           let! t := substr_from r 1 in
           let! d := lift (decode_and_length_or_replacement t) in
           emit_and_advance (1 + snd d) (if py_is_byte p && negb (snd d =? 1) then hl_error else hl_string)
         else
           let! e := lift (py_match_escape_sequence r p) in
           if negb (es_length e =? 0)
           then emit_and_advance (es_length e) (if es_erroneous e then hl_error else hl_string_escape)
           else emit_and_advance 1 hl_error) ;;
        ret (inl 0)
      else if negb is_long && mem c [10; 13]%N then flush ;; ret (inr tt)
      else ret (inl (len + 1)).

(** python.cpp:370-454 (consume_string) *)
Definition py_consume_string (p : py_prefix) : M unit unit :=
  let! r := get_rem in
  checkM (starts_with_ch r 39 || starts_with_ch r 34) FAssert ;;
  let quote := if starts_with_ch r 39 then 39%N else 34%N in
  let is_long := starts_with r [quote; quote; quote] in
  let terminator := if is_long then [quote; quote; quote] else [quote] in
  checkM (starts_with r terminator) FDebugAssert ;;
  emit_and_advance (length terminator) hl_string_delim ;;
  hloop 1 (py_string_body p terminator is_long) 0.

(** python.cpp:333-368 (expect_string_literal), 65-71 (match_string_prefix_identifier) *)
Definition py_expect_string_literal : M unit bool :=
  let! r := get_rem in
  let! e := eof in
  if e then ret false
  else
    let n := bash_match_identifier r in
    let prefix := if n =? 0 then Some py_unicode else classify_string_prefix (firstn n r) in
    let! t := substr_from r n in
    if negb (starts_with_ch t 39) && negb (starts_with_ch t 34) then ret false
    else
      when (negb (n =? 0)) (emit_and_advance n (match prefix with None => hl_error | Some _ => hl_string_decor end)) ;;
      py_consume_string (match prefix with None => py_unicode | Some p => p end) ;;
      ret true.

(** python.cpp:456-463 (expect_number) *)
Definition py_expect_number : M unit bool :=
  let! r := get_rem in
  let! n := lift (match_common_number r python_number_options) in
  if nr_length n =? 0 then ret false else highlight_number_sep n 95 ;; ret true.

(** python.cpp:465-472 (expect_symbol); the highlight is the entry of the token in the table *)
Definition py_expect_symbol : M unit bool :=
  let! r := get_rem in
  match python_match_symbol r with
  | None => ret false
  | Some t =>
    match python_token_by_code t with
    | Some h => emit_and_advance (length t) h ;; ret true
    | None => fail FUB
    end
  end.

(** python.cpp:284-298: the rest of a round of operator() *)
Definition py_token : M unit unit :=
  let! b := py_expect_comment in if b then ret tt else
  let! b := py_expect_string_literal in if b then ret tt else
  let! b := py_expect_identifier in if b then ret tt else
  let! b := py_expect_number in if b then ret tt else
  let! b := py_expect_symbol in if b then ret tt else
  emit_error_code_point.

(** python.cpp:276-301 (operator()), 478-486 (highlight_python) *)
Definition highlight_python : highlighter := fun src _ =>
  run tt (token_loop is_python_whitespace py_token ;; ret true) src.
