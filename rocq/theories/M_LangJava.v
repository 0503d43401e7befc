(** * Model of Java highlighting (src/main/cpp/lang/java.cpp, include/ulight/impl/lang/java.hpp). *)
From Coq Require Import List NArith ZArith Bool Arith.
From Verif Require Import M_Base M_Emit M_Types M_Chars M_Parse M_Api M_Table M_LangCpp M_Utf8 M_Highlighter M_TokenLoop M_Json.
Import ListNotations.

(** lang/java.hpp:15 (is_java_whitespace) *)
Definition is_java_whitespace (c : N) : bool := mem c [32; 9; 12; 10; 13]%N.

(** lang/java.hpp:19-141 (ULIGHT_JAVA_TOKEN_ENUM_DATA) *)
Definition java_tokens : list (str * N) := [
  (bs "!", hl_symbol_op); (bs "!=", hl_symbol_op); ([34]%N, hl_string_delim); ([34; 34; 34]%N, hl_string_delim);
  (bs "%", hl_symbol_op); (bs "%=", hl_symbol_op); (bs "&", hl_symbol_op); (bs "&&", hl_symbol_op);
  (bs "&=", hl_symbol_op); (bs "(", hl_symbol_parens); (bs ")", hl_symbol_parens); (bs "*", hl_symbol_op);
  (bs "*=", hl_symbol_op); (bs "+", hl_symbol_op); (bs "++", hl_symbol_op); (bs "+=", hl_symbol_op);
  (bs ",", hl_symbol_punc); (bs "-", hl_symbol_op); (bs "--", hl_symbol_op); (bs "-=", hl_symbol_op);
  (bs "->", hl_symbol_punc); (bs ".", hl_symbol_punc); (bs "...", hl_symbol_punc); (bs "/", hl_symbol_op);
  (bs "/=", hl_symbol_op); (bs ":", hl_symbol_punc); (bs "::", hl_symbol_punc); (bs ";", hl_symbol_punc);
  (bs "<", hl_symbol_op); (bs "<<", hl_symbol_op); (bs "<<=", hl_symbol_op); (bs "<=", hl_symbol_op);
  (bs "=", hl_symbol_punc); (bs "==", hl_symbol_op); (bs ">", hl_symbol_op); (bs ">=", hl_symbol_op);
  (bs ">>", hl_symbol_op); (bs ">>=", hl_symbol_op); (bs ">>>", hl_symbol_op); (bs ">>>=", hl_symbol_op);
  (bs "?", hl_symbol_op); (bs "@", hl_symbol_punc); (bs "[", hl_symbol_square); (bs "]", hl_symbol_square);
  (bs "^", hl_symbol_op); (bs "^=", hl_symbol_op); (bs "_", hl_keyword); (bs "abstract", hl_keyword);
  (bs "assert", hl_keyword); (bs "boolean", hl_keyword_type); (bs "break", hl_keyword_control);
  (bs "byte", hl_keyword_type); (bs "case", hl_keyword_control); (bs "catch", hl_keyword_control);
  (bs "char", hl_keyword_type); (bs "class", hl_keyword); (bs "const", hl_keyword);
  (bs "continue", hl_keyword_control); (bs "default", hl_keyword_control); (bs "do", hl_keyword_control);
  (bs "double", hl_keyword_type); (bs "else", hl_keyword_control); (bs "enum", hl_keyword); (bs "exports", hl_keyword);
  (bs "extends", hl_keyword); (bs "false", hl_bool); (bs "final", hl_keyword); (bs "finally", hl_keyword_control);
  (bs "float", hl_keyword_type); (bs "for", hl_keyword_control); (bs "goto", hl_keyword);
  (bs "if", hl_keyword_control); (bs "implements", hl_keyword); (bs "import", hl_keyword);
  (bs "instanceof", hl_keyword); (bs "int", hl_keyword_type); (bs "interface", hl_keyword);
  (bs "long", hl_keyword_type); (bs "module", hl_keyword); (bs "native", hl_keyword); (bs "new", hl_keyword);
  (bs "null", hl_null); (bs "open", hl_keyword); (bs "opens", hl_keyword); (bs "package", hl_keyword);
  (bs "permits", hl_keyword); (bs "private", hl_keyword); (bs "protected", hl_keyword); (bs "provides", hl_keyword);
  (bs "public", hl_keyword); (bs "record", hl_keyword); (bs "requires", hl_keyword); (bs "return", hl_keyword_control);
  (bs "sealed", hl_keyword); (bs "short", hl_keyword_type); (bs "static", hl_keyword); (bs "strictfp", hl_keyword);
  (bs "super", hl_keyword_this); (bs "switch", hl_keyword_control); (bs "synchronized", hl_keyword);
  (bs "this", hl_keyword_this); (bs "throw", hl_keyword_control); (bs "throws", hl_keyword); (bs "to", hl_keyword);
  (bs "transient", hl_keyword); (bs "transitive", hl_keyword); (bs "true", hl_bool); (bs "try", hl_keyword_control);
  (bs "uses", hl_keyword); (bs "var", hl_keyword); (bs "void", hl_keyword_type); (bs "volatile", hl_keyword);
  (bs "when", hl_keyword); (bs "while", hl_keyword_control); (bs "with", hl_keyword); (bs "yield", hl_keyword_control);
  (bs "{", hl_symbol_brace); (bs "|", hl_symbol_op); (bs "|=", hl_symbol_op); (bs "||", hl_symbol_op);
  (bs "}", hl_symbol_brace); (bs "~", hl_symbol_op)].
(** java.cpp:36-45 (token_type_by_code) with 53-57 (token_type_highlight) *)
Definition java_token_by_code (s : str) : option N := table_find java_tokens s.

(** java.cpp:60-102 (match_number): the options *)
Definition java_number_options : number_options :=
  mk_number_options false false
    [mk_prefix (bs "0b") 2 false; mk_prefix (bs "0B") 2 false; mk_prefix (bs "0x") 16 true; mk_prefix (bs "0X") 16 true]
    (map (fun e => (e, 10%Z)) [bs "E+"; bs "E-"; bs "E"; bs "e+"; bs "e-"; bs "e"]
     ++ map (fun e => (e, 16%Z)) [bs "P+"; bs "P-"; bs "P"; bs "p+"; bs "p-"; bs "p"])
    [bs "D"; bs "F"; bs "L"; bs "d"; bs "f"; bs "l"] None 10 10 95 false true.

(** java.cpp:104-156 (match_symbol); the result is the code of the token *)
Definition java_match_symbol (s : str) : option str :=
  let first := first_of s in
  match s with
  | [] => None
  | c :: _ =>
    let one := Some [c] in
    if (c =? ch "!")%N then first [bs "!="] one
    else if (c =? 34)%N then first [[34; 34; 34]%N] one
    else if (c =? ch "%")%N then first [bs "%="] one
    else if (c =? ch "&")%N then first [bs "&&"; bs "&="] one
    else if (c =? ch "*")%N then first [bs "*="] one
    else if (c =? ch "+")%N then first [bs "++"; bs "+="] one
    else if (c =? ch "-")%N then first [bs "--"; bs "-="; bs "->"] one
    else if (c =? ch ".")%N then first [bs "..."] one
    else if (c =? ch "/")%N then first [bs "/="] one
    else if (c =? ch ":")%N then first [bs "::"] one
    else if (c =? ch "<")%N then first [bs "<<="; bs "<<"; bs "<="] one
    else if (c =? ch "=")%N then first [bs "=="] one
    else if (c =? ch ">")%N then first [bs ">>>="; bs ">>>"; bs ">>="; bs ">>"; bs ">="] one
    else if (c =? ch "|")%N then first [bs "||"; bs "|="] one
    else if (c =? ch "^")%N then first [bs "^="] one
    else if mem c (bs "(),;?@[]{}~") then one
    else None
  end.

(** java.cpp:168-203 (match_escape_sequence) *)
Definition java_match_escape_sequence (s : str) : res escape :=
  match s with
  | b :: c :: _ =>
    if negb (b =? 92)%N then Ok (mk_escape 1 true)
    else if (c =? ch "u")%N then match_common_escape_at hex_4 s 2
    else if between 48 51 c then match_common_escape_at octal_1_to_3 s 1
    else if between 52 55 c then match_common_escape_at octal_1_to_2 s 1
    else if mem c [13; 10]%N then match_common_escape_at lf_cr_crlf s 1
    else if mem c (34 :: bs "bstnfr'\")%N then Ok (mk_escape 2 false)
    else Ok (mk_escape 1 true)
  | _ => Ok (mk_escape (Nat.min (length s) 1) true)
  end.

(** java.cpp:264-296 (expect_line_comment, expect_block_comment): the code of json.cpp, with the same matchers of
    js.cpp (java.cpp:161-166) *)
Definition java_expect_line_comment : M unit bool := json_expect_line_comment.
Definition java_expect_block_comment : M unit bool := json_expect_block_comment.

(** java.cpp:298-309 (expect_identifier) *)
Definition java_expect_identifier : M unit bool :=
  let! r := get_rem in
  let! len := lift (cpp_match_identifier r) in
  if len =? 0 then ret false
  else
    emit_and_advance len (match java_token_by_code (firstn len r) with Some h => h | None => hl_name end) ;;
    ret true.

(** java.cpp:338-342, 380-386, 438-444: an escape sequence *)
Definition java_emit_escape : M unit unit :=
  let! r := get_rem in
  let! e := lift (java_match_escape_sequence r) in
  checkM (negb (es_length e =? 0)) FAssert ;;
  emit_and_advance (es_length e) (if es_erroneous e then hl_error else hl_string_escape).

(** java.cpp:328-354 (expect_character_literal) *)
Definition java_expect_character_literal : M unit bool :=
  let! r := get_rem in
  checkM (starts_with_ch r 39) FDebugAssert ;;
  emit_and_advance 1 hl_string_delim ;;
  let! r := get_rem in
  match r with
  | [] => ret true
  | c :: _ =>
    (if (c =? 92)%N then java_emit_escape
     else if negb (mem c [39; 13; 10]%N) then emit_and_advance 1 hl_string
     else emit_and_advance 1 hl_error) ;;
    let! r := get_rem in
    when (starts_with_ch r 39) (emit_and_advance 1 hl_string_delim) ;;
    ret true
  end.

(** java.cpp:374-402: one round of the loop of expect_string_literal *)
Definition java_string_body (len : nat) : M unit (nat + unit) :=
  let flush := when (negb (len =? 0)) (emit_and_advance len hl_string) in
  let! r := get_rem in
  if negb (len <? length r) then flush ;; ret (inr tt)
  else
    let! c := at_ r len in
    if (c =? 34)%N then flush ;; emit_and_advance 1 hl_string_delim ;; ret (inr tt)
    else if mem c [13; 10]%N then flush ;; ret (inr tt)
    else if (c =? 92)%N then flush ;; java_emit_escape ;; ret (inl 0)
    else ret (inl (len + 1)).
(** java.cpp:356-402 (expect_string_literal) *)
Definition java_expect_string_literal : M unit bool :=
  let! r := get_rem in
  checkM (starts_with_ch r 34) FDebugAssert ;;
  emit_and_advance 1 hl_string_delim ;;
  hloop 1 java_string_body 0 ;;
  ret true.

Definition triple_quote : str := [34; 34; 34]%N.
(** java.cpp:434-457: one round of the loop of expect_text_block *)
Definition java_block_body (len : nat) : M unit (nat + unit) :=
  let flush := when (negb (len =? 0)) (emit_and_advance len hl_string) in
  let! r := get_rem in
  if negb (len <? length r) then flush ;; ret (inr tt)
  else
    let! t := substr_from r len in
    if starts_with t triple_quote then flush ;; emit_and_advance 3 hl_string_delim ;; ret (inr tt)
    else
      let! c := at_ r len in
      if (c =? 92)%N then flush ;; java_emit_escape ;; ret (inl 0)
      else ret (inl (len + 1)).
(** java.cpp:404-458 (expect_text_block). Simplified: the loop that advances over white space one character at a time
    is one advance over the longest prefix of such characters. *)
Definition java_expect_text_block : M unit bool :=
  let! r := get_rem in
  checkM (starts_with r triple_quote) FDebugAssert ;;
  emit_and_advance 3 hl_string_delim ;;
  let! r := get_rem in
  advance (length_if r (fun c => negb (mem c [13; 10]%N) && is_java_whitespace c)) ;;
  let! r := get_rem in
  (if starts_with r [13; 10]%N then advance 2
   else if starts_with_ch r 13 || starts_with_ch r 10 then advance 1
   else ret tt) ;;
  hloop 1 java_block_body 0 ;;
  ret true.

(** java.cpp:311-326 (expect_string_or_character_or_text_block) *)
Definition java_expect_string : M unit bool :=
  let! r := get_rem in
  if starts_with_ch r 39 then java_expect_character_literal
  else if starts_with r triple_quote then java_expect_text_block
  else if starts_with_ch r 34 then java_expect_string_literal
  else ret false.

(** java.cpp:460-470 (expect_number) *)
Definition java_expect_number : M unit bool :=
  let! r := get_rem in
  let! n := lift (match_common_number r java_number_options) in
  if nr_length n =? 0 then ret false else highlight_number_sep n 95 ;; ret true.

(** java.cpp:489-502 (consume_dotted_annotation_name) *)
Definition java_annotation_body (_ : unit) : M unit (unit + unit) :=
  let! r := get_rem in
  let! len := lift (cpp_match_identifier r) in
  if len =? 0 then ret (inr tt)
  else
    emit_and_advance len hl_name_attr ;;
    let! r := get_rem in
    if negb (starts_with_ch r (ch ".")) then ret (inr tt)
    else emit_and_advance 1 hl_name_attr_delim ;; ret (inl tt).
(** java.cpp:473-487 (expect_annotation) *)
Definition java_expect_annotation : M unit bool :=
  let! r := get_rem in
  if negb (starts_with_ch r (ch "@")) then ret false
  else
    let! n := lift (cpp_match_identifier (skipn 1 r)) in
    if n =? 0 then ret false
    else
      emit_and_advance 1 hl_name_attr_delim ;;
      hloop 1 java_annotation_body tt ;;
      ret true.

(** java.cpp:504-512 (expect_symbol); the highlight is the entry of the token in the table *)
Definition java_expect_symbol : M unit bool :=
  let! r := get_rem in
  match java_match_symbol r with
  | None => ret false
  | Some t =>
    match java_token_by_code t with
    | Some h => emit_and_advance (length t) h ;; ret true
    | None => fail FUB
    end
  end.

(** java.cpp:234-240, 245-255: the rest of a round of consume_tokens, with expect_token *)
Definition java_token : M unit unit :=
  let! b := java_expect_line_comment in if b then ret tt else
  let! b := java_expect_block_comment in if b then ret tt else
  let! b := java_expect_string in if b then ret tt else
  let! b := java_expect_number in if b then ret tt else
  let! b := java_expect_annotation in if b then ret tt else
  let! b := java_expect_symbol in if b then ret tt else
  let! b := java_expect_identifier in if b then ret tt else
  emit_error_code_point.

(** java.cpp:218-242 (operator(), consume_tokens), 519-527 (highlight_java) *)
Definition highlight_java : highlighter := fun src _ =>
  run tt (token_loop is_java_whitespace java_token ;; ret true) src.
