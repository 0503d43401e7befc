(** * Model of LLVM IR highlighting (src/main/cpp/lang/llvm.cpp, include/ulight/impl/lang/llvm.hpp). *)
From Coq Require Import List NArith ZArith Bool Arith.
From Verif Require Import M_Base M_Emit M_Types M_Chars M_Parse M_Api M_Table M_Highlighter.
Import ListNotations.

(** lang/llvm.hpp:10 (is_llvm_identifier), 12 (is_llvm_keyword) *)
Definition is_llvm_identifier (c : N) : bool := is_ascii_alphanumeric c || mem c (bs "-$._").
Definition is_llvm_keyword (c : N) : bool := is_ascii_alphanumeric c || mem c (bs "-_").

(** llvm.cpp:20-23 (match_block_comment) *)
Definition llvm_match_block_comment (s : str) : enclosed := match_enclosed s (bs "/*") (bs "*/").
(** llvm.cpp:27-35 (match_identifier); length_if with start 1 *)
Definition llvm_match_identifier (s : str) : nat :=
  if negb (starts_with_ch s (ch "%")) && negb (starts_with_ch s (ch "@")) then 0
  else 1 + length_if (skipn 1 s) is_llvm_identifier.
(** llvm.cpp:37-41 (match_keyword) *)
Definition llvm_match_keyword (s : str) : nat := length_if s is_llvm_keyword.

(** llvm.cpp:52-97 (keywords) *)
Definition llvm_keywords : list (str * N) := [
  (bs "bfloat", hl_keyword_type); (bs "br", hl_keyword_control); (bs "c", hl_string_decor);
  (bs "call", hl_keyword_control); (bs "callbr", hl_keyword_control);
  (bs "catchpad", hl_keyword_control); (bs "catchret", hl_keyword_control);
  (bs "catchswitch", hl_keyword_control); (bs "cleanuppad", hl_keyword_control);
  (bs "cleanupret", hl_keyword_control); (bs "double", hl_keyword_type); (bs "false", hl_bool);
  (bs "float", hl_keyword_type); (bs "fp128", hl_keyword_type);
  (bs "indirectbr", hl_keyword_control); (bs "invoke", hl_keyword_control);
  (bs "label", hl_keyword_type); (bs "landingpad", hl_keyword_control);
  (bs "metadata", hl_keyword_type); (bs "none", hl_null); (bs "null", hl_null);
  (bs "poison", hl_null); (bs "ppc_fp128", hl_keyword_type); (bs "ptr", hl_keyword_type);
  (bs "resume", hl_keyword_control); (bs "ret", hl_keyword_control);
  (bs "switch", hl_keyword_control); (bs "target", hl_keyword_type);
  (bs "token", hl_keyword_type); (bs "true", hl_bool); (bs "undef", hl_null);
  (bs "unreachable", hl_keyword_control); (bs "void", hl_keyword_type);
  (bs "vscale", hl_keyword_type); (bs "x", hl_symbol_punc); (bs "x86_amx", hl_keyword_type);
  (bs "x86_fp80", hl_keyword_type)].

(** llvm.cpp:101-123 (classify_keyword) *)
Definition llvm_classify_keyword (s : str) : res N :=
  match s with
  | [] => Fail FAssert
  | c :: t =>
    let is_integer := (c =? ch "i")%N && (2 <=? length s)
      && match find_if (fun c => negb (is_ascii_digit c)) t with None => true | Some _ => false end in
    if is_integer then Ok hl_keyword_type
    else Ok (match table_find llvm_keywords s with Some h => h | None => hl_keyword end)
  end.

(** llvm.cpp:356-376: the options of expect_number *)
Definition llvm_number_options : number_options :=
  mk_number_options true false
    (map (fun p => mk_prefix p 16 false) [bs "0x"; bs "0xK"; bs "0xL"; bs "0xM"; bs "0xR"; bs "s0x"; bs "u0x"])
    (map (fun e => (e, 10%Z)) [bs "e+"; bs "e-"; bs "e"; bs "E+"; bs "E-"; bs "E"])
    [] None 10 10 0 false false.

(** llvm.cpp:353-383 (expect_number) *)
Definition llvm_expect_number : M unit bool :=
  let! r := get_rem in
  let! n := lift (match_common_number r llvm_number_options) in
  if nr_length n =? 0 then ret false else highlight_number n ;; ret true.

(** llvm.cpp:235-244 (consume_line_comment) *)
Definition llvm_consume_line_comment : M unit unit :=
  let! r := get_rem in
  checkM (starts_with_ch r (ch ";")) FAssert ;;
  emit_and_advance 1 hl_comment_delim ;;
  let! r := get_rem in
  let line := match_crlf_line r in
  when (negb (fst line =? 0)) (emit_and_advance (fst line) hl_comment) ;;
  advance (snd line).

(** llvm.cpp:246-255 (expect_block_comment) *)
Definition llvm_expect_block_comment : M unit bool :=
  let! r := get_rem in
  let c := llvm_match_block_comment r in
  if en_length c =? 0 then ret false
  else highlight_enclosed_comment c 2 2 ;; ret true.

(** llvm.cpp:257-282 (consume_identifier) *)
Definition llvm_consume_identifier : M unit unit :=
  let! r := get_rem in
  let len := llvm_match_identifier r in
  checkM (negb (len =? 0)) FAssert ;;
  if starts_with_ch r (ch "%") then
    emit_and_advance 1 hl_name_var_delim ;;
    when (1 <? len) (emit_and_advance (len - 1) hl_name_var)
  else if starts_with_ch r (ch "@") then
    emit_and_advance 1 hl_name_function_delim ;;
    when (1 <? len) (emit_and_advance (len - 1) hl_name_function)
  else fail FAssert.

(** llvm.cpp:284-301 (expect_keyword_or_label) *)
Definition llvm_expect_keyword_or_label : M unit bool :=
  let! r := get_rem in
  let len := llvm_match_keyword r in
  if len =? 0 then ret false
  else
    let! t := substr_from r len in
    if starts_with_ch t (ch ":") then
      emit_and_advance len hl_name_label_decl ;; emit_and_advance 1 hl_name_label_delim ;; ret true
    else
      let! h := lift (llvm_classify_keyword (firstn len r)) in
      emit_and_advance len h ;; ret true.

(** llvm.cpp:303-351 (consume_string); the loop variable is length *)
Definition llvm_string_body (len : nat) : M unit (nat + unit) :=
  let flush := when (negb (len =? 0)) (emit_and_advance len hl_string) in
  let! r := get_rem in
  if negb (len <? length r) then flush ;; ret (inr tt)
  else
    let! c := at_ r len in
    if (c =? 34)%N then flush ;; emit_and_advance 1 hl_string_delim ;; ret (inr tt)
    else if (c =? ch "\")%N then
      flush ;;
      let! r := get_rem in
      if starts_with r (bs "\\") then emit_and_advance 2 hl_string_escape ;; ret (inl 0)
      else
        let! e := lift (match_common_escape_at hex_2 r 1) in
        if negb (es_length e =? 0) then
          emit_and_advance (es_length e) (if es_erroneous e then hl_error else hl_string_escape) ;; ret (inl 0)
        else emit_and_advance 1 hl_error ;; ret (inl 0)
    else ret (inl (len + 1)).
Definition llvm_consume_string : M unit unit :=
  let! r := get_rem in
  checkM (starts_with_ch r 34) FAssert ;;
  emit_and_advance 1 hl_string_delim ;;
  hloop 1 llvm_string_body 0.

(** llvm.cpp:145-229 (consume_anything); the label default_case is the last branch *)
Definition llvm_default_case : M unit unit :=
  let! b := llvm_expect_keyword_or_label in
  if b then ret tt else emit_and_advance_c true 1 hl_error.
Definition llvm_consume_anything : M unit unit :=
  let! r := get_rem in
  let! c := at_ r 0 in
  if mem c [32; 9; 13; 10]%N then advance 1
  else if is_ascii_digit c then
    let! b := llvm_expect_number in checkM b FAssert
  else if (c =? 34)%N then llvm_consume_string
  else if mem c (bs "()") then emit_and_advance 1 hl_symbol_parens
  else if mem c (bs "[]") then emit_and_advance 1 hl_symbol_square
  else if mem c (bs "{}") then emit_and_advance 1 hl_symbol_brace
  else if mem c (bs ",:<=>") then emit_and_advance 1 hl_symbol_punc
  else if (c =? ch ";")%N then llvm_consume_line_comment
  else if (c =? ch "/")%N then
    let! b := llvm_expect_block_comment in
    if b then ret tt else emit_and_advance_c true 1 hl_error
  else if mem c (bs "%@") then llvm_consume_identifier
  else if mem c (bs "su") then
    let! b := llvm_expect_number in
    if b then ret tt else llvm_default_case
  else llvm_default_case.

(** llvm.cpp:136-142 (operator()), 389-397 (highlight_llvm) *)
Definition highlight_llvm : highlighter := fun src _ =>
  run tt (while_rem llvm_consume_anything ;; ret true) src.
