(** * Model of Rust highlighting (src/main/cpp/lang/rust.cpp, include/ulight/impl/lang/rust.hpp). *)
From Coq Require Import List NArith ZArith Bool Arith.
From Verif Require Import M_Base M_Emit M_Types M_Chars M_Parse M_Api M_Table M_LangCpp M_Utf8 M_Highlighter M_TokenLoop M_Json.
Import ListNotations.

(** lang/rust.hpp:12-32 (is_rust_whitespace for code points) *)
Definition is_rust_whitespace (c : N) : bool :=
  mem c [0x09; 0x0A; 0x0B; 0x0C; 0x0D; 0x20; 0x85; 0x200E; 0x200F; 0x2028; 0x2029]%N.

(** lang/rust.hpp:35-163 (ULIGHT_RUST_TOKEN_ENUM_DATA) *)
Definition rust_tokens : list (str * N) := [
  (bs "!", hl_symbol_op); (bs "!=", hl_symbol_op); (bs "%", hl_symbol_op); (bs "%=", hl_symbol_op);
  (bs "&", hl_symbol_op); (bs "&&", hl_symbol_op); (bs "&=", hl_symbol_op); (bs "(", hl_symbol_parens);
  (bs ")", hl_symbol_parens); (bs "*", hl_symbol_op); (bs "*=", hl_symbol_op); (bs "+", hl_symbol_op);
  (bs "+=", hl_symbol_op); (bs ",", hl_symbol_punc); (bs "-", hl_symbol_op); (bs "-=", hl_symbol_op);
  (bs "->", hl_symbol_punc); (bs ".", hl_symbol_punc); (bs "..", hl_symbol_op); (bs "...", hl_symbol_op);
  (bs "..=", hl_symbol_op); (bs "/", hl_symbol_op); (bs "/=", hl_symbol_op); (bs ":", hl_symbol_punc);
  (bs "::", hl_symbol_op); (bs ";", hl_symbol_punc); (bs "<", hl_symbol_op); (bs "<-", hl_symbol_punc);
  (bs "<<", hl_symbol_op); (bs "<<=", hl_symbol_op); (bs "<=", hl_symbol_op); (bs "=", hl_symbol_punc);
  (bs "==", hl_symbol_op); (bs "=>", hl_symbol_punc); (bs ">", hl_symbol_op); (bs ">=", hl_symbol_op);
  (bs ">>", hl_symbol_op); (bs ">>=", hl_symbol_op); (bs "?", hl_symbol_op); (bs "@", hl_symbol_op);
  (bs "CStr", hl_name_type); (bs "CString", hl_name_type); (bs "OsStr", hl_name_type); (bs "OsString", hl_name_type);
  (bs "Self", hl_keyword_type); (bs "String", hl_name_type); (bs "[", hl_symbol_square); (bs "\", hl_string_escape);
  (bs "]", hl_symbol_square); (bs "^", hl_symbol_op); (bs "^=", hl_symbol_op); (bs "abstract", hl_keyword);
  (bs "as", hl_keyword); (bs "async", hl_keyword); (bs "await", hl_keyword_control); (bs "become", hl_keyword);
  (bs "bool", hl_name_type_builtin); (bs "box", hl_keyword); (bs "break", hl_keyword_control);
  (bs "char", hl_name_type_builtin); (bs "const", hl_keyword); (bs "continue", hl_keyword_control);
  (bs "crate", hl_keyword); (bs "do", hl_keyword_control); (bs "dyn", hl_keyword); (bs "else", hl_keyword_control);
  (bs "enum", hl_keyword); (bs "extern", hl_keyword); (bs "f32", hl_name_type_builtin);
  (bs "f64", hl_name_type_builtin); (bs "false", hl_bool); (bs "final", hl_keyword); (bs "fn", hl_keyword);
  (bs "for", hl_keyword_control); (bs "gen", hl_keyword); (bs "i128", hl_name_type_builtin);
  (bs "i16", hl_name_type_builtin); (bs "i32", hl_name_type_builtin); (bs "i64", hl_name_type_builtin);
  (bs "i8", hl_name_type_builtin); (bs "if", hl_keyword_control); (bs "impl", hl_keyword); (bs "in", hl_keyword);
  (bs "isize", hl_name_type_builtin); (bs "let", hl_keyword); (bs "loop", hl_keyword_control);
  (bs "macro", hl_keyword); (bs "macro_rules", hl_keyword); (bs "match", hl_keyword_control); (bs "mod", hl_keyword);
  (bs "move", hl_keyword); (bs "mut", hl_keyword); (bs "override", hl_keyword); (bs "priv", hl_keyword);
  (bs "pub", hl_keyword); (bs "raw", hl_keyword); (bs "ref", hl_keyword); (bs "return", hl_keyword_control);
  (bs "safe", hl_keyword); (bs "self", hl_keyword_this); (bs "static", hl_keyword); (bs "str", hl_name_type_builtin);
  (bs "struct", hl_keyword); (bs "super", hl_keyword_this); (bs "trait", hl_keyword); (bs "true", hl_bool);
  (bs "try", hl_keyword_control); (bs "type", hl_keyword); (bs "typeof", hl_keyword);
  (bs "u128", hl_name_type_builtin); (bs "u16", hl_name_type_builtin); (bs "u32", hl_name_type_builtin);
  (bs "u64", hl_name_type_builtin); (bs "u8", hl_name_type_builtin); (bs "union", hl_keyword);
  (bs "unsafe", hl_keyword); (bs "unsized", hl_keyword); (bs "use", hl_keyword); (bs "usize", hl_name_type_builtin);
  (bs "virtual", hl_keyword); (bs "where", hl_keyword); (bs "while", hl_keyword_control);
  (bs "yield", hl_keyword_control); (bs "{", hl_symbol_brace); (bs "|", hl_symbol_op); (bs "|=", hl_symbol_op);
  (bs "||", hl_symbol_op); (bs "}", hl_symbol_brace)].
(** rust.cpp:47-68 (token_type_by_code, token_type_highlight) *)
Definition rust_token_by_code (s : str) : option N := table_find rust_tokens s.

(** rust.cpp:70-79 (is_illegal_raw_identifier) *)
Definition is_illegal_raw_identifier (id : str) : bool :=
  existsb (str_eqb id) [bs "crate"; bs "self"; bs "super"; bs "Self"; bs "_"].

(** lang/rust.hpp:171-197 (String_Type, string_type_is_raw, string_type_has_unicode_escape) *)
Inductive rust_string_type := rs_string | rs_byte | rs_raw_byte | rs_c | rs_raw_c | rs_raw.
Definition string_type_is_raw (t : rust_string_type) : bool :=
  match t with rs_raw | rs_raw_byte => true | _ => false end.
Definition string_type_has_unicode_escape (t : rust_string_type) : bool :=
  match t with rs_byte | rs_raw_byte => false | _ => true end.

(** rust.cpp:84-114 (classify_string_prefix) *)
Definition rust_string_prefixes : list (str * (nat * rust_string_type)) := [
  ([34]%N, (0, rs_string)); ([98; 34]%N, (1, rs_byte)); ([98; 114; 34]%N, (2, rs_raw_byte));
  (bs "br#", (2, rs_raw_byte)); ([99; 34]%N, (1, rs_c)); ([99; 114; 34]%N, (2, rs_raw_c));
  (bs "cr#", (2, rs_raw_c)); ([114; 34]%N, (1, rs_raw)); (bs "r#", (1, rs_raw))].
Definition classify_string_prefix (s : str) : option (nat * rust_string_type) :=
  option_map snd (find (fun e => starts_with s (fst e)) rust_string_prefixes).

(** rust.cpp:116-139 (match_number): the options. Simplified: the suffix function gives 0 where
    cpp::match_identifier fails; it never does (lemma cpp_identifier_ok). *)
Definition rust_match_suffix (s : str) : nat := match cpp_match_identifier s with Ok n => n | Fail _ => 0 end.
Definition rust_number_options : number_options :=
  mk_number_options false false
    [mk_prefix (bs "0b") 2 false; mk_prefix (bs "0o") 8 false; mk_prefix (bs "0x") 16 false]
    (map (fun e => (e, 10%Z)) [bs "E+"; bs "E-"; bs "E"; bs "e+"; bs "e-"; bs "e"])
    [] (Some rust_match_suffix) 10 10 95 true false.
Definition set_erroneous (r : number_result) (e : bool) : number_result :=
  mk_number (nr_length r) (nr_sign r) (nr_prefix r) (nr_integer r) (nr_radix_point r) (nr_fractional r) (nr_exponent_sep r)
    (nr_exponent_digits r) (nr_suffix r) e.
(** rust.cpp:140-153 (match_number): the checks, with numbers.hpp:159-168 (extract_suffix, is_integer) *)
Definition rust_match_number (s : str) : res number_result :=
  let* r := match_common_number s rust_number_options in
  if negb (nr_is_non_integer r) then
    if nr_suffix r =? 0 then Ok r
    else
      let* _ := check (nr_suffix r <=? nr_length r) FUB in
      let* _ := check (nr_length r - nr_suffix r <=? length s) FThrow in
      match firstn (nr_suffix r) (skipn (nr_length r - nr_suffix r) s) with
      | [] => Fail FAssert
      | c :: _ => Ok (set_erroneous r (nr_erroneous r || (c =? ch "e")%N || (c =? ch "E")%N))
      end
  else Ok (set_erroneous r (nr_erroneous r || negb (nr_prefix r =? 0))).

(** rust.cpp:155-186 (match_escape_sequence) *)
Definition rust_match_escape_sequence (s : str) (t : rust_string_type) : res escape :=
  match s with
  | b :: c :: _ =>
    if negb (b =? 92)%N then Ok (mk_escape 0 true)
    else if mem c (34 :: 10 :: bs "'nrt\0")%N then Ok (mk_escape 2 false)
    else if (c =? ch "x")%N then match_common_escape_at hex_2 s 2
    else if (c =? ch "u")%N then
      if string_type_has_unicode_escape t then match_common_escape_at nonempty_braced s 2 else Ok (mk_escape 2 true)
    else Ok (mk_escape 1 true)
  | _ => Ok (mk_escape 0 true)
  end.

(** rust.cpp:188-247 (match_punctuation); the result is the code of the token *)
Definition rust_match_punctuation (s : str) : option str :=
  let first := first_of s in
  match s with
  | [] => None
  | c :: _ =>
    let one := Some [c] in
    if (c =? ch "!")%N then first [bs "!="] one
    else if (c =? ch "%")%N then first [bs "%="] one
    else if (c =? ch "&")%N then first [bs "&&"; bs "&="] one
    else if (c =? ch "*")%N then first [bs "*="] one
    else if (c =? ch "+")%N then first [bs "+="] one
    else if (c =? ch "-")%N then first [bs "-="; bs "->"] one
    else if (c =? ch ".")%N then first [bs "..."; bs "..="; bs ".."] one
    else if (c =? ch "/")%N then first [bs "/="] one
    else if (c =? ch ":")%N then first [bs "::"] one
    else if (c =? ch "<")%N then first [bs "<<="; bs "<<"; bs "<="] one
    else if (c =? ch "=")%N then first [bs "=="; bs "=>"] one
    else if (c =? ch ">")%N then first [bs ">>="; bs ">="; bs ">>"] one
    else if (c =? ch "^")%N then first [bs "^="] one
    else if (c =? ch "|")%N then first [bs "|="; bs "||"] one
    else if mem c (bs "(),;?@[\]{}") then one
    else None
  end.

(** rust.cpp:295-329 (expect_line_comment, expect_block_comment): the code of json.cpp, with the same matchers of
    js.cpp (rust.cpp:249-251) *)
Definition rust_expect_line_comment : M unit bool := json_expect_line_comment.
Definition rust_expect_block_comment : M unit bool := json_expect_block_comment.

(** rust.cpp:331-359 (expect_raw_identifier) *)
Definition rust_expect_raw_identifier : M unit bool :=
  let! r := get_rem in
  if negb (starts_with r (bs "r#")) then ret false
  else
    let! n := lift (cpp_match_identifier (skipn 2 r)) in
    if n =? 0 then ret false
    else
      let id := firstn n (skipn 2 r) in
      (if is_illegal_raw_identifier id then emit_and_advance (2 + n) hl_error
       else
         let! t := substr_from r (2 + n) in
         if starts_with_ch t (ch "!") then
           emit_and_advance 2 hl_name_macro_delim ;; emit_and_advance n hl_name_macro ;; emit_and_advance 1 hl_name_macro_delim
         else emit_and_advance 2 hl_name_delim ;; emit_and_advance n hl_name) ;;
      ret true.

(** rust.cpp:361-383 (expect_identifier_or_keyword) *)
Definition rust_expect_identifier : M unit bool :=
  let! r := get_rem in
  let! n := lift (cpp_match_identifier r) in
  if n =? 0 then ret false
  else
    match rust_token_by_code (firstn n r) with
    | Some h => emit_and_advance n h ;; ret true
    | None =>
      let! t := substr_from r n in
      if starts_with_ch t (ch "!") then emit_and_advance n hl_name_macro ;; emit_and_advance 1 hl_name_macro_delim ;; ret true
      else emit_and_advance n hl_name ;; ret true
    end.

(** rust.cpp:409-412, 542-544: what follows a literal *)
Definition rust_literal_suffix : M unit unit :=
  let! r := get_rem in
  let! n := lift (cpp_match_identifier r) in
  when (negb (n =? 0)) (emit_and_advance n hl_error).
(** rust.cpp:402-413 (emit_result) *)
Definition rust_emit_char (byte : bool) (n : nat) (h : N) : M unit unit :=
  when byte (emit_and_advance 1 hl_string_decor) ;;
  emit_and_advance 1 hl_string_delim ;;
  emit_and_advance n h ;;
  emit_and_advance 1 hl_string_delim ;;
  rust_literal_suffix.
(** rust.cpp:385-451 (expect_char_or_byte_literal) *)
Definition rust_expect_char : M unit bool :=
  let! r := get_rem in
  let byte := starts_with_ch r (ch "b") in
  let b := if byte then 1 else 0 in
  if length r <? 3 + b then ret false
  else
    let! q := at_ r b in
    if negb (q =? 39)%N then ret false
    else
      let start := b + 1 in
      let! c := at_ r start in
      if mem c [39; 10; 13; 9]%N then ret false
      else if (c =? 92)%N then
        let! t := substr_from r start in
        let! e := lift (rust_match_escape_sequence t rs_string) in
        if es_length e =? 0 then ret false
        else
          let! d := (if es_length e =? 2 then at_ r (start + 1) else ret 0%N) in
          if (es_length e =? 2) && (d =? 10)%N then ret false
          else
            let! t := substr_from r (start + es_length e) in
            if negb (starts_with_ch t 39) then ret false
            else rust_emit_char byte (es_length e) (if es_erroneous e then hl_error else hl_string_escape) ;; ret true
      else
        let! t := substr_from r start in
        let! d := lift (decode_and_length_or_replacement t) in
        let! t := substr_from r (start + snd d) in
        if negb (starts_with_ch t 39) then ret false
        else rust_emit_char byte (snd d) hl_string ;; ret true.

(** rust.cpp:499-512: one round of the loop over a raw string; the final flush (537) is here *)
Definition rust_raw_body (hashes len : nat) : M unit (nat + unit) :=
  let flush := when (negb (len =? 0)) (emit_and_advance len hl_string) in
  let! r := get_rem in
  if negb (len <? length r) then flush ;; ret (inr tt)
  else
    let! c := at_ r len in
    if (c =? 34)%N then
      let! t := substr_from r (len + 1) in
      let n := length_if t (fun c => (c =? ch "#")%N) in
      if hashes <=? n then flush ;; emit_and_advance (1 + n) hl_string_delim ;; ret (inr tt)
      else ret (inl (len + 1))
    else ret (inl (len + 1)).
(** rust.cpp:514-534: one round of the loop over other strings; the final flush (537) is here *)
Definition rust_string_body (t : rust_string_type) (len : nat) : M unit (nat + unit) :=
  let flush := when (negb (len =? 0)) (emit_and_advance len hl_string) in
  let! r := get_rem in
  if negb (len <? length r) then flush ;; ret (inr tt)
  else
    let! c := at_ r len in
    if (c =? 34)%N then flush ;; emit_and_advance 1 hl_string_delim ;; ret (inr tt)
    else if (c =? 92)%N then
      flush ;;
      let! r := get_rem in
      let! e := lift (rust_match_escape_sequence r t) in
      (if es_length e =? 0 then emit_and_advance 1 hl_error
       else emit_and_advance (es_length e) (if es_erroneous e then hl_error else hl_string_escape)) ;;
      ret (inl 0)
    else ret (inl (len + 1)).
(** rust.cpp:453-479 (expect_string_literal), 481-545 (consume_string_content_and_suffix) *)
Definition rust_expect_string : M unit bool :=
  let! r := get_rem in
  match classify_string_prefix r with
  | None => ret false
  | Some (prefix, t) =>
    let! p := substr_from r prefix in
    let hashes := if string_type_is_raw t then length_if p (fun c => (c =? ch "#")%N) else 0 in
    let! a := substr_from r (prefix + hashes) in
    if negb (starts_with_ch a 39) && negb (starts_with_ch a 34) then ret false
    else
      when (negb (prefix =? 0)) (emit_and_advance prefix hl_string_decor) ;;
      emit_and_advance (1 + hashes) hl_string_delim ;;
      hloop 1 (if string_type_is_raw t then rust_raw_body hashes else rust_string_body t) 0 ;;
      rust_literal_suffix ;;
      ret true
  end.

(** rust.cpp:547-554 (expect_number) *)
Definition rust_expect_number : M unit bool :=
  let! r := get_rem in
  let! n := lift (rust_match_number r) in
  if nr_length n =? 0 then ret false else highlight_number_sep n 95 ;; ret true.

(** rust.cpp:565-574 (emit_result) *)
Definition rust_emit_lifetime (delim n : nat) : M unit unit :=
  let! r := get_rem in
  let! t := substr_from r (delim + n) in
  let label := starts_with_ch t (ch ":") in
  emit_and_advance delim (if label then hl_name_label_delim else hl_name_lifetime_delim) ;;
  emit_and_advance n (if label then hl_name_label else hl_name_lifetime).
(** rust.cpp:556-604 (expect_lifetime_token). [debug]: whether ULIGHT_DEBUG_ASSERT is an assertion, which it is
    unless NDEBUG is defined (assert.hpp:73-83). *)
Definition rust_expect_lifetime (debug : bool) : M unit bool :=
  let! r := get_rem in
  if negb (starts_with_ch r 39) then ret false
  else
    let no_quote : M unit bool :=
      let! r := get_rem in
      checkM (negb debug || negb (starts_with_ch r 39)) FDebugAssert ;; ret true in
    if starts_with r (bs "'#r") then
      let! n := lift (cpp_match_identifier (skipn 3 r)) in
      if n =? 0 then ret false
      else
        (if is_illegal_raw_identifier (firstn n (skipn 3 r)) then emit_and_advance (3 + n) hl_error
         else rust_emit_lifetime 3 n) ;;
        no_quote
    else
      let! n := lift (cpp_match_identifier (skipn 1 r)) in
      if n =? 0 then ret false
      else rust_emit_lifetime 1 n ;; no_quote.

(** rust.cpp:606-614 (expect_punctuation); the highlight is the entry of the token in the table *)
Definition rust_expect_punctuation : M unit bool :=
  let! r := get_rem in
  match rust_match_punctuation r with
  | None => ret false
  | Some t =>
    match rust_token_by_code t with
    | Some h => emit_and_advance (length t) h ;; ret true
    | None => fail FUB
    end
  end.

(** rust.cpp:260-266, 280-293: the rest of a round of the main loop, with expect_token_or_comment *)
Definition rust_token (debug : bool) : M unit unit :=
  let! b := rust_expect_line_comment in if b then ret tt else
  let! b := rust_expect_block_comment in if b then ret tt else
  let! b := rust_expect_char in if b then ret tt else
  let! b := rust_expect_string in if b then ret tt else
  let! b := rust_expect_number in if b then ret tt else
  let! b := rust_expect_lifetime debug in if b then ret tt else
  let! b := rust_expect_identifier in if b then ret tt else
  let! b := rust_expect_raw_identifier in if b then ret tt else
  let! b := rust_expect_punctuation in if b then ret tt else
  emit_error_code_point.

(** rust.cpp:251-278 (operator(), consume_whitespace), 619-627 (highlight_rust) *)
Definition highlight_rust (debug : bool) : highlighter := fun src _ =>
  run tt (token_loop_utf8 is_rust_whitespace (rust_token debug) ;; ret true) src.
