(** * Model of the CSS highlighter (src/main/cpp/lang/css.cpp, include/ulight/impl/lang/css.hpp). *)
From Coq Require Import List NArith ZArith Bool Arith.
From Verif Require Import M_Base M_Emit M_Types M_Chars M_Parse M_Api M_Utf8 M_Highlighter M_LangHtml M_LangCpp.
Import ListNotations.

(** css.hpp:16 (is_css_newline), 19 (is_css_whitespace), 21 (is_css_ascii_identifier_start), 39-40
    (is_css_ascii_identifier). The code calls is_css_identifier_start and is_css_identifier only
    with char8_t, where they are the ASCII sets (css.hpp:23-29, 42-48). *)
Definition is_css_newline (c : N) : bool := mem c [10; 13; 12]%N.
Definition is_css_whitespace (c : N) : bool := is_html_whitespace c.
Definition is_css_identifier_start (c : N) : bool := is_ascii_alpha c || (c =? ch "_")%N.
Definition is_css_identifier (c : N) : bool :=
  is_css_identifier_start c || is_ascii_digit c || (c =? ch "-")%N.

(** css.cpp:21-29 (starts_with_number) *)
Definition css_starts_with_number (s : str) : bool :=
  let s := if starts_with_ch s (ch "+") || starts_with_ch s (ch "-") then skipn 1 s else s in
  match s with
  | c :: s' => is_ascii_digit c || ((c =? ch ".")%N && match s' with d :: _ => is_ascii_digit d | [] => false end)
  | [] => false
  end.
(** css.cpp:31-35 (starts_with_valid_escape) *)
Definition starts_with_valid_escape (s : str) : bool :=
  match s with c :: d :: _ => (c =? ch "\")%N && negb (is_css_newline d) | _ => false end.
(** css.cpp:37-48 (starts_with_ident_sequence) *)
Definition starts_with_ident_sequence (s : str) : bool :=
  match s with
  | [] => false
  | c :: s' =>
    if (c =? ch "-")%N then
      match s' with d :: _ => is_css_identifier_start d | [] => false end || starts_with_valid_escape s'
    else is_css_identifier_start c || starts_with_valid_escape s
  end.

(** css.cpp:54-58: consume_digits, from [n] on *)
Definition css_digits (s : str) (n : nat) : nat := n + length_if (skipn n s) is_ascii_digit.
Definition unit_is (p : N -> bool) (s : str) (n : nat) : bool :=
  match nth_error s n with Some c => p c | None => false end.
(** css.cpp:50-81 (match_number) *)
Definition css_match_number (s : str) : nat :=
  let n := if starts_with_ch s (ch "+") || starts_with_ch s (ch "-") then 1 else 0 in
  let n := css_digits s n in
  let n := if unit_is (fun c => c =? ch ".")%N s n && unit_is is_ascii_digit s (n + 1)
           then css_digits s (n + 2) else n in
  if unit_is (fun c => (c =? ch "e")%N || (c =? ch "E")%N) s n then
    if unit_is (fun c => (c =? ch "+")%N || (c =? ch "-")%N) s (n + 1) && unit_is is_ascii_digit s (n + 2)
    then css_digits s (n + 3)
    else if unit_is is_ascii_digit s (n + 1) then css_digits s (n + 2)
    else n
  else n.

(** css.cpp:85-102 (match_escaped_code_point) *)
Definition match_escaped_code_point (s : str) : nat :=
  match s with
  | [] => 0
  | c :: _ =>
    let n := length_if (firstn 6 s) is_ascii_hex_digit in
    if negb (n =? 0) then if unit_is is_css_whitespace s n then n + 1 else n
    else sequence_length c
  end.

(** css.cpp:104-121 (match_ident_sequence): the loop; [s] is the text from [length] on. The result
    exceeds the length of the text when it ends in an escaped truncated UTF-8 sequence. *)
Fixpoint ident_sequence_loop (fuel : nat) (s : str) (len : nat) : res nat :=
  match s with
  | [] => Ok len
  | c :: s' =>
    match fuel with
    | O => Fail FFuel
    | S fuel =>
      if starts_with_valid_escape s then
        let e := match_escaped_code_point s' in
        ident_sequence_loop fuel (skipn e s') (len + 1 + e)
      else if is_css_identifier c then ident_sequence_loop fuel s' (len + 1)
      else Ok len
    end
  end.
Definition match_ident_sequence (s : str) : res nat := ident_sequence_loop (length s) s 0.

(** css.hpp:80-97 (Ident_Type, Ident_Result); css.cpp:123-142 (match_ident_like_token). What is
    compared with "url" is the text after the identifier (css.cpp:130). *)
Inductive ident_type := it_ident | it_function | it_url.
Definition match_ident_like_token (s : str) : res (nat * ident_type) :=
  let* n := match_ident_sequence s in
  let* _ := check (n <=? length s) FThrow in
  let result := skipn n s in
  Ok (n, if (n =? length s) || negb (unit_is (fun c => c =? ch "(")%N s n) then it_ident
         else if equals_ignore_case result (bs "url") then it_url
         else it_function).

(** css.cpp:154-163 (Context) and the members of css::Highlighter (169-170) *)
Inductive css_context := cx_top_level | cx_at_prelude | cx_block | cx_value.
Record css_loc := mk_css_loc { brace_level : nat; cx : css_context }.
Definition set_context (c : css_context) : M css_loc unit :=
  let! l := get_loc in set_loc (mk_css_loc (brace_level l) c).
(** css.cpp:165 (selector_highlight_type) *)
Definition selector_highlight_type : N := hl_markup_tag.

(** css.cpp:410-413 (consume_whitespace) *)
Definition css_consume_whitespace : M css_loc unit :=
  let! r := get_rem in advance (html_match_whitespace r).

(** css.cpp:415-430 (consume_comments) *)
Definition css_consume_comments : M css_loc unit :=
  hloop 1 (fun _ : unit =>
    let! r := get_rem in
    let b := cpp_match_block_comment r in
    if en_length b =? 0 then ret (inr tt)
    else
      let! i := get_idx in
      let term := if en_terminated b then 2 else 0 in
      emit_at false i 2 hl_comment_delim ;;
      let content := en_length b - 2 - term in
      when (negb (content =? 0)) (emit_at false (i + 2) content hl_comment) ;;
      when (en_terminated b) (emit_at false (i + en_length b - 2) 2 hl_comment_delim) ;;
      advance (en_length b) ;; ret (inl tt)) tt.

(** css.cpp:481-513 (consume_ident_like_token): the flush lambda and one iteration *)
Definition ident_flush (len : nat) (ty : N) : M css_loc unit :=
  when (negb (len =? 0)) (emit_and_advance_c true len ty).
Definition ident_like_body (ty : N) (len : nat) : M css_loc (nat + unit) :=
  let! r := get_rem in
  if len <? length r then
    let! s := substr_from r len in
    if starts_with_valid_escape s then
      ident_flush len ty ;;
      let! r := get_rem in
      let! s := substr_from r 1 in
      emit_and_advance (match_escaped_code_point s + 1) hl_string_escape ;; ret (inl 0)
    else
      let! c := at_ r len in
      if is_css_identifier c then ret (inl (len + 1))
      else ident_flush len ty ;; ret (inr tt)
  else ident_flush len ty ;; ret (inr tt).
Definition css_consume_ident_like_token (default_type : N) : M css_loc unit :=
  let! r := get_rem in
  let! nt := lift (match_ident_like_token r) in
  checkM (negb (fst nt =? 0)) FAssert ;;
  let ty := if negb (default_type =? hl_name)%N then default_type
            else match snd nt with
                 | it_function => hl_name_function
                 | it_url => hl_keyword
                 | it_ident => hl_name
                 end in
  hloop 1 (ident_like_body ty) 0.

(** css.cpp:474-479 (consume_number) *)
Definition css_consume_number : M css_loc unit :=
  let! r := get_rem in
  let n := css_match_number r in
  checkM (negb (n =? 0)) FAssert ;; emit_and_advance n hl_number.
(** css.cpp:432-442 (consume_numeric_token) *)
Definition css_consume_numeric_token : M css_loc unit :=
  css_consume_number ;;
  let! r := get_rem in
  if starts_with_ident_sequence r then css_consume_ident_like_token hl_number_decor
  else when (starts_with_ch r (ch "%")) (emit_and_advance 1 hl_number_decor).

(** css.cpp:444-472 (consume_string_token) *)
Definition string_flush (len : nat) : M css_loc unit :=
  when (negb (len =? 0)) (emit_and_advance len hl_string).
Definition css_string_body (quote : N) (len : nat) : M css_loc (nat + unit) :=
  let! r := get_rem in
  if len <? length r then
    let! c := at_ r len in
    if (c =? quote)%N then string_flush (len + 1) ;; ret (inr tt)
    else if is_css_newline c then string_flush len ;; ret (inr tt)
    else if (c =? ch "\")%N then
      string_flush len ;;
      let! r := get_rem in
      let! s := substr_from r 1 in
      emit_and_advance (match_escaped_code_point s + 1) hl_string_escape ;; ret (inl 0)
    else ret (inl (len + 1))
  else string_flush len ;; ret (inr tt).
Definition css_consume_string_token (quote : N) : M css_loc unit :=
  hloop 1 (css_string_body quote) 1.

(** css.cpp:190-194 *)
Definition contextual_highlight_type (c : css_context) : N :=
  match c with
  | cx_top_level => selector_highlight_type
  | cx_at_prelude => hl_name_macro
  | cx_block => hl_markup_attr
  | cx_value => hl_name
  end.

(** css.cpp:196-405: the switch over the first character [c] of the remainder [r]. *)
Definition css_switch (c : N) (r : str) (l : css_loc) : M css_loc unit :=
  let ctx := cx l in
  let hl := contextual_highlight_type ctx in
  let top := match ctx with cx_top_level => true | _ => false end in
  if mem c [32; 9; 13; 10; 12]%N then css_consume_whitespace
  else if (c =? 34)%N || (c =? 39)%N then css_consume_string_token c
  else if (c =? ch "#")%N then
    if unit_is is_css_identifier r 1 || starts_with_valid_escape (skipn 1 r) then
      let ty := match ctx with cx_value => hl_value | _ => hl end in
      emit_and_advance 1 ty ;; css_consume_ident_like_token ty
    else advance 1
  else if (c =? ch "(")%N || (c =? ch ")")%N then emit_and_advance 1 hl_symbol_parens
  else if (c =? ch ".")%N then
    if css_starts_with_number r then css_consume_numeric_token
    else if top then emit_and_advance_c true 1 selector_highlight_type
    else advance 1
  else if (c =? ch "+")%N || (c =? ch "-")%N then
    if css_starts_with_number r then css_consume_numeric_token
    else if (c =? ch "-")%N && starts_with r (bs "-->") then emit_and_advance 3 hl_comment_delim
    else if (c =? ch "-")%N && starts_with_ident_sequence (skipn 1 r) then
      css_consume_ident_like_token hl_name
    else emit_and_advance 1 (match ctx with cx_value | cx_at_prelude => hl_symbol_op | _ => hl_error end)
  else if (c =? ch ",")%N then emit_and_advance 1 hl_symbol_punc
  else if (c =? ch ":")%N then
    match ctx with
    | cx_top_level => emit_and_advance_c true 1 selector_highlight_type
    | cx_block => set_context cx_value ;; emit_and_advance 1 hl_symbol_punc
    | cx_at_prelude | cx_value => emit_and_advance 1 hl_symbol_punc
    end
  else if (c =? ch ";")%N then
    match ctx with
    | cx_value => set_context cx_block
    | cx_at_prelude => set_context cx_top_level
    | _ => ret tt
    end ;; emit_and_advance 1 hl_symbol_punc
  else if (c =? ch "<")%N then
    if starts_with r (bs "<!--") then emit_and_advance 4 hl_comment_delim
    else emit_and_advance 1 hl_symbol_op
  else if (c =? ch ">")%N || (c =? ch "~")%N || (c =? ch "*")%N then
    if top then emit_and_advance_c true 1 selector_highlight_type
    else emit_and_advance 1 hl_symbol_op
  else if (c =? ch "@")%N then
    set_context cx_at_prelude ;;
    if starts_with_ident_sequence (skipn 1 r) then
      emit_and_advance 1 hl_name_macro_delim ;; css_consume_ident_like_token hl_name_macro
    else emit_and_advance 1 hl_error
  else if (c =? ch "!")%N then
    let white := html_match_whitespace (skipn 1 r) in
    let! s := substr_from r (1 + white) in
    let! n := lift (match_ident_sequence s) in
    if negb (n =? 0) && starts_with_ignore_case (firstn n s) (bs "important")
    then emit_and_advance (1 + white + 9) hl_keyword
    else advance 1
  else if (c =? ch "[")%N || (c =? ch "]")%N then emit_and_advance 1 hl_symbol_square
  else if (c =? ch "\")%N then
    if starts_with_valid_escape r then css_consume_ident_like_token hl
    else emit_and_advance 1 hl_error
  else if (c =? ch "{")%N then
    set_loc (mk_css_loc (brace_level l + 1) cx_block) ;; emit_and_advance 1 hl_symbol_brace
  else if (c =? ch "}")%N then
    let level := brace_level l - 1 in
    set_loc (mk_css_loc level (if level =? 0 then cx_top_level else ctx)) ;;
    emit_and_advance 1 hl_symbol_brace
  else if is_ascii_digit c then css_consume_numeric_token
  else if is_css_identifier_start c then css_consume_ident_like_token hl
  else advance (sequence_length c).

(** css.cpp:182-408 (operator()): one iteration *)
Definition css_body : M css_loc unit :=
  css_consume_comments ;;
  let! r := get_rem in
  match r with
  | [] => ret tt
  | c :: _ => let! l := get_loc in css_switch c r l
  end.

(** css.cpp:521-529 (highlight_css) *)
Definition highlight_css : highlighter := fun src _ =>
  run (mk_css_loc 0 cx_top_level) (while_rem css_body ;; ret true) src.
