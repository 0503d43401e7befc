(** * Models of the small highlighters: plain text, TeX/LaTeX, diff and EBNF. *)
From Coq Require Import List NArith ZArith Bool Arith.
From Verif Require Import M_Base M_Emit M_Types M_Chars M_Parse M_Api M_Highlighter.
Import ListNotations.

(** ** Plain text *)

(** highlight.hpp:57-65 (highlight_txt) *)
Definition highlight_txt : highlighter := fun _ _ => Ok (true, []).

(** ** TeX and LaTeX *)

(** lang/tex.hpp:15 (is_tex_special) *)
Definition is_tex_special (c : N) : bool := mem c (bs "~%$\#$&^_~@").

(** tex.cpp:32-37 (flush_text) *)
Definition tex_flush (n : nat) : M unit unit := when (negb (n =? 0)) (advance n).

(** tex.cpp:30-84 (Highlighter::operator()): the loop variable is text_length. The comparison
    chain is the switch on the character. *)
Definition tex_body (n : nat) : M unit (nat + bool) :=
  let! r := get_rem in
  if negb (n <? length r) then tex_flush n ;; ret (inr true)
  else
    let! c := at_ r n in
    if mem c (bs "[]") then
      tex_flush n ;; emit_and_advance 1 hl_symbol_square ;; ret (inl 0)
    else if mem c (bs "{}") then
      tex_flush n ;; emit_and_advance 1 hl_symbol_brace ;; ret (inl 0)
    else if (c =? ch "\")%N then
      tex_flush n ;;
      let! r := get_rem in
      checkM (1 <=? length r) FAssert ;;
      if length r =? 1 then emit_and_advance 1 hl_error ;; ret (inl 0)
      else
        let name_length := 1 + length_if (skipn 1 r) is_ascii_alpha in
        checkM (1 <=? name_length) FAssert ;;
        if name_length =? 1 then emit_and_advance 2 hl_string_escape ;; ret (inl 0)
        else emit_and_advance name_length hl_markup_tag ;; ret (inl 0)
    else if is_tex_special c then
      tex_flush n ;; emit_and_advance 1 hl_symbol_op ;; ret (inl 0)
    else ret (inl (n + 1)).

(** tex.cpp:95-103 (highlight_tex) *)
Definition highlight_tex : highlighter := fun src _ => run tt (hloop 1 tex_body 0) src.
(** highlight.hpp:66-74 (highlight_latex) *)
Definition highlight_latex : highlighter := highlight_tex.

(** ** Diff *)

(** diff.cpp:13-36 (choose_line_highlight) *)
Definition choose_line_highlight (line : str) : res N :=
  match line with
  | [] => Fail FAssert
  | c :: _ =>
    Ok (if (c =? ch "-")%N then
          if starts_with line (bs "--- ") then hl_diff_heading else hl_diff_deletion
        else if (c =? ch "+")%N then
          if starts_with line (bs "+++ ") then hl_diff_heading else hl_diff_insertion
        else if (c =? ch "*")%N then
          if starts_with line (bs "*** ")
             || match find_first_not_of line (bs "*") 0 with None => true | Some _ => false end
          then hl_diff_heading else hl_diff_common
        else if (c =? ch "!")%N then hl_diff_modification
        else if (c =? ch "@")%N then
          if starts_with line (bs "@@ ") then hl_diff_heading_hunk else hl_diff_common
        else hl_diff_common)
  end.

(** diff.cpp:63-70 (Highlighter::highlight_line) *)
Definition diff_highlight_line (line : str) : M unit unit :=
  match line with
  | [] => ret tt
  | _ => let! ty := lift (choose_line_highlight line) in emit_and_advance (length line) ty
  end.

(** diff.cpp:50-61 (Highlighter::operator()) *)
Definition diff_body : M unit unit :=
  let! r := get_rem in
  let '(content, terminator) := match_crlf_line r in
  checkM (negb (content =? 0) || negb (terminator =? 0)) FAssert ;;
  diff_highlight_line (firstn content r) ;;
  advance terminator.

(** diff.cpp:76-84 (highlight_diff) *)
Definition highlight_diff : highlighter := fun src _ =>
  run tt (while_rem diff_body ;; ret true) src.

(** ** EBNF *)

(** ebnf.cpp:20-25 (State) *)
Inductive ebnf_state := left_before_name | left_in_name | right_before_name | right_in_name.

(** lang/ebnf.hpp:10-11 (is_ebnf_relaxed_meta_identifier) *)
Definition is_ebnf_relaxed_meta_identifier (c : N) : bool :=
  is_ascii_alphanumeric c || mem c (bs "-_").

(** The member [state] and the local [previous] of operator(). *)
Definition ebnf_loc : Type := (ebnf_state * N)%type.
Definition ebnf_set (s : ebnf_state) : M ebnf_loc unit :=
  let! l := get_loc in set_loc (s, snd l).

(** ebnf.cpp:308-332 (consume_delimited) *)
Definition ebnf_consume_delimited (open close : str) (open_type content_type close_type : N)
  : M ebnf_loc unit :=
  let! r := get_rem in
  checkM (starts_with r open) FAssert ;;
  let closing_pos := find_str r close (length open) in
  emit_and_advance (length open) open_type ;;
  match closing_pos with
  | None =>
    let! r := get_rem in
    when (negb (length r =? 0)) (emit_and_advance (length r) content_type)
  | Some p =>
    when (length open <? p) (emit_and_advance (p - length open) content_type) ;;
    emit_and_advance (length close) close_type
  end.

(** ebnf.cpp:334-340 (consume_comment) *)
Definition ebnf_consume_comment : M ebnf_loc unit :=
  ebnf_consume_delimited (bs "(*") (bs "*)") hl_comment_delim hl_comment hl_comment_delim.
(** ebnf.cpp:342-349 (consume_string) *)
Definition ebnf_consume_string (quote : N) : M ebnf_loc unit :=
  ebnf_consume_delimited [quote] [quote] hl_string_delim hl_string hl_string_delim.
(** ebnf.cpp:351-356 (consume_special_sequence) *)
Definition ebnf_consume_special_sequence : M ebnf_loc unit :=
  let! r := get_rem in
  checkM (starts_with_ch r (ch "?")) FAssert ;;
  emit_and_advance (length_until r (ch "?") 1) hl_name_macro.

(** ebnf.cpp:266-270 (treat_hyphen_as_minus) *)
Definition ebnf_minus : M ebnf_loc unit :=
  ebnf_set right_before_name ;; emit_and_advance 1 hl_symbol_op.

(** ebnf.cpp:42-303 (operator()): one iteration; the comparison chain is the switch. *)
Definition ebnf_body : M ebnf_loc unit :=
  let! r := get_rem in
  let! c := at_ r 0 in
  let! l := get_loc in
  let op (ty : N) : M ebnf_loc unit := ebnf_set right_before_name ;; emit_and_advance 1 ty in
  let op2 (ty : N) : M ebnf_loc unit := ebnf_set right_before_name ;; emit_and_advance 2 ty in
  (if mem c (bs ",!|") then op hl_symbol_op
   else if (c =? ch "*")%N then
     if starts_with r (bs "*)") then emit_and_advance 2 hl_comment_delim else op hl_symbol_op
   else if (c =? ch "/")%N then
     if starts_with r (bs "/)") then op2 hl_symbol_parens else op hl_symbol_op
   else if (c =? ch ":")%N then
     if starts_with r (bs ":)") then op2 hl_symbol_brace else op hl_symbol_op
   else if mem c (bs "[]") then op hl_symbol_square
   else if mem c (bs "{}") then op hl_symbol_brace
   else if mem c [39; 34; 96]%N then ebnf_set right_before_name ;; ebnf_consume_string c
   else if mem c (bs ";.") then ebnf_set left_before_name ;; emit_and_advance 1 hl_symbol_punc
   else if (c =? ch "=")%N then op hl_symbol_punc
   else if mem c [32; 9; 13; 10; 11]%N then advance 1
   else if (c =? ch "(")%N then
     if starts_with r (bs "(*") then ebnf_consume_comment
     else if starts_with r (bs "(:") then op2 hl_symbol_brace
     else if starts_with r (bs "(/") then op2 hl_symbol_parens
     else op hl_symbol_parens
   else if (c =? ch ")")%N then op hl_symbol_parens
   else if (c =? ch "?")%N then ebnf_set right_before_name ;; ebnf_consume_special_sequence
   else if is_ascii_digit c then
     match fst l with
     | left_in_name => emit_and_advance_c true 1 hl_name_nonterminal_decl
     | right_in_name => emit_and_advance_c true 1 hl_name_nonterminal
     | _ => emit_and_advance_c true 1 hl_number
     end
   else if is_ascii_alpha c || (c =? ch "_")%N then
     match fst l with
     | left_before_name =>
       ebnf_set left_in_name ;; emit_and_advance 1 hl_name_nonterminal_decl
     | left_in_name => emit_and_advance_c true 1 hl_name_nonterminal_decl
     | right_before_name =>
       ebnf_set right_in_name ;; emit_and_advance 1 hl_name_nonterminal
     | right_in_name => emit_and_advance_c true 1 hl_name_nonterminal
     end
   else if (c =? ch "-")%N then
     match fst l with
     | left_before_name | right_before_name => ebnf_minus
     | left_in_name =>
       if is_ebnf_relaxed_meta_identifier (snd l)
       then emit_and_advance_c true 1 hl_name_nonterminal_decl else ebnf_minus
     | right_in_name =>
       if is_ebnf_relaxed_meta_identifier (snd l)
       then emit_and_advance_c true 1 hl_name_nonterminal else ebnf_minus
     end
   else emit_and_advance_c true 1 hl_error) ;;
  let! l := get_loc in set_loc (fst l, c).

(** ebnf.cpp:360-368 (highlight_ebnf) *)
Definition highlight_ebnf : highlighter := fun src _ =>
  run (left_before_name, 0%N) (while_rem ebnf_body ;; ret true) src.
