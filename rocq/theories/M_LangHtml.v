(** * Model of HTML highlighting (src/main/cpp/lang/html.cpp, include/ulight/impl/lang/html.hpp). *)
From Coq Require Import List NArith ZArith Bool Arith.
From Verif Require Import M_Base M_Emit M_Types M_Chars M_Parse M_Utf8 M_Api M_Highlighter.
Import ListNotations.

(** ** Characters *)

(** unicode_chars.hpp:72-88 (is_noncharacter) *)
Definition is_noncharacter (c : N) : bool :=
  between 0xFDD0 0xFDEF c || mem (N.land c 0xFFFF) [0xFFFE; 0xFFFF]%N.

(** html.hpp:43-77 (is_html_tag_name_character) *)
Definition is_html_tag_name_character (c : N) : bool :=
  is_ascii_alphanumeric c || mem c (bs "-._" ++ [0xB7%N])
  || between 0xC0 0xD6 c || between 0xD8 0xF6 c || between 0xF8 0x37D c || between 0x37F 0x1FFF c
  || between 0x200C 0x200D c || between 0x203F 0x2040 c || between 0x2070 0x218F c
  || between 0x2C00 0x2FEF c || between 0x3001 0xD7FF c || between 0xF900 0xFDCF c
  || between 0xFDF0 0xFFFD c || between 0x10000 0xEFFFF c.

(** html.hpp:24-32 (is_html_ascii_control), 87-90 (is_html_ascii_attribute_name_character) *)
Definition is_html_ascii_control (c : N) : bool := (c <=? 0x1F)%N || (c =? 0x7F)%N.
Definition is_html_ascii_attribute_name_character (c : N) : bool :=
  is_ascii c && negb (is_html_ascii_control c) && negb (mem c (34%N :: bs " '>/=")).
(** html.hpp:92-100 (is_html_attribute_name_character) *)
Definition is_html_attribute_name_character (c : N) : bool :=
  if is_ascii c then is_html_ascii_attribute_name_character c else negb (is_noncharacter c).
(** html.hpp:106-107 (is_html_unquoted_attribute_value_terminator) *)
Definition is_html_unquoted_attribute_value_terminator (c : N) : bool :=
  is_html_whitespace c || mem c (34%N :: bs "'=<>`").

(** ** Matchers *)

(** html.cpp:32-41 (is_character_reference_content) *)
Definition is_character_reference_content (s : str) : bool :=
  if starts_with s (bs "#x") then (2 <? length s) && forallb is_ascii_hex_digit (skipn 2 s)
  else if starts_with_ch s (ch "#") then (1 <? length s) && forallb is_ascii_digit (skipn 1 s)
  else negb (length s =? 0) && forallb is_ascii_alphanumeric s.
(** html.cpp:45-48 (match_whitespace) *)
Definition html_match_whitespace (s : str) : nat := length_if s is_html_whitespace.
(** html.cpp:50-59 (match_character_reference) *)
Definition match_character_reference (s : str) : nat :=
  if negb (starts_with_ch s (ch "&")) then 0
  else match find_ch s (ch ";") 1 with
       | Some r => if is_character_reference_content (substr s 1 (r - 1)) then r + 1 else 0
       | None => 0
       end.
(** html.cpp:61-65 (match_tag_name), 67-71 (match_attribute_name) *)
Definition match_tag_name (s : str) : res nat := utf8_length_if s is_html_tag_name_character.
Definition match_attribute_name (s : str) : res nat := utf8_length_if s is_html_attribute_name_character.

(** html.cpp:73-111 (match_raw_text); the loop. *)
Fixpoint match_raw_text_loop (fuel : nat) (s closing : str) (len : nat) : res nat :=
  match s with
  | [] => Ok len
  | _ =>
    match fuel with
    | O => Fail FFuel
    | S fuel =>
      match find_str s (bs "</") 0 with
      | None => Ok (len + length s)
      | Some safe =>
        let len := len + safe in
        let* s := M_Utf8.remove_prefix s safe in
        let new_length := len + 2 in
        let* s := M_Utf8.remove_prefix s 2 in
        if negb (starts_with_ignore_case s closing) then match_raw_text_loop fuel s closing new_length
        else
          let new_length := new_length + length closing in
          let* s := M_Utf8.remove_prefix s (length closing) in
          match s with
          | [] => Ok new_length
          | c :: _ =>
            if is_html_whitespace c || (c =? ch ">")%N || (c =? ch "/")%N then Ok len
            else let* s := M_Utf8.remove_prefix s 2 in match_raw_text_loop fuel s closing (len + 2)
          end
      end
    end
  end.
Definition match_raw_text (s closing : str) : res nat := match_raw_text_loop (length s) s closing 0.

(** html.cpp:113-160 (match_escapable_raw_text_piece): raw_length and ref_length *)
Fixpoint match_escapable_loop (fuel : nat) (s closing : str) (len : nat) : res (nat * nat) :=
  match s with
  | [] => Ok (len, 0)
  | _ =>
    match fuel with
    | O => Fail FFuel
    | S fuel =>
      match find_first_of s (bs "<&") 0 with
      | None => Ok (len + length s, 0)
      | Some safe =>
        let len := len + safe in
        let* s := M_Utf8.remove_prefix s safe in
        let ref := match_character_reference s in
        if negb (ref =? 0) then Ok (len, ref)
        else if negb (starts_with s (bs "</")) then
          let* s := M_Utf8.remove_prefix s 1 in match_escapable_loop fuel s closing (len + 1)
        else
          let new_length := len + 2 in
          let* s := M_Utf8.remove_prefix s 2 in
          if negb (starts_with_ignore_case s closing) then match_escapable_loop fuel s closing new_length
          else
            let new_length := new_length + length closing in
            let* s := M_Utf8.remove_prefix s (length closing) in
            match s with
            | [] => Ok (new_length, 0)
            | c :: _ =>
              if is_html_whitespace c || (c =? ch ">")%N || (c =? ch "/")%N then Ok (len, 0)
              else match_escapable_loop fuel s closing len
            end
      end
    end
  end.
Definition match_escapable_raw_text_piece (s closing : str) : res (nat * nat) :=
  match_escapable_loop (length s) s closing 0.

(** html.cpp:162-199 (match_comment); Match_Result is [enclosed]. *)
Fixpoint html_comment_loop (fuel : nat) (s : str) (len : nat) : res enclosed :=
  match s with
  | [] => Ok (mk_enclosed len false)
  | _ =>
    match fuel with
    | O => Fail FFuel
    | S fuel =>
      match find_first_of s (bs "<-") 0 with
      | None => Ok (mk_enclosed (len + length s) false)
      | Some plain =>
        let* s := M_Utf8.remove_prefix s plain in
        let len := len + plain in
        if starts_with s (bs "-->") then Ok (mk_enclosed (len + 3) true)
        else if starts_with s (bs "<!--") then
          if starts_with s (bs "<!-->") then Ok (mk_enclosed (len + 5) true) else Ok (mk_enclosed 0 false)
        else if starts_with s (bs "--!>") then Ok (mk_enclosed 0 false)
        else let* s := M_Utf8.remove_prefix s 1 in html_comment_loop fuel s (len + 1)
      end
    end
  end.
Definition html_match_comment (s : str) : res enclosed :=
  if negb (starts_with s (bs "<!--")) then Ok (mk_enclosed 0 false)
  else
    let* s := M_Utf8.remove_prefix s 4 in
    if starts_with_ch s (ch ">") || starts_with s (bs "->") then Ok (mk_enclosed 0 false)
    else html_comment_loop (length s) s 4.

(** html.cpp:201-212 (match_doctype_permissive) *)
Definition match_doctype_permissive (s : str) : enclosed :=
  if negb (starts_with_ignore_case s (bs "<!DOCTYPE")) then mk_enclosed 0 false
  else match find_ch s (ch ">") 9 with
       | None => mk_enclosed (length s) false
       | Some r => mk_enclosed (r + 1) true
       end.
(** html.cpp:214-225 (match_cdata) *)
Definition match_cdata (s : str) : enclosed := match_enclosed s (bs "<![CDATA[") (bs "]]>").

(** html.cpp:227-255 (match_end_tag_permissive): length and name_length *)
Definition match_end_tag_permissive (s : str) : res (nat * nat) :=
  if negb (starts_with s (bs "</")) then Ok (0, 0)
  else
    let* r := ascii_find_checked s 2 (fun c => is_html_whitespace c || (c =? ch ">")%N) true in
    match r with
    | None => Ok (0, 0)
    | Some name_end =>
      let name_length := name_end - 2 in
      if name_length =? 0 then Ok (0, 0)
      else match nth_error s name_end with
           | None => Fail FUB
           | Some c =>
             if (c =? ch ">")%N then Ok (name_end + 1, name_length)
             else match find_ch s (ch ">") name_end with
                  | None => Ok (0, 0)
                  | Some end_pos => Ok (end_pos, name_length)
                  end
           end
    end.

(** ** Highlighter *)
Section Html.
(** The highlighters of the nested languages and the strict option passed on to them. *)
Variables (js css : highlighter) (strict : bool).
Notation H := (M unit).

(** html.cpp:290-297 (expect_bom) *)
Definition html_expect_bom : H unit :=
  let! r := get_rem in when (starts_with r [0xEF; 0xBB; 0xBF]%N) (advance 3).
(** html.cpp:299-306 (expect_doctype) *)
Definition html_expect_doctype : H bool :=
  let! r := get_rem in
  let e := match_doctype_permissive r in
  if en_length e =? 0 then ret false else emit_and_advance (en_length e) hl_name_macro ;; ret true.
(** html.cpp:308-323 (expect_cdata) *)
Definition html_expect_cdata : H bool :=
  let! r := get_rem in
  let e := match_cdata r in
  if en_length e =? 0 then ret false
  else
    let! i := get_idx in
    emit_at false i 9 hl_name_macro ;;
    when (en_terminated e) (emit_at false (i + en_length e - 3) 3 hl_name_macro) ;;
    advance (en_length e) ;;
    ret true.
(** html.cpp:325-332 (expect_whitespace) *)
Definition html_expect_whitespace : H unit :=
  let! r := get_rem in
  let n := html_match_whitespace r in
  when (negb (n =? 0)) (advance n).
(** html.cpp:334-353 (expect_comment) *)
Definition html_expect_comment : H bool :=
  let! r := get_rem in
  let! e := lift (html_match_comment r) in
  if en_length e =? 0 then ret false
  else
    emit_and_advance 4 hl_comment_delim ;;
    let len := en_length e - 4 in
    (if en_terminated e then
       when (3 <? len) (emit_and_advance (len - 3) hl_comment) ;;
       emit_and_advance 3 hl_comment_delim
     else when (negb (len =? 0)) (emit_and_advance len hl_comment)) ;;
    ret true.

(** html.cpp:441-448, 472-479 (flush) *)
Definition html_flush (piece : nat) : H unit := when (negb (piece =? 0)) (emit_and_advance piece hl_string).
(** html.cpp:438-464 (expect_unquoted_attribute_value), the loop; the variable is piece_length. *)
Definition html_unquoted_body (piece : nat) : H (nat + bool) :=
  let! r := get_rem in
  if negb (piece <? length r) then html_flush piece ;; ret (inr true)
  else
    let! c := at_ r piece in
    if is_html_unquoted_attribute_value_terminator c then html_flush piece ;; ret (inr true)
    else
      let! s := substr_from r piece in
      let ref := match_character_reference s in
      if negb (ref =? 0) then html_flush piece ;; emit_and_advance ref hl_string_escape ;; ret (inl 1)
      else ret (inl (piece + 1)).
Definition html_expect_unquoted : H bool := hloop 2 html_unquoted_body 0.
(** html.cpp:466-497 (expect_quoted_attribute_value) *)
Definition html_quoted_body (quote : N) (piece : nat) : H (nat + bool) :=
  let! r := get_rem in
  if negb (piece <? length r) then html_flush piece ;; ret (inr true)
  else
    let! c := at_ r piece in
    if (c =? quote)%N then html_flush (piece + 1) ;; ret (inr true)
    else
      let! s := substr_from r piece in
      let ref := match_character_reference s in
      if negb (ref =? 0) then html_flush piece ;; emit_and_advance ref hl_string_escape ;; ret (inl 1)
      else ret (inl (piece + 1)).
Definition html_expect_quoted (quote : N) : H bool :=
  let! r := get_rem in
  if negb (starts_with_ch r quote) then ret false else hloop 2 (html_quoted_body quote) 1.
(** html.cpp:415-436 (expect_attribute) *)
Definition html_expect_attribute : H bool :=
  let! r := get_rem in
  let! n := lift (match_attribute_name r) in
  if n =? 0 then ret false
  else
    emit_and_advance n hl_markup_attr ;;
    html_expect_whitespace ;;
    let! r := get_rem in
    if negb (starts_with_ch r (ch "=")) then ret true
    else
      emit_and_advance 1 hl_symbol_punc ;;
      html_expect_whitespace ;;
      let! a := html_expect_quoted 34 in
      if a then ret true else
      let! b := html_expect_quoted 39 in
      if b then ret true else html_expect_unquoted.

(** html.cpp:404-413 (consume_nested_css_or_js) *)
Definition html_consume_nested (h : highlighter) (len : nat) : H unit :=
  if len =? 0 then ret tt
  else let! ok := consume_nested h strict len 1024 in checkM ok FAssert.

(** html.cpp:367-383: the loop over the attributes of a start tag. The result is false when the
    function returns from inside the loop. *)
Definition html_tag_body (_ : unit) : H (unit + bool) :=
  let! e := eof in
  if e then ret (inr true)
  else
    html_expect_whitespace ;;
    let! r := get_rem in
    if starts_with r (bs "/>") then emit_and_advance 2 hl_symbol_punc ;; ret (inr true)
    else if starts_with_ch r (ch ">") then emit_and_advance 1 hl_symbol_punc ;; ret (inr true)
    else let! a := html_expect_attribute in if a then ret (inl tt) else ret (inr false).
(** html.cpp:390-398: the loop over escapable raw text *)
Definition html_escapable_body (name : str) (_ : unit) : H (unit + unit) :=
  let! r := get_rem in
  let! p := lift (match_escapable_raw_text_piece r name) in
  if (fst p =? 0) && (snd p =? 0) then ret (inr tt)
  else
    advance (fst p) ;;
    when (negb (snd p =? 0)) (emit_and_advance (snd p) hl_string_escape) ;;
    ret (inl tt).
(** html.cpp:355-402 (expect_start_tag_permissive) *)
Definition html_expect_start_tag : H bool :=
  let! r := get_rem in
  if negb (starts_with_ch r (ch "<")) then ret false
  else
    emit_and_advance 1 hl_symbol_punc ;;
    let! r := get_rem in
    let! n := lift (match_tag_name r) in
    if n =? 0 then ret true
    else
      let name := firstn n r in
      emit_and_advance n hl_markup_tag ;;
      let! go := hloop 1 html_tag_body tt in
      if negb go then ret true
      else if equals_ignore_case name (bs "textarea") || equals_ignore_case name (bs "title") then
        hloop 1 (html_escapable_body name) tt ;; ret true
      else if equals_ignore_case name (bs "script") then
        let! r := get_rem in
        let! len := lift (match_raw_text r (bs "script")) in
        html_consume_nested js len ;; ret true
      else if equals_ignore_case name (bs "style") then
        let! r := get_rem in
        let! len := lift (match_raw_text r (bs "style")) in
        html_consume_nested css len ;; ret true
      else ret true.

(** html.cpp:499-512 (expect_end_tag) *)
Definition html_expect_end_tag : H bool :=
  let! r := get_rem in
  let! e := lift (match_end_tag_permissive r) in
  if fst e =? 0 then ret false
  else
    checkM (negb (snd e =? 0)) FDebugAssert ;;
    let! i := get_idx in
    emit_at false i 2 hl_symbol_punc ;;
    emit_at false (i + 2) (snd e) hl_markup_tag ;;
    emit_at false (i + fst e - 1) 1 hl_symbol_punc ;;
    advance (fst e) ;;
    ret true.
(** html.cpp:534-542 (expect_character_reference) *)
Definition html_expect_reference : H bool :=
  let! r := get_rem in
  let n := match_character_reference r in
  if n =? 0 then ret false
  else let! i := get_idx in emit_at false i n hl_string_escape ;; advance n ;; ret true.
(** html.cpp:514-532 (expect_normal_text) *)
Definition html_text_body (_ : unit) : H (unit + unit) :=
  let! e := eof in
  if e then ret (inr tt)
  else
    let! r := get_rem in
    match find_first_of r (bs "<&") 0 with
    | None => advance (length r) ;; ret (inr tt)
    | Some safe =>
      let! c := at_ r safe in
      if (c =? ch "<")%N then advance safe ;; ret (inr tt)
      else
        let! b := html_expect_reference in
        (if b then ret tt else advance 1) ;; ret (inl tt)
    end.
Definition html_expect_normal_text : H bool := hloop 1 html_text_body tt ;; ret true.

(** html.cpp:271-287 (operator()): one turn of the loop. The final assertion cannot be reached:
    expect_normal_text returns true. *)
Definition html_body : H unit :=
  let! a := html_expect_comment in if a then ret tt else
  let! a := html_expect_doctype in if a then ret tt else
  let! a := html_expect_cdata in if a then ret tt else
  let! a := html_expect_end_tag in if a then ret tt else
  let! a := html_expect_start_tag in if a then ret tt else
  let! a := html_expect_normal_text in if a then ret tt else
  fail FAssert.
End Html.

(** html.cpp:551-559 (highlight_html) *)
Definition highlight_html (js css : highlighter) : highlighter := fun src strict =>
  run tt (html_expect_bom ;; while_rem (html_body js css strict) ;; ret true) src.
