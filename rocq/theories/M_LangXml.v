(** * Model of XML highlighting (src/main/cpp/lang/xml.cpp, include/ulight/impl/lang/xml.hpp). *)
From Coq Require Import List NArith ZArith Bool Arith.
From Verif Require Import M_Base M_Emit M_Types M_Chars M_Parse M_Utf8 M_Api M_Highlighter M_LangHtml.
Import ListNotations.

(** ** Characters *)
(** xml.hpp:14 (is_xml_whitespace); Charset256 contains no code point from 256 on. *)
Definition is_xml_whitespace (c : N) : bool := mem c [32; 9; 10; 13]%N.
(** xml.hpp:16-43 (is_xml_name_start) *)
Definition is_xml_name_start (c : N) : bool :=
  is_ascii_alpha c || mem c (bs ":_")
  || between 0xC0 0xD6 c || between 0xD8 0xF6 c || between 0xF8 0x2FF c || between 0x370 0x37D c || between 0x37F 0x1FFF c
  || between 0x200C 0x200D c || between 0x2070 0x218F c || between 0x2C00 0x2FEF c || between 0x3001 0xD7FF c
  || between 0xF900 0xFDCF c || between 0xFDF0 0xFFFD c || between 0x10000 0xEFFEF c.
(** xml.hpp:45-62 (is_xml_name) *)
Definition is_xml_name (c : N) : bool :=
  is_ascii_digit c || is_xml_name_start c || mem c [58; 46; 0xB7]%N || between 0x300 0x36F c || between 0x203F 0x2040 c.

(** ** Matchers *)
(** xml.cpp:47-65 (match_name): one step per code unit. *)
Fixpoint xml_match_name (s : str) : res nat :=
  match s with
  | [] => Ok 0
  | _ :: t =>
    let* d := decode_and_length_or_replacement s in
    if negb (is_xml_name (fst d)) then Ok 0 else let* n := xml_match_name t in Ok (S n)
  end.
(** xml.cpp:24-27 (attlist_att_types, default_decl_types) *)
Definition xml_att_types : list str :=
  [bs "CDATA"; bs "IDREFS"; bs "IDREF"; bs "ID"; bs "ENTITY"; bs "ENTITIES"; bs "NMTOKENS"; bs "NMTOKEN"; bs "NOTATION"].
Definition xml_default_decl_types : list str := [bs "#REQUIRED"; bs "#IMPLIED"; bs "#FIXED"].
(** The length of the first string in [l] that satisfies [f], 0 if there is none. *)
Fixpoint first_length (f : str -> bool) (l : list str) : nat :=
  match l with [] => 0 | x :: l => if f x then length x else first_length f l end.
(** xml.cpp:67-84 (match_att_type) *)
Definition xml_match_att_type (s : str) : nat :=
  let word := firstn (length_if_not s (fun c => is_xml_whitespace c || (c =? ch ">")%N)) s in
  first_length (str_eqb word) xml_att_types.
(** xml.cpp:86-96 (match_default_decl_type) *)
Definition xml_match_default_decl_type (s : str) : nat := first_length (starts_with s) xml_default_decl_types.
(** xml.cpp:98-110 (match_external_id_type) *)
Definition xml_match_external_id_type (s : str) : nat := first_length (starts_with s) [bs "PUBLIC"; bs "SYSTEM"].
(** xml.cpp:112-124 (match_content_spec_type) *)
Definition xml_match_content_spec_type (s : str) : nat := first_length (starts_with s) [bs "EMPTY"; bs "ANY"].
(** xml.cpp:126-130 (match_ndata_decl), 132-136 (match_pcdata_decl) *)
Definition xml_match_ndata (s : str) : nat := if starts_with s (bs "NDATA") then 5 else 0.
Definition xml_match_pcdata (s : str) : nat := if starts_with s (bs "#PCDATA") then 7 else 0.
(** xml.cpp:138-142 (match_whitespace), 144-148 (match_text) *)
Definition xml_match_whitespace (s : str) : nat := length_if s is_xml_whitespace.
Definition xml_match_text (s : str) : nat := length_if_not s (fun c => (c =? ch "<")%N || (c =? ch "&")%N).
(** xml.cpp:150-174 (match_comment): the loop after the prefix. *)
Fixpoint xml_comment_loop (s : str) (len : nat) : enclosed :=
  match s with
  | [] => mk_enclosed len false
  | _ :: t =>
    if starts_with s (bs "-->") then mk_enclosed (len + 3) true
    else if starts_with s (bs "--") then mk_enclosed len false
    else xml_comment_loop t (len + 1)
  end.
Definition xml_match_comment (s : str) : enclosed :=
  if negb (starts_with s (bs "<!--")) then mk_enclosed 0 false else xml_comment_loop (skipn 4 s) 4.
(** xml.cpp:176-187 (match_entity_reference), 189-202 (match_pe_reference): [c] is the first character. *)
Definition xml_match_reference (c : N) (s : str) : res nat :=
  if negb (starts_with_ch s c) then Ok 0
  else match find_ch s (ch ";") 1 with
       | None => Ok 0
       | Some r =>
         let content := substr s 1 (r - 1) in
         let* n := xml_match_name content in
         Ok (if n =? length content then r + 1 else 0)
       end.
Definition xml_match_entity_reference : str -> res nat := xml_match_reference (ch "%").
Definition xml_match_pe_reference : str -> res nat := xml_match_reference (ch "&").

(** ** Highlighter *)
Notation X := (M unit).

(** xml.cpp:769-774 (expect_whitespace) *)
Definition xml_expect_whitespace : X bool :=
  let! r := get_rem in let n := xml_match_whitespace r in advance n ;; ret (negb (n =? 0)).

(** xml.cpp:736-767 (expect_name); the loop variables are total_length and piece_length. *)
Definition xml_flush (piece : nat) (ty : N) : X unit := when (negb (piece =? 0)) (emit_and_advance piece ty).
Definition xml_name_body (ty : N) (stop : str -> bool) (v : nat * nat) : X (nat * nat + nat) :=
  let '(total, piece) := v in
  let! r := get_rem in
  if negb (piece <? length r) then xml_flush piece ty ;; ret (inr total)
  else
    let! s := substr_from r piece in
    if stop s then xml_flush piece ty ;; ret (inr total)
    else
      let! d := lift (decode_and_length_or_replacement s) in
      if ((total =? 0) && negb (is_xml_name_start (fst d))) || negb (is_xml_name (fst d)) then
        xml_flush piece ty ;; emit_and_advance 1 hl_error ;; ret (inl (total + 1, 0))
      else ret (inl (total + snd d, piece + snd d)).
Definition xml_expect_name (ty : N) (stop : str -> bool) : X nat := hloop 1 (xml_name_body ty stop) (0, 0).

(** xml.cpp:531-539 (expect_reference) *)
Definition xml_expect_reference : X bool :=
  let! r := get_rem in
  let n := match_character_reference r in
  if negb (n =? 0) then emit_and_advance n hl_string_escape ;; ret true else ret false.

(** xml.cpp:607-658 (expect_attribute_value); the loop variable is piece_length. *)
Definition xml_highlight_piece (piece : nat) : X unit :=
  let! r := get_rem in when (negb (piece =? 0) && (piece <=? length r)) (emit_and_advance piece hl_string).
Definition xml_value_body (quote : N) (piece : nat) : X (nat + nat) :=
  let! r := get_rem in
  if negb (piece <? length r) then ret (inr piece)
  else
    let! c := at_ r piece in
    if (c =? quote)%N then ret (inr piece)
    else
      let! s := substr_from r piece in
      let ref := match_character_reference s in
      if ((c =? ch "&")%N && (ref =? 0)) || (c =? ch "<")%N then
        xml_highlight_piece piece ;; emit_and_advance 1 hl_error ;; ret (inl 0)
      else if (c =? ch "&")%N && negb (ref =? 0) then
        xml_highlight_piece piece ;; xml_expect_reference ;; ret (inl 0)
      else ret (inl (piece + 1)).
Definition xml_expect_value : X bool :=
  let! r := get_rem in
  let value (quote : N) : X bool :=
    emit_and_advance 1 hl_string_delim ;;
    let! piece := hloop 2 (xml_value_body quote) 0 in
    xml_highlight_piece piece ;;
    let! r := get_rem in
    when (starts_with_ch r quote) (emit_and_advance 1 hl_string_delim) ;;
    ret true in
  if starts_with_ch r 39 then value 39%N
  else if starts_with_ch r 34 then value 34%N
  else ret false.

(** xml.cpp:660-685 (expect_comment) *)
Definition xml_expect_comment : X bool :=
  let! r := get_rem in
  let e := xml_match_comment r in
  if en_length e =? 0 then ret false
  else
    let n := en_length e - 4 - (if en_terminated e then 3 else 0) in
    emit_and_advance 4 hl_comment_delim ;;
    when (negb (n =? 0)) (emit_and_advance n hl_comment) ;;
    when (en_terminated e) (emit_and_advance 3 hl_comment_delim) ;;
    ret true.

(** xml.cpp:470-505 (expect_processing_instruction) *)
Definition xml_pi_stop (s : str) : bool := negb (xml_match_whitespace s =? 0) || starts_with s (bs "?>").
Definition xml_pi_body (_ : unit) : X (unit + unit) :=
  let! r := get_rem in
  if match r with [] => true | _ => starts_with r (bs "?>") end then ret (inr tt) else advance 1 ;; ret (inl tt).
Definition xml_expect_pi : X bool :=
  let! r := get_rem in
  if negb (starts_with r (bs "<?")) then ret false
  else
    emit_and_advance 2 hl_symbol_punc ;;
    let! n := xml_expect_name hl_name_macro xml_pi_stop in
    if n =? 0 then ret true
    else
      let! r := get_rem in
      if contains_ignore_case (firstn n r) (bs "xml") then ret true
      else
        xml_expect_whitespace ;;
        hloop 1 xml_pi_body tt ;;
        let! r := get_rem in
        when (starts_with r (bs "?>")) (emit_and_advance 2 hl_symbol_punc) ;;
        ret true.

(** xml.cpp:507-529 (expect_cdata_section) *)
Definition xml_expect_cdata : X bool :=
  let! r := get_rem in
  let e := match_cdata r in
  if en_length e =? 0 then ret false
  else
    let n := en_length e - 9 - (if en_terminated e then 3 else 0) in
    emit_and_advance 9 hl_name_macro ;;
    advance n ;;
    when (en_terminated e) (emit_and_advance 3 hl_name_macro) ;;
    ret true.

(** xml.cpp:583-605 (expect_attribute) *)
Definition xml_attribute_stop (s : str) : bool :=
  negb (xml_match_whitespace s =? 0) || starts_with s (bs "/>") || starts_with_ch s (ch ">") || starts_with_ch s (ch "=").
Definition xml_expect_attribute : X bool :=
  xml_expect_name hl_markup_attr xml_attribute_stop ;;
  xml_expect_whitespace ;;
  let! r := get_rem in
  if negb (starts_with_ch r (ch "=")) then ret true
  else
    emit_and_advance 1 hl_symbol_punc ;;
    xml_expect_whitespace ;;
    xml_expect_value.

(** xml.cpp:541-581 (expect_start_tag) *)
Definition xml_tag_stop (s : str) : bool :=
  negb (xml_match_whitespace s =? 0) || starts_with s (bs "/>") || starts_with_ch s (ch ">").
Definition xml_tag_body (_ : unit) : X (unit + unit) :=
  let! e := eof in
  if e then ret (inr tt)
  else
    xml_expect_whitespace ;;
    let! r := get_rem in
    if starts_with_ch r (ch ">") || starts_with r (bs "/>") then ret (inr tt)
    else let! b := xml_expect_attribute in if negb b then ret (inr tt) else ret (inl tt).
Definition xml_expect_start_tag : X bool :=
  let! r := get_rem in
  if negb (starts_with_ch r (ch "<")) then ret false
  else
    emit_and_advance 1 hl_symbol_punc ;;
    let! n := xml_expect_name hl_markup_tag xml_tag_stop in
    if n =? 0 then ret true
    else
      hloop 1 xml_tag_body tt ;;
      let! r := get_rem in
      (if starts_with_ch r (ch ">") then emit_and_advance 1 hl_symbol_punc
       else when (starts_with r (bs "/>")) (emit_and_advance 2 hl_symbol_punc)) ;;
      ret true.

(** xml.cpp:687-712 (expect_end_tag) *)
Definition xml_end_stop (s : str) : bool := negb (xml_match_whitespace s =? 0) || starts_with_ch s (ch ">").
Definition xml_expect_end_tag : X bool :=
  let! r := get_rem in
  if negb (starts_with r (bs "</")) then ret false
  else
    emit_and_advance 2 hl_symbol_punc ;;
    let! n := xml_expect_name hl_markup_tag xml_end_stop in
    if n =? 0 then ret true
    else
      xml_expect_whitespace ;;
      let! r := get_rem in
      when (starts_with_ch r (ch ">")) (emit_and_advance 1 hl_symbol_punc) ;;
      ret true.

(** xml.cpp:714-734 (expect_text) *)
Definition xml_expect_text : X bool :=
  let! r := get_rem in
  let n := xml_match_text r in
  if negb (n =? 0) then advance n ;; ret true
  else if starts_with_ch r (ch "&") then
    let! b := xml_expect_reference in
    when (negb b) (emit_and_advance 1 hl_error) ;; ret true
  else if starts_with_ch r (ch "<") then emit_and_advance 1 hl_error ;; ret true
  else ret true.

(** xml.cpp:234-257 (expect_external_id) *)
Definition xml_expect_external_id : X bool :=
  let! r := get_rem in
  let! e := lift (utf8_find_if r is_xml_whitespace) in
  let id := match e with Some n => firstn n r | None => r end in
  if str_eqb id (bs "SYSTEM") then
    emit_and_advance 6 hl_keyword ;; xml_expect_whitespace ;; xml_expect_value ;; ret true
  else if str_eqb id (bs "PUBLIC") then
    emit_and_advance 6 hl_keyword ;; xml_expect_whitespace ;; xml_expect_value ;; xml_expect_whitespace ;; xml_expect_value ;; ret true
  else ret false.

(** xml.cpp:259-333 (expect_markup_decl) *)
Definition xml_space_stop (s : str) : bool := negb (xml_match_whitespace s =? 0).
Definition xml_decl_token (r : str) : X unit :=
  if existsb (fun c => starts_with_ch r c) (bs ")(|*,") then emit_and_advance 1 hl_symbol_punc
  else if negb (xml_match_att_type r =? 0) then emit_and_advance (xml_match_att_type r) hl_keyword
  else if negb (xml_match_default_decl_type r =? 0) then emit_and_advance (xml_match_default_decl_type r) hl_keyword
  else if negb (xml_match_external_id_type r =? 0) then emit_and_advance (xml_match_external_id_type r) hl_keyword
  else if negb (xml_match_content_spec_type r =? 0) then emit_and_advance (xml_match_content_spec_type r) hl_keyword
  else if negb (xml_match_ndata r =? 0) then emit_and_advance (xml_match_ndata r) hl_keyword
  else if negb (xml_match_pcdata r =? 0) then emit_and_advance (xml_match_pcdata r) hl_keyword
  else
    let! pe := lift (xml_match_pe_reference r) in
    if negb (pe =? 0) then emit_and_advance pe hl_string_escape
    else
      let! name := lift (xml_match_name r) in
      if negb (name =? 0) then emit_and_advance name hl_name
      else if starts_with_ch r 39 || starts_with_ch r 34 then xml_expect_value ;; ret tt
      else advance (length_if_not r (fun c => is_xml_whitespace c || (c =? ch ">")%N)).
Definition xml_decl_body (_ : unit) : X (unit + unit) :=
  let! r := get_rem in
  if starts_with_ch r (ch ">") || match r with [] => true | _ => false end then ret (inr tt)
  else xml_decl_token r ;; xml_expect_whitespace ;; ret (inl tt).
Definition xml_expect_markup_decl : X bool :=
  let! b := xml_expect_comment in
  if b then ret true
  else
    let! b := xml_expect_pi in
    if b then ret true
    else
      let! r := get_rem in
      if negb (starts_with r (bs "<!")) then ret false
      else
        emit_and_advance 2 hl_name_macro ;;
        xml_expect_name hl_name_macro xml_space_stop ;;
        xml_expect_whitespace ;;
        let! r := get_rem in
        when (starts_with_ch r (ch "%")) (emit_and_advance 1 hl_symbol_punc ;; xml_expect_whitespace ;; ret tt) ;;
        xml_expect_name hl_name xml_space_stop ;;
        xml_expect_whitespace ;;
        hloop 1 xml_decl_body tt ;;
        ret true.

(** xml.cpp:335-397 (expect_doctype_decl) *)
Definition xml_doctype_stop (s : str) : bool :=
  starts_with_ch s (ch "[") || starts_with_ch s (ch ">") || negb (xml_match_whitespace s =? 0).
Definition xml_quoted : X unit :=
  let! r := get_rem in
  when (starts_with_ch r 39 || starts_with_ch r 34) (xml_expect_value ;; ret tt).
Definition xml_doctype_body (_ : unit) : X (unit + unit) :=
  let! b := xml_expect_markup_decl in
  if negb b then ret (inr tt)
  else
    xml_expect_whitespace ;;
    let! r := get_rem in
    when (starts_with_ch r (ch ">")) (emit_and_advance 1 hl_name_macro) ;;
    xml_expect_whitespace ;;
    ret (inl tt).
Definition xml_expect_doctype : X bool :=
  let! r := get_rem in
  if negb (starts_with r (bs "<!")) then ret false
  else
    emit_and_advance 2 hl_name_macro ;;
    xml_expect_name hl_name_macro xml_doctype_stop ;;
    xml_expect_whitespace ;;
    xml_expect_name hl_name xml_doctype_stop ;;
    xml_expect_whitespace ;;
    let! r := get_rem in
    (if negb (xml_match_external_id_type r =? 0) then xml_expect_external_id ;; ret tt
     else
       when (negb (starts_with_ch r (ch "[")))
         (advance (length_if_not r is_xml_whitespace) ;;
          xml_expect_whitespace ;;
          xml_quoted ;;
          xml_expect_whitespace ;;
          xml_quoted)) ;;
    xml_expect_whitespace ;;
    let! r := get_rem in
    if negb (starts_with_ch r (ch "[")) then ret true
    else
      emit_and_advance 1 hl_symbol_punc ;;
      xml_expect_whitespace ;;
      hloop 1 xml_doctype_body tt ;;
      let! r := get_rem in
      if negb (starts_with_ch r (ch "]")) then ret true
      else
        emit_and_advance 1 hl_symbol_punc ;;
        xml_expect_whitespace ;;
        let! r := get_rem in
        when (starts_with_ch r (ch ">")) (emit_and_advance 1 hl_name_macro) ;;
        ret true.

(** xml.cpp:399-457 (expect_xml_decl); Common_Number_Options {} *)
Definition xml_number_options : number_options := mk_number_options false false [] [] [] None 10 10 0 false false.
Definition xml_highlight_number : X unit :=
  let! r := get_rem in
  let! n := lift (match_common_number r xml_number_options) in
  when (negb (nr_integer n =? 0)) (emit_and_advance (nr_integer n) hl_number) ;;
  when (negb (nr_radix_point n =? 0)) (emit_and_advance (nr_radix_point n) hl_symbol_punc) ;;
  when (negb (nr_fractional n =? 0)) (emit_and_advance (nr_fractional n) hl_number).
Definition xml_decl_attr (name : str) (value : X unit) : X unit :=
  let! r := get_rem in
  when (starts_with r name)
    (emit_and_advance (length name) hl_markup_attr ;;
     let! r := get_rem in
     when (starts_with_ch r (ch "="))
       (emit_and_advance 1 hl_symbol_punc ;;
        let! e := eof in when (negb e) value)).
Definition xml_expect_xml_decl : X bool :=
  let! r := get_rem in
  if negb (starts_with r (bs "<?xml")) then ret false
  else
    emit_and_advance 5 hl_name_macro ;;
    xml_expect_whitespace ;;
    xml_decl_attr (bs "version") xml_highlight_number ;;
    xml_expect_whitespace ;;
    xml_decl_attr (bs "encoding") (xml_expect_value ;; ret tt) ;;
    xml_expect_whitespace ;;
    xml_decl_attr (bs "standalone") (xml_expect_value ;; ret tt) ;;
    xml_expect_whitespace ;;
    let! r := get_rem in
    when (starts_with r (bs "?>")) (emit_and_advance 2 hl_name_macro) ;;
    ret true.

(** xml.cpp:459-468 (expect_prolog) *)
Definition xml_prolog_body (_ : unit) : X (unit + unit) :=
  let! b := xml_expect_pi in
  if b then ret (inl tt)
  else
    let! b := xml_expect_comment in
    if b then ret (inl tt)
    else
      let! b := xml_expect_whitespace in
      if b then ret (inl tt) else ret (inr tt).
Definition xml_expect_prolog : X unit :=
  xml_expect_xml_decl ;; hloop 1 xml_prolog_body tt ;; xml_expect_doctype ;; ret tt.

(** xml.cpp:215-231 (operator()): the body of the loop; the assertion after it always fails. *)
Definition xml_content : X unit :=
  let! b := xml_expect_comment in
  if b then ret tt else
  let! b := xml_expect_cdata in
  if b then ret tt else
  let! b := xml_expect_pi in
  if b then ret tt else
  let! b := xml_expect_end_tag in
  if b then ret tt else
  let! b := xml_expect_start_tag in
  if b then ret tt else
  let! b := xml_expect_text in
  if b then ret tt else fail FAssert.

(** xml.cpp:779-787 (highlight_xml) *)
Definition highlight_xml : highlighter := fun src strict =>
  run tt (xml_expect_prolog ;; while_rem xml_content ;; ret true) src.
