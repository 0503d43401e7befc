(** * Model of COWEL highlighting (src/main/cpp/lang/cowel.cpp, include/ulight/impl/lang/cowel.hpp). *)
From Coq Require Import List NArith ZArith Bool Arith.
From Verif Require Import M_Base M_Emit M_Types M_Chars M_Parse M_Utf8 M_Api M_Highlighter.
Import ListNotations.

(** ** Characters *)
(** cowel.hpp:16-18 (is_cowel_escapeable) *)
Definition is_cowel_escapeable (c : N) : bool := mem c [123; 125; 92; 34; 39; 43; 13; 10]%N.
(** cowel.hpp:20-22 (is_horizontal_whitespace) *)
Definition is_horizontal_whitespace (c : N) : bool := mem c [32; 9; 12]%N.
(** cowel.hpp:24-27 (is_cowel_identifier_start), 29-31 (is_cowel_identifier) *)
Definition is_cowel_identifier_start (c : N) : bool := is_ascii_alpha c || (c =? ch "_")%N.
Definition is_cowel_identifier (c : N) : bool := is_cowel_identifier_start c || is_ascii_digit c.
(** cowel.hpp:33-36 (is_cowel_ascii_reserved_escapable) *)
Definition is_cowel_ascii_reserved_escapable (c : N) : bool :=
  is_ascii c && negb (is_cowel_escapeable c) && negb (is_cowel_identifier_start c) && negb (mem c [58; 42; 40; 32; 10; 13]%N).
(** unicode_chars.hpp:133-134 (is_character_name): the characters of Unicode character names *)
Definition is_character_name (c : N) : bool := is_ascii_upper_alpha c || is_ascii_digit c || mem c (bs " -").

(** ** Matchers *)
(** std::u8string_view::ends_with of a character *)
Definition ends_with_ch (s : str) (c : N) : bool := starts_with_ch (rev s) c.
(** cowel.cpp:32-46 (match_char): the decision about the case before and after, [None] if the character does not match.
    The decision is 1 for upper case, -1 for lower case and 0 while none is made. *)
Definition cowel_match_char (decision : Z) (c : N) : option Z :=
  if is_ascii_digit c then Some decision
  else if is_ascii_upper_hex_digit c && (0 <=? decision)%Z then Some 1%Z
  else if is_ascii_lower_hex_digit c && (decision <=? 0)%Z then Some (-1)%Z
  else None.
(** cowel.cpp:48-53, 55-59: the loops; the number of characters of [s] that match before the first one that does not *)
Fixpoint cowel_match_chars (decision : Z) (s : str) : nat :=
  match s with
  | [] => 0
  | c :: s => match cowel_match_char decision c with Some d => S (cowel_match_chars d s) | None => 0 end
  end.
(** cowel.cpp:25-60 (match_numeric_char_escape) *)
Definition cowel_match_numeric_char_escape (s : str) : nat :=
  if (length s <? 6) || negb (starts_with s (bs "\+")) then 0
  else if length s <? 10 then
    if cowel_match_chars 0 (firstn 4 (skipn 2 s)) =? 4 then 6 else 0
  else
    let n := cowel_match_chars 0 (firstn 8 (skipn 2 s)) in
    if n =? 8 then 10 else if 6 <=? 2 + n then 6 else 0.

(** cowel.cpp:64-67 (match_identifier) *)
Definition cowel_match_identifier (s : str) : nat := length_if_head_tail s is_cowel_identifier_start is_cowel_identifier.

(** cowel.hpp:72-80 (Escape_Result): length and is_reserved *)
Record cowel_escape := mk_cowel_escape { ce_length : nat; ce_reserved : bool }.
(** cowel.cpp:79-99 (match_escape): a name in quotes; [s] starts with a backslash and a quote. str\[closing_quote\] is in bounds. *)
Definition cowel_match_named (s : str) : cowel_escape :=
  match find_if_from (fun c => mem c [39; 13; 10]%N) s 2 with
  | None => mk_cowel_escape 2 true
  | Some closing_quote =>
    if negb (nth closing_quote s 0 =? 39)%N then mk_cowel_escape 2 true
    else if closing_quote =? 2 then mk_cowel_escape 3 true
    else
      let name := firstn (closing_quote - 2) (skipn 2 s) in
      mk_cowel_escape (closing_quote + 1)
        (starts_with_ch name 32 || ends_with_ch name 32 || negb (forallb is_character_name name))
  end.
(** cowel.cpp:69-119 (match_escape) *)
Definition cowel_match_escape (s : str) : res cowel_escape :=
  match s with
  | [] => Ok (mk_cowel_escape 0 false)
  | b :: t =>
    if negb (b =? 92)%N then Ok (mk_cowel_escape 0 false)
    else match t with
    | [] => Ok (mk_cowel_escape 1 true)
    | c :: _ =>
      if is_cowel_escapeable c then
        if (c =? ch "+")%N then
          let n := cowel_match_numeric_char_escape s in
          if negb (n =? 0) then Ok (mk_cowel_escape n false) else Ok (mk_cowel_escape 2 true)
        else if (c =? 39)%N then Ok (cowel_match_named s)
        else if starts_with s [92; 13; 10]%N then Ok (mk_cowel_escape 3 false)
        else let* _ := check (is_ascii c) FDebugAssert in Ok (mk_cowel_escape 2 false)
      else if negb (is_ascii c) then
        let* d := decode_and_length_or_replacement t in Ok (mk_cowel_escape (snd d + 1) true)
      else if is_cowel_ascii_reserved_escapable c then Ok (mk_cowel_escape 2 true)
      else Ok (mk_cowel_escape 0 false)
    end
  end.

(** cowel.cpp:121-125 (match_ellipsis) *)
Definition cowel_match_ellipsis (s : str) : nat := if starts_with s (bs "...") then 3 else 0.
(** cowel.cpp:127-130 (match_whitespace) *)
Definition cowel_match_whitespace (s : str) : nat := length_if s is_html_whitespace.
(** cowel.cpp:132-144 (match_line_comment) *)
Definition cowel_match_line_comment (s : str) : nat :=
  if negb (starts_with s (bs "\:")) then 0
  else or_length s (ascii_find s 2 (fun c => mem c [13; 10]%N) true).
(** cowel.cpp:146-162 (match_block_comment) *)
Definition cowel_match_block_comment (s : str) : enclosed :=
  if negb (starts_with s (bs "\*")) then mk_enclosed 0 false
  else match find_str s (bs "*\") 2 with
  | None => mk_enclosed (length s) false
  | Some e => mk_enclosed (e + 2) true
  end.
(** cowel.cpp:164-182 (match_number) *)
Definition cowel_number_options : number_options :=
  mk_number_options true false
    [mk_prefix (bs "0b") 2 false; mk_prefix (bs "0o") 8 false; mk_prefix (bs "0x") 16 false]
    (map (fun e => (e, 10%Z)) [bs "E+"; bs "E-"; bs "E"; bs "e+"; bs "e-"; bs "e"])
    [] None 10 10 0 false false.
Definition cowel_match_number (s : str) : res number_result := match_common_number s cowel_number_options.
(** cowel.cpp:193-206 (match_reserved_number): the loop *)
Fixpoint cowel_reserved_loop (s : str) : nat :=
  match s with
  | [] => 0
  | c :: t =>
    match t with
    | d :: u =>
      if mem c (bs "eE") && mem d (bs "+-") then 2 + cowel_reserved_loop u
      else if is_ascii_alphanumeric c || (c =? ch ".")%N then 1 + cowel_reserved_loop t else 0
    | [] => if is_ascii_alphanumeric c || (c =? ch ".")%N then 1 else 0
    end
  end.
(** cowel.cpp:184-208 (match_reserved_number) *)
Definition cowel_match_reserved_number (s : str) : nat :=
  match s with
  | [] => 0
  | c :: t => if (c =? ch ".")%N then 1 + cowel_reserved_loop t else cowel_reserved_loop s
  end.
(** cowel.cpp:210-230 (match_blank). Every round consumes a character, so the length of the text is enough fuel. *)
Fixpoint cowel_blank_loop (fuel : nat) (s : str) : res nat :=
  match s with
  | [] => Ok 0
  | _ =>
    match fuel with
    | 0 => Fail FFuel
    | S fuel =>
      let more n := let* m := cowel_blank_loop fuel (skipn n s) in Ok (n + m) in
      if negb (cowel_match_whitespace s =? 0) then more (cowel_match_whitespace s)
      else if negb (cowel_match_line_comment s =? 0) then more (cowel_match_line_comment s)
      else if negb (en_length (cowel_match_block_comment s) =? 0) then more (en_length (cowel_match_block_comment s))
      else Ok 0
    end
  end.
Definition cowel_match_blank (s : str) : res nat := cowel_blank_loop (length s) s.
(** cowel.cpp:232-262 (match_quoted_member_name): the loop; [s] is str.substr(length). *)
Fixpoint cowel_quoted_loop (fuel : nat) (s : str) (len : nat) : res nat :=
  match s with
  | [] => Ok 0
  | c :: _ =>
    match fuel with
    | 0 => Fail FFuel
    | S fuel =>
      let more n := cowel_quoted_loop fuel (skipn n s) (len + n) in
      if (c =? 34)%N then Ok (len + 1)
      else if (c =? 92)%N then
        let* e := cowel_match_escape s in
        if negb (ce_length e =? 0) then more (ce_length e)
        else if negb (cowel_match_line_comment s =? 0) then more (cowel_match_line_comment s)
        else if negb (en_length (cowel_match_block_comment s) =? 0) then more (en_length (cowel_match_block_comment s))
        else Ok 0
      else more 1
    end
  end.
Definition cowel_match_quoted_member_name (s : str) : res nat :=
  if negb (starts_with_ch s 34) then Ok 0 else cowel_quoted_loop (length s) (skipn 1 s) 1.

(** cowel.hpp:38-59 (ULIGHT_COWEL_FIXED_TOKEN_ENUM_DATA): a token is its code and its highlight *)
(** cowel.cpp:301-330 (match_fixed_token) *)
Definition cowel_match_fixed_token (s : str) : option (str * N) :=
  match s with
  | [] => None
  | c :: _ =>
    let op t := Some (t, hl_symbol_op) in
    if (c =? ch "(")%N then Some (bs "(", hl_symbol_parens)
    else if (c =? ch ")")%N then Some (bs ")", hl_symbol_parens)
    else if (c =? ch "{")%N then Some (bs "{", hl_symbol_brace)
    else if (c =? ch "}")%N then Some (bs "}", hl_symbol_brace)
    else if (c =? ch ",")%N then Some (bs ",", hl_symbol_punc)
    else if (c =? ch "=")%N then if starts_with s (bs "==") then op (bs "==") else Some (bs "=", hl_symbol_punc)
    else if (c =? ch "|")%N then if starts_with s (bs "||") then op (bs "||") else None
    else if (c =? ch "&")%N then if starts_with s (bs "&&") then op (bs "&&") else None
    else if (c =? ch "!")%N then if starts_with s (bs "!=") then op (bs "!=") else op (bs "!")
    else if (c =? ch "<")%N then if starts_with s (bs "<=") then op (bs "<=") else op (bs "<")
    else if (c =? ch ">")%N then if starts_with s (bs ">=") then op (bs ">=") else op (bs ">")
    else if mem c (bs "+-*/%~") then op [c]
    else None
  end.
(** cowel.cpp:287-299 (is_group_member_token) *)
Definition cowel_is_group_member_token (t : str * N) : bool := negb (existsb (str_eqb (fst t)) [bs "("; bs ")"; bs "{"; bs "}"; bs ","]).

(** ** The highlighter *)
(** cowel.cpp:332-337 (Text_Kind) *)
Inductive cowel_kind := cowel_document | cowel_name | cowel_string | cowel_block.

(** cowel.cpp:375-411 (expect_text): the loop; the length of the text and the brace level after it. The level is an int
    in the code; here it does not overflow. *)
Fixpoint cowel_text (k : cowel_kind) (s : str) (level : Z) : nat * Z :=
  match s with
  | [] => (0, level)
  | c :: s =>
    let more level := let '(n, l) := cowel_text k s level in (S n, l) in
    if (c =? 92)%N then (0, level)
    else match k with
    | cowel_document => more level
    | cowel_name | cowel_string => if (c =? 34)%N then (0, level) else more level
    | cowel_block =>
      if (c =? ch "{")%N then more (level + 1)%Z
      else if (c =? ch "}")%N then if (level =? 0)%Z then (0, (level - 1)%Z) else more (level - 1)%Z
      else more level
    end
  end.
(** cowel.cpp:375-433 (expect_text) *)
Definition cowel_expect_text (k : cowel_kind) (level : Z) : M unit (bool * Z) :=
  checkM (0 <=? level)%Z FAssert ;;
  let! r := get_rem in
  let '(n, l) := cowel_text k r level in
  if n =? 0 then ret (false, l)
  else
    match k with
    | cowel_document | cowel_block => advance n
    | cowel_name => emit_and_advance n hl_markup_attr
    | cowel_string => emit_and_advance n hl_string
    end ;; ret (true, l).

(** cowel.cpp:484-504 (expect_escape) *)
Definition cowel_expect_escape : M unit bool :=
  let! r := get_rem in
  let! e := lift (cowel_match_escape r) in
  if ce_length e =? 0 then ret false
  else
    let escape := firstn (ce_length e) r in
    if ends_with_ch escape 10 || ends_with_ch escape 13 then emit_and_advance 1 hl_string_escape ;; ret true
    else emit_and_advance (ce_length e) (if ce_reserved e then hl_error else hl_string_escape) ;; ret true.

(** cowel.cpp:865-872 (highlight_line_comment), 506-514 (expect_line_comment) *)
Definition cowel_expect_line_comment : M unit bool :=
  let! r := get_rem in
  let c := cowel_match_line_comment r in
  if c =? 0 then ret false
  else
    checkM (2 <=? c) FAssert ;;
    emit_and_advance 2 hl_comment_delim ;;
    when (2 <? c) (emit_and_advance (c - 2) hl_comment) ;;
    ret true.
(** cowel.cpp:874-887 (highlight_block_comment), 516-524 (expect_block_comment) *)
Definition cowel_expect_block_comment : M unit bool :=
  let! r := get_rem in
  let c := cowel_match_block_comment r in
  if en_length c =? 0 then ret false
  else
    checkM (2 <=? en_length c) FAssert ;;
    emit_and_advance 2 hl_comment_delim ;;
    (if en_terminated c then
       when (4 <? en_length c) (emit_and_advance (en_length c - 4) hl_comment) ;;
       emit_and_advance 2 hl_comment_delim
     else when (2 <? en_length c) (emit_and_advance (en_length c - 2) hl_comment)) ;;
    ret true.
(** cowel.cpp:837-847 (consume_blank), 849-863 (consume_horizontal_blank): one round, for a set of white space *)
Definition cowel_blank_round (space : N -> bool) (_ : unit) : M unit (unit + unit) :=
  let! e := eof in if e then ret (inr tt) else
  let! r := get_rem in
  let n := length_if r space in
  when (negb (n =? 0)) (advance n) ;;
  let! b := cowel_expect_line_comment in if b then ret (inl tt) else
  let! b := cowel_expect_block_comment in if b then ret (inl tt) else
  ret (inr tt).
Definition cowel_consume_blank : M unit unit := hloop 1 (cowel_blank_round is_html_whitespace) tt.
Definition cowel_consume_horizontal_blank : M unit unit := hloop 1 (cowel_blank_round is_horizontal_whitespace) tt.

(** cowel.cpp:696-704 (expect_ellipsis) *)
Definition cowel_expect_ellipsis : M unit bool :=
  let! r := get_rem in
  let n := cowel_match_ellipsis r in
  if negb (n =? 0) then emit_and_advance n hl_name_attr ;; ret true else ret false.
(** The group member tokens of token soup: cowel.cpp:465-470, 557-562, 682-687. Returns whether there was one. *)
Definition cowel_expect_member_token : M unit bool :=
  let! r := get_rem in
  match cowel_match_fixed_token r with
  | Some t => if cowel_is_group_member_token t then emit_and_advance (length (fst t)) (snd t) ;; ret true else ret false
  | None => ret false
  end.
(** cowel.cpp:737-786 (expect_identifier_like); str is not empty, so str\[0\] is in bounds. *)
Definition cowel_expect_identifier_like : M unit bool :=
  let! r := get_rem in
  if starts_with_ch r (ch "-") then
    let n := cowel_match_identifier (skipn 1 r) in
    if str_eqb (firstn (n + 1) r) (bs "-infinity")
    then emit_and_advance 1 hl_value_delim ;; emit_and_advance 8 hl_value ;; ret true
    else ret false
  else
    let n := cowel_match_identifier r in
    if n =? 0 then ret false
    else
      let s := firstn n r in
      let! c := at_ s 0 in
      checkM (negb (is_ascii_digit c)) FDebugAssert ;;
      (if existsb (str_eqb s) [bs "unit"; bs "null"; bs "let"; bs "fun"] then
         emit_and_advance n hl_keyword ;;
         when (str_eqb s (bs "fun"))
           (cowel_consume_horizontal_blank ;;
            let! r := get_rem in
            let m := cowel_match_identifier r in
            when (negb (m =? 0)) (emit_and_advance m hl_name_function_decl))
       else if str_eqb s (bs "true") then emit_and_advance 4 hl_bool
       else if str_eqb s (bs "false") then emit_and_advance 5 hl_bool
       else if str_eqb s (bs "infinity") then emit_and_advance 8 hl_value
       else emit_and_advance n hl_name_var) ;;
      ret true.
(** cowel.cpp:788-805 (expect_number) *)
Definition cowel_expect_number : M unit bool :=
  let! r := get_rem in
  let n := cowel_match_reserved_number r in
  if n =? 0 then ret false
  else
    let! number := lift (cowel_match_number (firstn n r)) in
    (if negb (nr_length number =? n) || nr_erroneous number then emit_and_advance n hl_error else highlight_number number) ;;
    ret true.

(** The functions that call each other. [group] is expect_group and [sequence] is consume_markup_element_sequence. *)
Section nested.
Variable group : M unit bool.
Variable sequence : cowel_kind -> M unit unit.

(** cowel.cpp:807-817 (expect_quoted_string), 819-829 (expect_quoted_member_name), 831-841 (expect_block) *)
Definition cowel_expect_enclosed (open close : N) (h : N) (k : cowel_kind) : M unit bool :=
  let! r := get_rem in
  if negb (starts_with_ch r open) then ret false
  else
    emit_and_advance 1 h ;;
    sequence k ;;
    let! r := get_rem in
    when (starts_with_ch r close) (emit_and_advance 1 h) ;;
    ret true.
Definition cowel_expect_quoted_string : M unit bool := cowel_expect_enclosed 34 34 hl_string_delim cowel_string.
Definition cowel_expect_quoted_member_name : M unit bool := cowel_expect_enclosed 34 34 hl_markup_attr_delim cowel_name.
Definition cowel_expect_block : M unit bool := cowel_expect_enclosed (ch "{") (ch "}") hl_symbol_brace cowel_block.

(** cowel.cpp:706-726 (expect_directive_call) *)
Definition cowel_expect_directive_call : M unit bool :=
  let! r := get_rem in
  let n := cowel_match_identifier r in
  if n =? 0 then ret false
  else
    let! space := lift (cowel_match_blank (skipn n r)) in
    if length r <=? n + space then ret false
    else
      let! next := at_ r (n + space) in
      if negb (next =? ch "(")%N && negb (next =? ch "{")%N then ret false
      else
        emit_and_advance n hl_markup_tag ;;
        cowel_consume_blank ;;
        let! _ := group in
        cowel_consume_blank ;;
        let! _ := cowel_expect_block in
        ret true.
(** cowel.cpp:691-694 (expect_expression), 728-735 (expect_primary_value) *)
Definition cowel_expect_expression : M unit bool :=
  let! b := cowel_expect_directive_call in if b then ret true else
  let! b := cowel_expect_identifier_like in if b then ret true else
  let! b := cowel_expect_number in if b then ret true else
  let! b := cowel_expect_quoted_string in if b then ret true else
  let! b := cowel_expect_block in if b then ret true else
  group.

(** cowel.cpp:655-689 (expect_group_member) after the members that start with a name *)
Definition cowel_expect_other_member : M unit bool :=
  let! r := get_rem in
  let n := cowel_match_whitespace r in
  when (negb (n =? 0)) (advance n) ;;
  let! b := cowel_expect_ellipsis in if b then ret true else
  let! b := cowel_expect_expression in if b then ret true else
  cowel_expect_member_token.
(** cowel.cpp:636-689 (expect_group_member). substr(name_length + space_before_equals) is in bounds. *)
Definition cowel_expect_group_member : M unit bool :=
  let! r := get_rem in
  let id := cowel_match_identifier r in
  let! n := if negb (id =? 0) then ret id else lift (cowel_match_quoted_member_name r) in
  if negb (n =? 0) then
    let! rest := substr_from r n in
    let! space := lift (cowel_match_blank rest) in
    let! after := substr_from r (n + space) in
    if starts_with_ch after (ch "=") && ((length after =? 1) || negb (nth 1 after 0 =? ch "=")%N) then
      let! b := cowel_expect_quoted_member_name in
      (if b then ret tt else emit_and_advance n hl_markup_attr) ;;
      cowel_consume_blank ;;
      let! r := get_rem in
      checkM (starts_with_ch r (ch "=")) FAssert ;;
      emit_and_advance 1 hl_symbol_punc ;;
      cowel_consume_blank ;;
      let! _ := cowel_expect_expression in
      ret true
    else cowel_expect_other_member
  else cowel_expect_other_member.

(** cowel.cpp:585-631: one round of the loop of expect_group *)
Definition cowel_group_round (_ : unit) : M unit (unit + unit) :=
  let! e := eof in if e then ret (inr tt) else
  cowel_consume_blank ;;
  let! member_success := cowel_expect_group_member in
  cowel_consume_blank ;;
  let! r := get_rem in
  match r with
  | [] => ret (inr tt)
  | c :: _ =>
    if (c =? ch ")")%N then emit_and_advance 1 hl_symbol_parens ;; ret (inr tt)
    else if (c =? ch ",")%N then emit_and_advance 1 hl_symbol_punc ;; ret (inl tt)
    else if (c =? ch "}")%N then ret (inr tt)
    else if negb member_success then
      match find_first_of r (bs ",})") 0 with
      | None => advance (length r) ;; ret (inr tt)
      | Some n =>
        advance n ;;
        let! r := get_rem in
        let! c := at_ r 0 in
        if (c =? ch ",")%N then ret (inl tt)
        else emit_and_advance 1 (if (c =? ch "}")%N then hl_symbol_brace else hl_symbol_parens) ;; ret (inr tt)
      end
    else ret (inl tt)
  end.
(** cowel.cpp:578-634 (expect_group) *)
Definition cowel_group_body : M unit bool :=
  let! r := get_rem in
  if negb (starts_with_ch r (ch "(")) then ret false
  else emit_and_advance 1 hl_symbol_parens ;; hloop 1 cowel_group_round tt ;; ret true.

(** cowel.cpp:435-482 (expect_expression_line_splice), 526-576: a member token or one error character *)
Definition cowel_token_or_error : M unit unit :=
  let! b := cowel_expect_member_token in if b then ret tt else emit_and_advance 1 hl_error.
(** cowel.cpp:447-479: one round of the loop of expect_expression_line_splice *)
Definition cowel_line_round (_ : unit) : M unit (unit + unit) :=
  let! e := eof in if e then ret (inr tt) else
  let! r := get_rem in
  if starts_with r [13; 10]%N then advance 2 ;; ret (inr tt)
  else if starts_with_ch r 10 || starts_with_ch r 13 then advance 1 ;; ret (inr tt)
  else
    let! b := cowel_expect_escape in if b then ret (inl tt) else
    let! b := cowel_expect_line_comment in if b then ret (inl tt) else
    let! b := cowel_expect_block_comment in if b then ret (inl tt) else
    let! b := cowel_expect_expression in if b then ret (inl tt) else
    let! r := get_rem in
    let n := cowel_match_whitespace r in
    if negb (n =? 0) then advance n ;; ret (inl tt)
    else cowel_token_or_error ;; ret (inl tt).
(** cowel.cpp:435-482 (expect_expression_line_splice) *)
Definition cowel_expect_line_splice : M unit bool :=
  let! r := get_rem in
  if negb (starts_with r [92; 32]%N) then ret false
  else match find_first_of r [13; 10]%N 2 with
  | None => ret false
  | Some _ => emit_and_advance 2 hl_string_interpolation_delim ;; hloop 1 cowel_line_round tt ;; ret true
  end.
(** cowel.cpp:534-566: one round of the loop of expect_expression_splice *)
Definition cowel_splice_round (_ : unit) : M unit (unit + unit) :=
  let! e := eof in if e then ret (inr tt) else
  cowel_consume_blank ;;
  let! _ := cowel_expect_expression in
  cowel_consume_blank ;;
  let! r := get_rem in
  match r with
  | [] => ret (inr tt)
  | c :: _ =>
    if (c =? ch ")")%N then emit_and_advance 1 hl_string_interpolation_delim ;; ret (inr tt)
    else if (c =? ch "}")%N then ret (inr tt)
    else cowel_token_or_error ;; ret (inl tt)
  end.
(** cowel.cpp:526-569 (expect_expression_splice) *)
Definition cowel_expect_splice : M unit bool :=
  let! r := get_rem in
  if negb (starts_with r [92; 40]%N) then ret false
  else emit_and_advance 2 hl_string_interpolation_delim ;; hloop 1 cowel_splice_round tt ;; ret true.
(** cowel.cpp:571-576 (expect_directive_splice) *)
Definition cowel_expect_directive_splice : M unit bool :=
  let! r := get_rem in
  if negb (starts_with_ch r 92) then ret false
  else
    let n := cowel_match_identifier (skipn 1 r) in
    if n =? 0 then ret false
    else
      emit_and_advance (1 + n) hl_markup_tag ;;
      let! _ := group in
      let! _ := cowel_expect_block in
      ret true.

(** cowel.cpp:363-373 (expect_content): the result and the brace level after it *)
Definition cowel_expect_content (k : cowel_kind) (level : Z) : M unit (bool * Z) :=
  checkM (0 <=? level)%Z FAssert ;;
  let! b := cowel_expect_escape in if b then ret (true, level) else
  let! b := cowel_expect_directive_splice in if b then ret (true, level) else
  let! b := cowel_expect_splice in if b then ret (true, level) else
  let! b := cowel_expect_line_splice in if b then ret (true, level) else
  let! b := cowel_expect_line_comment in if b then ret (true, level) else
  let! b := cowel_expect_block_comment in if b then ret (true, level) else
  cowel_expect_text k level.
(** cowel.cpp:357-361 (consume_markup_element_sequence) *)
Definition cowel_sequence_round (k : cowel_kind) (level : Z) : M unit (Z + unit) :=
  if (level <? 0)%Z then ret (inr tt)
  else
    let! r := cowel_expect_content k level in
    let '(b, l) := r in
    if b then ret (inl l) else ret (inr tt).
Definition cowel_sequence_body (k : cowel_kind) : M unit unit := hloop 1 (cowel_sequence_round k) 0%Z.
End nested.

(** cowel.cpp:357-361 (consume_markup_element_sequence) and 578-634 (expect_group). The fuel bounds the depth of the
    recursion; the C++ call stack is not modelled. *)
Fixpoint cowel_nested (fuel : nat) : M unit bool * (cowel_kind -> M unit unit) :=
  match fuel with
  | 0 => (fail FFuel, fun _ => fail FFuel)
  | S fuel =>
    let n := cowel_nested fuel in
    (cowel_group_body (fst n) (snd n), cowel_sequence_body (fst n) (snd n))
  end.
(** cowel.cpp:350-355 (operator()), 891-900 (highlight_cowel). A nested call is made only after consuming a character, so
    one more than the length of the source is enough fuel. *)
Definition highlight_cowel : highlighter := fun src _ =>
  run tt (snd (cowel_nested (length src + 1)) cowel_document ;; ret true) src.
