(** * Model of Markdown highlighting (src/main/cpp/lang/markdown.cpp, include/ulight/impl/lang/markdown.hpp). *)
From Coq Require Import List NArith ZArith Bool Arith.
From Verif Require Import M_Base M_Emit M_Types M_Chars M_Parse M_Utf8 M_Api M_Highlighter M_LangHtml.
Import ListNotations.

(** ** Characters *)
(** markdown.hpp:8-10 (is_md_whitespace) *)
Definition is_md_whitespace (c : N) : bool := mem c [32; 9; 13; 10]%N.
(** markdown.hpp:16-18 (is_md_ascii_punctuation) *)
Definition is_md_ascii_punctuation (c : N) : bool := mem c (bs "!""#$%&'()*+,-./:;<=>?@[\]^_`{|}~").
(** markdown.hpp:12-14 (is_md_space); c == ' ' or c == tab, as in markdown.cpp:353, 421, 470, 571, 638 *)
Definition is_md_space (c : N) : bool := mem c [32; 9]%N.

(** ** Matchers *)
(** The length of the run of [c] at the end of [s]: the loops of strip_atx_trailing *)
Definition md_trailing (c : N) (s : str) : nat := prefix_len (N.eqb c) (rev s).
(** markdown.cpp:25-57 (strip_atx_trailing). All the accesses are in bounds. *)
Definition strip_atx_trailing (s : str) : nat :=
  let e := length s - md_trailing (ch " ") s in
  if e =? 0 then 0
  else if negb (nth (e - 1) s 0 =? ch "#")%N then e
  else
    let h := e - md_trailing (ch "#") (firstn e s) in
    if (h =? 0) || (nth (h - 1) s 0 =? ch " ")%N then h - md_trailing (ch " ") (firstn h s) else e.
(** markdown.cpp:59-63 (is_blank) *)
Definition md_is_blank (s : str) : bool := forallb is_md_whitespace s.
(** markdown.cpp:65-75 (match_lead_spaces) *)
Definition match_lead_spaces (s : str) : nat := prefix_len (N.eqb (ch " ")) (firstn 3 s).
(** markdown.cpp:103-120, 1015-1029: the search for a closing run of exactly [n] backticks. [run] backticks come before [s]; the
    result is the index after the closing run, [i] being the index of [s]. *)
Fixpoint md_close_ticks (n : nat) (s : str) (run i : nat) : option nat :=
  match s with
  | [] => if run =? n then Some i else None
  | c :: s => if (c =? ch "`")%N then md_close_ticks n s (S run) (S i) else if run =? n then Some i else md_close_ticks n s 0 (S i)
  end.
(** markdown.cpp:77-121 (match_code_span): the length of the opening run and the length of the content, if there is a span *)
Definition match_code_span (s : str) : option (nat * nat) :=
  let n := prefix_len (N.eqb (ch "`")) s in
  if n =? 0 then None
  else match md_close_ticks n (skipn n s) 0 n with
  | None => None
  | Some e => Some (n, e - n - n)
  end.
(** markdown.cpp:123-174 (match_autolink): the length of the content, 0 if there is no link *)
Definition match_autolink (s : str) : nat :=
  if (length s <? 3) || negb (starts_with_ch s (ch "<")) then 0
  else
    let content := prefix_len (fun c => negb (mem c (bs "<>")) && negb (is_md_whitespace c)) (skipn 1 s) in
    if negb (starts_with_ch (skipn (1 + content) s) (ch ">")) then 0
    else if existsb (fun c => mem c (bs ":@")) (firstn content (skipn 1 s)) then content
    else 0.
(** markdown.cpp:176-203 (find_link_url_end): the length of the URL at the start of [s] *)
Fixpoint md_plain_url (s : str) : nat :=
  match s with
  | [] => 0
  | c :: s' =>
    if (c =? ch ")")%N || is_md_whitespace c then 0
    else if (c =? ch "\")%N then match s' with [] => 1 | _ :: s'' => S (S (md_plain_url s'')) end
    else S (md_plain_url s')
  end.
Definition md_url_length (s : str) : nat :=
  if starts_with_ch s (ch "<") then
    let n := 1 + prefix_len (fun c => negb (mem c [62; 60; 10]%N)) (skipn 1 s) in
    if starts_with_ch (skipn n s) (ch ">") then n + 1 else n
  else md_plain_url s.
(** markdown.cpp:205-217 (find_link_close): the distance from the end of the URL to the parenthesis or the end *)
Definition md_link_close (s : str) : nat := prefix_len (fun c => negb (c =? ch ")")%N) s.
(** markdown.cpp:219-270 (match_character_reference) *)
Definition md_reference_body (s : str) (start : nat) (p : N -> bool) : nat :=
  let n := prefix_len p (skipn start s) in
  if (n =? 0) || negb (starts_with_ch (skipn (start + n) s) (ch ";")) then 0 else start + n + 1.
Definition md_match_character_reference (s : str) : nat :=
  if (length s <? 2) || negb (starts_with_ch s (ch "&")) then 0
  else if starts_with_ch (skipn 1 s) (ch "#") then
    if starts_with_ch (skipn 2 s) (ch "x") || starts_with_ch (skipn 2 s) (ch "X") then md_reference_body s 3 is_ascii_hex_digit
    else md_reference_body s 2 is_ascii_digit
  else md_reference_body s 1 is_ascii_alphanumeric.
(** markdown.cpp:850-877 (find_bracket_close): the distance from the start to the position after the bracket, if there is one *)
Fixpoint md_bracket (depth : nat) (s : str) : option nat :=
  match s with
  | [] => None
  | c :: s' =>
    let more (o : option nat) := option_map S o in
    if (c =? ch "\")%N then match s' with [] => None | _ :: s'' => option_map (fun n => S (S n)) (md_bracket depth s'') end
    else if (c =? ch "[")%N then more (md_bracket (S depth) s')
    else if (c =? ch "]")%N then if depth =? 1 then Some 1 else more (md_bracket (depth - 1) s')
    else more (md_bracket depth s')
  end.
(** markdown.cpp:1003-1061 (expect_emphasis): the search for the closing run. [s] is the text from the index [i] to the end
    of the region and [prev] is the character before it. The result is the index of the closing run. *)
Fixpoint md_closer (fuel : nat) (c : N) (run : nat) (prev : N) (s : str) (i : nat) : res (option nat) :=
  match s with
  | [] => Ok None
  | x :: s' =>
    match fuel with
    | 0 => Fail FFuel
    | S fuel =>
      if (x =? ch "`")%N then
        let n := prefix_len (N.eqb (ch "`")) s in
        match md_close_ticks n (skipn n s) 0 n with
        | None => Ok None
        | Some e => md_closer fuel c run (ch "`") (skipn e s) (i + e)
        end
      else if (x =? c)%N then
        let n := prefix_len (N.eqb c) s in
        let next := skipn n s in
        if (n =? run) && negb (is_md_whitespace prev) && negb ((c =? ch "_")%N && match next with y :: _ => is_ascii_alphanumeric y | [] => false end)
        then Ok (Some i)
        else md_closer fuel c run c next (i + n)
      else md_closer fuel c run x s' (i + 1)
    end
  end.

(** ** The highlighter *)
(** markdown.cpp:274-278 (in_fenced_code, fence_char, fence_length, in_html_comment) *)
Record md_state := mk_md { md_fenced : bool; md_fence_char : N; md_fence_length : nat; md_comment : bool }.
Definition MD := M md_state.
(** remainder\[i\] for i < [n], and remainder.substr(0, n). The reads are within the remainder if n is; substr would also
    accept a larger n. *)
Definition md_region (n : nat) : MD str := let! r := get_rem in checkM (n <=? length r) FUB ;; ret (firstn n r).

(** markdown.cpp:781-796 (expect_code_span) *)
Definition md_expect_code_span (avail : nat) : MD bool :=
  let! s := md_region avail in
  match match_code_span s with
  | None => ret false
  | Some (n, len) =>
    emit_and_advance n hl_string_delim ;;
    when (negb (len =? 0)) (emit_and_advance len hl_text_code) ;;
    emit_and_advance n hl_string_delim ;;
    ret true
  end.
(** markdown.cpp:798-810 (expect_autolink) *)
Definition md_expect_autolink (avail : nat) : MD bool :=
  let! s := md_region avail in
  let n := match_autolink s in
  if n =? 0 then ret false
  else
    emit_and_advance 1 hl_symbol_formatting ;;
    emit_and_advance n hl_text_link ;;
    emit_and_advance 1 hl_symbol_formatting ;;
    ret true.
(** markdown.cpp:812-836 (expect_html_comment); html::match_comment is modelled with the HTML highlighter. *)
Definition md_expect_html_comment (avail : nat) : MD bool :=
  let! s := md_region avail in
  let! e := lift (html_match_comment s) in
  if en_length e =? 0 then ret false
  else
    emit_and_advance 4 hl_comment_delim ;;
    if en_terminated e then
      when (3 <? en_length e - 4) (emit_and_advance (en_length e - 4 - 3) hl_comment) ;;
      emit_and_advance 3 hl_comment_delim ;;
      ret true
    else
      emit_and_advance (en_length e - 4) hl_comment ;;
      let! l := get_loc in
      set_loc (mk_md (md_fenced l) (md_fence_char l) (md_fence_length l) true) ;;
      ret true.
(** markdown.cpp:838-848 (expect_html_character_reference) *)
Definition md_expect_reference (avail : nat) : MD bool :=
  let! s := md_region avail in
  let n := md_match_character_reference s in
  if n =? 0 then ret false else emit_and_advance n hl_string_escape ;; ret true.
(** markdown.cpp:879-926 (expect_image), 928-971 (expect_link): the part in common. [open] is the length of the opening
    brackets and [inner] consumes the text between the brackets. *)
Definition md_expect_destination (avail open : nat) (inner : nat -> MD unit) : MD bool :=
  if avail <? open + 3 then ret false
  else
    let! s := md_region avail in
    match md_bracket 1 (skipn open s) with
    | None => ret false
    | Some n =>
      let after_close := open + n in
      if avail <=? after_close then ret false
      else if negb (starts_with_ch (skipn after_close s) (ch "(")) then ret false
      else
        let url_start := after_close + 1 in
        let url_len := md_url_length (skipn url_start s) in
        let title := md_link_close (skipn (url_start + url_len) s) in
        if avail <=? url_start + url_len + title then ret false
        else
          emit_and_advance open hl_symbol_formatting ;;
          inner (after_close - open - 1) ;;
          emit_and_advance 2 hl_symbol_formatting ;;
          when (negb (url_len =? 0)) (emit_and_advance url_len hl_text_link) ;;
          advance title ;;
          emit_and_advance 1 hl_symbol_formatting ;;
          ret true
    end.

Section inline.
(** consume_inline_content, for nested content *)
Variable inline : nat -> N -> option N -> MD unit.
Definition md_expect_image (avail : nat) : MD bool := md_expect_destination avail 2 advance.
Definition md_expect_link (avail : nat) : MD bool := md_expect_destination avail 1 (fun n => inline n 0%N None).
(** markdown.cpp:973-1064 (expect_emphasis); remainder\[0\] is the delimiter. *)
Definition md_expect_emphasis (avail : nat) (prev : N) : MD bool :=
  let! s := md_region avail in
  let! c := at_ s 0 in
  let run := prefix_len (N.eqb c) (firstn 3 s) in
  if run =? 0 then ret false
  else
    match skipn run s with
    | [] => ret false
    | x :: _ =>
      if (x =? c)%N || is_md_whitespace x then ret false
      else if (c =? ch "_")%N && is_ascii_alphanumeric prev then ret false
      else
        let! e := lift (md_closer (length s) c run c (skipn run s) run) in
        match e with
        | None => ret false
        | Some close_start =>
          emit_and_advance run hl_symbol_formatting ;;
          inline (close_start - run) c None ;;
          emit_and_advance run hl_symbol_formatting ;;
          ret true
        end
    end.
(** markdown.cpp:665-677 (is_special_inline_char) *)
Definition md_is_special (c : N) : bool := mem c (bs "`<\&![*_").
(** markdown.cpp:680-777: the body of the loop of consume_inline_content; the result is the new prev_char. *)
Definition md_inline_step (avail : nat) (h : option N) (prev : N) : MD N :=
  let! s := md_region avail in
  let! c := at_ s 0 in
  let skip := advance 1 ;; ret c in
  let either (m : MD bool) (p : N) : MD N := let! b := m in if b then ret p else skip in
  if (c =? ch "`")%N then either (md_expect_code_span avail) (ch "`")
  else if (c =? ch "<")%N then either (let! b := md_expect_html_comment avail in if b then ret true else md_expect_autolink avail) (ch ">")
  else if (c =? ch "\")%N then
    match s with
    | _ :: d :: _ => if is_md_ascii_punctuation d then emit_and_advance 2 hl_string_escape ;; ret d else skip
    | _ => skip
    end
  else if (c =? ch "&")%N then either (md_expect_reference avail) (ch ";")
  else if (c =? ch "!")%N then if starts_with_ch (skipn 1 s) (ch "[") then either (md_expect_image avail) (ch ")") else skip
  else if (c =? ch "[")%N then either (md_expect_link avail) (ch ")")
  else if (c =? ch "*")%N || (c =? ch "_")%N then either (md_expect_emphasis avail prev) c
  else
    let n := 1 + prefix_len (fun c => negb (md_is_special c)) (skipn 1 s) in
    let! p := at_ s (n - 1) in
    match h with None => advance n | Some h => emit_and_advance n h end ;;
    ret p.
(** markdown.cpp:679-778: one round of the loop; the state of the loop is prev_char. *)
Definition md_inline_round (end_pos : nat) (h : option N) (prev : N) : MD (N + unit) :=
  let! i := get_idx in
  let! e := eof in
  if negb (i <? end_pos) || e then ret (inr tt)
  else let! p := md_inline_step (end_pos - i) h prev in ret (inl p).
Definition md_inline_body (len : nat) (prev : N) (h : option N) : MD unit :=
  if len =? 0 then ret tt else let! i := get_idx in hloop 1 (md_inline_round (i + len) h) prev.
End inline.
(** markdown.cpp:650-779 (consume_inline_content). The fuel bounds the depth of the recursion; the C++ call stack is not
    modelled. The nested content is shorter, so the length is enough fuel. *)
Fixpoint md_inline_nested (fuel : nat) (len : nat) (prev : N) (h : option N) : MD unit :=
  match fuel with
  | 0 => if len =? 0 then ret tt else fail FFuel
  | S fuel => md_inline_body (md_inline_nested fuel) len prev h
  end.
Definition md_inline (len : nat) (prev : N) (h : option N) : MD unit := md_inline_nested len len prev h.

(** markdown.cpp:403-446 (expect_atx_heading) *)
Definition md_expect_heading (len : nat) : MD bool :=
  let! s := md_region len in
  let lead := match_lead_spaces s in
  if negb (starts_with_ch (skipn lead s) (ch "#")) then ret false
  else
    let hashes := prefix_len (N.eqb (ch "#")) (firstn 6 (skipn lead s)) in
    let after := skipn (lead + hashes) s in
    if match after with x :: _ => negb (is_md_space x) | [] => false end then ret false
    else
      advance lead ;;
      emit_and_advance hashes hl_symbol_formatting ;;
      let space := match after with [] => 0 | _ => 1 end in
      advance space ;;
      let inline_len := len - (lead + hashes + space) in
      when (negb (inline_len =? 0))
        (let! v := md_region inline_len in
         let stripped := strip_atx_trailing v in
         md_inline stripped 0%N (Some hl_text_heading) ;;
         advance (inline_len - stripped)) ;;
      ret true.
(** markdown.cpp:448-481 (expect_thematic_break) *)
Definition md_expect_break (len : nat) : MD bool :=
  let! s := md_region len in
  let lead := match_lead_spaces s in
  match skipn lead s with
  | [] => ret false
  | c :: _ =>
    if negb (mem c (bs "*-_=")) then ret false
    else if negb (forallb (fun x => (x =? c)%N || is_md_space x) (skipn lead s)) then ret false
    else if length (filter (fun x => (x =? c)%N) (skipn lead s)) <? 3 then ret false
    else advance lead ;; emit_and_advance (len - lead) hl_symbol_formatting ;; ret true
  end.
(** markdown.cpp:483-525 (expect_fenced_code_open) *)
Definition md_expect_fence (len : nat) : MD bool :=
  let! s := md_region len in
  let lead := match_lead_spaces s in
  match skipn lead s with
  | [] => ret false
  | c :: _ =>
    let run := prefix_len (N.eqb c) (skipn lead s) in
    if negb (mem c (bs "`~")) then ret false
    else if run <? 3 then ret false
    else if (c =? ch "`")%N && existsb (N.eqb (ch "`")) (skipn (lead + run) s) then ret false
    else
      let! l := get_loc in
      set_loc (mk_md true c run (md_comment l)) ;;
      advance lead ;;
      emit_and_advance run hl_string_delim ;;
      advance (len - lead - run) ;;
      ret true
  end.
(** markdown.cpp:527-553 (expect_indented_code) *)
Definition md_expect_indented (len : nat) : MD bool :=
  let! s := md_region len in
  match s with
  | [] => ret false
  | c :: _ =>
    let indent := if (c =? 9)%N then 1 else prefix_len (N.eqb (ch " ")) (firstn 4 s) in
    if negb (c =? 9)%N && (indent <? 4) then ret false
    else advance indent ;; when (indent <? len) (emit_and_advance (len - indent) hl_text_code) ;; ret true
  end.
(** markdown.cpp:595-648 (expect_list_marker). The length of the marker: 0 if there is none *)
Definition md_marker (s : str) : nat :=
  match s with
  | [] => 0
  | c :: _ =>
    if mem c (bs "-+*") then 1
    else if is_ascii_digit c then
      let d := prefix_len is_ascii_digit (firstn 9 s) in
      match skipn d s with
      | x :: _ => if mem x (bs ".)") then d + 1 else 0
      | [] => 0
      end
    else 0
  end.
Definition md_expect_list (len : nat) : MD bool :=
  let! s := md_region len in
  let lead := prefix_len (N.eqb (ch " ")) s in
  let marker := md_marker (skipn lead s) in
  if marker =? 0 then ret false
  else
    match skipn (lead + marker) s with
    | [] => ret false
    | x :: _ =>
      if negb (is_md_space x) then ret false
      else
        advance lead ;;
        emit_and_advance marker hl_symbol_formatting ;;
        advance 1 ;;
        md_inline (len - (lead + marker) - 1) 0%N None ;;
        ret true
    end.
(** markdown.cpp:555-593 (expect_blockquote). The fuel bounds the nesting: every level consumes a character. *)
Fixpoint md_expect_quote (fuel : nat) (len : nat) : MD bool :=
  match fuel with
  | 0 => fail FFuel
  | S fuel =>
    let! s := md_region len in
    let lead := match_lead_spaces s in
    if negb (starts_with_ch (skipn lead s) (ch ">")) then ret false
    else
      advance lead ;;
      emit_and_advance 1 hl_symbol_formatting ;;
      let space := match skipn (lead + 1) s with x :: _ => if is_md_space x then 1 else 0 | [] => 0 end in
      advance space ;;
      let n := len - (lead + 1 + space) in
      if n =? 0 then ret true
      else
        let! b := md_expect_heading n in if b then ret true else
        let! b := md_expect_break n in if b then ret true else
        let! b := md_expect_list n in if b then ret true else
        let! b := md_expect_quote fuel n in if b then ret true else
        let! b := md_expect_indented n in if b then ret true else
        md_inline n 0%N None ;; ret true
  end.
(** markdown.cpp:308-334 (consume_block_line) *)
Definition md_block_line : MD unit :=
  let! r := get_rem in
  let '(len, term) := match_crlf_line r in
  let! s := md_region len in
  if md_is_blank s then advance (len + term)
  else
    let! b := md_expect_heading len in if b then advance term else
    let! b := md_expect_break len in if b then advance term else
    let! b := md_expect_fence len in if b then advance term else
    let! b := md_expect_list len in if b then advance term else
    let! b := md_expect_quote (len + 1) len in if b then advance term else
    let! b := md_expect_indented len in if b then advance term else
    md_inline len 0%N None ;; advance term.
(** markdown.cpp:336-373 (consume_fenced_line) *)
Definition md_fenced_line : MD unit :=
  let! r := get_rem in
  let '(len, term) := match_crlf_line r in
  let! s := md_region len in
  let! l := get_loc in
  let lead := match_lead_spaces s in
  let run := prefix_len (N.eqb (md_fence_char l)) (skipn lead s) in
  if (md_fence_length l <=? run) && forallb is_md_space (skipn (lead + run) s) then
    set_loc (mk_md false (md_fence_char l) (md_fence_length l) (md_comment l)) ;;
    advance lead ;;
    emit_and_advance run hl_string_delim ;;
    advance (len - lead - run) ;;
    advance term
  else when (negb (len =? 0)) (emit_and_advance len hl_text_code) ;; advance term.
(** markdown.cpp:375-401 (consume_html_comment_line) *)
Definition md_comment_line : MD unit :=
  let! r := get_rem in
  let '(len, term) := match_crlf_line r in
  let! s := md_region len in
  match find_sub s (bs "-->") with
  | None => when (negb (len =? 0)) (emit_and_advance len hl_comment) ;; advance term
  | Some n =>
    when (negb (n =? 0)) (emit_and_advance n hl_comment) ;;
    emit_and_advance 3 hl_comment_delim ;;
    let! l := get_loc in
    set_loc (mk_md (md_fenced l) (md_fence_char l) (md_fence_length l) false) ;;
    md_inline (len - n - 3) (ch ">") None ;;
    advance term
  end.
(** markdown.cpp:291-305 (operator()) *)
Definition md_line : MD unit :=
  let! l := get_loc in
  if md_fenced l then md_fenced_line else if md_comment l then md_comment_line else md_block_line.
(** markdown.cpp:272-289 (Highlighter), 1070-1078 (highlight_markdown) *)
Definition highlight_markdown : highlighter := fun src _ => run (mk_md false (ch "`") 0 false) (while_rem md_line ;; ret true) src.
