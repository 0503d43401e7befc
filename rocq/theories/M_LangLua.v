(** * Model of Lua highlighting (src/main/cpp/lang/lua.cpp, include/ulight/impl/lang/lua.hpp). *)
From Coq Require Import List NArith Bool Arith.
From Verif Require Import M_Base M_Buffer S_Tokens M_Emit M_Types M_Chars M_Api M_Table M_Utf8.
Import ListNotations.

(** lang/lua.hpp:19-27 (is_lua_whitespace, is_lua_identifier_start, is_lua_identifier_continue) *)
Definition is_lua_whitespace (c : N) : bool := mem c [9; 10; 12; 13; 32; 11]%N.
Definition is_lua_identifier_start (c : N) : bool := is_ascii_xid_start c || (c =? 95)%N.
Definition is_lua_identifier_continue (c : N) : bool := is_ascii_xid_continue c.

(** lang/lua.hpp:29-84 (ULIGHT_LUA_TOKEN_ENUM_DATA) *)
Definition lua_tokens : list (str * N) := [
  (bs "#", hl_symbol_op); (bs "%", hl_symbol_op); (bs "&", hl_symbol_op); (bs "(", hl_symbol_parens);
  (bs ")", hl_symbol_parens); (bs "*", hl_symbol_op); (bs "+", hl_symbol_op); (bs ",", hl_symbol_punc);
  (bs "-", hl_symbol_op); (bs ".", hl_symbol_op); (bs "..", hl_symbol_op); (bs "...", hl_symbol_op);
  (bs "/", hl_symbol_op); (bs "//", hl_symbol_op); (bs ":", hl_symbol_op); (bs "::", hl_symbol_op);
  (bs ";", hl_symbol_punc); (bs "<", hl_symbol_op); (bs "<<", hl_symbol_op); (bs "<=", hl_symbol_op);
  (bs "=", hl_symbol_op); (bs "==", hl_symbol_op); (bs ">", hl_symbol_op); (bs ">=", hl_symbol_op);
  (bs ">>", hl_symbol_op); (bs "[", hl_symbol_square); (bs "]", hl_symbol_square); (bs "^", hl_symbol_op);
  (bs "and", hl_keyword); (bs "break", hl_keyword_control); (bs "do", hl_keyword_control);
  (bs "else", hl_keyword_control); (bs "elseif", hl_keyword_control); (bs "end", hl_keyword_control);
  (bs "false", hl_bool); (bs "for", hl_keyword_control); (bs "function", hl_keyword); (bs "goto", hl_keyword_control);
  (bs "if", hl_keyword_control); (bs "in", hl_keyword); (bs "local", hl_keyword); (bs "nil", hl_null);
  (bs "not", hl_keyword); (bs "or", hl_keyword); (bs "repeat", hl_keyword_control); (bs "return", hl_keyword_control);
  (bs "then", hl_keyword_control); (bs "true", hl_bool); (bs "until", hl_keyword_control);
  (bs "while", hl_keyword_control); (bs "{", hl_symbol_brace); (bs "|", hl_symbol_op); (bs "}", hl_symbol_brace);
  (bs "~", hl_symbol_op); (bs "~=", hl_symbol_op)].

(** lua.cpp:75-83 (lua_token_type_by_code) with 63-67 (lua_token_type_highlight) *)
Definition lua_token_by_code (s : str) : option N := table_find lua_tokens s.

(** lua.cpp:85-88 (match_whitespace) *)
Definition lua_match_whitespace (s : str) : nat := length_if s is_lua_whitespace.

(** The loops that count equals signs from position [i] on (lua.cpp:114-116, 148-151, 262-265, 581-583, 618-621) *)
Definition lua_equals (i : nat) (s : str) : nat := prefix_len (N.eqb 61) (skipn i s).

(** lua.cpp:95-133 (match_line_comment) *)
Definition lua_match_line_comment (s : str) : nat :=
  if negb (starts_with s (bs "--")) then 0
  else if (4 <=? length s) && str_eqb (firstn 4 s) (bs "--[[") then 0
  else if (3 <=? length s) && (nth 2 s 0 =? 91)%N && (let i := 3 + lua_equals 3 s in (i <? length s) && (nth i s 0 =? 91)%N) then 0
  else 2 + prefix_len (fun c => negb (c =? 10)%N) (skipn 2 s).

(** The inner loop and the test after it (lua.cpp:163-172, 275-284): [s], which follows a closing bracket, has [eq] equals
    signs and another closing bracket. *)
Fixpoint lua_closes (eq : nat) (s : str) : bool :=
  match eq, s with
  | 0, c :: _ => (c =? 93)%N
  | S eq, c :: s => (c =? 61)%N && lua_closes eq s
  | _, [] => false
  end.
(** The loops that look for the closing delimiter with [eq] equals signs (lua.cpp:160-178, 185-190, 242-249, 272-291); in the
    loops for ]], the last character is not considered as the first of the delimiter, which makes no difference. *)
Fixpoint lua_find_close (eq : nat) (s : str) : option nat :=
  match s with
  | [] => None
  | c :: t => if (c =? 93)%N && lua_closes eq t then Some 0 else option_map S (lua_find_close eq t)
  end.

(** lang/lua.hpp:121-130 (Comment_Result); a length of zero means that there is none *)
Record lua_comment : Type := mk_lua_comment { lc_length : nat; lc_terminated : bool }.
(** The text from [open] on is searched for the closing delimiter. *)
Definition lua_long (s : str) (open eq : nat) : nat * bool :=
  match lua_find_close eq (skipn open s) with
  | Some k => (open + k + 2 + eq, true)
  | None => (length s, false)
  end.
(** lua.cpp:135-194 (match_block_comment) *)
Definition lua_match_block_comment (s : str) : lua_comment :=
  if (length s <? 4) || negb (starts_with s (bs "--[[")) then
    if (length s <? 5) || negb (starts_with s (bs "--[")) then mk_lua_comment 0 false
    else let eq := lua_equals 3 s in
      let i := 3 + eq in
      if (eq =? 0) || (length s <=? i) || negb (nth i s 0 =? 91)%N then mk_lua_comment 0 false
      else let r := lua_long s (i + 1) eq in mk_lua_comment (fst r) (snd r)
  else let r := lua_long s 4 0 in mk_lua_comment (fst r) (snd r).

(** lua.cpp:203-236 (match_string_literal, the loop over a quoted string): the number of characters after the opening quote
    that belong to the literal, and whether it is terminated *)
Fixpoint lua_quoted (quote : N) (escaped : bool) (s : str) : nat * bool :=
  match s with
  | [] => (0, false)
  | c :: t =>
    if escaped then let r := lua_quoted quote false t in (S (fst r), snd r)
    else if (c =? 92)%N then let r := lua_quoted quote true t in (S (fst r), snd r)
    else if (c =? quote)%N then (1, true)
    else if (c =? 10)%N then (0, false)
    else let r := lua_quoted quote false t in (S (fst r), snd r)
  end.
(** lang/lua.hpp:144-154 (String_Literal_Result) *)
Record lua_string : Type := mk_lua_string { ls_length : nat; ls_long : bool; ls_terminated : bool }.
(** lua.cpp:196-300 (match_string_literal) *)
Definition lua_match_string (s : str) : lua_string :=
  match s with
  | [] => mk_lua_string 0 false false
  | c :: t =>
    if (c =? 34)%N || (c =? 39)%N then let r := lua_quoted c false t in mk_lua_string (S (fst r)) false (snd r)
    else if starts_with s (bs "[[") then let r := lua_long s 2 0 in mk_lua_string (fst r) true (snd r)
    else if starts_with s (bs "[") && (3 <=? length s) then
      let eq := lua_equals 1 s in
      let i := 1 + eq in
      if (eq =? 0) || (length s <=? i) || negb (nth i s 0 =? 91)%N then mk_lua_string 0 false false
      else let r := lua_long s (i + 1) eq in mk_lua_string (fst r) true (snd r)
    else mk_lua_string 0 false false
  end.

(** The steps of match_number: each takes the length so far and returns the new one. *)
Definition lua_digits (p : N -> bool) (s : str) (n : nat) : nat := n + prefix_len p (skipn n s).
Definition lua_at (n : nat) (s : str) (cs : list N) : bool := match nth_error s n with Some c => mem c cs | None => false end.
Definition lua_fraction (p : N -> bool) (s : str) (n : nat) : nat := if lua_at n s [46]%N then lua_digits p s (n + 1) else n.
Definition lua_sign (s : str) (n : nat) : nat := if lua_at n s [43; 45]%N then n + 1 else n.
(** lua.cpp:302-391 (match_number) *)
Definition lua_match_number (s : str) : nat :=
  if (2 <=? length s) && (nth 0 s 0 =? 48)%N && mem (nth 1 s 0%N) [120; 88]%N then
    let n := lua_fraction is_ascii_hex_digit s (lua_digits is_ascii_hex_digit s 2) in
    if lua_at n s [112; 80]%N then lua_digits is_ascii_digit s (lua_sign s (n + 1)) else n
  else
    let n := lua_digits is_ascii_digit s 0 in
    let n := if (n =? 0) && (2 <=? length s) && (nth 0 s 0 =? 46)%N && is_ascii_digit (nth 1 s 0%N) then lua_digits is_ascii_digit s 1
             else if 0 <? n then lua_fraction is_ascii_digit s n else n in
    if (n =? 0) || (n =? 1) && (nth 0 s 0 =? 46)%N then 0
    else if lua_at n s [101; 69]%N then
      let e := lua_sign s (n + 1) in
      let m := lua_digits is_ascii_digit s e in
      if m =? e then n else m
    else n.

(** lua.cpp:408-414 (match_identifier, the loop) *)
Fixpoint lua_identifier_loop (fuel : nat) (s : str) (len : nat) : res nat :=
  match fuel with
  | 0 => Fail FFuel
  | S fuel =>
    if len <? length s then
      let* d := decode_and_length_or_replacement (skipn len s) in
      if negb (is_lua_identifier_continue (fst d)) then Ok len else lua_identifier_loop fuel s (len + snd d)
    else Ok len
  end.
(** lua.cpp:393-417 (match_identifier) *)
Definition lua_match_identifier (s : str) : res nat :=
  match s with
  | [] => Ok 0
  | _ =>
    let* d := decode_and_length_or_replacement s in
    if negb (is_lua_identifier_start (fst d)) then Ok 0 else lua_identifier_loop (S (length s)) s (snd d)
  end.

(** lua.cpp:419-519 (match_operator_or_punctuation); the result is the code of the token. The test for <const> in the case of
    '<' (lines 459-461) compares five characters with six and never holds. *)
Definition lua_match_symbol (s : str) : option str :=
  match s with
  | [] => None
  | c :: t =>
    let next x y := match t with d :: _ => (d =? x)%N && y | [] => false end in
    if mem c (bs "+-*%^#&|;,(){}[]") then Some [c]
    else if (c =? ch "/")%N then Some (if next (ch "/") true then bs "//" else bs "/")
    else if (c =? ch "=")%N then Some (if next (ch "=") true then bs "==" else bs "=")
    else if (c =? ch "<")%N then Some (if next (ch "=") true then bs "<=" else if next (ch "<") true then bs "<<" else bs "<")
    else if (c =? ch ">")%N then Some (if next (ch "=") true then bs ">=" else if next (ch ">") true then bs ">>" else bs ">")
    else if (c =? ch "~")%N then Some (if next (ch "=") true then bs "~=" else bs "~")
    else if (c =? ch ".")%N then
      Some (if next (ch ".") (match t with _ :: e :: _ => (e =? ch ".")%N | _ => false end) then bs "..." else if next (ch ".") true then bs ".." else bs ".")
    else if (c =? ch ":")%N then Some (if next (ch ":") true then bs "::" else bs ":")
    else None
  end.

(** Characters at positions that the code reads without a test; reading beyond the end is undefined. *)
Definition lua_read (s : str) (i : nat) : res N := match nth_error s i with Some c => Ok c | None => Fail FUB end.
(** Differences of lengths, in an unsigned type; wrapping around is a failure here. *)
Definition lua_sub (a b : nat) : res nat := if b <=? a then Ok (a - b) else Fail FUB.

(** lua.cpp:546-684 (highlight_lua, one round of the loop): the increment of index and the calls of emit *)
Definition lua_step (index : nat) (s : str) : res (nat * list out_op) :=
  let emit off len ty := OEmit (index + off) len ty false in
  if (7 <=? length s) && str_eqb (firstn 7 s) (bs "<const>") then
    Ok (7, [emit 0 1 hl_name_attr_delim; emit 1 5 hl_name_attr; emit 6 1 hl_name_attr_delim])
  else if negb (lua_match_whitespace s =? 0) then Ok (lua_match_whitespace s, [])
  else if negb (lua_match_line_comment s =? 0) then
    let n := lua_match_line_comment s in
    let* m := lua_sub n 2 in
    Ok (n, [emit 0 2 hl_comment_delim; emit 2 m hl_comment])
  else if negb (lc_length (lua_match_block_comment s) =? 0) then
    let c := lua_match_block_comment s in
    let* x := lua_read s 2 in
    let* y := lua_read s 3 in
    let eqs := (x =? 91)%N && negb (y =? 91)%N in
    let prefix := if eqs then 3 + lua_equals 3 s + 1 else 4 in
    let close := if lc_terminated c then if eqs then 2 + (prefix - 4) else 2 else 0 in
    let* m := lua_sub (lc_length c) prefix in
    let* m := lua_sub m close in
    let* d := lua_sub (lc_length c) close in
    Ok (lc_length c, emit 0 prefix hl_comment_delim :: emit prefix m hl_comment ::
      if lc_terminated c then [emit d close hl_comment_delim] else [])
  else if negb (ls_length (lua_match_string s) =? 0) then
    let r := lua_match_string s in
    if ls_long r then
      let* x := lua_read s 0 in
      let eqs := (x =? 91)%N && (3 <=? length s) && (nth 1 s 0 =? 61)%N in
      let open := if eqs then 1 + lua_equals 1 s + 1 else 2 in
      let close := if ls_terminated r then if eqs then open else 2 else 0 in
      let* m := lua_sub (ls_length r) open in
      let* m := lua_sub m close in
      let* d := lua_sub (ls_length r) close in
      Ok (ls_length r, emit 0 open hl_string :: emit open m hl_string :: if ls_terminated r then [emit d close hl_string] else [])
    else Ok (ls_length r, [emit 0 (ls_length r) hl_string])
  else if negb (lua_match_number s =? 0) then Ok (lua_match_number s, [emit 0 (lua_match_number s) hl_number])
  else
    let* n := lua_match_identifier s in
    if negb (n =? 0) then
      let h := match lua_token_by_code (firstn n s) with Some h => h | None => hl_name end in
      Ok (n, [emit 0 n h])
    else match lua_match_symbol s with
    | Some t =>
      match lua_token_by_code t with
      | Some h => Ok (length t, [emit 0 (length t) h])
      | None => Fail FUB (* not reached: the codes are in the table *)
      end
    | None => Ok (1, [emit 0 1 hl_symbol])
    end.

(** lua.cpp:543-545 (the loop); [s] is the source from [index] on. An index beyond the end, which would end the loop, is a
    failure here. *)
Fixpoint lua_loop (fuel index : nat) (s : str) : res (list out_op) :=
  match fuel with
  | 0 => Fail FFuel
  | S fuel =>
    match s with
    | [] => Ok []
    | _ =>
      let* r := lua_step index s in
      if fst r <=? length s then
        let* o := lua_loop fuel (index + fst r) (skipn (fst r) s) in Ok (snd r ++ o)
      else Fail FUB
    end
  end.
(** lua.cpp:523-688 (highlight_lua) *)
Definition highlight_lua : highlighter := fun src _ =>
  let* o := lua_loop (S (length src)) 0 src in Ok (true, o).

(** lua.cpp:530-541 (the function emit of highlight_lua, which has none of the assertions of the other highlighters) *)
Definition lua_emit (coal : bool) (b : buffer token) (begin len : nat) (ty : N) : buffer token :=
  match rev (cells b) with
  | t :: _ =>
    if coal && N.eqb (tk_type t) ty && (tk_begin t + tk_len t =? begin)
    then set_back b (mk_token (tk_begin t) (tk_len t + len) (tk_type t))
    else push_back b (mk_token begin len ty)
  | [] => push_back b (mk_token begin len ty)
  end.
(** The calls of emit performed on the buffer; there is no nested highlighting in Lua. *)
Fixpoint lua_replay (coal : bool) (b : buffer token) (os : list out_op) : res (buffer token) :=
  match os with
  | [] => Ok b
  | OEmit begin len ty _ :: os => lua_replay coal (lua_emit coal b begin len ty) os
  | ONested _ _ _ _ :: _ => Fail FUB
  end.
(** ulight.cpp:420-440, as in [token_output] *)
Definition lua_output (coal : bool) (cap : nat) (ops : list out_op) : res (list (list token)) :=
  let* b := new_buffer cap in
  let* b := lua_replay coal b ops in
  Ok (calls (flush b)).
