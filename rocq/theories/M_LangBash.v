(** * Model of Bash highlighting (src/main/cpp/lang/bash.cpp, include/ulight/impl/lang/bash.hpp). *)
From Coq Require Import List NArith ZArith Bool Arith.
From Verif Require Import M_Base M_Emit M_Types M_Chars M_Parse M_Api M_Highlighter.
Import ListNotations.

(** bash.hpp:15 (is_bash_whitespace), 18 (is_bash_blank), 21 (is_bash_metacharacter), 30
    (is_bash_escapable_in_double_quotes), 39 (is_bash_special_parameter), 42-44, 47-48, 56-57 *)
Definition is_bash_whitespace (c : N) : bool := mem c [32; 9; 11; 13; 10]%N.
Definition is_bash_blank (c : N) : bool := mem c [32; 9]%N.
Definition is_bash_metacharacter (c : N) : bool := is_bash_blank c || mem c (bs "|&;()<>").
Definition is_bash_escapable_in_double_quotes (c : N) : bool := mem c [39; 36; 96; 34; 92; 10]%N.
Definition is_bash_special_parameter (c : N) : bool := mem c (bs "*@#?-$!0").
Definition is_bash_identifier_start (c : N) : bool := is_ascii_alpha c || (c =? ch "_")%N.
Definition is_bash_identifier (c : N) : bool := is_ascii_alphanumeric c || (c =? ch "_")%N.
Definition is_bash_parameter_substitution_start (c : N) : bool :=
  mem c (bs "({") || is_bash_identifier_start c || is_bash_special_parameter c.
Definition is_bash_unquoted_terminator (c : N) : bool :=
  mem c [92; 39; 34]%N || is_bash_whitespace c || is_bash_metacharacter c.

(** bash.cpp:54-65 (match_single_quoted_string) *)
Definition bash_match_single_quoted_string (s : str) : enclosed :=
  if negb (starts_with_ch s 39) then mk_enclosed 0 false
  else match find_ch s 39 1 with
       | None => mk_enclosed (length s) false
       | Some i => mk_enclosed (i + 1) true
       end.
(** bash.cpp:67-75 (match_comment) *)
Definition bash_match_comment (s : str) : nat :=
  if negb (starts_with_ch s (ch "#")) then 0
  else match find_ch s 10 1 with None => length s | Some i => i end.
(** bash.cpp:77-80 (match_blank) *)
Definition bash_match_blank (s : str) : nat := length_if s is_bash_blank.
(** bash.cpp:82-87 (starts_with_substitution) *)
Definition bash_starts_with_substitution (s : str) : bool :=
  match s with c :: d :: _ => (c =? ch "$")%N && is_bash_parameter_substitution_start d | _ => false end.
(** bash.cpp:89-92 (match_identifier) *)
Definition bash_match_identifier (s : str) : nat := length_if_head_tail s is_bash_identifier_start is_bash_identifier.

(** bash.cpp:94-135 (match_operator), as the code of the returned token (bash.hpp:59-112) *)
Definition bash_match_operator (s : str) : option str :=
  match s with
  | [] => None
  | c :: _ =>
    if (c =? ch "!")%N then Some (bs "!")
    else if (c =? ch "&")%N then
      Some (if starts_with s (bs "&&") then bs "&&" else if starts_with s (bs "&>>") then bs "&>>"
            else if starts_with s (bs "&>") then bs "&>" else bs "&")
    else if (c =? ch "(")%N then Some (bs "(")
    else if (c =? ch ")")%N then Some (bs ")")
    else if (c =? ch "*")%N then Some (bs "+")
    else if (c =? ch "-")%N then Some (bs "-")
    else if (c =? ch ":")%N then Some (bs ":")
    else if (c =? ch ";")%N then Some (bs ";")
    else if (c =? ch "<")%N then
      Some (if starts_with s (bs "<<<") then bs "<<<" else if starts_with s (bs "<<") then bs "<<"
            else if starts_with s (bs "<&") then bs "<&" else if starts_with s (bs "<>") then bs "<>" else bs "<")
    else if (c =? ch "=")%N then Some (bs "=")
    else if (c =? ch ">")%N then
      Some (if starts_with s (bs ">>") then bs ">>" else if starts_with s (bs ">&") then bs ">&" else bs ">")
    else if (c =? ch "?")%N then Some (bs "?")
    else if (c =? ch "@")%N then Some (bs "@")
    else if (c =? ch "[")%N then Some (if starts_with s (bs "[[") then bs "[[" else bs "[")
    else if (c =? ch "]")%N then Some (if starts_with s (bs "]]") then bs "]]" else bs "]")
    else if (c =? ch "{")%N then Some (bs "{")
    else if (c =? ch "|")%N then Some (if starts_with s (bs "||") then bs "||" else bs "|")
    else if (c =? ch "}")%N then Some (bs "}")
    else if (c =? ch "~")%N then Some (bs "~")
    else None
  end.

(** bash.cpp:141-147 (Context), 149-157 (State, the data member) *)
Inductive bash_context := cx_file | cx_parameter_sub | cx_command_sub | cx_subshell | cx_arith_sub.
Inductive bash_state := bs_before_command | bs_in_command | bs_before_argument | bs_in_argument | bs_parameter_sub.
Definition is_parameter_sub (c : bash_context) : bool := match c with cx_parameter_sub => true | _ => false end.

(** bash.cpp:279-288: the loop of consume_word *)
Fixpoint bash_word_length (parameter : bool) (s : str) : nat :=
  match s with
  | [] => 0
  | c :: s' =>
    if is_bash_unquoted_terminator c || bash_starts_with_substitution s || (parameter && (c =? ch "}")%N) then 0
    else S (bash_word_length parameter s')
  end.
(** bash.cpp:279-313 (consume_word) *)
Definition bash_consume_word (context : bash_context) : M bash_state unit :=
  let! r := get_rem in
  let len := bash_word_length (is_parameter_sub context) r in
  checkM (negb (len =? 0)) FAssert ;;
  let! s := get_loc in
  match s with
  | bs_before_command | bs_in_command =>
    emit_and_advance len hl_name_shell_command ;; set_loc bs_in_command
  | bs_before_argument =>
    emit_and_advance len (if starts_with_ch r (ch "-") then hl_name_shell_option else hl_string) ;; set_loc bs_in_argument
  | bs_in_argument => emit_and_advance len hl_string
  | bs_parameter_sub => emit_and_advance len hl_string_interpolation
  end.

(** bash.cpp:315-324 (consume_escape_character) *)
Definition bash_consume_escape : M bash_state unit :=
  let! r := get_rem in
  if starts_with r [92; 10]%N then emit_and_advance 1 hl_string_escape ;; advance 1
  else emit_and_advance (Nat.min 2 (length r)) hl_string_escape.

(** bash.cpp:326-337 (highlight_string) *)
Definition bash_highlight_string (e : enclosed) : M bash_state unit :=
  checkM (negb (en_length e =? 0)) FAssert ;;
  emit_and_advance 1 hl_string_delim ;;
  let content := en_length e - (if en_terminated e then 2 else 1) in
  when (negb (content =? 0)) (emit_and_advance content hl_string) ;;
  when (en_terminated e) (emit_and_advance 1 hl_string_delim).

(** bash.cpp:395-402 (update_state) *)
Definition bash_update_state : M bash_state unit :=
  let! s := get_loc in
  match s with
  | bs_before_command => set_loc bs_in_command
  | bs_before_argument => set_loc bs_in_argument
  | _ => ret tt
  end.

(** bash.cpp:372-415 (consume_substitution); [commands] is consume_commands *)
Definition bash_consume_substitution (commands : bash_context -> M bash_state unit) : M bash_state unit :=
  let! r := get_rem in
  checkM ((2 <=? length r) && starts_with_ch r (ch "$")) FAssert ;;
  let! next := at_ r 1 in
  if (next =? ch "{")%N then
    emit_and_advance 2 hl_string_interpolation_delim ;; set_loc bs_parameter_sub ;; commands cx_parameter_sub
  else if (next =? ch "(")%N then
    if (3 <=? length r) && (nth 2 r 0 =? ch "(")%N then
      emit_and_advance 3 hl_string_interpolation_delim ;; set_loc bs_before_command ;; commands cx_arith_sub
    else
      emit_and_advance 2 hl_string_interpolation_delim ;; set_loc bs_before_command ;; commands cx_command_sub
  else if is_bash_special_parameter next then
    emit_and_advance 2 hl_string_interpolation ;; bash_update_state
  else
    let! t := substr_from r 1 in
    let id := bash_match_identifier t in
    if negb (id =? 0) then emit_and_advance (id + 1) hl_string_interpolation ;; bash_update_state
    else fail FAssert.

(** bash.cpp:349-368: the loop of consume_double_quoted_string *)
Definition bash_string_body (commands : bash_context -> M bash_state unit) (chars : nat) : M bash_state (nat + unit) :=
  let flush := when (negb (chars =? 0)) (emit_and_advance chars hl_string) in
  let! r := get_rem in
  if negb (chars <? length r) then flush ;; ret (inr tt)
  else
    let! c := at_ r chars in
    if (c =? 34)%N then flush ;; emit_and_advance 1 hl_string_delim ;; ret (inr tt)
    else if (c =? 92)%N && (chars + 1 <? length r) && is_bash_escapable_in_double_quotes (nth (chars + 1) r 0%N) then
      flush ;; emit_and_advance 2 hl_string_escape ;; ret (inl 0)
    else
      let! t := substr_from r chars in
      if bash_starts_with_substitution t then flush ;; bash_consume_substitution commands ;; ret (inl 0)
      else ret (inl (chars + 1)).
(** bash.cpp:339-370 (consume_double_quoted_string) *)
Definition bash_consume_double_quoted (commands : bash_context -> M bash_state unit) : M bash_state unit :=
  hloop 1 (bash_string_body commands) 0.

(** bash.cpp:178-276: one iteration of the loop of consume_commands; inr leaves the function *)
Definition bash_commands_body (commands : bash_context -> M bash_state unit) (context : bash_context) (_ : unit) : M bash_state (unit + unit) :=
  let! r := get_rem in
  match r with
  | [] => ret (inr tt)
  | c :: _ =>
    let again (m : M bash_state unit) : M bash_state (unit + unit) := m ;; ret (inl tt) in
    if (c =? 92)%N then again bash_consume_escape
    else if (c =? 39)%N then again (bash_highlight_string (bash_match_single_quoted_string r))
    else if (c =? 34)%N then again (emit_and_advance 1 hl_string_delim ;; bash_consume_double_quoted commands)
    else if (c =? ch "#")%N then
      let len := bash_match_comment r in
      again (emit_and_advance 1 hl_comment_delim ;; when (1 <? len) (emit_and_advance (len - 1) hl_comment))
    else if mem c [32; 9]%N then
      again (advance (bash_match_blank r) ;;
             let! s := get_loc in
             match s with bs_in_command | bs_in_argument => set_loc bs_before_argument | _ => ret tt end)
    else if mem c [11; 13; 10]%N then again (advance 1 ;; set_loc bs_before_command)
    else if (c =? ch "$")%N then
      again (if bash_starts_with_substitution r then bash_consume_substitution commands else bash_consume_word context)
    else if (c =? ch "(")%N then
      again (emit_and_advance 1 hl_symbol_parens ;; set_loc bs_before_command ;; commands cx_subshell)
    else if (c =? ch ")")%N then
      match context with
      | cx_command_sub => emit_and_advance 1 hl_string_interpolation_delim ;; ret (inr tt)
      | cx_subshell => emit_and_advance 1 hl_symbol_parens ;; ret (inr tt)
      | cx_arith_sub =>
        if (2 <=? length r) && (nth 1 r 0 =? ch ")")%N
        then emit_and_advance 2 hl_string_interpolation_delim ;; ret (inr tt)
        else again (emit_and_advance 1 hl_symbol_parens)
      | _ => again (emit_and_advance 1 hl_symbol_parens)
      end
    else if mem c (bs "|&;<>") then
      match bash_match_operator r with
      | None => fail FAssert
      | Some op => again (emit_and_advance (length op) hl_symbol_op)
      end
    else if (c =? ch "}")%N then
      if is_parameter_sub context then emit_and_advance 1 hl_string_interpolation_delim ;; ret (inr tt)
      else again (emit_and_advance 1 hl_symbol_brace)
    else again (bash_consume_word context)
  end.

(** bash.cpp:176-277 (consume_commands). The fuel bounds the depth of the recursion; the C++ call
    stack is not modelled. *)
Fixpoint bash_commands (fuel : nat) (context : bash_context) : M bash_state unit :=
  match fuel with
  | 0 => fail FFuel
  | S fuel => hloop 1 (bash_commands_body (bash_commands fuel) context) tt
  end.

(** bash.cpp:169-173 (operator()), 421-429 (highlight_bash). Every nested call follows a consumed
    character, so that the depth is at most one more than the length of the source. *)
Definition highlight_bash : highlighter := fun src _ =>
  run bs_before_command (bash_commands (S (length src)) cx_file ;; ret true) src.
