(** * Model of YAML highlighting (src/main/cpp/lang/yaml.cpp, include/ulight/impl/lang/yaml.hpp). *)
From Coq Require Import List NArith ZArith Bool Arith.
From Verif Require Import M_Base M_Emit M_Types M_Chars M_Parse M_Utf8 M_Api M_Highlighter M_Lang.
Import ListNotations.

(** ** Characters *)
(** yaml.hpp:15 (is_yaml_whitespace), 18 (is_yaml_flow_indicator), 21 (is_yaml_word_char), 27 (is_yaml_plain_terminator),
    31 (is_yaml_word_terminator) *)
Definition is_yaml_whitespace (c : N) : bool := mem c [32; 9]%N.
Definition is_yaml_flow_indicator (c : N) : bool := mem c (bs ",[]{}").
Definition is_yaml_word_char (c : N) : bool := is_ascii_alphanumeric c || mem c (bs "-").
Definition is_yaml_plain_terminator (c : N) : bool := mem c ([13; 10]%N ++ bs ",[]{}#").
Definition is_yaml_word_terminator (c : N) : bool := mem c ([13; 10]%N ++ bs ",[]{}# " ++ [9]%N ++ bs "&*!").

(** ** Matchers *)
(** yaml.cpp:14-25 (match_line_break) *)
Definition yaml_match_line_break (s : str) : nat :=
  if starts_with s [13; 10]%N then 2 else if starts_with_ch s 13 || starts_with_ch s 10 then 1 else 0.
Definition yaml_at_break (s : str) : bool := negb (yaml_match_line_break s =? 0).
(** The loop of yaml.cpp:284-286, 474-476, 1309-1311: how far the next line break is. *)
Fixpoint yaml_until_break (s : str) : nat :=
  match s with [] => 0 | _ :: t => if yaml_at_break s then 0 else S (yaml_until_break t) end.
(** yaml.cpp:27-61 (match_escape_sequence) *)
Definition yaml_match_escape (s : str) : res escape :=
  match s with
  | c :: d :: _ =>
    if negb (c =? ch "\")%N then Ok (mk_escape 1 true)
    else if mem d (bs "0abefnrtv""/\_NLP " ++ [9]%N) then Ok (mk_escape 2 false)
    else if (d =? ch "x")%N then match_common_escape_at hex_2 s 2
    else if (d =? ch "u")%N then match_common_escape_at hex_4 s 2
    else if (d =? ch "U")%N then match_common_escape_at hex_8 s 2
    else if (d =? 13)%N || (d =? 10)%N then match_common_escape_at lf_cr_crlf s 1
    else Ok (mk_escape 1 true)
  | _ => Ok (mk_escape (Nat.min (length s) 1) true)
  end.
(** yaml.cpp:68-88: the special floats. *)
Definition yaml_specials : list (str * bool) :=
  [(bs ".inf", true); (bs ".Inf", true); (bs ".INF", true); (bs ".nan", false); (bs ".NaN", false); (bs ".NAN", false)].
Fixpoint yaml_special (s : str) (l : list (str * bool)) : option number_result :=
  match l with
  | [] => None
  | (w, sign) :: l =>
    let start := if sign && (starts_with_ch s 43 || starts_with_ch s 45) then 1 else 0 in
    if starts_with (skipn start s) w then Some (mk_number (start + length w) start 0 (length w) 0 0 0 0 0 false)
    else yaml_special s l
  end.
(** yaml.cpp:93-102, 126-135: the options for prefixed numbers and for decimal numbers *)
Definition yaml_prefixed_options : number_options :=
  mk_number_options false false
    [mk_prefix (bs "0x") 16 false; mk_prefix (bs "0X") 16 false; mk_prefix (bs "0o") 8 false;
     mk_prefix (bs "0O") 8 false; mk_prefix (bs "0b") 2 false; mk_prefix (bs "0B") 2 false]
    [] [] None 10 10 0 true false.
Definition yaml_decimal_options : number_options :=
  mk_number_options true true []
    [(bs "e+", 10%Z); (bs "e-", 10%Z); (bs "e", 10%Z); (bs "E+", 10%Z); (bs "E-", 10%Z); (bs "E", 10%Z)]
    [] None 10 10 0 false false.
(** yaml.cpp:107-123: base 60 *)
Definition yaml_sexagesimal (s : str) : option number_result :=
  match s with
  | c :: _ =>
    if negb (is_ascii_digit c) then None
    else
      let first := length_if s is_ascii_digit in
      if (0 <? first) && (first <? length s) && (nth first s 0 =? ch ":")%N then
        let second := length_if (skipn (first + 1) s) is_ascii_digit in
        if 0 <? second then
          let pos := first + 1 + second in
          let pos := if (pos <? length s) && (nth pos s 0 =? ch ":")%N
                     then pos + 1 + length_if (skipn (pos + 1) s) is_ascii_digit else pos in
          Some (mk_number pos 0 0 pos 0 0 0 0 0 false)
        else None
      else None
  | [] => None
  end.
(** yaml.cpp:63-137 (match_number) *)
Definition yaml_match_number (s : str) : res number_result :=
  match yaml_special s yaml_specials with
  | Some r => Ok r
  | None =>
    let* r := match_common_number s yaml_prefixed_options in
    if negb (nr_length r =? 0) && (0 <? nr_prefix r) then Ok r
    else match yaml_sexagesimal s with
         | Some r => Ok r
         | None => match_common_number s yaml_decimal_options
         end
  end.
(** yaml.cpp:146-168: the words of null, true and false with their highlights (1174-1177) *)
Definition yaml_words : list (str * N) :=
  [(bs "FALSE", hl_bool); (bs "False", hl_bool); (bs "NO", hl_bool); (bs "NULL", hl_null); (bs "No", hl_bool); (bs "Null", hl_null);
   (bs "OFF", hl_bool); (bs "ON", hl_bool); (bs "Off", hl_bool); (bs "On", hl_bool); (bs "TRUE", hl_bool); (bs "True", hl_bool);
   (bs "YES", hl_bool); (bs "Yes", hl_bool); (bs "false", hl_bool); (bs "no", hl_bool); (bs "null", hl_null); (bs "off", hl_bool);
   (bs "on", hl_bool); (bs "true", hl_bool); (bs "yes", hl_bool)].
(** yaml.cpp:139-185 (match_plain_identifier) *)
Definition yaml_match_word (s : str) : option (str * N) :=
  let it := lower_bound (fun e : str * N => str_ltb (fst e) s) yaml_words in
  let try i := match nth_error yaml_words i with
               | Some e => if starts_with s (fst e) then Some e else None
               | None => None
               end in
  match try it with
  | Some e => Some e
  | None => if it =? 0 then None else try (it - 1)
  end.
(** yaml.cpp:187-205 (match_anchor, match_alias): [c] is the first character. *)
Definition yaml_match_name (c : N) (s : str) : nat :=
  if negb (starts_with_ch s c) then 0
  else let n := length_if_not (skipn 1 s) is_yaml_word_terminator in if 0 <? n then 1 + n else 0.

(** ** Highlighter *)
(** yaml.cpp:212-254 (Indent_Stack): the stack as a list, the top first. *)
Notation Y := (M (list nat)).
Definition yaml_push (n : nat) : Y unit :=
  let! l := get_loc in checkM (length l <? 64) FAssert ;; set_loc (n :: l).
(** yaml.cpp:282-297 (skip_line, skip_line_break): one advance for the loop's advances by one. *)
Definition yaml_skip_line_break : Y unit := let! r := get_rem in advance (yaml_match_line_break r).
Definition yaml_skip_line : Y unit := let! r := get_rem in advance (yaml_until_break r) ;; yaml_skip_line_break.
(** yaml.cpp:301-312 (current_indent, consume_indent) *)
Definition yaml_indent (s : str) : nat := length_if s (N.eqb 32).
Definition yaml_consume_indent (n : nat) : Y unit := let! r := get_rem in advance (Nat.min n (yaml_indent r)).
(** yaml.cpp:468-480 (consume_comment) *)
Definition yaml_comment : Y unit :=
  let! r := get_rem in
  checkM (starts_with_ch r (ch "#")) FAssert ;;
  emit_and_advance 1 hl_comment_delim ;;
  let! r := get_rem in
  let n := yaml_until_break r in
  when (0 <? n) (emit_and_advance n hl_comment).
(** yaml.cpp:445-466 (consume_whitespace_and_comments) *)
Definition yaml_space_body (_ : unit) : Y (unit + unit) :=
  let! e := eof in
  if e then ret (inr tt)
  else
    let! r := get_rem in
    advance (length_if r is_yaml_whitespace) ;;
    let! r := get_rem in
    if starts_with_ch r (ch "#") then yaml_comment ;; ret (inl tt)
    else if yaml_at_break r then yaml_skip_line_break ;; ret (inl tt)
    else ret (inr tt).
Definition yaml_space : Y unit := hloop 1 yaml_space_body tt.
(** yaml.cpp:483-500 (expect_comment_or_blank) *)
Definition yaml_comment_or_blank : Y bool :=
  yaml_space ;;
  let! e := eof in
  if e then ret true
  else
    let! r := get_rem in
    if starts_with_ch r (ch "#") then yaml_comment ;; yaml_skip_line_break ;; ret true
    else if yaml_at_break r then yaml_skip_line_break ;; ret true
    else ret false.
(** yaml.cpp:503-521 (skip_blank_and_comment_lines) *)
Definition yaml_blank_body (_ : unit) : Y (unit + unit) :=
  let! r := get_rem in
  match r with
  | [] => ret (inr tt)
  | _ =>
    if yaml_at_break r then yaml_skip_line_break ;; ret (inl tt)
    else
      let n := yaml_indent r in
      if (n <? length r) && (nth n r 0 =? ch "#")%N
      then yaml_consume_indent n ;; yaml_comment ;; yaml_skip_line_break ;; ret (inl tt)
      else ret (inr tt)
  end.
Definition yaml_blank_lines : Y unit := hloop 1 yaml_blank_body tt.
(** yaml.cpp:827-832 (consume_inline_whitespace), 680-684: one advance for the loop's advances by one. *)
Definition yaml_inline_space : Y unit := let! r := get_rem in advance (length_if r is_yaml_whitespace).

(** *** Flow nodes *)
(** yaml.cpp:880-885 (consume_tag_suffix) and the loop of 842-845: tokens of one character up to a character in [stop]. *)
Definition yaml_each (stop : N -> bool) (ty : N) : Y unit :=
  hloop 1 (fun _ : unit =>
    let! r := get_rem in
    match r with
    | c :: _ => if stop c then ret (inr tt) else emit_and_advance 1 ty ;; ret (inl tt)
    | [] => ret (inr tt)
    end) tt.
(** yaml.cpp:834-878 (consume_tag) *)
Definition yaml_tag : Y unit :=
  let! r := get_rem in
  checkM (starts_with_ch r (ch "!")) FAssert ;;
  if starts_with r (bs "!<") then
    emit_and_advance 2 hl_name_attr_delim ;;
    yaml_each (fun c => mem c (bs ">" ++ [13; 10]%N)) hl_name_attr ;;
    let! r := get_rem in
    when (starts_with_ch r (ch ">")) (emit_and_advance 1 hl_name_attr_delim)
  else if starts_with r (bs "!!") then
    emit_and_advance 2 hl_name_attr_delim ;; yaml_each is_yaml_word_terminator hl_name_attr
  else
    emit_and_advance 1 hl_name_attr_delim ;;
    let! r := get_rem in
    let n := prefix_len (fun c => negb (c =? ch "!")%N && is_yaml_word_char c) r in
    if (0 <? n) && (n <? length r) && (nth n r 0 =? ch "!")%N then
      emit_and_advance n hl_name_attr ;; emit_and_advance 1 hl_name_attr_delim ;;
      yaml_each is_yaml_word_terminator hl_name_attr
    else yaml_each is_yaml_word_terminator hl_name_attr.
(** yaml.cpp:887-912 (consume_anchor, consume_alias); only consume_anchor asserts the first character. *)
Definition yaml_named (c : N) : Y unit :=
  let! r := get_rem in
  let n := yaml_match_name c r in
  emit_and_advance 1 hl_name_attr_delim ;;
  when (negb (n =? 0)) (emit_and_advance (n - 1) hl_name).
Definition yaml_anchor : Y unit :=
  let! r := get_rem in checkM (starts_with_ch r (ch "&")) FAssert ;; yaml_named (ch "&").
(** yaml.cpp:803-824 (consume_node_properties) *)
Definition yaml_properties_body (_ : unit) : Y (unit + unit) :=
  let! r := get_rem in
  let tag := starts_with_ch r (ch "!") in
  when tag (yaml_tag ;; yaml_inline_space) ;;
  let! r := get_rem in
  let anchor := starts_with_ch r (ch "&") in
  when anchor (yaml_anchor ;; yaml_inline_space) ;;
  ret (if tag || anchor then inl tt else inr tt).
Definition yaml_properties : Y unit := hloop 1 yaml_properties_body tt.

(** yaml.cpp:1023-1096 (consume_double_quoted_scalar): the length of a key; the loop of 1031-1042 from length 1 on. *)
Fixpoint yaml_double_key (s : str) : nat :=
  match s with
  | [] => 0
  | c :: t =>
    if (c =? 34)%N then 1
    else if (c =? ch "\")%N then match t with _ :: t' => 2 + yaml_double_key t' | [] => 1 end
    else S (yaml_double_key t)
  end.
Definition yaml_flush (n : nat) : Y unit := when (negb (n =? 0)) (emit_and_advance n hl_string).
(** yaml.cpp:1069-1077, 1144-1151: leading spaces of a continuation line *)
Definition yaml_continue_line : Y unit := yaml_skip_line_break ;; let! r := get_rem in advance (yaml_indent r).
Definition yaml_double_body (n : nat) : Y (nat + unit) :=
  let! r := get_rem in
  if negb (n <? length r) then yaml_flush n ;; ret (inr tt)
  else
    let! c := at_ r n in
    if (c =? 34)%N then yaml_flush n ;; emit_and_advance 1 hl_string_delim ;; ret (inr tt)
    else if (c =? 13)%N || (c =? 10)%N then yaml_flush n ;; yaml_continue_line ;; ret (inl 0)
    else if (c =? ch "\")%N then
      yaml_flush n ;;
      let! r := get_rem in
      let! e := lift (yaml_match_escape r) in
      if negb (es_length e =? 0) then
        emit_and_advance (es_length e) (if es_erroneous e then hl_error else hl_string_escape) ;; ret (inl 0)
      else ret (inl 1)
    else ret (inl (n + 1)).
Definition yaml_double (is_key : bool) : Y unit :=
  let! r := get_rem in
  checkM (starts_with_ch r 34) FAssert ;;
  if is_key then emit_and_advance (1 + yaml_double_key (skipn 1 r)) hl_markup_attr
  else emit_and_advance 1 hl_string_delim ;; hloop 1 yaml_double_body 0.
(** yaml.cpp:1098-1158 (consume_single_quoted_scalar) *)
Fixpoint yaml_single_key (s : str) : nat :=
  match s with
  | [] => 0
  | c :: t =>
    if (c =? 39)%N then match t with
                        | d :: t' => if (d =? 39)%N then 2 + yaml_single_key t' else 1
                        | [] => 1
                        end
    else S (yaml_single_key t)
  end.
Definition yaml_single_body (n : nat) : Y (nat + unit) :=
  let! r := get_rem in
  if negb (n <? length r) then yaml_flush n ;; ret (inr tt)
  else
    let! c := at_ r n in
    if (c =? 39)%N then
      if (n + 1 <? length r) && (nth (n + 1) r 0 =? 39)%N then ret (inl (n + 2))
      else yaml_flush n ;; emit_and_advance 1 hl_string_delim ;; ret (inr tt)
    else if (c =? 13)%N || (c =? 10)%N then yaml_flush n ;; yaml_continue_line ;; ret (inl 0)
    else ret (inl (n + 1)).
Definition yaml_single (is_key : bool) : Y unit :=
  let! r := get_rem in
  checkM (starts_with_ch r 39) FAssert ;;
  if is_key then emit_and_advance (1 + yaml_single_key (skipn 1 r)) hl_markup_attr
  else emit_and_advance 1 hl_string_delim ;; hloop 1 yaml_single_body 0.

(** yaml.cpp:664-666, 1197-1199, 1231-1233: what follows a colon that separates a key from its value *)
Definition yaml_separates (t : str) : bool :=
  match t with [] => true | d :: _ => (d =? 32)%N || yaml_at_break t end.
(** yaml.cpp:1214-1236: the length of a plain string; [first] says that its length is still 0. *)
Fixpoint yaml_plain_length (first : bool) (s : str) : nat :=
  match s with
  | [] => 0
  | c :: t =>
    if is_yaml_plain_terminator c then 0
    else if (c =? 32)%N && negb first && starts_with_ch t (ch "#") then 0
    else if (c =? ch ":")%N && negb first && yaml_separates t then 0
    else S (yaml_plain_length false t)
  end.
(** yaml.cpp:1187-1211: may a number of [n] characters end here? *)
Definition yaml_number_ends (r : str) (n : nat) : bool :=
  match skipn n r with
  | [] => true
  | peek :: t =>
    is_yaml_plain_terminator peek || yaml_at_break (peek :: t) || mem peek (bs "]}")
    || ((peek =? ch ":")%N && yaml_separates t)
    || ((peek =? 32)%N && match t with d :: _ => (d =? ch "#")%N || is_yaml_flow_indicator d | [] => false end)
  end.
(** yaml.cpp:1160-1244 (consume_plain_scalar) *)
Definition yaml_plain (is_key : bool) : Y unit :=
  let! r := get_rem in
  if starts_with_ch r (ch "~") then emit_and_advance 1 hl_null
  else
    let string :=
      let n := yaml_plain_length true r in
      when (0 <? n) (emit_and_advance n (if is_key then hl_markup_attr else hl_string)) in
    let number :=
      let! num := lift (yaml_match_number r) in
      if negb (nr_length num =? 0) && yaml_number_ends r (nr_length num)
      then emit_and_advance (nr_length num) (if nr_erroneous num then hl_error else hl_number)
      else string in
    match yaml_match_word r with
    | Some (w, ty) =>
      if match skipn (length w) r with
         | [] => true
         | d :: t => is_yaml_word_terminator d || yaml_at_break (d :: t) || (d =? ch ":")%N || (d =? ch "-")%N
         end
      then emit_and_advance (length w) ty
      else number
    | None => number
    end.
(** yaml.cpp:1009-1021 (consume_flow_scalar) *)
Definition yaml_flow_scalar (is_key : bool) : Y unit :=
  let! r := get_rem in
  match r with
  | [] => ret tt
  | c :: _ =>
    if (c =? 34)%N then yaml_double is_key
    else if (c =? 39)%N then yaml_single is_key
    else if (c =? ch "*")%N then yaml_named (ch "*")
    else yaml_plain is_key
  end.

(** yaml.cpp:1250-1316 (consume_block_scalar) *)
Definition yaml_block_line_body (content : nat) (_ : unit) : Y (unit + unit) :=
  let! r := get_rem in
  match r with
  | [] => ret (inr tt)
  | c :: _ =>
    let line := yaml_indent r in
    if (line <? content) && negb (yaml_at_break r) then ret (inr tt)
    else if yaml_at_break r then yaml_skip_line_break ;; ret (inl tt)
    else if (c =? ch "#")%N && (line <? content) then ret (inr tt)
    else
      yaml_consume_indent content ;;
      let! r := get_rem in
      let n := yaml_until_break r in
      when (0 <? n) (emit_and_advance n hl_string) ;;
      yaml_skip_line_break ;; ret (inl tt)
  end.
Definition yaml_breaks : Y unit :=
  hloop 1 (fun _ : unit =>
    let! r := get_rem in
    match r with
    | [] => ret (inr tt)
    | _ => if yaml_at_break r then yaml_skip_line_break ;; ret (inl tt) else ret (inr tt)
    end) tt.
Definition yaml_block_scalar (indent : nat) : Y unit :=
  let! r := get_rem in
  checkM (starts_with_ch r (ch "|") || starts_with_ch r (ch ">")) FAssert ;;
  emit_and_advance 1 hl_string_delim ;;
  let! r := get_rem in
  when (starts_with_ch r (ch "+") || starts_with_ch r (ch "-")) (emit_and_advance 1 hl_number_decor) ;;
  let! r := get_rem in
  when (match r with c :: _ => between (ch "1") (ch "9") c | [] => false end) (emit_and_advance 1 hl_number_decor) ;;
  let! r := get_rem in
  when (starts_with_ch r (ch "#")) yaml_comment ;;
  yaml_skip_line ;;
  yaml_breaks ;;
  let! r := get_rem in
  let content := yaml_indent r in
  if (content <=? indent) && negb (length r =? 0) then ret tt
  else hloop 1 (yaml_block_line_body content) tt.

(** yaml.cpp:914-970 (consume_flow_sequence, consume_flow_mapping): [close] ends the collection with highlight [ty], [wrong]
    ends it with an error, [item] is the rest of the loop body. *)
Definition yaml_flow_body (close wrong ty : N) (item : Y unit) (_ : unit) : Y (unit + unit) :=
  let! e := eof in
  if e then ret (inr tt)
  else
    yaml_space ;;
    let! r := get_rem in
    match r with
    | [] => ret (inr tt)
    | c :: _ =>
      if (c =? close)%N then emit_and_advance 1 ty ;; ret (inr tt)
      else if (c =? wrong)%N then emit_and_advance 1 hl_error ;; ret (inr tt)
      else if (c =? ch ",")%N then emit_and_advance 1 hl_symbol_punc ;; ret (inl tt)
      else if (c =? 13)%N || (c =? 10)%N then yaml_skip_line_break ;; ret (inl tt)
      else if (c =? ch "#")%N then yaml_comment ;; yaml_skip_line_break ;; ret (inl tt)
      else item ;; yaml_space ;; ret (inl tt)
    end.
(** yaml.cpp:972-1007 (consume_flow_mapping_entry); [node] is consume_flow_node. *)
Definition yaml_flow_entry (node : nat -> bool -> Y unit) (indent : nat) : Y unit :=
  let! r := get_rem in
  (if starts_with_ch r (ch "?")
   then emit_and_advance 1 hl_symbol_punc ;; yaml_space ;; node indent true
   else node indent true) ;;
  yaml_space ;;
  let! r := get_rem in
  if starts_with_ch r (ch ":") then
    emit_and_advance 1 hl_symbol_punc ;;
    let! r := get_rem in
    when (starts_with_ch r 32) (advance 1) ;;
    yaml_space ;;
    let! r := get_rem in
    when (match r with [] => false | c :: _ => negb (c =? ch ",")%N && negb (c =? ch "}")%N && negb (yaml_at_break r) end)
      (node indent false)
  else ret tt.
(** yaml.cpp:759-789 (consume_flow_node) *)
Fixpoint yaml_flow_node (fuel : nat) (indent : nat) (is_key : bool) : Y unit :=
  match fuel with
  | 0 => fail FFuel
  | S fuel =>
    yaml_space ;;
    let! r := get_rem in
    if (length r =? 0) || yaml_at_break r then ret tt
    else
      yaml_properties ;;
      let! r := get_rem in
      if starts_with_ch r (ch "[") then
        emit_and_advance 1 hl_symbol_square ;;
        hloop 1 (yaml_flow_body (ch "]") (ch "}") hl_symbol_square (yaml_flow_node fuel indent false)) tt
      else if starts_with_ch r (ch "{") then
        emit_and_advance 1 hl_symbol_brace ;;
        hloop 1 (yaml_flow_body (ch "}") (ch "]") hl_symbol_brace (yaml_flow_entry (yaml_flow_node fuel) indent)) tt
      else if starts_with_ch r (ch "|") || starts_with_ch r (ch ">") then yaml_block_scalar indent
      else yaml_flow_scalar is_key
  end.
Definition yaml_flow (indent : nat) (is_key : bool) : Y unit :=
  let! r := get_rem in yaml_flow_node (length r + 1) indent is_key.

(** *** Block nodes *)
(** yaml.cpp:636-668, 726-731: the position of the colon after a key; [q] is the quote that the position is in. *)
Fixpoint yaml_colon (q : option N) (s : str) : option nat :=
  match s with
  | [] => None
  | c :: t =>
    if (c =? 13)%N || (c =? 10)%N then None
    else
      match q with
      | Some d =>
        if (c =? d)%N then option_map S (yaml_colon None t)
        else if (c =? ch "\")%N && (d =? 34)%N
             then match t with _ :: t' => option_map (fun n => S (S n)) (yaml_colon q t') | [] => None end
             else option_map S (yaml_colon q t)
      | None =>
        if (c =? 34)%N || (c =? 39)%N then option_map S (yaml_colon (Some c) t)
        else if (c =? ch "#")%N then None
        else if (c =? ch ":")%N && yaml_separates t then Some 0
        else option_map S (yaml_colon None t)
      end
  end.
(** yaml.cpp:792-801 (consume_flow_node_content): without trailing white space *)
Fixpoint yaml_trim (s : str) (n : nat) : nat :=
  match n with
  | 0 => 0
  | S m => if is_yaml_whitespace (nth m s 0%N) then yaml_trim s m else n
  end.
Definition yaml_content (n : nat) (ty : N) : Y unit :=
  let! r := get_rem in let n := yaml_trim r n in when (0 <? n) (emit_and_advance n ty).
(** yaml.cpp:633-733 (try_consume_block_mapping_key); [node] is consume_block_node. *)
Definition yaml_key (node : nat -> nat -> Y unit) (line_indent : nat) : Y bool :=
  let! r := get_rem in
  match yaml_colon None r with
  | None => ret false
  | Some colon =>
    yaml_content colon hl_markup_attr ;;
    emit_and_advance 1 hl_symbol_punc ;;
    let! r := get_rem in
    when (starts_with_ch r 32) (advance 1) ;;
    yaml_inline_space ;;
    let! r := get_rem in
    if starts_with r (bs "- ") || starts_with r (bs "? ") then
      yaml_skip_line ;;
      yaml_blank_lines ;;
      let! r := get_rem in
      when (match r with [] => false | c :: _ => negb (c =? 13)%N && negb (c =? 10)%N && (line_indent <? yaml_indent r) end)
        (node line_indent 0) ;;
      ret true
    else
      let block := starts_with_ch r (ch "|") || starts_with_ch r (ch ">") in
      when (match r with [] => false | c :: _ => negb (yaml_at_break r) && negb (c =? ch "#")%N end) (yaml_flow line_indent false) ;;
      if block then ret true
      else
        yaml_skip_line ;;
        yaml_blank_lines ;;
        let! r := get_rem in
        when (match r with [] => false | _ => negb (yaml_at_break r) && (line_indent <? yaml_indent r) end)
          (node line_indent 0) ;;
        ret true
  end.
(** yaml.cpp:737-756 (try_consume_compact_sequence_or_mapping) *)
Definition yaml_compact (node : nat -> nat -> Y unit) (indent : nat) : Y unit :=
  let! r := get_rem in
  match r with
  | [] => ret tt
  | _ =>
    if starts_with r (bs "- ") then node indent 1
    else let! b := yaml_key node indent in if b then ret tt else yaml_flow indent false
  end.
(** yaml.cpp:548-550: popping the levels that a line ends *)
Fixpoint yaml_pop (n : nat) (l : list nat) : list nat :=
  match l with [] => [] | x :: l' => if n <=? x then yaml_pop n l' else l end.
(** Is there a node, neither the end of the line nor a comment? *)
Definition yaml_has_node (r : str) : bool :=
  match r with [] => false | c :: _ => negb (yaml_at_break r) && negb (c =? ch "#")%N end.
(** yaml.cpp:526-628 (consume_block_node): the body of the loop. *)
Definition yaml_block_body (node : nat -> nat -> Y unit) (effective : nat) (_ : unit) : Y (unit + unit) :=
  let! e := eof in
  if e then ret (inr tt)
  else
    yaml_blank_lines ;;
    let! e := eof in
    if e then ret (inr tt)
    else
      let! r := get_rem in
      let line := yaml_indent r in
      if (line =? 0) && (starts_with r (bs "---") || starts_with r (bs "...")) then ret (inr tt)
      else
        let! stack := get_loc in
        if (line <? effective) && match stack with [] => false | top :: _ => line <=? top end then
          set_loc (yaml_pop line stack) ;; ret (inr tt)
        else
          yaml_consume_indent line ;;
          let! r := get_rem in
          if starts_with r (bs "? ") || (starts_with r (bs "?") && (1 <? length r) && yaml_at_break (skipn 1 r)) then
            emit_and_advance 1 hl_symbol_punc ;;
            yaml_space ;;
            let! r := get_rem in
            when (yaml_has_node r) (yaml_flow (line + 1) false) ;;
            yaml_skip_line ;;
            yaml_space ;;
            let! r := get_rem in
            when (starts_with r (bs ": "))
              (yaml_consume_indent line ;;
               emit_and_advance 1 hl_symbol_punc ;;
               yaml_space ;;
               let! r := get_rem in
               (if yaml_has_node r then node line 0 else yaml_skip_line ;; node line 0)) ;;
            ret (inl tt)
          else if starts_with r (bs "- ") then
            emit_and_advance 1 hl_symbol_punc ;;
            let! r := get_rem in
            when (starts_with_ch r 32) (advance 1) ;;
            yaml_space ;;
            let! r := get_rem in
            when (yaml_has_node r) (yaml_compact node (line + 1)) ;;
            let! r := get_rem in
            when (yaml_at_break r) yaml_skip_line ;;
            yaml_push line ;;
            node line 0 ;;
            ret (inl tt)
          else if starts_with r (bs "| ") || starts_with r (bs "> ")
                  || (starts_with r (bs "|") && yaml_at_break (skipn 1 r)) || (starts_with r (bs ">") && yaml_at_break (skipn 1 r)) then
            yaml_block_scalar line ;; ret (inl tt)
          else
            let! b := yaml_key node line in
            if b then yaml_push line ;; ret (inl tt)
            else
              let! r := get_rem in
              if yaml_has_node r then yaml_flow line false ;; yaml_skip_line ;; ret (inl tt)
              else ret (inr tt).
Fixpoint yaml_block_node (fuel : nat) (block_indent seq_offset : nat) : Y unit :=
  match fuel with
  | 0 => fail FFuel
  | S fuel => hloop 1 (yaml_block_body (yaml_block_node fuel) (block_indent - seq_offset)) tt
  end.

(** *** Documents *)
(** yaml.cpp:405-443 (consume_directives, consume_directive_line) *)
Definition yaml_directive : Y unit :=
  let! r := get_rem in
  checkM (starts_with_ch r (ch "%")) FAssert ;;
  emit_and_advance 1 hl_name_macro_delim ;;
  let! r := get_rem in
  let n := prefix_len (fun c => negb (is_yaml_whitespace c) && negb (c =? 13)%N && negb (c =? 10)%N) r in
  when (0 <? n) (emit_and_advance n hl_name_macro) ;;
  hloop 1 (fun _ : unit =>
    let! r := get_rem in
    match r with
    | [] => ret (inr tt)
    | c :: _ =>
      if yaml_at_break r then ret (inr tt)
      else if is_yaml_whitespace c then advance 1 ;; ret (inl tt)
      else emit_and_advance 1 hl_string ;; ret (inl tt)
    end) tt ;;
  yaml_skip_line.
Definition yaml_directives : Y unit :=
  hloop 1 (fun _ : unit =>
    let! e := eof in
    if e then ret (inr tt)
    else
      yaml_space ;;
      let! r := get_rem in
      if starts_with_ch r (ch "%") then yaml_directive ;; ret (inl tt) else ret (inr tt)) tt.
(** yaml.cpp:318-332 (consume_document_prefix) *)
Definition yaml_prefix : Y unit :=
  hloop 1 (fun _ : unit =>
    let! e := eof in
    if e then ret (inr tt)
    else
      yaml_space ;;
      let! e := eof in
      if e then ret (inr tt)
      else let! b := yaml_comment_or_blank in ret (if b then inl tt else inr tt)) tt.
(** yaml.cpp:334-362 (consume_document_suffix); no space begins a string that begins with a marker, so that the indentation
    is always 0. *)
Definition yaml_suffix : Y unit :=
  hloop 1 (fun _ : unit =>
    let! e := eof in
    if e then ret (inr tt)
    else
      yaml_space ;;
      let! r := get_rem in
      if starts_with r (bs "...") && (yaml_indent r =? 0)
      then emit_and_advance 3 hl_symbol_punc ;; yaml_skip_line ;; ret (inl tt)
      else if starts_with r (bs "---") && (yaml_indent r =? 0)
      then emit_and_advance 3 hl_symbol_punc ;; yaml_skip_line ;; ret (inr tt)
      else ret (inr tt)) tt.
(** yaml.cpp:364-403 (consume_document): the body after the markers and directives is in [yaml_body]. *)
Definition yaml_body : Y unit :=
  let! e := eof in if e then ret tt else let! r := get_rem in yaml_block_node (length r + 1) 0 0.
Definition yaml_document : Y unit :=
  set_loc [] ;;
  yaml_space ;;
  let! e := eof in
  if e then ret tt
  else
    let! r := get_rem in
    let indent := yaml_indent r in
    when ((indent =? 0) && starts_with r (bs "---"))
      (emit_and_advance 3 hl_symbol_punc ;; yaml_skip_line ;; yaml_space) ;;
    let! r := get_rem in
    when ((indent =? 0) && starts_with_ch r (ch "%"))
      (yaml_directives ;;
       yaml_space ;;
       let! r := get_rem in
       when (starts_with r (bs "---")) (emit_and_advance 3 hl_symbol_punc ;; yaml_skip_line ;; yaml_space)) ;;
    yaml_body.
(** yaml.cpp:262-274 (operator()), 1324-1332 (highlight_yaml) *)
Definition highlight_yaml : highlighter := fun src _ =>
  run [] (yaml_prefix ;; while_rem (yaml_document ;; let! e := eof in if e then ret tt else yaml_suffix) ;; ret true) src.
