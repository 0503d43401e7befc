(** * Model of the JSON parser and the JSON highlighters
    (include/ulight/json.hpp, include/ulight/impl/lang/json.hpp, src/main/cpp/lang/json.cpp, and
    the comment matchers of src/main/cpp/lang/js.cpp). *)
From Coq Require Import List NArith ZArith Bool Arith.
From Verif Require Import M_Base M_Emit M_Types M_Chars M_Parse M_Utf8 M_Api M_Highlighter.
Import ListNotations.

(** ** Comments (shared with JavaScript) *)

(** js.cpp:154-162 (starts_with_line_terminator); U+2028 is E2 80 A8, U+2029 is E2 80 A9. *)
Definition starts_with_line_terminator (s : str) : bool :=
  starts_with_ch s 10 || starts_with_ch s 13
  || starts_with s [0xE2; 0x80; 0xA8]%N || starts_with s [0xE2; 0x80; 0xA9]%N.

(** js.cpp:195-202 and 230-237: number of code units before the first line terminator. *)
Fixpoint before_line_terminator (s : str) : nat :=
  match s with
  | [] => 0
  | _ :: s' => if starts_with_line_terminator s then 0 else S (before_line_terminator s')
  end.

(** js.cpp:186-203 (match_line_comment) *)
Definition match_line_comment (s : str) : nat :=
  if negb (starts_with s (bs "//")) then 0 else 2 + before_line_terminator (skipn 2 s).

(** js.cpp:205-221 (match_block_comment): the loop is the search for the first "*/" from offset 2. *)
Definition match_block_comment (s : str) : enclosed :=
  if negb (starts_with s (bs "/*")) then mk_enclosed 0 false
  else match find_str s (bs "*/") 2 with
       | Some i => mk_enclosed (i + 2) true
       | None => mk_enclosed (length s) false
       end.

(** ** Matchers *)

(** lang/json.hpp:14 (is_json_whitespace), 16 (is_json_escapable) *)
Definition is_json_whitespace (c : N) : bool := mem c [32; 9; 12; 10; 13]%N.
Definition is_json_escapable (c : N) : bool := mem c (34%N :: bs "\/bfnrtu").

(** json.cpp:23-36 (match_identifier); [length_if] with start 1 is one more than on the rest. *)
Inductive json_identifier := id_normal | id_true | id_false | id_null.
Definition json_match_identifier (s : str) : nat * json_identifier :=
  match s with
  | [] => (0, id_normal)
  | c :: s' =>
    if negb (is_ascii_alpha c) then (0, id_normal)
    else
      let len := 1 + length_if s' is_ascii_alphanumeric in
      let id := firstn len s in
      (len, if str_eqb id (bs "null") then id_null
            else if str_eqb id (bs "true") then id_true
            else if str_eqb id (bs "false") then id_false
            else id_normal)
  end.

(** json.cpp:58-75: the case of a u in match_escape_sequence. The four characters are hexadecimal
    digits when from_chars is reached. *)
Definition json_match_unicode_escape (s : str) (parse : bool) : res (nat * option N) :=
  let* e := match_common_escape_at hex_4 s 2 in
  if es_erroneous e then Ok (es_length e, None)
  else if negb parse then Ok (es_length e, Some 0%N)
  else
    let hex_digits := substr s 2 4 in
    let* _ := check (length hex_digits =? 4) FDebugAssert in
    match from_chars_ull hex_digits 16 with
    | Some v => Ok (es_length e, Some v)
    | None => Fail FAssert
    end.

(** json.cpp:38-79 (match_escape_sequence): length and value, no_value as None. [parse] is
    policy == Escape_Policy::parse. *)
Definition json_match_escape (s : str) (parse : bool) : res (nat * option N) :=
  match s with
  | c0 :: c1 :: _ =>
    if negb (c0 =? ch "\")%N || negb (is_json_escapable c1) then Ok (0, None)
    else
      let simple v := Ok (2, Some (if parse then v else 0%N)) in
      if (c1 =? 34)%N then simple 34%N
      else if (c1 =? ch "\")%N then simple 92%N
      else if (c1 =? ch "/")%N then simple 47%N
      else if (c1 =? ch "b")%N then simple 8%N
      else if (c1 =? ch "f")%N then simple 12%N
      else if (c1 =? ch "n")%N then simple 10%N
      else if (c1 =? ch "r")%N then simple 13%N
      else if (c1 =? ch "t")%N then simple 9%N
      else if (c1 =? ch "u")%N then json_match_unicode_escape s parse
      else Fail FAssert
  | _ => Ok (0, None)
  end.

(** json.cpp:81-89 (match_digits, match_whitespace) *)
Definition json_match_digits (s : str) : nat := length_if s is_ascii_digit.
Definition json_match_whitespace (s : str) : nat := length_if s is_json_whitespace.

(** lang/json.hpp:98-125 (Number_Result) *)
Record json_number_result := mk_json_number {
  jn_length : nat; jn_integer : nat; jn_fraction : nat; jn_exponent : nat; jn_erroneous : bool }.

(** json.cpp:90-144 (match_number). [str] after each advance is [skipn length]. *)
Definition json_match_number (s0 : str) : res json_number_result :=
  let minus := if starts_with_ch s0 (ch "-") then 1 else 0 in
  let s1 := skipn minus s0 in
  let integer_digits := json_match_digits s1 in
  let err1 := (integer_digits =? 0) || ((2 <=? integer_digits) && starts_with_ch s1 (ch "0")) in
  let s2 := skipn integer_digits s1 in
  let integer := minus + integer_digits in
  let '(fraction, err2) :=
    if starts_with_ch s2 (ch ".") then
      let fractional_digits := json_match_digits (skipn 1 s2) in
      (fractional_digits + 1, fractional_digits =? 0)
    else (0, false) in
  let s3 := skipn fraction s2 in
  let '(exponent, err3) :=
    if starts_with_ch s3 (ch "e") || starts_with_ch s3 (ch "E") then
      let s4 := skipn 1 s3 in
      let sign := if starts_with_ch s4 (ch "+") || starts_with_ch s4 (ch "-") then 1 else 0 in
      let exponent_digits := json_match_digits (skipn sign s4) in
      (1 + sign + exponent_digits, exponent_digits =? 0)
    else (0, false) in
  let length := minus + integer_digits + fraction + exponent in
  let* _ := check (integer + fraction + exponent =? length) FAssert in
  Ok (mk_json_number length integer fraction exponent
        ((err1 || err2 || err3) && negb (length =? 0))).

(** ** Highlighter *)

(** json.cpp:199-209 (expect_line_comment) *)
Definition json_expect_line_comment : M unit bool :=
  let! r := get_rem in
  let len := match_line_comment r in
  if len =? 0 then ret false
  else
    emit_and_advance 2 hl_comment_delim ;;
    when (2 <? len) (emit_and_advance (len - 2) hl_comment) ;;
    ret true.

(** json.cpp:211-227 (expect_block_comment) *)
Definition json_expect_block_comment : M unit bool :=
  let! r := get_rem in
  let b := match_block_comment r in
  if en_length b =? 0 then ret false
  else
    let! i := get_idx in
    emit_at false i 2 hl_comment_delim ;;
    let suffix := if en_terminated b then 2 else 0 in
    let content := en_length b - 2 - suffix in
    when (negb (content =? 0)) (emit_at false (i + 2) content hl_comment) ;;
    when (en_terminated b) (emit_at false (i + en_length b - 2) 2 hl_comment_delim) ;;
    advance (en_length b) ;;
    ret true.

(** json.cpp:187-197 (consume_whitespace_comments) *)
Definition json_consume_ws (has_comments : bool) : M unit unit :=
  hloop 1 (fun _ : unit =>
    let! r := get_rem in
    advance (json_match_whitespace r) ;;
    if has_comments then
      let! a := json_expect_line_comment in
      if a then ret (inl tt)
      else let! b := json_expect_block_comment in
           if b then ret (inl tt) else ret (inr tt)
    else ret (inr tt)) tt.

(** json.cpp:253-258 (flush) *)
Definition json_flush (len : nat) (ty : N) : M unit unit :=
  when (negb (len =? 0)) (emit_and_advance len ty).

(** json.cpp:238-310 (expect_string); the loop variable is length. *)
Definition json_string_body (property : bool) (len : nat) : M unit (nat + bool) :=
  let highlight := if property then hl_markup_attr else hl_string in
  let! r := get_rem in
  if negb (len <? length r) then json_flush len highlight ;; ret (inr true)
  else
    let! c := at_ r len in
    if (c =? 34)%N then
      (if property then json_flush (len + 1) highlight
       else json_flush len highlight ;; emit_and_advance 1 hl_string_delim) ;;
      ret (inr true)
    else if mem c [10; 13; 11]%N then json_flush len highlight ;; ret (inr true)
    else if (c =? ch "\")%N then
      json_flush len highlight ;;
      let! r := get_rem in
      let! e := lift (json_match_escape r false) in
      if negb (fst e =? 0) then
        emit_and_advance (fst e) (match snd e with None => hl_error | Some _ => hl_string_escape end) ;;
        ret (inl 0)
      else emit_and_advance 1 hl_error ;; ret (inl 0)
    else if (c <? 0x20)%N then
      json_flush len highlight ;; emit_and_advance 1 hl_error ;; ret (inl 0)
    else ret (inl (len + 1)).
Definition json_expect_string (property : bool) : M unit bool :=
  let! r := get_rem in
  if negb (starts_with_ch r 34) then ret false
  else if property then hloop 1 (json_string_body property) 1
  else emit_and_advance 1 hl_string_delim ;; hloop 1 (json_string_body property) 0.

(** json.cpp:312-322 (expect_number) *)
Definition json_expect_number : M unit bool :=
  let! r := get_rem in
  let! n := lift (json_match_number r) in
  if jn_length n =? 0 then ret false
  else emit_and_advance (jn_length n) (if jn_erroneous n then hl_error else hl_number) ;; ret true.

(** json.cpp:405-419 (expect_true_false_null); returns false in every case *)
Definition json_expect_true_false_null : M unit bool :=
  let! r := get_rem in
  let '(len, id) := json_match_identifier r in
  (if negb (len =? 0) then
     match id with
     | id_null => emit_and_advance len hl_null
     | id_true | id_false => emit_and_advance len hl_bool
     | id_normal => emit_and_advance_c true len hl_error
     end
   else ret tt) ;;
  ret false.

(** json.cpp:351-355 (at_end) *)
Definition json_at_end (hc : bool) : M unit bool :=
  json_consume_ws hc ;;
  let! r := get_rem in
  ret ((length r =? 0) || starts_with_ch r (ch "}") || starts_with_ch r (ch ",")).

(** json.cpp:349-376 (consume_member); [value] is expect_value. *)
Definition json_consume_member (hc : bool) (value : M unit bool) : M unit unit :=
  let! e := json_at_end hc in
  if e then ret tt
  else
    json_expect_string true ;;
    let! e := json_at_end hc in
    if e then ret tt
    else
      let! r := get_rem in
      if starts_with_ch r (ch ":") then
        emit_and_advance 1 hl_symbol_punc ;;
        let! e := json_at_end hc in
        if e then ret tt else value ;; json_consume_ws hc
      else ret tt.

(** json.cpp:324-347 (expect_object) *)
Definition json_object_body (hc : bool) (value : M unit bool) (_ : unit) : M unit (unit + bool) :=
  let! e := eof in
  if e then ret (inr true)
  else
    json_consume_member hc value ;;
    let! r := get_rem in
    if starts_with_ch r (ch "}") then emit_and_advance 1 hl_symbol_brace ;; ret (inr true)
    else if starts_with_ch r (ch ",") then emit_and_advance 1 hl_symbol_punc ;; ret (inl tt)
    else when (negb (length r =? 0)) (emit_and_advance_c true 1 hl_error) ;; ret (inl tt).
Definition json_expect_object (hc : bool) (value : M unit bool) : M unit bool :=
  let! r := get_rem in
  if negb (starts_with_ch r (ch "{")) then ret false
  else emit_and_advance 1 hl_symbol_brace ;; hloop 1 (json_object_body hc value) tt.

(** json.cpp:378-403 (expect_array) *)
Definition json_array_body (hc : bool) (value : M unit bool) (_ : unit) : M unit (unit + bool) :=
  let! e := eof in
  if e then ret (inr true)
  else
    json_consume_ws hc ;;
    let! r := get_rem in
    if starts_with_ch r (ch "]") then emit_and_advance 1 hl_symbol_square ;; ret (inr true)
    else if starts_with_ch r (ch ",") then emit_and_advance 1 hl_symbol_punc ;; ret (inl tt)
    else
      let! v := value in
      if v then ret (inl tt)
      else
        let! r := get_rem in
        when (negb (length r =? 0)) (emit_and_advance_c true 1 hl_error) ;; ret (inl tt).
Definition json_expect_array (hc : bool) (value : M unit bool) : M unit bool :=
  let! r := get_rem in
  if negb (starts_with_ch r (ch "[")) then ret false
  else emit_and_advance 1 hl_symbol_square ;; hloop 1 (json_array_body hc value) tt.

(** json.cpp:229-236 (expect_value). The fuel bounds the nesting depth. *)
Fixpoint json_expect_value (fuel : nat) (hc : bool) : M unit bool :=
  match fuel with
  | O => fail FFuel
  | S n =>
    let! a := json_expect_string false in
    if a then ret true else
    let! b := json_expect_number in
    if b then ret true else
    let! c := json_expect_object hc (json_expect_value n hc) in
    if c then ret true else
    let! d := json_expect_array hc (json_expect_value n hc) in
    if d then ret true else
    json_expect_true_false_null
  end.

(** json.cpp:178-184 (operator()), 834-853 (highlight_json, highlight_jsonc) *)
Definition json_main (hc : bool) (src : str) : res (bool * list out_op) :=
  run tt (json_consume_ws hc ;; json_expect_value (length src + 1) hc ;; json_consume_ws hc ;;
          ret true) src.
Definition highlight_json : highlighter := fun src strict => json_main (negb strict) src.
Definition highlight_jsonc : highlighter := fun src _ => json_main true src.

(** ** Parser *)

(** json.hpp:10-20 (Source_Position) *)
Record position := mk_position { code_unit : nat; line : nat; line_code_unit : nat }.

(** json.hpp:22-41 (JSON_Error) *)
Inductive json_error :=
| err_error | err_comment | err_illegal_character | err_illegal_escape | err_illegal_number
| err_unterminated_string | err_unterminated_object | err_unterminated_array
| err_valueless_member.

(** json.hpp:55-159 (JSON_Visitor): one constructor per member function; the three overloads of
    escape are told apart by the optional arguments. [EvNumberValue p t c] is the overload with a
    value, which strtod computes from the text [c]. *)
Inductive event :=
| EvLineComment (p : position) (t : str)
| EvBlockComment (p : position) (t : str)
| EvLiteral (p : position) (t : str)
| EvEscape (p : position) (t : str) (cp : option N) (units : option str)
| EvNumber (p : position) (t : str)
| EvNumberValue (p : position) (t : str) (c : str)
| EvNull (p : position)
| EvBoolean (p : position) (b : bool)
| EvPushString (p : position) | EvPopString (p : position)
| EvPushProperty (p : position) | EvPopProperty (p : position)
| EvPushObject (p : position) | EvPopObject (p : position)
| EvPushArray (p : position) | EvPopArray (p : position)
| EvError (p : position) (e : json_error).

(** json.hpp:164-182 (Escape_Parsing, JSON_Options) *)
Inductive escape_parsing := esc_none | esc_parse | esc_parse_encode.
Record json_options := mk_json_options {
  jo_comments : bool; jo_numbers : bool; jo_escapes : escape_parsing }.

(** json.cpp:422-439 (Parser): pos and, most recent first, the calls made to [out]. The remaining
    members are the [rem] of the state; [idx] and [rops] are not used by the parser. *)
Record pstate := mk_pstate { ps_pos : position; ps_events : list event }.
Definition P (A : Type) : Type := M pstate A.

Definition get_pos : P position := let! l := get_loc in ret (ps_pos l).
Definition visit (e : position -> event) : P unit :=
  let! l := get_loc in set_loc (mk_pstate (ps_pos l) (e (ps_pos l) :: ps_events l)).
(** remainder.remove_prefix(n) together with an update of pos *)
Definition drop_prefix (n : nat) (f : position -> position) : P unit := fun st =>
  if n <=? length (rem st)
  then Ok (tt, mk_hst (skipn n (rem st)) (idx st) (rops st)
                 (mk_pstate (f (ps_pos (loc st))) (ps_events (loc st))))
  else Fail FUB.

(** json.cpp:448-451 (error) *)
Definition p_error (e : json_error) : P unit := visit (fun p => EvError p e).

(** json.cpp:453-458 (advance_on_same_line) *)
Definition advance_on_same_line (n : nat) : P unit :=
  drop_prefix n (fun p => mk_position (code_unit p + n) (line p) (line_code_unit p + n)).

(** json.cpp:460-477 (advance); every iteration decreases the amount. *)
Fixpoint p_advance_loop (fuel amount : nat) : P unit :=
  match fuel with
  | O => fail FFuel
  | S fuel =>
    if amount =? 0 then ret tt
    else
      let! r := get_rem in
      match find_ch (firstn amount r) 10 0 with
      | None => advance_on_same_line amount
      | Some newline_pos =>
        let len := newline_pos + 1 in
        drop_prefix len (fun p => mk_position (code_unit p + len) (line p + 1) 0) ;;
        checkM (len <=? amount) FDebugAssert ;;
        p_advance_loop fuel (amount - len)
      end
  end.
Definition p_advance (amount : nat) : P unit := p_advance_loop (amount + 1) amount.

(** json.cpp:507-518 (consume_line_comment) *)
Definition p_line_comment : P bool :=
  let! r := get_rem in
  let len := match_line_comment r in
  if negb (len =? 0) then
    visit (fun p => EvLineComment p (firstn len r)) ;; advance_on_same_line len ;; ret true
  else fail FDebugAssert.

(** json.cpp:520-535 (consume_block_comment) *)
Definition p_block_comment : P bool :=
  let! r := get_rem in
  let b := match_block_comment r in
  if negb (en_length b =? 0) then
    if negb (en_terminated b) then p_error err_comment ;; ret false
    else
      p_advance (en_length b) ;;
      let! r := get_rem in
      visit (fun p => EvBlockComment p (firstn (en_length b) r)) ;; ret true
  else fail FDebugAssert.

(** json.cpp:479-505 (consume_whitespace_comments) *)
Definition p_ws (o : json_options) : P bool :=
  if negb (jo_comments o) then
    let! r := get_rem in p_advance (json_match_whitespace r) ;; ret true
  else
    hloop 1 (fun _ : unit =>
      let! r := get_rem in
      p_advance (json_match_whitespace r) ;;
      let! r := get_rem in
      if starts_with r (bs "//") then
        let! ok := p_line_comment in if negb ok then ret (inr false) else ret (inl tt)
      else if starts_with r (bs "/*") then
        let! ok := p_block_comment in if negb ok then ret (inr false) else ret (inl tt)
      else ret (inr true)) tt.

(** json.cpp:654-682 (consume_escape) *)
Definition p_escape (o : json_options) : P bool :=
  let! r := get_rem in
  let! e := lift (json_match_escape r (match jo_escapes o with esc_none => false | _ => true end)) in
  let '(len, value) := e in
  match value with
  | None => p_error err_illegal_escape ;; ret false
  | Some v =>
    if len =? 0 then p_error err_illegal_escape ;; ret false
    else
      visit (fun p => match jo_escapes o with
                      | esc_none => EvEscape p (firstn len r) None None
                      | esc_parse => EvEscape p (firstn len r) (Some v) None
                      | esc_parse_encode => EvEscape p (firstn len r) (Some v) (Some (encode8_unchecked v))
                      end) ;;
      advance_on_same_line len ;;
      ret true
  end.

(** json.cpp:610-616 (flush) *)
Definition p_flush (len : nat) : P unit :=
  if negb (len =? 0) then
    let! r := get_rem in visit (fun p => EvLiteral p (firstn len r)) ;; advance_on_same_line len
  else ret tt.

(** json.cpp:594-652 (consume_string) *)
Definition p_string_body (o : json_options) (property : bool) (len : nat) : P (nat + bool) :=
  let! r := get_rem in
  if negb (len <? length r) then p_error err_unterminated_string ;; ret (inr false)
  else
    let! c := at_ r len in
    if (c =? 34)%N then
      p_flush len ;;
      visit (fun p => if property then EvPopProperty p else EvPopString p) ;;
      advance_on_same_line 1 ;;
      ret (inr true)
    else if (c =? ch "\")%N then
      p_flush len ;;
      let! ok := p_escape o in
      if negb ok then ret (inr false) else ret (inl 0)
    else if (c <? 0x20)%N then
      p_flush len ;; p_error err_illegal_character ;; ret (inr false)
    else ret (inl (len + 1)).
Definition p_string (o : json_options) (property : bool) : P bool :=
  let! r := get_rem in
  if negb (starts_with_ch r 34) then fail FDebugAssert
  else
    visit (fun p => if property then EvPushProperty p else EvPushString p) ;;
    advance_on_same_line 1 ;;
    hloop 1 (p_string_body o property) 0.

(** std::strtod, on text starting with a digit or a minus sign: the number of characters it
    converts (C23 7.24.1.5). A hexadecimal prefix counts if a hexadecimal digit follows, possibly
    after the radix point. *)
Definition strtod_fraction (s : str) (p : N -> bool) : nat :=
  if starts_with_ch s (ch ".") then 1 + prefix_len p (skipn 1 s) else 0.
Definition strtod_exponent (s : str) (e : str) : nat :=
  match s with
  | c :: s' =>
    if mem c e then
      let sign := match s' with d :: _ => if mem d (bs "+-") then 1 else 0 | [] => 0 end in
      let digits := prefix_len is_ascii_digit (skipn sign s') in
      if digits =? 0 then 0 else 1 + sign + digits
    else 0
  | [] => 0
  end.
Definition strtod_body (s : str) (p : N -> bool) (e : str) : nat :=
  let i := prefix_len p s in
  let f := strtod_fraction (skipn i s) p in
  i + f + strtod_exponent (skipn (i + f) s) e.
Definition strtod_length (s : str) : nat :=
  let minus := if starts_with_ch s (ch "-") then 1 else 0 in
  let s1 := skipn minus s in
  let s2 := skipn 2 s1 in
  let hex := (starts_with s1 (bs "0x") || starts_with s1 (bs "0X"))
             && (negb (prefix_len is_ascii_hex_digit s2 =? 0)
                 || (starts_with_ch s2 (ch ".")
                     && negb (prefix_len is_ascii_hex_digit (skipn 1 s2) =? 0))) in
  let n := if hex then 2 + strtod_body s2 is_ascii_hex_digit (bs "pP")
           else strtod_body s1 is_ascii_digit (bs "eE") in
  if n =? 0 then 0 else minus + n.

(** json.cpp:684-709 (consume_number). strtod is given only the start of the number: it reads on
    in the source (and beyond its end, which is not modelled). *)
Definition p_number (o : json_options) : P bool :=
  let! r := get_rem in
  let! n := lift (json_match_number r) in
  if (jn_length n =? 0) || jn_erroneous n then p_error err_illegal_number ;; ret false
  else
    let number_string := firstn (jn_length n) r in
    if jo_numbers o then
      let c := strtod_length r in
      if c =? 0 then p_error err_illegal_number ;; ret false
      else
        visit (fun p => EvNumberValue p number_string (firstn c r)) ;;
        advance_on_same_line (jn_length n) ;; ret true
    else
      visit (fun p => EvNumber p number_string) ;;
      advance_on_same_line (jn_length n) ;; ret true.

(** json.cpp:754-782 (consume_member); [value] is consume_value. *)
Definition p_member (o : json_options) (value : P bool) : P bool :=
  let! ok := p_string o true in
  if negb ok then ret false else
  let! ok := p_ws o in
  if negb ok then ret false else
  let! r := get_rem in
  if negb (starts_with_ch r (ch ":")) then p_error err_valueless_member ;; ret false
  else
    advance_on_same_line 1 ;;
    let! ok := p_ws o in
    if negb ok then ret false else
    let! r := get_rem in
    if (length r =? 0) || starts_with_ch r (ch "}") || starts_with_ch r (ch ",")
    then p_error err_valueless_member ;; ret false
    else value.

(** json.cpp:711-752 (consume_object); the loop variable is first_member. *)
Definition p_object_body (o : json_options) (value : P bool) (first : bool) : P (bool + bool) :=
  let! e := eof in
  if e then p_error err_unterminated_object ;; ret (inr false)
  else
    let! ok := p_ws o in
    if negb ok then ret (inr false) else
    let! r := get_rem in
    if starts_with_ch r (ch "}") then
      visit EvPopObject ;; advance_on_same_line 1 ;; ret (inr true)
    else if first then
      let! ok := p_member o value in
      if negb ok then ret (inr false) else ret (inl false)
    else if starts_with_ch r (ch ",") then
      advance_on_same_line 1 ;;
      let! ok := p_ws o in
      if negb ok then ret (inr false) else
      let! ok := p_member o value in
      if negb ok then ret (inr false) else ret (inl first)
    else p_error err_illegal_character ;; ret (inr false).
Definition p_object (o : json_options) (value : P bool) : P bool :=
  let! r := get_rem in
  if negb (starts_with_ch r (ch "{")) then fail FDebugAssert
  else visit EvPushObject ;; advance_on_same_line 1 ;; hloop 1 (p_object_body o value) true.

(** json.cpp:784-828 (consume_array); the loop variable is first_element. *)
Definition p_array_body (o : json_options) (value : P bool) (first : bool) : P (bool + bool) :=
  let! e := eof in
  if e then p_error err_unterminated_array ;; ret (inr false)
  else
    let! ok := p_ws o in
    if negb ok then ret (inr false) else
    let! r := get_rem in
    if starts_with_ch r (ch "]") then
      visit EvPopArray ;; advance_on_same_line 1 ;; ret (inr true)
    else if first then
      let! ok := value in
      if negb ok then ret (inr false) else ret (inl false)
    else if starts_with_ch r (ch ",") then
      advance_on_same_line 1 ;;
      let! ok := p_ws o in
      if negb ok then ret (inr false) else
      let! ok := value in
      if negb ok then ret (inr false) else ret (inl first)
    else p_error err_illegal_character ;; ret (inr false).
Definition p_array (o : json_options) (value : P bool) : P bool :=
  let! r := get_rem in
  if negb (starts_with_ch r (ch "[")) then fail FDebugAssert
  else
    visit EvPushArray ;; advance_on_same_line 1 ;;
    let! ok := p_ws o in
    if negb ok then ret false else hloop 1 (p_array_body o value) true.

(** json.cpp:537-592 (consume_value); the comparison chain is the switch. The fuel bounds the
    nesting depth. *)
Fixpoint p_value (fuel : nat) (o : json_options) : P bool :=
  match fuel with
  | O => fail FFuel
  | S n =>
    let! r := get_rem in
    match r with
    | [] => ret false
    | c :: _ =>
      if (c =? 34)%N then p_string o false
      else if (c =? ch "[")%N then p_array o (p_value n o)
      else if (c =? ch "{")%N then p_object o (p_value n o)
      else if (c =? ch "-")%N || is_ascii_digit c then p_number o
      else if (c =? ch "t")%N then
        if starts_with r (bs "true")
        then visit (fun p => EvBoolean p true) ;; advance_on_same_line 4 ;; ret true
        else ret false
      else if (c =? ch "f")%N then
        if starts_with r (bs "false")
        then visit (fun p => EvBoolean p false) ;; advance_on_same_line 5 ;; ret true
        else ret false
      else if (c =? ch "n")%N then
        if starts_with r (bs "null")
        then visit EvNull ;; advance_on_same_line 4 ;; ret true
        else ret false
      else p_error err_illegal_escape ;; ret false
    end
  end.

(** json.cpp:441-445 (operator()), 855-865 (parse_json): the result and the calls of the visitor
    in order. The constructors assign pos {}. *)
Definition parse_json (src : str) (o : json_options) : res (bool * list event) :=
  let m : P bool :=
    let! ok := p_ws o in
    if negb ok then ret false else
    let! ok := p_value (length src + 1) o in
    if negb ok then ret false else p_ws o in
  match m (mk_hst src 0 [] (mk_pstate (mk_position 0 0 0) [])) with
  | Ok (b, st) => Ok (b, rev (ps_events (loc st)))
  | Fail f => Fail f
  end.
