(** * Model of JavaScript and TypeScript highlighting (src/main/cpp/lang/js.cpp, include/ulight/impl/lang/js.hpp).
    The comment matchers of js.cpp are in M_Json. *)
From Coq Require Import List NArith ZArith Bool Arith.
From Verif Require Import M_Base M_Emit M_Types M_Chars M_Parse M_Api M_Table M_Utf8 M_Highlighter M_TokenLoop M_Json M_LangHtml.
Import ListNotations.

(** ** Characters *)

(** lang/js.hpp:20-46 (is_js_whitespace) *)
Definition is_js_whitespace (c : N) : bool :=
  mem c [32; 9; 11; 12; 10; 13; 0xA0; 0x2028; 0x2029; 0xFEFF; 0x202F; 0x205F; 0x3000]%N
  || ((0x1680 <=? c) && (c <=? 0x180E))%N || ((0x2000 <=? c) && (c <=? 0x200A))%N.

Definition within (c : N) (l : list (N * N)) : bool := existsb (fun r => (fst r <=? c) && (c <=? snd r))%N l.

(** lang/js.hpp:48-76 (is_js_identifier_start) *)
Definition is_js_identifier_start (c : N) : bool :=
  (c =? ch "$")%N || (c =? ch "_")%N || is_ascii_alpha c
  || within c [(0xC0, 0xD6); (0xD8, 0xF6); (0xF8, 0x2FF); (0x370, 0x37D); (0x37F, 0x1FFF); (0x200C, 0x200D);
       (0x2070, 0x218F); (0x2C00, 0x2FEF); (0x3001, 0xD7FF); (0xF900, 0xFDCF); (0xFDF0, 0xFFFD); (0x10000, 0xEFFFF)]%N.
(** lang/js.hpp:78-101 (is_js_identifier_part) *)
Definition is_js_identifier_part (c : N) : bool :=
  is_js_identifier_start c || is_ascii_digit c
  || within c [(0x300, 0x36F); (0x1DC0, 0x1DFF); (0x20D0, 0x20FF); (0xFE20, 0xFE2F); (0x660, 0x669); (0x6F0, 0x6F9);
       (0x7C0, 0x7C9); (0x966, 0x96F); (0x200C, 0x200D)]%N.

(** ** Tokens *)

(** js.cpp:50-53 (Mode) *)
Inductive js_mode := javascript | typescript.

(** lang/js.hpp:136-256 (ULIGHT_JS_TOKEN_ENUM_DATA): the code, the highlight, and whether the source is js_ts or all
    (true) or ts (false) *)
Definition js_tokens : list (str * (N * bool)) := [
  (bs "!", (hl_symbol_op, true)); (bs "!=", (hl_symbol_op, true)); (bs "!==", (hl_symbol_op, true));
  (bs "%", (hl_symbol_op, true)); (bs "%=", (hl_symbol_op, true)); (bs "&", (hl_symbol_op, true));
  (bs "&&", (hl_symbol_op, true)); (bs "&&=", (hl_symbol_op, true)); (bs "&=", (hl_symbol_op, true));
  (bs "(", (hl_symbol_parens, true)); (bs ")", (hl_symbol_parens, true)); (bs "*", (hl_symbol_op, true));
  (bs "**", (hl_symbol_op, true)); (bs "**=", (hl_symbol_op, true)); (bs "*=", (hl_symbol_op, true));
  (bs "+", (hl_symbol_op, true)); (bs "++", (hl_symbol_op, true)); (bs "+=", (hl_symbol_op, true));
  (bs ",", (hl_symbol_punc, true)); (bs "-", (hl_symbol_op, true)); (bs "--", (hl_symbol_op, true));
  (bs "-=", (hl_symbol_op, true)); (bs ".", (hl_symbol_op, true)); (bs "...", (hl_symbol_op, true));
  (bs "/", (hl_symbol_op, true)); (bs "/=", (hl_symbol_op, true)); (bs ":", (hl_symbol_op, true));
  (bs ";", (hl_symbol_punc, true)); (bs "<", (hl_symbol_op, true)); (bs "<<", (hl_symbol_op, true));
  (bs "<<=", (hl_symbol_op, true)); (bs "<=", (hl_symbol_op, true)); (bs "=", (hl_symbol_op, true));
  (bs "==", (hl_symbol_op, true)); (bs "===", (hl_symbol_op, true)); (bs "=>", (hl_symbol_op, true));
  (bs ">", (hl_symbol_op, true)); (bs ">=", (hl_symbol_op, true)); (bs ">>", (hl_symbol_op, true));
  (bs ">>=", (hl_symbol_op, true)); (bs ">>>", (hl_symbol_op, true)); (bs ">>>=", (hl_symbol_op, true));
  (bs "?", (hl_symbol_op, true)); (bs "?.", (hl_symbol_op, true)); (bs "??", (hl_symbol_op, true));
  (bs "??=", (hl_symbol_op, true)); (bs "@", (hl_symbol_punc, false)); (bs "[", (hl_symbol_square, true));
  (bs "]", (hl_symbol_square, true)); (bs "^", (hl_symbol_op, true)); (bs "^=", (hl_symbol_op, true));
  (bs "abstract", (hl_keyword, false)); (bs "any", (hl_keyword_type, false)); (bs "as", (hl_keyword, true));
  (bs "asserts", (hl_keyword, false)); (bs "async", (hl_keyword, true)); (bs "await", (hl_keyword, true));
  (bs "boolean", (hl_name_type_builtin, true)); (bs "break", (hl_keyword_control, true));
  (bs "case", (hl_keyword_control, true)); (bs "catch", (hl_keyword_control, true));
  (bs "class", (hl_keyword, true)); (bs "const", (hl_keyword, true)); (bs "constructor", (hl_keyword, false));
  (bs "continue", (hl_keyword_control, true)); (bs "debugger", (hl_keyword, true));
  (bs "declare", (hl_keyword, false)); (bs "default", (hl_keyword_control, true)); (bs "delete", (hl_keyword, true));
  (bs "do", (hl_keyword_control, true)); (bs "else", (hl_keyword_control, true)); (bs "enum", (hl_keyword, true));
  (bs "export", (hl_keyword, true)); (bs "extends", (hl_keyword, true)); (bs "false", (hl_bool, true));
  (bs "finally", (hl_keyword_control, true)); (bs "for", (hl_keyword_control, true));
  (bs "from", (hl_keyword, true)); (bs "function", (hl_keyword, true)); (bs "get", (hl_keyword, true));
  (bs "if", (hl_keyword_control, true)); (bs "implements", (hl_keyword, false)); (bs "import", (hl_keyword, true));
  (bs "in", (hl_keyword, true)); (bs "instanceof", (hl_keyword, true)); (bs "interface", (hl_keyword, false));
  (bs "is", (hl_keyword, false)); (bs "let", (hl_keyword, true)); (bs "new", (hl_keyword, true));
  (bs "null", (hl_null, true)); (bs "number", (hl_name_type_builtin, true)); (bs "of", (hl_keyword, true));
  (bs "private", (hl_keyword, false)); (bs "protected", (hl_keyword, false)); (bs "public", (hl_keyword, false));
  (bs "return", (hl_keyword_control, true)); (bs "set", (hl_keyword, true)); (bs "static", (hl_keyword, true));
  (bs "string", (hl_name_type_builtin, true)); (bs "super", (hl_keyword_this, true));
  (bs "switch", (hl_keyword_control, true)); (bs "this", (hl_keyword_this, true));
  (bs "throw", (hl_keyword_control, true)); (bs "true", (hl_bool, true)); (bs "try", (hl_keyword_control, true));
  (bs "type", (hl_keyword, false)); (bs "typeof", (hl_keyword, true)); (bs "undefined", (hl_null, true));
  (bs "var", (hl_keyword, true)); (bs "void", (hl_keyword, true)); (bs "while", (hl_keyword_control, true));
  (bs "with", (hl_keyword_control, true)); (bs "yield", (hl_keyword, true)); (bs "{", (hl_symbol_brace, true));
  (bs "|", (hl_symbol_op, true)); (bs "|=", (hl_symbol_op, true)); (bs "||", (hl_symbol_op, true));
  (bs "||=", (hl_symbol_op, true)); (bs "}", (hl_symbol_brace, true)); (bs "~", (hl_symbol_op, true))].

(** js.cpp:83-92 (token_type_is_available): every source has the bit of TypeScript. *)
Definition js_available (mode : js_mode) (both : bool) : bool :=
  match mode with javascript => both | typescript => true end.
(** js.cpp:94-113 (token_type_by_code), the enumerator replaced by its highlight *)
Definition js_token_by_code (mode : js_mode) (code : str) : option N :=
  match table_find js_tokens code with
  | Some (h, both) => if js_available mode both then Some h else None
  | None => None
  end.
(** js.cpp:115-134 (token_type_is_expr_keyword), by the code of the token *)
Definition js_expr_keyword (code : str) : bool :=
  existsb (str_eqb code)
    [bs "return"; bs "throw"; bs "case"; bs "delete"; bs "void"; bs "typeof"; bs "yield"; bs "await"; bs "instanceof";
     bs "in"; bs "is"; bs "new"].
(** js.cpp:136-151 (token_type_cannot_precede_regex) *)
Definition js_cannot_precede_regex (code : str) : bool :=
  existsb (str_eqb code) [bs "++"; bs "--"; bs ")"; bs "]"; bs "}"].

(** ** Matchers *)

(** js.cpp:164-177 (match_line_terminator_sequence) *)
Definition js_line_terminator_sequence (s : str) : nat :=
  if starts_with_ch s 10 then 1
  else if starts_with s [13; 10]%N then 2
  else if starts_with s [0xE2; 0x80; 0xA8]%N then 3
  else if starts_with s [0xE2; 0x80; 0xA9]%N then 3
  else 0.

(** js.cpp:179-184 (match_whitespace) *)
Definition js_match_whitespace (s : str) : res nat := utf8_length_if s is_js_whitespace.

(** js.cpp:223-238 (match_hashbang_comment) *)
Definition js_match_hashbang (s : str) : nat :=
  if negb (starts_with s (bs "#!")) then 0 else 2 + before_line_terminator (skipn 2 s).

(** js.cpp:240-291 (match_escape_sequence) *)
Definition js_match_escape (s : str) : res escape :=
  match s with
  | c0 :: c1 :: rest =>
    if negb (c0 =? ch "\")%N then Ok (mk_escape 0 false)
    else if (c1 =? ch "x")%N then match_common_escape_at hex_2 s 2
    else if (c1 =? ch "u")%N then
      if starts_with_ch rest (ch "{") then match_common_escape_at hex_braced s 2
      else match_common_escape_at hex_4 s 2
    else if mem c1 (bs "0123") then
      match rest with
      | d :: rest' =>
        if is_ascii_octal_digit d then
          match rest' with
          | e :: _ => if is_ascii_octal_digit e then Ok (mk_escape 4 false) else Ok (mk_escape 3 false)
          | [] => Ok (mk_escape 3 false)
          end
        else Ok (mk_escape 2 false)
      | [] => Ok (mk_escape 2 false)
      end
    else if mem c1 (bs "4567") then
      match rest with
      | d :: _ => if is_ascii_octal_digit d then Ok (mk_escape 3 false) else Ok (mk_escape 2 false)
      | [] => Ok (mk_escape 2 false)
      end
    else Ok (mk_escape 2 false)
  | _ => Ok (mk_escape 0 false)
  end.

(** js.cpp:306-325: the loop of match_string_literal, after the opening quote *)
Fixpoint js_string_loop (s : str) (quote : N) (escaped : bool) (len : nat) : enclosed :=
  match s with
  | [] => mk_enclosed len false
  | c :: s' =>
    if escaped then js_string_loop s' quote false (S len)
    else if (c =? ch "\")%N then js_string_loop s' quote true (S len)
    else if (c =? quote)%N then mk_enclosed (len + 1) true
    else if (c =? 10)%N then mk_enclosed len false
    else js_string_loop s' quote false (S len)
  end.
(** js.cpp:295-326 (match_string_literal) *)
Definition js_match_string (s : str) : enclosed :=
  match s with
  | c :: s' => if ((c =? 39) || (c =? 34))%N then js_string_loop s' c false 1 else mk_enclosed 0 false
  | [] => mk_enclosed 0 false
  end.

(** js.cpp:351-367 (match_numeric_literal): the options *)
Definition js_number_options : number_options :=
  mk_number_options false false
    [mk_prefix (bs "0b") 2 false; mk_prefix (bs "0B") 2 false; mk_prefix (bs "0o") 8 false; mk_prefix (bs "0O") 8 false;
     mk_prefix (bs "0x") 16 false; mk_prefix (bs "0X") 16 false]
    (map (fun e => (e, 10%Z)) [bs "E+"; bs "E-"; bs "E"; bs "e+"; bs "e-"; bs "e"])
    [bs "n"] None 10 8 95 false false.
(** js.cpp:348-372 (match_numeric_literal) *)
Definition js_match_number (s : str) : res number_result :=
  let* r := match_common_number s js_number_options in
  Ok (mk_number (nr_length r) (nr_sign r) (nr_prefix r) (nr_integer r) (nr_radix_point r) (nr_fractional r)
        (nr_exponent_sep r) (nr_exponent_digits r) (nr_suffix r)
        (nr_erroneous r || negb (nr_suffix r =? 0) && nr_is_non_integer r)).

(** js.cpp:376-387 (match_line_continuation) *)
Definition js_line_continuation (s : str) : nat :=
  if negb (starts_with_ch s (ch "\")) then 0
  else let t := js_line_terminator_sequence (skipn 1 s) in if t =? 0 then 0 else t + 1.

(** js.cpp:389-394 (Name_Type), as the characters a name may contain besides is_js_identifier_part (408-419) *)
Definition js_name_part (extra : str) (c : N) : bool := is_js_identifier_part c || mem c extra.
(** js.cpp:396-422 (match_name) *)
Definition js_match_name (extra : str) (s : str) : res nat :=
  match s with
  | [] => Ok 0
  | _ =>
    let* d := decode_and_length_or_replacement s in
    if negb (is_js_identifier_start (fst d)) then Ok 0
    else
      let* _ := check (snd d <=? length s) FThrow in
      let* n := utf8_length_if (skipn (snd d) s) (js_name_part extra) in
      Ok (snd d + n)
  end.
(** js.cpp:434-438 (match_identifier), 446-456 (match_jsx_element_name, match_jsx_attribute_name) *)
Definition js_match_identifier : str -> res nat := js_match_name [].
Definition jsx_match_element_name : str -> res nat := js_match_name (bs "-:.").
Definition jsx_match_attribute_name : str -> res nat := js_match_name (bs "-:").
(** js.cpp:425-430 (match_regex_flags) *)
Definition js_match_regex_flags (s : str) : res nat := utf8_length_if s is_js_identifier_part.
(** js.cpp:458-467 (match_private_identifier) *)
Definition js_match_private_identifier (s : str) : res nat :=
  match s with
  | c :: s' =>
    if negb (c =? ch "#")%N then Ok 0
    else let* n := js_match_identifier s' in Ok (if n =? 0 then 0 else 1 + n)
  | [] => Ok 0
  end.

(** ** JSX *)

(** js.cpp:471-475 (Whitespace_Comment_Consumer) and 572-582 (JSX_Tag_Consumer): the calls made on a consumer, except
    done and advance (which is never called). *)
Inductive jsx_event :=
| JWhitespace (n : nat)
| JBlock (c : enclosed)
| JLine (n : nat)
| JOpening | JClosing
| JElement (n : nat)
| JAttribute (n : nat)
| JEquals
| JString (r : enclosed)
| JBraced (b : enclosed).
(** js.cpp:477-492 (Counting_WSC_Consumer) and 584-623 (Counting_JSX_Tag_Consumer): what is added to length. The same
    length is removed by Matching_JSX_Tag_Consumer (625-694). *)
Definition jsx_event_length (e : jsx_event) : nat :=
  match e with
  | JWhitespace n | JLine n | JElement n | JAttribute n => n
  | JBlock c | JString c | JBraced c => en_length c
  | JOpening | JClosing | JEquals => 1
  end.
Definition jsx_length (l : list jsx_event) : nat := list_sum (map jsx_event_length l).

(** js.cpp:494-514, 516-522 (match_whitespace_comment_sequence): the calls and the rest of the string *)
Fixpoint js_wsc (fuel : nat) (s : str) : res (list jsx_event * str) :=
  match s with
  | [] => Ok ([], s)
  | _ =>
    match fuel with
    | O => Fail FFuel
    | S fuel =>
      let* w := js_match_whitespace s in
      if negb (w =? 0) then
        let* s' := M_Utf8.remove_prefix s w in
        let* r := js_wsc fuel s' in Ok (JWhitespace w :: fst r, snd r)
      else
        let b := match_block_comment s in
        if negb (en_length b =? 0) then
          let* s' := M_Utf8.remove_prefix s (en_length b) in
          let* r := js_wsc fuel s' in Ok (JBlock b :: fst r, snd r)
        else
          let l := match_line_comment s in
          if negb (l =? 0) then
            let* s' := M_Utf8.remove_prefix s l in
            let* r := js_wsc fuel s' in Ok (JLine l :: fst r, snd r)
          else Ok ([], s)
    end
  end.
Definition js_whitespace_comments (s : str) : res (list jsx_event * str) := js_wsc (length s) s.

(** js.cpp:536-566: the loop of match_jsx_braced; [s] is str.substr(length). The continuation after the first brace
    skips whitespace and comments before each character. *)
Fixpoint jsx_braced_loop (fuel : nat) (s : str) (level : nat) (len : nat) : res enclosed :=
  match s with
  | [] => Ok (mk_enclosed len false)
  | _ =>
    match fuel with
    | O => Fail FFuel
    | S fuel =>
      let* w := js_whitespace_comments s in
      let len := len + jsx_length (fst w) in
      match snd w with
      | [] => Ok (mk_enclosed len false)
      | c :: s' =>
        if (c =? ch "{")%N then jsx_braced_loop fuel s' (S level) (len + 1)
        else if (c =? ch "}")%N then
          if level =? 1 then Ok (mk_enclosed (len + 1) true)
          else jsx_braced_loop fuel s' (level - 1) (len + 1)
        else if ((c =? 39) || (c =? 34))%N then
          let r := js_match_string (snd w) in
          let n := if en_length r =? 0 then 1 else en_length r in
          let* s' := M_Utf8.remove_prefix (snd w) n in
          jsx_braced_loop fuel s' level (len + n)
        else jsx_braced_loop fuel s' level (len + 1)
      end
    end
  end.
(** js.cpp:526-568 (match_jsx_braced) *)
Definition jsx_match_braced (s : str) : res enclosed :=
  match s with
  | c :: s' => if (c =? ch "{")%N then jsx_braced_loop (length s') s' 1 1 else Ok (mk_enclosed 0 false)
  | [] => Ok (mk_enclosed 0 false)
  end.

(** lang/js.hpp:419-430 (JSX_Type) *)
Inductive jsx_type := jsx_opening | jsx_closing | jsx_self_closing | jsx_fragment_opening | jsx_fragment_closing.

(** A run of match_jsx_tag_impl: the calls on the consumer, and the type passed to done if it returns true. *)
Definition jsx_match : Type := list jsx_event * option jsx_type.
Definition jsx_then (l : list jsx_event) (m : res jsx_match) : res jsx_match :=
  let* r := m in Ok (l ++ fst r, snd r).

(** js.cpp:741-794: the loop of match_jsx_tag_impl *)
Fixpoint jsx_tag_loop (fuel : nat) (closing : bool) (s : str) : res jsx_match :=
  match s with
  | [] => Ok ([], None)
  | _ =>
    match fuel with
    | O => Fail FFuel
    | S fuel =>
      let* w := js_whitespace_comments s in
      let s := snd w in
      jsx_then (fst w)
        (if starts_with_ch s (ch ">") then Ok ([JClosing], Some (if closing then jsx_closing else jsx_opening))
         else if starts_with s (bs "/>") then
           if closing then Ok ([], None) else Ok ([JClosing; JClosing], Some jsx_self_closing)
         else
           let* spread := jsx_match_braced s in
           if negb (en_length spread =? 0) then
             if negb (en_terminated spread) then Ok ([], None)
             else
               let* s := M_Utf8.remove_prefix s (en_length spread) in
               jsx_then [JBraced spread] (jsx_tag_loop fuel closing s)
           else
             let* a := jsx_match_attribute_name s in
             if negb (a =? 0) then
               let* s := M_Utf8.remove_prefix s a in
               let* w := js_whitespace_comments s in
               let s := snd w in
               jsx_then (JAttribute a :: fst w)
                 (if negb (starts_with_ch s (ch "=")) then jsx_tag_loop fuel closing s
                  else
                    let* w := js_whitespace_comments (skipn 1 s) in
                    let s := snd w in
                    jsx_then (JEquals :: fst w)
                      (let r := js_match_string s in
                       if negb (en_length r =? 0) then
                         let* s := M_Utf8.remove_prefix s (en_length r) in
                         jsx_then [JString r] (jsx_tag_loop fuel closing s)
                       else
                         let* b := jsx_match_braced s in
                         if negb (en_length b =? 0) then
                           if negb (en_terminated b) then Ok ([], None)
                           else
                             let* s := M_Utf8.remove_prefix s (en_length b) in
                             jsx_then [JBraced b] (jsx_tag_loop fuel closing s)
                         else Ok ([], None)))
             else Ok ([], None))
    end
  end.

(** js.cpp:737-741 (match_jsx_tag_impl): the optional element name, then the loop *)
Definition jsx_tag_name (closing : bool) (s : str) : res jsx_match :=
  let* n := jsx_match_element_name s in
  if negb (n =? 0) then
    let* s := M_Utf8.remove_prefix s n in
    jsx_then [JElement n] (jsx_tag_loop (length s) closing s)
  else jsx_tag_loop (length s) closing s.
(** js.cpp:701-797 (match_jsx_tag_impl); [closing_too] is subset == JSX_Tag_Subset::all. *)
Definition jsx_match_tag_impl (closing_too : bool) (s : str) : res jsx_match :=
  if negb (starts_with_ch s (ch "<")) then Ok ([], None)
  else
    let* w := js_whitespace_comments (skipn 1 s) in
    let s := snd w in
    jsx_then (JOpening :: fst w)
      (if starts_with_ch s (ch ">") then Ok ([JClosing], Some jsx_fragment_opening)
       else if starts_with_ch s (ch "/") then
         if negb closing_too then Ok ([], None)
         else
           let* w := js_whitespace_comments (skipn 1 s) in
           let s := snd w in
           jsx_then (JClosing :: fst w)
             (if starts_with_ch s (ch ">") then Ok ([JClosing], Some jsx_fragment_closing)
              else jsx_tag_name true s)
       else jsx_tag_name false s).
(** js.cpp:874-883 (match_jsx_tag_impl with the counting consumer), 887-890 (match_jsx_tag) *)
Definition jsx_match_tag (closing_too : bool) (s : str) : res (option (nat * jsx_type)) :=
  let* r := jsx_match_tag_impl closing_too s in
  Ok (option_map (fun t => (jsx_length (fst r), t)) (snd r)).

(** js.cpp:800-872 (match_operator_or_punctuation): the code of the token *)
Definition js_match_operator (s : str) : option str :=
  match s with
  | [] => None
  | c :: _ =>
    if (c =? ch "!")%N then first_of s [bs "!=="; bs "!="] (Some (bs "!"))
    else if (c =? ch "%")%N then first_of s [bs "%="] (Some (bs "%"))
    else if (c =? ch "&")%N then first_of s [bs "&&="; bs "&&"; bs "&="] (Some (bs "&"))
    else if (c =? ch "(")%N then Some (bs "(")
    else if (c =? ch ")")%N then Some (bs ")")
    else if (c =? ch "*")%N then first_of s [bs "**="; bs "**"; bs "*="] (Some (bs "*"))
    else if (c =? ch "+")%N then first_of s [bs "++"; bs "+="] (Some (bs "+"))
    else if (c =? ch ",")%N then Some (bs ",")
    else if (c =? ch "-")%N then first_of s [bs "--"; bs "-="] (Some (bs "-"))
    else if (c =? ch ".")%N then first_of s [bs "..."] (Some (bs "."))
    else if (c =? ch "/")%N then first_of s [bs "/="] (Some (bs "/"))
    else if (c =? ch ":")%N then Some (bs ":")
    else if (c =? ch ";")%N then Some (bs ";")
    else if (c =? ch "<")%N then first_of s [bs "<<="; bs "<<"; bs "<="] (Some (bs "<"))
    else if (c =? ch "=")%N then first_of s [bs "==="; bs "=="; bs "=>"] (Some (bs "="))
    else if (c =? ch ">")%N then first_of s [bs ">>>="; bs ">>>"; bs ">>="; bs ">>"; bs ">="] (Some (bs ">"))
    else if (c =? ch "@")%N then Some (bs "@")
    else if (c =? ch "?")%N then first_of s [bs "??="; bs "??"; bs "?."] (Some (bs "?"))
    else if (c =? ch "[")%N then Some (bs "[")
    else if (c =? ch "]")%N then Some (bs "]")
    else if (c =? ch "^")%N then first_of s [bs "^="] (Some (bs "^"))
    else if (c =? ch "{")%N then Some (bs "{")
    else if (c =? ch "|")%N then first_of s [bs "||="; bs "||"; bs "|="] (Some (bs "|"))
    else if (c =? ch "}")%N then Some (bs "}")
    else if (c =? ch "~")%N then Some (bs "~")
    else None
  end.

(** ** Highlighter *)

(** js.cpp:902-909 (Input_Element), the only member that changes *)
Inductive js_input := hashbang_or_regex | regex_goal | div_goal.
(** js.cpp:912-922 (input_element_has_hashbang, input_element_has_regex) *)
Definition js_has_hashbang (g : js_input) : bool := match g with hashbang_or_regex => true | _ => false end.
Definition js_has_regex (g : js_input) : bool := match g with div_goal => false | _ => true end.

(** js.cpp:1189-1194 (expect_whitespace) *)
Definition js_expect_whitespace : M js_input bool :=
  let! r := get_rem in
  let! n := lift (js_match_whitespace r) in
  advance n ;; ret (negb (n =? 0)).

(** js.cpp:1196-1213 (expect_hashbang_comment) *)
Definition js_expect_hashbang : M js_input bool :=
  let! g := get_loc in
  if negb (js_has_hashbang g) then ret false
  else
    let! r := get_rem in
    let n := js_match_hashbang r in
    if n =? 0 then ret false
    else
      emit_and_advance 2 hl_comment_delim ;;
      when (2 <? n) (emit_and_advance (n - 2) hl_comment) ;;
      ret true.

(** js.cpp:1225-1232 (highlight_line_comment) *)
Definition js_highlight_line_comment (n : nat) : M js_input unit :=
  emit_and_advance 2 hl_comment_delim ;;
  when (2 <? n) (emit_and_advance (n - 2) hl_comment) ;;
  set_loc regex_goal.
(** js.cpp:1215-1223 (expect_line_comment) *)
Definition js_expect_line_comment : M js_input bool :=
  let! r := get_rem in
  let n := match_line_comment r in
  if n =? 0 then ret false else js_highlight_line_comment n ;; ret true.

(** js.cpp:1244-1258 (highlight_block_comment) *)
Definition js_highlight_block_comment (b : enclosed) : M js_input unit :=
  checkM (negb (en_length b =? 0)) FDebugAssert ;;
  let! i := get_idx in
  emit_at false i 2 hl_comment_delim ;;
  let suffix := if en_terminated b then 2 else 0 in
  let content := en_length b - 2 - suffix in
  when (negb (content =? 0)) (emit_at false (i + 2) content hl_comment) ;;
  when (en_terminated b) (emit_at false (i + en_length b - 2) 2 hl_comment_delim) ;;
  advance (en_length b) ;;
  set_loc regex_goal.
(** js.cpp:1234-1242 (expect_block_comment) *)
Definition js_expect_block_comment : M js_input bool :=
  let! r := get_rem in
  let b := match_block_comment r in
  if en_length b =? 0 then ret false else js_highlight_block_comment b ;; ret true.

(** js.cpp:1274-1280 and 1343-1349 (flush_chars); the caller continues with chars = 0. *)
Definition js_flush (chars : nat) : M js_input unit :=
  let! i := get_idx in when (negb (chars =? 0)) (emit_at false (i - chars) chars hl_string).

Definition js_escape_type (e : escape) : N := if es_erroneous e then hl_error else hl_string_escape.

(** js.cpp:1285-1316: the loop of highlight_string_literal over (chars, remaining). [None] stands for a value of
    remaining that has wrapped around below zero, which exceeds the length of every remainder; it stays so until the
    loop fails. *)
Definition js_string_round (a : nat * option nat) : M js_input ((nat * option nat) + nat) :=
  let '(chars, remaining) := a in
  let sub n := match remaining with Some k => if n <=? k then Some (k - n) else None | None => None end in
  if match remaining with Some 0 => true | _ => false end then ret (inr chars)
  else
    let! r := get_rem in
    if starts_with_ch r (ch "\") then
      let! esc := lift (js_match_escape r) in
      if negb (es_length esc =? 0) then
        js_flush chars ;;
        emit_and_advance (es_length esc) (js_escape_type esc) ;;
        ret (inl (0, sub (es_length esc)))
      else advance 1 ;; ret (inl (chars + 1, sub 1))
    else
      let next :=
        match find_ch r (ch "\") 0, remaining with
        | Some f, Some k => Some (Nat.min k f)
        | Some f, None => Some f
        | None, k => k
        end in
      match next with
      | None => fail FDebugAssert
      | Some 0 => advance 1 ;; ret (inl (chars + 1, sub 1))
      | Some n => advance n ;; ret (inl (chars + n, sub n))
      end.
(** js.cpp:1269-1325 (highlight_string_literal) *)
Definition js_highlight_string (s : enclosed) : M js_input unit :=
  checkM (negb (en_length s =? 0)) FAssert ;;
  emit_and_advance 1 hl_string_delim ;;
  let! chars := hloop 1 js_string_round (0, Some (en_length s - (if en_terminated s then 2 else 1))) in
  js_flush chars ;;
  when (en_terminated s) (emit_and_advance 1 hl_string_delim) ;;
  set_loc div_goal.
(** js.cpp:1260-1267 (expect_string_literal) *)
Definition js_expect_string : M js_input bool :=
  let! r := get_rem in
  let s := js_match_string r in
  if en_length s =? 0 then ret false else js_highlight_string s ;; ret true.

(** js.cpp:1426-1450: the loop of expect_regex, up to the closing slash; [s] is rem.substr(size). *)
Fixpoint js_regex_end (s : str) (escaped : bool) (size : nat) : option nat :=
  match s with
  | [] => None
  | c :: s' =>
    if escaped then js_regex_end s' false (S size)
    else if (c =? ch "\")%N then js_regex_end s' true (S size)
    else if (c =? ch "/")%N then Some size
    else if starts_with_line_terminator s then None
    else js_regex_end s' false (S size)
  end.
(** js.cpp:1411-1453 (expect_regex) *)
Definition js_expect_regex : M js_input bool :=
  let! g := get_loc in
  if negb (js_has_regex g) then ret false
  else
    let! r := get_rem in
    if negb (starts_with_ch r (ch "/")) || starts_with r (bs "/*") || starts_with r (bs "//") then ret false
    else
      match js_regex_end (skipn 1 r) false 0 with
      | None => ret false
      | Some size =>
        emit_and_advance 1 hl_string_delim ;;
        emit_and_advance size hl_string ;;
        emit_and_advance 1 hl_string_delim ;;
        let! rest := substr_from (skipn 1 r) (size + 1) in
        let! flags := lift (js_match_regex_flags rest) in
        when (negb (flags =? 0)) (emit_and_advance flags hl_string_decor) ;;
        set_loc div_goal ;;
        ret true
      end.

(** js.cpp:1455-1464 (expect_numeric_literal) *)
Definition js_expect_number : M js_input bool :=
  let! r := get_rem in
  let! n := lift (js_match_number r) in
  if nr_length n =? 0 then ret false
  else highlight_number_sep n 95 ;; set_loc div_goal ;; ret true.

(** js.cpp:1466-1474 (expect_private_identifier) *)
Definition js_expect_private_identifier : M js_input bool :=
  let! r := get_rem in
  let! n := lift (js_match_private_identifier r) in
  if n =? 0 then ret false
  else emit_and_advance n hl_name ;; set_loc div_goal ;; ret true.

Section mode.
Variable mode : js_mode.

(** js.cpp:1476-1498 (expect_identifier) *)
Definition js_expect_identifier : M js_input bool :=
  let! r := get_rem in
  let! n := lift (js_match_identifier r) in
  if n =? 0 then ret false
  else
    let code := firstn n r in
    match js_token_by_code mode code with
    | None => emit_and_advance n hl_name ;; set_loc div_goal ;; ret true
    | Some h =>
      emit_and_advance n h ;; set_loc (if js_expr_keyword code then regex_goal else div_goal) ;; ret true
    end.

(** js.cpp:1500-1514 (expect_operator_or_punctuation); the highlight of an operator is that of its table entry. *)
Definition js_expect_operator : M js_input bool :=
  let! r := get_rem in
  match js_match_operator r with
  | None => ret false
  | Some code =>
    match js_token_by_code mode code with
    | None => ret false
    | Some h =>
      emit_and_advance (length code) h ;;
      set_loc (if js_cannot_precede_regex code then div_goal else regex_goal) ;;
      ret true
    end
  end.

(** js.cpp:998-1002 (consume_error) *)
Definition js_error : M js_input unit := emit_and_advance 1 hl_error ;; set_loc regex_goal.

(** The functions that call consume_js_before_closing_brace, which calls them: [before_brace] is that function. *)
Section nested.
Variable before_brace : M js_input unit.

(** js.cpp:1351-1405: the loop of consume_template over chars *)
Definition js_template_round (chars : nat) : M js_input (nat + unit) :=
  let! r := get_rem in
  match r with
  | [] => js_flush chars ;; ret (inr tt)
  | c :: _ =>
    if (c =? 96)%N then
      js_flush chars ;; emit_and_advance 1 hl_string_delim ;; set_loc div_goal ;; ret (inr tt)
    else if (c =? ch "$")%N then
      if starts_with r (bs "${") then
        js_flush chars ;;
        emit_and_advance 2 hl_string_interpolation_delim ;;
        before_brace ;;
        let! r' := get_rem in
        match r' with
        | [] => ret (inl 0)
        | c' :: _ =>
          checkM (c' =? ch "}")%N FAssert ;; emit_and_advance 1 hl_string_interpolation_delim ;; ret (inl 0)
        end
      else advance 1 ;; ret (inl (chars + 1))
    else if (c =? ch "\")%N then
      let n := js_line_continuation r in
      if negb (n =? 0) then
        checkM (1 <? n) FAssert ;;
        js_flush chars ;;
        emit_and_advance 1 hl_string_escape ;;
        advance (n - 1) ;;
        ret (inl (n - 1))
      else
        let! esc := lift (js_match_escape r) in
        if negb (es_length esc =? 0) then
          js_flush chars ;; emit_and_advance (es_length esc) (js_escape_type esc) ;; ret (inl 0)
        else advance 1 ;; ret (inl (chars + 1))
    else advance 1 ;; ret (inl (chars + 1))
  end.
(** js.cpp:1327-1409 (expect_template, consume_template) *)
Definition js_expect_template : M js_input bool :=
  let! r := get_rem in
  if starts_with_ch r 96 then
    emit_and_advance 1 hl_string_delim ;;
    hloop 1 js_template_round 0 ;;
    ret true
  else ret false.

(** js.cpp:1173-1187 (highlight_jsx_braced) *)
Definition jsx_highlight_braced (b : enclosed) : M js_input unit :=
  checkM (negb (en_length b =? 0)) FAssert ;;
  let! r := get_rem in
  checkM (starts_with_ch r (ch "{")) FAssert ;;
  emit_and_advance 1 hl_symbol_brace ;;
  when (negb (en_length b - (if en_terminated b then 2 else 1) =? 0)) before_brace ;;
  when (en_terminated b) (emit_and_advance 1 hl_symbol_brace).

(** js.cpp:1032-1086: Highlighter_As_Consumer of consume_jsx_tag *)
Definition jsx_perform (e : jsx_event) : M js_input unit :=
  match e with
  | JWhitespace n => advance n
  | JBlock c => js_highlight_block_comment c
  | JLine n => js_highlight_line_comment n
  | JOpening | JClosing | JEquals => emit_and_advance 1 hl_symbol_punc
  | JElement n | JAttribute n => emit_and_advance n hl_markup_tag
  | JString s => js_highlight_string s
  | JBraced b => checkM (en_terminated b && (2 <=? en_length b)) FAssert ;; jsx_highlight_braced b
  end.
Fixpoint jsx_perform_all (l : list jsx_event) : M js_input unit :=
  match l with [] => ret tt | e :: l => jsx_perform e ;; jsx_perform_all l end.
(** js.cpp:1030-1089 (consume_jsx_tag). The calls on the consumer do not influence the matching, which looks at its own
    copy of the remainder, so they are performed after it. *)
Definition jsx_consume_tag : M js_input unit :=
  let! r := get_rem in
  let! m := lift (jsx_match_tag_impl true r) in
  jsx_perform_all (fst m).

(** js.cpp:1096-1168: the loop of consume_jsx_children_and_closing_tag over (depth, rem); a signed depth without
    overflow. The function's own copy [s] of the remainder is advanced separately from the remainder. *)
Definition jsx_children_round (a : Z * str) : M js_input ((Z * str) + unit) :=
  let '(depth, s) := a in
  match s with
  | [] => ret (inr tt)
  | _ =>
    match find_first_of s (bs "&{}<>") 0 with
    | None => advance (length s) ;; ret (inr tt)
    | Some safe =>
      advance safe ;;
      let! s := remove_prefix s safe in
      let! c := at_ s 0 in
      if (c =? ch "&")%N then
        let n := match_character_reference s in
        if negb (n =? 0) then
          emit_and_advance n hl_string_escape ;; let! s := remove_prefix s n in ret (inl (depth, s))
        else advance 1 ;; ret (inl (depth, skipn 1 s))
      else if (c =? ch "<")%N then
        let! tag := lift (jsx_match_tag true s) in
        match tag with
        | None => emit_and_advance 1 hl_error ;; ret (inl (depth, skipn 1 s))
        | Some (len, type) =>
          jsx_consume_tag ;;
          let! s := remove_prefix s len in
          match type with
          | jsx_opening | jsx_fragment_opening => ret (inl (depth + 1, s)%Z)
          | jsx_closing | jsx_fragment_closing =>
            if (depth - 1 <? 0)%Z then ret (inr tt) else ret (inl (depth - 1, s)%Z)
          | jsx_self_closing => ret (inl (depth, s))
          end
        end
      else if (c =? ch ">")%N then emit_and_advance 1 hl_error ;; ret (inl (depth, skipn 1 s))
      else if (c =? ch "{")%N then
        let! b := lift (jsx_match_braced s) in
        if negb (en_length b =? 0) then
          jsx_highlight_braced b ;; let! s := remove_prefix s (en_length b) in ret (inl (depth, s))
        else emit_and_advance 1 hl_error ;; ret (inl (depth, skipn 1 s))
      else if (c =? ch "}")%N then emit_and_advance 1 hl_error ;; ret (inl (depth, skipn 1 s))
      else fail FAssert
    end
  end.
(** js.cpp:1091-1171 (consume_jsx_children_and_closing_tag) *)
Definition jsx_consume_children : M js_input unit :=
  let! r := get_rem in hloop 1 jsx_children_round (0%Z, r).

(** js.cpp:1004-1028 (expect_jsx_in_js) *)
Definition js_expect_jsx : M js_input bool :=
  let! r := get_rem in
  let! o := lift (jsx_match_tag false r) in
  match o with
  | None => ret false
  | Some (_, type) =>
    jsx_consume_tag ;;
    match type with
    | jsx_self_closing => ret tt
    | jsx_opening | jsx_fragment_opening => jsx_consume_children
    | _ => fail FAssert
    end ;;
    set_loc div_goal ;;
    ret true
  end.

(** js.cpp:981-992 (consume_token): the chain of calls connected by || *)
Definition js_or (a b : M js_input bool) : M js_input bool := let! x := a in if x then ret true else b.
(** js.cpp:979-996 (consume_token) *)
Definition js_token : M js_input unit :=
  let! x :=
    js_or js_expect_whitespace
    (js_or js_expect_hashbang
    (js_or js_expect_line_comment
    (js_or js_expect_block_comment
    (js_or (match mode with javascript => js_expect_jsx | typescript => ret false end)
    (js_or js_expect_string
    (js_or js_expect_template
    (js_or js_expect_regex
    (js_or js_expect_number
    (js_or js_expect_private_identifier
    (js_or js_expect_identifier
           js_expect_operator)))))))))) in
  if x then ret tt else js_error.

(** js.cpp:957-976: the loop of consume_js_before_closing_brace over brace_level; a signed level without overflow *)
Definition js_brace_round (level : Z) : M js_input (Z + unit) :=
  let! r := get_rem in
  match r with
  | [] => ret (inr tt)
  | c :: _ =>
    if (c =? ch "{")%N then
      emit_and_advance 1 hl_symbol_brace ;; set_loc regex_goal ;; ret (inl (level + 1)%Z)
    else if (c =? ch "}")%N then
      if (level - 1 <? 0)%Z then ret (inr tt)
      else emit_and_advance 1 hl_symbol_brace ;; set_loc div_goal ;; ret (inl (level - 1)%Z)
    else js_token ;; ret (inl level)
  end.
Definition js_before_brace_body : M js_input unit := set_loc regex_goal ;; hloop 1 js_brace_round 0%Z.
End nested.

(** js.cpp:950-977 (consume_js_before_closing_brace). The fuel bounds the depth of the recursion; the C++ call stack is
    not modelled. *)
Fixpoint js_before_brace (fuel : nat) : M js_input unit :=
  match fuel with
  | O => fail FFuel
  | S fuel => js_before_brace_body (js_before_brace fuel)
  end.

(** js.cpp:941-947 (operator()). A nested call is made only after consuming a character, so one more than the length of
    the source is enough fuel. *)
Definition js_highlight : highlighter := fun src _ =>
  run hashbang_or_regex (while_rem (js_token (js_before_brace (length src + 1))) ;; ret true) src.
End mode.

(** js.cpp:1521-1529 (highlight_javascript), 1531-1539 (highlight_typescript) *)
Definition highlight_javascript : highlighter := js_highlight javascript.
Definition highlight_typescript : highlighter := js_highlight typescript.
