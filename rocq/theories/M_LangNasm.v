(** * Model of NASM highlighting (src/main/cpp/lang/nasm.cpp, include/ulight/impl/lang/nasm.hpp). *)
From Coq Require Import List NArith ZArith Bool Arith.
From Verif Require Import M_Base M_Emit M_Types M_Chars M_Parse M_Api M_Lang M_Highlighter.
Import ListNotations.

(** lang/nasm.hpp:12 (is_nasm_identifier_start), 15 (is_nasm_identifier) *)
Definition is_nasm_identifier_start (c : N) : bool := is_ascii_alpha c || mem c (bs "._?$").
Definition is_nasm_identifier (c : N) : bool := is_ascii_alphanumeric c || mem c (bs "_$@-.?").

(** nasm.cpp:15-61 (match_escape_sequence) *)
Definition nasm_match_escape (s : str) : res escape :=
  if (length s <? 2) || negb (nth 0 s 0 =? ch "\")%N then Ok (mk_escape 0 false)
  else
    let c := nth 1 s 0%N in
    if mem c (bs "'`\?abtnvfre") || (c =? 34)%N then Ok (mk_escape 2 false)
    else if mem c (bs "01234567") then match_common_escape_at octal_1_to_2 s 2
    else if (c =? ch "x")%N then match_common_escape_at hex_1_to_2 s 2
    else if (c =? ch "u")%N then match_common_escape_at hex_4 s 2
    else if (c =? ch "U")%N then match_common_escape_at hex_8 s 2
    else Ok (mk_escape 2 true).

(** nasm.cpp:63-95 (match_operator) *)
Definition nasm_match_operator (s : str) : nat :=
  match s with
  | [] => 0
  | c :: _ =>
    if mem c (bs "?:+-~") then 1
    else if (c =? ch "!")%N then if starts_with s (bs "!=") then 2 else 1
    else if (c =? ch "|")%N then if starts_with s (bs "||") then 2 else 1
    else if (c =? ch "&")%N then if starts_with s (bs "&&") then 2 else 1
    else if (c =? ch "^")%N then if starts_with s (bs "^^") then 2 else 1
    else if (c =? ch ">")%N then
      if starts_with s (bs ">>>") then 3 else if starts_with s (bs ">>") then 2 else if starts_with s (bs ">=") then 2 else 1
    else if (c =? ch "<")%N then
      if starts_with s (bs "<<<") then 3 else if starts_with s (bs "<=>") then 3
      else if starts_with s (bs "<<") then 2 else if starts_with s (bs "<=") then 2 else 1
    else if (c =? ch "/")%N then if starts_with s (bs "//") then 2 else 1
    else if (c =? ch "%")%N then if starts_with s (bs "%%") then 2 else 1
    else 0
  end.

(** nasm.cpp:97-100 (match_identifier) *)
Definition nasm_match_identifier (s : str) : nat := length_if_head_tail s is_nasm_identifier_start is_nasm_identifier.

(** nasm.cpp:102-124 (base_of_suffix_char) *)
Definition nasm_base_of_suffix (c : N) : Z :=
  if mem c (bs "bByY") then 2 else if mem c (bs "qQoO") then 8 else if mem c (bs "dDtT") then 10
  else if mem c (bs "hHxX") then 16 else 0.
(** nasm.cpp:290-301 (determine_suffix) *)
Definition nasm_determine_suffix (s : str) : nat * Z :=
  match rev s with
  | [] => (0, 0%Z)
  | c :: _ => if (nasm_base_of_suffix c <=? 0)%Z then (0, 0%Z) else (1, nasm_base_of_suffix c)
  end.

(** nasm.cpp:128-136 (pseudo_instructions) *)
Definition nasm_pseudo : list str :=
  [bs "db"; bs "dd"; bs "do"; bs "dq"; bs "dt"; bs "dw"; bs "dy"; bs "dz"; bs "equ"; bs "incbin"; bs "resb"; bs "resd";
   bs "reso"; bs "resq"; bs "rest"; bs "resw"; bs "resy"; bs "resz"; bs "times"].
(** nasm.cpp:140-143 (types) *)
Definition nasm_types : list str :=
  [bs "byte"; bs "dword"; bs "far"; bs "oword"; bs "ptr"; bs "qword"; bs "tword"; bs "word"; bs "yword"; bs "zword"].
(** nasm.cpp:147-150 (operator_keywords) *)
Definition nasm_operators : list str :=
  [bs "seg"; bs "wrt"].
(** nasm.cpp:155-260 (registers) *)
Definition nasm_registers : list str :=
  [bs "ah"; bs "al"; bs "ax"; bs "bh"; bs "bl"; bs "bp"; bs "bpl"; bs "bx"; bs "ch"; bs "cl"; bs "cr0"; bs "cr2";
   bs "cr3"; bs "cr4"; bs "cr8"; bs "cs"; bs "cw"; bs "cx"; bs "dh"; bs "di"; bs "dil"; bs "dl"; bs "dr0"; bs "dr1";
   bs "dr2"; bs "dr3"; bs "dr6"; bs "dr7"; bs "ds"; bs "dx"; bs "eax"; bs "ebp"; bs "ebx"; bs "ecx"; bs "edi"; bs "edx";
   bs "eflags"; bs "eip"; bs "es"; bs "esi"; bs "esp"; bs "fs"; bs "gs"; bs "ip"; bs "k0"; bs "k1"; bs "k2"; bs "k3";
   bs "k4"; bs "k5"; bs "k6"; bs "k7"; bs "mm0"; bs "mm1"; bs "mm2"; bs "mm3"; bs "mm4"; bs "mm5"; bs "mm6"; bs "mm7";
   bs "r10"; bs "r10b"; bs "r10d"; bs "r10w"; bs "r11"; bs "r11b"; bs "r11d"; bs "r11w"; bs "r12"; bs "r12b"; bs "r12d";
   bs "r12w"; bs "r13"; bs "r13b"; bs "r13d"; bs "r13w"; bs "r14"; bs "r14b"; bs "r14d"; bs "r14w"; bs "r15"; bs "r15b";
   bs "r15d"; bs "r15w"; bs "r16"; bs "r16b"; bs "r16d"; bs "r16w"; bs "r17"; bs "r17b"; bs "r17d"; bs "r17w"; bs "r18";
   bs "r18b"; bs "r18d"; bs "r18w"; bs "r19"; bs "r19b"; bs "r19d"; bs "r19w"; bs "r20"; bs "r20b"; bs "r20d"; bs "r20w";
   bs "r21"; bs "r21b"; bs "r21d"; bs "r21w"; bs "r22"; bs "r22b"; bs "r22d"; bs "r22w"; bs "r23"; bs "r23b"; bs "r23d";
   bs "r23w"; bs "r24"; bs "r24b"; bs "r24d"; bs "r24w"; bs "r25"; bs "r25b"; bs "r25d"; bs "r25w"; bs "r26"; bs "r26b";
   bs "r26d"; bs "r26w"; bs "r27"; bs "r27b"; bs "r27d"; bs "r27w"; bs "r28"; bs "r28b"; bs "r28d"; bs "r28w"; bs "r29";
   bs "r29b"; bs "r29d"; bs "r29w"; bs "r30"; bs "r30b"; bs "r30d"; bs "r30w"; bs "r31"; bs "r31b"; bs "r31d"; bs "r31w";
   bs "r8"; bs "r8b"; bs "r8d"; bs "r8w"; bs "r9"; bs "r9b"; bs "r9d"; bs "r9w"; bs "rax"; bs "rbp"; bs "rbx"; bs "rcx";
   bs "rdi"; bs "rdx"; bs "rflags"; bs "rip"; bs "rsi"; bs "rsp"; bs "si"; bs "sil"; bs "sp"; bs "spl"; bs "ss"; bs "st0";
   bs "st1"; bs "st2"; bs "st3"; bs "st4"; bs "st5"; bs "st6"; bs "st7"; bs "sw"; bs "xmm0"; bs "xmm1"; bs "xmm10";
   bs "xmm11"; bs "xmm12"; bs "xmm13"; bs "xmm14"; bs "xmm15"; bs "xmm16"; bs "xmm17"; bs "xmm18"; bs "xmm19"; bs "xmm2";
   bs "xmm20"; bs "xmm21"; bs "xmm22"; bs "xmm23"; bs "xmm24"; bs "xmm25"; bs "xmm26"; bs "xmm27"; bs "xmm28"; bs "xmm29";
   bs "xmm3"; bs "xmm31"; bs "xmm32"; bs "xmm4"; bs "xmm5"; bs "xmm6"; bs "xmm7"; bs "xmm8"; bs "xmm9"; bs "ymm0";
   bs "ymm1"; bs "ymm10"; bs "ymm11"; bs "ymm12"; bs "ymm13"; bs "ymm14"; bs "ymm15"; bs "ymm16"; bs "ymm17"; bs "ymm18";
   bs "ymm19"; bs "ymm2"; bs "ymm20"; bs "ymm21"; bs "ymm22"; bs "ymm23"; bs "ymm24"; bs "ymm25"; bs "ymm26"; bs "ymm27";
   bs "ymm28"; bs "ymm29"; bs "ymm3"; bs "ymm31"; bs "ymm32"; bs "ymm4"; bs "ymm5"; bs "ymm6"; bs "ymm7"; bs "ymm8";
   bs "ymm9"; bs "zmm0"; bs "zmm1"; bs "zmm10"; bs "zmm11"; bs "zmm12"; bs "zmm13"; bs "zmm14"; bs "zmm15"; bs "zmm16";
   bs "zmm17"; bs "zmm18"; bs "zmm19"; bs "zmm2"; bs "zmm20"; bs "zmm21"; bs "zmm22"; bs "zmm23"; bs "zmm24"; bs "zmm25";
   bs "zmm26"; bs "zmm27"; bs "zmm28"; bs "zmm29"; bs "zmm3"; bs "zmm31"; bs "zmm32"; bs "zmm4"; bs "zmm5"; bs "zmm6";
   bs "zmm7"; bs "zmm8"; bs "zmm9"].
(** nasm.cpp:265-274 (label_instructions) *)
Definition nasm_label_instructions : list str :=
  [bs "call"; bs "ja"; bs "jae"; bs "jb"; bs "jbe"; bs "jc"; bs "je"; bs "jg"; bs "jge"; bs "jl"; bs "jle"; bs "jmp";
   bs "jna"; bs "jna"; bs "jnae"; bs "jnb"; bs "jnbe"; bs "jnc"; bs "jne"; bs "jng"; bs "jnge"; bs "jnl"; bs "jnle";
   bs "jno"; bs "jnp"; bs "jnz"; bs "jo"; bs "jp"; bs "jpe"; bs "jpo"; bs "js"; bs "jz"; bs "loop"; bs "loope";
   bs "loopne"; bs "loopnz"; bs "loopz"].

(** nasm.cpp:278-288 (binary_search_case_insensitive): std::ranges::binary_search is lower_bound followed by one more
    comparison. *)
Definition nasm_less (x y : str) : bool := match compare_to_lower x y with Lt => true | _ => false end.
Definition nasm_search (l : list str) (name : str) : bool :=
  match nth_error l (lower_bound (fun x => nasm_less x name) l) with
  | Some x => negb (nasm_less name x)
  | None => false
  end.

(** nasm.cpp:340-342: the member id_highlight *)
Definition nm := M N.

(** nasm.cpp:447-458 (consume_comment) *)
Definition nasm_consume_comment : nm unit :=
  let! r := get_rem in
  checkM (starts_with_ch r (ch ";")) FAssert ;;
  emit_and_advance 1 hl_comment_delim ;;
  let! r := get_rem in
  let line := match_crlf_line r in
  when (negb (fst line =? 0)) (emit_and_advance (fst line) hl_comment) ;;
  advance (snd line) ;;
  set_loc hl_name_instruction.

(** nasm.cpp:460-468 (consume_macro) *)
Definition nasm_consume_macro : nm unit :=
  let! r := get_rem in
  checkM (starts_with_ch r (ch "%")) FAssert ;;
  let! t := substr_from r 1 in
  let line := match_crlf_line t in
  emit_and_advance (fst line + 1) hl_name_macro ;;
  advance (snd line) ;;
  set_loc hl_name_instruction.

(** nasm.cpp:470-519 (consume_identifier) *)
Definition nasm_consume_identifier : nm unit :=
  let! r := get_rem in
  let len := nasm_match_identifier r in
  checkM (negb (len =? 0)) FUB ;;
  let id := firstn len r in
  if equals_ignore_case id (bs "seg") || equals_ignore_case id (bs "wrt") then emit_and_advance len hl_keyword_op
  else if (len <? length r) && (nth len r 0 =? ch ":")%N then
    emit_and_advance (len + 1) hl_name_label_decl ;; set_loc hl_name_instruction
  else if starts_with_ch r (ch ".") then emit_and_advance len hl_name_label_decl ;; set_loc hl_name_instruction
  else if nasm_search nasm_types id then emit_and_advance len hl_keyword_type ;; set_loc hl_name_var
  else if nasm_search nasm_operators id then emit_and_advance len hl_keyword_op ;; set_loc hl_name_var
  else if nasm_search nasm_registers id then emit_and_advance len hl_name_var ;; set_loc hl_name_var
  else if nasm_search nasm_label_instructions id then emit_and_advance len hl_name_instruction ;; set_loc hl_name_label
  else if starts_with_ch id (ch "$") then emit_and_advance len hl_name ;; set_loc hl_name_var
  else
    let! h := get_loc in
    emit_and_advance len h ;;
    when (h =? hl_name_instruction)%N (set_loc hl_name_var).

(** nasm.cpp:533-552: the options of expect_common_number *)
Definition nasm_number_options : number_options :=
  mk_number_options false false
    (map (fun p => mk_prefix (fst p) (snd p) false)
      [(bs "0b", 2); (bs "0B", 2); (bs "0y", 2); (bs "0Y", 2); (bs "0o", 8); (bs "0O", 8); (bs "0q", 8); (bs "0Q", 8);
       (bs "0d", 10); (bs "0D", 10); (bs "0t", 10); (bs "0T", 10); (bs "0x", 16); (bs "0X", 16); (bs "0h", 16); (bs "0H", 16);
       (bs "$", 16)]%Z)
    [(bs "e+", 10); (bs "e-", 10); (bs "e", 10); (bs "E+", 10); (bs "E-", 10); (bs "E", 10);
     (bs "p+", 16); (bs "p-", 16); (bs "p", 16); (bs "P+", 16); (bs "P-", 16); (bs "P", 16)]%Z
    [] None 10 10 95 false false.
(** nasm.cpp:530-559 (expect_common_number) *)
Definition nasm_expect_common_number : nm bool :=
  let! r := get_rem in
  let! n := lift (match_common_number r nasm_number_options) in
  if nr_length n =? 0 then ret false else highlight_number_sep n 95 ;; ret true.

(** nasm.cpp:561-592 (expect_suffixed_number) *)
Definition nasm_expect_suffixed_number : nm bool :=
  let! r := get_rem in
  let n := match_suffix_number r nasm_determine_suffix 95 in
  if sn_digits n =? 0 then ret false
  else
    let number := firstn (sn_digits n + 1) r in
    if (sn_base n =? 16)%Z && nasm_search nasm_pseudo number then
      emit_and_advance (length number) hl_name_instruction_pseudo ;; ret true
    else if (sn_base n =? 16)%Z && nasm_search nasm_registers number then
      emit_and_advance (length number) hl_name_var ;; ret true
    else if sn_erroneous n then emit_and_advance (sn_digits n + sn_suffix n) hl_error ;; ret true
    else
      highlight_digits (firstn (sn_digits n) r) 95 ;;
      emit_and_advance (sn_suffix n) hl_number_decor ;; ret true.

(** nasm.cpp:521-528 (expect_number) *)
Definition nasm_expect_number : nm bool :=
  let! r := get_rem in
  if starts_with_ch r 95 then ret false
  else let! b := nasm_expect_suffixed_number in if b then ret true else nasm_expect_common_number.

(** nasm.cpp:608-619 (consume_verbatim_string_content) *)
Definition nasm_verbatim_content (quote : N) : nm unit :=
  let! r := get_rem in
  let len := length_if_not r (fun c => (c =? 10)%N || (c =? 13)%N || (c =? quote)%N) in
  when (negb (len =? 0)) (emit_and_advance len hl_string) ;;
  let! r := get_rem in
  when (starts_with_ch r quote) (emit_and_advance 1 hl_string_delim).

(** nasm.cpp:661-670 (expect_escape) *)
Definition nasm_expect_escape : nm bool :=
  let! r := get_rem in
  let! e := lift (nasm_match_escape r) in
  if es_length e =? 0 then ret false
  else emit_and_advance (es_length e) (if es_erroneous e then hl_error else hl_string_escape) ;; ret true.

(** nasm.cpp:621-659 (consume_backquote_string_content); the loop variable is length. At the end of the source the
    pending length is dropped. *)
Definition nasm_backquote_body (len : nat) : nm (nat + unit) :=
  let flush := when (negb (len =? 0)) (emit_and_advance len hl_string) in
  let! r := get_rem in
  if negb (len <? length r) then ret (inr tt)
  else
    let! c := at_ r len in
    if mem c [10; 13; 11]%N then flush ;; ret (inr tt)
    else if (c =? 96)%N then flush ;; emit_and_advance 1 hl_string_delim ;; ret (inr tt)
    else if (c =? ch "\")%N then
      flush ;;
      let! b := nasm_expect_escape in
      if b then ret (inl 0) else emit_and_advance 1 hl_error ;; ret (inl 0)
    else ret (inl (len + 1)).
Definition nasm_backquote_content : nm unit := hloop 1 nasm_backquote_body 0.

(** nasm.cpp:594-606 (consume_string) *)
Definition nasm_consume_string (quote : N) : nm unit :=
  let! r := get_rem in
  checkM (starts_with_ch r quote) FAssert ;;
  emit_and_advance 1 hl_string_delim ;;
  if (quote =? 39)%N || (quote =? 34)%N then nasm_verbatim_content quote else nasm_backquote_content.

(** nasm.cpp:365-445 (consume_anything) *)
Definition nasm_consume_anything : nm unit :=
  let! r := get_rem in
  let! c := at_ r 0 in
  if mem c [32; 9]%N then advance 1
  else if mem c [13; 10]%N then set_loc hl_name_instruction ;; advance 1
  else if is_ascii_digit c then
    let! b := nasm_expect_number in checkM b FAssert
  else if mem c [34; 39; 96]%N then nasm_consume_string c
  else if mem c (bs "()") then emit_and_advance 1 hl_symbol_parens
  else if mem c (bs "[]") then emit_and_advance 1 hl_symbol_square
  else if mem c (bs "{}") then emit_and_advance 1 hl_symbol_brace
  else if (c =? ch ",")%N then emit_and_advance 1 hl_symbol_punc
  else if (c =? ch ";")%N then nasm_consume_comment
  else if (c =? ch "%")%N then nasm_consume_macro
  else
    let op := nasm_match_operator r in
    if negb (op =? 0) then emit_and_advance op hl_symbol_op
    else
      let! b := nasm_expect_number in
      if b then ret tt
      else if is_nasm_identifier_start c then nasm_consume_identifier
      else emit_and_advance_c true 1 hl_error.

(** nasm.cpp:356-362 (operator()), 677-685 (highlight_nasm) *)
Definition highlight_nasm : highlighter := fun src _ =>
  run hl_name_instruction (while_rem nasm_consume_anything ;; ret true) src.
