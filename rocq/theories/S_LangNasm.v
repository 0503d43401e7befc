(** * Specification: NASM (https://www.nasm.us/xdoc/2.16.03/html/nasmdoc3.html) *)
From Coq Require Import List NArith Bool Arith.
From Verif Require Import M_Base M_Types M_Emit S_Chars S_Lexemes S_States.
Import ListNotations.

(** What a name that has no other meaning is at this point of the line *)
Inductive nasm_place : Type := nasm_mnemonic | nasm_operand | nasm_target.
Definition nasm_role (s : nasm_place) : N :=
  match s with nasm_mnemonic => hl_name_instruction | nasm_operand => hl_name_var | nasm_target => hl_name_label end.

Definition nasm_type_names : list str :=
  [bs "byte"; bs "word"; bs "dword"; bs "qword"; bs "tword"; bs "oword"; bs "yword"; bs "zword"; bs "far"; bs "ptr"].
Definition nasm_operator_names : list str := [bs "seg"; bs "wrt"].
Definition nasm_jumps : list str :=
  [bs "call"; bs "ja"; bs "jae"; bs "jb"; bs "jbe"; bs "jc"; bs "je"; bs "jg"; bs "jge"; bs "jl"; bs "jle"; bs "jmp"; bs "jna"; bs "jnae"; bs "jnb"; bs "jnbe";
   bs "jnc"; bs "jne"; bs "jng"; bs "jnge"; bs "jnl"; bs "jnle"; bs "jno"; bs "jnp"; bs "jnz"; bs "jo"; bs "jp"; bs "jpe"; bs "jpo"; bs "js"; bs "jz";
   bs "loop"; bs "loope"; bs "loopne"; bs "loopnz"; bs "loopz"].
Definition nasm_numerals : list str :=
  [bs "0"; bs "1"; bs "2"; bs "3"; bs "4"; bs "5"; bs "6"; bs "7"; bs "8"; bs "9"; bs "10"; bs "11"; bs "12"; bs "13"; bs "14"; bs "15";
   bs "16"; bs "17"; bs "18"; bs "19"; bs "20"; bs "21"; bs "22"; bs "23"; bs "24"; bs "25"; bs "26"; bs "27"; bs "28"; bs "29"; bs "30"; bs "31"].
Definition nasm_family (prefix : str) (from upto : nat) (suffix : str) : list str :=
  map (fun n => prefix ++ n ++ suffix) (skipn from (firstn (S upto) nasm_numerals)).
(** Registers whose name looks like a hexadecimal number with suffix *)
Definition nasm_hex_registers : list str :=
  [bs "ah"; bs "ax"; bs "bh"; bs "bx"; bs "ch"; bs "cx"; bs "dh"; bs "dx"; bs "eax"; bs "ebx"; bs "ecx"; bs "edx"].
Definition nasm_other_registers : list str :=
  [bs "al"; bs "bl"; bs "cl"; bs "dl"; bs "si"; bs "di"; bs "bp"; bs "sp"; bs "ip"; bs "sil"; bs "dil"; bs "bpl"; bs "spl";
   bs "esi"; bs "edi"; bs "ebp"; bs "esp"; bs "eip"; bs "eflags"; bs "rax"; bs "rbx"; bs "rcx"; bs "rdx"; bs "rsi"; bs "rdi"; bs "rbp"; bs "rsp"; bs "rip"; bs "rflags";
   bs "cs"; bs "ds"; bs "es"; bs "fs"; bs "gs"; bs "ss"; bs "cw"; bs "sw"]
  ++ nasm_family (bs "r") 8 31 [] ++ nasm_family (bs "r") 8 31 (bs "b") ++ nasm_family (bs "r") 8 31 (bs "w") ++ nasm_family (bs "r") 8 31 (bs "d")
  ++ map (fun n => bs "cr" ++ n) [bs "0"; bs "2"; bs "3"; bs "4"; bs "8"] ++ map (fun n => bs "dr" ++ n) [bs "0"; bs "1"; bs "2"; bs "3"; bs "6"; bs "7"]
  ++ nasm_family (bs "k") 0 7 [] ++ nasm_family (bs "mm") 0 7 [] ++ nasm_family (bs "st") 0 7 []
  ++ nasm_family (bs "xmm") 0 31 [] ++ nasm_family (bs "ymm") 0 31 [] ++ nasm_family (bs "zmm") 0 31 [].
Definition nasm_all_registers : list str := nasm_hex_registers ++ nasm_other_registers.
(** The highlighter does not know the first three names, and takes the others for registers. *)
Definition nasm_missed_registers : list str := [bs "xmm30"; bs "ymm30"; bs "zmm30"].
Definition nasm_extra_registers : list str := [bs "xmm32"; bs "ymm32"; bs "zmm32"].
Definition nasm_pseudo_instructions : list str :=
  [bs "db"; bs "dw"; bs "dd"; bs "dq"; bs "dt"; bs "do"; bs "dy"; bs "dz"; bs "resb"; bs "resw"; bs "resd"; bs "resq"; bs "rest"; bs "reso"; bs "resy"; bs "resz";
   bs "incbin"; bs "equ"; bs "times"].

(** Names, in any combination of cases *)
Definition one_of (l : list str) (w : str) : Prop := In (map lower w) l.
Definition nasm_name_char (c : N) : Prop := letter c \/ digit c \/ In c (bs "_$@.?").
Definition nasm_name (w : str) : Prop :=
  exists c t, w = c :: t /\ (letter c \/ In c (bs "_.")) /\ Forall nasm_name_char t /\ (c = ch "." -> not_before digit t).
Definition nasm_follow (c : N) : Prop := nasm_name_char c \/ c = ch "-".
(** A name that begins like a hexadecimal number with suffix, although numbers begin with a digit *)
Definition nasm_number_like (w : str) : Prop :=
  exists d x v, w = d ++ x :: v /\ d <> [] /\ Forall hex_digit d /\ In x (bs "hHxX") /\ not_before ident_char v.
Inductive nasm_named : nasm_place -> list piece -> str -> nasm_place -> Prop :=
| nasm_operator_word s w rest : one_of nasm_operator_names w -> not_before nasm_follow rest -> nasm_named s [(w, Some hl_keyword_op)] rest s
| nasm_label s w rest : nasm_name w -> ~ nasm_number_like w -> ~ one_of nasm_operator_names w ->
    nasm_named s [(w ++ bs ":", Some hl_name_label_decl)] rest nasm_mnemonic
| nasm_local_label s w rest : nasm_name (ch "." :: w) -> not_before (fun c => nasm_follow c \/ c = ch ":") rest ->
    nasm_named s [(ch "." :: w, Some hl_name_label_decl)] rest nasm_mnemonic
| nasm_type_word s w rest : one_of nasm_type_names w -> not_before (fun c => nasm_follow c \/ c = ch ":") rest ->
    nasm_named s [(w, Some hl_keyword_type)] rest nasm_operand
| nasm_register s w rest : one_of nasm_other_registers w -> ~ one_of nasm_missed_registers w -> not_before (fun c => nasm_follow c \/ c = ch ":") rest ->
    nasm_named s [(w, Some hl_name_var)] rest nasm_operand
| nasm_hex_register s w rest : one_of nasm_hex_registers w -> not_before nasm_name_char rest -> nasm_named s [(w, Some hl_name_var)] rest s
| nasm_jump s w rest : one_of nasm_jumps w -> not_before (fun c => nasm_follow c \/ c = ch ":") rest ->
    nasm_named s [(w, Some hl_name_instruction)] rest nasm_target
| nasm_plain_name s w rest : nasm_name w -> ~ nasm_number_like w -> hd_error w <> Some (ch ".") ->
    ~ one_of (nasm_operator_names ++ nasm_type_names ++ nasm_all_registers ++ nasm_extra_registers ++ nasm_jumps) w ->
    not_before (fun c => nasm_follow c \/ c = ch ":") rest ->
    nasm_named s [(w, Some (nasm_role s))] rest (match s with nasm_mnemonic => nasm_operand | _ => s end).

(** Numbers *)
Definition nasm_prefixes : list (str * (N -> Prop)) :=
  map (fun p => (p, binary_digit)) [bs "0b"; bs "0B"; bs "0y"; bs "0Y"] ++ map (fun p => (p, octal_digit)) [bs "0o"; bs "0O"; bs "0q"; bs "0Q"]
  ++ map (fun p => (p, digit)) [bs "0d"; bs "0D"; bs "0t"; bs "0T"] ++ map (fun p => (p, hex_digit)) [bs "0x"; bs "0X"; bs "0h"; bs "0H"].
Definition nasm_suffixes : list (N * (N -> Prop)) :=
  map (fun p => (p, binary_digit)) (bs "bByY") ++ map (fun p => (p, octal_digit)) (bs "qQoO")
  ++ map (fun p => (p, digit)) (bs "dDtT") ++ map (fun p => (p, hex_digit)) (bs "hHxX").
Inductive nasm_number : list piece -> str -> Prop :=
| nasm_decimal n frac exp rest : grouped digit 95 n -> (forall f, frac = Some f -> f = [] /\ (exp <> None \/ rest <> []) \/ grouped digit 95 f) ->
    (forall e d, exp = Some (e, d) -> In e [bs "e"; bs "E"; bs "e+"; bs "E+"; bs "e-"; bs "E-"] /\ d <> [] /\ Forall digit d) ->
    not_before (fun c => ident_char c \/ c = ch ".") rest -> nasm_number (number_pieces [] n frac exp []) rest
| nasm_prefixed p d n rest : In (p, d) nasm_prefixes -> grouped d 95 n -> not_before (fun c => ident_char c \/ c = ch ".") rest ->
    (forall a, text n <> a ++ bs "b" /\ text n <> a ++ bs "B" /\ text n <> a ++ bs "d" /\ text n <> a ++ bs "D") -> nasm_number (number_pieces p n None None []) rest
| nasm_dollar c t n rest : grouped hex_digit 95 n -> text n = c :: t -> digit c -> not_before (fun c => ident_char c \/ c = ch ".") rest -> nasm_number (number_pieces (bs "$") n None None []) rest
| nasm_suffixed c n x d rest : In (x, d) nasm_suffixes -> digit c -> Forall d (c :: n) -> not_before ident_char rest ->
    nasm_number [(c :: n, Some hl_number); ([x], Some hl_number_decor)] rest.

(** Strings *)
Inductive nasm_escape : str -> str -> Prop :=
| nasm_escape_simple c rest : In c (34%N :: bs "'`\?abtnvfre") -> nasm_escape [ch "\"; c] rest
| nasm_escape_octal c w rest : octal_digit c -> w <> [] -> Forall octal_digit w -> length w <= 2 -> (length w < 2 -> not_before octal_digit rest) ->
    nasm_escape (ch "\" :: c :: w) rest
| nasm_escape_hex w rest : w <> [] -> Forall hex_digit w -> length w <= 2 -> (length w < 2 -> not_before hex_digit rest) -> nasm_escape (bs "\x" ++ w) rest
| nasm_escape_u4 w rest : exactly 4 hex_digit w -> nasm_escape (bs "\u" ++ w) rest
| nasm_escape_u8 w rest : exactly 8 hex_digit w -> nasm_escape (bs "\U" ++ w) rest.
Inductive nasm_item : list piece -> str -> Prop :=
| nasm_item_escape e rest : nasm_escape e rest -> nasm_item [(e, Some hl_string_escape)] rest.
Definition nasm_plain (run rest : str) : Prop := Forall (fun c => ~ In c [10; 11; 13; 96; 92]%N) run.
Inductive nasm_string : list piece -> str -> Prop :=
| nasm_verbatim q body close rest : q = 34%N \/ q = 39%N -> Forall (fun c => c <> q /\ c <> 10%N /\ c <> 13%N) body ->
    close = [([q], Some hl_string_delim)] \/ close = [] /\ (rest = [] \/ exists t, rest = 10%N :: t \/ rest = 13%N :: t) ->
    nasm_string (([q], Some hl_string_delim) :: opt_piece body hl_string ++ close) rest
| nasm_backquote body close rest : string_body hl_string nasm_plain nasm_item (text close ++ rest) true body ->
    close = [([96%N], Some hl_string_delim)] \/ close = [] /\ (exists t, rest = 10%N :: t \/ rest = 13%N :: t) ->
    nasm_string (([96%N], Some hl_string_delim) :: body ++ close) rest.

Definition nasm_symbols : list (str * N) :=
  map (fun t => (t, hl_symbol_op)) [bs "?"; bs ":"; bs "+"; bs "-"; bs "~"; bs "!"; bs "!="; bs "|"; bs "||"; bs "&"; bs "&&"; bs "^"; bs "^^";
    bs ">"; bs ">>"; bs ">>>"; bs ">="; bs "<"; bs "<<"; bs "<<<"; bs "<="; bs "<=>"; bs "/"; bs "//"]
  ++ map (fun t => (t, hl_symbol_parens)) [bs "("; bs ")"] ++ map (fun t => (t, hl_symbol_square)) [bs "["; bs "]"]
  ++ map (fun t => (t, hl_symbol_brace)) [bs "{"; bs "}"] ++ [(bs ",", hl_symbol_punc)].

(** The end of a line: a line terminator, or the end of the source *)
Definition nasm_line_end (w rest : str) : Prop := newline w rest \/ w = [] /\ rest = [].
Inductive nasm_lexeme : nasm_place -> list piece -> str -> nasm_place -> Prop :=
| nasm_blank s c rest : c = 32%N \/ c = 9%N -> nasm_lexeme s [([c], None)] rest s
| nasm_line_break s c rest : c = 13%N \/ c = 10%N -> nasm_lexeme s [([c], None)] rest nasm_mnemonic
| nasm_comment s t w rest : Forall (fun c => c <> 10%N /\ c <> 13%N) t -> nasm_line_end w rest ->
    nasm_lexeme s ((bs ";", Some hl_comment_delim) :: opt_piece t hl_comment ++ [(w, None)]) rest nasm_mnemonic
| nasm_macro s t w rest : Forall (fun c => c <> 10%N /\ c <> 13%N) t -> nasm_line_end w rest ->
    nasm_lexeme s [(ch "%" :: t, Some hl_name_macro); (w, None)] rest nasm_mnemonic
| nasm_word s p rest s' : nasm_named s p rest s' -> nasm_lexeme s p rest s'
| nasm_numeric s p rest : nasm_number p rest -> nasm_lexeme s p rest s
| nasm_text s p rest : nasm_string p rest -> nasm_lexeme s p rest s
| nasm_symbol s t h rest : In (t, h) nasm_symbols -> longest nasm_symbols t rest -> nasm_lexeme s [(t, Some h)] rest s.
