(** * Specification: words of LLVM IR (LLVM Language Reference: simple constants, first-class types,
    terminator instructions). *)
From Coq Require Import List NArith Bool Arith.
From Verif Require Import M_Base M_Types.
Import ListNotations.

(** Letters, digits, - and _ *)
Definition llvm_word_char (c : N) : Prop :=
  (65 <= c <= 90 \/ 97 <= c <= 122 \/ 48 <= c <= 57 \/ c = 45 \/ c = 95)%N.
Definition llvm_digit (c : N) : Prop := (48 <= c <= 57)%N.
Definition llvm_hex_digit (c : N) : Prop := (48 <= c <= 57 \/ 65 <= c <= 70 \/ 97 <= c <= 102)%N.

(** Integer types: i1, i32, ... *)
Definition llvm_integer_type (w : str) : Prop := exists d, w = bs "i" ++ d /\ d <> [] /\ Forall llvm_digit d.

Definition llvm_types : list str :=
  [bs "void"; bs "float"; bs "double"; bs "bfloat"; bs "fp128"; bs "ppc_fp128"; bs "x86_fp80"; bs "x86_amx";
   bs "ptr"; bs "label"; bs "token"; bs "metadata"; bs "target"; bs "vscale"].
Definition llvm_terminators : list str :=
  [bs "ret"; bs "br"; bs "switch"; bs "indirectbr"; bs "invoke"; bs "callbr"; bs "call"; bs "resume";
   bs "catchswitch"; bs "catchret"; bs "catchpad"; bs "cleanupret"; bs "cleanuppad"; bs "landingpad"; bs "unreachable"].
Definition llvm_nulls : list str := [bs "null"; bs "none"; bs "undef"; bs "poison"].

(** The highlight of a word that is not a label *)
Inductive llvm_word : str -> N -> Prop :=
| lw_integer w : llvm_integer_type w -> llvm_word w hl_keyword_type
| lw_type w : In w llvm_types -> llvm_word w hl_keyword_type
| lw_control w : In w llvm_terminators -> llvm_word w hl_keyword_control
| lw_null w : In w llvm_nulls -> llvm_word w hl_null
| lw_bool w : w = bs "true" \/ w = bs "false" -> llvm_word w hl_bool
| lw_c : llvm_word (bs "c") hl_string_decor
| lw_x : llvm_word (bs "x") hl_symbol_punc
| lw_other w : ~ llvm_integer_type w -> ~ In w llvm_types -> ~ In w llvm_terminators -> ~ In w llvm_nulls ->
    ~ In w [bs "true"; bs "false"; bs "c"; bs "x"] -> llvm_word w hl_keyword.

(** Constants that are numbers: an optional sign, and decimal digits or a hexadecimal floating-point
    constant with its kind letter. *)
Inductive llvm_number : str -> Prop :=
| ln_decimal sign d : sign = [] \/ sign = bs "-" -> d <> [] -> Forall llvm_digit d -> llvm_number (sign ++ d)
| ln_hex p d : In p [bs "0x"; bs "0xK"; bs "0xL"; bs "0xM"; bs "0xR"; bs "s0x"; bs "u0x"] ->
    d <> [] -> Forall llvm_hex_digit d -> llvm_number (p ++ d).
