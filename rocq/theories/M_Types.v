(** * Model of the highlight type enumeration and its names.
    Generated from the enumeration and the name table by a script; one line per entry. *)
From Coq Require Import List NArith Bool.
From Verif Require Import M_Base.
Import ListNotations.
Local Open Scope N_scope.

(** ulight.h:228-700: the enumerators of ulight_highlight_type. *)
Definition hl_none : N := 0.
Definition hl_error : N := 1.
Definition hl_comment : N := 16.
Definition hl_comment_delim : N := 17.
Definition hl_comment_doc : N := 18.
Definition hl_comment_doc_delim : N := 19.
Definition hl_value : N := 32.
Definition hl_value_delim : N := 33.
Definition hl_null : N := 34.
Definition hl_bool : N := 36.
Definition hl_number : N := 48.
Definition hl_number_delim : N := 49.
Definition hl_number_decor : N := 50.
Definition hl_string : N := 56.
Definition hl_string_delim : N := 57.
Definition hl_string_decor : N := 58.
Definition hl_string_escape : N := 60.
Definition hl_string_interpolation : N := 62.
Definition hl_string_interpolation_delim : N := 63.
Definition hl_name : N := 64.
Definition hl_name_decl : N := 65.
Definition hl_name_builtin : N := 66.
Definition hl_name_delim : N := 67.
Definition hl_name_var : N := 68.
Definition hl_name_var_decl : N := 69.
Definition hl_name_var_builtin : N := 70.
Definition hl_name_var_delim : N := 71.
Definition hl_name_const : N := 72.
Definition hl_name_const_decl : N := 73.
Definition hl_name_const_builtin : N := 74.
Definition hl_name_const_delim : N := 75.
Definition hl_name_function : N := 76.
Definition hl_name_function_decl : N := 77.
Definition hl_name_function_builtin : N := 78.
Definition hl_name_function_delim : N := 79.
Definition hl_name_type : N := 80.
Definition hl_name_type_decl : N := 81.
Definition hl_name_type_builtin : N := 82.
Definition hl_name_type_delim : N := 83.
Definition hl_name_module : N := 84.
Definition hl_name_module_decl : N := 85.
Definition hl_name_module_builtin : N := 86.
Definition hl_name_module_delim : N := 87.
Definition hl_name_label : N := 88.
Definition hl_name_label_decl : N := 89.
Definition hl_name_label_builtin : N := 90.
Definition hl_name_label_delim : N := 91.
Definition hl_name_parameter : N := 92.
Definition hl_name_parameter_decl : N := 93.
Definition hl_name_parameter_builtin : N := 94.
Definition hl_name_parameter_delim : N := 95.
Definition hl_name_nonterminal : N := 96.
Definition hl_name_nonterminal_decl : N := 97.
Definition hl_name_nonterminal_builtin : N := 98.
Definition hl_name_nonterminal_delim : N := 99.
Definition hl_name_lifetime : N := 100.
Definition hl_name_lifetime_decl : N := 101.
Definition hl_name_lifetime_builtin : N := 102.
Definition hl_name_lifetime_delim : N := 103.
Definition hl_name_instruction : N := 104.
Definition hl_name_instruction_decl : N := 105.
Definition hl_name_instruction_pseudo : N := 106.
Definition hl_name_instruction_delim : N := 107.
Definition hl_name_attr : N := 108.
Definition hl_name_attr_decl : N := 109.
Definition hl_name_attr_builtin : N := 110.
Definition hl_name_attr_delim : N := 111.
Definition hl_name_shell_command : N := 112.
Definition hl_name_shell_command_decl : N := 113.
Definition hl_name_shell_command_builtin : N := 114.
Definition hl_name_shell_command_delim : N := 115.
Definition hl_name_shell_option : N := 116.
Definition hl_name_shell_option_decl : N := 117.
Definition hl_name_shell_option_builtin : N := 118.
Definition hl_name_shell_option_delim : N := 119.
Definition hl_name_macro : N := 120.
Definition hl_name_macro_decl : N := 121.
Definition hl_name_macro_builtin : N := 122.
Definition hl_name_macro_delim : N := 123.
Definition hl_name_directive : N := 124.
Definition hl_name_directive_decl : N := 125.
Definition hl_name_directive_builtin : N := 126.
Definition hl_name_directive_delim : N := 127.
Definition hl_keyword : N := 144.
Definition hl_keyword_control : N := 145.
Definition hl_keyword_type : N := 146.
Definition hl_keyword_op : N := 147.
Definition hl_keyword_this : N := 148.
Definition hl_diff_heading : N := 160.
Definition hl_diff_heading_delim : N := 161.
Definition hl_diff_heading_hunk : N := 162.
Definition hl_diff_heading_hunk_delim : N := 163.
Definition hl_diff_common : N := 168.
Definition hl_diff_common_delim : N := 169.
Definition hl_diff_deletion : N := 170.
Definition hl_diff_deletion_delim : N := 171.
Definition hl_diff_insertion : N := 172.
Definition hl_diff_insertion_delim : N := 173.
Definition hl_diff_modification : N := 174.
Definition hl_diff_modification_delim : N := 175.
Definition hl_markup_tag : N := 176.
Definition hl_markup_tag_decl : N := 177.
Definition hl_markup_tag_builtin : N := 178.
Definition hl_markup_tag_delim : N := 179.
Definition hl_markup_attr : N := 180.
Definition hl_markup_attr_decl : N := 181.
Definition hl_markup_attr_builtin : N := 182.
Definition hl_markup_attr_delim : N := 183.
Definition hl_text : N := 192.
Definition hl_text_heading : N := 193.
Definition hl_text_link : N := 194.
Definition hl_text_mark : N := 195.
Definition hl_text_math : N := 196.
Definition hl_text_subscript : N := 197.
Definition hl_text_superscript : N := 198.
Definition hl_text_quote : N := 199.
Definition hl_text_small : N := 200.
Definition hl_text_mono : N := 208.
Definition hl_text_code : N := 209.
Definition hl_text_italic : N := 210.
Definition hl_text_emph : N := 211.
Definition hl_text_bold : N := 212.
Definition hl_text_strong : N := 213.
Definition hl_text_underline : N := 214.
Definition hl_text_insertion : N := 215.
Definition hl_text_strikethrough : N := 216.
Definition hl_text_deletion : N := 217.
Definition hl_symbol : N := 224.
Definition hl_symbol_punc : N := 225.
Definition hl_symbol_op : N := 226.
Definition hl_symbol_formatting : N := 227.
Definition hl_symbol_bracket : N := 228.
Definition hl_symbol_parens : N := 229.
Definition hl_symbol_square : N := 230.
Definition hl_symbol_brace : N := 231.

(** ulight.hpp:122-307 (ULIGHT_HIGHLIGHT_TYPE_ENUM_DATA): value, long string, short string. *)
Definition highlight_type_table : list (N * (str * str)) := [
  (hl_none, (bs "", bs ""));
  (hl_error, (bs "error", bs "err"));
  (hl_comment, (bs "comment", bs "cmt"));
  (hl_comment_delim, (bs "comment-delim", bs "cmt_dlim"));
  (hl_comment_doc, (bs "comment-doc", bs "cmt_doc"));
  (hl_comment_doc_delim, (bs "comment-doc-delim", bs "cmt_doc_dlim"));
  (hl_value, (bs "value", bs "val"));
  (hl_value_delim, (bs "value-delim", bs "val_dlim"));
  (hl_null, (bs "null", bs "null"));
  (hl_bool, (bs "bool", bs "bool"));
  (hl_number, (bs "number", bs "num"));
  (hl_number_delim, (bs "number-delim", bs "num_dlim"));
  (hl_number_decor, (bs "number-decor", bs "num_deco"));
  (hl_string, (bs "string", bs "str"));
  (hl_string_delim, (bs "string-delim", bs "str_dlim"));
  (hl_string_decor, (bs "string-decor", bs "str_deco"));
  (hl_string_escape, (bs "string-escape", bs "str_esc"));
  (hl_string_interpolation, (bs "string-interpolation", bs "str_intp"));
  (hl_string_interpolation_delim, (bs "string-interpolation-delim", bs "str_intp_dlim"));
  (hl_name, (bs "name", bs "name"));
  (hl_name_decl, (bs "name-decl", bs "name_decl"));
  (hl_name_builtin, (bs "name-builtin", bs "name_pre"));
  (hl_name_delim, (bs "name-builtin-delim", bs "name_dlim"));
  (hl_name_var, (bs "name-var", bs "name_var"));
  (hl_name_var_decl, (bs "name-var-decl", bs "name_var_decl"));
  (hl_name_var_builtin, (bs "name-var-builtin", bs "name_var_pre"));
  (hl_name_var_delim, (bs "name-var-delim", bs "name_var_dlim"));
  (hl_name_const, (bs "name-const", bs "name_cons"));
  (hl_name_const_decl, (bs "name-const-decl", bs "name_cons_decl"));
  (hl_name_const_builtin, (bs "name-const-builtin", bs "name_cons_pre"));
  (hl_name_const_delim, (bs "name-const-delim", bs "name_cons_dlim"));
  (hl_name_function, (bs "name-function", bs "name_fun"));
  (hl_name_function_decl, (bs "name-function-decl", bs "name_fun_decl"));
  (hl_name_function_builtin, (bs "name-function-builtin", bs "name_fun_pre"));
  (hl_name_function_delim, (bs "name-function-delim", bs "name_fun_dlim"));
  (hl_name_type, (bs "name-type", bs "name_type"));
  (hl_name_type_decl, (bs "name-type-decl", bs "name_type_decl"));
  (hl_name_type_builtin, (bs "name-type-builtin", bs "name_type_pre"));
  (hl_name_type_delim, (bs "name-type-delim", bs "name_type_dlim"));
  (hl_name_module, (bs "name-module", bs "name_mod"));
  (hl_name_module_decl, (bs "name-module-decl", bs "name_mod_decl"));
  (hl_name_module_builtin, (bs "name-module-builtin", bs "name_mod_pre"));
  (hl_name_module_delim, (bs "name-module-delim", bs "name_mod_dlim"));
  (hl_name_label, (bs "name-label", bs "name_labl"));
  (hl_name_label_decl, (bs "name-label-decl", bs "name_labl_decl"));
  (hl_name_label_builtin, (bs "name-label-builtin", bs "name_labl_pre"));
  (hl_name_label_delim, (bs "name-label-delim", bs "name_labl_dlim"));
  (hl_name_parameter, (bs "name-parameter", bs "name_para"));
  (hl_name_parameter_decl, (bs "name-parameter-decl", bs "name_para_decl"));
  (hl_name_parameter_builtin, (bs "name-parameter-builtin", bs "name_para_pre"));
  (hl_name_parameter_delim, (bs "name-parameter-delim", bs "name_para_dlim"));
  (hl_name_nonterminal, (bs "name-nonterminal", bs "name_nt"));
  (hl_name_nonterminal_decl, (bs "name-nonterminal-decl", bs "name_nt_decl"));
  (hl_name_nonterminal_builtin, (bs "name-nonterminal-builtin", bs "name_nt_pre"));
  (hl_name_nonterminal_delim, (bs "name-nonterminal-delim", bs "name_nt_dlim"));
  (hl_name_lifetime, (bs "name-lifetime", bs "name_life"));
  (hl_name_lifetime_decl, (bs "name-lifetime-decl", bs "name_life_decl"));
  (hl_name_lifetime_builtin, (bs "name-lifetime-builtin", bs "name_life_pre"));
  (hl_name_lifetime_delim, (bs "name-lifetime-delim", bs "name_life_dlim"));
  (hl_name_instruction, (bs "name-instruction", bs "name_inst"));
  (hl_name_instruction_decl, (bs "name-instruction-decl", bs "name_inst_decl"));
  (hl_name_instruction_pseudo, (bs "name-instruction-pseudo", bs "asm_inst_pre"));
  (hl_name_instruction_delim, (bs "name-instruction-delim", bs "asm_inst_dlim"));
  (hl_name_attr, (bs "name-attr", bs "name_attr"));
  (hl_name_attr_decl, (bs "name-attr-decl", bs "name_attr_decl"));
  (hl_name_attr_builtin, (bs "name-attr-builtin", bs "name_attr_pre"));
  (hl_name_attr_delim, (bs "name-attr-delim", bs "name_attr_dlim"));
  (hl_name_shell_command, (bs "name-command", bs "name_cmd"));
  (hl_name_shell_command_decl, (bs "name-command-decl", bs "name_cmd_decl"));
  (hl_name_shell_command_builtin, (bs "name-command-builtin", bs "sh_cmd_pre"));
  (hl_name_shell_command_delim, (bs "name-command-delim", bs "name_cmd"));
  (hl_name_shell_option, (bs "name-option", bs "name_opt"));
  (hl_name_shell_option_decl, (bs "name-option-decl", bs "name_opt_decl"));
  (hl_name_shell_option_builtin, (bs "name-option-builtin", bs "name_opt_pre"));
  (hl_name_shell_option_delim, (bs "name-option-delim", bs "name_opt_dlim"));
  (hl_name_macro, (bs "name-macro", bs "name_mac"));
  (hl_name_macro_decl, (bs "name-macro-decl", bs "name_mac_decl"));
  (hl_name_macro_builtin, (bs "name-macro-builtin", bs "name_mac_pre"));
  (hl_name_macro_delim, (bs "name-macro-delim", bs "name_mac_dlim"));
  (hl_name_directive, (bs "name-directive", bs "name_dirt"));
  (hl_name_directive_decl, (bs "name-directive-decl", bs "name_dirt_decl"));
  (hl_name_directive_builtin, (bs "name-directive-builtin", bs "name_dirt_pre"));
  (hl_name_directive_delim, (bs "name-directive-delim", bs "name_dirt_dlim"));
  (hl_keyword, (bs "keyword", bs "kw"));
  (hl_keyword_control, (bs "keyword-control", bs "kw_ctrl"));
  (hl_keyword_type, (bs "keyword-type", bs "kw_type"));
  (hl_keyword_op, (bs "keyword-op", bs "kw_op"));
  (hl_keyword_this, (bs "keyword-this", bs "kw_this"));
  (hl_diff_heading, (bs "diff-heading", bs "diff_head"));
  (hl_diff_heading_delim, (bs "diff-heading-delim", bs "diff_head_dlim"));
  (hl_diff_heading_hunk, (bs "diff-heading-hunk", bs "diff_head_hunk"));
  (hl_diff_heading_hunk_delim, (bs "diff-heading-hunk-delim", bs "diff_head_hunk_dlim"));
  (hl_diff_common, (bs "diff-common", bs "diff_eq"));
  (hl_diff_common_delim, (bs "diff-common-delim", bs "diff_eq_dlim"));
  (hl_diff_deletion, (bs "diff-deletion", bs "diff_del"));
  (hl_diff_deletion_delim, (bs "diff-deletion-delim", bs "diff_del_dlim"));
  (hl_diff_insertion, (bs "diff-insertion", bs "diff_ins"));
  (hl_diff_insertion_delim, (bs "diff-insertion-delim", bs "diff_ins_dlim"));
  (hl_diff_modification, (bs "diff-modification", bs "diff_mod"));
  (hl_diff_modification_delim, (bs "diff-modification-delim", bs "diff_mod_dlim"));
  (hl_markup_tag, (bs "markup-tag", bs "mk_tag"));
  (hl_markup_tag_decl, (bs "markup-tag-decl", bs "mk_tag_decl"));
  (hl_markup_tag_builtin, (bs "markup-tag-builtin", bs "mk_tag_pre"));
  (hl_markup_tag_delim, (bs "markup-tag-delim", bs "mk_tag_dlim"));
  (hl_markup_attr, (bs "markup-attr", bs "mk_attr"));
  (hl_markup_attr_decl, (bs "markup-attr-decl", bs "mk_attr_decl"));
  (hl_markup_attr_builtin, (bs "markup-attr-builtin", bs "mk_attr_pre"));
  (hl_markup_attr_delim, (bs "markup-attr-delim", bs "mk_attr_dlim"));
  (hl_text, (bs "text", bs "text"));
  (hl_text_heading, (bs "text-heading", bs "text_head"));
  (hl_text_link, (bs "text-link", bs "text_link"));
  (hl_text_mark, (bs "text-mark", bs "text_mark"));
  (hl_text_math, (bs "text-math", bs "text_math"));
  (hl_text_subscript, (bs "text-subscript", bs "text_sub"));
  (hl_text_superscript, (bs "text-superscript", bs "text_sup"));
  (hl_text_quote, (bs "text-quote", bs "text_quot"));
  (hl_text_small, (bs "text-small", bs "text_smal"));
  (hl_text_mono, (bs "text-mono", bs "text_mono"));
  (hl_text_code, (bs "text-code", bs "text_code"));
  (hl_text_italic, (bs "text-italic", bs "text_ital"));
  (hl_text_emph, (bs "text-emph", bs "text_emph"));
  (hl_text_bold, (bs "text-bold", bs "text_bold"));
  (hl_text_strong, (bs "text-strong", bs "text_stro"));
  (hl_text_underline, (bs "text-underline", bs "text_ulin"));
  (hl_text_insertion, (bs "text-insertion", bs "text_ins"));
  (hl_text_strikethrough, (bs "text-strikethrough", bs "text_strk"));
  (hl_text_deletion, (bs "text-deletion", bs "text_del"));
  (hl_symbol, (bs "symbol", bs "sym"));
  (hl_symbol_punc, (bs "symbol-punc", bs "sym_punc"));
  (hl_symbol_op, (bs "symbol-op", bs "sym_op"));
  (hl_symbol_formatting, (bs "symbol-formatting", bs "sym_fmt"));
  (hl_symbol_bracket, (bs "symbol-bracket", bs "sym_bket"));
  (hl_symbol_parens, (bs "symbol-parens", bs "sym_par"));
  (hl_symbol_square, (bs "symbol-square", bs "sym_sqr"));
  (hl_symbol_brace, (bs "symbol-brace", bs "sym_brac"))
].

(** The switch statement over the table: first (only) matching case. *)
Fixpoint type_case (t : N) (l : list (N * (str * str))) : option (str * str) :=
  match l with
  | [] => None
  | (v, s) :: r => if N.eqb v t then Some s else type_case t r
  end.

(** ulight.hpp:325-345 (highlight_type_long_string and its u8 twin); ulight.cpp:264-281. *)
Definition long_string (t : N) : str :=
  match type_case t highlight_type_table with Some (l, _) => l | None => [] end.

(** ulight.hpp:347-367 (highlight_type_short_string and its u8 twin); ulight.cpp:283-304. *)
Definition short_string (t : N) : str :=
  match type_case t highlight_type_table with Some (_, s) => s | None => [] end.
