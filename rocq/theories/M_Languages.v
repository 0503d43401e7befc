(** * Model of the table of highlighters (highlight.hpp:76-123) *)
From Coq Require Import List NArith Bool.
From Verif Require Import M_Base M_Lang M_Api M_LangSmall M_Json M_LangHtml M_LangCpp M_LangCss M_LangLlvm M_LangBash M_LangPython
  M_LangJava M_LangKotlin M_LangRust M_LangNasm M_LangXml M_LangCowel M_LangMarkdown M_LangYaml M_LangJs.
Import ListNotations.

(** highlight.hpp:84-113 (highlight_functions). [debug] tells whether debug assertions are enabled, which the Rust
    highlighter depends on. Simplification: there is no entry for Lua, whose highlighter writes to the buffer itself
    (lua.cpp:530-541, modelled by [lua_output] in M_LangLua.v). The entry of ULIGHT_LANG_NONE is null. *)
Definition highlight_functions (debug : bool) (lang : N) : option highlighter :=
  if (lang =? LANG_BASH)%N then Some highlight_bash
  else if (lang =? LANG_C)%N then Some highlight_c
  else if (lang =? LANG_COWEL)%N then Some highlight_cowel
  else if (lang =? LANG_CPP)%N then Some highlight_cpp
  else if (lang =? LANG_CSS)%N then Some highlight_css
  else if (lang =? LANG_DIFF)%N then Some highlight_diff
  else if (lang =? LANG_EBNF)%N then Some highlight_ebnf
  else if (lang =? LANG_HTML)%N then Some (highlight_html highlight_javascript highlight_css)
  else if (lang =? LANG_JAVA)%N then Some highlight_java
  else if (lang =? LANG_JAVASCRIPT)%N then Some highlight_javascript
  else if (lang =? LANG_JSON)%N then Some highlight_json
  else if (lang =? LANG_JSONC)%N then Some highlight_jsonc
  else if (lang =? LANG_KOTLIN)%N then Some highlight_kotlin
  else if (lang =? LANG_LATEX)%N then Some highlight_latex
  else if (lang =? LANG_LLVM)%N then Some highlight_llvm
  else if (lang =? LANG_MARKDOWN)%N then Some highlight_markdown
  else if (lang =? LANG_NASM)%N then Some highlight_nasm
  else if (lang =? LANG_PYTHON)%N then Some highlight_python
  else if (lang =? LANG_RUST)%N then Some (highlight_rust debug)
  else if (lang =? LANG_TEX)%N then Some highlight_tex
  else if (lang =? LANG_TXT)%N then Some highlight_txt
  else if (lang =? LANG_TYPESCRIPT)%N then Some highlight_typescript
  else if (lang =? LANG_XML)%N then Some highlight_xml
  else if (lang =? LANG_YAML)%N then Some highlight_yaml
  else None.
