(** * Specification: the sources that are known to be highlighted, by language *)
From Coq Require Import List NArith Bool Arith.
From Verif Require Import M_Base M_Lang S_Chars S_Utf8 S_LangHtml S_LangMarkdown S_LangYaml S_LangJs.
Import ListNotations.

(** The languages that every source is highlighted in *)
Definition total_languages : list N :=
  [LANG_BASH; LANG_COWEL; LANG_DIFF; LANG_EBNF; LANG_JAVA; LANG_JSON; LANG_JSONC; LANG_KOTLIN; LANG_LATEX; LANG_LLVM;
   LANG_NASM; LANG_PYTHON; LANG_TEX; LANG_TXT; LANG_XML].

(** HTML in UTF-8 that has no script, ends with neither a character reference nor an unfinished closing tag, and has no closing tag whose
    name is longer than style. *)
Definition html_document (src : str) : Prop :=
  good_end src /\ valid_utf8 src /\ ~ longer_close (bs "style") src
  /\ ~ exists a m b, src = a ++ bs "<" ++ m ++ b /\ map lower m = bs "script".

Definition accepted (debug : bool) (lang : N) (src : str) : Prop :=
  In lang total_languages
  \/ (In lang [LANG_C; LANG_CPP; LANG_CSS] /\ valid_utf8 src)
  \/ (lang = LANG_JAVASCRIPT /\ escapes_inside src /\ no_tags src)
  \/ (lang = LANG_TYPESCRIPT /\ escapes_inside src)
  \/ (lang = LANG_MARKDOWN /\ comments_have_text src)
  \/ (lang = LANG_RUST /\ debug = false /\ bytes src)
  \/ (lang = LANG_YAML /\ entries src <= 64)
  \/ (lang = LANG_HTML /\ html_document src).
