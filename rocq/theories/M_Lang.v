(** * Language table and lookup.  Models src/main/cpp/ulight.cpp:60-262. *)
From Coq Require Import List NArith Bool Arith.
From Verif Require Import M_Base.
Import ListNotations.
Local Open Scope N_scope.

(** include/ulight/ulight.h, [enum ulight_lang]. *)
Definition LANG_NONE := 0. Definition LANG_COWEL := 1. Definition LANG_CPP := 2.
Definition LANG_LUA := 3. Definition LANG_HTML := 4. Definition LANG_CSS := 5.
Definition LANG_C := 6. Definition LANG_JAVASCRIPT := 7. Definition LANG_BASH := 8.
Definition LANG_DIFF := 9. Definition LANG_JSON := 10. Definition LANG_JSONC := 11.
Definition LANG_XML := 12. Definition LANG_TXT := 13. Definition LANG_TEX := 14.
Definition LANG_LATEX := 15. Definition LANG_NASM := 16. Definition LANG_EBNF := 17.
Definition LANG_PYTHON := 18. Definition LANG_KOTLIN := 19. Definition LANG_TYPESCRIPT := 20.
Definition LANG_RUST := 21. Definition LANG_LLVM := 22. Definition LANG_MARKDOWN := 23.
Definition LANG_JAVA := 24. Definition LANG_YAML := 25. Definition LANG_COUNT := 26.

(** [ulight_lang_list], src/main/cpp/ulight.cpp:84-153. *)
Definition lang_list : list (str * N) :=
  [ (bs "asm", LANG_NASM); (bs "assembler", LANG_NASM); (bs "assembly", LANG_NASM);
    (bs "atom", LANG_XML); (bs "bash", LANG_BASH); (bs "c", LANG_C); (bs "c++", LANG_CPP);
    (bs "cc", LANG_CPP); (bs "cjs", LANG_JAVASCRIPT); (bs "cow", LANG_COWEL);
    (bs "cowel", LANG_COWEL); (bs "cplusplus", LANG_CPP); (bs "cpp", LANG_CPP);
    (bs "css", LANG_CSS); (bs "cxx", LANG_CPP); (bs "diff", LANG_DIFF); (bs "ebnf", LANG_EBNF);
    (bs "gyp", LANG_PYTHON); (bs "h", LANG_C); (bs "h++", LANG_CPP); (bs "hpp", LANG_CPP);
    (bs "htm", LANG_HTML); (bs "html", LANG_HTML); (bs "hxx", LANG_CPP); (bs "java", LANG_JAVA);
    (bs "javascript", LANG_JAVASCRIPT); (bs "js", LANG_JAVASCRIPT); (bs "json", LANG_JSON);
    (bs "jsonc", LANG_JSONC); (bs "jsx", LANG_JAVASCRIPT); (bs "kotlin", LANG_KOTLIN);
    (bs "kt", LANG_KOTLIN); (bs "kts", LANG_KOTLIN); (bs "latex", LANG_LATEX);
    (bs "ll", LANG_LLVM); (bs "llvm", LANG_LLVM); (bs "lua", LANG_LUA);
    (bs "markdown", LANG_MARKDOWN); (bs "mathml", LANG_XML); (bs "md", LANG_MARKDOWN);
    (bs "mjs", LANG_JAVASCRIPT); (bs "mml", LANG_XML); (bs "nasm", LANG_NASM);
    (bs "patch", LANG_DIFF); (bs "plaintext", LANG_TXT); (bs "plist", LANG_XML);
    (bs "py", LANG_PYTHON); (bs "python", LANG_PYTHON); (bs "rs", LANG_RUST); (bs "rss", LANG_XML);
    (bs "rust", LANG_RUST); (bs "sh", LANG_BASH); (bs "svg", LANG_XML); (bs "tex", LANG_TEX);
    (bs "text", LANG_TXT); (bs "ts", LANG_TYPESCRIPT); (bs "tsx", LANG_TYPESCRIPT);
    (bs "txt", LANG_TXT); (bs "typescript", LANG_TYPESCRIPT); (bs "x86asm", LANG_NASM);
    (bs "xbj", LANG_XML); (bs "xhtml", LANG_XML); (bs "xml", LANG_XML); (bs "xsd", LANG_XML);
    (bs "xsl", LANG_XML); (bs "yaml", LANG_YAML); (bs "yml", LANG_YAML); (bs "zsh", LANG_BASH) ].

(** [ulight_lang_display_names], src/main/cpp/ulight.cpp:159-186. *)
Definition lang_display_names : list str :=
  [ bs "N/A"; bs "COWEL"; bs "C++"; bs "Lua"; bs "HTML"; bs "CSS"; bs "C"; bs "JavaScript";
    bs "Bash"; bs "Diff"; bs "JSON"; bs "JSON with Comments"; bs "XML"; bs "Plaintext";
    bs "TeX"; bs "LaTeX"; bs "NASM"; bs "EBNF"; bs "Python"; bs "Kotlin"; bs "TypeScript";
    bs "Rust"; bs "LLVM"; bs "Markdown"; bs "Java"; bs "YAML" ].

(** [std::ranges::lower_bound]: the halving loop of the standard library, over any
    random-access sequence given as a list.  [less x] is [comp(proj(x), value)].
    [fuel] bounds the number of iterations; [length] iterations always suffice. *)
Fixpoint lower_bound_loop {A} (fuel : nat) (less : A -> bool) (l : list A)
         (first len : nat) : nat :=
  match fuel with
  | O => first
  | S fuel' =>
    match len with
    | O => first
    | _ =>
      let half := Nat.div2 len in
      let middle := (first + half)%nat in
      match nth_error l middle with
      | None => first
      | Some x =>
        if less x then lower_bound_loop fuel' less l (S middle) (len - half - 1)
        else lower_bound_loop fuel' less l first half
      end
    end
  end.
Definition lower_bound {A} (less : A -> bool) (l : list A) : nat :=
  lower_bound_loop (length l) less l 0 (length l).

(** [ulight_get_lang], src/main/cpp/ulight.cpp:226-235. *)
Definition get_lang (name : str) : N :=
  match nth_error lang_list (lower_bound (fun e => str_ltb (fst e) name) lang_list) with
  | Some (n, l) => if str_eqb n name then l else LANG_NONE
  | None => LANG_NONE
  end.

(** [ulight_get_lang_u8], src/main/cpp/ulight.cpp:238-241. *)
Definition get_lang_u8 (name : str) : N := get_lang name.

(** [ulight_lang_from_path], src/main/cpp/ulight.cpp:244-256.  46 is '.'. *)
Definition lang_from_path (path : str) : N :=
  match find_last 46 path with
  | None => LANG_NONE
  | Some last_dot => get_lang (skipn (last_dot + 1) path)
  end.

(** [ulight_lang_from_path_u8], src/main/cpp/ulight.cpp:259-262. *)
Definition lang_from_path_u8 (path : str) : N := get_lang path.

(** [ulight_lang_display_name], src/main/cpp/ulight.cpp:197-203.  [None] would be a read
    outside the table. *)
Definition lang_display_name (lang : N) : option str :=
  if (lang =? LANG_NONE) || (LANG_COUNT <=? lang) then Some []
  else nth_error lang_display_names (N.to_nat lang).
