# Formal model of ulight in Rocq (Coq 8.16.1)

## Approach

The C++ code in /repo is re-stated, function by function, as total Gallina
functions over lists of code units (`N`).  Every definition cites the file and
lines it models.  Three kinds of files live in `rocq/theories`:

* `M_*.v`  – the model (definitions only; each with its citation);
* `S_*.v`  – small independent specifications (grammar, set, relation);
* `L_*.v`  – lemmas and proofs;
* `P_*.v`  – the property theorems, each closed by `exact`, with a satisfiability
  `Example` and `Print Assumptions`.

Modelling conventions:

* `char`, `char8_t`, `char32_t` values are `N`; a string is `list N`.  Where a
  theorem needs values to be bytes it says so (`bytes s`).
* `std::size_t` lengths and positions are `nat`.  No string in an address space
  is longer than 2^63 bytes, so sums of a few lengths do not wrap; where the code
  can *under*flow or narrow (`int(size)`), the model makes the wrap or the failure
  explicit.
* A failed `ULIGHT_ASSERT`, a failed `ULIGHT_DEBUG_ASSERT`, an out-of-range access
  or other undefined behaviour is a distinct outcome of the model (`Fail`),
  so "never fails" is a theorem and not an assumption.
* Loops are structural recursion or recursion on explicit fuel whose exhaustion is
  a distinct outcome; the theorems exclude it (that is the termination proof).
* The token buffer is write-only for highlighters (no highlighter reads `out`
  except `emit` itself), so a highlighter is modelled as producing a trace of emit
  operations; `emit`, `Non_Owning_Buffer` and flush callbacks then interpret the trace.

When the code violates a property the full property is refuted by a theorem named
`..._refuted` with a concrete witness, and the strongest true part is proved
(suffix `_partial` when it is only part of the stated property).

## Plan per property

| id | model | proof |
|----|-------|-------|
| C01 | language table, `lower_bound` as in libstdc++ (halving loop) | generic binary-search correctness + table sortedness by computation |
| C02 | `find_last_of`, `substr` | spec relation: decomposition at last dot |
| C03 | both overloads | refutation witness + exact characterisation |
| C04 | display-name table | finite sweep + range reasoning |
| C05, C06 | `ulight_state` record, both entry points as decision functions over an abstract highlighter | case analysis; refutation for language value COUNT |
| C07 | buffer as capacity, contents, flushed chunks | invariant by induction over operation histories |
| C08–C10 | HTML renderer over buffer operations | C07 + induction over tokens and text |
| C11–C14 | `emit` over the buffer | invariant over emit histories; refutation for capacity dependence |
| C15 | sub-buffer as nested replay | induction over nested histories |
| C16–C20 | `unicode.hpp`, `unicode_algorithm.hpp` | arithmetic (`lia`) and list induction |
| C21, C22 | limb arrays as `N` with `testbit` | bit-level lemmas; refutation for `range_before` |
| C23 | XID range tables | binary-search lemma of C01 reused |
| C24 | `ascii_algorithm.hpp` | list induction |
| C25–C27 | DP table + backtracking of `shortest_edit_script` | invariant of the table = edit distance; induction on backtracking |
| C28, C29 | `split_lines`, `print_diff` hunk logic | list induction |
| C30–C35 | JSON matchers, parser and highlighter | grammar spec; Hoare-style invariants; refutations |
| C36–C40 | language highlighters | Hoare-style triple over the emit trace; refutations with witnesses |
| C41–C46 | escapes, numbers, parse_utils | case analysis + list induction; refutations |
| C47 | short-name table | finite sweep over all pairs; refutation |
| C48 | C++ `State` setters | frame equations; refutation for `set_html_attr_name` |
| C49 | `Unique_File` histories | trace semantics; refutation for move assignment |
| C50 | `ulight_new` | model with allocation outcome; refutation |
| C51, C52 | narrowing of lengths to `int`; bit-compression loop and intrinsic | refutation for huge strings; bit-level lemmas |
| C53–C56 | iterators, ASCII scanning, brace-less escapes, lines | list induction against naive scans |
| C57, C58 | number conversion of the JSON parser; JSON highlighter | grammar spec of documents with comments, exact tokens; refutations |
| C59, C60, C39 | HTML matchers and highlighter, nested highlighters as a parameter | spec of references and comments; totality by `wp`; refutations |
| C61–C66 | C/C++ highlighter, operator trie, keyword table | totality by `wp`; table sweeps; specs of comments, raw strings, identifiers |
| C67–C69 | CSS tokenizer and highlighter | totality by `wp`; number grammar; refutations |
| C70 | `print_text_diff` = `split_lines` + C25 + C29 | applying the printed diff to the old text gives the new text |
| C71–C74 | handle histories, `file_to_bytes_chunked`, loaders | induction over histories and over the read loop |
| C75–C77 | LLVM highlighter | totality, word classes; refutations |
| C78–C81 | Bash highlighter | totality, exact tokens of simple command lines; refutations |
| C82–C86 | Python highlighter | totality, exact tokens of programs (`S_Lexemes.program`); refutations |
| C87–C92 | Java highlighter | same |
| C93–C98 | Kotlin highlighter | same |
| C99–C105 | Rust highlighter, with and without debug assertions | same |
| C106–C109 | Lua highlighter, which writes to the buffer itself | same |
| C110–C119 | NASM highlighter | same |
| C120–C126 | XML highlighter | totality, exact tokens of documents; refutations |
| C127–C131 | COWEL highlighter | same |
| C132–C136 | Markdown highlighter | same |
| C137 | YAML highlighter | totality for at most 64 entries; refutation beyond |
| C40 | JavaScript/TypeScript highlighters with JSX | totality under a condition on escapes; refutations |
| C138 | the table of highlighters and both API entry points | composition of the totality theorems with C05–C15 |
| C139–C141 | HTML highlighter | exact tokens of documents; refutations |
| C142–C144 | command line tool over a disk, an output with limited room | composition of C02, C73, C138; refutations |
| C145 | C and C++ highlighters; lexemes in S_LangCppLexemes.v with the state "a line begins" | each lexeme consumes its text and emits its tokens in any context; induction on the sequence |
| C146–C150 | same model; words before literals, null directives, continued macros, suffixes, messages | refutations for families of inputs; consequences of C145 for the true part |
| C151 | `M_LangJs.v`; lexemes and nested code in `S_LangJsLexemes.v` | one lemma per kind of lexeme; loops of strings and templates by induction on their bodies; nested code by induction on the depth |
| C152–C160 | same model; names, divisions, regular expressions, continuations, numbers, conditionals, comparisons, keywords, hashbangs | witnesses against the full statement; consequences of C151 for the true part |
| C161 | `M_LangLlvm.v`; lexemes in `S_LangLlvmLexemes.v` | one lemma per kind of lexeme, the string loop by induction on its body, the main loop by induction on the module |
| C162 | `M_LangBash.v`; scripts with roles in `S_LangBashLexemes.v` | one lemma per lexeme for the state that fits its role, strings by induction on their body, nested code by induction on the depth |
| C163–C172 | same model; quoted names, text after expansions, positional parameters, arithmetic, number signs, here documents, separators, assignments | witnesses against the full statement; exact tokens for all words by composing the rounds of C162 |
| C173 | `M_LangCss.v`; style sheets with roles in `S_LangCssLexemes.v`, tokens that are joined in `S_LexemesForced.v` | one lemma per lexeme for the context that fits its role, names and strings by induction on their escapes, rounds of comments and tokens |
| C174–C181 | same model; nested rules, combinators, dashed names, at-rules in blocks, URLs, non-ASCII names, CR LF | witnesses against the full statement; exact tokens for all names by composing the rounds of C173 |
| C182 | `M_LangYaml.v`; lines, entries, scalars and flow collections in `S_LangYamlLexemes.v` | mutual induction over flow collections; block nodes by induction on fuel with the invariant that the entries left and the levels on the stack are at most 64 |
| C183–C190 | same model; one-line documents | a witness against the claim; the tokens the highlighter does give, for all texts, by composing the lemmas of C182 |
| C191–C193 | TeX in `M_LangSmall.v`; lexemes in `P_LangTex.v` | loop invariant: the text looked at so far, then a document; that every source is a document by induction on its length; witnesses |
| C194, C195 | EBNF in `M_LangSmall.v`; grammars in `P_LangEbnf.v` | induction over grammars for the calls of emit, and over pieces for the tokens after joining; the invariant says that no name or number is followed by its own characters |
| C196, C197, C198 | `M_LangYaml.v`; block scalars in `S_LangYamlBlock.v`: indicators, then lines with the same indentation and empty lines | induction over the lines, then the entries of C182; comments after the indicators and indicators in the other order are refuted, with the exact tokens |
| C199–C202 | `M_LangYaml.v`; names, tags and interrupted text in `P_LangYamlProps.v` | exact effects of the property loop, then the values of C182; tags, numbers before white space and white lines in block scalars are refuted, with the exact tokens |
| C203–C204 | `M_LuaApi.v`, `M_LuaCli.v`: the API entry points and the tool with the Lua highlighter, and the check of tokens in debug builds only | composition of C106 and C107 with the HTML lemmas, redone for tokens that may be empty; debug builds are refuted, with the exact result |
| C205 | `M_Session.v`: histories of conversions and setters on one state, with the origin of the token callback; `S_Session.v` | simulation between a history and its setters, by induction on the history; tokens after HTML are refuted for every state that has tokens |
| C206–C207 | `M_Algorithm.v`: the helper algorithms, with memory as bytes for copy; `S_Algorithm.v` | induction; copies between integers of different sizes are refuted, with the exact effect |
| C208 | `Function_Ref`: all constructors, `operator()`, `has_value`, `get_invoker`, `get_entity` over a world of functions and live objects | case analysis on the callable; refutations for temporaries and null pointers; exact characterisation of undefined calls |
| C209–C210 | all highlighters of the table and histories of calls (`M_Languages`, `M_Api`, `M_Session`) | every highlighter ends with success (one lemma over the table); case analysis of both conversions; induction on histories with a specification of status and text pairs; refutation of BAD_TEXT |
| C211–C212 | `is_tag_name`, `is_attribute_name` over `Code_Point_View` | induction on decoded texts with the UTF-8 lemmas; the character classes of the standard as a separate specification; refutation for U+0080 to U+009F |
| C213 | flags in both conversions, for the real table | case analysis of both conversions for two flag values; per-language convertibility for the strict option |
| C214 | members and division in JavaScript and TypeScript | lexeme grammar of the whole highlighter; refuted for members named like keywords, with the exact tokens |
| C215 | gap separators of EBNF | from C194; refuted for the form feed, with the exact tokens |
| C216 | script and style elements in `M_LangHtml.v`, for any two nested highlighters | induction over the text for the search of the end tag, invariant of the loop over the document; refuted for longer names after `</` |

The list of what is proved for each property, with the exact theorem names, is MANIFEST.json; the notes there say what a
partial theorem leaves out.

## What is modelled

* `src/main/cpp/ulight.cpp`: language tables, `ulight_init`/`new`, both entry points, validation, errors, HTML rendering,
  type names (M_Lang, M_Api, M_Html, M_Types); `include/ulight/ulight.hpp`: the `State` setters (M_Api).
* `include/ulight/impl/buffer.hpp` (M_Buffer), `highlighter.hpp` (M_Emit, M_Highlighter), `highlight.hpp` (M_Languages).
* `unicode.hpp`, `unicode_algorithm.hpp`, `unicode_chars.hpp` (M_Utf8, M_Xid), `ascii_chars.hpp`, `ascii_algorithm.hpp`, `charset.hpp`,
  `chars.cpp` (M_Chars, M_Charset), `escapes.hpp`, `numbers.hpp`, `parse_utils.cpp` (M_Parse), `string_diff.hpp` (M_StringDiff).
* `io.hpp`, `io.cpp` (M_Io), `main.cpp` (M_Cli).
* Every language in `src/main/cpp/lang`: bash, cowel, cpp (C and C++), css, diff, ebnf, html, java, js (JavaScript, TypeScript and JSX),
  json (JSON, JSONC, and the parser), kotlin, llvm, lua, markdown, nasm, python, rust, tex (TeX and LaTeX), xml, yaml, txt.

## What is not modelled

* `wasm.cpp` (stubs for WASI), `ulight.cppm` (module interface), `memory.hpp`, `tty.hpp`, `ansi.hpp`.
* `algorithm/*.hpp` are modelled on their own (C206, C207); the models of their callers use the standard meaning, and the library
  copies elements of equal sizes only.
* Allocation failure except in C50; the depth of the C++ call stack (recursive highlighters recurse on the source or on fuel that
  suffices); `int` counters are unbounded numbers (a source long enough to overflow one has more than 2^31 braces).
* `strtod` and `from_chars` are their documented results (C57), `std::fread` returns short counts only at the end of the file or on an
  error, `std::fwrite` writes a prefix (M_Io, M_Cli).
* Calls of a flush callback made before a failure inside the highlighter: the model says that the call failed, not what was
  flushed before.  Callbacks do not throw and do not modify the state.
* Lua is not in `highlight_functions` of M_Languages.v: its highlighter writes to the buffer directly, so it is modelled with its own
  output function, and C138 and C142–C144 do not cover it; C203 and C204 do.
* Debug assertions: `FDebugAssert` is an internal error in builds with assertions and undefined behavior in others (see `caught` in
  M_Api.v).  The totality theorems exclude both.

## Trusted base

* Coq's kernel (8.16.1), including its `vm_compute` virtual machine.  `native_compute` is not used.
* `Print Assumptions` says "Closed under the global context" for every theorem in MANIFEST.json: no axiom, not even one of the
  standard library, is used.  `tools/assumptions.py` prints them all again; its output is in ASSUMPTIONS.txt.  (`coqchk -o` also lists
  the parameters of the module type `Coq.ssr.ssrunder.Under_rel`, which comes with the standard library's `ssreflect` and is not used.)
* The transcription from C++ to Gallina.  The code cannot be run in this sandbox.  `tools/validate.py` evaluates the models of the
  highlighters on the inputs of the tests in /repo/test and compares the HTML with the expected output there.
* The specifications (`S_*.v` and the definitions next to the theorems in `P_*.v`), to be read by a human.
* The theorems were tested against wrong programs: seeded/LOG.jsonl lists the edits and the theorems that noticed.
