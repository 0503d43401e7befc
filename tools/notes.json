{
"C03": "The code violates the property: the char8_t overload looks up the whole path as a language name. Refuted with a witness, and shown to fail on every path with an extension.",
"C05": "All causes proved except two invalid language values which the code accepts: ULIGHT_LANG_COUNT itself and values >= 2^31 (both refuted with witnesses).",
"C14": "Proved for highlighters without nested languages, for every capacity; refuted across the start of a nested span.",
"C47": "Everything proved except distinctness of one pair of short names, which is refuted.",
"C48": "Proved for all setters except set_html_attr_name, which is refuted.",
"C50": "The code violates the property: ulight_new writes through the null pointer when allocation fails.",
"C51": "The code violates the property for strings of 2^31 bytes and more (int truncation of the size); proved for shorter ones.",
"C22": "Proved for all ranges except range_before of the largest value, which is refuted.",
"C41": "Refuted for braced kinds: {} accepted as nonempty and unterminated braces accepted. Proved for all kinds: bounds, and every well-formed escape is accepted. The exact claim for all other kinds is C55.",
"C42": "Refuted: a trailing separator followed by other text is not flagged, an empty string is. Proved: exact match length, and the exact condition of the flag.",
"C44": "Refuted: without separator every unit is admitted; separators are rejected. Proved: with a separator the run is exact and unseparated digits of the base are accepted.",
"C45": "Refuted: at the end of the text the span can end in other white space. Everything else proved.",
"C46": "Refuted: trailing text is ignored and signed values wrap. Proved: every literal that fits gives its value, and unsigned overflow gives nothing.",
"C32": "Refuted: trailing text after the value is accepted, and form feeds count as whitespace. Proved: what is accepted starts with a JSON text.",
"C33": "Refuted: a parse can fail without an error call (missing value, unknown keyword) and an object key that is not a string runs into an unreachable-code assertion. Proved: these are the only cases.",
"C34": "Refuted for block comments: they are reported after having been consumed, with the text and position of what follows. Proved for line comments, and the number and order of all comment calls.",
"C57": "Refuted: the conversion runs on into the following text (0x1). Proved for all JSON texts.",
"C39": "The code violates the property: a character reference at the very end of an attribute value that ends the source, and an incomplete closing script/style tag, make it fail (refuted with witnesses for any nested highlighters). Proved for every source with an acceptable end, given that the nested highlighters work on the text of the script and style elements; C138 combines this with the CSS highlighter.",
"C61": "The code violates the property: an unterminated string literal ending in a truncated UTF-8 sequence yields a token beyond the end of the source (refuted with a witness). Proved for every byte sequence in which no lead byte announces a sequence past the end, hence for all valid UTF-8.",
"C62": "Refuted: the right brace digraph is answered with the right bracket digraph, and in C the C++-only rule for left angle brackets is applied. Proved for all other texts.",
"C67": "Refuted for text that is not UTF-8: a continuation byte makes the loop run forever (C67_css_stuck shows that no such byte is ever consumed), a truncated sequence fails an assertion, an escaped one throws. Proved for every valid UTF-8 text.",
"C69": "Refuted: url( is never classified as a URL (the code compares the text after the identifier). Proved: every identifier is classified as a function iff a parenthesis follows, else as an identifier.",
"C25": "For every pair of sequences with fewer than 2^64-1 lines in total (the table then also fits, see DESIGN.md).",
"C26": "Against every competing script accepted by the independent relation transforms.",
"C28": "The pieces are determined by the statement (C28_unique).",
"C29": "Proved for every context size below 2^63. From 2^63 on twice the context size wraps around and hunks overlap (C29_print_diff_refuted). Tabs, carriage returns and vertical tabs are shown as escapes; colours are not covered.",
"C70": "Same text conventions as C29.",
"C49": "Proved for histories that never call close() on, or move-assign to, a handle that holds a file. Refuted in general: close() does not reset the pointer, so move assignment over an open handle, and close() followed by destruction, close the same FILE twice.",
"C71": "Every history.",
"C72": "Proved for paths without NUL that are shorter than BUFSIZ. Refuted otherwise: a path of exactly BUFSIZ bytes is passed to fopen without a terminator, and a path with a NUL opens the file named by the part before it. fread is taken to read less than asked for only at the end of the file or on an error.",
"C73": "See C72 for the assumptions about fread.",
"C74": "See C72 for the assumptions about fread.",
"C77": "Refuted as stated: a leading minus is taken as a keyword character, so -5 is highlighted as a keyword; and the prefix 0x is tried before 0xK, 0xL, 0xM, 0xR, so 0xK4000 is an error token. Proved for decimal digits without sign and for the prefixes 0x, s0x, u0x. Fractions and exponents are not covered by the proved part.",
"C80": "Refuted as stated: no separator resets the state, so the second word of the text ls; rm (with a blank) is highlighted as an argument. Proved when no blank follows the separator.",
"C81": "Refuted as stated: inside the braces a # starts a comment, so ${#x} is highlighted as a comment to the end of the line. Proved for ${name}.",
"C84": "Refuted: the table has no entry for u and Rf, so such literals get an error token. Partial theorem: every other prefix in every case, for every literal.",
"C85": "Refuted twice: .5 is an error token, and 1. is an error token at the end of the text only. Partial theorem: every number that has an integer part and does not end with the point.",
"C86": "Refuted: the code asks for exactly three digits, so the escape for the null character is an error. Partial theorem: three digits.",
"C89": "Refuted: dollar signs are errors, and a leading underscore is an error token because the number matcher takes the digit separator. Partial theorem: all identifiers without dollar sign and leading underscore.",
"C90": "Refuted with U+00E9: only one code unit becomes string. Partial theorem: ASCII characters and all escape sequences.",
"C91": "Refuted: 1. is an error at the end of the text. Partial theorem: all numbers in every base except those with a point and no fraction.",
"C92": "Refuted: @interface is highlighted as an annotation unless there is white space after the @. Partial theorem: every other dotted name.",
"C95": "The full statement is refuted: identifiers that begin with an underscore are highlighted as errors first, and \"super\" is a name because the table misspells it. The partial theorem covers every other identifier and keyword.",
"C96": "The full statement is refuted by \"!==\" (two tokens) and by \"!isOpen\" (taken as the keyword \"!is\" and a name). The partial theorem covers every operator that the matcher knows.",
"C97": "The full statement is refuted by \"1UL\": the suffix list tries \"U\" first, so \"L\" becomes a name. The partial theorem covers the suffixes of one letter.",
"C98": "The full statement is refuted by a lone dollar sign, which is highlighted as an error. The partial theorem covers text without dollar signs.",
"C99": "Refuted for debug builds: the source 'ab' (with quotes) fails a debug assertion. Partial: for release builds, every byte sequence succeeds and every code point except white space is highlighted.",
"C101": "Refuted: `_x` is read as a number first and `r#match` as the name r followed by an error. Partial: all identifiers without a leading underscore.",
"C102": "Refuted: `1__0` is an error as a whole, and `0..9`, `1.max`, `t.0` are not split as in Rust. Partial: all numbers of the specification's grammar.",
"C103": "Refuted for cr literals, which are read with escapes and without hashes. Partial: r and br with any number of hashes and any contents.",
"C104": "Refuted: comments do not nest. Partial: comments without nested ones.",
"C105": "Refuted: `#`, `$` and `~` are errors. Partial: all symbols of the table.",
"C106": "Refuted: the source \"--\" yields an empty comment token (likewise empty long strings and block comments), since Lua's own emit function does not check for empty tokens. Proved: everything else, and that empty tokens are comment or string tokens only.",
"C108": "Refuted: a line break after \\z, and a backslash before a two-character line break (CR LF), end the string token early. Proved for all other contents the manual allows.",
"C109": "Refuted: <close> is highlighted as operators and a name. Proved for <const>.",
"C112": "Refuted: separators in suffixed numbers (0f_0fh) give an error, because the separator counts as a digit of too large a value. Proved without separators.",
"C113": "Refuted: a hexadecimal number such as 0x1d that ends in b, B, d or D is an error, because that digit is read as a suffix. Proved for all other last digits.",
"C114": "Refuted: the table of pseudo-instructions is only consulted for numbers, so they are highlighted as plain instructions. Proved: they are highlighted as instructions.",
"C115": "Refuted: xmm30, ymm30 and zmm30 are missing from the table. Proved for all others.",
"C116": "Refuted: without closing quote before the end of the source the contents are highlighted as code. Proved if the quote or a line break follows.",
"C117": "Refuted: names of hexadecimal letters that end in h or x (each) are highlighted as numbers. Proved for all others.",
"C118": "Refuted: a single digit (\\0) is highlighted as an error. Proved for two and three digits.",
"C119": "Refuted: the hyphen counts as part of the name (rsp-8 is one name). Proved for all operators other than those that begin with -, ? and :.",
"C121": "Nesting of elements is not required. Names are UTF-8 names of the specification without hyphen (C122); references have ASCII alphanumeric names (C125); instructions as in C126.",
"C122": "Refuted: '-' is missing from the set of name characters, so <my-tag> gets an error token. Proved for names without hyphen and below U+EFFF0.",
"C123": "Refuted: the version's opening quote is not expected, so the version and the end of the declaration stay plain text, and a document type after it is taken for a tag with errors. Proved: what follows is highlighted exactly when it is content without document type.",
"C124": "Refuted: without internal subset, the text up to the next white space is skipped (<!DOCTYPE note><note/> loses the document), and after SYSTEM or PUBLIC the closing '>' stays plain. Proved for an internal subset of comments and processing instructions.",
"C125": "Refuted: HTML's rule for named references is used, so names with '.', ':', '_' or non-ASCII characters are errors. Proved for ASCII alphanumeric names.",
"C126": "Refuted: the target is checked against \"xml\" at the wrong place (the text after it), so <?style xml?> stops after its target. Proved for texts without \"xml\".",
"C129": "Refuted: white space before the line break makes match_whitespace skip the line break, so the splice goes on in the next line. Proved for splices without white space before the line break and whose expressions are on one line.",
"C130": "Refuted: after the arguments of a call without a block, consume_blank skips the line break. Proved for calls with a block.",
"C131": "Refuted: without a later line break the splice is not recognised, and nothing after it is highlighted (for every such source). Proved with a line break.",
"C132": "Refuted: a comment opened right at the end of its line (any rest) makes expect_html_comment emit an empty token. Proved for every document whose comment openers are followed by text other than # * _ ] on their line.",
"C137": "The stack of indentations holds 64 levels, but every key and every sequence item pushes one level and entries on the same level never pop it, so that any document with more than 64 keys or items fails an assertion (C137_yaml_refuted). The bound in C137_yaml_partial counts candidates for entries in the whole text.",
"C134": "The text of a heading is not highlighted as heading text in the cases shown by the refutation; the partial theorem says what holds.",
"C58": "Proved: exact tokens for every JSON document (any nesting, keys, escapes, numbers, and comments where they are allowed) in which null, true and false are not direct elements of arrays. Refuted in general: after null, true or false in an array, the highlighter marks the next character (for example the closing bracket) as an error.",
"C135": "Refuted: an escaped asterisk inside emphasis ends it. The partial theorem gives the exact tokens for every other escape.",
"C136": "Refuted: a destination ends at its first closing parenthesis. The partial theorems cover destinations without closing parentheses and destinations in angle brackets.",
"C40": "Refuted in general: for both languages and every continuation, a string literal that begins with an escape \\x directly before its closing quote fails (the escape takes the quote and the count of remaining units wraps), and so does valid JSX whose braces hold a template literal with closing braces. Proved: every TypeScript source whose escape sequences do not take a quote or newline is highlighted, and every such JavaScript source without JSX tags. Missing: JavaScript sources with JSX tags.",
"C138": "Full statement: for every source in every language. That is false of the code (C138_refuted: a TypeScript string literal with an escape sequence that takes the closing quote). Proved for all sources in 15 languages, and for the other languages under the condition that S_Languages.v gives (valid UTF-8 for C, C++ and CSS, and so on). Lua is not in the table of the model because its highlighter writes the buffer itself; it has its own theorem C106. HTML documents with scripts are not covered.",
"C139": "Exact tokens for documents with ASCII names. Left out: white space in end tags (C141), references at the end of an attribute value or next to each other and references in unquoted values (C140), malformed markup. Script and style elements: C216.",
"C140": "Refuted for every value that ends with a reference (the closing quote is skipped, and everything up to the next quote becomes a string) and for adjacent references (the second one is plain). Proved when some text follows each reference.",
"C141": "Refuted for every non-empty white space: the last white space character is highlighted instead of the >, and the > becomes text. Proved without white space.",
"C142": "Proved for the sources in S_Languages.accepted (every language but Lua, with the per-language conditions), for paths shorter than BUFSIZ without NUL, and for an output that accepts everything.",
"C143": "Refuted: when highlighting fails (for example TypeScript '\\x' with debug assertions) the message is printed but the status is 0, and the output file is left incomplete. Proved: the failures before highlighting exit with 1 and one message and touch no file, and are the only way to a nonzero status.",
"C144": "Refuted: the result of fwrite is ignored, so for every accepted file and a full disk the status is 0 and there is no message. Proved: what is written is the longest prefix that fits.",
"C145": "Exact tokens for every sequence of lexemes of S_LangCppLexemes.v. Identifiers are ASCII; C147-C150 and C62 describe texts that the lexemes leave out because the highlighters get them wrong.",
"C146": "Refuted for every keyword except operator: the word is highlighted as an error. Proved when white space separates them.",
"C147": "Refuted: the first word of the next line becomes the name of the directive. Proved when the next line begins with neither a word nor white space.",
"C148": "Refuted: #x at the beginning of the continued line is taken for a directive named x. Proved on the same line.",
"C149": "Refuted for f and F after hexadecimal numbers, which are taken for digits of the exponent. Proved for decimal numbers, and for l and L.",
"C150": "Refuted: the word before an apostrophe becomes an error and the rest of the message a string. Proved for messages of names separated by blanks.",
"C151": "All of JavaScript and TypeScript but JSX and non-ASCII names. The specification excludes what C152-C160 refute.",
"C152": "Refuted: a leading underscore is taken for a malformed number, so _id is an error and a name. Proved for names without a leading underscore.",
"C153": "Refuted: after a comment, a slash starts a regular expression even if the comment follows an operand. Proved with only white space between.",
"C154": "Refuted: a slash in a class, as in /[/]/, ends the literal. Proved for literals without unescaped slashes.",
"C155": "Refuted: for CR LF, the escape covers only CR and LF is left out of the tokens of the string. Proved for LF.",
"C156": "Refuted: the fraction after 0. is read with base 8, so 0.19 is split; 1. at the end of the source is an error. Proved for all other literals (js_number).",
"C157": "Refuted: ?. is taken even before a digit. Proved with white space between.",
"C158": "Refuted in JavaScript: <b> is taken for a JSX tag. Proved for TypeScript.",
"C159": "Refuted: after else and do, a slash is an operator. Proved for the keywords return, throw, case, delete, void, typeof, yield, await, instanceof, in, new.",
"C160": "Refuted: white space before the hashbang is accepted. Proved: at the start of the source it is a comment.",
"C161": "Signed numbers and hexadecimal constants with a kind letter are not lexemes here: C77 refutes them.",
"C162": "Scripts are described with roles: plain text is left out where C163-C172 show that the highlighter is wrong (quoted command names, text after expansions in braces or command substitutions in the same word or line, separators followed by blanks, here documents, arithmetic, number signs inside words).",
"C163": "Refuted: the words are highlighted as commands, for every name in single quotes and every escaped name.",
"C164": "Refuted: every plain word after the expansion in the line is highlighted as interpolation.",
"C165": "Refuted: the text is highlighted as a command, for all words.",
"C166": "Proved for text that does not begin with a dash; text that does is highlighted as an option.",
"C167": "Only parameter 0 is; the others are highlighted as plain strings.",
"C168": "Refuted: every expression of one word is highlighted as a command.",
"C169": "Refuted: the rest of the line is highlighted as a comment.",
"C170": "Refuted: the text and the closing delimiter are highlighted as commands.",
"C171": "Refuted: the next word is highlighted as a string or an option.",
"C172": "Refuted: the assignment is highlighted as the command and the command as an argument.",
"C173": "Exact tokens for every sequence of lexemes of S_LangCssLexemes.v. C174-C181 describe texts that the lexemes leave out because the highlighter gets them wrong.",
"C174": "Refuted; the first nested selector is highlighted as a property and those after it as values, for all names. The braces are still matched.",
"C175": "Refuted; the combinator is an error token.",
"C176": "Refuted; such names are highlighted as values.",
"C177": "Refuted; the declaration is highlighted as a selector.",
"C178": "Refuted; the word is split after its first nine letters.",
"C179": "Refuted; the text after the semicolon is highlighted as a property.",
"C180": "Refuted; non-ASCII letters never get a highlight.",
"C181": "Refuted for CR LF: the string ends after the CR, and its closing quote starts another string. LF, CR and form feed alone work (C173).",
"C182": "Exact tokens for every document of S_LangYamlLexemes.v. C137 describes documents with more than 64 entries, which fail an assertion.",
"C183": "Refuted: the rest of the line after a quoted value is skipped, so the comment gets no token. C182 gives the comments that do get tokens.",
"C184": "Refuted: the scalar ends at the comma, and the comma and all text after it get no token.",
"C185": "Refuted: the constant gets its own token, and the rest of the scalar gets none.",
"C186": "Refuted: the space gets the token of the colon, and the colon starts the token of the value.",
"C187": "Refuted: the opening brace belongs to the token of the key, and the closing brace gets no token.",
"C188": "Refuted: the search for the colon treats the apostrophe as a quote, so the key is a plain string and the colon and value get no token.",
"C189": "Refuted: the token of the scalar ends at the end of the line.",
"C190": "Refuted: the rest of the line after the marker gets no token.",
"C191": "C191_tex_every_source says that the lexemes cover every source.",
"C192": "Refuted: there are no comments; the percent sign is an operator and the rest of the line is highlighted as TeX.",
"C193": "Refuted for characters outside ASCII: the token ends inside the character, after its first byte. It holds for ASCII.",
"C194": "Stated for the tokens the user gets, because names and numbers are given character by character and joined by the buffer. C194_ebnf_every_text: every text can be divided into such parts, so the tokens of every text are covered, malformed ones included.",
"C195": "Refuted: a comment ends at the first end symbol, and what follows is highlighted as part of the grammar.",
"C196": "For documents whose first entry has a block scalar whose text begins in the next line; the entries after it are those of C182, the first of them not indented.",
"C197": "Refuted: the code looks for the comment only directly after the indicators, where YAML requires a space first. C197_yaml_header_comment_tokens gives the exact tokens: the comment has none.",
"C198": "Refuted: in the order indentation, chomping the second indicator has no token. C198_yaml_indicators_tokens gives the exact tokens for both orders.",
"C199": "For documents of one line; an alias is the whole value.",
"C200": "Refuted: without the coalescing flag every character of the name is a token of its own. C200_yaml_tag_tokens gives the exact tokens for the four forms of tags.",
"C201": "Refuted: a number with a space after it is a string. C201_yaml_number_tokens gives the exact tokens.",
"C202": "Refuted: the scalar ends there, and the rest is highlighted as a document of its own. C202_yaml_white_line_tokens gives the exact tokens when a number follows.",
"C203": "Tokens: proved for every source. HTML: refuted in debug builds (C203_lua_html_refuted, with the exact result for every program that ends with an empty comment in C203_lua_html_debug); C203_lua_html_partial covers release builds without restriction and debug builds when no token is empty.",
"C204": "C204_cli_lua_partial: release builds. C204_cli_lua_debug gives the exact effects in debug builds for programs that end with an empty comment. C204_cli_others: for the other languages the tool is the one of C142 to C144.",
"C205": "C205_history_refuted and C205_dangling: every state with tokens that is converted to HTML and then to tokens has undefined behavior. C205_history_partial: every other conversion gives the same event as after the setters alone.",
"C207": "C207_copy_refuted; C207_copy_overflow and C207_copy_packed give the effect for every pair of sizes; C207_copy_partial is the correct part.",
"C208": "C208_call_partial, C208_functions and C208_empty prove the behaviour of calls. Two documented or expected guards are missing in the code and refuted: temporaries of callable objects are accepted although the comment at line 127 says they are not (C208_dangling: every later call is undefined), and a null function pointer gives a reference that claims to have a value. C208_undefined proves that these are the only two ways to an undefined call.",
"C209": "C209_statuses_partial: exactly five statuses can be reported, so BAD_CODE is not, as documented. BAD_TEXT is not either: C209_bad_text_refuted, since every highlighter decodes with replacement characters and none throws Unicode_Error. BAD_ALLOC is outside the model (no allocation failures inside highlighters). All languages of highlight_functions, that is all but Lua, whose table entry is modelled separately (C203).",
"C210": "Proved for all histories of S_Session actions whose calls are defined (the session has a result). A success leaves the text of an earlier failure in place; the theorem says so exactly.",
"C211": "Proved for all valid texts; C211_malformed covers malformed ones for both functions (the answer is no or Unicode_Error).",
"C212": "Refuted: the controls U+0080 to U+009F are accepted, since only ASCII controls are excluded (is_html_control exists but is not used). C212_attribute_names_partial gives the exact set of accepted names and proves the statement for texts without these controls.",
"C213": "C213_unknown_flags holds for any table of highlighters; C213_strict for the real table (all languages but Lua, which is modelled separately and does not read the flag); C213_strict_matters shows that the three exceptions are needed.",
"C214": "Refuted: a member named like a keyword, as in x.delete/x, is highlighted as a keyword and the slash starts a regular expression. Proved for members whose names are not keywords; the exact wrong tokens are proved for every keyword that expects an expression and every regular expression text.",
"C215": "Refuted: the form feed, a gap separator in ISO 14977, is highlighted as an error; this is proved for every run of form feeds before every grammar. Proved for the other separators.",
"C216": "Refuted: after \"</scripts\" in a script, which does not end it, the end of the script is computed wrongly. Proved for documents of the lexemes of C139 and scripts and style sheets without an end tag or the beginning of one; other end tags and \"</\" may occur in them."
}