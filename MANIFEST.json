{"claims": [
{"property": "C01", "status": "proved", "theorems": ["C01_get_lang_exact", "C01_get_lang_unlisted"], "note": ""},
{"property": "C02", "status": "proved", "theorems": ["C02_path_without_dot", "C02_path_last_extension"], "note": ""},
{"property": "C03", "status": "partial", "theorems": ["C03_path_u8_agrees_refuted", "C03_path_u8_never_detects"], "note": "The code violates the property: the char8_t overload looks up the whole path as a language name. Refuted with a witness, and shown to fail on every path with an extension."},
{"property": "C04", "status": "proved", "theorems": ["C04_display_name_total"], "note": ""},
{"property": "C05", "status": "partial", "theorems": ["C05_tokens_validation_partial", "C05_lang_count_refuted", "C05_lang_wraparound_refuted", "C05_valid_state_runs"], "note": "All causes proved except two invalid language values which the code accepts: ULIGHT_LANG_COUNT itself and values >= 2^31 (both refuted with witnesses)."},
{"property": "C06", "status": "proved", "theorems": ["C06_html_validation", "C06_text_needs_valid_state"], "note": ""},
{"property": "C07", "status": "proved", "theorems": ["C07_buffer_lossless"], "note": ""},
{"property": "C08", "status": "proved", "theorems": ["C08_html_independent_of_buffers"], "note": ""},
{"property": "C09", "status": "proved", "theorems": ["C09_html_round_trip", "C09_api_round_trip"], "note": ""},
{"property": "C10", "status": "proved", "theorems": ["C10_html_no_injection"], "note": ""},
{"property": "C11", "status": "proved", "theorems": ["C11_emission_well_formed"], "note": ""},
{"property": "C12", "status": "proved", "theorems": ["C12_coalescing_keeps_highlighting"], "note": ""},
{"property": "C13", "status": "proved", "theorems": ["C13_tokens_independent_of_capacity"], "note": ""},
{"property": "C14", "status": "partial", "theorems": ["C14_full_coalescing_partial", "C14_nested_refuted"], "note": "Proved for highlighters without nested languages, for every capacity; refuted across the start of a nested span."},
{"property": "C15", "status": "proved", "theorems": ["C15_nested_translation"], "note": ""},
{"property": "C16", "status": "proved", "theorems": ["C16_encode_decode"], "note": ""},
{"property": "C17", "status": "proved", "theorems": ["C17_decoder_exact", "C17_table_is_encodings"], "note": ""},
{"property": "C18", "status": "proved", "theorems": ["C18_validity"], "note": ""},
{"property": "C19", "status": "proved", "theorems": ["C19_replacement", "C19_replacement_array"], "note": ""},
{"property": "C20", "status": "proved", "theorems": ["C20_search", "C20_scan_unique"], "note": ""},
{"property": "C21", "status": "proved", "theorems": ["C21_set_algebra", "C21_predefined_sets"], "note": ""},
{"property": "C22", "status": "partial", "theorems": ["C22_range_refuted", "C22_range_partial"], "note": "Proved for all ranges except range_before of the largest value, which is refuted."},
{"property": "C23", "status": "proved", "theorems": ["C23_xid"], "note": ""},
{"property": "C24", "status": "proved", "theorems": ["C24_ignore_case", "C24_compare", "C24_order"], "note": ""},
{"property": "C25", "status": "proved", "theorems": ["C25_edit_script"], "note": "For every pair of sequences with fewer than 2^64-1 lines in total (the table then also fits, see DESIGN.md)."},
{"property": "C26", "status": "proved", "theorems": ["C26_shortest"], "note": "Against every competing script accepted by the independent relation transforms."},
{"property": "C27", "status": "proved", "theorems": ["C27_deletions_first"], "note": ""},
{"property": "C28", "status": "proved", "theorems": ["C28_split_lines", "C28_unique"], "note": "The pieces are determined by the statement (C28_unique)."},
{"property": "C29", "status": "partial", "theorems": ["C29_print_diff_partial", "C29_print_diff_refuted"], "note": "Proved for every context size below 2^63. From 2^63 on twice the context size wraps around and hunks overlap (C29_print_diff_refuted). Tabs, carriage returns and vertical tabs are shown as escapes; colours are not covered."},
{"property": "C30", "status": "proved", "theorems": ["C30_json_number"], "note": ""},
{"property": "C31", "status": "proved", "theorems": ["C31_parse_sound", "C31_parse_complete"], "note": ""},
{"property": "C32", "status": "partial", "theorems": ["C32_whole_source_refuted", "C32_form_feed_refuted", "C32_accepts_json_prefix_partial"], "note": "Refuted: trailing text after the value is accepted, and form feeds count as whitespace. Proved: what is accepted starts with a JSON text."},
{"property": "C33", "status": "partial", "theorems": ["C33_silent_failure_refuted", "C33_unreachable_refuted", "C33_failed_parse_partial"], "note": "Refuted: a parse can fail without an error call (missing value, unknown keyword) and an object key that is not a string runs into an unreachable-code assertion. Proved: these are the only cases."},
{"property": "C34", "status": "partial", "theorems": ["C34_block_comments_refuted", "C34_line_comments_partial", "C34_comment_calls_partial"], "note": "Refuted for block comments: they are reported after having been consumed, with the text and position of what follows. Proved for line comments, and the number and order of all comment calls."},
{"property": "C35", "status": "proved", "theorems": ["C35_json_highlight", "C35_jsonc_highlight"], "note": ""},
{"property": "C36", "status": "proved", "theorems": ["C36_txt", "C36_tex"], "note": ""},
{"property": "C37", "status": "proved", "theorems": ["C37_diff"], "note": ""},
{"property": "C38", "status": "proved", "theorems": ["C38_ebnf"], "note": ""},
{"property": "C39", "status": "partial", "theorems": ["C39_html_refuted", "C39_html_partial"], "note": "The code violates the property: a character reference at the very end of an attribute value that ends the source, and an incomplete closing script/style tag, make it fail (refuted with witnesses for any nested highlighters). Proved for every source with an acceptable end, given that the nested highlighters work on the text of the script and style elements; C138 combines this with the CSS highlighter."},
{"property": "C40", "status": "partial", "theorems": ["C40_typescript_partial", "C40_javascript_partial", "C40_refuted", "C40_jsx_refuted"], "note": "Refuted in general: for both languages and every continuation, a string literal that begins with an escape \\x directly before its closing quote fails (the escape takes the quote and the count of remaining units wraps), and so does valid JSX whose braces hold a template literal with closing braces. Proved: every TypeScript source whose escape sequences do not take a quote or newline is highlighted, and every such JavaScript source without JSX tags. Missing: JavaScript sources with JSX tags."},
{"property": "C41", "status": "partial", "theorems": ["C41_braced_refuted", "C41_escape_partial"], "note": "Refuted for braced kinds: {} accepted as nonempty and unterminated braces accepted. Proved for all kinds: bounds, and every well-formed escape is accepted. The exact claim for all other kinds is C55."},
{"property": "C42", "status": "partial", "theorems": ["C42_separated_refuted", "C42_separated_partial"], "note": "Refuted: a trailing separator followed by other text is not flagged, an empty string is. Proved: exact match length, and the exact condition of the flag."},
{"property": "C43", "status": "proved", "theorems": ["C43_highlight", "C43_partition", "C43_parts_meaning"], "note": ""},
{"property": "C44", "status": "partial", "theorems": ["C44_suffix_refuted", "C44_suffix_partial"], "note": "Refuted: without separator every unit is admitted; separators are rejected. Proved: with a separator the run is exact and unseparated digits of the base are accepted."},
{"property": "C45", "status": "partial", "theorems": ["C45_blank_refuted", "C45_blank_partial"], "note": "Refuted: at the end of the text the span can end in other white space. Everything else proved."},
{"property": "C46", "status": "partial", "theorems": ["C46_uinteger_partial", "C46_integer_partial", "C46_literal_refuted"], "note": "Refuted: trailing text is ignored and signed values wrap. Proved: every literal that fits gives its value, and unsigned overflow gives nothing."},
{"property": "C47", "status": "partial", "theorems": ["C47_type_names_partial", "C47_short_names_distinct_refuted"], "note": "Everything proved except distinctness of one pair of short names, which is refuted."},
{"property": "C48", "status": "partial", "theorems": ["C48_setters_partial", "C48_attr_setter_refuted"], "note": "Proved for all setters except set_html_attr_name, which is refuted."},
{"property": "C49", "status": "partial", "theorems": ["C49_closed_once_partial", "C49_closed_once_refuted"], "note": "Proved for histories that never call close() on, or move-assign to, a handle that holds a file. Refuted in general: close() does not reset the pointer, so move assignment over an open handle, and close() followed by destruction, close the same FILE twice."},
{"property": "C50", "status": "partial", "theorems": ["C50_new_state_partial", "C50_allocation_failure_refuted"], "note": "The code violates the property: ulight_new writes through the null pointer when allocation fails."},
{"property": "C51", "status": "partial", "theorems": ["C51_replacement_huge_refuted", "C51_replacement_agrees_partial"], "note": "The code violates the property for strings of 2^31 bytes and more (int truncation of the size); proved for shorter ones."},
{"property": "C52", "status": "proved", "theorems": ["C52_bit_compress_agrees"], "note": ""},
{"property": "C53", "status": "proved", "theorems": ["C53_iteration"], "note": ""},
{"property": "C54", "status": "proved", "theorems": ["C54_scan", "C54_head_tail", "C54_delimiter"], "note": ""},
{"property": "C55", "status": "proved", "theorems": ["C55_escape_exact"], "note": ""},
{"property": "C56", "status": "proved", "theorems": ["C56_line", "C56_enclosed"], "note": ""},
{"property": "C57", "status": "partial", "theorems": ["C57_number_value_refuted", "C57_number_value_partial"], "note": "Refuted: the conversion runs on into the following text (0x1). Proved for all JSON texts."},
{"property": "C58", "status": "partial", "theorems": ["C58_word_in_array_refuted", "C58_json_partial", "C58_json_without_comments_partial", "C58_jsonc_partial"], "note": "Proved: exact tokens for every JSON document (any nesting, keys, escapes, numbers, and comments where they are allowed) in which null, true and false are not direct elements of arrays. Refuted in general: after null, true or false in an array, the highlighter marks the next character (for example the closing bracket) as an error."},
{"property": "C59", "status": "proved", "theorems": ["C59_reference"], "note": ""},
{"property": "C60", "status": "proved", "theorems": ["C60_comment"], "note": ""},
{"property": "C61", "status": "partial", "theorems": ["C61_cpp_refuted", "C61_cpp_partial", "C61_cpp_utf8_partial"], "note": "The code violates the property: an unterminated string literal ending in a truncated UTF-8 sequence yields a token beyond the end of the source (refuted with a witness). Proved for every byte sequence in which no lead byte announces a sequence past the end, hence for all valid UTF-8."},
{"property": "C62", "status": "partial", "theorems": ["C62_operators_refuted", "C62_operators_partial"], "note": "Refuted: the right brace digraph is answered with the right bracket digraph, and in C the C++-only rule for left angle brackets is applied. Proved for all other texts."},
{"property": "C63", "status": "proved", "theorems": ["C63_cpp_names"], "note": ""},
{"property": "C64", "status": "proved", "theorems": ["C64_line_comment", "C64_block_comment"], "note": ""},
{"property": "C65", "status": "proved", "theorems": ["C65_identifier"], "note": ""},
{"property": "C66", "status": "proved", "theorems": ["C66_raw_string"], "note": ""},
{"property": "C67", "status": "partial", "theorems": ["C67_css_refuted", "C67_css_stuck", "C67_css_partial"], "note": "Refuted for text that is not UTF-8: a continuation byte makes the loop run forever (C67_css_stuck shows that no such byte is ever consumed), a truncated sequence fails an assertion, an escaped one throws. Proved for every valid UTF-8 text."},
{"property": "C68", "status": "proved", "theorems": ["C68_css_number"], "note": ""},
{"property": "C69", "status": "partial", "theorems": ["C69_url_refuted", "C69_url_partial"], "note": "Refuted: url( is never classified as a URL (the code compares the text after the identifier). Proved: every identifier is classified as a function iff a parenthesis follows, else as an identifier."},
{"property": "C70", "status": "proved", "theorems": ["C70_text_diff"], "note": "Same text conventions as C29."},
{"property": "C71", "status": "proved", "theorems": ["C71_no_leak"], "note": "Every history."},
{"property": "C72", "status": "partial", "theorems": ["C72_file_bytes_partial", "C72_file_bytes_refuted"], "note": "Proved for paths without NUL that are shorter than BUFSIZ. Refuted otherwise: a path of exactly BUFSIZ bytes is passed to fopen without a terminator, and a path with a NUL opens the file named by the part before it. fread is taken to read less than asked for only at the end of the file or on an error."},
{"property": "C73", "status": "proved", "theorems": ["C73_utf8_file"], "note": "See C72 for the assumptions about fread."},
{"property": "C74", "status": "proved", "theorems": ["C74_utf32_file"], "note": "See C72 for the assumptions about fread."},
{"property": "C75", "status": "proved", "theorems": ["C75_llvm"], "note": ""},
{"property": "C76", "status": "proved", "theorems": ["C76_llvm_word"], "note": ""},
{"property": "C77", "status": "partial", "theorems": ["C77_llvm_number_refuted", "C77_llvm_hex_refuted", "C77_llvm_number_partial"], "note": "Refuted as stated: a leading minus is taken as a keyword character, so -5 is highlighted as a keyword; and the prefix 0x is tried before 0xK, 0xL, 0xM, 0xR, so 0xK4000 is an error token. Proved for decimal digits without sign and for the prefixes 0x, s0x, u0x. Fractions and exponents are not covered by the proved part."},
{"property": "C78", "status": "proved", "theorems": ["C78_bash"], "note": ""},
{"property": "C79", "status": "proved", "theorems": ["C79_bash_lines"], "note": ""},
{"property": "C80", "status": "partial", "theorems": ["C80_bash_separator_refuted", "C80_bash_separator_partial"], "note": "Refuted as stated: no separator resets the state, so the second word of the text ls; rm (with a blank) is highlighted as an argument. Proved when no blank follows the separator."},
{"property": "C81", "status": "partial", "theorems": ["C81_bash_expansion_refuted", "C81_bash_expansion_partial"], "note": "Refuted as stated: inside the braces a # starts a comment, so ${#x} is highlighted as a comment to the end of the line. Proved for ${name}."},
{"property": "C82", "status": "proved", "theorems": ["C82_python"], "note": ""},
{"property": "C83", "status": "proved", "theorems": ["C83_python_lexemes"], "note": ""},
{"property": "C84", "status": "partial", "theorems": ["C84_prefixes_refuted", "C84_prefixes_partial"], "note": "Refuted: the table has no entry for u and Rf, so such literals get an error token. Partial theorem: every other prefix in every case, for every literal."},
{"property": "C85", "status": "partial", "theorems": ["C85_numbers_refuted", "C85_end_refuted", "C85_numbers_partial"], "note": "Refuted twice: .5 is an error token, and 1. is an error token at the end of the text only. Partial theorem: every number that has an integer part and does not end with the point."},
{"property": "C86", "status": "partial", "theorems": ["C86_octal_refuted", "C86_octal_partial"], "note": "Refuted: the code asks for exactly three digits, so the escape for the null character is an error. Partial theorem: three digits."},
{"property": "C87", "status": "proved", "theorems": ["C87_java"], "note": ""},
{"property": "C88", "status": "proved", "theorems": ["C88_java_lexemes"], "note": ""},
{"property": "C89", "status": "partial", "theorems": ["C89_identifiers_refuted", "C89_identifiers_partial"], "note": "Refuted: dollar signs are errors, and a leading underscore is an error token because the number matcher takes the digit separator. Partial theorem: all identifiers without dollar sign and leading underscore."},
{"property": "C90", "status": "partial", "theorems": ["C90_characters_refuted", "C90_characters_partial"], "note": "Refuted with U+00E9: only one code unit becomes string. Partial theorem: ASCII characters and all escape sequences."},
{"property": "C91", "status": "partial", "theorems": ["C91_numbers_refuted", "C91_numbers_partial"], "note": "Refuted: 1. is an error at the end of the text. Partial theorem: all numbers in every base except those with a point and no fraction."},
{"property": "C92", "status": "partial", "theorems": ["C92_interface_refuted", "C92_interface_partial"], "note": "Refuted: @interface is highlighted as an annotation unless there is white space after the @. Partial theorem: every other dotted name."},
{"property": "C93", "status": "proved", "theorems": ["C93_kotlin"], "note": ""},
{"property": "C94", "status": "proved", "theorems": ["C94_kotlin_lexemes"], "note": ""},
{"property": "C95", "status": "partial", "theorems": ["C95_kotlin_words_refuted", "C95_kotlin_words_partial"], "note": "The full statement is refuted: identifiers that begin with an underscore are highlighted as errors first, and \"super\" is a name because the table misspells it. The partial theorem covers every other identifier and keyword."},
{"property": "C96", "status": "partial", "theorems": ["C96_kotlin_operators_refuted", "C96_kotlin_operators_partial"], "note": "The full statement is refuted by \"!==\" (two tokens) and by \"!isOpen\" (taken as the keyword \"!is\" and a name). The partial theorem covers every operator that the matcher knows."},
{"property": "C97", "status": "partial", "theorems": ["C97_kotlin_integers_refuted", "C97_kotlin_integers_partial"], "note": "The full statement is refuted by \"1UL\": the suffix list tries \"U\" first, so \"L\" becomes a name. The partial theorem covers the suffixes of one letter."},
{"property": "C98", "status": "partial", "theorems": ["C98_kotlin_dollar_refuted", "C98_kotlin_dollar_partial"], "note": "The full statement is refuted by a lone dollar sign, which is highlighted as an error. The partial theorem covers text without dollar signs."},
{"property": "C99", "status": "partial", "theorems": ["C99_rust_refuted", "C99_rust_partial"], "note": "Refuted for debug builds: the source 'ab' (with quotes) fails a debug assertion. Partial: for release builds, every byte sequence succeeds and every code point except white space is highlighted."},
{"property": "C100", "status": "proved", "theorems": ["C100_rust_lexemes"], "note": ""},
{"property": "C101", "status": "partial", "theorems": ["C101_rust_identifiers_refuted", "C101_rust_identifiers_partial"], "note": "Refuted: `_x` is read as a number first and `r#match` as the name r followed by an error. Partial: all identifiers without a leading underscore."},
{"property": "C102", "status": "partial", "theorems": ["C102_rust_numbers_refuted", "C102_rust_numbers_partial"], "note": "Refuted: `1__0` is an error as a whole, and `0..9`, `1.max`, `t.0` are not split as in Rust. Partial: all numbers of the specification's grammar."},
{"property": "C103", "status": "partial", "theorems": ["C103_rust_raw_strings_refuted", "C103_rust_raw_strings_partial"], "note": "Refuted for cr literals, which are read with escapes and without hashes. Partial: r and br with any number of hashes and any contents."},
{"property": "C104", "status": "partial", "theorems": ["C104_rust_comments_refuted", "C104_rust_comments_partial"], "note": "Refuted: comments do not nest. Partial: comments without nested ones."},
{"property": "C105", "status": "partial", "theorems": ["C105_rust_punctuation_refuted", "C105_rust_punctuation_partial"], "note": "Refuted: `#`, `$` and `~` are errors. Partial: all symbols of the table."},
{"property": "C106", "status": "partial", "theorems": ["C106_lua_refuted", "C106_lua_partial"], "note": "Refuted: the source \"--\" yields an empty comment token (likewise empty long strings and block comments), since Lua's own emit function does not check for empty tokens. Proved: everything else, and that empty tokens are comment or string tokens only."},
{"property": "C107", "status": "proved", "theorems": ["C107_lua_lexemes"], "note": ""},
{"property": "C108", "status": "partial", "theorems": ["C108_lua_strings_refuted", "C108_lua_strings_partial"], "note": "Refuted: a line break after \\z, and a backslash before a two-character line break (CR LF), end the string token early. Proved for all other contents the manual allows."},
{"property": "C109", "status": "partial", "theorems": ["C109_lua_attributes_refuted", "C109_lua_attributes_partial"], "note": "Refuted: <close> is highlighted as operators and a name. Proved for <const>."},
{"property": "C110", "status": "proved", "theorems": ["C110_nasm"], "note": ""},
{"property": "C111", "status": "proved", "theorems": ["C111_nasm_lexemes"], "note": ""},
{"property": "C112", "status": "partial", "theorems": ["C112_nasm_suffixes_refuted", "C112_nasm_suffixes_partial"], "note": "Refuted: separators in suffixed numbers (0f_0fh) give an error, because the separator counts as a digit of too large a value. Proved without separators."},
{"property": "C113", "status": "partial", "theorems": ["C113_nasm_prefixes_refuted", "C113_nasm_prefixes_partial"], "note": "Refuted: a hexadecimal number such as 0x1d that ends in b, B, d or D is an error, because that digit is read as a suffix. Proved for all other last digits."},
{"property": "C114", "status": "partial", "theorems": ["C114_nasm_pseudo_refuted", "C114_nasm_pseudo_partial"], "note": "Refuted: the table of pseudo-instructions is only consulted for numbers, so they are highlighted as plain instructions. Proved: they are highlighted as instructions."},
{"property": "C115", "status": "partial", "theorems": ["C115_nasm_registers_refuted", "C115_nasm_registers_partial"], "note": "Refuted: xmm30, ymm30 and zmm30 are missing from the table. Proved for all others."},
{"property": "C116", "status": "partial", "theorems": ["C116_nasm_backquote_refuted", "C116_nasm_backquote_partial"], "note": "Refuted: without closing quote before the end of the source the contents are highlighted as code. Proved if the quote or a line break follows."},
{"property": "C117", "status": "partial", "theorems": ["C117_nasm_names_refuted", "C117_nasm_names_partial"], "note": "Refuted: names of hexadecimal letters that end in h or x (each) are highlighted as numbers. Proved for all others."},
{"property": "C118", "status": "partial", "theorems": ["C118_nasm_octal_refuted", "C118_nasm_octal_partial"], "note": "Refuted: a single digit (\\0) is highlighted as an error. Proved for two and three digits."},
{"property": "C119", "status": "partial", "theorems": ["C119_nasm_operators_refuted", "C119_nasm_operators_partial"], "note": "Refuted: the hyphen counts as part of the name (rsp-8 is one name). Proved for all operators other than those that begin with -, ? and :."},
{"property": "C120", "status": "proved", "theorems": ["C120_xml"], "note": ""},
{"property": "C121", "status": "proved", "theorems": ["C121_xml_document"], "note": "Nesting of elements is not required. Names are UTF-8 names of the specification without hyphen (C122); references have ASCII alphanumeric names (C125); instructions as in C126."},
{"property": "C122", "status": "partial", "theorems": ["C122_xml_names_partial", "C122_xml_names_refuted"], "note": "Refuted: '-' is missing from the set of name characters, so <my-tag> gets an error token. Proved for names without hyphen and below U+EFFF0."},
{"property": "C123", "status": "partial", "theorems": ["C123_xml_declaration_partial", "C123_xml_declaration_refuted"], "note": "Refuted: the version's opening quote is not expected, so the version and the end of the declaration stay plain text, and a document type after it is taken for a tag with errors. Proved: what follows is highlighted exactly when it is content without document type."},
{"property": "C124", "status": "partial", "theorems": ["C124_xml_doctype_partial", "C124_xml_doctype_refuted"], "note": "Refuted: without internal subset, the text up to the next white space is skipped (<!DOCTYPE note><note/> loses the document), and after SYSTEM or PUBLIC the closing '>' stays plain. Proved for an internal subset of comments and processing instructions."},
{"property": "C125", "status": "partial", "theorems": ["C125_xml_entities_partial", "C125_xml_entities_refuted"], "note": "Refuted: HTML's rule for named references is used, so names with '.', ':', '_' or non-ASCII characters are errors. Proved for ASCII alphanumeric names."},
{"property": "C126", "status": "partial", "theorems": ["C126_xml_instructions_partial", "C126_xml_instructions_refuted"], "note": "Refuted: the target is checked against \"xml\" at the wrong place (the text after it), so <?style xml?> stops after its target. Proved for texts without \"xml\"."},
{"property": "C127", "status": "proved", "theorems": ["C127_cowel"], "note": ""},
{"property": "C128", "status": "proved", "theorems": ["C128_cowel_document"], "note": ""},
{"property": "C129", "status": "partial", "theorems": ["C129_cowel_line_splice_ends_partial", "C129_cowel_line_splice_ends_refuted"], "note": "Refuted: white space before the line break makes match_whitespace skip the line break, so the splice goes on in the next line. Proved for splices without white space before the line break and whose expressions are on one line."},
{"property": "C130", "status": "partial", "theorems": ["C130_cowel_line_call_partial", "C130_cowel_line_call_refuted"], "note": "Refuted: after the arguments of a call without a block, consume_blank skips the line break. Proved for calls with a block."},
{"property": "C131", "status": "partial", "theorems": ["C131_cowel_last_line_refuted", "C131_cowel_last_line_partial"], "note": "Refuted: without a later line break the splice is not recognised, and nothing after it is highlighted (for every such source). Proved with a line break."},
{"property": "C132", "status": "partial", "theorems": ["C132_markdown_partial", "C132_markdown_refuted", "C132_markdown_comment_line_refuted"], "note": "Refuted: a comment opened right at the end of its line (any rest) makes expect_html_comment emit an empty token. Proved for every document whose comment openers are followed by text other than # * _ ] on their line."},
{"property": "C133", "status": "proved", "theorems": ["C133_markdown_document"], "note": ""},
{"property": "C134", "status": "partial", "theorems": ["C134_markdown_heading_text_refuted", "C134_markdown_heading_text_partial"], "note": "The text of a heading is not highlighted as heading text in the cases shown by the refutation; the partial theorem says what holds."},
{"property": "C135", "status": "partial", "theorems": ["C135_markdown_escaped_delimiter_refuted", "C135_markdown_escaped_delimiter_partial"], "note": "Refuted: an escaped asterisk inside emphasis ends it. The partial theorem gives the exact tokens for every other escape."},
{"property": "C136", "status": "partial", "theorems": ["C136_markdown_link_parentheses_refuted", "C136_markdown_link_parentheses_partial"], "note": "Refuted: a destination ends at its first closing parenthesis. The partial theorems cover destinations without closing parentheses and destinations in angle brackets."},
{"property": "C137", "status": "partial", "theorems": ["C137_yaml_partial", "C137_yaml_refuted"], "note": "The stack of indentations holds 64 levels, but every key and every sequence item pushes one level and entries on the same level never pop it, so that any document with more than 64 keys or items fails an assertion (C137_yaml_refuted). The bound in C137_yaml_partial counts candidates for entries in the whole text."},
{"property": "C138", "status": "partial", "theorems": ["C138_source_to_tokens_partial", "C138_source_to_html_partial", "C138_refuted"], "note": "Full statement: for every source in every language. That is false of the code (C138_refuted: a TypeScript string literal with an escape sequence that takes the closing quote). Proved for all sources in 15 languages, and for the other languages under the condition that S_Languages.v gives (valid UTF-8 for C, C++ and CSS, and so on). Lua is not in the table of the model because its highlighter writes the buffer itself; it has its own theorem C106. HTML documents with scripts are not covered."},
{"property": "C139", "status": "partial", "theorems": ["C139_html_document_partial"], "note": "Exact tokens for documents with ASCII names. Left out: white space in end tags (C141), references at the end of an attribute value or next to each other and references in unquoted values (C140), malformed markup. Script and style elements: C216."},
{"property": "C140", "status": "partial", "theorems": ["C140_html_reference_in_value_refuted", "C140_html_adjacent_references_refuted", "C140_html_reference_in_value_partial"], "note": "Refuted for every value that ends with a reference (the closing quote is skipped, and everything up to the next quote becomes a string) and for adjacent references (the second one is plain). Proved when some text follows each reference."},
{"property": "C141", "status": "partial", "theorems": ["C141_html_end_tag_space_refuted", "C141_html_end_tag_partial"], "note": "Refuted for every non-empty white space: the last white space character is highlighted instead of the >, and the > becomes text. Proved without white space."},
{"property": "C142", "status": "partial", "theorems": ["C142_cli_partial"], "note": "Proved for the sources in S_Languages.accepted (every language but Lua, with the per-language conditions), for paths shorter than BUFSIZ without NUL, and for an output that accepts everything."},
{"property": "C143", "status": "partial", "theorems": ["C143_cli_status_partial", "C143_cli_status_refuted"], "note": "Refuted: when highlighting fails (for example TypeScript '\\x' with debug assertions) the message is printed but the status is 0, and the output file is left incomplete. Proved: the failures before highlighting exit with 1 and one message and touch no file, and are the only way to a nonzero status."},
{"property": "C144", "status": "partial", "theorems": ["C144_cli_output_partial", "C144_cli_output_refuted"], "note": "Refuted: the result of fwrite is ignored, so for every accepted file and a full disk the status is 0 and there is no message. Proved: what is written is the longest prefix that fits."},
{"property": "C145", "status": "proved", "theorems": ["C145_cpp_lexemes"], "note": "Exact tokens for every sequence of lexemes of S_LangCppLexemes.v. Identifiers are ASCII; C147-C150 and C62 describe texts that the lexemes leave out because the highlighters get them wrong."},
{"property": "C146", "status": "partial", "theorems": ["C146_cpp_word_before_literal_refuted", "C146_cpp_word_before_literal_partial"], "note": "Refuted for every keyword except operator: the word is highlighted as an error. Proved when white space separates them."},
{"property": "C147", "status": "partial", "theorems": ["C147_cpp_null_directive_refuted", "C147_cpp_null_directive_partial"], "note": "Refuted: the first word of the next line becomes the name of the directive. Proved when the next line begins with neither a word nor white space."},
{"property": "C148", "status": "partial", "theorems": ["C148_cpp_continued_macro_refuted", "C148_cpp_continued_macro_partial"], "note": "Refuted: #x at the beginning of the continued line is taken for a directive named x. Proved on the same line."},
{"property": "C149", "status": "partial", "theorems": ["C149_cpp_float_suffix_refuted", "C149_cpp_float_suffix_partial"], "note": "Refuted for f and F after hexadecimal numbers, which are taken for digits of the exponent. Proved for decimal numbers, and for l and L."},
{"property": "C150", "status": "partial", "theorems": ["C150_cpp_error_message_refuted", "C150_cpp_error_message_partial"], "note": "Refuted: the word before an apostrophe becomes an error and the rest of the message a string. Proved for messages of names separated by blanks."},
{"property": "C151", "status": "proved", "theorems": ["C151_javascript_lexemes", "C151_typescript_lexemes"], "note": "All of JavaScript and TypeScript but JSX and non-ASCII names. The specification excludes what C152-C160 refute."},
{"property": "C152", "status": "partial", "theorems": ["C152_js_identifier_refuted", "C152_js_identifier_partial"], "note": "Refuted: a leading underscore is taken for a malformed number, so _id is an error and a name. Proved for names without a leading underscore."},
{"property": "C153", "status": "partial", "theorems": ["C153_js_division_refuted", "C153_js_division_partial"], "note": "Refuted: after a comment, a slash starts a regular expression even if the comment follows an operand. Proved with only white space between."},
{"property": "C154", "status": "partial", "theorems": ["C154_js_regex_refuted", "C154_js_regex_partial"], "note": "Refuted: a slash in a class, as in /[/]/, ends the literal. Proved for literals without unescaped slashes."},
{"property": "C155", "status": "partial", "theorems": ["C155_js_continuation_refuted", "C155_js_continuation_partial"], "note": "Refuted: for CR LF, the escape covers only CR and LF is left out of the tokens of the string. Proved for LF."},
{"property": "C156", "status": "partial", "theorems": ["C156_js_decimal_refuted", "C156_js_empty_fraction_refuted", "C156_js_number_partial"], "note": "Refuted: the fraction after 0. is read with base 8, so 0.19 is split; 1. at the end of the source is an error. Proved for all other literals (js_number)."},
{"property": "C157", "status": "partial", "theorems": ["C157_js_question_refuted", "C157_js_question_partial"], "note": "Refuted: ?. is taken even before a digit. Proved with white space between."},
{"property": "C158", "status": "partial", "theorems": ["C158_javascript_comparison_refuted", "C158_typescript_comparison_partial"], "note": "Refuted in JavaScript: <b> is taken for a JSX tag. Proved for TypeScript."},
{"property": "C159", "status": "partial", "theorems": ["C159_js_keyword_regex_refuted", "C159_js_keyword_regex_partial"], "note": "Refuted: after else and do, a slash is an operator. Proved for the keywords return, throw, case, delete, void, typeof, yield, await, instanceof, in, new."},
{"property": "C160", "status": "partial", "theorems": ["C160_js_hashbang_refuted", "C160_js_hashbang_partial"], "note": "Refuted: white space before the hashbang is accepted. Proved: at the start of the source it is a comment."},
{"property": "C161", "status": "proved", "theorems": ["C161_llvm_lexemes"], "note": "Signed numbers and hexadecimal constants with a kind letter are not lexemes here: C77 refutes them."},
{"property": "C162", "status": "proved", "theorems": ["C162_bash_lexemes"], "note": "Scripts are described with roles: plain text is left out where C163-C172 show that the highlighter is wrong (quoted command names, text after expansions in braces or command substitutions in the same word or line, separators followed by blanks, here documents, arithmetic, number signs inside words)."},
{"property": "C163", "status": "partial", "theorems": ["C163_bash_quoted_command_refuted", "C163_bash_quoted_command_tokens"], "note": "Refuted: the words are highlighted as commands, for every name in single quotes and every escaped name."},
{"property": "C164", "status": "partial", "theorems": ["C164_bash_after_braces_refuted", "C164_bash_after_braces_tokens"], "note": "Refuted: every plain word after the expansion in the line is highlighted as interpolation."},
{"property": "C165", "status": "partial", "theorems": ["C165_bash_after_substitution_refuted", "C165_bash_after_substitution_tokens"], "note": "Refuted: the text is highlighted as a command, for all words."},
{"property": "C166", "status": "partial", "theorems": ["C166_bash_after_quote_refuted", "C166_bash_after_quote_partial"], "note": "Proved for text that does not begin with a dash; text that does is highlighted as an option."},
{"property": "C167", "status": "partial", "theorems": ["C167_bash_positional_refuted", "C167_bash_positional_partial"], "note": "Only parameter 0 is; the others are highlighted as plain strings."},
{"property": "C168", "status": "partial", "theorems": ["C168_bash_arithmetic_refuted", "C168_bash_arithmetic_tokens"], "note": "Refuted: every expression of one word is highlighted as a command."},
{"property": "C169", "status": "partial", "theorems": ["C169_bash_comment_in_word_refuted", "C169_bash_comment_in_word_tokens"], "note": "Refuted: the rest of the line is highlighted as a comment."},
{"property": "C170", "status": "partial", "theorems": ["C170_bash_here_document_refuted", "C170_bash_here_document_tokens"], "note": "Refuted: the text and the closing delimiter are highlighted as commands."},
{"property": "C171", "status": "partial", "theorems": ["C171_bash_next_command_refuted", "C171_bash_next_command_tokens"], "note": "Refuted: the next word is highlighted as a string or an option."},
{"property": "C172", "status": "partial", "theorems": ["C172_bash_assignment_refuted", "C172_bash_assignment_tokens"], "note": "Refuted: the assignment is highlighted as the command and the command as an argument."},
{"property": "C173", "status": "proved", "theorems": ["C173_css_lexemes"], "note": "Exact tokens for every sequence of lexemes of S_LangCssLexemes.v. C174-C181 describe texts that the lexemes leave out because the highlighter gets them wrong."},
{"property": "C174", "status": "partial", "theorems": ["C174_css_conditional_refuted", "C174_css_conditional_tokens"], "note": "Refuted; the first nested selector is highlighted as a property and those after it as values, for all names. The braces are still matched."},
{"property": "C175", "status": "partial", "theorems": ["C175_css_siblings_refuted", "C175_css_siblings_tokens"], "note": "Refuted; the combinator is an error token."},
{"property": "C176", "status": "partial", "theorems": ["C176_css_properties_refuted", "C176_css_properties_tokens"], "note": "Refuted; such names are highlighted as values."},
{"property": "C177", "status": "partial", "theorems": ["C177_css_at_rule_in_block_refuted", "C177_css_at_rule_in_block_tokens"], "note": "Refuted; the declaration is highlighted as a selector."},
{"property": "C178", "status": "partial", "theorems": ["C178_css_important_refuted", "C178_css_important_tokens"], "note": "Refuted; the word is split after its first nine letters."},
{"property": "C179", "status": "partial", "theorems": ["C179_css_url_refuted", "C179_css_url_tokens"], "note": "Refuted; the text after the semicolon is highlighted as a property."},
{"property": "C180", "status": "partial", "theorems": ["C180_css_non_ascii_refuted", "C180_css_non_ascii_tokens"], "note": "Refuted; non-ASCII letters never get a highlight."},
{"property": "C181", "status": "partial", "theorems": ["C181_css_line_break_refuted", "C181_css_line_break_tokens"], "note": "Refuted for CR LF: the string ends after the CR, and its closing quote starts another string. LF, CR and form feed alone work (C173)."},
{"property": "C182", "status": "proved", "theorems": ["C182_yaml_lexemes"], "note": "Exact tokens for every document of S_LangYamlLexemes.v. C137 describes documents with more than 64 entries, which fail an assertion."},
{"property": "C183", "status": "partial", "theorems": ["C183_yaml_comment_refuted", "C183_yaml_comment_tokens"], "note": "Refuted: the rest of the line after a quoted value is skipped, so the comment gets no token. C182 gives the comments that do get tokens."},
{"property": "C184", "status": "partial", "theorems": ["C184_yaml_comma_refuted", "C184_yaml_comma_tokens"], "note": "Refuted: the scalar ends at the comma, and the comma and all text after it get no token."},
{"property": "C185", "status": "partial", "theorems": ["C185_yaml_constant_refuted", "C185_yaml_constant_tokens"], "note": "Refuted: the constant gets its own token, and the rest of the scalar gets none."},
{"property": "C186", "status": "partial", "theorems": ["C186_yaml_colon_refuted", "C186_yaml_colon_tokens"], "note": "Refuted: the space gets the token of the colon, and the colon starts the token of the value."},
{"property": "C187", "status": "partial", "theorems": ["C187_yaml_mapping_refuted", "C187_yaml_mapping_tokens"], "note": "Refuted: the opening brace belongs to the token of the key, and the closing brace gets no token."},
{"property": "C188", "status": "partial", "theorems": ["C188_yaml_apostrophe_refuted", "C188_yaml_apostrophe_tokens"], "note": "Refuted: the search for the colon treats the apostrophe as a quote, so the key is a plain string and the colon and value get no token."},
{"property": "C189", "status": "partial", "theorems": ["C189_yaml_trailing_refuted", "C189_yaml_trailing_tokens"], "note": "Refuted: the token of the scalar ends at the end of the line."},
{"property": "C190", "status": "partial", "theorems": ["C190_yaml_marker_refuted", "C190_yaml_marker_tokens"], "note": "Refuted: the rest of the line after the marker gets no token."},
{"property": "C191", "status": "proved", "theorems": ["C191_tex_lexemes", "C191_tex_every_source"], "note": "C191_tex_every_source says that the lexemes cover every source."},
{"property": "C192", "status": "partial", "theorems": ["C192_tex_comment_refuted", "C192_tex_comment_tokens"], "note": "Refuted: there are no comments; the percent sign is an operator and the rest of the line is highlighted as TeX."},
{"property": "C193", "status": "partial", "theorems": ["C193_tex_escape_refuted", "C193_tex_escape_tokens"], "note": "Refuted for characters outside ASCII: the token ends inside the character, after its first byte. It holds for ASCII."},
{"property": "C194", "status": "proved", "theorems": ["C194_ebnf_lexemes", "C194_ebnf_every_text"], "note": "Stated for the tokens the user gets, because names and numbers are given character by character and joined by the buffer. C194_ebnf_every_text: every text can be divided into such parts, so the tokens of every text are covered, malformed ones included."},
{"property": "C195", "status": "partial", "theorems": ["C195_ebnf_nested_comment_refuted", "C195_ebnf_nested_comment_tokens"], "note": "Refuted: a comment ends at the first end symbol, and what follows is highlighted as part of the grammar."},
{"property": "C196", "status": "proved", "theorems": ["C196_yaml_block_scalar"], "note": "For documents whose first entry has a block scalar whose text begins in the next line; the entries after it are those of C182, the first of them not indented."},
{"property": "C197", "status": "partial", "theorems": ["C197_yaml_header_comment_refuted", "C197_yaml_header_comment_tokens"], "note": "Refuted: the code looks for the comment only directly after the indicators, where YAML requires a space first. C197_yaml_header_comment_tokens gives the exact tokens: the comment has none."},
{"property": "C198", "status": "partial", "theorems": ["C198_yaml_indicators_refuted", "C198_yaml_indicators_tokens"], "note": "Refuted: in the order indentation, chomping the second indicator has no token. C198_yaml_indicators_tokens gives the exact tokens for both orders."},
{"property": "C199", "status": "proved", "theorems": ["C199_yaml_anchor", "C199_yaml_alias"], "note": "For documents of one line; an alias is the whole value."},
{"property": "C200", "status": "partial", "theorems": ["C200_yaml_tag_refuted", "C200_yaml_tag_tokens"], "note": "Refuted: without the coalescing flag every character of the name is a token of its own. C200_yaml_tag_tokens gives the exact tokens for the four forms of tags."},
{"property": "C201", "status": "partial", "theorems": ["C201_yaml_number_refuted", "C201_yaml_number_tokens"], "note": "Refuted: a number with a space after it is a string. C201_yaml_number_tokens gives the exact tokens."},
{"property": "C202", "status": "partial", "theorems": ["C202_yaml_white_line_refuted", "C202_yaml_white_line_tokens"], "note": "Refuted: the scalar ends there, and the rest is highlighted as a document of its own. C202_yaml_white_line_tokens gives the exact tokens when a number follows."},
{"property": "C203", "status": "partial", "theorems": ["C203_lua_tokens", "C203_lua_html_partial", "C203_lua_html_debug", "C203_lua_html_refuted"], "note": "Tokens: proved for every source. HTML: refuted in debug builds (C203_lua_html_refuted, with the exact result for every program that ends with an empty comment in C203_lua_html_debug); C203_lua_html_partial covers release builds without restriction and debug builds when no token is empty."},
{"property": "C204", "status": "partial", "theorems": ["C204_cli_lua_partial", "C204_cli_others", "C204_cli_lua_debug"], "note": "C204_cli_lua_partial: release builds. C204_cli_lua_debug gives the exact effects in debug builds for programs that end with an empty comment. C204_cli_others: for the other languages the tool is the one of C142 to C144."},
{"property": "C205", "status": "partial", "theorems": ["C205_history_partial", "C205_dangling", "C205_history_refuted"], "note": "C205_history_refuted and C205_dangling: every state with tokens that is converted to HTML and then to tokens has undefined behavior. C205_history_partial: every other conversion gives the same event as after the setters alone."},
{"property": "C206", "status": "proved", "theorems": ["C206_all_of", "C206_min_max"], "note": ""},
{"property": "C207", "status": "partial", "theorems": ["C207_copy_partial", "C207_copy_refuted", "C207_copy_overflow", "C207_copy_packed"], "note": "C207_copy_refuted; C207_copy_overflow and C207_copy_packed give the effect for every pair of sizes; C207_copy_partial is the correct part."},
{"property": "C208", "status": "partial", "theorems": ["C208_call_partial", "C208_functions", "C208_accepted", "C208_empty", "C208_rvalue_refuted", "C208_dangling", "C208_null_refuted", "C208_undefined"], "note": "C208_call_partial, C208_functions and C208_empty prove the behaviour of calls. Two documented or expected guards are missing in the code and refuted: temporaries of callable objects are accepted although the comment at line 127 says they are not (C208_dangling: every later call is undefined), and a null function pointer gives a reference that claims to have a value. C208_undefined proves that these are the only two ways to an undefined call."},
{"property": "C209", "status": "partial", "theorems": ["C209_statuses_partial", "C209_bad_text_refuted"], "note": "C209_statuses_partial: exactly five statuses can be reported, so BAD_CODE is not, as documented. BAD_TEXT is not either: C209_bad_text_refuted, since every highlighter decodes with replacement characters and none throws Unicode_Error. BAD_ALLOC is outside the model (no allocation failures inside highlighters). All languages of highlight_functions, that is all but Lua, whose table entry is modelled separately (C203)."},
{"property": "C210", "status": "proved", "theorems": ["C210_error_text"], "note": "Proved for all histories of S_Session actions whose calls are defined (the session has a result). A success leaves the text of an earlier failure in place; the theorem says so exactly."},
{"property": "C211", "status": "proved", "theorems": ["C211_tag_names", "C211_malformed"], "note": "Proved for all valid texts; C211_malformed covers malformed ones for both functions (the answer is no or Unicode_Error)."},
{"property": "C212", "status": "partial", "theorems": ["C212_attribute_names_partial", "C212_attribute_names_refuted"], "note": "Refuted: the controls U+0080 to U+009F are accepted, since only ASCII controls are excluded (is_html_control exists but is not used). C212_attribute_names_partial gives the exact set of accepted names and proves the statement for texts without these controls."},
{"property": "C213", "status": "proved", "theorems": ["C213_unknown_flags", "C213_strict", "C213_strict_matters"], "note": "C213_unknown_flags holds for any table of highlighters; C213_strict for the real table (all languages but Lua, which is modelled separately and does not read the flag); C213_strict_matters shows that the three exceptions are needed."},
{"property": "C214", "status": "partial", "theorems": ["C214_js_member_partial", "C214_js_member_refuted", "C214_js_member_regex"], "note": "Refuted: a member named like a keyword, as in x.delete/x, is highlighted as a keyword and the slash starts a regular expression. Proved for members whose names are not keywords; the exact wrong tokens are proved for every keyword that expects an expression and every regular expression text."},
{"property": "C215", "status": "partial", "theorems": ["C215_ebnf_gap_refuted", "C215_ebnf_gap_partial", "C215_ebnf_form_feed"], "note": "Refuted: the form feed, a gap separator in ISO 14977, is highlighted as an error; this is proved for every run of form feeds before every grammar. Proved for the other separators."},
{"property": "C216", "status": "partial", "theorems": ["C216_html_scripts_partial", "C216_html_scripts_refuted"], "note": "Refuted: after \"</scripts\" in a script, which does not end it, the end of the script is computed wrongly. Proved for documents of the lexemes of C139 and scripts and style sheets without an end tag or the beginning of one; other end tags and \"</\" may occur in them."}
]}
