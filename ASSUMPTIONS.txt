P_Chars.C21_set_algebra: Closed under the global context
P_Chars.C21_predefined_sets: Closed under the global context
P_Chars.C22_range_refuted: Closed under the global context
P_Chars.C22_range_partial: Closed under the global context
P_Chars.C23_xid: Closed under the global context
P_Chars.C24_ignore_case: Closed under the global context
P_Chars.C24_compare: Closed under the global context
P_Chars.C24_order: Closed under the global context
P_Chars.C54_scan: Closed under the global context
P_Chars.C54_head_tail: Closed under the global context
P_Chars.C54_delimiter: Closed under the global context
P_Cli.C142_cli_partial: Closed under the global context
P_Cli.C143_cli_status_partial: Closed under the global context
P_Cli.C143_cli_status_refuted: Closed under the global context
P_Cli.C144_cli_output_partial: Closed under the global context
P_Cli.C144_cli_output_refuted: Closed under the global context
P_Core.C05_tokens_validation_partial: Closed under the global context
P_Core.C05_lang_count_refuted: Closed under the global context
P_Core.C05_lang_wraparound_refuted: Closed under the global context
P_Core.C05_valid_state_runs: Closed under the global context
P_Core.C06_html_validation: Closed under the global context
P_Core.C06_text_needs_valid_state: Closed under the global context
P_Core.C07_buffer_lossless: Closed under the global context
P_Core.C08_html_independent_of_buffers: Closed under the global context
P_Core.C09_html_round_trip: Closed under the global context
P_Core.C10_html_no_injection: Closed under the global context
P_Core.C09_api_round_trip: Closed under the global context
P_Core.C11_emission_well_formed: Closed under the global context
P_Core.C12_coalescing_keeps_highlighting: Closed under the global context
P_Core.C13_tokens_independent_of_capacity: Closed under the global context
P_Core.C14_full_coalescing_partial: Closed under the global context
P_Core.C14_nested_refuted: Closed under the global context
P_Core.C15_nested_translation: Closed under the global context
P_Core.C47_type_names_partial: Closed under the global context
P_Core.C47_short_names_distinct_refuted: Closed under the global context
P_Core.C48_setters_partial: Closed under the global context
P_Core.C48_attr_setter_refuted: Closed under the global context
P_Core.C50_new_state_partial: Closed under the global context
P_Core.C50_allocation_failure_refuted: Closed under the global context
P_CppMatch.C62_operators_refuted: Closed under the global context
P_CppMatch.C62_operators_partial: Closed under the global context
P_CppMatch.C63_cpp_names: Closed under the global context
P_CppMatch.C64_line_comment: Closed under the global context
P_CppMatch.C64_block_comment: Closed under the global context
P_CppMatch.C65_identifier: Closed under the global context
P_CppMatch.C66_raw_string: Closed under the global context
P_CssNumber.C68_css_number: Closed under the global context
P_Highlight.C43_highlight: Closed under the global context
P_HtmlMatch.C59_reference: Closed under the global context
P_HtmlMatch.C60_comment: Closed under the global context
P_Io.C71_no_leak: Closed under the global context
P_Io.C49_closed_once_partial: Closed under the global context
P_Io.C49_closed_once_refuted: Closed under the global context
P_Io.C72_file_bytes_partial: Closed under the global context
P_Io.C72_file_bytes_refuted: Closed under the global context
P_Io.C73_utf8_file: Closed under the global context
P_Io.C74_utf32_file: Closed under the global context
P_Json.C35_json_highlight: Closed under the global context
P_Json.C35_jsonc_highlight: Closed under the global context
P_Json.C30_json_number: Closed under the global context
P_Json.C31_parse_sound: Closed under the global context
P_Json.C31_parse_complete: Closed under the global context
P_Json.C32_whole_source_refuted: Closed under the global context
P_Json.C32_form_feed_refuted: Closed under the global context
P_Json.C32_accepts_json_prefix_partial: Closed under the global context
P_Json.C33_silent_failure_refuted: Closed under the global context
P_Json.C33_unreachable_refuted: Closed under the global context
P_Json.C33_failed_parse_partial: Closed under the global context
P_Json.C34_block_comments_refuted: Closed under the global context
P_Json.C34_line_comments_partial: Closed under the global context
P_Json.C34_comment_calls_partial: Closed under the global context
P_Json.C57_number_value_refuted: Closed under the global context
P_Json.C57_number_value_partial: Closed under the global context
P_Lang.C01_get_lang_exact: Closed under the global context
P_Lang.C01_get_lang_unlisted: Closed under the global context
P_Lang.C02_path_without_dot: Closed under the global context
P_Lang.C02_path_last_extension: Closed under the global context
P_Lang.C03_path_u8_agrees_refuted: Closed under the global context
P_Lang.C03_path_u8_never_detects: Closed under the global context
P_Lang.C04_display_name_total: Closed under the global context
P_LangBash.C78_bash: Closed under the global context
P_LangBash.C79_bash_lines: Closed under the global context
P_LangBash.C80_bash_separator_refuted: Closed under the global context
P_LangBash.C80_bash_separator_partial: Closed under the global context
P_LangBash.C81_bash_expansion_refuted: Closed under the global context
P_LangBash.C81_bash_expansion_partial: Closed under the global context
P_LangBashClaims.C163_bash_quoted_command_refuted: Closed under the global context
P_LangBashClaims.C163_bash_quoted_command_tokens: Closed under the global context
P_LangBashClaims.C164_bash_after_braces_refuted: Closed under the global context
P_LangBashClaims.C164_bash_after_braces_tokens: Closed under the global context
P_LangBashClaims.C165_bash_after_substitution_refuted: Closed under the global context
P_LangBashClaims.C165_bash_after_substitution_tokens: Closed under the global context
P_LangBashClaims.C166_bash_after_quote_refuted: Closed under the global context
P_LangBashClaims.C166_bash_after_quote_partial: Closed under the global context
P_LangBashClaims.C167_bash_positional_refuted: Closed under the global context
P_LangBashClaims.C167_bash_positional_partial: Closed under the global context
P_LangBashClaims.C168_bash_arithmetic_refuted: Closed under the global context
P_LangBashClaims.C168_bash_arithmetic_tokens: Closed under the global context
P_LangBashClaims.C169_bash_comment_in_word_refuted: Closed under the global context
P_LangBashClaims.C169_bash_comment_in_word_tokens: Closed under the global context
P_LangBashClaims.C170_bash_here_document_refuted: Closed under the global context
P_LangBashClaims.C170_bash_here_document_tokens: Closed under the global context
P_LangBashClaims.C171_bash_next_command_refuted: Closed under the global context
P_LangBashClaims.C171_bash_next_command_tokens: Closed under the global context
P_LangBashClaims.C172_bash_assignment_refuted: Closed under the global context
P_LangBashClaims.C172_bash_assignment_tokens: Closed under the global context
P_LangBashLexemes.C162_bash_lexemes: Closed under the global context
P_LangCowel.C127_cowel: Closed under the global context
P_LangCowelClaims.C129_cowel_line_splice_ends_partial: Closed under the global context
P_LangCowelClaims.C129_cowel_line_splice_ends_refuted: Closed under the global context
P_LangCowelClaims.C130_cowel_line_call_partial: Closed under the global context
P_LangCowelClaims.C130_cowel_line_call_refuted: Closed under the global context
P_LangCowelClaims.C131_cowel_last_line_refuted: Closed under the global context
P_LangCowelClaims.C131_cowel_last_line_partial: Closed under the global context
P_LangCowelExact.C128_cowel_document: Closed under the global context
P_LangCpp.C61_cpp_refuted: Closed under the global context
P_LangCpp.C61_cpp_partial: Closed under the global context
P_LangCpp.C61_cpp_utf8_partial: Closed under the global context
P_LangCppClaims.C146_cpp_word_before_literal_refuted: Closed under the global context
P_LangCppClaims.C146_cpp_word_before_literal_partial: Closed under the global context
P_LangCppClaims.C147_cpp_null_directive_refuted: Closed under the global context
P_LangCppClaims.C147_cpp_null_directive_partial: Closed under the global context
P_LangCppClaims.C148_cpp_continued_macro_refuted: Closed under the global context
P_LangCppClaims.C148_cpp_continued_macro_partial: Closed under the global context
P_LangCppClaims.C149_cpp_float_suffix_refuted: Closed under the global context
P_LangCppClaims.C149_cpp_float_suffix_partial: Closed under the global context
P_LangCppClaims.C150_cpp_error_message_refuted: Closed under the global context
P_LangCppClaims.C150_cpp_error_message_partial: Closed under the global context
P_LangCppLexemes.C145_cpp_lexemes: Closed under the global context
P_LangCss.C67_css_refuted: Closed under the global context
P_LangCss.C67_css_stuck: Closed under the global context
P_LangCss.C67_css_partial: Closed under the global context
P_LangCss.C69_url_refuted: Closed under the global context
P_LangCss.C69_url_partial: Closed under the global context
P_LangCssClaims.C174_css_conditional_refuted: Closed under the global context
P_LangCssClaims.C174_css_conditional_tokens: Closed under the global context
P_LangCssClaims.C175_css_siblings_refuted: Closed under the global context
P_LangCssClaims.C175_css_siblings_tokens: Closed under the global context
P_LangCssClaims.C176_css_properties_refuted: Closed under the global context
P_LangCssClaims.C176_css_properties_tokens: Closed under the global context
P_LangCssClaims.C177_css_at_rule_in_block_refuted: Closed under the global context
P_LangCssClaims.C177_css_at_rule_in_block_tokens: Closed under the global context
P_LangCssClaims.C178_css_important_refuted: Closed under the global context
P_LangCssClaims.C178_css_important_tokens: Closed under the global context
P_LangCssClaims.C179_css_url_refuted: Closed under the global context
P_LangCssClaims.C179_css_url_tokens: Closed under the global context
P_LangCssClaims.C180_css_non_ascii_refuted: Closed under the global context
P_LangCssClaims.C180_css_non_ascii_tokens: Closed under the global context
P_LangCssClaims.C181_css_line_break_refuted: Closed under the global context
P_LangCssClaims.C181_css_line_break_tokens: Closed under the global context
P_LangCssLexemes.C173_css_lexemes: Closed under the global context
P_LangEbnf.C194_ebnf_lexemes: Closed under the global context
P_LangEbnf.C194_ebnf_every_text: Closed under the global context
P_LangEbnf.C195_ebnf_nested_comment_refuted: Closed under the global context
P_LangEbnf.C195_ebnf_nested_comment_tokens: Closed under the global context
P_LangHtml.C39_html_refuted: Closed under the global context
P_LangHtml.C39_html_partial: Closed under the global context
P_LangHtmlClaims.C140_html_reference_in_value_refuted: Closed under the global context
P_LangHtmlClaims.C140_html_adjacent_references_refuted: Closed under the global context
P_LangHtmlClaims.C140_html_reference_in_value_partial: Closed under the global context
P_LangHtmlClaims.C141_html_end_tag_space_refuted: Closed under the global context
P_LangHtmlClaims.C141_html_end_tag_partial: Closed under the global context
P_LangHtmlLexemes.C139_html_document_partial: Closed under the global context
P_LangJava.C87_java: Closed under the global context
P_LangJava.C88_java_lexemes: Closed under the global context
P_LangJava.C89_identifiers_refuted: Closed under the global context
P_LangJava.C89_identifiers_partial: Closed under the global context
P_LangJava.C90_characters_refuted: Closed under the global context
P_LangJava.C90_characters_partial: Closed under the global context
P_LangJava.C91_numbers_refuted: Closed under the global context
P_LangJava.C91_numbers_partial: Closed under the global context
P_LangJava.C92_interface_refuted: Closed under the global context
P_LangJava.C92_interface_partial: Closed under the global context
P_LangJs.C40_typescript_partial: Closed under the global context
P_LangJs.C40_javascript_partial: Closed under the global context
P_LangJs.C40_refuted: Closed under the global context
P_LangJs.C40_jsx_refuted: Closed under the global context
P_LangJsClaims.C152_js_identifier_refuted: Closed under the global context
P_LangJsClaims.C152_js_identifier_partial: Closed under the global context
P_LangJsClaims.C153_js_division_refuted: Closed under the global context
P_LangJsClaims.C153_js_division_partial: Closed under the global context
P_LangJsClaims.C154_js_regex_refuted: Closed under the global context
P_LangJsClaims.C154_js_regex_partial: Closed under the global context
P_LangJsClaims.C155_js_continuation_refuted: Closed under the global context
P_LangJsClaims.C155_js_continuation_partial: Closed under the global context
P_LangJsClaims.C156_js_decimal_refuted: Closed under the global context
P_LangJsClaims.C156_js_empty_fraction_refuted: Closed under the global context
P_LangJsClaims.C156_js_number_partial: Closed under the global context
P_LangJsClaims.C157_js_question_refuted: Closed under the global context
P_LangJsClaims.C157_js_question_partial: Closed under the global context
P_LangJsClaims.C158_javascript_comparison_refuted: Closed under the global context
P_LangJsClaims.C158_typescript_comparison_partial: Closed under the global context
P_LangJsClaims.C159_js_keyword_regex_refuted: Closed under the global context
P_LangJsClaims.C159_js_keyword_regex_partial: Closed under the global context
P_LangJsClaims.C160_js_hashbang_refuted: Closed under the global context
P_LangJsClaims.C160_js_hashbang_partial: Closed under the global context
P_LangJsLexemes.C151_javascript_lexemes: Closed under the global context
P_LangJsLexemes.C151_typescript_lexemes: Closed under the global context
P_LangJson.C58_word_in_array_refuted: Closed under the global context
P_LangJson.C58_json_partial: Closed under the global context
P_LangJson.C58_json_without_comments_partial: Closed under the global context
P_LangJson.C58_jsonc_partial: Closed under the global context
P_LangKotlin.C93_kotlin: Closed under the global context
P_LangKotlin.C94_kotlin_lexemes: Closed under the global context
P_LangKotlin.C95_kotlin_words_refuted: Closed under the global context
P_LangKotlin.C95_kotlin_words_partial: Closed under the global context
P_LangKotlin.C96_kotlin_operators_refuted: Closed under the global context
P_LangKotlin.C96_kotlin_operators_partial: Closed under the global context
P_LangKotlin.C97_kotlin_integers_refuted: Closed under the global context
P_LangKotlin.C97_kotlin_integers_partial: Closed under the global context
P_LangKotlin.C98_kotlin_dollar_refuted: Closed under the global context
P_LangKotlin.C98_kotlin_dollar_partial: Closed under the global context
P_LangLlvm.C75_llvm: Closed under the global context
P_LangLlvm.C76_llvm_word: Closed under the global context
P_LangLlvm.C77_llvm_number_refuted: Closed under the global context
P_LangLlvm.C77_llvm_hex_refuted: Closed under the global context
P_LangLlvm.C77_llvm_number_partial: Closed under the global context
P_LangLlvmLexemes.C161_llvm_lexemes: Closed under the global context
P_LangLua.C106_lua_refuted: Closed under the global context
P_LangLua.C106_lua_partial: Closed under the global context
P_LangLua.C107_lua_lexemes: Closed under the global context
P_LangLua.C108_lua_strings_refuted: Closed under the global context
P_LangLua.C108_lua_strings_partial: Closed under the global context
P_LangLua.C109_lua_attributes_refuted: Closed under the global context
P_LangLua.C109_lua_attributes_partial: Closed under the global context
P_LangMarkdown.C132_markdown_partial: Closed under the global context
P_LangMarkdown.C132_markdown_refuted: Closed under the global context
P_LangMarkdown.C132_markdown_comment_line_refuted: Closed under the global context
P_LangMarkdownDoc.C133_markdown_document: Closed under the global context
P_LangMarkdownRefuted.C134_markdown_heading_text_refuted: Closed under the global context
P_LangMarkdownRefuted.C134_markdown_heading_text_partial: Closed under the global context
P_LangMarkdownRefuted.C135_markdown_escaped_delimiter_refuted: Closed under the global context
P_LangMarkdownRefuted.C135_markdown_escaped_delimiter_partial: Closed under the global context
P_LangMarkdownRefuted.C136_markdown_link_parentheses_refuted: Closed under the global context
P_LangMarkdownRefuted.C136_markdown_link_parentheses_partial: Closed under the global context
P_LangNasm.C110_nasm: Closed under the global context
P_LangNasmClaims.C112_nasm_suffixes_refuted: Closed under the global context
P_LangNasmClaims.C112_nasm_suffixes_partial: Closed under the global context
P_LangNasmClaims.C113_nasm_prefixes_refuted: Closed under the global context
P_LangNasmClaims.C113_nasm_prefixes_partial: Closed under the global context
P_LangNasmClaims.C114_nasm_pseudo_refuted: Closed under the global context
P_LangNasmClaims.C114_nasm_pseudo_partial: Closed under the global context
P_LangNasmClaims.C115_nasm_registers_refuted: Closed under the global context
P_LangNasmClaims.C115_nasm_registers_partial: Closed under the global context
P_LangNasmClaims.C116_nasm_backquote_refuted: Closed under the global context
P_LangNasmClaims.C116_nasm_backquote_partial: Closed under the global context
P_LangNasmClaims.C117_nasm_names_refuted: Closed under the global context
P_LangNasmClaims.C117_nasm_names_partial: Closed under the global context
P_LangNasmClaims.C118_nasm_octal_refuted: Closed under the global context
P_LangNasmClaims.C118_nasm_octal_partial: Closed under the global context
P_LangNasmClaims.C119_nasm_operators_refuted: Closed under the global context
P_LangNasmClaims.C119_nasm_operators_partial: Closed under the global context
P_LangNasmLexemes.C111_nasm_lexemes: Closed under the global context
P_LangPython.C82_python: Closed under the global context
P_LangPython.C83_python_lexemes: Closed under the global context
P_LangPython.C84_prefixes_refuted: Closed under the global context
P_LangPython.C84_prefixes_partial: Closed under the global context
P_LangPython.C85_numbers_refuted: Closed under the global context
P_LangPython.C85_end_refuted: Closed under the global context
P_LangPython.C85_numbers_partial: Closed under the global context
P_LangPython.C86_octal_refuted: Closed under the global context
P_LangPython.C86_octal_partial: Closed under the global context
P_LangRust.C99_rust_refuted: Closed under the global context
P_LangRust.C99_rust_partial: Closed under the global context
P_LangRust.C100_rust_lexemes: Closed under the global context
P_LangRustClaims.C101_rust_identifiers_refuted: Closed under the global context
P_LangRustClaims.C101_rust_identifiers_partial: Closed under the global context
P_LangRustClaims.C102_rust_numbers_refuted: Closed under the global context
P_LangRustClaims.C102_rust_numbers_partial: Closed under the global context
P_LangRustClaims.C103_rust_raw_strings_refuted: Closed under the global context
P_LangRustClaims.C103_rust_raw_strings_partial: Closed under the global context
P_LangRustClaims.C104_rust_comments_refuted: Closed under the global context
P_LangRustClaims.C104_rust_comments_partial: Closed under the global context
P_LangRustClaims.C105_rust_punctuation_refuted: Closed under the global context
P_LangRustClaims.C105_rust_punctuation_partial: Closed under the global context
P_LangSmall.C36_txt: Closed under the global context
P_LangSmall.C36_tex: Closed under the global context
P_LangSmall.C37_diff: Closed under the global context
P_LangSmall.C38_ebnf: Closed under the global context
P_LangTex.C191_tex_lexemes: Closed under the global context
P_LangTex.C191_tex_every_source: Closed under the global context
P_LangTex.C192_tex_comment_refuted: Closed under the global context
P_LangTex.C192_tex_comment_tokens: Closed under the global context
P_LangTex.C193_tex_escape_refuted: Closed under the global context
P_LangTex.C193_tex_escape_tokens: Closed under the global context
P_LangXml.C120_xml: Closed under the global context
P_LangXmlClaims.C122_xml_names_partial: Closed under the global context
P_LangXmlClaims.C122_xml_names_refuted: Closed under the global context
P_LangXmlClaims.C125_xml_entities_partial: Closed under the global context
P_LangXmlClaims.C125_xml_entities_refuted: Closed under the global context
P_LangXmlClaims.C126_xml_instructions_partial: Closed under the global context
P_LangXmlClaims.C126_xml_instructions_refuted: Closed under the global context
P_LangXmlClaims.C123_xml_declaration_partial: Closed under the global context
P_LangXmlClaims.C123_xml_declaration_refuted: Closed under the global context
P_LangXmlClaims.C124_xml_doctype_partial: Closed under the global context
P_LangXmlClaims.C124_xml_doctype_refuted: Closed under the global context
P_LangXmlLexemes.C121_xml_document: Closed under the global context
P_LangYaml.C137_yaml_partial: Closed under the global context
P_LangYaml.C137_yaml_refuted: Closed under the global context
P_LangYamlBlock.C196_yaml_block_scalar: Closed under the global context
P_LangYamlBlock.C197_yaml_header_comment_refuted: Closed under the global context
P_LangYamlBlock.C197_yaml_header_comment_tokens: Closed under the global context
P_LangYamlBlock.C198_yaml_indicators_refuted: Closed under the global context
P_LangYamlBlock.C198_yaml_indicators_tokens: Closed under the global context
P_LangYamlClaims.C183_yaml_comment_refuted: Closed under the global context
P_LangYamlClaims.C183_yaml_comment_tokens: Closed under the global context
P_LangYamlClaims.C184_yaml_comma_refuted: Closed under the global context
P_LangYamlClaims.C184_yaml_comma_tokens: Closed under the global context
P_LangYamlClaims.C185_yaml_constant_refuted: Closed under the global context
P_LangYamlClaims.C185_yaml_constant_tokens: Closed under the global context
P_LangYamlClaims.C186_yaml_colon_refuted: Closed under the global context
P_LangYamlClaims.C186_yaml_colon_tokens: Closed under the global context
P_LangYamlClaims.C187_yaml_mapping_refuted: Closed under the global context
P_LangYamlClaims.C187_yaml_mapping_tokens: Closed under the global context
P_LangYamlClaims.C188_yaml_apostrophe_refuted: Closed under the global context
P_LangYamlClaims.C188_yaml_apostrophe_tokens: Closed under the global context
P_LangYamlClaims.C189_yaml_trailing_refuted: Closed under the global context
P_LangYamlClaims.C189_yaml_trailing_tokens: Closed under the global context
P_LangYamlClaims.C190_yaml_marker_refuted: Closed under the global context
P_LangYamlClaims.C190_yaml_marker_tokens: Closed under the global context
P_LangYamlLexemes.C182_yaml_lexemes: Closed under the global context
P_LangYamlProps.C199_yaml_anchor: Closed under the global context
P_LangYamlProps.C199_yaml_alias: Closed under the global context
P_LangYamlProps.C200_yaml_tag_refuted: Closed under the global context
P_LangYamlProps.C200_yaml_tag_tokens: Closed under the global context
P_LangYamlProps.C201_yaml_number_refuted: Closed under the global context
P_LangYamlProps.C201_yaml_number_tokens: Closed under the global context
P_LangYamlProps.C202_yaml_white_line_refuted: Closed under the global context
P_LangYamlProps.C202_yaml_white_line_tokens: Closed under the global context
P_Languages.C138_source_to_tokens_partial: Closed under the global context
P_Languages.C138_source_to_html_partial: Closed under the global context
P_Languages.C138_refuted: Closed under the global context
P_LuaApi.C203_lua_tokens: Closed under the global context
P_LuaApi.C203_lua_html_partial: Closed under the global context
P_LuaApi.C203_lua_html_debug: Closed under the global context
P_LuaCli.C203_lua_html_refuted: Closed under the global context
P_LuaCli.C204_cli_lua_partial: Closed under the global context
P_LuaCli.C204_cli_others: Closed under the global context
P_LuaCli.C204_cli_lua_debug: Closed under the global context
P_Parse.C55_escape_exact: Closed under the global context
P_Parse.C41_braced_refuted: Closed under the global context
P_Parse.C41_escape_partial: Closed under the global context
P_Parse.C42_separated_refuted: Closed under the global context
P_Parse.C42_separated_partial: Closed under the global context
P_Parse.C43_partition: Closed under the global context
P_Parse.C43_parts_meaning: Closed under the global context
P_Parse.C44_suffix_refuted: Closed under the global context
P_Parse.C44_suffix_partial: Closed under the global context
P_Parse.C45_blank_refuted: Closed under the global context
P_Parse.C45_blank_partial: Closed under the global context
P_Parse.C46_uinteger_partial: Closed under the global context
P_Parse.C46_integer_partial: Closed under the global context
P_Parse.C46_literal_refuted: Closed under the global context
P_Parse.C56_line: Closed under the global context
P_Parse.C56_enclosed: Closed under the global context
P_Session.C205_history_partial: Closed under the global context
P_Session.C205_dangling: Closed under the global context
P_Session.C205_history_refuted: Closed under the global context
P_StringDiff.C25_edit_script: Closed under the global context
P_StringDiff.C26_shortest: Closed under the global context
P_StringDiff.C27_deletions_first: Closed under the global context
P_StringDiff.C28_split_lines: Closed under the global context
P_StringDiff.C28_unique: Closed under the global context
P_StringDiff.C29_print_diff_partial: Closed under the global context
P_StringDiff.C29_print_diff_refuted: Closed under the global context
P_StringDiff.C70_text_diff: Closed under the global context
P_Utf8.C16_encode_decode: Closed under the global context
P_Utf8.C17_decoder_exact: Closed under the global context
P_Utf8.C17_table_is_encodings: Closed under the global context
P_Utf8.C18_validity: Closed under the global context
P_Utf8.C19_replacement: Closed under the global context
P_Utf8.C19_replacement_array: Closed under the global context
P_Utf8.C20_search: Closed under the global context
P_Utf8.C20_scan_unique: Closed under the global context
P_Utf8.C51_replacement_huge_refuted: Closed under the global context
P_Utf8.C51_replacement_agrees_partial: Closed under the global context
P_Utf8.C52_bit_compress_agrees: Closed under the global context
P_Utf8.C53_iteration: Closed under the global context
P_Algorithm.C206_all_of: Closed under the global context
P_Algorithm.C206_min_max: Closed under the global context
P_Algorithm.C207_copy_partial: Closed under the global context
P_Algorithm.C207_copy_refuted: Closed under the global context
P_Algorithm.C207_copy_overflow: Closed under the global context
P_Algorithm.C207_copy_packed: Closed under the global context
P_FunctionRef.C208_call_partial: Closed under the global context
P_FunctionRef.C208_functions: Closed under the global context
P_FunctionRef.C208_empty: Closed under the global context
P_FunctionRef.C208_rvalue_refuted: Closed under the global context
P_FunctionRef.C208_dangling: Closed under the global context
P_FunctionRef.C208_null_refuted: Closed under the global context
P_FunctionRef.C208_undefined: Closed under the global context
P_ErrorText.C209_statuses_partial: Closed under the global context
P_ErrorText.C209_bad_text_refuted: Closed under the global context
P_ErrorText.C210_error_text: Closed under the global context
P_FunctionRef.C208_accepted: Closed under the global context
P_HtmlNames.C211_tag_names: Closed under the global context
P_HtmlNames.C211_malformed: Closed under the global context
P_HtmlNames.C212_attribute_names_partial: Closed under the global context
P_HtmlNames.C212_attribute_names_refuted: Closed under the global context
P_Flags.C213_unknown_flags: Closed under the global context
P_Flags.C213_strict: Closed under the global context
P_Flags.C213_strict_matters: Closed under the global context
P_LangJsMembers.C214_js_member_partial: Closed under the global context
P_LangJsMembers.C214_js_member_refuted: Closed under the global context
P_LangJsMembers.C214_js_member_regex: Closed under the global context
P_LangEbnf.C215_ebnf_gap_refuted: Closed under the global context
P_LangEbnf.C215_ebnf_gap_partial: Closed under the global context
P_LangEbnf.C215_ebnf_form_feed: Closed under the global context
P_LangHtmlScripts.C216_html_scripts_partial: Closed under the global context
P_LangHtmlScripts.C216_html_scripts_refuted: Closed under the global context
