-Q theories Verif
theories/M_Base.v
theories/L_Base.v
theories/M_Lang.v
theories/L_Lang.v
theories/P_Lang.v
theories/M_Types.v
theories/L_Types.v
theories/S_Tokens.v
theories/M_Buffer.v
theories/L_Buffer.v
theories/M_Emit.v
theories/S_Ops.v
theories/L_Emit.v
theories/S_Html.v
theories/M_Html.v
theories/L_Html.v
theories/M_Api.v
theories/S_Api.v
theories/L_Api.v
theories/P_Core.v
theories/S_Utf8.v
theories/M_Utf8.v
theories/L_Utf8.v
theories/L_Utf8b.v
theories/P_Utf8.v
theories/L_Any.v
theories/M_Xid.v
theories/M_Chars.v
theories/M_Charset.v
theories/S_Chars.v
theories/L_Charset.v
theories/P_Chars.v
theories/M_Parse.v
theories/S_Parse.v
theories/L_Parse.v
theories/P_Parse.v
theories/M_Highlighter.v
theories/S_Highlight.v
theories/L_Highlighter.v
theories/P_Highlight.v
theories/M_LangSmall.v
theories/S_Diff.v
theories/P_LangSmall.v
theories/M_Json.v
theories/S_Json.v
theories/L_JsonNum.v
theories/L_JsonText.v
theories/L_JsonParse.v
theories/L_JsonSound.v
theories/L_JsonComplete.v
theories/P_Json.v
theories/M_LangHtml.v
theories/S_LangHtml.v
theories/P_LangHtml.v
theories/P_HtmlMatch.v
theories/M_Table.v
theories/L_Table.v
theories/L_Wf8.v
theories/M_LangCpp.v
theories/P_LangCpp.v
theories/S_LangCpp.v
theories/P_CppMatch.v
theories/L_WfSteps.v
theories/M_LangCss.v
theories/S_LangCss.v
theories/P_CssNumber.v
theories/P_LangCss.v
theories/M_StringDiff.v
theories/S_StringDiff.v
theories/L_StringDiff.v
theories/P_StringDiff.v
theories/M_Io.v
theories/P_Io.v
theories/L_Auto.v
theories/M_LangLlvm.v
theories/S_LangLlvm.v
theories/P_LangLlvm.v
theories/M_LangBash.v
theories/S_LangBash.v
theories/P_LangBash.v
theories/M_TokenLoop.v
theories/S_Lexemes.v
theories/L_Lexemes.v
theories/L_Number.v
theories/L_Scan.v
theories/L_Symbols.v
theories/L_Escapes.v
theories/M_LangPython.v
theories/S_LangPython.v
theories/P_LangPython.v
theories/L_Number2.v
theories/M_LangJava.v
theories/S_Comments.v
theories/L_Comments.v
theories/S_LangJava.v
theories/P_LangJava.v
theories/L_Mono.v
theories/M_LangKotlin.v
theories/S_LangKotlin.v
theories/P_LangKotlin.v
theories/M_LangRust.v
theories/S_Utf8Lexemes.v
theories/L_Utf8Loop.v
theories/S_LangRust.v
theories/P_LangRust.v
theories/P_LangRustClaims.v
theories/M_LangLua.v
theories/S_LangLua.v
theories/P_LangLua.v
theories/S_States.v
theories/L_States.v
theories/M_LangNasm.v
theories/S_LangNasm.v
theories/P_LangNasm.v
theories/P_LangNasmLexemes.v
theories/P_LangNasmClaims.v
theories/M_LangXml.v
theories/P_LangXml.v
theories/L_Does.v
theories/S_LangXml.v
theories/P_LangXmlLexemes.v
theories/P_LangXmlClaims.v
theories/M_LangCowel.v
theories/P_LangCowel.v
theories/S_LangCowel.v
theories/P_LangCowelLexemes.v
theories/P_LangCowelDocument.v
theories/P_LangCowelExact.v
theories/P_LangCowelCase.v
theories/P_LangCowelClaims.v
theories/M_LangMarkdown.v
theories/S_LangMarkdown.v
theories/P_LangMarkdown.v
theories/L_MarkdownMatch.v
theories/P_LangMarkdownExact.v
theories/P_LangMarkdownDoc.v
theories/P_LangMarkdownRefuted.v
theories/M_LangYaml.v
theories/S_LangYaml.v
theories/P_LangYaml.v
theories/S_LangJson.v
theories/P_LangJson.v
theories/M_LangJs.v
theories/L_Utf8Ascii.v
theories/S_LangJs.v
theories/P_LangJs.v
theories/M_Languages.v
theories/S_Languages.v
theories/P_Languages.v
theories/S_LangHtmlLexemes.v
theories/P_LangHtmlLexemes.v
theories/P_LangHtmlClaims.v
theories/M_Cli.v
theories/S_Cli.v
theories/P_Cli.v
theories/S_LangCppLexemes.v
theories/L_LangCppLexemes.v
theories/P_LangCppLexemes.v
theories/P_LangCppClaims.v
theories/S_LangJsLexemes.v
theories/L_LangJsLexemes.v
theories/P_LangJsLexemes.v
theories/P_LangJsClaims.v
theories/S_LangLlvmLexemes.v
theories/P_LangLlvmLexemes.v
theories/S_LangBashLexemes.v
theories/P_LangBashLexemes.v
theories/P_LangBashClaims.v
theories/S_LexemesForced.v
theories/L_FDoes.v
theories/S_LangCssLexemes.v
theories/P_LangCssLexemes.v
theories/P_LangCssClaims.v
theories/S_LangYamlLexemes.v
theories/P_LangYamlLexemes.v
theories/P_LangYamlClaims.v
theories/P_LangTex.v
theories/P_LangEbnf.v
theories/S_LangYamlBlock.v
theories/P_LangYamlBlock.v
theories/P_LangYamlProps.v
theories/M_LuaApi.v
theories/P_LuaApi.v
theories/M_LuaCli.v
theories/P_LuaCli.v
theories/M_Session.v
theories/S_Session.v
theories/P_Session.v
theories/M_Algorithm.v
theories/S_Algorithm.v
theories/P_Algorithm.v
theories/M_FunctionRef.v
theories/S_FunctionRef.v
theories/P_FunctionRef.v
theories/S_ErrorText.v
theories/P_ErrorText.v
theories/M_HtmlNames.v
theories/S_HtmlNames.v
theories/P_HtmlNames.v
theories/S_Flags.v
theories/P_Flags.v
theories/P_LangJsMembers.v
theories/P_LangHtmlScripts.v
