{"id": "C01", "title": "Language lookup by name is exact", "statement": "ulight_get_lang(name) returns the language registered for exactly that byte string in the published language list, and ULIGHT_LANG_NONE for every other byte string (no prefix, case-folded or neighbouring entry ever matches).", "quantifier": "every byte string of every length as a name", "why_tests_cant": "The lookup is a binary search over a sorted table; tests only probe a few names, not the infinitely many near misses that fall between entries.", "anchors": ["src/main/cpp/ulight.cpp:ulight_get_lang", "src/main/cpp/ulight.cpp:ulight_lang_list", "src/main/cpp/ulight.cpp:ulight_lang_entry_to_sv"]}
{"id": "C02", "title": "Language detection from a path uses the text after the last dot", "statement": "ulight_lang_from_path(path) returns NONE when path has no '.', and otherwise exactly the language registered for the text after the last '.'.", "quantifier": "every byte string as a path", "why_tests_cant": "Paths are unbounded and can contain any number of dots at any position, including at either end.", "anchors": ["src/main/cpp/ulight.cpp:ulight_lang_from_path"]}
{"id": "C03", "title": "The UTF-8 overload of path detection agrees with the char overload", "statement": "For every path, ulight_lang_from_path_u8(path) returns the same language as ulight_lang_from_path(path).", "quantifier": "every byte string as a path", "why_tests_cant": "Agreement of two functions on all inputs cannot be sampled.", "anchors": ["src/main/cpp/ulight.cpp:ulight_lang_from_path_u8", "src/main/cpp/ulight.cpp:ulight_lang_from_path", "include/ulight/ulight.hpp:lang_from_path"]}
{"id": "C04", "title": "Display names cover exactly the real languages", "statement": "ulight_lang_display_name(l) is nonempty exactly when l names a real language (1..ULIGHT_LANG_COUNT-1); for every other numeric value it returns the empty string and never reads outside the table.", "quantifier": "every numeric language value", "why_tests_cant": "Includes all out-of-range values, which the unit tests never pass.", "anchors": ["src/main/cpp/ulight.cpp:ulight_lang_display_name", "src/main/cpp/ulight.cpp:ulight_lang_display_names"]}
{"id": "C05", "title": "source_to_tokens validates its state before doing anything", "statement": "ulight_source_to_tokens returns, without invoking the flush callback, BAD_STATE for a null source with nonzero length, BAD_BUFFER for a missing token buffer/length/callback, and BAD_LANG for ULIGHT_LANG_NONE and every language value that names no language; in each case the error text is set to the message for that cause and nothing else in the state changes.", "quantifier": "every value of every field of ulight_state", "why_tests_cant": "The state space is a product of many independent fields; precedence between simultaneous defects and untouched fields need a universal statement.", "anchors": ["src/main/cpp/ulight.cpp:ulight_source_to_tokens", "src/main/cpp/ulight.cpp:error", "include/ulight/impl/highlight.hpp:highlight"]}
{"id": "C06", "title": "source_to_html validates its state before producing output", "statement": "ulight_source_to_html reports BAD_BUFFER / BAD_STATE (in the documented order of causes) without emitting any text for every invalid buffer, callback, tag name or attribute name; it never emits text unless all preconditions of both stages hold.", "quantifier": "every value of every field of ulight_state", "why_tests_cant": "Same product state space; order of checks and absence of output must hold for all combinations.", "anchors": ["src/main/cpp/ulight.cpp:ulight_source_to_html", "src/main/cpp/ulight.cpp:error"]}
{"id": "C07", "title": "A flush buffer loses, duplicates and reorders nothing", "statement": "For any sequence of appended elements (single pushes and range appends, in any mix) and explicit flushes, the concatenation of all flushed chunks followed by the current contents equals the appended sequence; every flush call receives between 1 and capacity elements, and the number of buffered elements never exceeds the capacity.", "quantifier": "every capacity >= 1, every history of push/append/flush operations", "why_tests_cant": "The chunk boundaries depend on the interaction of capacity and operation history; only an invariant over histories settles it.", "anchors": ["include/ulight/impl/buffer.hpp:Non_Owning_Buffer"]}
{"id": "C08", "title": "HTML text does not depend on buffer sizes when tokens are the same", "statement": "The concatenated HTML text produced from a fixed token list is the same for every text-buffer capacity and for every partition of the token list into flush chunks.", "quantifier": "every text buffer capacity, every chunking of the token list, every source", "why_tests_cant": "Unbounded family of capacities and chunkings.", "anchors": ["src/main/cpp/ulight.cpp:ulight_source_to_html", "include/ulight/impl/buffer.hpp:append"]}
{"id": "C09", "title": "HTML output preserves the source exactly", "statement": "For every source and every well-formed token list, deleting the generated tags from the HTML output and decoding the three entities yields exactly the source bytes, in order, including the text between and after tokens.", "quantifier": "every source byte string, every well-formed token list, every tag and attribute name free of '<' and '>'", "why_tests_cant": "Round-trip over all sources; escaping bugs hide in specific byte sequences and gap positions.", "anchors": ["src/main/cpp/ulight.cpp:ulight_source_to_html", "src/main/cpp/ulight.cpp:append_html_escaped", "src/main/cpp/ulight.cpp:html_entity_of"]}
{"id": "C10", "title": "HTML output contains no markup taken from the source", "statement": "Every '<' and '>' in the HTML output belongs to a generated tag, and every '&' begins one of the entities &lt; &gt; &amp;: the output is the concatenation of escaped text and generated start/end tags, each start tag being closed immediately after the token's escaped text.", "quantifier": "every source byte string and every well-formed token list", "why_tests_cant": "Injection safety is a statement about all inputs.", "anchors": ["src/main/cpp/ulight.cpp:append_html_escaped", "src/main/cpp/ulight.cpp:ulight_source_to_html"]}
{"id": "C11", "title": "Emission keeps tokens well formed", "statement": "Whatever sequence of successful emit operations a highlighter performs in increasing source order, the token stream received by the flush callback is in bounds, has no empty token, is strictly increasing and never overlaps, with or without coalescing and for every buffer capacity.", "quantifier": "every sequence of in-order emits, every coalescing option, every buffer capacity", "why_tests_cant": "Coalescing mutates already stored tokens and interacts with flush boundaries; needs an invariant.", "anchors": ["include/ulight/impl/highlighter.hpp:Highlighter_Base::emit", "include/ulight/impl/buffer.hpp:Non_Owning_Buffer"]}
{"id": "C12", "title": "Coalescing changes how bytes are grouped, never how they are highlighted", "statement": "For every sequence of emits, every byte of the source receives the same highlight type with coalescing on and off and for every token buffer capacity.", "quantifier": "every emit sequence, both coalescing settings, every capacity", "why_tests_cant": "Quantifies over all buffer capacities and emit histories.", "anchors": ["include/ulight/impl/highlighter.hpp:Highlighter_Base::emit"]}
{"id": "C13", "title": "Token stream is independent of the token buffer size", "statement": "The concatenated token list received by the flush callback is the same for every token_buffer_length >= 1, with and without coalescing.", "quantifier": "every emit sequence and every pair of capacities", "why_tests_cant": "Capacities are unbounded; tests use one or two fixed buffer sizes.", "anchors": ["include/ulight/impl/highlighter.hpp:Highlighter_Base::emit", "include/ulight/ulight.h:ulight_state"]}
{"id": "C14", "title": "With coalescing, adjacent equal tokens are always merged", "statement": "With coalescing enabled, for every token buffer size, the token stream contains no two consecutive tokens that touch and have the same type.", "quantifier": "every emit sequence, every capacity larger than the number of emits", "why_tests_cant": "Needs an invariant over all emit sequences.", "anchors": ["include/ulight/impl/highlighter.hpp:Highlighter_Base::emit"]}
{"id": "C15", "title": "Nested-language tokens are translated to the enclosing source", "statement": "Tokens produced by a nested highlighter on a span of the source appear in the outer stream translated by the position of the span, inside the span, in order, for every nested and outer buffer capacity.", "quantifier": "every nested token stream, every span position, every pair of capacities", "why_tests_cant": "Interleaving of two buffers' flushes depends on both capacities.", "anchors": ["include/ulight/impl/highlighter.hpp:consume_nested_language", "include/ulight/impl/highlighter.hpp:sub_buffer"]}
{"id": "C16", "title": "UTF-8 encode/decode round trip", "statement": "For every Unicode scalar value, encoding produces 1..4 bytes whose decoding returns the same scalar value and consumes exactly those bytes, whatever bytes follow.", "quantifier": "every Unicode scalar value and every suffix", "why_tests_cant": "1.1 million code points times unbounded suffixes.", "anchors": ["include/ulight/impl/unicode.hpp:encode8_unchecked", "include/ulight/impl/unicode.hpp:decode_and_length"]}
{"id": "C17", "title": "The UTF-8 decoder accepts exactly the well-formed sequences", "statement": "Decoding succeeds at the start of a byte string if and only if the string starts with one of the byte sequences of Unicode Table 3-7, and then returns the scalar value it denotes and its length; overlong forms, surrogates and values above U+10FFFF are rejected.", "quantifier": "every byte string", "why_tests_cant": "2^32 four-byte windows plus truncated inputs.", "anchors": ["include/ulight/impl/unicode.hpp:decode_and_length", "include/ulight/impl/unicode.hpp:is_valid"]}
{"id": "C18", "title": "Whole-string validity means concatenation of encoded scalar values", "statement": "utf8::is_valid(s) is true exactly when s is the concatenation of the UTF-8 encodings of some sequence of Unicode scalar values, and that sequence is unique.", "quantifier": "every byte string of every length", "why_tests_cant": "Unbounded strings; boundary interactions between sequences.", "anchors": ["include/ulight/impl/unicode.hpp:is_valid"]}
{"id": "C19", "title": "Decoding with replacement always makes progress and agrees with strict decoding", "statement": "For every nonempty byte string shorter than 2^31 bytes, decode_and_length_or_replacement consumes between 1 and min(4, length) bytes; on input that strictly decodes it returns the same code point and length, and otherwise U+FFFD.", "quantifier": "every nonempty byte string (and separately: strings of 2^31 bytes or more)", "why_tests_cant": "Includes strings too large to construct in a test.", "anchors": ["include/ulight/impl/unicode.hpp:decode_and_length_or_replacement"]}
{"id": "C20", "title": "Code point search equals a naive scan", "statement": "utf8::find_if / length_if return the byte offset of the first code point (decoded with replacement) satisfying the predicate, exactly as a one-code-point-at-a-time scan would, in spite of the blocked fast path.", "quantifier": "every byte string and every predicate", "why_tests_cant": "The fast path depends on the distance to the end of the string; tests cannot cover all alignments.", "anchors": ["include/ulight/impl/unicode_algorithm.hpp:find_if"]}
{"id": "C21", "title": "Character set operations are set algebra", "statement": "For every pair of character sets, union, intersection, difference, complement, insertion, removal and membership agree with the mathematical set operations on code units 0..N-1.", "quantifier": "every pair of sets and every code unit", "why_tests_cant": "2^512 pairs of sets.", "anchors": ["include/ulight/impl/charset.hpp:Charset"]}
{"id": "C22", "title": "Charset range construction yields exactly the range", "statement": "range_before(i,j) contains exactly the code units c with i <= c < j, and its construction performs no out-of-range shift.", "quantifier": "every pair of bounds within the set size", "why_tests_cant": "Needs all pairs; the failing pairs are not used by any test.", "anchors": ["include/ulight/impl/charset.hpp:range_before"]}
{"id": "C23", "title": "XID lookup equals range membership", "statement": "is_xid_start(c) / is_xid_continue(c) hold exactly when c is ASCII-legal or lies in one of the published ranges, for every 32-bit code point value.", "quantifier": "every 32-bit code point value", "why_tests_cant": "The binary search must be right for all 2^32 values.", "anchors": ["src/main/cpp/chars.cpp:is_xid_start_fallback", "include/ulight/impl/unicode_chars.hpp"]}
{"id": "C24", "title": "ASCII case-insensitive comparison is a congruence", "statement": "equals_ignore_case is an equivalence relation, holds exactly when the strings are equal after ASCII lower-casing, and agrees with compare_to_lower returning equal; compare_to_lower is a total order on lower-cased strings; starts_with_ignore_case and contains_ignore_case are the corresponding prefix and infix tests.", "quantifier": "every pair/triple of byte strings", "why_tests_cant": "Relational laws over all strings.", "anchors": ["include/ulight/impl/ascii_algorithm.hpp"]}
{"id": "C25", "title": "The edit script is correct", "statement": "Applying the script returned by shortest_edit_script(from,to) to from yields exactly to.", "quantifier": "every pair of line sequences", "why_tests_cant": "All pairs of sequences of any length.", "anchors": ["include/ulight/impl/string_diff.hpp:shortest_edit_script"]}
{"id": "C26", "title": "The edit script is shortest", "statement": "No edit script transforming from into to has fewer insertions and deletions than the returned one.", "quantifier": "every pair of line sequences and every competing edit script", "why_tests_cant": "Minimality quantifies over all competing scripts.", "anchors": ["include/ulight/impl/string_diff.hpp:shortest_edit_script"]}
{"id": "C27", "title": "Deletions precede insertions inside each change block", "statement": "In the returned edit script, within every maximal run without common lines, all deletions come before all insertions.", "quantifier": "every pair of line sequences", "why_tests_cant": "Depends on the partition step over all runs.", "anchors": ["include/ulight/impl/string_diff.hpp:shortest_edit_script"]}
{"id": "C28", "title": "Line splitting is lossless", "statement": "split_lines returns pieces without newline characters which, joined with newlines, give back the input (up to the documented treatment of a trailing newline).", "quantifier": "every byte string", "why_tests_cant": "All strings, including consecutive and trailing newlines.", "anchors": ["include/ulight/impl/string_diff.hpp:split_lines"]}
{"id": "C29", "title": "Hunk headers and bodies are consistent", "statement": "In the printed unified diff, hunks are disjoint and ordered, every changed line appears in exactly one hunk, the header's line counts equal the number of lines printed for each side, and applying the hunks to the old text yields the new text.", "quantifier": "every pair of line sequences and every context size", "why_tests_cant": "Hunk merging depends on gaps relative to twice the context size.", "anchors": ["include/ulight/impl/string_diff.hpp:print_diff"]}
{"id": "C30", "title": "JSON number matching is the JSON grammar", "statement": "The JSON number matcher's reported parts sum to its length, and it reports a non-erroneous number exactly for the longest prefix in the RFC 8259 number grammar.", "quantifier": "every byte string", "why_tests_cant": "All strings.", "anchors": ["src/main/cpp/lang/json.cpp:match_number"]}
{"id": "C31", "title": "The JSON parser reports exactly the JSON grammar", "statement": "For every source and every combination of options: if parse_json accepts, the source starts with a JSON text (comments allowed only if enabled) and the calls made to the visitor are, in order, the ones that text has by RFC 8259, balanced, with every literal, escape, number and bracket at its own byte offset, line and column; and every RFC 8259 text is accepted with its calls. (The text and position of block comments and the text used for number conversion are the subject of C34 and C57.)", "quantifier": "every source and every parse option", "why_tests_cant": "Nesting depth and length are unbounded.", "anchors": ["src/main/cpp/lang/json.cpp:Parser", "include/ulight/json.hpp:JSON_Visitor"]}
{"id": "C32", "title": "A successful JSON parse means the whole source is one JSON value", "statement": "parse_json returns true only if the entire source is one JSON value with surrounding whitespace (and comments when allowed).", "quantifier": "every source", "why_tests_cant": "Soundness over all strings.", "anchors": ["src/main/cpp/lang/json.cpp:Parser::operator()"]}
{"id": "C33", "title": "A failed JSON parse reports an error", "statement": "Whenever parse_json returns false, the visitor's error callback has been invoked at least once, and parsing never runs into an unreachable-code assertion.", "quantifier": "every source and every parse option", "why_tests_cant": "All malformed sources.", "anchors": ["src/main/cpp/lang/json.cpp:Parser", "include/ulight/json.hpp:JSON_Visitor"]}
{"id": "C34", "title": "JSON comments are reported with their own text and position", "statement": "Each line or block comment callback receives the comment's own source text and the position of its leading '/'.", "quantifier": "every JSONC source", "why_tests_cant": "All positions and comment bodies.", "anchors": ["src/main/cpp/lang/json.cpp:consume_block_comment", "include/ulight/json.hpp"]}
{"id": "C35", "title": "JSON highlighting is total and well formed", "statement": "Highlighting any source as JSON or JSONC terminates without assertion failure, out-of-range access or exception, and yields a well-formed token stream.", "quantifier": "every byte string, every option, every buffer capacity", "why_tests_cant": "All sources, unbounded nesting.", "anchors": ["src/main/cpp/lang/json.cpp:Highlighter"]}
{"id": "C36", "title": "Plain-text, TeX and LaTeX highlighting is total and well formed", "statement": "Highlighting any source as txt, tex or latex succeeds without assertion failure and yields a well-formed token stream.", "quantifier": "every byte string, every option, every buffer capacity", "why_tests_cant": "All sources.", "anchors": ["src/main/cpp/lang/tex.cpp:Highlighter", "include/ulight/impl/highlight.hpp:highlight_txt"]}
{"id": "C37", "title": "Diff highlighting is total and line-exact", "statement": "Highlighting any source as diff succeeds without assertion failure; each nonempty line gets exactly one token covering its content without the terminator, of the type determined by its first characters.", "quantifier": "every byte string", "why_tests_cant": "All line structures (LF, CRLF, lone CR).", "anchors": ["src/main/cpp/lang/diff.cpp", "src/main/cpp/parse_utils.cpp:match_crlf_line"]}
{"id": "C38", "title": "EBNF highlighting is total and well formed", "statement": "Highlighting any source as EBNF succeeds without assertion failure and yields a well-formed token stream that covers every non-whitespace byte.", "quantifier": "every byte string", "why_tests_cant": "All sources.", "anchors": ["src/main/cpp/lang/ebnf.cpp"]}
{"id": "C39", "title": "HTML highlighting never fails", "statement": "Highlighting any source as HTML terminates without assertion failure or out-of-range access and yields a well-formed token stream.", "quantifier": "every byte string", "why_tests_cant": "All sources, including truncated tags.", "anchors": ["src/main/cpp/lang/html.cpp"]}
{"id": "C40", "title": "JavaScript/TypeScript highlighting never fails", "statement": "Highlighting any source as JavaScript or TypeScript terminates without assertion failure or out-of-range access and yields a well-formed token stream.", "quantifier": "every byte string", "why_tests_cant": "All sources, including truncated strings, escapes and JSX.", "anchors": ["src/main/cpp/lang/js.cpp"]}
{"id": "C41", "title": "Escape matchers stay inside the string and classify correctly", "statement": "For every escape kind and input, the matched length never exceeds the input, and the escape is non-erroneous exactly when the documented digit count / braces are present.", "quantifier": "every escape kind and byte string", "why_tests_cant": "All strings and kinds.", "anchors": ["include/ulight/impl/escapes.hpp:match_common_escape"]}
{"id": "C42", "title": "Separated digit sequences reject misplaced separators", "statement": "match_separated_digits reports erroneous exactly when the matched digit sequence has a leading, trailing or doubled separator.", "quantifier": "every byte string, base and separator", "why_tests_cant": "All strings.", "anchors": ["src/main/cpp/parse_utils.cpp:match_separated_digits", "include/ulight/impl/numbers.hpp"]}
{"id": "C43", "title": "Common number matching partitions its match", "statement": "For every input and option set, the parts reported by match_common_number (sign, prefix, integer, radix point, fraction, exponent, suffix) sum to the reported length, which never exceeds the input, and highlighting such a number emits exactly that many bytes.", "quantifier": "every byte string and option set", "why_tests_cant": "All option sets and strings.", "anchors": ["src/main/cpp/parse_utils.cpp:match_common_number", "include/ulight/impl/highlighter.hpp:highlight_number"]}
{"id": "C44", "title": "Suffix numbers accept separators between digits", "statement": "match_suffix_number matches exactly alphanumeric runs (with the separator only when one is configured) and accepts separated digits of the suffix's base.", "quantifier": "every byte string and option set", "why_tests_cant": "All strings.", "anchors": ["src/main/cpp/parse_utils.cpp:match_suffix_number"]}
{"id": "C45", "title": "Blank-line sequences end with a newline", "statement": "find_blank_line_sequence returns a span of whitespace inside the string, starting at the beginning of a line, whose last character is a newline; it returns an empty span exactly when there is no blank line.", "quantifier": "every byte string", "why_tests_cant": "All strings.", "anchors": ["src/main/cpp/parse_utils.cpp:find_blank_line_sequence", "include/ulight/impl/parse_utils.hpp"]}
{"id": "C46", "title": "Integer literal parsing returns the denoted value or nothing", "statement": "parse_uinteger_literal / parse_integer_literal return the mathematical value of the literal when it fits and nothing otherwise.", "quantifier": "every byte string", "why_tests_cant": "All digit strings, including overflow boundaries.", "anchors": ["src/main/cpp/parse_utils.cpp:parse_uinteger_literal"]}
{"id": "C47", "title": "Highlight type names identify the type", "statement": "Every highlight type has a nonempty ASCII short name made of lower-case letters and underscores, and distinct types have distinct short names; unknown values give the empty name.", "quantifier": "every pair of numeric highlight type values", "why_tests_cant": "Pairs of all values, including values that are no enumerator.", "anchors": ["include/ulight/ulight.hpp:highlight_type_short_string", "include/ulight/ulight.hpp:ULIGHT_HIGHLIGHT_TYPE_ENUM_DATA"]}
{"id": "C48", "title": "State setters set exactly the field they name", "statement": "Each C++ State setter changes exactly the fields its name announces, and the corresponding getter returns the value set.", "quantifier": "every state and argument", "why_tests_cant": "Frame conditions over all states.", "anchors": ["include/ulight/ulight.hpp:State"]}
{"id": "C49", "title": "A file handle is closed exactly once", "statement": "For every history of construction, move construction, move assignment, release and destruction of Unique_File objects, every opened file is closed at most once, and exactly once if never released.", "quantifier": "every history of Unique_File operations", "why_tests_cant": "Histories are unbounded.", "anchors": ["include/ulight/impl/io.hpp:Unique_File"]}
{"id": "C50", "title": "Allocation failure is reported, not dereferenced", "statement": "ulight_new returns null (and touches no memory) when allocation fails, and otherwise a fully initialised state.", "quantifier": "both allocation outcomes", "why_tests_cant": "Allocation failure cannot be provoked deterministically in a unit test.", "anchors": ["src/main/cpp/ulight.cpp:ulight_new", "src/main/cpp/ulight.cpp:ulight_init"]}
{"id": "C51", "title": "Decoding with replacement agrees with strict decoding for strings of any length", "statement": "Whenever a byte string, however long, starts with a well-formed UTF-8 sequence, decode_and_length_or_replacement returns the same code point and length as decode_and_length.", "quantifier": "every byte string, including those of 2^31 bytes and more", "why_tests_cant": "the failing inputs are larger than two gigabytes, far beyond what unit tests use", "anchors": ["include/ulight/impl/unicode.hpp: decode_and_length_or_replacement"]}
{"id": "C52", "title": "Hardware-accelerated decoding agrees with portable decoding", "statement": "For every well-formed UTF-8 sequence, builds with a bit compression instruction (BMI2, SVE2) decode the same code point as portable builds.", "quantifier": "every well-formed UTF-8 sequence and every padding", "why_tests_cant": "a test run exercises only the code path of the machine it was compiled for", "anchors": ["include/ulight/impl/unicode.hpp: decode_unchecked, bit_compress"]}
{"id": "C53", "title": "Counting and iterating code points enumerate the encoded text", "statement": "For every sequence of Unicode scalar values, counting the code points of its UTF-8 encoding gives its length and iterating over the encoding gives back the sequence, without an exception.", "quantifier": "every sequence of scalar values of every length", "why_tests_cant": "unbounded sequences over more than a million values", "anchors": ["include/ulight/impl/unicode.hpp: code_points_unchecked, Code_Point_Iterator, Code_Point_View"]}
{"id": "C54", "title": "ASCII scanning functions return the exact boundary", "statement": "find_if, find_if_not, length_if, length_if_not, length_if_head_tail, length_before and length_until return exactly the first position at or after the start where the stop condition holds (one past it for length_until), or the end of the string.", "quantifier": "every byte string, predicate, delimiter and start position", "why_tests_cant": "Unbounded strings, arbitrary predicates", "anchors": ["include/ulight/impl/ascii_algorithm.hpp:find_if", "include/ulight/impl/ascii_algorithm.hpp:length_if_head_tail", "include/ulight/impl/ascii_algorithm.hpp:length_until"]}
{"id": "C55", "title": "Escapes without braces are matched exactly", "statement": "For every escape kind that is a digit count or a line terminator, and every text after the introducer: the match stays inside the text; it is non-erroneous exactly when some prefix has the documented shape, and then the matched length is that of the longest such prefix.", "quantifier": "every escape kind without braces and every byte string", "why_tests_cant": "All strings and kinds, including every truncation.", "anchors": ["include/ulight/impl/escapes.hpp:match_common_escape"]}
{"id": "C56", "title": "Lines and enclosed spans are found exactly", "statement": "match_crlf_line splits off a content without line terminators followed by exactly one terminator (CRLF, LF or a CR not followed by LF) unless the text ends first; match_enclosed matches exactly from the prefix through the first later occurrence of the suffix, or to the end of the text and then reports non-termination, or nothing when the prefix is absent.", "quantifier": "every byte string, prefix and suffix", "why_tests_cant": "All strings, prefixes and suffixes, including overlapping ones.", "anchors": ["src/main/cpp/parse_utils.cpp:match_crlf_line", "include/ulight/impl/parse_utils.hpp:match_enclosed"]}
{"id": "C57", "title": "JSON number values are read from the number's own text", "statement": "With number parsing enabled, the value passed to the visitor for a number is the conversion of exactly the number's own source text.", "quantifier": "every source", "why_tests_cant": "All continuations of the source after the number.", "anchors": ["src/main/cpp/lang/json.cpp:Parser::expect_number"]}
{"id": "C58", "title": "Valid JSON is highlighted without errors", "statement": "Highlighting a valid JSON text marks no part of it as an error and highlights every byte other than whitespace.", "quantifier": "every valid JSON text", "why_tests_cant": "All texts, unbounded nesting.", "anchors": ["src/main/cpp/lang/json.cpp:Highlighter"]}
{"id": "C59", "title": "HTML character references are recognised exactly", "statement": "match_character_reference returns a positive length exactly when the text begins with an ampersand, a well-formed decimal, hexadecimal or named body, and a semicolon; the length is that of this reference.", "quantifier": "every text and length", "why_tests_cant": "Unbounded body lengths and all byte values.", "anchors": ["src/main/cpp/lang/html.cpp:match_character_reference"]}
{"id": "C60", "title": "HTML comments are recognised exactly", "statement": "html match_comment reports a terminated comment of length n exactly when the text begins with a comment of length n as the HTML standard defines it (restrictions on the beginning, the contents and the end of the comment text).", "quantifier": "every text and length", "why_tests_cant": "Unbounded comment text; all overlaps of delimiters.", "anchors": ["src/main/cpp/lang/html.cpp:match_comment"]}
{"id": "C61", "title": "C and C++ highlighting is total and well-formed", "statement": "Highlighting any source as C or C++ succeeds, terminates, violates no assertion or precondition and produces a well-formed in-bounds token stream.", "quantifier": "every byte sequence, both option values, every token buffer size", "why_tests_cant": "Unbounded sources with arbitrary bytes, including truncated UTF-8 at the end.", "anchors": ["src/main/cpp/lang/cpp.cpp:Highlighter", "src/main/cpp/lang/cpp.cpp:highlight_c", "src/main/cpp/lang/cpp.cpp:highlight_cpp"]}
{"id": "C62", "title": "C and C++ operators are matched by maximal munch", "statement": "The operator or punctuator matched at any position of a C or C++ source is the longest one of the language that the source text begins with there, except that in C++ (only) a left angle bracket followed by two colons that are not followed by a colon or right angle bracket is a token by itself; nothing is matched exactly when no operator is there.", "quantifier": "every text, both languages", "why_tests_cant": "All continuations of the text after an operator; overlapping operators.", "anchors": ["src/main/cpp/lang/cpp.cpp:match_preprocessing_op_or_punc"]}
{"id": "C63", "title": "C and C++ names are looked up exactly", "statement": "A token code is found, with its highlight and feature source, exactly when it is in the table of tokens.", "quantifier": "every string", "why_tests_cant": "Binary search over all strings.", "anchors": ["src/main/cpp/lang/cpp.cpp:cpp_token_type_by_code"]}
{"id": "C64", "title": "C and C++ comments are delimited exactly", "statement": "A line comment extends to the end of its logical line: to the first line break that is not spliced away by a backslash followed only by horizontal white space. A block comment is terminated exactly by the first terminator after its opening.", "quantifier": "every text", "why_tests_cant": "Unbounded comments, all combinations of backslashes, white space and line break kinds.", "anchors": ["src/main/cpp/lang/cpp.cpp:match_line_comment", "src/main/cpp/lang/cpp.cpp:match_block_comment", "src/main/cpp/lang/cpp.cpp:match_newline_escape"]}
{"id": "C65", "title": "Identifiers are matched to their full length", "statement": "In valid UTF-8 text below 2 GiB, the identifier matched at the beginning is the longest sequence of code points that is an identifier (XID_Start or underscore, then XID_Continue or underscore), and nothing is matched exactly when there is none. The same function serves C, C++, Java, Kotlin, Python and Rust.", "quantifier": "every sequence of Unicode scalar values", "why_tests_cant": "Unbounded texts over all code points.", "anchors": ["src/main/cpp/lang/cpp.cpp:match_identifier"]}
{"id": "C66", "title": "Raw string literals are highlighted exactly", "statement": "A raw string literal whose contents contain arbitrary bytes but no earlier closing sequence is highlighted as prefix, opening delimiter, contents and closing delimiter, one token each.", "quantifier": "every delimiter and contents", "why_tests_cant": "All delimiters and contents, including near misses of the closing sequence.", "anchors": ["src/main/cpp/lang/cpp.cpp:consume_raw_string_and_suffix"]}
{"id": "C67", "title": "CSS highlighting succeeds with well-formed tokens", "statement": "For every source text, highlighting it as CSS terminates, fails no assertion, throws nothing and produces non-overlapping, in-order tokens within the text, whatever the buffer size and the coalescing flag.", "quantifier": "all byte strings, flags and buffer sizes", "why_tests_cant": "Style sheets are unbounded; escapes, strings, comments, numbers and identifiers interleave at arbitrary positions and with arbitrary multi-byte characters.", "anchors": ["src/main/cpp/lang/css.cpp: Highlighter, consume_comments, consume_string_token, consume_ident_like_token, match_escaped_code_point", "include/ulight/impl/lang/css.hpp"]}
{"id": "C68", "title": "CSS numbers are recognised exactly", "statement": "In CSS, a number is recognised at a position exactly when a number of the CSS grammar starts there (a sign or none, digits or a fraction or both, an exponent or none), and the longest such number is taken.", "quantifier": "all byte strings", "why_tests_cant": "The grammar has unboundedly many numbers and continuations (1.e3, 12em, -.5e+3); tests sample a few.", "anchors": ["src/main/cpp/lang/css.cpp: starts_with_number, match_number"]}
{"id": "C69", "title": "CSS url( is recognised as a URL", "statement": "Every identifier url, in any letter case, directly followed by an opening parenthesis is classified as a URL; any other identifier followed by a parenthesis is a function, and every other identifier is a plain identifier.", "quantifier": "all byte strings", "why_tests_cant": "It is a claim about every identifier and everything that follows it.", "anchors": ["src/main/cpp/lang/css.cpp: match_ident_like_token, consume_ident_like_token"]}
{"id": "C70", "title": "The printed diff of two texts can be applied", "statement": "print_lines_diff on two texts, without colours and with a context size below 2^63, prints a unified diff whose hunks turn the lines of the first text into the lines of the second, at the line numbers and with the line counts given in the headers, with at most the requested number of context lines.", "quantifier": "every pair of texts and every context size below 2^63", "why_tests_cant": "All pairs of texts; merging depends on gaps and context.", "anchors": ["include/ulight/impl/string_diff.hpp:print_lines_diff", "include/ulight/impl/string_diff.hpp:print_diff"]}
{"id": "C71", "title": "A file is never leaked", "statement": "For every history of construction, opening, move construction, move assignment, swapping, closing, release and destruction of Unique_File objects, once all objects are destroyed every opened file was released to the caller or closed at least once.", "quantifier": "every history of Unique_File operations", "why_tests_cant": "Histories are unbounded.", "anchors": ["include/ulight/impl/io.hpp:Unique_File"]}
{"id": "C72", "title": "Loading a file yields exactly its bytes", "statement": "file_to_bytes appends exactly the bytes of the file with the given path to the vector, whatever their number in relation to the block size, and reports cannot_open or read_error otherwise.", "quantifier": "every path, file content, block size and position of a read error", "why_tests_cant": "Contents of any length, in particular multiples of the block size.", "anchors": ["src/main/cpp/io.cpp:file_to_bytes_chunked", "include/ulight/impl/io.hpp:file_to_bytes"]}
{"id": "C73", "title": "A UTF-8 file is loaded exactly if it is UTF-8", "statement": "For a path that has no NUL and is shorter than the buffer, load_utf8_file returns the bytes of the file if they are the UTF-8 encoding of some scalar values, and reports corrupted otherwise.", "quantifier": "every file content, block size and such path", "why_tests_cant": "All contents; sequences may cross block boundaries.", "anchors": ["src/main/cpp/io.cpp:load_utf8_file"]}
{"id": "C74", "title": "A UTF-32 file is decoded unit by unit", "statement": "For a path that has no NUL and is shorter than the buffer, load_utf32le_file returns the code units whose little-endian bytes are the file, and reports corrupted exactly if there are none.", "quantifier": "every file content, block size and such path", "why_tests_cant": "All contents and lengths.", "anchors": ["src/main/cpp/io.cpp:load_utf32le_file"]}
{"id": "C75", "title": "Highlighting LLVM IR succeeds on every input and skips only blanks", "statement": "For every byte string, highlighting it as LLVM IR terminates without assertion failure or out-of-bounds access, gives an ordered, in-bounds token stream, and every byte other than space, tab, carriage return and line feed is covered by a token.", "quantifier": "every byte string, both settings of strict and coalescing, every token buffer size", "why_tests_cant": "A missed case of the character switch, an unterminated string or comment, or a misjudged length shows only on particular byte sequences.", "anchors": ["src/main/cpp/lang/llvm.cpp:Highlighter", "src/main/cpp/lang/llvm.cpp:highlight_llvm"]}
{"id": "C76", "title": "LLVM words are highlighted as a whole and by their kind", "statement": "A source that starts with a word (letters, digits, - and _, not starting with a digit or a hexadecimal integer prefix) followed by something that is not part of the word has exactly that word as first token: a label when a colon follows, and otherwise a type, terminator, null-like, boolean or other keyword by exact comparison with the published lists; i followed by digits is a type.", "quantifier": "every word of any length, every continuation of the source", "why_tests_cant": "The lookup is a binary search over a table; near misses (prefixes, extensions, different case) are infinitely many.", "anchors": ["src/main/cpp/lang/llvm.cpp:classify_keyword", "src/main/cpp/lang/llvm.cpp:keywords", "src/main/cpp/lang/llvm.cpp:expect_keyword_or_label"]}
{"id": "C77", "title": "LLVM number constants are highlighted as numbers", "statement": "Every LLVM number constant (decimal with optional minus sign; hexadecimal with the prefixes 0x, 0xK, 0xL, 0xM, 0xR, s0x, u0x) followed by a character that cannot continue it is highlighted as a number, none of it as error or keyword.", "quantifier": "every number constant of any length, every continuation of the source", "why_tests_cant": "Literals have unbounded length and interact with the order of the prefix list and with the character dispatch.", "anchors": ["src/main/cpp/lang/llvm.cpp:expect_number", "src/main/cpp/lang/llvm.cpp:consume_anything"]}
{"id": "C78", "title": "Highlighting Bash succeeds on every input and skips only white space", "statement": "For every byte string, highlighting it as Bash terminates without assertion failure or out-of-bounds access at any nesting of quotes, substitutions and subshells, gives an ordered, in-bounds token stream, and every byte other than space, tab, line feed, vertical tab and carriage return is covered by a token.", "quantifier": "every byte string, both settings of strict and coalescing, every token buffer size, every nesting depth", "why_tests_cant": "The functions are mutually recursive and assert that a word or substitution was found; unit tests visit a few nestings only.", "anchors": ["src/main/cpp/lang/bash.cpp:Highlighter", "src/main/cpp/lang/bash.cpp:highlight_bash"]}
{"id": "C79", "title": "Bash command lines: first word is the command, later words are options or arguments", "statement": "In a script made of any number of lines of unquoted words separated by blanks, exactly the words are tokens: the first word of each line is a command, later words are options if they start with a dash and string arguments otherwise.", "quantifier": "every number of lines, every number and length of words, every amount of blanks", "why_tests_cant": "The state machine carries its state across lines and words of unbounded number.", "anchors": ["src/main/cpp/lang/bash.cpp:consume_commands", "src/main/cpp/lang/bash.cpp:consume_word"]}
{"id": "C80", "title": "A Bash word after a command separator is a command", "statement": "After a command and one of ; & | && ||, with or without blanks, the next word is highlighted as a command.", "quantifier": "every pair of unquoted words and every separator", "why_tests_cant": "Needs all words, not samples; the existing tests do not cover blanks after a separator.", "anchors": ["src/main/cpp/lang/bash.cpp:consume_commands"]}
{"id": "C81", "title": "Bash parameter expansions are highlighted as interpolation", "statement": "In dollar-brace, an optional length operator #, a name and the closing brace, the delimiters and the name are highlighted as interpolation and nothing as anything else.", "quantifier": "every name of any length, with and without the length operator", "why_tests_cant": "Names are unbounded and the dispatch on the next character happens inside a nested call.", "anchors": ["src/main/cpp/lang/bash.cpp:consume_substitution", "src/main/cpp/lang/bash.cpp:consume_commands"]}
{"id": "C82", "title": "Python highlighting terminates and covers everything but white space", "statement": "For every byte string, highlighting Python succeeds without undefined behaviour, failed assertion or endless loop; the tokens are in order, non-empty, disjoint and inside the source, and every code unit outside the tokens is a space, tab, line feed, form feed or carriage return.", "quantifier": "all byte strings, including ill-formed UTF-8", "why_tests_cant": "the space of inputs is infinite; a single input with a wrong length computation is undefined behaviour", "anchors": ["src/main/cpp/lang/python.cpp: highlight_python", "include/ulight/impl/lang/python.hpp"]}
{"id": "C83", "title": "Python programs get exactly the expected tokens", "statement": "For every sequence of Python lexemes (comments, keywords, names, operators by longest match, numbers in every base with digit groups, fraction, exponent and imaginary suffix, string literals with every known prefix, short and triple quotes, escape sequences and raw text, closed or not) with white space between them, highlighting produces exactly the tokens of these lexemes with their documented highlight types and no others.", "quantifier": "all finite sequences of lexemes in which each lexeme is maximal", "why_tests_cant": "the interaction of a lexeme with the text that follows cannot be enumerated", "anchors": ["src/main/cpp/lang/python.cpp: highlight_python, match_number, match_symbol, match_escape_sequence, consume_string"]}
{"id": "C84", "title": "Every Python string prefix is recognized", "statement": "A string literal with any of the prefixes of Python (r, u, b, br, f, fr and permutations, in any case) is highlighted as decoration followed by a string literal with the right treatment of escapes.", "quantifier": "all prefixes and all literals", "why_tests_cant": "literals are unbounded; the missing entries of the table show only for particular prefixes", "anchors": ["src/main/cpp/lang/python.cpp: classify_string_prefix, expect_string_literal"]}
{"id": "C85", "title": "Every Python number is highlighted as number", "statement": "Every number of the grammar of Python, with or without integer part, is highlighted as number, wherever it stands.", "quantifier": "all numbers", "why_tests_cant": "infinitely many numbers", "anchors": ["src/main/cpp/lang/python.cpp: match_number", "src/main/cpp/parse_utils.cpp: match_common_number, match_separated_digits"]}
{"id": "C86", "title": "Python octal escapes of one to three digits are highlighted as escapes", "statement": "In a string literal, a backslash and one, two or three octal digits are highlighted as escape sequence.", "quantifier": "all such digit strings", "why_tests_cant": "the escape matcher looks at the following text", "anchors": ["src/main/cpp/lang/python.cpp: match_escape_sequence", "include/ulight/impl/escapes.hpp"]}
{"id": "C87", "title": "Java highlighting terminates and covers everything but white space", "statement": "For every byte string, highlighting Java succeeds without undefined behaviour, failed assertion or endless loop; the tokens are in order, non-empty, disjoint and inside the source, and every code unit outside the tokens is a space, tab, line feed, form feed or carriage return.", "quantifier": "all byte strings, including ill-formed UTF-8", "why_tests_cant": "the space of inputs is infinite; a single input with a wrong length computation is undefined behaviour", "anchors": ["src/main/cpp/lang/java.cpp: highlight_java", "include/ulight/impl/lang/java.hpp"]}
{"id": "C88", "title": "Java programs get exactly the expected tokens", "statement": "For every sequence of Java lexemes (comments, keywords, names, operators by longest match, numbers in every base with digit groups, hexadecimal floats, character literals, strings and text blocks with escape sequences, closed or not, and dotted annotations) with white space between them, highlighting produces exactly the tokens of these lexemes with their documented highlight types and no others.", "quantifier": "all finite sequences of lexemes in which each lexeme is maximal", "why_tests_cant": "the interaction of a lexeme with the text that follows cannot be enumerated", "anchors": ["src/main/cpp/lang/java.cpp: highlight_java, match_number, match_symbol, match_escape_sequence, expect_text_block"]}
{"id": "C89", "title": "Every Java identifier and keyword is one token", "statement": "Every identifier of Java (letters, digits, underscores and dollar signs) is highlighted as one name and every keyword as one keyword.", "quantifier": "all identifiers", "why_tests_cant": "infinitely many identifiers", "anchors": ["src/main/cpp/lang/java.cpp: expect_number, expect_identifier", "src/main/cpp/parse_utils.cpp: match_common_number"]}
{"id": "C90", "title": "Java character literals of any code point", "statement": "A character literal of any printable code point is highlighted as delimiter, string, delimiter.", "quantifier": "all Unicode scalar values", "why_tests_cant": "over a million code points; the failing ones are those of several code units", "anchors": ["src/main/cpp/lang/java.cpp: expect_character_literal"]}
{"id": "C91", "title": "Every Java number is highlighted as number", "statement": "Every number of the grammar of Java is highlighted as number, wherever it stands.", "quantifier": "all numbers", "why_tests_cant": "infinitely many numbers", "anchors": ["src/main/cpp/lang/java.cpp: match_number", "src/main/cpp/parse_utils.cpp: match_common_number, match_separated_digits"]}
{"id": "C92", "title": "Java annotation declarations are not annotations", "statement": "The @ of an annotation type declaration is punctuation followed by the keyword interface, and every other @ with a dotted name is an annotation.", "quantifier": "all dotted names", "why_tests_cant": "infinitely many names", "anchors": ["src/main/cpp/lang/java.cpp: expect_annotation"]}
{"id": "C93", "title": "Highlighting Kotlin always succeeds and covers everything but white space", "statement": "For every source text (well-formed or not, any bytes), highlighting it as Kotlin reports success, reads nothing outside the text, fails no assertion, terminates, produces well-formed tokens, and every code unit that is not white space lies in a token.", "quantifier": "all byte strings, buffer capacities and coalescing settings", "why_tests_cant": "Nesting of braces and string interpolation is unbounded and every byte string is an input; tests sample a few.", "anchors": ["src/main/cpp/lang/kotlin.cpp:highlight_kotlin", "src/main/cpp/lang/kotlin.cpp:consume_brace_balanced_tokens"]}
{"id": "C94", "title": "Kotlin programs get exactly the tokens of their lexemes", "statement": "A text that is a sequence of Kotlin lexemes (keywords, labelled jumps, identifiers, backtick identifiers, numbers, ranges, operators, annotations with lists and use-site targets, comments, character, line and multi-line string literals with escapes and interpolations nested to any depth, balanced braces) and white space is highlighted with exactly the specified token for each part, in order.", "quantifier": "all programs built from the lexemes of the specification, at any length and nesting depth of interpolations", "why_tests_cant": "The claim is about unboundedly many programs with unboundedly nested interpolation.", "anchors": ["src/main/cpp/lang/kotlin.cpp:highlight_kotlin", "include/ulight/impl/lang/kotlin.hpp"]}
{"id": "C95", "title": "Kotlin identifiers and keywords", "statement": "Every ASCII identifier alone is highlighted as one name, and every hard keyword alone with the highlight of the keyword.", "quantifier": "all ASCII identifiers and all keywords", "why_tests_cant": "There are infinitely many identifiers.", "anchors": ["src/main/cpp/lang/kotlin.cpp:expect_identifier", "include/ulight/impl/lang/kotlin.hpp"]}
{"id": "C96", "title": "Kotlin operators", "statement": "Every Kotlin operator alone is one token, and a negated name is the operator followed by the name.", "quantifier": "all operators and all names after a negation", "why_tests_cant": "The claim about negation ranges over all names.", "anchors": ["src/main/cpp/lang/kotlin.cpp:match_symbol"]}
{"id": "C97", "title": "Kotlin integer suffixes", "statement": "Every decimal integer literal, with digit separators and any suffix of the language, is highlighted as digits followed by one suffix.", "quantifier": "all digit groups and all suffixes", "why_tests_cant": "There are infinitely many literals.", "anchors": ["src/main/cpp/lang/kotlin.cpp:match_number"]}
{"id": "C98", "title": "Kotlin string text with dollar signs", "statement": "A string literal without escapes and interpolations is highlighted as string between its quotes, even if it has a dollar sign that starts no interpolation.", "quantifier": "all texts without quotes, backslashes and line breaks", "why_tests_cant": "There are infinitely many texts.", "anchors": ["src/main/cpp/lang/kotlin.cpp:expect_string_or_character"]}
{"id": "C99", "title": "Rust: no failure and complete coverage", "statement": "Highlighting Rust source succeeds for every byte sequence, and every byte lies in exactly one highlighting token, in order and without overlap, except for white space; other code points are marked as errors.", "quantifier": "every byte sequence (valid or malformed UTF-8), coalescing or strict, debug or release", "why_tests_cant": "The input ranges over all byte strings; the property must hold for malformed input as well as Rust.", "anchors": ["src/main/cpp/lang/rust.cpp: highlight_rust, Highlighter::operator()"]}
{"id": "C100", "title": "Rust: exact tokens for programs of lexemes", "statement": "For source that is a sequence of Rust lexemes, white space and foreign code points, the emitted tokens are exactly one per lexeme part (keywords, names, macro names, numbers and their parts, strings with escapes and raw strings, characters, lifetimes, comments, operators), with the highlight of that part.", "quantifier": "every sequence of lexemes of the specification, of any length", "why_tests_cant": "Programs are unbounded and lexemes interact with whatever follows them.", "anchors": ["src/main/cpp/lang/rust.cpp: highlight_rust", "include/ulight/impl/lang/rust.hpp: ULIGHT_RUST_TOKEN_ENUM_DATA"]}
{"id": "C101", "title": "Rust: identifiers are names", "statement": "Every identifier that is not a keyword is highlighted as a single name, and raw identifiers as a raw-identifier mark followed by a name.", "quantifier": "every identifier", "why_tests_cant": "There are infinitely many identifiers.", "anchors": ["src/main/cpp/lang/rust.cpp: expect_number, expect_identifier_or_word, expect_raw_identifier"]}
{"id": "C102", "title": "Rust: numbers of the reference", "statement": "Every number literal is highlighted as a number without errors, and numbers in ranges, method calls and tuple fields are separated from the dots.", "quantifier": "every number literal with separators, fraction, exponent and suffix", "why_tests_cant": "There are infinitely many literals.", "anchors": ["src/main/cpp/lang/rust.cpp: expect_number"]}
{"id": "C103", "title": "Rust: raw string literals", "statement": "The contents of every raw string literal, with any number of hashes, are highlighted as plain string text between its delimiters, for r, br and cr prefixes.", "quantifier": "every prefix, every number of hashes and every contents", "why_tests_cant": "Contents and number of hashes are unbounded.", "anchors": ["src/main/cpp/lang/rust.cpp: expect_string, match_string_prefix"]}
{"id": "C104", "title": "Rust: block comments nest", "statement": "A block comment ends at the delimiter that matches its start, with comments nested in it to any depth.", "quantifier": "every contents of a block comment", "why_tests_cant": "Nesting depth is unbounded.", "anchors": ["src/main/cpp/lang/rust.cpp: expect_block_comment", "include/ulight/impl/lang/js.hpp: match_block_comment"]}
{"id": "C105", "title": "Rust: punctuation", "statement": "Every punctuation token of Rust is highlighted as a symbol and not as an error.", "quantifier": "every punctuation token of the reference", "why_tests_cant": "Finite, but each holds in every context through the lexeme theorem.", "anchors": ["include/ulight/impl/lang/rust.hpp: ULIGHT_RUST_TOKEN_ENUM_DATA", "src/main/cpp/lang/rust.cpp: expect_symbols"]}
{"id": "C106", "title": "Lua: safe, well-formed and complete", "statement": "Highlighting any Lua source succeeds without assertion failure, memory error or endless loop; its tokens are in bounds, non-empty, in order and without overlap, and every non-space character is covered", "quantifier": "all Lua sources, options and token buffer capacities", "why_tests_cant": "The tokenizer indexes the source by hand and its emit function has no checks; tests sample a few files.", "anchors": ["src/main/cpp/lang/lua.cpp: highlight_lua"]}
{"id": "C107", "title": "Lua: exact tokens for programs of lexemes", "statement": "For every sequence of Lua lexemes (keywords, names, numerals, symbols, <const>, quoted and long strings, comments of all levels) separated by white space, the tokens are exactly the expected ones", "quantifier": "all sequences of lexemes, of any length and nesting level of long brackets", "why_tests_cant": "There are unboundedly many programs and bracket levels.", "anchors": ["src/main/cpp/lang/lua.cpp: highlight_lua, match_string_literal, match_block_comment, match_number"]}
{"id": "C108", "title": "Lua: a quoted string is one string token", "statement": "Every quoted string that the Lua manual allows is highlighted as one string token up to its closing quote", "quantifier": "all contents allowed by section 3.1 of the manual and all following texts", "why_tests_cant": "Escapes can occur in every combination.", "anchors": ["src/main/cpp/lang/lua.cpp: match_string_literal"]}
{"id": "C109", "title": "Lua: attributes of local variables", "statement": "The attributes <const> and <close> are highlighted as attributes", "quantifier": "both attributes and all following texts", "why_tests_cant": "What follows the attribute is arbitrary.", "anchors": ["src/main/cpp/lang/lua.cpp: highlight_lua"]}
{"id": "C110", "title": "NASM: safe, well-formed and complete", "statement": "Highlighting any NASM source succeeds without assertion failure, memory error or endless loop; its tokens are in bounds, non-empty, in order and without overlap, and every character other than space, tab and line break is covered", "quantifier": "all NASM sources, options and token buffer capacities", "why_tests_cant": "Numbers, names and strings are told apart by several look-ahead passes; tests sample a few files.", "anchors": ["src/main/cpp/lang/nasm.cpp: highlight_nasm"]}
{"id": "C111", "title": "NASM: exact tokens for programs of lexemes", "statement": "For every sequence of NASM lexemes (labels, mnemonics, registers, types, jumps and their targets, numbers in all bases, strings with escapes, comments, macro lines, operators) the tokens are exactly the expected ones, where the role of a plain name depends on its place in the line", "quantifier": "all sequences of lexemes, of any length", "why_tests_cant": "There are unboundedly many programs, and the highlight of a name depends on what came before.", "anchors": ["src/main/cpp/lang/nasm.cpp: Highlighter"]}
{"id": "C112", "title": "NASM: numbers with a base suffix", "statement": "A number with base suffix is highlighted as digits (with separators) and suffix", "quantifier": "all suffixes and digit sequences, with or without separators", "why_tests_cant": "There are unboundedly many numbers.", "anchors": ["src/main/cpp/lang/nasm.cpp: match_suffixed_number, consume_number"]}
{"id": "C113", "title": "NASM: numbers with a base prefix", "statement": "A number with base prefix is highlighted as prefix and digits", "quantifier": "all prefixes and digit sequences", "why_tests_cant": "There are unboundedly many numbers.", "anchors": ["src/main/cpp/lang/nasm.cpp: consume_number"]}
{"id": "C114", "title": "NASM: pseudo-instructions", "statement": "The pseudo-instructions of NASM (db, resb, times, ...) are highlighted as such", "quantifier": "all pseudo-instructions in any letter case, before any program", "why_tests_cant": "The text after the instruction is arbitrary.", "anchors": ["src/main/cpp/lang/nasm.cpp: pseudo_instructions, consume_identifier"]}
{"id": "C115", "title": "NASM: registers", "statement": "Every register is highlighted as a variable", "quantifier": "all registers in any letter case, before any program", "why_tests_cant": "The text after the register is arbitrary.", "anchors": ["src/main/cpp/lang/nasm.cpp: registers"]}
{"id": "C116", "title": "NASM: strings in backquotes", "statement": "The contents of a backquoted string are highlighted as string text and escapes up to the closing quote or the end of the line or source", "quantifier": "all contents and following programs", "why_tests_cant": "There are unboundedly many strings.", "anchors": ["src/main/cpp/lang/nasm.cpp: consume_string"]}
{"id": "C117", "title": "NASM: names at the start of a line", "statement": "A name without special meaning at the start of a line is highlighted as an instruction", "quantifier": "all names", "why_tests_cant": "There are unboundedly many names.", "anchors": ["src/main/cpp/lang/nasm.cpp: consume_identifier, consume_number"]}
{"id": "C118", "title": "NASM: octal escapes", "statement": "An escape of one to three octal digits is highlighted as an escape", "quantifier": "all octal escapes and following programs", "why_tests_cant": "What follows the string is arbitrary.", "anchors": ["src/main/cpp/lang/nasm.cpp: match_escape_sequence"]}
{"id": "C119", "title": "NASM: a register ends before an operator", "statement": "A register followed by an operator and a number gives three tokens", "quantifier": "all registers and operators", "why_tests_cant": "Many combinations; each must agree with the matchers' character sets.", "anchors": ["src/main/cpp/lang/nasm.cpp: match_identifier"]}
{"id": "C120", "title": "XML: every input is highlighted", "statement": "XML highlighting never hits an assertion or out-of-bounds access, always finishes and succeeds, and its tokens are non-empty, in order, disjoint and inside the source", "quantifier": "all sources, in both modes", "why_tests_cant": "The source is arbitrary text, valid XML or not.", "anchors": ["src/main/cpp/lang/xml.cpp: highlight_xml"]}
{"id": "C121", "title": "XML: documents get exactly the expected tokens", "statement": "In a document without XML declaration and document type, comments, processing instructions, tags, attributes, values, references and CDATA sections get exactly the tokens their roles call for, and text gets none", "quantifier": "all UTF-8 documents made of such parts, with names without hyphen", "why_tests_cant": "Documents are unbounded, and each part must be recognised wherever it ends and whatever follows it.", "anchors": ["src/main/cpp/lang/xml.cpp: highlight_xml"]}
{"id": "C122", "title": "XML: names", "statement": "An element whose name is any name of the XML specification is highlighted as a tag without errors", "quantifier": "all names", "why_tests_cant": "There are unboundedly many names over a large alphabet.", "anchors": ["include/ulight/impl/lang/xml.hpp: is_xml_name"]}
{"id": "C123", "title": "XML: declarations", "statement": "An XML declaration is highlighted, and what follows it is highlighted as it is without the declaration", "quantifier": "all declarations and following documents", "why_tests_cant": "Declarations and documents are arbitrary.", "anchors": ["src/main/cpp/lang/xml.cpp: expect_xml_decl"]}
{"id": "C124", "title": "XML: document types", "statement": "A document type declaration is highlighted, and the document after it as usual", "quantifier": "all document types and following documents", "why_tests_cant": "Documents are arbitrary.", "anchors": ["src/main/cpp/lang/xml.cpp: expect_doctype_decl"]}
{"id": "C125", "title": "XML: entity references", "statement": "A reference to an entity with any name is highlighted as an escape", "quantifier": "all names", "why_tests_cant": "There are unboundedly many names.", "anchors": ["src/main/cpp/lang/xml.cpp: expect_reference"]}
{"id": "C126", "title": "XML: processing instructions", "statement": "A processing instruction is highlighted up to its end", "quantifier": "all targets and texts", "why_tests_cant": "Targets and texts are arbitrary.", "anchors": ["src/main/cpp/lang/xml.cpp: expect_processing_instruction"]}
{"id": "C127", "title": "COWEL highlighting is total and well-formed", "statement": "For every source text, highlighting COWEL with a buffer that can hold the tokens ends with status OK, no assertion fails and no memory outside the source is read, and the tokens are non-empty, in order, disjoint and inside the source.", "quantifier": "every byte string, every strictness setting", "why_tests_cant": "COWEL documents nest directives, groups, blocks and strings without bound; the recursive highlighter has unreachable-marked branches and cursor assertions that must hold for malformed input at any depth", "anchors": ["src/main/cpp/lang/cowel.cpp:highlight_cowel", "include/ulight/impl/lang/cowel.hpp"]}
{"id": "C128", "title": "COWEL documents get exactly the tokens of their grammar", "statement": "For every document built from text with balanced braces, escapes, comments, directives with argument groups and blocks, expression splices and line splices, nested to any depth, highlighting it as COWEL yields exactly one token for every highlighted piece, at its offset and with its length and highlight, in order, and nothing else.", "quantifier": "all COWEL documents derivable from the grammar in S_LangCowel.v, of any size and nesting depth", "why_tests_cant": "Directives, groups, strings, blocks and splices nest without bound, and what a name means depends on what follows it after any amount of white space and comments; tests cover a handful of nestings.", "anchors": ["src/main/cpp/lang/cowel.cpp:350-900", "include/ulight/impl/lang/cowel.hpp"]}
{"id": "C129", "title": "A COWEL line splice ends at the end of its line", "statement": "For every line splice, the text of the next line is not highlighted as part of the splice.", "quantifier": "all line splices and all texts of the following line", "why_tests_cant": "Whether the splice ends depends on the white space and expressions before the line break, of which there are infinitely many combinations.", "anchors": ["src/main/cpp/lang/cowel.cpp:435-482 expect_expression_line_splice"]}
{"id": "C130", "title": "A COWEL line splice that ends with a call ends at the end of its line", "statement": "For every line splice whose last expression is a directive call, the text of the next line is not highlighted as part of the splice.", "quantifier": "all calls with any arguments, with and without a block, and all texts of the following line", "why_tests_cant": "The arguments nest without bound and the fault depends on what follows the call.", "anchors": ["src/main/cpp/lang/cowel.cpp:706-726 expect_directive_call", "src/main/cpp/lang/cowel.cpp:435-482"]}
{"id": "C131", "title": "A COWEL line splice in the last line is highlighted", "statement": "A line splice in the last line of a source is highlighted like one in any other line, whether or not a line break follows.", "quantifier": "all line splices at the end of a source", "why_tests_cant": "It must hold for every expression in the last line.", "anchors": ["src/main/cpp/lang/cowel.cpp:435-482 expect_expression_line_splice"]}
{"id": "C132", "title": "Markdown highlighting always succeeds", "statement": "Highlighting any string as Markdown succeeds and yields ordered, non-overlapping, non-empty tokens inside the source. (Refuted: an HTML comment that starts right at the end of a line, as in a document whose first line is \"<!--\", trips the debug assertion on empty tokens, whatever follows. It holds for every document in which each \"<!--\" is followed by text on its line.)", "quantifier": "every byte string", "why_tests_cant": "Emphasis, links, code spans, fences, lists, quotes and comments nest without bound; each region is re-scanned, and a single wrong length anywhere breaks an assertion.", "anchors": ["src/main/cpp/lang/markdown.cpp:highlight_markdown", "src/main/cpp/lang/markdown.cpp:Highlighter::consume_inline_content", "src/main/cpp/lang/markdown.cpp:Highlighter::expect_html_comment"]}
{"id": "C133", "title": "Markdown: the tokens of a document are those of its structure", "statement": "For every document made of lines that are blank, headings, thematic breaks, list items, nested block quotes, indented code, paragraphs, fenced code blocks or HTML comments over several lines, with any nesting of emphasis, links, images, code spans, autolinks, escapes, references and comments in them, highlighting succeeds and yields exactly one token for every delimiter, text and destination with the expected highlight, at the expected position, in order.", "quantifier": "Every document of the grammar, of any length and nesting depth, with any line terminators", "why_tests_cant": "The documents are infinitely many and nested; tests fix the tokens of a few files only.", "anchors": ["src/main/cpp/lang/markdown.cpp:272-1078 Highlighter, highlight_markdown"]}
{"id": "C134", "title": "Markdown: the text of a heading is highlighted as a heading", "statement": "Every character of the text of a Markdown heading that belongs to no other highlighted construct is highlighted as heading text. (Refuted: emphasised text in a heading and a lone special character such as the ampersand of \"Q&A\" get no highlight. It holds for heading text without special characters.)", "quantifier": "all headings", "why_tests_cant": "It must hold for every heading text.", "anchors": ["src/main/cpp/lang/markdown.cpp:403-447 expect_atx_heading", "src/main/cpp/lang/markdown.cpp:653-781 consume_inline_content"]}
{"id": "C135", "title": "Markdown: an escaped delimiter does not end emphasis", "statement": "Between emphasis delimiters, an escaped delimiter is an escape and does not end the emphasis, as in CommonMark. (Refuted: an escaped asterisk ends it and the real closing delimiter is left over. Every other escape is kept inside.)", "quantifier": "all emphasised texts with escapes", "why_tests_cant": "It must hold for every text around the escape.", "anchors": ["src/main/cpp/lang/markdown.cpp:976-1066 expect_emphasis"]}
{"id": "C136", "title": "Markdown: link destinations may contain balanced parentheses", "statement": "The destination of an inline link may contain balanced parentheses, as in CommonMark. (Refuted: the destination ends at the first closing parenthesis. It holds for destinations without closing parentheses and for those in angle brackets.)", "quantifier": "all link destinations", "why_tests_cant": "It must hold for every destination.", "anchors": ["src/main/cpp/lang/markdown.cpp:929-974 expect_link"]}
{"id": "C137", "title": "YAML highlighting never fails", "statement": "For every YAML text with at most 64 block entries (hyphens followed by a space, colons at a line end or followed by a space), highlighting succeeds: no assertion fails, nothing is read out of bounds, every loop ends, and the tokens are well-formed. For longer texts an assertion fails.", "quantifier": "all byte strings with at most 64 entries, both values of each option, every token buffer capacity", "why_tests_cant": "the nesting of nodes, the stack of indentations and the progress of each loop depend on the whole text", "anchors": ["src/main/cpp/lang/yaml.cpp:207-1316 YAML_Highlighter", "src/main/cpp/lang/yaml.cpp:1324-1332 highlight_yaml"]}
{"id": "C138", "title": "Whole API calls succeed for every language", "statement": "With the library's real table of highlighters, a properly set up call that produces tokens or HTML for a source in any supported language returns success, gives a well-formed token stream (or HTML whose text is exactly the source and in which every element is one the library generates), and never passes more than the buffer's capacity to a callback.", "quantifier": "all build configurations, all properly set up states, all languages and all sources accepted by the language's condition", "why_tests_cant": "A test suite exercises a few sources per language; the claim is about every source, every buffer capacity and every combination of flags in all 25 languages, and combines every layer of the library.", "anchors": ["include/ulight/impl/highlight.hpp: highlight", "src/main/cpp/ulight.cpp: ulight_source_to_tokens", "src/main/cpp/ulight.cpp: ulight_source_to_html"]}
{"id": "C139", "title": "An HTML document gets exactly the expected tokens", "statement": "Highlighting an HTML document made of document types, comments, CDATA sections, tags with attributes (flags, unquoted and quoted values), character references, text and title/textarea elements yields one token per lexeme at its exact position: delimiters, tag names, attribute names, strings, escapes, comment delimiters and comments, and nothing for plain text.", "quantifier": "all documents in ASCII names with any number of tags, attributes and references, and all bytes as text", "why_tests_cant": "Documents combine arbitrarily many lexemes; tests show a few pages", "anchors": ["src/main/cpp/lang/html.cpp: expect_comment, expect_doctype, expect_cdata, expect_end_tag, expect_start_tag_permissive, expect_attribute, expect_quoted_attribute_value, expect_normal_text"]}
{"id": "C140", "title": "Character references in HTML attribute values do not hide the end of the value", "statement": "Every character reference in a quoted attribute value is highlighted as an escape, and the value ends at its closing quote, wherever references stand in it.", "quantifier": "all attribute values with any number of references in any position", "why_tests_cant": "The positions and neighbours of references are unbounded; one adjacent or trailing reference changes how the rest of the document is read", "anchors": ["src/main/cpp/lang/html.cpp: expect_quoted_attribute_value, expect_unquoted_attribute_value, match_character_reference"]}
{"id": "C141", "title": "White space before the > of an HTML end tag does not move its tokens", "statement": "In an end tag such as </p >, the < /, the name and the > are highlighted, and the white space between name and > is not.", "quantifier": "all tag names and all white space between the name and the closing bracket", "why_tests_cant": "White space of any length and kind may stand there", "anchors": ["src/main/cpp/lang/html.cpp: match_end_tag_permissive, expect_end_tag"]}
{"id": "C142", "title": "The command line tool writes HTML with exactly the text of the file", "statement": "`ulight IN` and `ulight IN OUT` exit with status 0, print no message, and write to standard output, or to OUT which is opened once and closed once, an HTML document whose text is byte for byte the contents of IN, for every readable UTF-8 file whose extension is known.", "quantifier": "Every file content, path, output path, build configuration.", "why_tests_cant": "Tests run the tool on sample files, not on all contents.", "anchors": ["src/main/cpp/main.cpp:main", "src/main/cpp/io.cpp:load_utf8_file", "src/main/cpp/ulight.cpp:ulight_source_to_html"]}
{"id": "C143", "title": "The exit status of the command line tool tells whether it succeeded", "statement": "The tool exits with a failure status, prints one message and touches no output file if the arguments are missing, the language is not recognised, the file cannot be read or is not UTF-8, or the output cannot be opened; it exits with a failure status also if highlighting fails; otherwise with success.", "quantifier": "Every list of arguments, file system and file content.", "why_tests_cant": "The failures of highlighting depend on the input; no finite sample covers all combinations.", "anchors": ["src/main/cpp/main.cpp:main"]}
{"id": "C144", "title": "Output that cannot be written is reported", "statement": "If the output accepts fewer bytes than the HTML has (full disk, closed pipe), then the tool exits with a failure status or prints a message.", "quantifier": "Every file and every number of bytes that the output accepts.", "why_tests_cant": "Tests do not run on full disks, and the failure may occur at any byte.", "anchors": ["src/main/cpp/main.cpp:main", "src/main/cpp/main.cpp:on_flush_text_lambda"]}
{"id": "C145", "title": "C and C++ programs get the tokens of their lexemes", "statement": "The C and C++ highlighters split a program into white space, comments, directives and include paths, literals (prefix, quotes, plain text and line splices in UTF-8, escape sequences, raw strings, suffixes, missing closing quotes), numbers (base, digit groups, fraction, exponent, suffix), keywords and names, operators and punctuation by maximal munch, and other characters, and report exactly the tokens of these lexemes, with the keywords of the language and of the strictness chosen.", "quantifier": "Every sequence of lexemes of any length, both languages, strict or not.", "why_tests_cant": "Programs are unbounded; whether a lexeme ends where it should depends on everything that may follow.", "anchors": ["src/main/cpp/lang/cpp.cpp:highlight_cpp", "src/main/cpp/lang/cpp.cpp:highlight_c", "include/ulight/impl/lang/cpp.hpp"]}
{"id": "C146", "title": "A keyword keeps its highlighting directly before a literal", "statement": "In C and C++ a keyword gets the same highlighting whether or not white space separates it from a string or character literal that follows (return\"x\", case'a').", "quantifier": "Every keyword, both kinds of literals, every contents, both languages, strict or not.", "why_tests_cant": "The combination of word and literal is unbounded.", "anchors": ["src/main/cpp/lang/cpp.cpp:expect_string_literal", "src/main/cpp/lang/cpp.cpp:expect_character_literal"]}
{"id": "C147", "title": "A null directive ends with its line", "statement": "A # alone on a line does not change the highlighting of the next line.", "quantifier": "Every next line, both languages, strict or not.", "why_tests_cant": "The next line is arbitrary.", "anchors": ["src/main/cpp/lang/cpp.cpp:expect_directive"]}
{"id": "C148", "title": "A macro may be continued on the next line", "statement": "In the body of a macro, # before a parameter is an operator also if a spliced line break precedes it, and the parameter is a name.", "quantifier": "Every parameter name, both languages, strict or not.", "why_tests_cant": "Names are unbounded.", "anchors": ["src/main/cpp/lang/cpp.cpp:expect_directive", "src/main/cpp/lang/cpp.cpp:expect_whitespace"]}
{"id": "C149", "title": "The suffix of a floating-point number is told from its digits", "statement": "In C and C++ the suffixes f, F, l, L of decimal and hexadecimal floating-point numbers are highlighted as decoration, not as digits.", "quantifier": "Every number with an exponent, both languages, strict or not.", "why_tests_cant": "Numbers are unbounded.", "anchors": ["src/main/cpp/lang/cpp.cpp:highlight_pp_number"]}
{"id": "C150", "title": "The message of an error directive is not code", "statement": "Words in the message of #error are highlighted as names whatever punctuation surrounds them; an apostrophe does not begin a literal.", "quantifier": "Every message, both languages, strict or not.", "why_tests_cant": "Messages are arbitrary text.", "anchors": ["src/main/cpp/lang/cpp.cpp:expect_directive", "src/main/cpp/lang/cpp.cpp:expect_character_literal"]}
{"id": "C151", "title": "JavaScript and TypeScript programs get exactly the tokens of their lexemes", "statement": "A program made of white space, comments, a hashbang, keywords, names, private names, numbers, strings, regular expressions, symbols, nested blocks and templates with nested code gets exactly one token per piece of each lexeme, with the right type and range, and nothing else is highlighted.", "quantifier": "Every such program of any length and any depth of nesting, both languages, strict or not.", "why_tests_cant": "Programs are unbounded and nest without bound; whether a slash divides depends on everything before it.", "anchors": ["src/main/cpp/lang/js.cpp:consume_token", "src/main/cpp/lang/js.cpp:consume_js_before_closing_brace", "src/main/cpp/lang/js.cpp:expect_template"]}
{"id": "C152", "title": "Every JavaScript identifier is one name", "statement": "An ASCII identifier that is not a keyword is highlighted as one name.", "quantifier": "Every identifier, both languages, strict or not.", "why_tests_cant": "Identifiers are unbounded.", "anchors": ["src/main/cpp/lang/js.cpp:expect_numeric_literal", "src/main/cpp/lang/js.cpp:expect_identifier"]}
{"id": "C153", "title": "A slash after an operand divides", "statement": "A slash after a name is a division operator, whatever white space and comments stand between them.", "quantifier": "All names, white space and comments, both languages, strict or not.", "why_tests_cant": "Comments and names are unbounded.", "anchors": ["src/main/cpp/lang/js.cpp:highlight_block_comment", "src/main/cpp/lang/js.cpp:expect_regex"]}
{"id": "C154", "title": "A regular expression ends at the slash that ends it", "statement": "A regular expression literal is highlighted up to the first slash that is neither escaped nor in a class in brackets.", "quantifier": "Every regular expression literal, both languages, strict or not.", "why_tests_cant": "Literals are unbounded.", "anchors": ["src/main/cpp/lang/js.cpp:expect_regex"]}
{"id": "C155", "title": "A line continuation does not end a string", "statement": "A backslash before a line break, LF or CR LF, is an escape sequence of the string that continues on the next line.", "quantifier": "All strings around the line break, both languages, strict or not.", "why_tests_cant": "Strings are unbounded.", "anchors": ["src/main/cpp/lang/js.cpp:match_string_literal", "src/main/cpp/lang/js.cpp:match_escape_sequence"]}
{"id": "C156", "title": "A JavaScript number is one number", "statement": "A numeric literal is highlighted as its prefix, its digits and separators, its fraction, its exponent and its suffix.", "quantifier": "Every numeric literal, both languages, strict or not.", "why_tests_cant": "Literals are unbounded.", "anchors": ["src/main/cpp/lang/js.cpp:match_numeric_literal", "include/ulight/impl/numbers.hpp:match_common_number"]}
{"id": "C157", "title": "A question mark before a number is the conditional operator", "statement": "In a?.5:b, the question mark is an operator and .5 a number, because optional chaining is not followed by a digit.", "quantifier": "All names and numbers, both languages, strict or not.", "why_tests_cant": "Names and numbers are unbounded.", "anchors": ["src/main/cpp/lang/js.cpp:match_operator_or_punctuation"]}
{"id": "C158", "title": "Comparisons are operators", "statement": "In a<b>c the angle brackets are operators and a, b and c are names.", "quantifier": "All names, both languages, strict or not.", "why_tests_cant": "Names are unbounded.", "anchors": ["src/main/cpp/lang/js.cpp:expect_jsx_in_js"]}
{"id": "C159", "title": "A slash after a keyword starts a regular expression", "statement": "After a keyword that an expression or statement follows, a slash starts a regular expression.", "quantifier": "Every such keyword and every regular expression without unescaped slashes, both languages, strict or not.", "why_tests_cant": "Regular expressions are unbounded.", "anchors": ["src/main/cpp/lang/js.cpp:expect_identifier", "src/main/cpp/lang/js.cpp:expect_regex"]}
{"id": "C160", "title": "Only the start of a script can be a hashbang comment", "statement": "A hashbang comment is recognized at the start of the source and nowhere else, not after white space.", "quantifier": "Every text of the comment and every white space, both languages, strict or not.", "why_tests_cant": "Comments and white space are unbounded.", "anchors": ["src/main/cpp/lang/js.cpp:expect_hashbang_comment"]}
{"id": "C161", "title": "The tokens of an LLVM IR module are exactly those of its lexemes", "statement": "For a module made of comments, names of variables and functions, strings, symbols, decimal and hexadecimal numbers, labels and words separated by blanks, the tokens are exactly the expected ones: each lexeme with its delimiters, escapes and digits highlighted by its kind, and nothing else.", "quantifier": "Every sequence of lexemes of every kind, with every text they can have.", "why_tests_cant": "Modules, names, strings and comments are unbounded, and any lexeme can follow any other.", "anchors": ["src/main/cpp/lang/llvm.cpp:consume_anything", "src/main/cpp/lang/llvm.cpp:highlight_llvm"]}
{"id": "C162", "title": "Bash scripts get exactly the expected tokens", "statement": "For every script made of words, blanks, line breaks, comments, quoted strings, escapes, parameter expansions, command substitutions, redirections, separators, subshells and groups, nested to any depth, the highlighter gives exactly one token with the expected type for every lexeme and nothing else.", "quantifier": "every script of the grammar, every nesting depth, every length of words and strings", "why_tests_cant": "The functions are mutually recursive and share one state across nesting levels; unit tests cover a handful of combinations.", "anchors": ["src/main/cpp/lang/bash.cpp:consume_commands", "src/main/cpp/lang/bash.cpp:consume_substitution", "src/main/cpp/lang/bash.cpp:consume_double_quoted_string", "src/main/cpp/lang/bash.cpp:match_operator"]}
{"id": "C163", "title": "The words after a quoted Bash command name are arguments", "statement": "After a command name in quotes or with an escaped character, the following words are highlighted as options or arguments.", "quantifier": "every quoted name and every following word", "why_tests_cant": "Needs all names and words; the tests have no quoted command names.", "anchors": ["src/main/cpp/lang/bash.cpp:consume_commands"]}
{"id": "C164", "title": "Bash arguments after an expansion in braces are highlighted as arguments", "statement": "In a command with an argument that is a parameter expansion in braces, the next argument is highlighted as an argument.", "quantifier": "every command, parameter name and argument", "why_tests_cant": "The state after a nested call leaks into the rest of the line; samples without further words do not show it.", "anchors": ["src/main/cpp/lang/bash.cpp:consume_substitution"]}
{"id": "C165", "title": "Text directly after a Bash command substitution belongs to the argument", "statement": "In an argument made of a command substitution and plain text, the text is highlighted as a string.", "quantifier": "every command, nested command and text", "why_tests_cant": "The state after a nested call depends on the nested commands.", "anchors": ["src/main/cpp/lang/bash.cpp:consume_substitution"]}
{"id": "C166", "title": "Text directly after a quoted Bash string belongs to the argument", "statement": "In an argument made of a quoted string and plain text, the text is highlighted as a string, whatever it begins with.", "quantifier": "every command, quoted text and following text", "why_tests_cant": "Needs all texts, including those that begin with a dash.", "anchors": ["src/main/cpp/lang/bash.cpp:consume_word", "src/main/cpp/lang/bash.cpp:consume_commands"]}
{"id": "C167", "title": "Bash positional parameters are highlighted as interpolation", "statement": "A dollar sign and a digit are highlighted as one interpolation.", "quantifier": "every command and every digit", "why_tests_cant": "The predicates treat digits differently.", "anchors": ["include/ulight/impl/lang/bash.hpp:is_bash_special_parameter", "include/ulight/impl/lang/bash.hpp:is_bash_parameter_substitution_start"]}
{"id": "C168", "title": "Nothing in a Bash arithmetic expansion is highlighted as a command", "statement": "Between double parentheses after a dollar sign, no token is a shell command.", "quantifier": "every expression of one word", "why_tests_cant": "Needs all expressions.", "anchors": ["src/main/cpp/lang/bash.cpp:consume_substitution"]}
{"id": "C169", "title": "A number sign inside a Bash word does not begin a comment", "statement": "After an expansion in the middle of a word, a number sign is part of the word.", "quantifier": "every command, parameter name and rest of the word", "why_tests_cant": "Needs all positions of the number sign.", "anchors": ["src/main/cpp/lang/bash.cpp:consume_commands"]}
{"id": "C170", "title": "The text of a Bash here document is not highlighted as commands", "statement": "The lines between a here-document redirection and its delimiter have no command tokens.", "quantifier": "every command, delimiter and word", "why_tests_cant": "Needs all documents.", "anchors": ["src/main/cpp/lang/bash.cpp:consume_commands"]}
{"id": "C171", "title": "After the arguments of a Bash command and a separator, a command follows", "statement": "After a command with an argument and a separator (semicolon, ampersand, vertical bar, or two of the latter), the next word is highlighted as a command.", "quantifier": "every command, argument, separator and next command, with and without blanks", "why_tests_cant": "Needs all combinations; the state machine has no transition for separators.", "anchors": ["src/main/cpp/lang/bash.cpp:consume_commands"]}
{"id": "C172", "title": "The word after a Bash assignment is the command", "statement": "After an assignment of a variable, the next word of the line is highlighted as a command.", "quantifier": "every variable, value and command", "why_tests_cant": "Needs all names and values.", "anchors": ["src/main/cpp/lang/bash.cpp:consume_word"]}
{"id": "C173", "title": "CSS style sheets get exactly the expected tokens", "statement": "For every style sheet made of rules with selectors, declarations, at-rules without nested rules, comments, strings with escapes, names with escapes, numbers with units, colors and functions, highlighting it as CSS gives exactly the expected tokens: selectors, at-key words, property names, values, functions, numbers and units, key words, punctuation.", "quantifier": "every sequence of the lexemes, with names, strings, numbers and comments of any length and content", "why_tests_cant": "Needs every combination of lexemes, contexts and texts; tests highlight a few files.", "anchors": ["src/main/cpp/lang/css.cpp:operator()", "src/main/cpp/lang/css.cpp:consume_ident_like_token", "src/main/cpp/lang/css.cpp:consume_string_token", "src/main/cpp/lang/css.cpp:consume_numeric_token"]}
{"id": "C174", "title": "Selectors in conditional CSS at-rules are selectors", "statement": "In the block of an at-rule such as @media, the selectors of the nested rules are highlighted as selectors.", "quantifier": "every at-key word, prelude, selectors, properties and values", "why_tests_cant": "Needs all names and any number of nested rules.", "anchors": ["src/main/cpp/lang/css.cpp:operator()"]}
{"id": "C175", "title": "The CSS sibling combinator is highlighted like the others", "statement": "The combinator + between selectors is highlighted like >, ~ and the rest of the selector.", "quantifier": "every pair of selectors, with and without white space", "why_tests_cant": "Needs all names.", "anchors": ["src/main/cpp/lang/css.cpp:operator()"]}
{"id": "C176", "title": "Names of custom and vendor properties are property names in CSS", "statement": "A property name with one or two leading dashes is highlighted like the other property names.", "quantifier": "every name with leading dashes, every selector and value", "why_tests_cant": "Needs all names.", "anchors": ["src/main/cpp/lang/css.cpp:operator()"]}
{"id": "C177", "title": "Declarations after an at-rule in a CSS block are declarations", "statement": "After an at-rule that ends in a semicolon in a block, the next declaration is highlighted as a property and a value.", "quantifier": "every selector, at-rule, property and value", "why_tests_cant": "Needs all names.", "anchors": ["src/main/cpp/lang/css.cpp:operator()"]}
{"id": "C178", "title": "Only the word important is a CSS key word after an exclamation mark", "statement": "A longer word that starts with important is not highlighted as the key word.", "quantifier": "every word, every white space after the exclamation mark", "why_tests_cant": "Needs all words.", "anchors": ["src/main/cpp/lang/css.cpp:operator()", "src/main/cpp/lang/css.cpp:match_ident_sequence"]}
{"id": "C179", "title": "Semicolons in unquoted CSS URLs do not end declarations", "statement": "In url(...) without quotes, such as a data URL, the text after a semicolon is not highlighted as the name of a property.", "quantifier": "every selector, property and parts of the URL", "why_tests_cant": "Needs all names.", "anchors": ["src/main/cpp/lang/css.cpp:match_ident_like_token", "src/main/cpp/lang/css.cpp:operator()"]}
{"id": "C180", "title": "Non-ASCII CSS names are highlighted", "statement": "Names with non-ASCII letters are highlighted like other names.", "quantifier": "every scalar value above U+007F", "why_tests_cant": "Needs all of the 1.1 million scalar values and all sequences of them.", "anchors": ["include/ulight/impl/lang/css.hpp:is_css_identifier_start", "src/main/cpp/lang/css.cpp:operator()"]}
{"id": "C181", "title": "Escaped line breaks continue CSS strings", "statement": "A backslash before a line break of either kind, also CR LF, continues the string on the next line.", "quantifier": "every content of the string on the two lines", "why_tests_cant": "Needs all contents.", "anchors": ["src/main/cpp/lang/css.cpp:consume_string_token", "src/main/cpp/lang/css.cpp:match_escaped_code_point"]}
{"id": "C182", "title": "YAML documents get exactly the expected tokens", "statement": "For every YAML document of empty lines, comment lines and up to 64 entries at any indentation, where an entry is a key, a key with a value, or an item with a scalar or a key, and a value is a plain, quoted, numeric or constant scalar or a nested flow sequence or flow mapping, highlighting it as YAML gives exactly the expected tokens: keys, punctuation, brackets, strings with escapes, numbers, constants and comments.", "quantifier": "every sequence of lines, with nesting of flow collections to any depth and scalars of any length", "why_tests_cant": "Needs every nesting, indentation and text; tests highlight a few files.", "anchors": ["src/main/cpp/lang/yaml.cpp:consume_block_node", "src/main/cpp/lang/yaml.cpp:try_consume_block_mapping_key", "src/main/cpp/lang/yaml.cpp:consume_flow_node", "src/main/cpp/lang/yaml.cpp:consume_plain_scalar"]}
{"id": "C183", "title": "Comments after YAML values", "statement": "A comment that follows a quoted value of a block mapping on the same line is a comment token.", "quantifier": "every key, quoted scalar and comment text", "why_tests_cant": "Needs all keys, scalars and comments.", "anchors": ["src/main/cpp/lang/yaml.cpp:try_consume_block_mapping_key", "src/main/cpp/lang/yaml.cpp:consume_block_node"]}
{"id": "C184", "title": "Commas in YAML plain scalars", "statement": "Outside flow collections a comma is an ordinary character of a plain scalar, so the whole scalar is one token.", "quantifier": "every key, text before and after the comma", "why_tests_cant": "Needs all texts.", "anchors": ["src/main/cpp/lang/yaml.cpp:consume_plain_scalar"]}
{"id": "C185", "title": "YAML constants end at the end of the scalar", "statement": "A plain scalar that merely begins with a constant such as true, on or the tilde is a string.", "quantifier": "every key, constant and continuation", "why_tests_cant": "Needs all constants and continuations.", "anchors": ["src/main/cpp/lang/yaml.cpp:consume_plain_scalar"]}
{"id": "C186", "title": "White space before the colon of a YAML key", "statement": "White space between a key and its colon gets no token, the colon is punctuation and the value is highlighted as a value.", "quantifier": "every simple key and plain value", "why_tests_cant": "Needs all keys and values.", "anchors": ["src/main/cpp/lang/yaml.cpp:try_consume_block_mapping_key"]}
{"id": "C187", "title": "Flow mappings as YAML documents", "statement": "A flow mapping that is the whole document has the tokens of a flow mapping that is a value.", "quantifier": "every simple key and scalar", "why_tests_cant": "Needs all keys and scalars.", "anchors": ["src/main/cpp/lang/yaml.cpp:try_consume_block_mapping_key", "src/main/cpp/lang/yaml.cpp:consume_flow_mapping"]}
{"id": "C188", "title": "Apostrophes in YAML keys", "statement": "A plain key may contain an apostrophe, since quotes are special only at the start of a scalar.", "quantifier": "every key with one apostrophe and every value", "why_tests_cant": "Needs all keys and values.", "anchors": ["src/main/cpp/lang/yaml.cpp:try_consume_block_mapping_key"]}
{"id": "C189", "title": "White space after YAML plain scalars", "statement": "White space after a plain scalar does not belong to its token.", "quantifier": "every key, plain scalar and amount of white space", "why_tests_cant": "Needs all scalars and amounts.", "anchors": ["src/main/cpp/lang/yaml.cpp:consume_plain_scalar"]}
{"id": "C190", "title": "Text after YAML document markers", "statement": "The node that follows the marker of a document start on the same line is highlighted.", "quantifier": "every plain text", "why_tests_cant": "Needs all texts.", "anchors": ["src/main/cpp/lang/yaml.cpp:consume_document"]}
{"id": "C191", "title": "TeX and LaTeX sources get exactly the tokens of their lexemes", "statement": "Every TeX or LaTeX source is a sequence of control words, escaped characters, brackets, braces, special characters and other text, and its tokens are exactly those of this sequence.", "quantifier": "every source", "why_tests_cant": "Needs all sources.", "anchors": ["src/main/cpp/lang/tex.cpp:Highlighter", "include/ulight/impl/lang/tex.hpp:is_tex_special"]}
{"id": "C192", "title": "TeX comments are comments", "statement": "Text from a percent sign to the end of its line is highlighted as a comment and nothing else.", "quantifier": "every text of the comment", "why_tests_cant": "Needs all texts.", "anchors": ["src/main/cpp/lang/tex.cpp:Highlighter"]}
{"id": "C193", "title": "TeX escapes cover whole characters", "statement": "The token of a backslash followed by a character that is no letter covers the whole character.", "quantifier": "every Unicode scalar value that is no letter", "why_tests_cant": "Needs all characters.", "anchors": ["src/main/cpp/lang/tex.cpp:Highlighter"]}
{"id": "C194", "title": "EBNF grammars get exactly the tokens of their parts", "statement": "Names before the equals sign are declarations, other names are uses, and every name, number, symbol, string, special sequence, comment and run of characters that have no place in a grammar is exactly one token of its kind (strings and comments: delimiters and text), unfinished ones at the end included, whatever the size of the token buffer.", "quantifier": "every text (each is divided into such parts) and every buffer size", "why_tests_cant": "Needs all grammars and buffer sizes.", "anchors": ["src/main/cpp/lang/ebnf.cpp:Highlighter"]}
{"id": "C195", "title": "EBNF comments nest", "statement": "A comment that contains a comment is highlighted as a comment up to its own end symbol, as in ISO 14977.", "quantifier": "every text around the nested comment", "why_tests_cant": "Needs all texts.", "anchors": ["src/main/cpp/lang/ebnf.cpp:consume_comment"]}
{"id": "C196", "title": "Block scalars have string tokens", "statement": "In a YAML document whose first entry is a key with a literal or folded block scalar, the style indicator is a string delimiter, the chomping indicator a number decoration, every line of the text is one string token without its indentation, and the text ends at the first line with less indentation, where the tokens of the other entries begin.", "quantifier": "every key, style, chomping indicator, indentation, list of lines of text and empty lines, and every list of at most 63 further entries", "why_tests_cant": "the number, length and indentation of the lines is unbounded and the end of the text depends on what follows", "anchors": ["src/main/cpp/lang/yaml.cpp:consume_block_scalar", "src/main/cpp/lang/yaml.cpp:try_consume_block_mapping_key", "include/ulight/ulight.hpp:Lang::yaml"]}
{"id": "C197", "title": "A comment after the indicators of a block scalar is highlighted", "statement": "A comment that follows the indicators of a block scalar on the same line has the tokens of a comment.", "quantifier": "every key, style, comment, text and list of further entries", "why_tests_cant": "the comment and the text are unbounded", "anchors": ["src/main/cpp/lang/yaml.cpp:consume_block_scalar"]}
{"id": "C198", "title": "The indicators of a block scalar have tokens in either order", "statement": "The indentation indicator and the chomping indicator of a block scalar have number decoration tokens whichever comes first.", "quantifier": "every key, style, pair of indicators, text and list of further entries", "why_tests_cant": "the combinations with any text cannot be listed", "anchors": ["src/main/cpp/lang/yaml.cpp:consume_block_scalar"]}
{"id": "C199", "title": "Anchors and aliases have name tokens", "statement": "In a YAML document of one entry, an anchor before the value and an alias in place of the value are an attribute delimiter token followed by one name token, and the value after the anchor has the tokens it has alone.", "quantifier": "every key, name, white space and value, nested flow collections included", "why_tests_cant": "names and values are unbounded", "anchors": ["src/main/cpp/lang/yaml.cpp:consume_node_properties", "src/main/cpp/lang/yaml.cpp:consume_anchor", "src/main/cpp/lang/yaml.cpp:consume_alias"]}
{"id": "C200", "title": "The name of a tag is one token", "statement": "In a YAML document of one entry with a tag before the value, the name in the tag is one attribute name token between its delimiters.", "quantifier": "every key, tag of the four forms, white space and value", "why_tests_cant": "names and values are unbounded", "anchors": ["src/main/cpp/lang/yaml.cpp:consume_tag", "src/main/cpp/lang/yaml.cpp:consume_tag_suffix"]}
{"id": "C201", "title": "White space after a number does not change its token", "statement": "A number at the end of a line has one number token, with or without white space after it.", "quantifier": "every key, decimal number and run of spaces", "why_tests_cant": "numbers and runs of spaces are unbounded", "anchors": ["src/main/cpp/lang/yaml.cpp:consume_plain_scalar"]}
{"id": "C202", "title": "A line of white space does not end a block scalar", "statement": "The text of a block scalar goes on after a line that has only spaces, even fewer than the indentation of the text.", "quantifier": "every key, text, indentation, shorter run of spaces and number in the next line", "why_tests_cant": "the text and the indentation are unbounded", "anchors": ["src/main/cpp/lang/yaml.cpp:consume_block_scalar"]}
{"id": "C203", "title": "Lua sources through the API", "statement": "With the language Lua and a properly set up state, ulight_source_to_tokens succeeds and passes tokens in source order, and ulight_source_to_html succeeds with HTML whose text is the source. The part about HTML is false in debug builds: a source that ends with a comment without text makes it report an internal error, or end the process when there are no exceptions. It holds in release builds, and in debug builds when no token is empty.", "quantifier": "every Lua source, all flags, all sizes of both buffers, all four build configurations", "why_tests_cant": "The Lua highlighter bypasses the assertions of the other highlighters; only a proof over all sources and buffer sizes shows that nothing else goes wrong.", "anchors": ["src/main/cpp/lang/lua.cpp: highlight_lua", "src/main/cpp/ulight.cpp: ulight_source_to_html, check_flush_validity"]}
{"id": "C204", "title": "Lua files and the command line tool", "statement": "In release builds the tool turns every Lua file in UTF-8 into HTML whose text is the file. In debug builds a file that ends with a comment without text gives an error message, no complete output, and the exit status of success.", "quantifier": "every Lua file, every output, every world with enough room", "why_tests_cant": "It ranges over all files and needs the composition of file loading, highlighting and rendering.", "anchors": ["src/main/cpp/main.cpp: main", "src/main/cpp/lang/lua.cpp: highlight_lua", "src/main/cpp/ulight.cpp: check_flush_validity"]}
{"id": "C205", "title": "Conversions leave no trace in the state", "statement": "A state can be used for any sequence of conversions and setters: the status and the output of a conversion depend only on the setters before it, not on the conversions before it, whether these succeeded or failed. This is false for tokens after HTML: ulight_source_to_html leaves in flush_tokens a pointer to a local variable of its own, and a later ulight_source_to_tokens that has tokens to deliver calls through it, which is undefined behavior. It holds for conversions to HTML, and for conversions to tokens when a new callback was set after the last conversion to HTML.", "quantifier": "every history of conversions and setters on one state, every table of highlighters, every build configuration", "why_tests_cant": "The number of histories is unbounded, and undefined behavior in one of them need not show in a test.", "anchors": ["src/main/cpp/ulight.cpp: ulight_source_to_html, ulight_source_to_tokens", "include/ulight/ulight.hpp: State"]}
{"id": "C206", "title": "Quantifiers and extremes are exact", "statement": "all_of is true exactly if the predicate holds for every element, and min and max of any number of arguments of a totally ordered type return an argument such that no other is smaller (larger).", "quantifier": "every range and predicate, every strict total order, every nonempty list of arguments", "why_tests_cant": "The number of arguments and the order are arbitrary.", "anchors": ["include/ulight/impl/algorithm/all_of.hpp: all_of", "include/ulight/impl/algorithm/min_max.hpp: min, max"]}
{"id": "C207", "title": "Appending a range to a buffer converts its elements", "statement": "Buffers accept ranges whose elements convert to the element type of the buffer, and the copy they use makes the destination elements the converted source elements and keeps all others. This is false at run time for contiguous ranges of integers of another size, because the test for a bytewise copy compares the element type of the source with itself: larger elements are written beyond the end of the destination, and smaller ones are packed. It holds for elements of the same size, for other iterators, and in constant evaluation.", "quantifier": "every pair of integer sizes, every source, every destination that is large enough", "why_tests_cant": "All sizes, sources and destinations are meant; tests use equal types only.", "anchors": ["include/ulight/impl/algorithm/copy.hpp: copy, bitwise_convertible_to", "include/ulight/impl/buffer.hpp: append_range"]}
{"id": "C208", "title": "References to callables", "statement": "A Function_Ref made from any callable has a value, and calling it later does what the callable itself does at that time, also after taking it apart and putting it together again; an empty one fails an assertion (or ends the program if it is noexcept). Temporaries which do not convert to function pointers are rejected, and a Function_Ref with a value can be called.", "quantifier": "every kind of callable, value category, argument and later state of the objects", "why_tests_cant": "a dangling reference usually still works in a test, and a test has only a few kinds of callables", "anchors": ["include/ulight/function_ref.hpp: Function_Ref_Base, call, operator(), has_value, get_invoker, get_entity"]}
{"id": "C209", "title": "Statuses mean what they say", "statement": "The status for malformed code is not reported by any conversion, whatever the source, language, flags and buffers; a source that is not UTF-8 is reported with the status for bad text.", "quantifier": "every state, source, language number, flag and build of the library", "why_tests_cant": "a test tries a few sources per language; that a status never occurs is a statement about all of them", "anchors": ["include/ulight/ulight.h: ulight_status", "src/main/cpp/ulight.cpp: ulight_source_to_tokens, ulight_source_to_html"]}
{"id": "C210", "title": "The error text belongs to the last failure", "statement": "After any sequence of setters and conversions on a new state, the state shows no error text if no conversion failed; otherwise it shows a text that belongs to the status of the last conversion that failed, and its length.", "quantifier": "every history of calls on one state, every build of the library", "why_tests_cant": "histories are unbounded and mix failures with successes in any order", "anchors": ["src/main/cpp/ulight.cpp: error, ulight_source_to_tokens, ulight_source_to_html", "include/ulight/ulight.hpp: State, get_error_string"]}
{"id": "C211", "title": "HTML tag names are validated by the standard", "statement": "is_tag_name says yes exactly for an ASCII letter followed by characters that the HTML standard allows in (custom) element names; it never says yes to text that is not UTF-8, and neither does is_attribute_name.", "quantifier": "every text in UTF-8, and every sequence of bytes that is not UTF-8", "why_tests_cant": "there are over a million code points and names have any length", "anchors": ["include/ulight/impl/lang/html.hpp: is_tag_name, is_html_tag_name_character", "include/ulight/impl/unicode.hpp: Code_Point_View"]}
{"id": "C212", "title": "HTML attribute names are validated by the standard", "statement": "is_attribute_name says yes exactly for nonempty texts without controls, spaces, quotation marks, greater-than signs, slashes, equals signs and noncharacters.", "quantifier": "every text in UTF-8", "why_tests_cant": "there are over a million code points and names have any length", "anchors": ["include/ulight/impl/lang/html.hpp: is_attribute_name, is_html_attribute_name_character, is_html_control"]}
{"id": "C213", "title": "Only the documented flags matter", "statement": "Bits of the flags other than COALESCE and STRICT have no effect on the status and on the output of a conversion, and STRICT has none except for C, C++ and JSON, where it has.", "quantifier": "every state, source, language, table of highlighters and pair of flag values", "why_tests_cant": "flag values and sources are unbounded; a test compares a few", "anchors": ["include/ulight/ulight.h: ulight_flag", "src/main/cpp/ulight.cpp: to_options, ulight_source_to_tokens, ulight_source_to_html"]}
{"id": "C214", "title": "A member's name is a name, and a slash after it divides", "statement": "In JavaScript and TypeScript, the name after a dot is highlighted as a name however it is spelled, and a slash after it is the division operator.", "quantifier": "every object name, member name (keywords included) and divisor, both languages, strict or not", "why_tests_cant": "names have any length, and the rule concerns every keyword and every text after the slash", "anchors": ["src/main/cpp/lang/js.cpp: expect_identifier, expect_regex, expect_symbols"]}
{"id": "C215", "title": "EBNF gap separators are not highlighted", "statement": "A space, tabulation, line break, vertical tabulation or form feed before a grammar gets no token and does not change the tokens of the grammar, as ISO 14977 defines gap separators.", "quantifier": "every gap separator, grammar and buffer size", "why_tests_cant": "grammars are unbounded", "anchors": ["src/main/cpp/lang/ebnf.cpp:Highlighter"]}
{"id": "C216", "title": "Scripts and style sheets in HTML are highlighted by their languages", "statement": "In an HTML document, the text of every script element is highlighted as JavaScript and that of every style element as CSS, from the start tag to the end tag as the HTML standard defines it, and the rest of the document as HTML.", "quantifier": "every document, every text of the elements, every pair of highlighters for the two languages", "why_tests_cant": "documents and scripts are unbounded, and any number of scripts may follow one another", "anchors": ["src/main/cpp/lang/html.cpp: match_raw_text, expect_start_tag_permissive, consume_nested_css_or_js"]}
