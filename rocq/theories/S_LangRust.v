(** * Specification: the lexemes of Rust and their tokens. *)
From Coq Require Import List NArith ZArith Bool Arith.
From Verif Require Import M_Base M_Types M_Emit S_Utf8 S_Json S_Lexemes S_Comments S_Utf8Lexemes.
Import ListNotations.

(** Code points with the property Pattern_White_Space *)
Definition rust_space (c : N) : Prop := In c [0x09; 0x0A; 0x0B; 0x0C; 0x0D; 0x20; 0x85; 0x200E; 0x200F; 0x2028; 0x2029]%N.

Definition rust_words : list (str * N) :=
  map (fun w => (w, hl_name_type)) [bs "CStr"; bs "CString"; bs "OsStr"; bs "OsString"; bs "String"]
  ++ map (fun w => (w, hl_keyword_type)) [bs "Self"]
  ++ map (fun w => (w, hl_keyword)) [bs "abstract"; bs "as"; bs "async"; bs "become"; bs "box"; bs "const"; bs "crate"; bs "dyn"; bs "enum"; bs "extern";
    bs "final"; bs "fn"; bs "gen"; bs "impl"; bs "in"; bs "let"; bs "macro"; bs "macro_rules"; bs "mod"; bs "move";
    bs "mut"; bs "override"; bs "priv"; bs "pub"; bs "raw"; bs "ref"; bs "safe"; bs "static"; bs "struct"; bs "trait";
    bs "type"; bs "typeof"; bs "union"; bs "unsafe"; bs "unsized"; bs "use"; bs "virtual"; bs "where"]
  ++ map (fun w => (w, hl_keyword_control)) [bs "await"; bs "break"; bs "continue"; bs "do"; bs "else"; bs "for"; bs "if"; bs "loop"; bs "match"; bs "return"; bs "try";
    bs "while"; bs "yield"]
  ++ map (fun w => (w, hl_name_type_builtin)) [bs "bool"; bs "char"; bs "f32"; bs "f64"; bs "i128"; bs "i16"; bs "i32"; bs "i64"; bs "i8"; bs "isize"; bs "str";
    bs "u128"; bs "u16"; bs "u32"; bs "u64"; bs "u8"; bs "usize"]
  ++ map (fun w => (w, hl_bool)) [bs "false"; bs "true"]
  ++ map (fun w => (w, hl_keyword_this)) [bs "self"; bs "super"].
Definition rust_symbols : list (str * N) :=
  map (fun w => (w, hl_symbol_op)) [bs "!"; bs "!="; bs "%"; bs "%="; bs "&"; bs "&&"; bs "&="; bs "*"; bs "*="; bs "+"; bs "+="; bs "-"; bs "-="; bs "..";
    bs "..."; bs "..="; bs "/"; bs "/="; bs "::"; bs "<"; bs "<<"; bs "<<="; bs "<="; bs "=="; bs ">"; bs ">="; bs ">>";
    bs ">>="; bs "?"; bs "@"; bs "^"; bs "^="; bs "|"; bs "|="; bs "||"]
  ++ map (fun w => (w, hl_symbol_parens)) [bs "("; bs ")"]
  ++ map (fun w => (w, hl_symbol_punc)) [bs ","; bs "->"; bs "."; bs ":"; bs ";"; bs "="; bs "=>"]
  ++ map (fun w => (w, hl_symbol_square)) [bs "["; bs "]"]
  ++ map (fun w => (w, hl_symbol_brace)) [bs "{"; bs "}"].

(** ** Numbers *)
Definition rust_exp (exp : option (str * str)) : Prop :=
  forall e d, exp = Some (e, d) -> (exists l s, In l [bs "e"; bs "E"] /\ In s [[]; bs "+"; bs "-"] /\ e = l ++ s) /\ d <> [] /\ Forall digit d.
(** A suffix is an identifier, which cannot be confused with more digits or an exponent. *)
Definition rust_suffix (no : N -> Prop) (x : str) : Prop := x = [] \/ identifier x /\ not_before no x.
Definition rust_after_number (x rest : str) : Prop := not_before ident_or_non_ascii rest /\ (x = [] -> not_before (fun c => c = ch ".") rest).
Inductive rust_number : list piece -> str -> Prop :=
| rust_based base d n suffix rest : In (base, d) [(bs "0b", binary_digit); (bs "0o", octal_digit); (bs "0x", hex_digit)] ->
    grouped d 95 n -> rust_suffix (fun c => d c \/ In c (bs "_eE")) suffix -> rust_after_number suffix rest ->
    rust_number (number_pieces base n None None suffix) rest
| rust_decimal n frac suffix rest : grouped digit 95 n -> (forall f, frac = Some f -> grouped digit 95 f) ->
    rust_suffix (fun c => In c (bs "_eE")) suffix ->
    (* 0b1 is not 0 with a suffix *)
    (frac = None -> text n = bs "0" -> not_before (fun c => In c (bs "box")) suffix) -> rust_after_number suffix rest ->
    rust_number (number_pieces [] n frac None suffix) rest
| rust_exponent n frac exp suffix rest : grouped digit 95 n -> (forall f, frac = Some f -> grouped digit 95 f) -> exp <> None -> rust_exp exp ->
    rust_suffix (fun _ => False) suffix -> not_before ident_or_non_ascii rest ->
    rust_number (number_pieces [] n frac exp suffix) rest
| rust_no_fraction n rest : grouped digit 95 n -> rest <> [] -> not_before (fun c => ident_or_non_ascii c \/ c = ch ".") rest ->
    rust_number (number_pieces [] n (Some []) None []) rest.

(** ** Character and string literals *)
Definition no_suffix (rest : str) : Prop := not_before (fun c => ident_start c \/ (128 <= c)%N) rest.
(** Escape sequences; [unicode] says whether there are Unicode escapes, [line] whether line breaks can be escaped. *)
Inductive rust_escape (unicode line : bool) : str -> Prop :=
| rust_esc_simple c : In c (34%N :: bs "'nrt\0") -> rust_escape unicode line [92; c]%N
| rust_esc_line : line = true -> rust_escape unicode line [92; 10]%N
| rust_esc_hex d : exactly 2 hex_digit d -> rust_escape unicode line (bs "\x" ++ d)
| rust_esc_unicode d : unicode = true -> d <> [] -> Forall hex_digit d -> rust_escape unicode line (bs "\u{" ++ d ++ bs "}").
Definition rust_quote : piece := (bs "'", Some hl_string_delim).
Inductive rust_char : list piece -> str -> Prop :=
| rust_char_plain c rest : scalar_value c -> ~ In c [39; 92; 10; 13; 9]%N ->
    (* 2 GiB: decoding characters outside ASCII works up to this size *)
    (c < 128)%N \/ (Z.of_nat (length rest) < 2147483640)%Z ->
    rust_char [rust_quote; (utf8_encoding c, Some hl_string); rust_quote] rest
| rust_char_escape e rest : rust_escape true false e -> rust_char [rust_quote; (e, Some hl_string_escape); rust_quote] rest
| rust_byte_plain c rest : (c < 128)%N -> ~ In c [39; 92; 10; 13; 9]%N ->
    rust_char [(bs "b", Some hl_string_decor); rust_quote; ([c], Some hl_string); rust_quote] rest
| rust_byte_escape e rest : rust_escape false false e ->
    rust_char [(bs "b", Some hl_string_decor); rust_quote; (e, Some hl_string_escape); rust_quote] rest.

Definition rust_double : piece := ([34]%N, Some hl_string_delim).
Definition rust_plain (run rest : str) : Prop := Forall (fun c => ~ In c [34; 92]%N) run.
Inductive rust_item (unicode : bool) : list piece -> str -> Prop :=
| rust_item_escape e rest : rust_escape unicode true e -> rust_item unicode [(e, Some hl_string_escape)] rest.
(** Literals may end without quote at the end of the text. *)
Inductive rust_closing (q : piece) : list piece -> str -> Prop :=
| rust_closed rest : rust_closing q [q] rest
| rust_unclosed : rust_closing q [] [].
Definition hashes (n : nat) : str := repeat (ch "#") n.
Inductive rust_string : list piece -> str -> Prop :=
| rust_string_literal prefix body close rest : In prefix [[]; bs "b"; bs "c"] -> rust_closing rust_double close rest ->
    string_body hl_string rust_plain (rust_item (negb (str_eqb prefix (bs "b")))) (text close ++ rest) true body ->
    rust_string (opt_piece prefix hl_string_decor ++ rust_double :: body ++ close) rest
| rust_raw_literal prefix n body close rest : In prefix [bs "r"; bs "br"] ->
    rust_closing (34%N :: hashes n, Some hl_string_delim) close rest ->
    (* the contents do not contain the closing delimiter *)
    ~ contains body (34%N :: hashes n) -> (close <> [] -> not_before (fun c => c = ch "#") rest) ->
    rust_string ((prefix, Some hl_string_decor) :: (hashes n ++ [34]%N, Some hl_string_delim) :: opt_piece body hl_string ++ close) rest.

(** ** Comments *)
(** As in C++, but block comments do not contain others. *)
Definition rust_comment (p : list piece) (rest : str) : Prop :=
  c_comment js_line p rest /\ forall t, In (t, Some hl_comment) p -> ~ contains (t ++ bs "*") (bs "/*").

(** ** Lexemes *)
Definition rust_no_underscore (w : str) : Prop := not_before (fun c => c = ch "_") w.
(** [w] is not the prefix of a literal. *)
Definition rust_no_prefix (w rest : str) : Prop :=
  In w [bs "b"; bs "br"; bs "c"; bs "cr"; bs "r"] -> not_before (fun c => In c (34%N :: bs "'#")) rest.
Inductive rust_lexeme : list piece -> str -> Prop :=
| rust_comm p rest : rust_comment p rest -> rust_lexeme p rest
| rust_word w h rest : In (w, h) rust_words -> not_before ident_or_non_ascii rest -> rust_lexeme [(w, Some h)] rest
| rust_name w rest : identifier w -> rust_no_underscore w -> (forall h, ~ In (w, h) rust_words) -> rust_no_prefix w rest ->
    not_before (fun c => ident_or_non_ascii c \/ c = ch "!") rest -> rust_lexeme [(w, Some hl_name)] rest
| rust_macro w rest : identifier w -> rust_no_underscore w -> (forall h, ~ In (w, h) rust_words) -> not_before (fun c => c = ch "=") rest ->
    rust_lexeme [(w, Some hl_name_macro); (bs "!", Some hl_name_macro_delim)] rest
| rust_lifetime w rest : identifier w -> not_before (fun c => ident_or_non_ascii c \/ In c (bs "':")) rest ->
    rust_lexeme [(bs "'", Some hl_name_lifetime_delim); (w, Some hl_name_lifetime)] rest
| rust_label w rest : identifier w -> hd_error rest = Some (ch ":") ->
    rust_lexeme [(bs "'", Some hl_name_label_delim); (w, Some hl_name_label)] rest
| rust_symbol t h rest : In (t, h) rust_symbols -> longest rust_symbols t rest -> (t = bs "." -> not_before digit rest) ->
    (t = bs "/" -> not_before (fun c => c = ch "/" \/ c = ch "*") rest) -> rust_lexeme [(t, Some h)] rest
| rust_num n rest : rust_number n rest -> rust_lexeme n rest
| rust_character p rest : rust_char p rest -> no_suffix rest -> rust_lexeme p rest
| rust_str p rest : rust_string p rest -> no_suffix rest -> rust_lexeme p rest.

(** ** Rust as in its reference *)
Definition rust_raw_name (w : str) : list piece := [(bs "r#", Some hl_name_delim); (w, Some hl_name)].
(** Decimal literals: digits and underscores after a digit. *)
Definition rust_dec_literal (w : str) : Prop := exists c t, w = c :: t /\ digit c /\ Forall (fun c => digit c \/ c = ch "_") t.
Definition rust_number_colors (l : list piece) : Prop := Forall (fun p => match snd p with Some h => In h [hl_number; hl_number_delim; hl_number_decor] | None => False end) l.
(** A raw string literal with [n] hashes *)
Definition rust_raw_string (prefix : str) (n : nat) (body : str) : list piece :=
  (prefix, Some hl_string_decor) :: (hashes n ++ [34]%N, Some hl_string_delim) :: opt_piece body hl_string ++ [(34%N :: hashes n, Some hl_string_delim)].
(** The contents of block comments, in which other comments nest *)
Inductive rust_nested : str -> Prop :=
| nested_plain t : ~ contains (t ++ bs "*") (bs "/*") -> ~ contains (t ++ bs "*") (bs "*/") -> rust_nested t
| nested_comment a b c : rust_nested a -> rust_nested b -> rust_nested c -> rust_nested (a ++ bs "/*" ++ b ++ bs "*/" ++ c).
Definition rust_punctuation : list str :=
  [bs "+"; bs "-"; bs "*"; bs "/"; bs "%"; bs "^"; bs "!"; bs "&"; bs "|"; bs "&&"; bs "||"; bs "<<"; bs ">>"; bs "+="; bs "-="; bs "*="; bs "/="; bs "%=";
   bs "^="; bs "&="; bs "|="; bs "<<="; bs ">>="; bs "="; bs "=="; bs "!="; bs ">"; bs "<"; bs ">="; bs "<="; bs "@"; bs "."; bs ".."; bs "..."; bs "..=";
   bs ","; bs ";"; bs ":"; bs "::"; bs "->"; bs "=>"; bs "#"; bs "$"; bs "?"; bs "~"; bs "{"; bs "}"; bs "["; bs "]"; bs "("; bs ")"].
