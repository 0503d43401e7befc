(** * Specification: JSON documents and their tokens. *)
From Coq Require Import List NArith Bool Arith.
From Verif Require Import M_Base M_Types M_Emit S_Json S_Lexemes S_Comments.
Import ListNotations.

Definition json_punctuation (s : str) : piece := (s, Some hl_symbol_punc).
Definition json_brace (s : str) : piece := (s, Some hl_symbol_brace).
Definition json_square (s : str) : piece := (s, Some hl_symbol_square).
Definition json_quote : piece := ([34]%N, Some hl_string_delim).
Definition json_words : list (str * N) := [(bs "null", hl_null); (bs "true", hl_bool); (bs "false", hl_bool)].

(** The contents of a string: runs of text with highlight [h], and escape sequences. [last] gives the pieces for the last run and what
    closes the string. *)
Inductive json_chars (h : N) (last : str -> list piece) : list piece -> Prop :=
| chars_last run : Forall unescaped run -> json_chars h last (last run)
| chars_more run t v l : Forall unescaped run -> json_escape t v -> json_chars h last l ->
    json_chars h last (opt_piece run h ++ (t, Some hl_string_escape) :: l).
Definition json_string (l : list piece) : Prop :=
  exists body, l = json_quote :: body /\ json_chars hl_string (fun run => opt_piece run hl_string ++ [json_quote]) body.
(** Quotes are part of the highlight of a key. *)
Inductive json_key : list piece -> Prop :=
| key_plain run : Forall unescaped run -> json_key [(34%N :: run ++ [34%N], Some hl_markup_attr)]
| key_escapes run t v l : Forall unescaped run -> json_escape t v ->
    json_chars hl_markup_attr (fun run => [(run ++ [34%N], Some hl_markup_attr)]) l ->
    json_key ((34%N :: run, Some hl_markup_attr) :: (t, Some hl_string_escape) :: l).

Section document.
(** [comments]: there may be comments. [words]: null, true and false may be elements of arrays. *)
Variables comments words : bool.

(** White space and comments. A line comment ends with a line break, or at the end of the text. *)
Inductive json_gap : list piece -> Prop :=
| gap_none : json_gap []
| gap_blank w l : Forall lenient_blank w -> json_gap l -> json_gap ((w, None) :: l)
| gap_line t c r l : comments = true -> js_line t -> (c = 10 \/ c = 13)%N -> text l = c :: r -> json_gap l ->
    json_gap (slash_comment :: opt_piece t hl_comment ++ l)
| gap_block t l : comments = true -> ~ contains (t ++ bs "*") (bs "*/") -> json_gap l ->
    json_gap ((bs "/*", Some hl_comment_delim) :: opt_piece t hl_comment ++ (bs "*/", Some hl_comment_delim) :: l).
Inductive json_last_gap : list piece -> Prop :=
| last_gap l : json_gap l -> json_last_gap l
| last_gap_line l t : comments = true -> json_gap l -> js_line t -> json_last_gap (l ++ slash_comment :: opt_piece t hl_comment).

(** The flag says whether the value is an element of an array. *)
Inductive json_value : bool -> list piece -> Prop :=
| json_word w h e : In (w, h) json_words -> (e = true -> words = true) -> json_value e [(w, Some h)]
| json_num t e : json_number t -> json_value e [(t, Some hl_number)]
| json_str l e : json_string l -> json_value e l
| json_array_empty g e : json_gap g -> json_value e (json_square (bs "[") :: g ++ [json_square (bs "]")])
| json_array l e : json_elements l -> json_value e (json_square (bs "[") :: l ++ [json_square (bs "]")])
| json_object_empty g e : json_gap g -> json_value e (json_brace (bs "{") :: g ++ [json_brace (bs "}")])
| json_object l e : json_members l -> json_value e (json_brace (bs "{") :: l ++ [json_brace (bs "}")])
with json_elements : list piece -> Prop :=
| json_element g v g' : json_gap g -> json_value true v -> json_gap g' -> json_elements (g ++ v ++ g')
| json_element_more g v g' l : json_gap g -> json_value true v -> json_gap g' -> json_elements l ->
    json_elements (g ++ v ++ g' ++ json_punctuation (bs ",") :: l)
with json_members : list piece -> Prop :=
| json_member g k g1 g2 v g' : json_gap g -> json_key k -> json_gap g1 -> json_gap g2 -> json_value false v -> json_gap g' ->
    json_members (g ++ k ++ g1 ++ json_punctuation (bs ":") :: g2 ++ v ++ g')
| json_member_more g k g1 g2 v g' l : json_gap g -> json_key k -> json_gap g1 -> json_gap g2 -> json_value false v -> json_gap g' ->
    json_members l -> json_members (g ++ k ++ g1 ++ json_punctuation (bs ":") :: g2 ++ v ++ g' ++ json_punctuation (bs ",") :: l).

Inductive json_document : list piece -> Prop :=
| json_document_intro g v g' : json_gap g -> json_value false v -> json_last_gap g' -> json_document (g ++ v ++ g').
End document.

(** A token that marks an error *)
Definition error_token (op : out_op) : Prop := match op with OEmit _ _ h _ => h = hl_error | _ => False end.
