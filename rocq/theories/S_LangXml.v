(** * Specification: XML 1.0 documents (https://www.w3.org/TR/xml/) as sequences of lexemes. *)
From Coq Require Import List NArith Bool Arith.
From Verif Require Import M_Base M_Types S_Chars S_Utf8 S_LangHtml S_Lexemes S_States.
Import ListNotations.

(** Production 3: white space *)
Definition xml_space (c : N) : Prop := In c [32; 9; 10; 13]%N.
(** Productions 4 and 4a: characters of names *)
Definition xml_name_start_char (c : N) : Prop :=
  (c = 58 \/ 65 <= c <= 90 \/ c = 95 \/ 97 <= c <= 122 \/ 0xC0 <= c <= 0xD6 \/ 0xD8 <= c <= 0xF6 \/ 0xF8 <= c <= 0x2FF
   \/ 0x370 <= c <= 0x37D \/ 0x37F <= c <= 0x1FFF \/ 0x200C <= c <= 0x200D \/ 0x2070 <= c <= 0x218F \/ 0x2C00 <= c <= 0x2FEF
   \/ 0x3001 <= c <= 0xD7FF \/ 0xF900 <= c <= 0xFDCF \/ 0xFDF0 <= c <= 0xFFFD \/ 0x10000 <= c <= 0xEFFFF)%N.
Definition xml_name_char (c : N) : Prop :=
  (xml_name_start_char c \/ c = 45 \/ c = 46 \/ 48 <= c <= 57 \/ c = 0xB7 \/ 0x300 <= c <= 0x36F \/ 0x203F <= c <= 0x2040)%N.
(** Production 5: a name, in UTF-8, whose characters are all in [d]. *)
Definition xml_name_in (d : N -> Prop) (w : str) : Prop :=
  exists c cs, w = concat (map utf8_encoding (c :: cs)) /\ xml_name_start_char c /\ Forall xml_name_char cs /\ Forall d (c :: cs).
Definition xml_name : str -> Prop := xml_name_in (fun _ => True).
(** Names without hyphen and without the last sixteen code points of production 4: these are the names the highlighter knows. *)
Definition xml_known_name : str -> Prop := xml_name_in (fun c => c <> 45 /\ c < 0xEFFF0)%N.

(** The pieces below use the names in [name]. *)
Section lexemes.
Variable name : str -> Prop.

(** Productions 66 and 68: references. [reference_body] says what may come between ampersand and semicolon; its named
    references consist of ASCII letters and digits only. *)
Inductive xml_reference : list piece -> str -> Prop :=
| xml_reference_ body r : reference_body body -> xml_reference [(ch "&" :: body ++ [ch ";"], Some hl_string_escape)] r.

(** Production 10: a quoted value *)
Definition xml_plain (q : N) (run rest : str) : Prop := Forall (fun c => c <> q /\ c <> ch "&" /\ c <> ch "<") run.
Inductive xml_value : list piece -> Prop :=
| xml_value_ q body : q = 34%N \/ q = 39%N -> string_body hl_string (xml_plain q) xml_reference [q] true body ->
    xml_value (([q], Some hl_string_delim) :: body ++ [([q], Some hl_string_delim)]).

(** Production 41: attributes, each after white space, in a start tag. *)
Inductive xml_attributes : list piece -> Prop :=
| xml_attributes_end : xml_attributes []
| xml_attributes_more w a w1 w2 v l : w <> [] -> Forall xml_space w -> name a -> Forall xml_space w1 -> Forall xml_space w2 ->
    xml_value v -> xml_attributes l ->
    xml_attributes ((w, None) :: (a, Some hl_markup_attr) :: (w1, None) :: (bs "=", Some hl_symbol_punc) :: (w2, None) :: v ++ l).

(** Productions 40 and 44: start tags and empty-element tags *)
Inductive xml_start_tag : list piece -> Prop :=
| xml_start_tag_ t a w e : name t -> xml_attributes a -> Forall xml_space w -> In e [bs ">"; bs "/>"] ->
    xml_start_tag ((bs "<", Some hl_symbol_punc) :: (t, Some hl_markup_tag) :: a ++ [(w, None); (e, Some hl_symbol_punc)]).

(** Productions 3, 15 and 16: white space, comments and processing instructions, which may come anywhere. *)
Inductive xml_misc : list piece -> str -> Prop :=
| xml_comment t rest : ~ contains (t ++ bs "-") (bs "--") ->
    xml_misc ((bs "<!--", Some hl_comment_delim) :: opt_piece t hl_comment ++ [(bs "-->", Some hl_comment_delim)]) rest
(* The highlighter looks for "xml" in the wrong place; see C126. *)
| xml_instruction t w body rest : name t -> Forall xml_space w -> (w = [] -> body = []) -> ~ contains body (bs "?>") ->
    ~ contains (map lower (firstn (length t) (w ++ body ++ bs "?>" ++ rest))) (bs "xml") ->
    xml_misc [(bs "<?", Some hl_symbol_punc); (t, Some hl_name_macro); (w, None); (body, None); (bs "?>", Some hl_symbol_punc)] rest.
Inductive xml_white : list piece -> str -> Prop :=
| xml_white_ w rest : w <> [] -> Forall xml_space w -> not_before xml_space rest -> xml_white [(w, None)] rest.

(** Production 43: content, here without regard to the nesting of elements. *)
Inductive xml_content_lexeme : list piece -> str -> Prop :=
| xml_content_misc p rest : xml_misc p rest -> xml_content_lexeme p rest
| xml_content_text t rest : t <> [] -> Forall (fun c => c <> ch "<" /\ c <> ch "&") t -> not_before (fun c => c <> ch "<" /\ c <> ch "&") rest ->
    xml_content_lexeme [(t, None)] rest
| xml_content_reference p rest : xml_reference p rest -> xml_content_lexeme p rest
| xml_content_cdata t rest : ~ contains t (bs "]]>") ->
    xml_content_lexeme [(bs "<![CDATA[", Some hl_name_macro); (t, None); (bs "]]>", Some hl_name_macro)] rest
| xml_content_start p rest : xml_start_tag p -> xml_content_lexeme p rest
| xml_content_end t w rest : name t -> Forall xml_space w ->
    xml_content_lexeme [(bs "</", Some hl_symbol_punc); (t, Some hl_markup_tag); (w, None); (bs ">", Some hl_symbol_punc)] rest.

(** Productions 1 and 22: a document without XML declaration: comments, processing instructions and white space, then a start tag and content. *)
Inductive xml_document : list piece -> Prop :=
| xml_document_misc p l : xml_misc p (text l) \/ xml_white p (text l) -> xml_document l -> xml_document (p ++ l)
| xml_document_root p l : xml_start_tag p -> sequence (fun _ p rest _ => xml_content_lexeme p rest) tt l -> xml_document (p ++ l)
| xml_document_end : xml_document [].
End lexemes.

(** UTF-8 text that the library's decoder can handle. *)
Definition fits (s : str) : Prop := Forall (fun c => c < 256)%N s /\ (N.of_nat (length s) < 2 ^ 31)%N.
