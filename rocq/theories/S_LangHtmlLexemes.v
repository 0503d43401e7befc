(** * Specification: HTML documents (https://html.spec.whatwg.org/dev/syntax.html) as sequences of lexemes. *)
From Coq Require Import List NArith Bool Arith.
From Verif Require Import M_Base M_Types S_Chars S_LangHtml S_Lexemes S_States.
Import ListNotations.

(** White space, if any *)
Definition blank (w : str) : list piece := match w with [] => [] | _ => [(w, None)] end.

(** ASCII tag names; attribute names in ASCII: no controls, white space, quotes or one of [> / =]. *)
Definition tag_char (c : N) : Prop := letter c \/ digit c \/ In c (bs "-._").
Definition tag_name (t : str) : Prop := t <> [] /\ Forall tag_char t.
Definition attribute_char (c : N) : Prop := (33 <= c <= 126)%N /\ ~ In c (34%N :: bs "'>/=").
Definition attribute_name (a : str) : Prop := a <> [] /\ Forall attribute_char a.

Definition reference_piece (body : str) : piece := (ch "&" :: body ++ [ch ";"], Some hl_string_escape).

(** Attribute values. Quotes belong to the tokens of the string. [quoted q pre l]: [l] is the rest of a value in quotes [q] where [pre], if
    anything, belongs to the first token. Between a reference and the next reference or the closing quote there is some text (see C140). *)
Inductive quoted (q : N) : str -> list piece -> Prop :=
| quoted_last pre run : pre ++ run <> [] -> Forall (fun c => c <> q /\ c <> ch "&") run ->
    quoted q pre [(pre ++ run ++ [q], Some hl_string)]
| quoted_reference pre run body l : pre ++ run <> [] -> Forall (fun c => c <> q /\ c <> ch "&") run -> reference_body body ->
    quoted q [] l -> quoted q pre ((pre ++ run, Some hl_string) :: reference_piece body :: l).
Definition unquoted_char (c : N) : Prop := ~ html_space c /\ ~ In c (34%N :: bs "'=<>`&").
Inductive attribute_value (next : str) : list piece -> Prop :=
| value_quoted q l : q = 34%N \/ q = 39%N -> quoted q [q] l -> attribute_value next l
| value_unquoted t : t <> [] -> Forall unquoted_char t -> (exists c r, next = c :: r /\ (html_space c \/ c = ch ">")) ->
    attribute_value next [(t, Some hl_string)].

(** Attributes, with white space between them, before [tail] *)
Inductive attributes (tail : str) : list piece -> Prop :=
| attributes_end : attributes tail []
| attributes_flag a w l : attribute_name a -> Forall html_space w -> l = [] \/ w <> [] -> attributes tail l ->
    attributes tail ((a, Some hl_markup_attr) :: blank w ++ l)
| attributes_value a w1 w2 v w l : attribute_name a -> Forall html_space w1 -> Forall html_space w2 -> Forall html_space w -> l = [] \/ w <> [] ->
    attribute_value (w ++ text l ++ tail) v -> attributes tail l ->
    attributes tail ((a, Some hl_markup_attr) :: blank w1 ++ (bs "=", Some hl_symbol_punc) :: blank w2 ++ v ++ blank w ++ l).

(** A start tag with name [t] before [rest] *)
Inductive start_tag (t rest : str) : list piece -> Prop :=
| start_tag_ w a e : tag_name t -> Forall html_space w -> a = [] \/ w <> [] -> In e [bs ">"; bs "/>"] -> attributes (e ++ rest) a ->
    start_tag t rest ((bs "<", Some hl_symbol_punc) :: (t, Some hl_markup_tag) :: blank w ++ a ++ [(e, Some hl_symbol_punc)]).

(** Text with character references *)
Definition text_char (c : N) : Prop := c <> ch "<" /\ c <> ch "&".
Inductive html_text_pieces : list piece -> Prop :=
| html_text_end t : Forall text_char t -> html_text_pieces (blank t)
| html_text_reference t body l : Forall text_char t -> reference_body body -> html_text_pieces l ->
    html_text_pieces (blank t ++ reference_piece body :: l).

(** Elements whose text is only text and references; elements whose text is in another language. *)
Definition escapable_names : list str := [bs "textarea"; bs "title"].
Definition raw_names : list str := [bs "script"; bs "style"].
Definition closes (t rest : str) : Prop :=
  exists m c r, rest = bs "</" ++ m ++ c :: r /\ map lower m = map lower t /\ (html_space c \/ c = ch ">" \/ c = ch "/").

(** Documents, without regard to the nesting of elements, and without scripts and style sheets *)
Inductive html_lexeme : list piece -> str -> Prop :=
| html_comment t rest : comment_text t ->
    html_lexeme ((bs "<!--", Some hl_comment_delim) :: opt_piece t hl_comment ++ [(bs "-->", Some hl_comment_delim)]) rest
| html_doctype d t rest : map lower d = bs "<!doctype" -> ~ In (ch ">") t ->
    html_lexeme [(d ++ t ++ bs ">", Some hl_name_macro)] rest
| html_cdata t rest : ~ contains t (bs "]]>") ->
    html_lexeme [(bs "<![CDATA[", Some hl_name_macro); (t, None); (bs "]]>", Some hl_name_macro)] rest
| html_end_tag t rest : tag_name t ->
    html_lexeme [(bs "</", Some hl_symbol_punc); (t, Some hl_markup_tag); (bs ">", Some hl_symbol_punc)] rest
| html_start_tag t p rest : ~ In (map lower t) (escapable_names ++ raw_names) -> start_tag t rest p -> html_lexeme p rest
| html_escapable t p l rest : In (map lower t) escapable_names -> start_tag t (text l ++ rest) p -> html_text_pieces l -> closes t rest ->
    html_lexeme (p ++ l) rest
| html_normal_text p rest : html_text_pieces p -> text p <> [] -> rest = [] \/ (exists r, rest = ch "<" :: r) -> html_lexeme p rest.
Definition html_lexemes : list piece -> Prop := sequence (fun _ p rest _ => html_lexeme p rest) tt.
