(** * Specification: Markdown *)
From Coq Require Import List NArith Bool Arith.
From Verif Require Import M_Base M_Types S_Lexemes S_LangHtml.
Import ListNotations.

(** After any spaces comes a character that is not the end of the line and not one of [# * _ \]]. *)
Definition followed (s : str) : Prop := exists sp c u, s = sp ++ c :: u /\ Forall (eq 32%N) sp /\ ~ In c (bs " #*_]" ++ [10; 13]%N).
(** Every start of an HTML comment is followed by text on the same line. *)
Definition comments_have_text (src : str) : Prop := forall a b, src = a ++ bs "<!--" ++ b -> followed b.

(** ** Characters *)
Definition blank_char (c : N) : Prop := c = 32%N \/ c = 9%N.
Definition md_white (c : N) : Prop := blank_char c \/ c = 13%N \/ c = 10%N.
Definition alnum (c : N) : Prop := letter c \/ digit c.
(** ASCII punctuation, as in CommonMark 2.1 *)
Definition md_punctuation (c : N) : Prop := (33 <= c <= 47 \/ 58 <= c <= 64 \/ 91 <= c <= 96 \/ 123 <= c <= 126)%N.
(** The characters that can begin an inline construct *)
Definition md_special (c : N) : Prop := In c (bs "`<\&![*_").
Definition is_char (x c : N) : Prop := c = x.
Definition tick : N := ch "`".

(** ** Inline constructs *)
(** The text of a code span between delimiters of [n] backticks: no run of exactly [n] backticks, and no backtick at the ends. *)
Inductive span_text (n : nat) : str -> Prop :=
| span_last c : c <> tick -> span_text n [c]
| span_char c t : c <> tick -> span_text n t -> span_text n (c :: t)
| span_ticks c k t : c <> tick -> 0 < k -> k <> n -> span_text n t -> span_text n (c :: repeat tick k ++ t).
(** There is no run of exactly [n] backticks. *)
Inductive no_run (n : nat) : str -> Prop :=
| no_run_end : no_run n []
| no_run_char c t : c <> tick -> no_run n t -> no_run n (c :: t)
| no_run_ticks k t : 0 < k -> k <> n -> not_before (is_char tick) t -> no_run n t -> no_run n (repeat tick k ++ t).
(** Character references *)
Inductive md_reference : str -> Prop :=
| reference_name w : w <> [] -> Forall alnum w -> md_reference (bs "&" ++ w ++ bs ";")
| reference_decimal w : w <> [] -> Forall digit w -> md_reference (bs "&#" ++ w ++ bs ";")
| reference_hex x w : x = ch "x" \/ x = ch "X" -> w <> [] -> Forall hex_digit w -> md_reference (bs "&#" ++ x :: w ++ bs ";").
(** The text of an autolink between [<] and [>] *)
Definition link_char (c : N) : Prop := c <> ch "<" /\ c <> ch ">" /\ ~ md_white c.
Definition address_char (c : N) : Prop := c = ch ":" \/ c = ch "@".
Definition autolink (u : str) : Prop := Forall link_char u /\ (exists c, In c u /\ address_char c) /\ ~ exists v, u = bs "!--" ++ v.
(** The text of a comment that does not end in the line *)
Definition open_comment (t : str) : Prop :=
  t <> [] /\ (~ exists b, t = bs ">" ++ b) /\ (~ exists b, t = bs "->" ++ b)
  /\ ~ contains t (bs "<!--") /\ ~ contains t (bs "-->") /\ ~ contains t (bs "--!>").
(** Text with balanced brackets; a backslash hides the character after it. *)
Inductive balanced : str -> Prop :=
| balanced_end : balanced []
| balanced_char c t : ~ In c (bs "\[]") -> balanced t -> balanced (c :: t)
| balanced_escape c t : balanced t -> balanced (ch "\" :: c :: t)
| balanced_nested a t : balanced a -> balanced t -> balanced (ch "[" :: a ++ ch "]" :: t).
(** The destination and the title of a link between the parentheses *)
Inductive plain_url : str -> Prop :=
| url_end : plain_url []
| url_char c t : c <> ch "\" -> c <> ch ")" -> ~ md_white c -> plain_url t -> plain_url (c :: t)
| url_escape c t : plain_url t -> plain_url (ch "\" :: c :: t).
Definition destination (u : str) : Prop :=
  (plain_url u /\ not_before (is_char (ch "<")) u)
  \/ exists v, u = bs "<" ++ v ++ bs ">" /\ Forall (fun c => ~ In c [60; 62; 10]%N) v.
Definition link_title (t : str) : Prop := ~ In (ch ")") t /\ not_before (fun c => ~ md_white c) t.
(** The text between delimiters of [n] times [c], from after the character [prev] on: only the closing delimiter is a run of
    [n] times [c] that could close it. [after] follows the closing delimiter. *)
Definition closes (c : N) (n k : nat) (prev : N) (after : str) : Prop :=
  k = n /\ ~ md_white prev /\ (c = ch "_" -> not_before alnum after).
Inductive emphasis_text (c : N) (n : nat) : N -> str -> Prop :=
| emphasis_end prev : ~ md_white prev -> emphasis_text c n prev []
| emphasis_char prev x t : x <> tick -> x <> c -> emphasis_text c n x t -> emphasis_text c n prev (x :: t)
| emphasis_code prev k b t : 0 < k -> span_text k b -> not_before (is_char tick) t -> emphasis_text c n tick t ->
    emphasis_text c n prev (repeat tick k ++ b ++ repeat tick k ++ t)
| emphasis_run prev k t : 0 < k -> t <> [] -> not_before (is_char c) t -> ~ closes c n k prev t -> emphasis_text c n c t ->
    emphasis_text c n prev (repeat c k ++ t).
(** Nothing closes the emphasis. *)
Inductive never_closes (c : N) (n : nat) : N -> str -> Prop :=
| never_end prev : never_closes c n prev []
| never_char prev x t : x <> tick -> x <> c -> never_closes c n x t -> never_closes c n prev (x :: t)
| never_code prev k b t : 0 < k -> span_text k b -> not_before (is_char tick) t -> never_closes c n tick t ->
    never_closes c n prev (repeat tick k ++ b ++ repeat tick k ++ t)
| never_ticks prev k t : 0 < k -> not_before (is_char tick) t -> no_run k t -> never_closes c n prev (repeat tick k ++ t)
| never_run prev k t : 0 < k -> not_before (is_char c) t -> ~ closes c n k prev t -> never_closes c n c t ->
    never_closes c n prev (repeat c k ++ t).
(** A special character [x] after [prev] and before [rest] that begins no construct *)
Inductive lone (prev : N) (rest : str) : N -> Prop :=
| lone_bang : not_before (is_char (ch "[")) rest -> lone prev rest (ch "!")
| lone_backslash : not_before md_punctuation rest -> lone prev rest (ch "\")
| lone_ampersand w r : rest = w ++ r -> Forall alnum w -> not_before (fun c => alnum c \/ c = ch "#" \/ c = ch ";") r -> lone prev rest (ch "&")
| lone_tick j r : rest = repeat tick j ++ r -> not_before (is_char tick) r -> no_run (S j) r -> lone prev rest tick
| lone_less u r : rest = u ++ r -> Forall link_char u -> not_before link_char r -> (~ exists v, rest = bs "!--" ++ v) ->
    not_before (is_char (ch ">")) r \/ Forall (fun c => ~ address_char c) u -> lone prev rest (ch "<")
| lone_bracket : ~ In (ch "]") rest -> lone prev rest (ch "[")
| lone_brackets b r : rest = b ++ ch "]" :: r -> balanced b -> not_before (is_char (ch "(")) r -> lone prev rest (ch "[")
| lone_link b r : rest = b ++ bs "](" ++ r -> balanced b -> ~ In (ch ")") r -> lone prev rest (ch "[")
| lone_space x n r : In x (bs "*_") -> n <= 2 -> rest = repeat x n ++ r -> not_before (fun c => ~ md_white c) r -> lone prev rest x
| lone_word : alnum prev -> lone prev rest (ch "_")
| lone_run x : In x (bs "*_") -> (exists r, rest = x :: x :: x :: r) -> lone prev rest x
| lone_emphasis x n r : In x (bs "*_") -> n <= 2 -> rest = repeat x n ++ r -> not_before (is_char x) r -> never_closes x (S n) x r -> lone prev rest x.

Definition formatting (w : str) : piece := (w, Some hl_symbol_formatting).
(** Constructs without nested constructs: the previous character, the pieces, the last character, and what follows in the same region *)
Inductive md_atom (prev : N) : list piece -> N -> str -> Prop :=
| atom_lone x rest : lone prev rest x -> md_atom prev [([x], None)] x rest
| atom_escape c rest : md_punctuation c -> md_atom prev [([ch "\"; c], Some hl_string_escape)] c rest
| atom_reference w rest : md_reference w -> md_atom prev [(w, Some hl_string_escape)] (ch ";") rest
| atom_code n b rest : 0 < n -> span_text n b -> not_before (is_char tick) rest ->
    md_atom prev [(repeat tick n, Some hl_string_delim); (b, Some hl_text_code); (repeat tick n, Some hl_string_delim)] tick rest
| atom_autolink u rest : autolink u -> md_atom prev [formatting (bs "<"); (u, Some hl_text_link); formatting (bs ">")] (ch ">") rest
| atom_comment t rest : comment_text t ->
    md_atom prev ((bs "<!--", Some hl_comment_delim) :: opt_piece t hl_comment ++ [(bs "-->", Some hl_comment_delim)]) (ch ">") rest
| atom_image alt u t rest : balanced alt -> destination u -> link_title t ->
    md_atom prev (formatting (bs "![") :: (alt, None) :: formatting (bs "](") :: opt_piece u hl_text_link ++ [(t, None); formatting (bs ")")]) (ch ")") rest.
(** Inline content after [prev] in which plain text has the highlight [h]; [open] says that it ends in a comment that continues
    on the next line. *)
Inductive md_inlines (h : option N) : bool -> N -> list piece -> Prop :=
| inlines_end prev : md_inlines h false prev []
| inlines_open prev t : open_comment t -> md_inlines h true prev [(bs "<!--", Some hl_comment_delim); (t, Some hl_comment)]
| inlines_plain open prev w c l : Forall (fun c => ~ md_special c) (w ++ [c]) -> not_before (fun c => ~ md_special c) (text l) ->
    md_inlines h open c l -> md_inlines h open prev ((w ++ [c], h) :: l)
| inlines_atom open prev p last l : md_atom prev p last (text l) -> md_inlines h open last l -> md_inlines h open prev (p ++ l)
| inlines_link open prev inner u t l : md_inlines None false 0 inner -> balanced (text inner) -> destination u -> link_title t ->
    md_inlines h open (ch ")") l ->
    md_inlines h open prev (formatting (bs "[") :: inner ++ formatting (bs "](") :: opt_piece u hl_text_link ++ (t, None) :: formatting (bs ")") :: l)
| inlines_emphasis open prev c n inner l : In c (bs "*_") -> 1 <= n <= 3 -> (c = ch "_" -> ~ alnum prev) ->
    md_inlines None false c inner -> text inner <> [] -> not_before (fun x => x = c \/ md_white x) (text inner) -> emphasis_text c n c (text inner) ->
    not_before (is_char c) (text l) -> (c = ch "_" -> not_before alnum (text l)) ->
    md_inlines h open c l ->
    md_inlines h open prev (formatting (repeat c n) :: inner ++ formatting (repeat c n) :: l).

(** ** Lines *)
Definition spaces (n : nat) : str := repeat (ch " ") n.
(** What follows the heading's number signs is empty or begins with a space or tab. *)
Definition heading_line (s : str) : Prop :=
  exists i n r, i <= 3 /\ 1 <= n <= 6 /\ s = spaces i ++ repeat (ch "#") n ++ r /\ not_before (fun c => ~ blank_char c) r.
(** At least three of the same character, with spaces and tabs between them *)
Definition thematic (w : str) : Prop :=
  exists c t, w = c :: t /\ In c (bs "*-_=") /\ Forall (fun x => x = c \/ blank_char x) w /\ exists a b d, w = c :: a ++ c :: b ++ c :: d.
Definition thematic_line (s : str) : Prop := exists i w, i <= 3 /\ s = spaces i ++ w /\ thematic w.
Definition fence (c : N) (n : nat) (info : str) : Prop :=
  In c (bs "`~") /\ 3 <= n /\ not_before (is_char c) info /\ (c = tick -> ~ In tick info).
Definition fence_line (s : str) : Prop := exists i c n info, i <= 3 /\ s = spaces i ++ repeat c n ++ info /\ fence c n info.
Definition list_marker (m : str) : Prop :=
  (exists c, m = [c] /\ In c (bs "-+*")) \/ exists d c, m = d ++ [c] /\ 1 <= length d <= 9 /\ Forall digit d /\ In c (bs ".)").
Definition list_line (s : str) : Prop := exists i m c r, s = spaces i ++ m ++ c :: r /\ list_marker m /\ blank_char c.
Definition quote_line (s : str) : Prop := exists i r, i <= 3 /\ s = spaces i ++ ch ">" :: r.
Definition indentation (s : str) : Prop := s = spaces 4 \/ s = [9%N].
Definition indented_line (s : str) : Prop := exists i r, s = i ++ r /\ indentation i.
Definition blank (s : str) : Prop := Forall md_white s.
(** [v] is the text of a heading and [e] is the end of the line: spaces and, after a space, number signs. *)
Definition heading_end (v e : str) : Prop :=
  (exists i, e = spaces i /\ ((exists u c, v = u ++ [c] /\ c <> ch " " /\ c <> ch "#")
      \/ (exists u c n, v = u ++ c :: repeat (ch "#") n /\ c <> ch " " /\ c <> ch "#" /\ 0 < n) \/ v = []))
  \/ (exists i n j, e = spaces i ++ repeat (ch "#") n ++ spaces j /\ 0 < n /\ (v = [] \/ 0 < i /\ exists u c, v = u ++ [c] /\ c <> ch " ")).

(** The content of a line outside of fenced code and comments, in block quotes ([quoted]) or not; [open] says that it ends in a
    comment that continues on the next line. *)
Inductive md_block (quoted : bool) : bool -> list piece -> Prop :=
| block_no_heading i n : i <= 3 -> 1 <= n <= 6 -> md_block quoted false [(spaces i, None); formatting (repeat (ch "#") n)]
| block_heading open i n c l e : i <= 3 -> 1 <= n <= 6 -> blank_char c -> md_inlines (Some hl_text_heading) open 0 l -> heading_end (text l) e ->
    md_block quoted open ((spaces i, None) :: formatting (repeat (ch "#") n) :: ([c], None) :: l ++ [(e, None)])
| block_break i w : i <= 3 -> thematic w -> md_block quoted false [(spaces i, None); formatting w]
| block_item open i m c l : list_marker m -> blank_char c -> ~ thematic_line (spaces i ++ m ++ c :: text l) -> md_inlines None open 0 l ->
    md_block quoted open ((spaces i, None) :: formatting m :: ([c], None) :: l)
| block_quote_end i c : i <= 3 -> c = [] \/ c = [32]%N \/ c = [9]%N -> md_block quoted false [(spaces i, None); formatting (bs ">"); (c, None)]
| block_quote open i c l : i <= 3 -> c = [] /\ not_before blank_char (text l) \/ c = [32]%N \/ c = [9]%N -> text l <> [] -> md_block true open l ->
    md_block quoted open ((spaces i, None) :: formatting (bs ">") :: (c, None) :: l)
| block_code i t : indentation i -> ~ list_line (i ++ t) -> (quoted = false -> ~ blank t) ->
    md_block quoted false ((i, None) :: opt_piece t hl_text_code)
| block_paragraph open l : md_inlines None open 0 l -> text l <> [] ->
    ~ heading_line (text l) -> ~ thematic_line (text l) -> ~ list_line (text l) -> ~ quote_line (text l) -> ~ indented_line (text l) ->
    (quoted = false -> ~ blank (text l) /\ ~ fence_line (text l)) -> md_block quoted open l.

(** Whether a line is in fenced code, in a comment or in neither *)
Inductive md_mode := md_text | md_fence (c : N) (n : nat) | md_in_comment.
Definition closing_fence (c : N) (n : nat) (s : str) : Prop :=
  exists i k sp, i <= 3 /\ n <= k /\ Forall blank_char sp /\ s = spaces i ++ repeat c k ++ sp.
Inductive md_line_of : md_mode -> list piece -> md_mode -> Prop :=
| line_blank w : Forall blank_char w -> md_line_of md_text [(w, None)] md_text
| line_block open l : md_block false open l -> md_line_of md_text l (if open then md_in_comment else md_text)
| line_fence i c n info : i <= 3 -> fence c n info ->
    md_line_of md_text [(spaces i, None); (repeat c n, Some hl_string_delim); (info, None)] (md_fence c n)
| line_code c n t : ~ closing_fence c n t -> md_line_of (md_fence c n) (opt_piece t hl_text_code) (md_fence c n)
| line_fence_end c n i k sp : i <= 3 -> n <= k -> Forall blank_char sp ->
    md_line_of (md_fence c n) [(spaces i, None); (repeat c k, Some hl_string_delim); (sp, None)] md_text
| line_comment t : ~ contains t (bs "-->") -> md_line_of md_in_comment (opt_piece t hl_comment) md_in_comment
| line_comment_end open t l : ~ contains (t ++ bs "--") (bs "-->") -> md_inlines None open (ch ">") l ->
    md_line_of md_in_comment (opt_piece t hl_comment ++ (bs "-->", Some hl_comment_delim) :: l) (if open then md_in_comment else md_text).
(** Lines with their terminators; the last line may have none. *)
Definition one_line (l : list piece) : Prop := Forall (fun c => c <> 10 /\ c <> 13)%N (text l).
Inductive md_lines : md_mode -> list piece -> Prop :=
| lines_end m : md_lines m []
| lines_last m l m' : md_line_of m l m' -> one_line l -> text l <> [] -> md_lines m l
| lines_more m l m' w rest : md_line_of m l m' -> one_line l -> newline w (text rest) -> md_lines m' rest -> md_lines m (l ++ (w, None) :: rest).
Definition md_document (l : list piece) : Prop := md_lines md_text l.
