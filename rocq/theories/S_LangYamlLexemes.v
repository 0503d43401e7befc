(** * Specification: the tokens of YAML documents *)
From Coq Require Import List NArith Bool Arith.
From Verif Require Import M_Base M_Types M_Emit M_Api S_Lexemes.
Import ListNotations.

(** ** Lines *)
Definition line_break (c : N) : Prop := c = 10%N \/ c = 13%N.
Definition same_line (w : str) : Prop := Forall (fun c => ~ line_break c) w.
Definition spaces (w : str) : Prop := Forall (fun c => c = 32%N) w.
(** A line ends with a line break or at the end of the text. *)
Definition line_ends (w rest : str) : Prop := newline w rest \/ w = [] /\ rest = [].

(** ** Scalars *)
(** A colon separates a key from its value when a space or the end of the text follows. *)
Definition no_separator_inside (w : str) : Prop := forall a b, w = a ++ 58%N :: b -> b <> [] /\ hd_error b <> Some 32%N.
Definition no_space_at_end (w : str) : Prop := forall a, w <> a ++ [32%N].
Definition word_start (c : N) : Prop := letter c \/ c = 95%N \/ c = 47%N \/ (128 <= c)%N.
(** The constants of YAML 1.1, in lower case, upper case and capitalized *)
Definition yaml_constants : list (str * N) :=
  map (fun w => (w, hl_bool))
    [bs "true"; bs "True"; bs "TRUE"; bs "false"; bs "False"; bs "FALSE"; bs "yes"; bs "Yes"; bs "YES"; bs "no"; bs "No"; bs "NO";
     bs "on"; bs "On"; bs "ON"; bs "off"; bs "Off"; bs "OFF"]
  ++ map (fun w => (w, hl_null)) [bs "null"; bs "Null"; bs "NULL"; bs "~"].
(** Plain text: no flow indicator, comment or double quote; if it begins with a constant, the word goes on. *)
Definition plain_char (c : N) : Prop := (32 <= c)%N /\ ~ In c (bs ",[]{}#" ++ [34%N]).
Definition plain_text (w : str) : Prop :=
  (exists c t, w = c :: t /\ word_start c) /\ Forall plain_char w /\ no_separator_inside w /\ no_space_at_end w
  /\ forall k h t, In (k, h) yaml_constants -> w = k ++ t -> exists c u, t = c :: u /\ ident_char c.
(** A non-negative decimal number, perhaps with a fraction *)
Definition decimal (w : str) : Prop :=
  exists n f, n <> [] /\ Forall digit n /\ (f = [] \/ exists d, f = 46%N :: d /\ d <> [] /\ Forall digit d) /\ w = n ++ f.
Inductive yaml_escape : list piece -> str -> Prop :=
| esc_char c rest : In c (bs "0abefnrtv""/\_NLP ") -> yaml_escape [([92; c]%N, Some hl_string_escape)] rest
| esc_hex x n w rest : In (x, n) [(ch "x", 2); (ch "u", 4); (ch "U", 8)] -> exactly n hex_digit w ->
    yaml_escape [(92%N :: x :: w, Some hl_string_escape)] rest.
Definition double_plain (run rest : str) : Prop := Forall (fun c => ~ line_break c /\ c <> 34%N /\ c <> 92%N) run.
Definition quote (q : N) : piece := ([q], Some hl_string_delim).
(** The text between single quotes, where a quote is written twice *)
Inductive single_text : str -> Prop :=
| single_none : single_text []
| single_char c t : ~ line_break c -> c <> 39%N -> single_text t -> single_text (c :: t)
| single_quote t : single_text t -> single_text (39%N :: 39%N :: t).
Inductive yaml_scalar : list piece -> Prop :=
| scalar_plain w : plain_text w -> yaml_scalar [(w, Some hl_string)]
| scalar_constant w h : In (w, h) yaml_constants -> yaml_scalar [(w, Some h)]
| scalar_number w : decimal w -> yaml_scalar [(w, Some hl_number)]
| scalar_double body : string_body hl_string double_plain yaml_escape [34%N] true body -> yaml_scalar (quote 34 :: body ++ [quote 34])
| scalar_single t : single_text t -> yaml_scalar (quote 39 :: opt_piece t hl_string ++ [quote 39]).

(** ** Flow collections *)
Definition yaml_gap (w : str) : Prop := Forall (fun c => c = 32 \/ c = 9 \/ c = 10 \/ c = 13)%N w.
(** What may follow a value directly: the end of the line, a comma or a closing bracket *)
Definition value_end (rest : str) : Prop := not_before (fun c => ~ In c ([10; 13]%N ++ bs ",]}")) rest.
Definition punctuation (c : N) : piece := ([c], Some hl_symbol_punc).
(** The key of an entry in braces *)
Inductive flow_key : list piece -> Prop :=
| flow_key_plain w : plain_text w -> flow_key [(w, Some hl_markup_attr)]
| flow_key_quoted w : Forall (fun c => ~ line_break c /\ c <> 34%N /\ c <> 92%N) w -> flow_key [(34%N :: w ++ [34%N], Some hl_markup_attr)].
Inductive yaml_value : list piece -> Prop :=
| value_scalar p : yaml_scalar p -> yaml_value p
| value_sequence l : yaml_items l -> yaml_value ((bs "[", Some hl_symbol_square) :: l)
| value_mapping l : yaml_pairs l -> yaml_value ((bs "{", Some hl_symbol_brace) :: l)
with yaml_items : list piece -> Prop :=
| items_end w : yaml_gap w -> yaml_items [(w, None); (bs "]", Some hl_symbol_square)]
| items_comma w l : yaml_gap w -> yaml_items l -> yaml_items ((w, None) :: punctuation 44 :: l)
| items_value w p l : yaml_gap w -> yaml_value p -> value_end (text l) -> yaml_items l -> yaml_items ((w, None) :: p ++ l)
with yaml_pairs : list piece -> Prop :=
| pairs_end w : yaml_gap w -> yaml_pairs [(w, None); (bs "}", Some hl_symbol_brace)]
| pairs_comma w l : yaml_gap w -> yaml_pairs l -> yaml_pairs ((w, None) :: punctuation 44 :: l)
| pairs_pair w k b p l : yaml_gap w -> flow_key k -> spaces b -> yaml_value p -> value_end (text l) -> yaml_pairs l ->
    yaml_pairs ((w, None) :: k ++ punctuation 58 :: (32%N :: b, None) :: p ++ l).

(** ** Blocks *)
(** The key of a line: plain text, perhaps with digits first, or text in double quotes *)
Definition key_char (c : N) : Prop := (32 <= c)%N /\ c <> 35%N /\ c <> 34%N /\ c <> 39%N.
Inductive block_key : str -> Prop :=
| key_plain c t : word_start c \/ digit c -> Forall key_char (c :: t) -> no_separator_inside (c :: t) -> no_space_at_end (c :: t) -> block_key (c :: t)
| key_quoted w : Forall (fun c => ~ line_break c /\ c <> 34%N /\ c <> 92%N) w -> block_key (34%N :: w ++ [34%N]).
(** A key, or a key with its value on the same line *)
Inductive yaml_field : list piece -> Prop :=
| field_key k : block_key k -> yaml_field [(k, Some hl_markup_attr); punctuation 58]
| field_value k b p : block_key k -> spaces b -> yaml_value p -> yaml_field ((k, Some hl_markup_attr) :: punctuation 58 :: (32%N :: b, None) :: p).
Inductive yaml_entry : list piece -> Prop :=
| entry_field p : yaml_field p -> yaml_entry p
| entry_item b p : spaces b -> yaml_scalar p -> yaml_entry (punctuation 45 :: (32%N :: b, None) :: p)
| entry_item_field b p : spaces b -> yaml_field p -> yaml_entry (punctuation 45 :: (32%N :: b, None) :: p).
(** Empty lines, lines with comments, and [n] lines with entries, at any indentation *)
Inductive yaml_lines : nat -> list piece -> Prop :=
| lines_end : yaml_lines 0 []
| lines_blank n w l : newline w (text l) -> yaml_lines n l -> yaml_lines n ((w, None) :: l)
| lines_comment n k c w l : spaces k -> same_line c -> line_ends w (text l) -> yaml_lines n l ->
    yaml_lines n ((k, None) :: (bs "#", Some hl_comment_delim) :: opt_piece c hl_comment ++ (w, None) :: l)
| lines_entry n k p w l : spaces k -> yaml_entry p -> line_ends w (text l) -> yaml_lines n l ->
    yaml_lines (S n) ((k, None) :: p ++ (w, None) :: l).
(** The highlighter accepts 64 entries. *)
Definition yaml_document_lines (l : list piece) : Prop := exists n, n <= 64 /\ yaml_lines n l.
