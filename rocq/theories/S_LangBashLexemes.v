(** * Specification: shell scripts as sequences of lexemes with the tokens a user expects (Bash reference manual: quoting,
    comments, parameters, shell expansions, redirections). *)
From Coq Require Import List NArith Bool Arith.
From Verif Require Import M_Base M_Types S_Lexemes.
Import ListNotations.

(** What comes next in a command *)
Inductive bash_role :=
| at_command        (* the name of a command *)
| in_command        (* more of the name of a command *)
| at_argument       (* an argument *)
| in_argument       (* more of an argument *)
| at_end            (* a word ends here: no plain text may follow before the next blank *)
| in_parameter      (* text inside braces of a parameter expansion *)
| no_word           (* no plain text may follow in this line or expansion *)
| no_word_blank.    (* the same, after a blank *)

Definition bash_blank (c : N) : Prop := In c [32; 9]%N.
Definition bash_line_break (c : N) : Prop := In c [10; 11; 13]%N.
(** Characters that end a word unless they are quoted *)
Definition bash_special (c : N) : Prop := In c (bs "\'" ++ [34%N]) \/ bash_blank c \/ bash_line_break c \/ In c (bs "|&;()<>").
(** What makes a dollar sign the start of an expansion; digits other than 0 are not among these. *)
Definition bash_expandable (c : N) : Prop := In c (bs "({*@#?-$!0") \/ ident_start c.
Definition bash_parameters : list N := bs "*@#?-$!0".
(** What a backslash quotes between double quotes *)
Definition bash_quotable (c : N) : Prop := In c [39; 36; 96; 34; 92; 10]%N.

(** Roles after plain text, after quoted text, after the value of a parameter and after blanks *)
Definition after_parameter (r : bash_role) : bash_role :=
  match r with at_command => in_command | at_argument => in_argument | no_word_blank => no_word | r => r end.
Definition after_quote (r : bash_role) : bash_role :=
  match r with at_argument => at_end | no_word_blank => no_word | r => r end.
Definition after_blank (r : bash_role) : bash_role :=
  match r with in_command | in_argument | at_end => at_argument | no_word => no_word_blank | r => r end.
(** After a command substitution whose last command ends in role [e] *)
Definition after_commands (r e : bash_role) : bash_role :=
  match r with
  | in_parameter | no_word | no_word_blank => no_word
  | _ => match e with in_command | in_argument | at_argument | at_end => at_end | _ => no_word end
  end.

(** A run of unquoted text, as long as possible; it begins neither with a comment sign nor with a closing brace. [brace]: a
    closing brace ends it. *)
Definition bash_word (brace : bool) (w rest : str) : Prop :=
  w <> [] /\ not_before (fun c => c = ch "#" \/ c = ch "}") w
  /\ (forall a c t, w ++ rest = a ++ c :: t -> length a < length w ->
        ~ bash_special c /\ (c = ch "$" -> not_before bash_expandable t) /\ (brace = true -> c <> ch "}"))
  /\ (forall c t, rest = c :: t ->
        bash_special c \/ c = ch "$" /\ ~ not_before bash_expandable t \/ brace = true /\ c = ch "}").
Definition bash_word_highlight (r : bash_role) (w : str) : option (N * bash_role) :=
  match r with
  | at_command | in_command => Some (hl_name_shell_command, in_command)
  | at_argument => Some (if (hd 0 w =? ch "-")%N then hl_name_shell_option else hl_string, in_argument)
  | in_argument => Some (hl_string, in_argument)
  | in_parameter => Some (hl_string_interpolation, in_parameter)
  | _ => None
  end.
Definition in_braces (r : bash_role) : bool := match r with in_parameter => true | _ => false end.

(** Text between double quotes: no quote, no backslash that quotes something, no dollar sign that expands something *)
Definition bash_quoted_plain (run rest : str) : Prop :=
  forall a c t, run ++ rest = a ++ c :: t -> length a < length run ->
    c <> 34%N /\ (c = 92%N -> not_before bash_quotable t) /\ (c = ch "$" -> not_before bash_expandable t).

(** Operators *)
Definition bash_redirections : list str := [bs "<"; bs ">"; bs ">>"; bs "<<<"; bs "<&"; bs ">&"; bs "<>"; bs "&>"; bs "&>>"].
Definition bash_separators : list str := [bs ";"; bs "&"; bs "|"; bs "&&"; bs "||"].
Definition bash_operators : list (str * N) := map (fun w => (w, hl_symbol_op)) (bash_redirections ++ bash_separators ++ [bs "<<"]).

(** The closing of nested code: the given delimiter, or the end of the source *)
Definition bash_closing (d : str) (h : N) (close : list piece) (rest : str) : Prop :=
  close = [(d, Some h)] \/ close = [] /\ rest = [].

Section bash.
(** [inner parameter r l tail r']: [l] is nested code that is followed by [tail]; it begins in role [r] and ends in role [r'];
    [parameter]: inside the braces of a parameter expansion. *)
Variable inner : bool -> bash_role -> list piece -> str -> bash_role -> Prop.

Inductive bash_expansion : bash_role -> list piece -> str -> bash_role -> Prop :=
| bash_name r w rest : identifier w -> not_before ident_char rest ->
    bash_expansion r [(ch "$" :: w, Some hl_string_interpolation)] rest (after_parameter r)
| bash_parameter r c rest : In c bash_parameters -> bash_expansion r [([ch "$"; c], Some hl_string_interpolation)] rest (after_parameter r)
| bash_braces r body e close rest : inner true in_parameter body (text close ++ rest) e ->
    bash_closing (bs "}") hl_string_interpolation_delim close rest ->
    bash_expansion r ((bs "${", Some hl_string_interpolation_delim) :: body ++ close) rest no_word
| bash_commands_in r body e close rest : inner false at_command body (text close ++ rest) e -> not_before (fun c => c = ch "(") (text body) ->
    bash_closing (bs ")") hl_string_interpolation_delim close rest ->
    bash_expansion r ((bs "$(", Some hl_string_interpolation_delim) :: body ++ close) rest (after_commands r e).

(** The text between double quotes; the flag says whether a run of plain text may come first. *)
Inductive bash_quoted (tail : str) : bool -> bash_role -> list piece -> bash_role -> Prop :=
| bash_quoted_end f r : bash_quoted tail f r [] r
| bash_quoted_text r run l r' : run <> [] -> bash_quoted_plain run (text l ++ tail) -> bash_quoted tail false r l r' ->
    bash_quoted tail true r ((run, Some hl_string) :: l) r'
| bash_quoted_escape f r c l r' : bash_quotable c -> bash_quoted tail true r l r' ->
    bash_quoted tail f r (([92%N; c], Some hl_string_escape) :: l) r'
| bash_quoted_expansion f r e r1 l r' : bash_expansion r e (text l ++ tail) r1 -> bash_quoted tail true r1 l r' ->
    bash_quoted tail f r (e ++ l) r'.

(** Quoted text is not covered where a command begins: see C162. *)
Inductive bash_lexeme (parameter : bool) : bash_role -> list piece -> str -> bash_role -> Prop :=
| bash_space r b rest : b <> [] -> Forall bash_blank b -> not_before bash_blank rest -> bash_lexeme parameter r [(b, None)] rest (after_blank r)
| bash_newline r c rest : parameter = false -> bash_line_break c -> bash_lexeme parameter r [([c], None)] rest at_command
| bash_comment r t rest : In r [at_command; at_argument; no_word_blank] -> parameter = false -> ~ In 10%N t ->
    rest = [] \/ (exists u, rest = 10%N :: u) ->
    bash_lexeme parameter r ((bs "#", Some hl_comment_delim) :: opt_piece t hl_comment) rest r
| bash_text r w h r' rest : bash_word (in_braces r) w rest -> bash_word_highlight r w = Some (h, r') -> bash_lexeme parameter r [(w, Some h)] rest r'
| bash_single r t close rest : r <> at_command -> ~ In 39%N t -> bash_closing [39%N] hl_string_delim close rest ->
    bash_lexeme parameter r (([39%N], Some hl_string_delim) :: opt_piece t hl_string ++ close) rest (after_quote r)
| bash_double r body e close rest : bash_quoted (text close ++ rest) true r body e -> e <> at_command ->
    bash_closing [34%N] hl_string_delim close rest ->
    bash_lexeme parameter r (([34%N], Some hl_string_delim) :: body ++ close) rest (after_quote e)
| bash_escape r c rest : r <> at_command -> c <> 10%N -> bash_lexeme parameter r [([92%N; c], Some hl_string_escape)] rest (after_quote r)
| bash_continuation r rest : bash_lexeme parameter r [([92%N], Some hl_string_escape); ([10%N], None)] rest r
| bash_expand r p rest r' : bash_expansion r p rest r' -> bash_lexeme parameter r p rest r'
| bash_redirection r w rest : In r [at_argument; in_argument; no_word; no_word_blank] -> In w bash_redirections -> longest bash_operators w rest ->
    bash_lexeme parameter r [(w, Some hl_symbol_op)] rest (match r with no_word_blank => no_word | r => r end)
(** At the end of a line, or between two commands without arguments and blanks: see C80. *)
| bash_last r w rest : r <> in_parameter -> In w bash_separators -> rest = [] \/ (exists c t, rest = c :: t /\ bash_line_break c) ->
    bash_lexeme parameter r [(w, Some hl_symbol_op)] rest r
| bash_between w v rest : In w bash_separators -> bash_word false v rest -> longest bash_operators w (v ++ rest) ->
    bash_lexeme parameter in_command [(w, Some hl_symbol_op); (v, Some hl_name_shell_command)] rest in_command
| bash_subshell body e close rest : inner false at_command body (text close ++ rest) e -> not_before (fun c => c = ch "(") (text body) -> bash_closing (bs ")") hl_symbol_parens close rest ->
    bash_lexeme parameter at_command ((bs "(", Some hl_symbol_parens) :: body ++ close) rest no_word
| bash_end_group rest : parameter = false -> bash_lexeme parameter at_command [(bs "}", Some hl_symbol_brace)] rest at_command.

Inductive bash_code (parameter : bool) : bash_role -> list piece -> str -> bash_role -> Prop :=
| bash_code_end r tail : bash_code parameter r [] tail r
| bash_code_lexeme r p r1 l tail r' : bash_lexeme parameter r p (text l ++ tail) r1 -> bash_code parameter r1 l tail r' ->
    bash_code parameter r (p ++ l) tail r'.
End bash.

(** Code with at most [n] levels of nesting *)
Fixpoint bash_nested (n : nat) : bool -> bash_role -> list piece -> str -> bash_role -> Prop :=
  match n with
  | O => fun _ _ _ _ _ => False
  | S n => bash_code (bash_nested n)
  end.
Definition bash_script (l : list piece) : Prop := exists n r, bash_nested n false at_command l [] r.
