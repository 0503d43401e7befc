(** * Specification: programs as sequences of lexemes with the tokens a user expects. *)
From Coq Require Import List NArith Bool Arith.
From Verif Require Import M_Base M_Types M_Emit M_Api.
Import ListNotations.

(** A piece of source text with its highlight, or [None] for text without highlight. *)
Definition piece : Type := str * option N.
Definition text (l : list piece) : str := concat (map fst l).
(** One token for each highlighted piece, from offset [i] on. *)
Fixpoint tokens (i : nat) (l : list piece) : list out_op :=
  match l with
  | [] => []
  | (t, Some h) :: l => OEmit i (length t) h false :: tokens (i + length t) l
  | (t, None) :: l => tokens (i + length t) l
  end.

(** A program: lexemes and white space in any order. [lexeme p rest] says that the pieces [p] form a lexeme of
    the language if the text [rest] follows. *)
Inductive program (ws : N -> Prop) (lexeme : list piece -> str -> Prop) : list piece -> Prop :=
| program_end : program ws lexeme []
| program_space b l : Forall ws b -> program ws lexeme l -> program ws lexeme ((b, None) :: l)
| program_lexeme p l : lexeme p (text l) -> program ws lexeme l -> program ws lexeme (p ++ l).

(** The highlighter gives exactly the expected tokens for the text of [l]. *)
Definition tokenizes (h : highlighter) (l : list piece) : Prop :=
  forall strict, h (text l) strict = Ok (true, tokens 0 l).

(** ** Common classes of lexemes *)
Definition letter (c : N) : Prop := (65 <= c <= 90 \/ 97 <= c <= 122)%N.
Definition digit (c : N) : Prop := (48 <= c <= 57)%N.
Definition hex_digit (c : N) : Prop := (48 <= c <= 57 \/ 65 <= c <= 70 \/ 97 <= c <= 102)%N.
Definition octal_digit (c : N) : Prop := (48 <= c <= 55)%N.
Definition binary_digit (c : N) : Prop := (48 <= c <= 49)%N.
(** ASCII identifiers *)
Definition ident_start (c : N) : Prop := letter c \/ c = 95%N.
Definition ident_char (c : N) : Prop := letter c \/ digit c \/ c = 95%N.
Definition identifier (w : str) : Prop := exists c t, w = c :: t /\ ident_start c /\ Forall ident_char t.
(** [rest] does not begin with a character in [p]. *)
Definition not_before (p : N -> Prop) (rest : str) : Prop := forall c, hd_error rest = Some c -> ~ p c.
(** What could continue an identifier; non-ASCII text is not considered. *)
Definition ident_or_non_ascii (c : N) : Prop := ident_char c \/ (128 <= c)%N.

(** Digits in groups that are separated by single separators. *)
Inductive grouped (d : N -> Prop) (sep : N) : list piece -> Prop :=
| grouped_one g : g <> [] -> Forall d g -> grouped d sep [(g, Some hl_number)]
| grouped_more g l : g <> [] -> Forall d g -> grouped d sep l ->
    grouped d sep ((g, Some hl_number) :: ([sep], Some hl_number_delim) :: l).

(** The pieces of a number: base prefix, integer, fraction, exponent, suffix. *)
Definition opt_piece (t : str) (h : N) : list piece := match t with [] => [] | _ => [(t, Some h)] end.
Definition number_pieces (prefix : str) (int : list piece) (frac : option (list piece)) (exp : option (str * str)) (suffix : str)
  : list piece :=
  opt_piece prefix hl_number_decor ++ int
  ++ match frac with None => [] | Some f => (bs ".", Some hl_number_delim) :: f end
  ++ match exp with None => [] | Some (e, d) => [(e, Some hl_number_delim); (d, Some hl_number)] end
  ++ opt_piece suffix hl_number_decor.

(** The contents of a string literal, up to the text [tail] (closing delimiter and what follows): maximal runs of plain text with
    highlight [h], and items such as escape sequences between them. The flag says whether a run may come first. *)
Section string_body.
Variable h : N.
Variable plain : str -> str -> Prop.
Variable item : list piece -> str -> Prop.
Variable tail : str.
Inductive string_body : bool -> list piece -> Prop :=
| string_end f : string_body f []
| string_text run l : run <> [] -> plain run (text l ++ tail) -> string_body false l -> string_body true ((run, Some h) :: l)
| string_item f p l : item p (text l ++ tail) -> string_body true l -> string_body f (p ++ l).
End string_body.

(** A symbol is the longest entry of the table that fits. *)
Definition longest (table : list (str * N)) (t rest : str) : Prop :=
  forall u h v, In (u, h) table -> t ++ rest = u ++ v -> length u <= length t.
(** One line terminator: LF, CR LF or CR *)
Definition newline (w rest : str) : Prop :=
  w = [10]%N \/ w = [13; 10]%N \/ w = [13]%N /\ not_before (fun c => c = 10%N) rest.
(** Exactly [n] digits *)
Definition exactly (n : nat) (d : N -> Prop) (w : str) : Prop := length w = n /\ Forall d w.
