(** * Specification: comments in the style of C++ and their tokens. *)
From Coq Require Import List NArith Bool Arith.
From Verif Require Import M_Base M_Types S_Lexemes S_Json.
Import ListNotations.

Definition slash_comment : piece := (bs "//", Some hl_comment_delim).
(** [line t]: [t] can be the text of a line comment. *)
Inductive c_comment (line : str -> Prop) : list piece -> str -> Prop :=
| c_line t rest : line t -> not_before (fun c => c <> 10 /\ c <> 13)%N rest -> c_comment line (slash_comment :: opt_piece t hl_comment) rest
| c_block t rest : ~ contains (t ++ bs "*") (bs "*/") ->
    c_comment line ((bs "/*", Some hl_comment_delim) :: opt_piece t hl_comment ++ [(bs "*/", Some hl_comment_delim)]) rest
| c_block_open t : ~ contains t (bs "*/") -> c_comment line ((bs "/*", Some hl_comment_delim) :: opt_piece t hl_comment) [].
(** Text without line breaks *)
Definition one_line (t : str) : Prop := Forall (fun c => c <> 10 /\ c <> 13)%N t.
(** Text without line terminators of Unicode *)
Definition js_line (t : str) : Prop := forall l, In l line_terminators -> ~ contains t l.
