(** * Specification: programs in UTF-8, with white space that is given as code points. *)
From Coq Require Import List NArith Bool Arith.
From Verif Require Import M_Base S_Tokens M_Emit S_Ops M_Api S_Utf8 S_Lexemes.
Import ListNotations.

(** UTF-8 text of code points in [ws]. *)
Definition code_points_in (ws : N -> Prop) (b : str) : Prop := exists cs, Forall ws cs /\ b = concat (map utf8_encoding cs).

(** As [program], with white space of code points in [ws]. *)
Inductive program_utf8 (ws : N -> Prop) (lexeme : list piece -> str -> Prop) : list piece -> Prop :=
| program8_end : program_utf8 ws lexeme []
| program8_space b l : code_points_in ws b -> program_utf8 ws lexeme l -> program_utf8 ws lexeme ((b, None) :: l)
| program8_lexeme p l : lexeme p (text l) -> program_utf8 ws lexeme l -> program_utf8 ws lexeme (p ++ l).

(** Highlighting of byte strings succeeds, gives a well-formed token stream, and every byte is highlighted unless it
    belongs to the encoding of a code point in [ws]. *)
Definition highlights_except_code_points (ws : N -> Prop) (h : highlighter) : Prop :=
  forall src strict coal cap, bytes src -> 0 < cap ->
  exists ops chunks, h src strict = Ok (true, ops)
    /\ token_output coal cap (length src) ops = Ok chunks
    /\ well_formed (length src) (concat chunks)
    /\ forall pos, pos < length src ->
         (exists ty, highlighted (concat chunks) pos ty)
         \/ exists a c b, ws c /\ src = a ++ utf8_encoding c ++ b /\ length a <= pos < length a + length (utf8_encoding c).
