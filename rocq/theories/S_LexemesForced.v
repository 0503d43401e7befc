(** * Specification: lexemes whose tokens can be joined. *)
From Coq Require Import List NArith Bool Arith.
From Verif Require Import M_Base M_Types M_Emit M_Api S_Lexemes.
Import ListNotations.

(** A piece of source text with its highlight, and whether the token is joined with the token before it when the two touch and have
    the same type (C08); [None] for text without highlight. *)
Definition fpiece : Type := str * option (N * bool).
Definition ftext (l : list fpiece) : str := concat (map fst l).
Fixpoint ftokens (i : nat) (l : list fpiece) : list out_op :=
  match l with
  | [] => []
  | (t, Some (h, f)) :: l => OEmit i (length t) h f :: ftokens (i + length t) l
  | (t, None) :: l => ftokens (i + length t) l
  end.
Definition ftokenizes (h : highlighter) (l : list fpiece) : Prop :=
  forall strict, h (ftext l) strict = Ok (true, ftokens 0 l).
(** A token that stands alone, one that is joined, text without highlight, and a token unless the text is empty *)
Definition alone (t : str) (h : N) : fpiece := (t, Some (h, false)).
Definition joined (t : str) (h : N) : fpiece := (t, Some (h, true)).
Definition bare (t : str) : fpiece := (t, None).
Definition fopt (t : str) (h : N) : list fpiece := match t with [] => [] | _ => [alone t h] end.
Definition fopt_joined (t : str) (h : N) : list fpiece := match t with [] => [] | _ => [joined t h] end.
