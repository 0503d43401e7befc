(** * Model of the validation of HTML names (include/ulight/impl/lang/html.hpp) *)
From Coq Require Import List NArith Bool Arith.
From Verif Require Import M_Base M_Chars M_Utf8 M_LangHtml.
Import ListNotations.

(** all_of.hpp:8-16 (all_of) on a Code_Point_View (unicode.hpp:675-704). Every round consumes at least one code unit, so the length of
    the text is enough fuel. *)
Fixpoint all_code_points (fuel : nat) (p : N -> bool) (s : str) : res bool :=
  match s with
  | [] => Ok true
  | _ =>
    match fuel with
    | O => Fail FFuel
    | S fuel =>
      let* c := iterator_deref s in
      if negb (p c) then Ok false
      else let* s := iterator_next s in all_code_points fuel p s
    end
  end.
(** html.hpp:265-273 (is_tag_name) *)
Definition is_tag_name (s : str) : res bool :=
  match s with
  | [] => Ok false
  | c :: _ => if is_ascii_alpha c then all_code_points (length s) is_html_tag_name_character s else Ok false
  end.
(** html.hpp:276-284 (is_attribute_name) *)
Definition is_attribute_name (s : str) : res bool :=
  match s with
  | [] => Ok false
  | _ => all_code_points (length s) is_html_attribute_name_character s
  end.
(** html.hpp:31-39 (is_html_control) *)
Definition is_html_control (c : N) : bool := (c <=? 0x1F)%N || ((0x7F <=? c) && (c <=? 0x9F))%N.
