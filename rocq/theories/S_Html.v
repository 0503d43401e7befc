(** * Specification of the HTML output: what a reader of the HTML text sees. *)
From Coq Require Import List NArith Bool Arith.
From Verif Require Import M_Base.
Import ListNotations.
Local Open Scope N_scope.

(** Text content of an HTML fragment: tags (from '<' to the next '>') are deleted, the
    entities lt, gt, amp are decoded, and any other '&' or an unclosed tag is an error. *)
Fixpoint html_text (in_tag : bool) (s : str) : option str :=
  match s with
  | [] => if in_tag then None else Some []
  | c :: r =>
    if in_tag then html_text (negb (c =? ch ">")) r
    else if c =? ch "<" then html_text true r
    else if c =? ch ">" then None
    else if c =? ch "&" then
      match r with
      | a :: b :: r2 =>
        if (a =? ch "l") && (b =? ch "t")
        then match r2 with
             | e :: r3 => if e =? ch ";" then option_map (cons (ch "<")) (html_text false r3)
                          else None
             | [] => None end
        else if (a =? ch "g") && (b =? ch "t")
        then match r2 with
             | e :: r3 => if e =? ch ";" then option_map (cons (ch ">")) (html_text false r3)
                          else None
             | [] => None end
        else if (a =? ch "a") && (b =? ch "m")
        then match r2 with
             | e :: f :: r3 => if (e =? ch "p") && (f =? ch ";")
                               then option_map (cons (ch "&")) (html_text false r3) else None
             | _ => None end
        else None
      | _ => None
      end
    else option_map (cons c) (html_text false r)
  end.

(** Escaped text: no angle bracket, and '&' only as the start of one of three entities. *)
Inductive escaped_text : str -> Prop :=
| esc_nil : escaped_text []
| esc_char c s : c <> ch "<" -> c <> ch ">" -> c <> ch "&" -> escaped_text s ->
    escaped_text (c :: s)
| esc_entity e s : In e [bs "&lt;"; bs "&gt;"; bs "&amp;"] -> escaped_text s ->
    escaped_text (e ++ s).

(** Output document: escaped text and elements whose content is escaped text; [names] is the
    set of attribute values that may occur. *)
Inductive html_doc (tag attr : str) (names : str -> Prop) : str -> Prop :=
| doc_text s : escaped_text s -> html_doc tag attr names s
| doc_elem pre id inner post : escaped_text pre -> names id -> escaped_text inner ->
    html_doc tag attr names post ->
    html_doc tag attr names
      (pre ++ bs "<" ++ tag ++ bs " " ++ attr ++ bs "=" ++ id ++ bs ">" ++ inner
       ++ bs "</" ++ tag ++ bs ">" ++ post).
