(** * Specification: histories of a state *)
From Coq Require Import List NArith Bool.
From Verif Require Import M_Base M_Api M_Session.
Import ListNotations.

(** The setters of a history, without its conversions *)
Definition is_setter (a : action) : bool := match a with call_tokens | call_html => false | _ => true end.
Definition setters (h : list action) : list action := filter is_setter h.
(** Every conversion to HTML is followed by a new callback for tokens. *)
Definition callback_renewed (h : list action) : Prop :=
  forall before after, h = before ++ call_html :: after -> exists data fn, In (do_on_flush_tokens data fn) after.
