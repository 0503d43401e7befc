(** * Model of a sequence of calls on one state (class State, include/ulight/ulight.hpp) *)
From Coq Require Import List NArith Bool Arith.
From Verif Require Import M_Base M_Buffer S_Tokens M_Api.
Import ListNotations.

(** What a program can do with a state: the two conversions (ulight.hpp:537-549) and the setters (ulight.hpp:416-535) *)
Inductive action : Type :=
| call_tokens
| call_html
| do_set_source (s : str)
| do_set_lang (l : N)
| do_set_flags (f : N)
| do_set_token_buffer (p : option nat) (n : nat)
| do_set_text_buffer (p : option nat) (n : nat)
| do_on_flush_tokens (data fn : option nat)
| do_on_flush_text (data fn : option nat)
| do_set_html_tag_name (s : str)
| do_set_html_attr_name (s : str).

(** What a program sees of an action: the status and the calls of its callback, as in [api_result] *)
Inductive event : Type :=
| ev_none
| ev_tokens (status : N) (calls : option (list (list token)))
| ev_html (status : N) (calls : option (list str)).

(** The state, and whether its member flush_tokens was set by ulight_source_to_html. That function stores a pointer to a local
    variable of its own there (ulight.cpp:534-536) and does not restore the member when it returns. *)
Definition session_state : Type := (ustate * bool)%type.

(** Whether a call of ulight_source_to_html got as far as setting the member (ulight.cpp:464-490, 535-536) *)
Definition sets_flush_tokens (st : ustate) : bool := match html_precheck st with None => true | Some _ => false end.
(** Whether the callback for tokens was called, or may have been called *)
Definition calls_back (o : option (list (list token))) : bool := match o with Some [] => false | _ => true end.

(** One action. Calling a function through the pointer that is left over from ulight_source_to_html is undefined behavior, since the
    function reads and writes local variables of a call that has ended. *)
Definition act (bld : build) (table : N -> option highlighter) (s : session_state) (a : action) : res (session_state * event) :=
  let '(st, stale) := s in
  match a with
  | call_tokens =>
    let* r := source_to_tokens bld table st in
    let '(status, st', o) := r in
    let* _ := check (negb (stale && calls_back o)) FUB in
    Ok ((st', stale), ev_tokens status o)
  | call_html =>
    let* r := source_to_html bld table st in
    let '(status, st', o) := r in
    Ok ((st', sets_flush_tokens st || stale), ev_html status o)
  | do_set_source x => Ok ((set_source st x, stale), ev_none)
  | do_set_lang l => Ok ((set_lang st l, stale), ev_none)
  | do_set_flags f => Ok ((set_flags st f, stale), ev_none)
  | do_set_token_buffer p n => Ok ((set_token_buffer st p n, stale), ev_none)
  | do_set_text_buffer p n => Ok ((set_text_buffer st p n, stale), ev_none)
  | do_on_flush_tokens data fn => Ok ((on_flush_tokens st data fn, false), ev_none)
  | do_on_flush_text data fn => Ok ((on_flush_text st data fn, stale), ev_none)
  | do_set_html_tag_name x => Ok ((set_html_tag_name st x, stale), ev_none)
  | do_set_html_attr_name x => Ok ((set_html_attr_name st x, stale), ev_none)
  end.
Fixpoint session (bld : build) (table : N -> option highlighter) (s : session_state) (h : list action) : res (session_state * list event) :=
  match h with
  | [] => Ok (s, [])
  | a :: h =>
    let* r := act bld table s a in
    let* rs := session bld table (fst r) h in
    Ok (fst rs, snd r :: snd rs)
  end.
