(** * Specification: runs of the command line tool *)
From Coq Require Import List NArith Bool.
From Verif Require Import M_Base M_Cli.
Import ListNotations.

(** The bytes written to an output *)
Fixpoint output (es : list effect) : str :=
  match es with
  | [] => []
  | e_write _ b :: r => b ++ output r
  | _ :: r => output r
  end.
(** What was written to something else than stdout or a given file *)
Definition writes_to (to : option str) (e : effect) : Prop :=
  match e with e_write t _ | e_some_writes t => t = to | _ => True end.
Definition is_write (e : effect) : Prop := match e with e_write _ _ => True | _ => False end.
(** Nothing but messages *)
Definition only_message (es : list effect) : Prop := exists m, es = [e_error m].

(** The effects of a run that writes [out] and nothing else: to stdout, or to a file that is opened first and closed last. *)
Definition writes_exactly (to : option str) (out : str) (es : list effect) : Prop :=
  exists ws, Forall is_write ws /\ Forall (writes_to to) ws /\ output ws = out
    /\ es = match to with None => ws | Some path => [e_open path] ++ ws ++ [e_close path] end.
