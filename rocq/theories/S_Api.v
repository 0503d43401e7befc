(** * Specification: properly set up API states. *)
From Coq Require Import List NArith Arith.
From Verif Require Import M_Base M_Api.
Import ListNotations.

(** The state is set up for token output, apart from the language. *)
Definition tokens_ready (st : ustate) : Prop :=
  (u_source st = None -> u_source_length st = 0)
  /\ u_token_buffer st <> None /\ u_token_buffer_length st <> 0 /\ u_flush_tokens st <> None.

Definition html_ready (st : ustate) : Prop :=
  u_text_buffer st <> None /\ u_text_buffer_length st <> 0 /\ u_flush_text st <> None
  /\ u_html_tag_name st <> None /\ u_html_tag_name_length st <> 0
  /\ u_html_attr_name st <> None /\ u_html_attr_name_length st <> 0
  /\ (u_token_buffer st = None -> u_token_buffer_length st = 0).

(** The text denoted by the source members. *)
Definition has_source (st : ustate) (src : str) : Prop :=
  (u_source st = None /\ u_source_length st = 0 /\ src = [])
  \/ (exists mem, u_source st = Some mem /\ u_source_length st <= length mem
      /\ src = firstn (u_source_length st) mem).

(** The string denoted by a pointer and a length. *)
Definition has_text (p : option str) (n : nat) (s : str) : Prop :=
  exists mem, p = Some mem /\ n <= length mem /\ s = firstn n mem.
