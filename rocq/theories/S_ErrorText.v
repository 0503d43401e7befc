(** * Specification: statuses and error texts *)
From Coq Require Import List NArith Bool.
From Verif Require Import M_Base M_Api M_Session.
Import ListNotations.

(** The texts that go with a status (the messages in ulight.cpp:395-558, by status) *)
Definition text_fits (status : N) (text : str) : Prop :=
  (status = STATUS_BAD_STATE /\ In text [bs "source is null, but source_length is nonzero."; bs "html_tag_name must not be null.";
      bs "html_tag_name_length must be nonzero."; bs "html_attr_name must not be null."; bs "html_attr_name_length must be nonzero."])
  \/ (status = STATUS_BAD_BUFFER /\ In text [bs "token_buffer must not be null."; bs "token_buffer_length must be nonzero."; bs "flush_tokens must not be null.";
      bs "token_buffer is null, but token_buffer_length is nonzero."; bs "text_buffer must not be null."; bs "text_buffer_length must be nonzero."; bs "flush_text must not be null."])
  \/ (status = STATUS_BAD_LANG /\ text = bs "The given language (numeric value) is invalid.")
  \/ (status = STATUS_INTERNAL_ERROR /\ text = bs "An internal error occurred.").

(** The status that an event shows, if it is one of a conversion *)
Definition status_of (e : event) : option N :=
  match e with ev_none => None | ev_tokens s _ => Some s | ev_html s _ => Some s end.
(** The status of the last conversion that was not successful *)
Fixpoint last_failure (h : list event) : option N :=
  match h with
  | [] => None
  | e :: h =>
    match last_failure h with
    | Some s => Some s
    | None => match status_of e with Some s => if (s =? STATUS_OK)%N then None else Some s | None => None end
    end
  end.
(** What a state must show as error after a history: nothing if no conversion failed, otherwise a text that fits the last failure *)
Definition error_shown (h : list event) (st : ustate) : Prop :=
  match last_failure h with
  | None => u_error st = None /\ u_error_length st = 0
  | Some s => exists text, u_error st = Some text /\ u_error_length st = length text /\ text_fits s text
  end.
