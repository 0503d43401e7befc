(** * Model of HTML generation from tokens (src/main/cpp/ulight.cpp). *)
From Coq Require Import List NArith Bool Arith.
From Verif Require Import M_Base M_Buffer S_Tokens M_Types.
Import ListNotations.

(** ulight.cpp:29-40 (html_entity_of). The default case is ULIGHT_DEBUG_ASSERT_UNREACHABLE. *)
Definition html_entity_of (c : N) : res str :=
  if (c =? ch "&")%N then Ok (bs "&amp;")
  else if (c =? ch "<")%N then Ok (bs "&lt;")
  else if (c =? ch ">")%N then Ok (bs "&gt;")
  else if (c =? ch "'")%N then Ok (bs "&apos;")
  else if (c =? 34)%N then Ok (bs "&quot;")
  else Fail FDebugAssert.

(** ulight.cpp:42-55 (append_html_escaped). Fuel: the length of the text bounds the number of
    iterations. *)
Fixpoint append_html_escaped_loop (fuel : nat) (out : buffer N) (text : str)
  : res (buffer N) :=
  match text with
  | [] => Ok out
  | _ =>
    match fuel with
    | O => Fail FFuel
    | S fuel =>
      match find_first_of text (bs "<>&") 0 with
      | None => append out text
      | Some p =>
        let* out := append out (firstn p text) in
        match nth_error text p with
        | None => Fail FUB
        | Some c =>
          let* e := html_entity_of c in
          let* out := append out e in
          append_html_escaped_loop fuel out (skipn (p + 1) text)
        end
      end
    end
  end.
Definition append_html_escaped (out : buffer N) (text : str) : res (buffer N) :=
  append_html_escaped_loop (S (length text)) out text.

(** ulight.cpp:377-391 (check_flush_validity), called in debug builds only (ulight.cpp:502). *)
Fixpoint check_flush_validity (n : nat) (toks : list token) : bool :=
  match toks with
  | [] => true
  | t :: r =>
    (tk_begin t <? n) && (tk_begin t + tk_len t <=? n)
    && match r with
       | [] => true
       | u :: _ => (tk_begin t <? tk_begin u) && (tk_begin t + tk_len t <=? tk_begin u)
       end
    && check_flush_validity n r
  end.

(** ulight.cpp:506-530 (one iteration of the loop in the flush_text lambda). The state is the
    text buffer and previous_end. std::string_view::substr throws when t.begin is larger than
    the source length; the gap is read through a raw pointer (out of bounds is UB). *)
Definition render_token (tag attr src : str) (st : buffer N * nat) (t : token)
  : res (buffer N * nat) :=
  let '(out, previous_end) := st in
  let* out :=
    if previous_end <? tk_begin t
    then let* _ := check (tk_begin t <=? length src) FUB in
         append_html_escaped out (firstn (tk_begin t - previous_end) (skipn previous_end src))
    else Ok out in
  let id := short_string (tk_type t) in
  let* _ := check (tk_begin t <=? length src) FThrow in
  let source_part := firstn (tk_len t) (skipn (tk_begin t) src) in
  let out := push_back out (ch "<") in
  let* out := append out tag in
  let out := push_back out (ch " ") in
  let* out := append out attr in
  let out := push_back out (ch "=") in
  let* out := append out id in
  let out := push_back out (ch ">") in
  let* out := append_html_escaped out source_part in
  let* out := append out (bs "</") in
  let* out := append out tag in
  let out := push_back out (ch ">") in
  Ok (out, tk_begin t + tk_len t).

Fixpoint render_tokens (tag attr src : str) (st : buffer N * nat) (ts : list token)
  : res (buffer N * nat) :=
  match ts with
  | [] => Ok st
  | t :: r => let* st := render_token tag attr src st t in render_tokens tag attr src st r
  end.

(** ulight.cpp:500-531 (the flush_text lambda, called once per chunk of tokens). *)
Definition render_chunk (tag attr src : str) (st : buffer N * nat) (ts : list token)
  : res (buffer N * nat) :=
  let* _ := check (check_flush_validity (length src) ts) FDebugAssert in
  render_tokens tag attr src st ts.

Fixpoint render_chunks (tag attr src : str) (st : buffer N * nat) (cs : list (list token))
  : res (buffer N * nat) :=
  match cs with
  | [] => Ok st
  | c :: r => let* st := render_chunk tag attr src st c in render_chunks tag attr src st r
  end.

(** ulight.cpp:545-551: the text after the last token, and the final flush. *)
Definition render_tail (src : str) (st : buffer N * nat) : res (buffer N) :=
  let '(out, previous_end) := st in
  let* _ := check (previous_end <=? length src) FAssert in
  let* out := if negb (previous_end =? length src)
              then append_html_escaped out (skipn previous_end src) else Ok out in
  Ok (flush out).

(** ulight.cpp:496-551: all calls to the text flush callback for a sequence of token chunks. *)
Definition html_output (cap : nat) (tag attr src : str) (cs : list (list token))
  : res (list str) :=
  let* out := new_buffer cap in
  let* st := render_chunks tag attr src (out, 0) cs in
  let* out := render_tail src st in
  Ok (calls out).
