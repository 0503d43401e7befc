(** * Model of token emission (include/ulight/impl/highlighter.hpp). *)
From Coq Require Import List NArith Bool Arith.
From Verif Require Import M_Base M_Buffer S_Tokens.
Import ListNotations.

(** What a highlighter does to its output, in order. No highlighter reads its output except
    through emit itself, so highlighters are modelled as producing these operations, which are
    then replayed against the buffer.
    - [OEmit begin length type forced]: a call of emit (highlighter.hpp:75-96);
    - [ONested cap offset length ops]: nested highlighting of [length] bytes at [offset] through
      a sub-buffer of [cap] tokens (highlighter.hpp:129-162), whose highlighter performs [ops]. *)
Inductive out_op : Type :=
| OEmit (begin len : nat) (ty : N) (forced : bool)
| ONested (cap offset len : nat) (ops : list out_op).

(** highlighter.hpp:75-96 (Highlighter_Base::emit); cpp.cpp has its own copy, which asserts only the first of the three
    conditions. [coal] is options.coalescing, [n] is source_length. *)
Definition emit (coal : bool) (n : nat) (b : buffer token)
    (begin len : nat) (ty : N) (forced : bool) : res (buffer token) :=
  let* _ := check (negb (len =? 0)) FDebugAssert in
  let* _ := check (begin <? n) FDebugAssert in
  let* _ := check (begin + len <=? n) FDebugAssert in
  match rev (cells b) with
  | t :: _ =>
    if (forced || coal) && N.eqb (tk_type t) ty && (tk_begin t + tk_len t =? begin)
    then Ok (set_back b (mk_token (tk_begin t) (tk_len t + len) (tk_type t)))
    else Ok (push_back b (mk_token begin len ty))
  | [] => Ok (push_back b (mk_token begin len ty))
  end.

(** highlighter.hpp:154-160 (the flush callback of sub_buffer): adds self.index to the start of
    each token of the chunk and appends the chunk to the outer buffer. *)
Definition sub_flush (off : nat) (b : buffer token) (chunk : list token) : res (buffer token) :=
  append b (map (shift_token off) chunk).

Fixpoint sub_flushes (off : nat) (b : buffer token) (chunks : list (list token))
  : res (buffer token) :=
  match chunks with
  | [] => Ok b
  | c :: r => let* b := sub_flush off b c in sub_flushes off b r
  end.

(** Replaying one operation. For nested highlighting (highlighter.hpp:129-145), the outer
    highlighter performs nothing between the flushes of the sub-buffer and its index does not
    change until the end, so the flushes of the sub-buffer are applied after the nested replay.
    The check that the span is inside the source is the one of advance(length) (line 143), done
    here first. *)
Fixpoint replay_op (coal : bool) (n : nat) (b : buffer token) (o : out_op) {struct o}
  : res (buffer token) :=
  match o with
  | OEmit begin len ty forced => emit coal n b begin len ty forced
  | ONested cap off len ops =>
    let* _ := check (off + len <=? n) FDebugAssert in
    let* sub := new_buffer cap in
    let* sub :=
      (fix go (sub : buffer token) (os : list out_op) {struct os} : res (buffer token) :=
        match os with
        | [] => Ok sub
        | o :: os => let* sub := replay_op coal len sub o in go sub os
        end) sub ops in
    sub_flushes off b (calls (flush sub))
  end.

Fixpoint replay (coal : bool) (n : nat) (b : buffer token) (os : list out_op)
  : res (buffer token) :=
  match os with
  | [] => Ok b
  | o :: os => let* b := replay_op coal n b o in replay coal n b os
  end.

(** ulight.cpp:420-440: a fresh buffer is filled by the highlighter and flushed at the end.
    The result is the sequence of calls to the flush callback. *)
Definition token_output (coal : bool) (cap n : nat) (ops : list out_op)
  : res (list (list token)) :=
  let* b := new_buffer cap in
  let* b := replay coal n b ops in
  Ok (calls (flush b)).
