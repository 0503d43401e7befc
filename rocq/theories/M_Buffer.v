(** * Model of Non_Owning_Buffer (include/ulight/impl/buffer.hpp). *)
From Coq Require Import List NArith Bool Arith.
From Verif Require Import M_Base.
Import ListNotations.

(** buffer.hpp:19-28: the members m_capacity and m_buffer[0..m_size) (field [cells]), plus
    the calls made so far to the flush callback, oldest first (field [calls]).
    Simplification: the callback is not re-entrant and does not change the buffer, so its only
    effect is to receive a copy of the cells. The contents of m_buffer beyond m_size are
    not modelled. *)
Record buffer (A : Type) : Type := mk_buffer {
  capacity : nat;
  cells : list A;
  calls : list (list A)
}.
Arguments mk_buffer {A} _ _ _.
Arguments capacity {A} _.
Arguments cells {A} _.
Arguments calls {A} _.

(** buffer.hpp:30-46 (constructor): asserts that the capacity is not zero.
    Null pointers are modelled by the callers (see M_Api). *)
Definition new_buffer {A} (cap : nat) : res (buffer A) :=
  let* _ := check (negb (cap =? 0)) FAssert in
  Ok (mk_buffer cap [] []).

(** buffer.hpp:80-85 (full) *)
Definition full {A} (b : buffer A) : bool := length (cells b) =? capacity b.

(** buffer.hpp:73-78 (available) *)
Definition available {A} (b : buffer A) : nat := capacity b - length (cells b).

(** buffer.hpp:184-190 (flush) *)
Definition flush {A} (b : buffer A) : buffer A :=
  match cells b with
  | [] => b
  | _ => mk_buffer (capacity b) [] (calls b ++ [cells b])
  end.

(** buffer.hpp:94-100 (clear) *)
Definition clear {A} (b : buffer A) : buffer A := mk_buffer (capacity b) [] (calls b).

(** buffer.hpp:102-129 (push_back, emplace_back) *)
Definition push_back {A} (b : buffer A) (e : A) : buffer A :=
  let b := if full b then flush b else b in
  mk_buffer (capacity b) (cells b ++ [e]) (calls b).

(** buffer.hpp:131-138 (append for input iterators): one push_back per element. *)
Definition append_each {A} (b : buffer A) (l : list A) : buffer A := fold_left push_back l b.

(** buffer.hpp:140-159 (append for random access iterators): copies chunk by chunk. The fuel is
    the number of remaining elements; each iteration has to copy at least one. *)
Fixpoint append_loop {A} (fuel : nat) (b : buffer A) (l : list A) : res (buffer A) :=
  match l with
  | [] => Ok b
  | _ =>
    match fuel with
    | O => Fail FFuel
    | S fuel =>
      let b := if full b then flush b else b in
      let chunk := Nat.min (available b) (length l) in
      let* _ := check (negb (chunk =? 0)) FDebugAssert in
      let* _ := check (chunk <=? length l) FDebugAssert in
      let* _ := check (length (cells b) + chunk <=? capacity b) FDebugAssert in
      append_loop fuel (mk_buffer (capacity b) (cells b ++ firstn chunk l) (calls b))
        (skipn chunk l)
    end
  end.

Definition append {A} (b : buffer A) (l : list A) : res (buffer A) :=
  append_loop (length l) b l.

(** buffer.hpp:170-182 (back) *)
Definition back {A} (b : buffer A) : res A :=
  match rev (cells b) with
  | [] => Fail FDebugAssert
  | e :: _ => Ok e
  end.

(** Writing through the reference returned by back() (used by emit, highlighter.hpp:91). *)
Definition set_back {A} (b : buffer A) (e : A) : buffer A :=
  mk_buffer (capacity b) (removelast (cells b) ++ [e]) (calls b).

(** The operations a client can perform. *)
Inductive buf_op (A : Type) : Type :=
| Push (e : A)
| AppendEach (l : list A)
| Append (l : list A)
| Flush.
Arguments Push {A} _.
Arguments AppendEach {A} _.
Arguments Append {A} _.
Arguments Flush {A}.

Definition run_op {A} (b : buffer A) (o : buf_op A) : res (buffer A) :=
  match o with
  | Push e => Ok (push_back b e)
  | AppendEach l => Ok (append_each b l)
  | Append l => append b l
  | Flush => Ok (flush b)
  end.

Fixpoint run_ops {A} (b : buffer A) (os : list (buf_op A)) : res (buffer A) :=
  match os with
  | [] => Ok b
  | o :: os => let* b := run_op b o in run_ops b os
  end.
