(** * Model of the highlighter base class (include/ulight/impl/highlighter.hpp). *)
From Coq Require Import List NArith ZArith Bool Arith.
From Verif Require Import M_Base M_Emit M_Types M_Chars M_Parse M_Api.
Import ListNotations.

(** highlighter.hpp:29-36: the members of Highlighter_Base that change. [rem] is remainder,
    [idx] is index, [rops] the operations performed on [out] so far, most recent first, and
    [loc] the members of the derived class. *)
Record hst (S : Type) : Type := mk_hst {
  rem : str;
  idx : nat;
  rops : list out_op;
  loc : S
}.
Arguments mk_hst {S}. Arguments rem {S}. Arguments idx {S}. Arguments rops {S}. Arguments loc {S}.

(** Member functions: from the state before to the result and the state after, or a failure. *)
Definition M (S A : Type) : Type := hst S -> res (A * hst S).

Definition ret {S A} (a : A) : M S A := fun st => Ok (a, st).
Definition bindM {S A B} (m : M S A) (k : A -> M S B) : M S B :=
  fun st => match m st with Ok (a, st') => k a st' | Fail f => Fail f end.
Definition fail {S A} (f : failure) : M S A := fun _ => Fail f.
Definition checkM {S} (b : bool) (f : failure) : M S unit := if b then ret tt else fail f.
Definition lift {S A} (r : res A) : M S A :=
  fun st => match r with Ok a => Ok (a, st) | Fail f => Fail f end.

Declare Scope hl_scope.
Delimit Scope hl_scope with hl.
Notation "'let!' x := m 'in' k" := (bindM m (fun x => k))
  (at level 200, x pattern, m at level 100, k at level 200) : hl_scope.
Notation "m ;; k" := (bindM m (fun _ => k)) (at level 61, right associativity) : hl_scope.
Open Scope hl_scope.

Definition when {S} (b : bool) (m : M S unit) : M S unit := if b then m else ret tt.

(** Reading [remainder] and [index]; reading and writing the members of the derived class. *)
Definition get_rem {S} : M S str := fun st => Ok (rem st, st).
Definition get_idx {S} : M S nat := fun st => Ok (idx st, st).
Definition get_loc {S} : M S S := fun st => Ok (loc st, st).
Definition set_loc {S} (l : S) : M S unit :=
  fun st => Ok (tt, mk_hst (rem st) (idx st) (rops st) l).

(** highlighter.hpp:62-66 (eof) *)
Definition eof {S} : M S bool := fun st => Ok (match rem st with [] => true | _ => false end, st).

(** highlighter.hpp:75-96 (emit): the assertions, and the operation appended to the trace.
    source_length is index + remainder.length() at all times (advance keeps the sum). *)
Definition emit_at {S} (forced : bool) (begin len : nat) (ty : N) : M S unit := fun st =>
  let n := idx st + length (rem st) in
  if (negb (len =? 0)) && (begin <? n) && (begin + len <=? n)
  then Ok (tt, mk_hst (rem st) (idx st) (OEmit begin len ty forced :: rops st) (loc st))
  else Fail FDebugAssert.

(** highlighter.hpp:102-108 (advance) *)
Definition advance {S} (len : nat) : M S unit := fun st =>
  if len <=? length (rem st)
  then Ok (tt, mk_hst (skipn len (rem st)) (idx st + len) (rops st) (loc st))
  else Fail FDebugAssert.

(** highlighter.hpp:112-120 (emit_and_advance) *)
Definition emit_and_advance_c {S} (forced : bool) (len : nat) (ty : N) : M S unit :=
  let! i := get_idx in emit_at forced i len ty ;; advance len.
Definition emit_and_advance {S} (len : nat) (ty : N) : M S unit :=
  emit_and_advance_c false len ty.

(** highlighter.hpp:129-162 (consume_nested_language with sub_buffer). [h] is the nested
    language's highlighter and [cap] the size of nested_tokens; returns whether the status is ok.
    remainder.substr(0, length) is clipped to the remainder. When the status is not ok the
    sub-buffer is not flushed; the chunks it has already flushed are not recorded here. *)
Definition consume_nested {S} (h : highlighter) (strict : bool) (len cap : nat) : M S bool :=
  fun st =>
    if len =? 0 then Ok (true, st)
    else
      let src := firstn len (rem st) in
      match h src strict with
      | Fail f => Fail f
      | Ok (false, _) => Ok (false, st)
      | Ok (true, ops) =>
        if len <=? length (rem st)
        then Ok (true, mk_hst (skipn len (rem st)) (idx st + len)
                         (ONested cap (idx st) (length src) ops :: rops st) (loc st))
        else Fail FDebugAssert
      end.

(** highlighter.hpp:216-241 (highlight_digits); [len] is the pending length. *)
Fixpoint highlight_digits_loop {S} (digits : str) (sep : N) (len : nat) : M S unit :=
  match digits with
  | [] => when (negb (len =? 0)) (emit_and_advance len hl_number)
  | c :: digits' =>
    if (c =? sep)%N then
      when (negb (len =? 0)) (emit_and_advance len hl_number) ;;
      emit_and_advance 1 hl_number_delim ;;
      highlight_digits_loop digits' sep 0
    else highlight_digits_loop digits' sep (len + 1)
  end.
Definition highlight_digits {S} (digits : str) (sep : N) : M S unit :=
  checkM (negb (sep =? 0)%N) FAssert ;;
  let! r := get_rem in
  checkM (length digits <=? length r) FAssert ;;
  highlight_digits_loop digits sep 0.

(** highlighter.hpp:198-203 (highlight_digits_ignore_separator) *)
Definition highlight_digits_ignore_separator {S} (digits : str) : M S unit :=
  match digits with [] => ret tt | _ => emit_and_advance (length digits) hl_number end.

(** highlighter.hpp:165-196 (highlight_number_impl) *)
Definition highlight_number_impl {S} (digits_fn : str -> M S unit) (r : number_result)
  : M S unit :=
  if nr_erroneous r then emit_and_advance (nr_length r) hl_error
  else
    when (negb (nr_sign r + nr_prefix r =? 0))
      (emit_and_advance (nr_sign r + nr_prefix r) hl_number_decor) ;;
    when (negb (nr_integer r =? 0))
      (let! s := get_rem in digits_fn (firstn (nr_integer r) s)) ;;
    when (negb (nr_radix_point r =? 0)) (emit_and_advance (nr_radix_point r) hl_number_delim) ;;
    when (negb (nr_fractional r =? 0))
      (let! s := get_rem in digits_fn (firstn (nr_fractional r) s)) ;;
    when (negb (nr_exponent_sep r =? 0)) (emit_and_advance (nr_exponent_sep r) hl_number_delim) ;;
    when (negb (nr_exponent_digits r =? 0))
      (let! s := get_rem in digits_fn (firstn (nr_exponent_digits r) s)) ;;
    when (negb (nr_suffix r =? 0)) (emit_and_advance (nr_suffix r) hl_number_decor).

(** highlighter.hpp:206-214 (highlight_number, both overloads) *)
Definition highlight_number_sep {S} (r : number_result) (sep : N) : M S unit :=
  highlight_number_impl (fun d => highlight_digits d sep) r.
Definition highlight_number {S} (r : number_result) : M S unit :=
  highlight_number_impl highlight_digits_ignore_separator r.

(** highlighter.hpp:243-272 (highlight_enclosed) *)
Definition highlight_enclosed {S} (e : enclosed) (prefix suffix : nat) (content delim : N)
  : M S unit :=
  checkM (negb (en_length e =? 0)) FDebugAssert ;;
  checkM (prefix <=? en_length e) FDebugAssert ;;
  checkM (negb (en_terminated e) || (prefix + suffix <=? en_length e)) FDebugAssert ;;
  let! i := get_idx in
  emit_at false i prefix delim ;;
  (if en_terminated e then
     let n := en_length e - prefix - suffix in
     when (negb (n =? 0)) (emit_at false (i + prefix) n content) ;;
     emit_at false (i + prefix + n) suffix delim
   else
     let n := en_length e - prefix in
     when (negb (n =? 0)) (emit_at false (i + prefix) n content)) ;;
  advance (en_length e).

(** highlighter.hpp:274-284 (highlight_enclosed_comment) *)
Definition highlight_enclosed_comment {S} (e : enclosed) (prefix suffix : nat) : M S unit :=
  highlight_enclosed e prefix suffix hl_comment hl_comment_delim.

(** A loop with loop variables of type [A]: [inl] continues, [inr] leaves. Running out of fuel is
    a failure of its own, so that termination is part of every theorem that excludes it. *)
Fixpoint iter {S A B} (fuel : nat) (body : A -> M S (A + B)) (a : A) : M S B :=
  match fuel with
  | O => fail FFuel
  | Datatypes.S n =>
    let! r := body a in
    match r with inl a' => iter n body a' | inr b => ret b end
  end.

(** A loop bounded by [c] times the remaining text. *)
Definition hloop {S A B} (c : nat) (body : A -> M S (A + B)) (a : A) : M S B :=
  fun st => iter (c * length (rem st) + c) body a st.

(** while (!remainder.empty()) body *)
Definition while_rem {S} (body : M S unit) : M S unit :=
  hloop 1 (fun _ : unit =>
    let! e := eof in if e then ret (inr tt) else body ;; ret (inl tt)) tt.

(** Construction of a highlighter over a source and a call of its operator(). *)
Definition run {S} (init : S) (m : M S bool) (src : str) : res (bool * list out_op) :=
  match m (mk_hst src 0 [] init) with
  | Ok (b, st) => Ok (b, rev (rops st))
  | Fail f => Fail f
  end.

(** Bounds-checked element access: remainder[i] (undefined behaviour beyond the end). *)
Definition at_ {S} (s : str) (i : nat) : M S N :=
  match nth_error s i with Some c => ret c | None => fail FUB end.
(** string_view::substr(pos): throws when pos is beyond the end. *)
Definition substr_from {S} (s : str) (pos : nat) : M S str :=
  if pos <=? length s then ret (skipn pos s) else fail FThrow.
(** string_view::remove_prefix: undefined behaviour beyond the end. *)
Definition remove_prefix {S} (s : str) (n : nat) : M S str :=
  if n <=? length s then ret (skipn n s) else fail FUB.
