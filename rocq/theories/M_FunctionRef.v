(** Model of include/ulight/function_ref.hpp: non-owning references to callables.

    Simplifications: the parameter pack is one type [A] and the result one type [R];
    functions and objects are known by their addresses; a callable object's behaviour
    is a function of its arguments; template constraints other than the value category
    (invocability, noexcept) are met by construction. *)
From Coq Require Import List.
Import ListNotations.

(** What addresses stand for when a call happens.  Functions live for ever; objects may
    be gone ([None]).  [unary] are the functions of type R(Args...), [binary] those which
    take a pointer to an object first (function_ref.hpp:95-105). *)
Record world (A R : Type) := mk_world {
  unary : nat -> A -> R;
  binary : nat -> nat -> A -> R;
  objects : nat -> option (A -> R)
}.
Arguments unary {A R}.
Arguments binary {A R}.
Arguments objects {A R}.
Arguments mk_world {A R}.

(** The arguments of the constructors, function_ref.hpp:63-162. *)
Inductive source :=
| src_constant (f : nat)                 (* Constant<F>, 81-88 *)
| src_bound_constant (f : nat) (o : nat) (* Constant<F> and T*, 95-105 *)
| src_pointer (p : option nat)           (* Function*, 112-117, and 139-142; None is null *)
| src_function (f : nat)                 (* a function lvalue, 135-138 *)
| src_convertible (f : nat)              (* convertible to Function*, 143-147 *)
| src_plus (f : nat)                     (* unary plus gives a pointer, 148-157 *)
| src_object (o : nat).                  (* any other callable, 158-161 *)

Inductive category := lvalue | rvalue.

(** function_ref.hpp:40-58 (call) and the lambdas in 84-86 and 100-102. *)
Inductive invoker :=
| inv_constant (f : nat)
| inv_bound_constant (f : nat)
| inv_function
| inv_object.

(** function_ref.hpp:61: m_entity is a pointer to anything. *)
Inductive entity := ent_null | ent_function (f : nat) | ent_object (o : nat).

(** function_ref.hpp:60-61. *)
Record function_ref := mk_ref { m_invoker : option invoker; m_entity : entity }.

(** function_ref.hpp:64-66: the default constructor. *)
Definition empty_ref : function_ref := mk_ref None ent_null.

(** function_ref.hpp:68-74: piecewise construction. *)
Definition of_parts (i : option invoker) (e : entity) : function_ref := mk_ref i e.

(** function_ref.hpp:115, 141: the pointer as an entity; a null pointer stays null. *)
Definition pointer_entity (p : option nat) : entity :=
  match p with None => ent_null | Some f => ent_function f end.

(** function_ref.hpp:81-163: every constructor in the order of its branches.  The
    requires-clause (129) mentions no value category, so the category is unused. *)
Definition construct (c : category) (s : source) : option function_ref :=
  match s with
  | src_constant f => Some (mk_ref (Some (inv_constant f)) ent_null)
  | src_bound_constant f o => Some (mk_ref (Some (inv_bound_constant f)) (ent_object o))
  | src_pointer p => Some (mk_ref (Some inv_function) (pointer_entity p))
  | src_function f => Some (mk_ref (Some inv_function) (ent_function f))
  | src_convertible f => Some (mk_ref (Some inv_function) (ent_function f))
  | src_plus f => Some (mk_ref (Some inv_function) (ent_function f))
  | src_object o => Some (mk_ref (Some inv_object) (ent_object o))
  end.

(** function_ref.hpp:177-199. *)
Definition has_value (r : function_ref) : bool :=
  match m_invoker r with None => false | Some _ => true end.
Definition get_invoker (r : function_ref) : option invoker := m_invoker r.
Definition get_entity (r : function_ref) : entity := m_entity r.

Inductive outcome (R : Type) :=
| returned (x : R)
| assertion_failed
| terminated
| undefined.
Arguments returned {R}.
Arguments assertion_failed {R}.
Arguments terminated {R}.
Arguments undefined {R}.

(** function_ref.hpp:40-58, 84-86, 100-102: what an invoker does with the entity.
    A pointer of the wrong kind, a null pointer and a dead object are undefined. *)
Definition invoke {A R} (w : world A R) (i : invoker) (e : entity) (a : A) : outcome R :=
  match i, e with
  | inv_constant f, _ => returned (unary w f a)
  | inv_bound_constant f, ent_object o => returned (binary w f o a)
  | inv_function, ent_function f => returned (unary w f a)
  | inv_object, ent_object o =>
    match objects w o with Some g => returned (g a) | None => undefined end
  | _, _ => undefined
  end.

(** function_ref.hpp:164-175 (operator()). *)
Definition call {A R} (nothrow : bool) (w : world A R) (r : function_ref) (a : A) : outcome R :=
  match m_invoker r with
  | None => if nothrow then terminated else assertion_failed
  | Some i => invoke w i (m_entity r) a
  end.
