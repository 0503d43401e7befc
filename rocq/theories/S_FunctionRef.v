(** * Specification: what calling a callable means

    This file does not mention how a reference stores or calls its callable. *)
From Verif Require Import M_FunctionRef.

(** Calling the callable itself, in the given world, does [g].  A null pointer and an
    object that is gone have no meaning. *)
Inductive means {A R} (w : world A R) : source -> (A -> R) -> Prop :=
| means_constant f : means w (src_constant f) (unary w f)
| means_bound f o : means w (src_bound_constant f o) (binary w f o)
| means_pointer f : means w (src_pointer (Some f)) (unary w f)
| means_function f : means w (src_function f) (unary w f)
| means_convertible f : means w (src_convertible f) (unary w f)
| means_plus f : means w (src_plus f) (unary w f)
| means_object o g : objects w o = Some g -> means w (src_object o) g.

(** The callable is a function or can become a pointer to one, so that nothing has to
    outlive the reference (function_ref.hpp:119-127). *)
Definition function_like (s : source) : bool :=
  match s with src_object _ => false | _ => true end.
