(** * References to callables *)
From Coq Require Import List Arith.
From Verif Require Import M_FunctionRef S_FunctionRef.
Import ListNotations.

(** A reference made from any callable has a value, and calling it at any later time does
    what the callable itself does at that time; so does a reference put together again
    from its two parts. *)
Theorem C208_call_partial : forall (A R : Type) c s r, construct c s = Some r ->
  has_value r = true
  /\ forall nothrow (w : world A R) g a, means w s g ->
    call nothrow w r a = returned (g a)
    /\ call nothrow w (of_parts (get_invoker r) (get_entity r)) a = returned (g a).
Proof.
  intros A R c s r H. split; [destruct s; injection H as <-; reflexivity|].
  intros nt w g a M. destruct M as [| | | | | |o g E]; injection H as <-; try (split; reflexivity).
  unfold call, invoke; cbn. rewrite E. split; reflexivity.
Qed.
Print Assumptions C208_call_partial.

(** Functions and what converts to a pointer to one may be temporaries: no object matters. *)
Theorem C208_functions : forall (A R : Type) c s r, construct c s = Some r -> function_like s = true ->
  forall nothrow (w w' : world A R) a, unary w = unary w' -> binary w = binary w' -> call nothrow w r a = call nothrow w' r a.
Proof.
  intros A R c s r H F nt w w' a U B. destruct s; try discriminate F; injection H as <-; unfold call, invoke; cbn; try (destruct p; cbn); rewrite ?U, ?B; reflexivity.
Qed.
Print Assumptions C208_functions.

(** Every callable is accepted as an lvalue, and functions and what converts to a pointer to one as a temporary too. *)
Theorem C208_accepted : forall s, (exists r, construct lvalue s = Some r) /\ (function_like s = true -> exists r, construct rvalue s = Some r).
Proof. intros s. destruct s; (split; [|intros _]); eexists; reflexivity. Qed.
Print Assumptions C208_accepted.

(** A reference is empty exactly if it was made by the default constructor or from an empty
    invoker; calling it fails an assertion, or ends the program where exceptions are not allowed. *)
Theorem C208_empty : forall (A R : Type) nothrow (w : world A R) r a,
  has_value empty_ref = false
  /\ (has_value r = false <-> call nothrow w r a = (if nothrow then terminated else assertion_failed)).
Proof.
  intros A R nt w [i e] a. split; [reflexivity|]. unfold has_value, call; cbn. destruct i as [i|]; [|tauto].
  split; [discriminate|]. destruct i, e; cbn; try (destruct nt; discriminate).
  destruct (objects w o); destruct nt; discriminate.
Qed.
Print Assumptions C208_empty.

(** The comment at function_ref.hpp:127 says that callables which are not functions are only
    accepted if they are lvalues.  Temporaries are accepted too. *)
Theorem C208_rvalue_refuted : ~ (forall s r, construct rvalue s = Some r -> function_like s = true).
Proof. intros H. discriminate (H (src_object 0) _ eq_refl). Qed.
Print Assumptions C208_rvalue_refuted.

(** Every reference to a temporary callable is accepted, claims to have a value, and every call after
    the temporary is gone is undefined. *)
Theorem C208_dangling : forall o, exists r, construct rvalue (src_object o) = Some r /\ has_value r = true
  /\ forall (A R : Type) nothrow (w : world A R) a, objects w o = None -> call nothrow w r a = undefined.
Proof.
  intros o. eexists. split; [reflexivity|]. split; [reflexivity|]. intros A R nt w a E. unfold call, invoke; cbn. now rewrite E.
Qed.
Print Assumptions C208_dangling.

(** A reference made from a null pointer to a function claims to have a value, but calling it is undefined
    even if every object is alive. *)
Theorem C208_null_refuted :
  ~ (forall s r, construct lvalue s = Some r -> has_value r = true ->
       forall (A R : Type) nothrow (w : world A R) a, (forall o, objects w o <> None) -> call nothrow w r a <> undefined).
Proof.
  intros H. refine (H (src_pointer None) _ eq_refl eq_refl nat nat false (mk_world (fun f a => f + a) (fun f o a => f + o + a) (fun o => Some (fun a => o + a))) 0 _ eq_refl).
  discriminate.
Qed.
Print Assumptions C208_null_refuted.

(** Null pointers and objects that are gone are the only reasons for undefined calls. *)
Theorem C208_undefined : forall (A R : Type) c s r, construct c s = Some r -> forall nothrow (w : world A R) a,
  call nothrow w r a = undefined <-> s = src_pointer None \/ exists o, s = src_object o /\ objects w o = None.
Proof.
  intros A R c s r H nt w a. destruct s; injection H as <-; unfold call, invoke; cbn;
    try (split; [discriminate|intros [K|(o' & K & _)]; discriminate K]).
  - destruct p as [f|]; cbn; [split; [discriminate|intros [K|(o' & K & _)]; discriminate K]|tauto].
  - destruct (objects w o) eqn:E.
    + split; [discriminate|intros [K|(o' & K & L)]; [discriminate K|injection K as <-; congruence]].
    + split; [right; exists o; auto|reflexivity].
Qed.
Print Assumptions C208_undefined.

Definition sample_world : world nat nat := mk_world (fun f a => f * 10 + a) (fun f o a => f * 100 + o * 10 + a) (fun o => if o =? 7 then Some (fun a => a + 1) else None).
Example C208_case : means sample_world (src_object 7) (fun a => a + 1)
  /\ (exists r, construct lvalue (src_object 7) = Some r /\ call false sample_world r 4 = returned 5)
  /\ (exists r, construct rvalue (src_bound_constant 3 7) = Some r /\ call true sample_world r 4 = returned 374)
  /\ objects sample_world 8 = None.
Proof. repeat split; [now constructor|eexists; split; reflexivity..]. Qed.
