(** * More fuel: programs that fail less often but otherwise agree *)
From Coq Require Import List NArith Bool Arith Lia.
From Verif Require Import M_Base M_Highlighter L_Highlighter L_Auto.
Import ListNotations.

Definition mle {S A} (m m' : M S A) : Prop := forall st r, m st = Ok r -> m' st = Ok r.
Lemma mle_refl {S A} (m : M S A) : mle m m.
Proof. intros st r H. exact H. Qed.
Lemma mle_trans {S A} (m1 m2 m3 : M S A) : mle m1 m2 -> mle m2 m3 -> mle m1 m3.
Proof. intros H1 H2 st r H. apply H2, H1, H. Qed.
Lemma mle_bind {S A B} (m m' : M S A) (k k' : A -> M S B) : mle m m' -> (forall a, mle (k a) (k' a)) -> mle (bindM m k) (bindM m' k').
Proof. intros H1 H2 st r. unfold bindM. destruct (m st) as [[a st']|] eqn:E; [|discriminate]. rewrite (H1 _ _ E). apply H2. Qed.
Lemma mle_iter {S A B} (b b' : A -> M S (A + B)) : (forall a, mle (b a) (b' a)) -> forall f a, mle (iter f b a) (iter f b' a).
Proof.
  intros H. induction f as [|f IH]; intros a; cbn [iter]; [apply mle_refl|]. apply mle_bind; [apply H|]. intros [a'|r]; [apply IH|apply mle_refl].
Qed.
Lemma mle_hloop {S A B} c (b b' : A -> M S (A + B)) a : (forall a, mle (b a) (b' a)) -> mle (hloop c b a) (hloop c b' a).
Proof. intros H st r. unfold hloop. apply mle_iter. exact H. Qed.
Lemma mle_fail {S A} f (m : M S A) : mle (fail f) m.
Proof. intros st r. discriminate. Qed.
Ltac mle1 :=
  match goal with
  | |- mle ?a ?a => apply mle_refl
  | H : mle ?a ?b |- mle ?a ?b => exact H
  | |- mle (bindM _ _) _ => apply mle_bind; [|intros ?]
  | |- mle (hloop _ _ _) _ => apply mle_hloop; intros ?
  | |- mle (if ?x then _ else _) _ => destruct x
  | |- mle (match ?x with _ => _ end) _ => destruct x
  end.
Ltac mle := repeat mle1.
