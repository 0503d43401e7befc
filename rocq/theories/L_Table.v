(** * Sorted tables: binary search finds exactly the entries. *)
From Coq Require Import List NArith Bool Arith Lia.
From Verif Require Import M_Base L_Base M_Lang L_Lang M_Table.
Import ListNotations.

Section T.
Context {A : Type}.
Implicit Types l : list (str * A).

Lemma table_sorted_head l : forall a v, table_sorted ((a, v) :: l) = true ->
  forall e, In e l -> str_ltb a (fst e) = true.
Proof.
  induction l as [|[b w] l IH]; intros a v H e He; [easy|].
  cbn in H. apply andb_true_iff in H as [H1 H2].
  destruct He as [<-|He]; auto.
  apply (str_ltb_trans _ b); auto. exact (IH b w H2 e He).
Qed.

Lemma table_sorted_nth l : forall i j x y, table_sorted l = true -> i < j ->
  nth_error l i = Some x -> nth_error l j = Some y -> str_ltb (fst x) (fst y) = true.
Proof.
  induction l as [|[a v] l IH]; intros i j x y Hs Hij Hx Hy.
  - destruct i; discriminate.
  - destruct j as [|j]; [lia|]. cbn in Hy. destruct i as [|i].
    + cbn in Hx. inversion Hx; subst. apply (table_sorted_head l a v Hs). eapply nth_error_In; eauto.
    + cbn in Hx. apply (IH i j); auto; try lia.
      destruct l as [|[b w] l']; auto. cbn in Hs. apply andb_true_iff in Hs. tauto.
Qed.

Lemma table_partitioned l name : table_sorted l = true ->
  partitioned (fun e => str_ltb (fst e) name) l.
Proof.
  intros Hs i j x y Hij Hx Hy H.
  destruct (Nat.eq_dec i j) as [->|]; [congruence|].
  apply (str_ltb_trans _ (fst y)); auto. apply (table_sorted_nth l i j); auto. lia.
Qed.

Lemma table_find_In l name v : table_find l name = Some v -> In (name, v) l.
Proof.
  unfold table_find. destruct (nth_error l _) as [[n w]|] eqn:E; [|discriminate].
  destruct (str_eqb n name) eqn:Q; [|discriminate]. intros [= ->].
  apply str_eqb_eq in Q. subst. eapply nth_error_In; eauto.
Qed.

Lemma table_find_iff l name v : table_sorted l = true ->
  (table_find l name = Some v <-> In (name, v) l).
Proof.
  intros Hs. split; [apply table_find_In|].
  intros Hin. apply In_nth_error in Hin as [k Hk].
  destruct (lower_bound_spec _ _ (table_partitioned l name Hs)) as (Hb & Hlo & Hhi).
  unfold table_find. set (r := lower_bound _ l) in *.
  assert (r = k).
  { destruct (lt_eq_lt_dec r k) as [[H|H]|H]; auto.
    - exfalso. assert (r < length l).
      { assert (k < length l) by (apply nth_error_Some; congruence). lia. }
      destruct (nth_error l r) as [x|] eqn:E; [|apply nth_error_None in E; lia].
      pose proof (Hhi r x (le_n _) E) as H1.
      pose proof (table_sorted_nth l r k x (name, v) Hs H E Hk) as H2. cbn in *. congruence.
    - exfalso. pose proof (Hlo k _ H Hk) as H1. cbn in H1.
      rewrite str_ltb_irrefl in H1. discriminate. }
  rewrite H, Hk, str_eqb_refl. reflexivity.
Qed.
End T.
