(** * Lemmas about the base definitions. *)
From Coq Require Import List NArith Bool Arith Lia.
From Verif Require Import M_Base.
Import ListNotations.

Lemma str_eqb_eq : forall a b, str_eqb a b = true <-> a = b.
Proof.
  induction a as [|x a IH]; destruct b as [|y b]; simpl; split; intro H; try easy.
  - apply andb_true_iff in H as [H1 H2]. apply N.eqb_eq in H1. apply IH in H2. congruence.
  - inversion H; subst. rewrite N.eqb_refl. simpl. now apply IH.
Qed.

Lemma str_eqb_refl : forall a, str_eqb a a = true.
Proof. intro a. now apply str_eqb_eq. Qed.

Lemma str_eqb_neq : forall a b, str_eqb a b = false <-> a <> b.
Proof.
  intros. rewrite <- str_eqb_eq. destruct (str_eqb a b); split; intros; congruence.
Qed.

Lemma str_ltb_irrefl : forall a, str_ltb a a = false.
Proof.
  induction a as [|x a IH]; simpl; auto.
  rewrite N.ltb_irrefl, N.eqb_refl, IH. reflexivity.
Qed.

Lemma str_ltb_trans : forall a b c, str_ltb a b = true -> str_ltb b c = true -> str_ltb a c = true.
Proof.
  induction a as [|x a IH]; destruct b as [|y b]; destruct c as [|z c]; simpl; intros H1 H2; try easy.
  apply orb_true_iff in H1, H2. apply orb_true_iff.
  rewrite andb_true_iff, N.ltb_lt, N.eqb_eq in *.
  destruct H1 as [H1|[H1 H1']], H2 as [H2|[H2 H2']]; subst; eauto; try (left; lia).
Qed.

Lemma str_ltb_total : forall a b, str_ltb a b = true \/ a = b \/ str_ltb b a = true.
Proof.
  induction a as [|x a IH]; destruct b as [|y b]; simpl; auto.
  destruct (N.lt_trichotomy x y) as [H|[H|H]].
  - left. apply N.ltb_lt in H. now rewrite H.
  - subst. rewrite N.ltb_irrefl, N.eqb_refl. simpl.
    destruct (IH b) as [H|[H|H]]; auto. subst; auto.
  - right; right. apply N.ltb_lt in H. now rewrite H.
Qed.

Lemma str_ltb_asym : forall a b, str_ltb a b = true -> str_ltb b a = false.
Proof.
  intros a b H. destruct (str_ltb b a) eqn:E; auto.
  rewrite <- (str_ltb_irrefl a). symmetry. eapply str_ltb_trans; eauto.
Qed.

Lemma starts_with_app : forall s p, starts_with s p = true <-> exists t, s = p ++ t.
Proof.
  intros s p. revert s. induction p as [|y p IH]; intros s; simpl.
  - split; eauto.
  - destruct s as [|x s]; simpl.
    + split; [easy|]. intros [t H]. discriminate.
    + rewrite andb_true_iff, N.eqb_eq, IH. split.
      * intros [-> [t ->]]. now exists t.
      * intros [t H]. inversion H; subst. eauto.
Qed.

Lemma starts_with_length : forall s p, starts_with s p = true -> length p <= length s.
Proof.
  intros s p H. apply starts_with_app in H as [t ->]. rewrite app_length. lia.
Qed.

Lemma starts_with_firstn : forall s p, starts_with s p = true -> firstn (length p) s = p.
Proof.
  intros s p H. apply starts_with_app in H as [t ->].
  rewrite firstn_app, Nat.sub_diag, firstn_all, firstn_O, app_nil_r. reflexivity.
Qed.

Lemma find_if_Some : forall p s i, find_if p s = Some i ->
  i < length s /\ p (nth i s 0%N) = true /\ (forall j, j < i -> p (nth j s 0%N) = false).
Proof.
  induction s as [|x s IH]; simpl; intros i H; [discriminate|].
  destruct (p x) eqn:E.
  - inversion H; subst. repeat split; [lia|exact E|intros; lia].
  - destruct (find_if p s) as [k|] eqn:F; [|discriminate].
    inversion H; subst. destruct (IH k eq_refl) as (H1 & H2 & H3).
    repeat split; [lia|exact H2|].
    intros [|j] Hj; [exact E|]. apply H3. lia.
Qed.

Lemma find_if_None : forall p s, find_if p s = None -> forall x, In x s -> p x = false.
Proof.
  induction s as [|x s IH]; simpl; intros H y Hy; [easy|].
  destruct (p x) eqn:E; [discriminate|].
  destruct (find_if p s) eqn:F; [discriminate|].
  destruct Hy as [->|Hy]; auto.
Qed.

Lemma find_if_lt : forall p s i, find_if p s = Some i -> i < length s.
Proof. intros. now apply find_if_Some in H. Qed.

Lemma find_if_from_Some : forall p s st i, find_if_from p s st = Some i ->
  st <= i < length s /\ p (nth i s 0%N) = true /\ (forall j, st <= j < i -> p (nth j s 0%N) = false).
Proof.
  unfold find_if_from. intros p s st i H.
  destruct (find_if p (skipn st s)) as [k|] eqn:F; [|discriminate]. simpl in H. inversion H; subst.
  apply find_if_Some in F as (H1 & H2 & H3). rewrite skipn_length in H1.
  assert (E: forall j, nth (st + j) s 0%N = nth j (skipn st s) 0%N).
  { intro j. rewrite <- (firstn_skipn st s) at 1.
    rewrite app_nth2; rewrite firstn_length_le; try lia. f_equal. lia. }
  repeat split; try lia.
  - now rewrite E.
  - intros j Hj. replace j with (st + (j - st)) by lia. rewrite E. apply H3. lia.
Qed.

Lemma find_sub_lt : forall s nd i, find_sub s nd = Some i -> i + length nd <= length s.
Proof.
  induction s as [|x s IH]; intros nd i H.
  - simpl in H. destruct nd; inversion H; subst; simpl; lia.
  - unfold find_sub in H; fold find_sub in H.
    destruct (starts_with (x :: s) nd) eqn:E.
    + inversion H; subst. apply starts_with_length in E. simpl in *. lia.
    + destruct (find_sub s nd) eqn:F; [|discriminate]. inversion H; subst.
      apply IH in F. simpl. lia.
Qed.

Lemma find_str_bound : forall s nd st i, find_str s nd st = Some i -> st <= i /\ i + length nd <= length s.
Proof.
  unfold find_str. intros s nd st i H.
  destruct (length s <? st) eqn:L; [discriminate|]. apply Nat.ltb_ge in L.
  destruct (find_sub (skipn st s) nd) eqn:F; [|discriminate]. simpl in H. inversion H; subst.
  apply find_sub_lt in F. rewrite skipn_length in F. lia.
Qed.

Lemma find_last_Some : forall c s i, find_last c s = Some i ->
  exists a t, s = a ++ c :: t /\ length a = i /\ ~ In c t.
Proof.
  induction s as [|x s IH]; simpl; intros i H; [discriminate|].
  destruct (find_last c s) as [k|] eqn:F.
  - inversion H; subst. destruct (IH k eq_refl) as (a & t & -> & <- & Hn).
    exists (x :: a), t. auto.
  - destruct (x =? c)%N eqn:E; [|discriminate]. inversion H; subst.
    apply N.eqb_eq in E; subst. exists [], s. repeat split; auto.
    clear - F. induction s as [|y s IH]; simpl in *; [easy|].
    destruct (find_last c s); [discriminate|].
    destruct (y =? c)%N eqn:E; [discriminate|]. apply N.eqb_neq in E.
    intros [->|Hi]; [easy|]. now apply IH.
Qed.

Lemma find_last_None : forall c s, find_last c s = None <-> ~ In c s.
Proof.
  induction s as [|x s IH]; simpl; [easy|].
  destruct (find_last c s) as [k|].
  - split; [easy|]. intros H. exfalso. apply H. right.
    destruct (in_dec N.eq_dec c s); auto. apply IH in n. discriminate.
  - destruct (x =? c)%N eqn:E.
    + apply N.eqb_eq in E; subst. split; [easy|]. intro H. exfalso. auto.
    + apply N.eqb_neq in E. split; auto. intros _ [->|Hi]; [easy|]. now apply IH.
Qed.

Lemma prefix_len_le : forall p s, prefix_len p s <= length s.
Proof. induction s as [|x s IH]; simpl; [lia|]. destruct (p x); lia. Qed.

Lemma prefix_len_all : forall p s, Forall (fun c => p c = true) (firstn (prefix_len p s) s).
Proof.
  induction s as [|x s IH]; simpl; [constructor|].
  destruct (p x) eqn:E; simpl; constructor; auto.
Qed.

Lemma prefix_len_stop : forall p s, prefix_len p s < length s ->
  p (nth (prefix_len p s) s 0%N) = false.
Proof.
  induction s as [|x s IH]; simpl; [lia|].
  destruct (p x) eqn:E; intros H; [apply IH; lia|exact E].
Qed.

Lemma mem_In : forall c s, mem c s = true <-> In c s.
Proof.
  unfold mem. intros. rewrite existsb_exists. split.
  - intros (x & Hi & E). apply N.eqb_eq in E. now subst.
  - intro H. exists c. split; auto. apply N.eqb_refl.
Qed.

Lemma skipn_skipn : forall {A} (a b : nat) (l : list A), skipn a (skipn b l) = skipn (b + a) l.
Proof.
  intros A a b. revert a. induction b as [|b IH]; intros a l; simpl; auto.
  destruct l; auto. now rewrite skipn_nil.
Qed.

Lemma find_if_split : forall p s i, find_if p s = Some i ->
  exists a c b, s = a ++ c :: b /\ length a = i /\ p c = true /\ (forall x, In x a -> p x = false).
Proof.
  induction s as [|x s IH]; simpl; intros i H; [discriminate|].
  destruct (p x) eqn:E.
  - injection H as <-. exists [], x, s. repeat split; auto. intros ? [].
  - destruct (find_if p s) as [k|] eqn:F; [|discriminate]. injection H as <-.
    destruct (IH k eq_refl) as (a & c & b & -> & <- & Hc & Ha).
    exists (x :: a), c, b. repeat split; auto. intros y [<-|Hy]; auto.
Qed.

Lemma firstn_app_exact {A} (a b : list A) : firstn (length a) (a ++ b) = a.
Proof. rewrite firstn_app, Nat.sub_diag, firstn_all. simpl. apply app_nil_r. Qed.

Lemma skipn_app_exact {A} (a b : list A) : skipn (length a) (a ++ b) = b.
Proof. rewrite skipn_app, Nat.sub_diag, skipn_all. reflexivity. Qed.

Lemma mem_In_N (c : N) (l : list N) : existsb (N.eqb c) l = true -> In c l.
Proof. intros H. apply existsb_exists in H. destruct H as (x & Hx & E). apply N.eqb_eq in E. now subst. Qed.
