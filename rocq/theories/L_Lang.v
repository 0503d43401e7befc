(** * Proofs about language lookup. *)
From Coq Require Import List NArith Bool Arith Lia.
From Verif Require Import M_Base L_Base M_Lang.
Import ListNotations.

(** ** Binary search *)
Section LowerBound.
  Context {A : Type} (less : A -> bool) (l : list A).

  (** [less] holds on an initial segment of [l] only. *)
  Definition partitioned : Prop :=
    forall i j x y, i <= j -> nth_error l i = Some x -> nth_error l j = Some y ->
                    less y = true -> less x = true.

  Hypothesis Hpart : partitioned.

  Lemma lower_bound_loop_spec : forall fuel first len,
    len <= fuel -> first + len <= length l ->
    (forall i x, i < first -> nth_error l i = Some x -> less x = true) ->
    (forall i x, first + len <= i -> nth_error l i = Some x -> less x = false) ->
    let r := lower_bound_loop fuel less l first len in
    r <= length l /\
    (forall i x, i < r -> nth_error l i = Some x -> less x = true) /\
    (forall i x, r <= i -> nth_error l i = Some x -> less x = false).
  Proof.
    induction fuel as [|fuel IH]; intros first len Hf Hb Hlo Hhi; cbn [lower_bound_loop].
    - assert (len = 0) by lia. subst. repeat split; [lia|exact Hlo|].
      intros i x Hi. apply Hhi. lia.
    - destruct len as [|len'].
      + repeat split; [lia|exact Hlo|]. intros i x Hi. apply Hhi. lia.
      + set (len := S len') in *. set (half := Nat.div2 len).
        assert (Hh : half < len) by (apply Nat.lt_div2; lia).
        destruct (nth_error l (first + half)) as [x|] eqn:E.
        2:{ apply nth_error_None in E. lia. }
        destruct (less x) eqn:Lx.
        * apply IH; try lia.
          -- intros i y Hi Hy. apply (Hpart i (first + half) y x); auto. lia.
          -- intros i y Hi Hy. apply (Hhi i); auto. lia.
        * apply IH; try lia; auto.
          intros i y Hi Hy. destruct (less y) eqn:Ly; auto.
          rewrite (Hpart (first + half) i x y) in Lx; auto.
  Qed.

  Lemma lower_bound_spec :
    lower_bound less l <= length l /\
    (forall i x, i < lower_bound less l -> nth_error l i = Some x -> less x = true) /\
    (forall i x, lower_bound less l <= i -> nth_error l i = Some x -> less x = false).
  Proof.
    apply lower_bound_loop_spec; try lia.
    intros i x Hi Hx. assert (i < length l) by (apply nth_error_Some; congruence). lia.
  Qed.
End LowerBound.

(** ** Sorted key tables *)
Fixpoint sortedb (l : list (str * N)) : bool :=
  match l with
  | [] => true
  | (a, _) :: t =>
    match t with
    | [] => true
    | (b, _) :: _ => str_ltb a b && sortedb t
    end
  end.

Lemma sortedb_head : forall l a v, sortedb ((a, v) :: l) = true ->
  forall e, In e l -> str_ltb a (fst e) = true.
Proof.
  induction l as [|[b w] l IH]; intros a v H e He; [easy|].
  simpl in H. apply andb_true_iff in H as [H1 H2].
  destruct He as [<-|He]; auto.
  apply (str_ltb_trans _ b); auto. exact (IH b w H2 e He).
Qed.

Lemma sortedb_nth : forall l i j x y, sortedb l = true -> i < j ->
  nth_error l i = Some x -> nth_error l j = Some y -> str_ltb (fst x) (fst y) = true.
Proof.
  induction l as [|[a v] l IH]; intros i j x y Hs Hij Hx Hy.
  - destruct i; discriminate.
  - destruct j as [|j]; [lia|]. simpl in Hy. destruct i as [|i].
    + simpl in Hx. inversion Hx; subst. apply (sortedb_head l a v Hs). eapply nth_error_In; eauto.
    + simpl in Hx. apply (IH i j); auto; try lia.
      destruct l as [|[b w] l']; auto. simpl in Hs. apply andb_true_iff in Hs. tauto.
Qed.

Lemma sorted_partitioned : forall l name, sortedb l = true ->
  partitioned (fun e => str_ltb (fst e) name) l.
Proof.
  intros l name Hs i j x y Hij Hx Hy H.
  destruct (Nat.eq_dec i j) as [->|]; [congruence|].
  apply (str_ltb_trans _ (fst y)); auto. apply (sortedb_nth l i j); auto. lia.
Qed.

Definition lookup (l : list (str * N)) (name : str) : N :=
  match nth_error l (lower_bound (fun e => str_ltb (fst e) name) l) with
  | Some (n, v) => if str_eqb n name then v else 0%N
  | None => 0%N
  end.

Lemma lookup_In : forall l name v, sortedb l = true -> In (name, v) l -> lookup l name = v.
Proof.
  intros l name v Hs Hin. apply In_nth_error in Hin as [k Hk].
  destruct (lower_bound_spec _ _ (sorted_partitioned l name Hs)) as (Hb & Hlo & Hhi).
  set (r := lower_bound _ l) in *.
  assert (r = k).
  { destruct (lt_eq_lt_dec r k) as [[H|H]|H]; auto.
    - exfalso. assert (r < length l).
      { assert (k < length l) by (apply nth_error_Some; congruence). lia. }
      destruct (nth_error l r) as [x|] eqn:E; [|apply nth_error_None in E; lia].
      pose proof (Hhi r x (le_n _) E) as H1.
      pose proof (sortedb_nth l r k x (name, v) Hs H E Hk) as H2. simpl in *. congruence.
    - exfalso. pose proof (Hlo k _ H Hk) as H1. simpl in H1.
      rewrite str_ltb_irrefl in H1. discriminate. }
  unfold lookup. fold r. rewrite H, Hk, str_eqb_refl. reflexivity.
Qed.

Lemma lookup_notin : forall l name, (forall v, ~ In (name, v) l) -> lookup l name = 0%N.
Proof.
  intros l name H. unfold lookup.
  destruct (nth_error l _) as [[n v]|] eqn:E; auto.
  destruct (str_eqb n name) eqn:Q; auto.
  apply str_eqb_eq in Q; subst. exfalso. eapply H. eapply nth_error_In; eauto.
Qed.

Lemma lang_list_sorted : sortedb lang_list = true.
Proof. vm_compute. reflexivity. Qed.

Lemma get_lang_lookup : forall name, get_lang name = lookup lang_list name.
Proof. intro name. unfold get_lang, lookup, LANG_NONE. reflexivity. Qed.

Lemma get_lang_in : forall name v, In (name, v) lang_list -> get_lang name = v.
Proof. intros. rewrite get_lang_lookup. apply lookup_In; [apply lang_list_sorted|assumption]. Qed.

Lemma get_lang_notin : forall name, (forall v, ~ In (name, v) lang_list) -> get_lang name = LANG_NONE.
Proof. intros. rewrite get_lang_lookup. now apply lookup_notin. Qed.

Lemma lang_list_values : forall n v, In (n, v) lang_list -> (1 <= v < LANG_COUNT)%N.
Proof.
  assert (H : forallb (fun e => (1 <=? snd e)%N && (snd e <? LANG_COUNT)%N) lang_list = true)
    by (vm_compute; reflexivity).
  rewrite forallb_forall in H. intros n v Hi. apply H in Hi. simpl in Hi.
  apply andb_true_iff in Hi as [H1 H2]. apply N.leb_le in H1. apply N.ltb_lt in H2. lia.
Qed.

Lemma lookup_some : forall l name v, v <> 0%N -> lookup l name = v -> In (name, v) l.
Proof.
  intros l name v Hv H. unfold lookup in H.
  destruct (nth_error l _) as [[n w]|] eqn:E; [|congruence].
  destruct (str_eqb n name) eqn:Q; [|congruence].
  apply str_eqb_eq in Q; subst. eapply nth_error_In; eauto.
Qed.

Lemma get_lang_some : forall name v, v <> LANG_NONE -> get_lang name = v -> In (name, v) lang_list.
Proof. intros name v Hv H. rewrite get_lang_lookup in H. now apply lookup_some. Qed.

Lemma get_lang_exact : forall name v, v <> LANG_NONE ->
  (get_lang name = v <-> In (name, v) lang_list).
Proof. intros. split; [now apply get_lang_some|apply get_lang_in]. Qed.

Lemma lang_from_path_nodot : forall p, ~ In 46%N p -> lang_from_path p = LANG_NONE.
Proof. intros p H. unfold lang_from_path. apply find_last_None in H. now rewrite H. Qed.

Lemma lang_from_path_dot : forall a ext, ~ In 46%N ext ->
  lang_from_path (a ++ 46%N :: ext) = get_lang ext.
Proof.
  intros a ext H. unfold lang_from_path.
  destruct (find_last 46 (a ++ 46%N :: ext)) as [i|] eqn:F.
  - apply find_last_Some in F as (a' & t & E & L & Hn).
    assert (t = ext /\ a' = a) as [-> ->].
    { clear i L. revert a' E. induction a as [|x a IH]; intros a' E.
      - destruct a' as [|y a'].
        + inversion E. auto.
        + inversion E; subst. exfalso. apply H. apply in_or_app. right. now left.
      - destruct a' as [|y a'].
        + inversion E; subst. exfalso. apply Hn. apply in_or_app. right. now left.
        + inversion E; subst. destruct (IH a' H2) as [-> ->]. auto. }
    f_equal. subst i. rewrite Nat.add_1_r. clear.
    induction a; simpl; auto.
  - apply find_last_None in F. exfalso. apply F. apply in_or_app. right. now left.
Qed.

Lemma display_name_ok : forall l, exists d, lang_display_name l = Some d /\
  (d <> [] <-> (1 <= l < LANG_COUNT)%N).
Proof.
  intro l. unfold lang_display_name.
  destruct ((l =? LANG_NONE)%N || (LANG_COUNT <=? l)%N) eqn:E.
  - exists []. split; auto. split; [easy|]. intros H. exfalso.
    apply orb_true_iff in E as [E|E]; [apply N.eqb_eq in E|apply N.leb_le in E];
    unfold LANG_NONE, LANG_COUNT in *; lia.
  - apply orb_false_iff in E as [E1 E2]. apply N.eqb_neq in E1. apply N.leb_gt in E2.
    unfold LANG_NONE, LANG_COUNT in *.
    assert (H : forallb (fun k => match nth_error lang_display_names k with
                 Some (_ :: _) => true | _ => false end) (seq 0 26) = true)
      by (vm_compute; reflexivity).
    rewrite forallb_forall in H. specialize (H (N.to_nat l)).
    rewrite in_seq in H. assert (0 <= N.to_nat l < 0 + 26) by lia.
    specialize (H H0). destruct (nth_error _ _) as [[|c d]|]; try discriminate.
    exists (c :: d). split; auto. split; [lia|easy].
Qed.

Lemma no_dot_in_names : forall n v, In (n, v) lang_list -> ~ In 46%N n.
Proof.
  assert (H : forallb (fun e => negb (mem 46 (fst e))) lang_list = true)
    by (vm_compute; reflexivity).
  rewrite forallb_forall in H. intros n v Hi. apply H in Hi. simpl in Hi.
  intros Hc. apply mem_In in Hc. rewrite Hc in Hi. discriminate.
Qed.

Lemma path_u8_never : forall stem ext, ~ In 46%N ext ->
  lang_from_path_u8 (stem ++ 46%N :: ext) = LANG_NONE.
Proof.
  intros stem ext _. unfold lang_from_path_u8. apply get_lang_notin.
  intros v Hi. apply (no_dot_in_names _ _ Hi). apply in_or_app. right. now left.
Qed.
