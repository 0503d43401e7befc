(** * Lemmas about highlight type names. *)
From Coq Require Import List NArith Bool Arith Lia.
From Verif Require Import M_Base L_Base M_Types.
Import ListNotations.

(** Lower-case ASCII letters and underscores. *)
Definition name_char (c : N) : Prop := (97 <= c <= 122)%N \/ c = 95%N.
Definition name_charb (c : N) : bool := ((97 <=? c) && (c <=? 122) || (c =? 95))%N.

Lemma name_charb_spec c : name_charb c = true <-> name_char c.
Proof.
  unfold name_charb, name_char. rewrite orb_true_iff, andb_true_iff, !N.leb_le, N.eqb_eq.
  tauto.
Qed.

Lemma type_case_In t l s : type_case t l = Some s -> In (t, s) l.
Proof.
  induction l as [|[v x] r IH]; simpl; [discriminate|].
  destruct (N.eqb v t) eqn:E.
  - intros [= ->]. apply N.eqb_eq in E. subst. now left.
  - intros H. right. auto.
Qed.

Lemma type_case_notin t l : ~ In t (map fst l) -> type_case t l = None.
Proof.
  induction l as [|[v x] r IH]; simpl; [reflexivity|]. intros H.
  destruct (N.eqb v t) eqn:E; [apply N.eqb_eq in E; exfalso; apply H; now left|].
  apply IH. tauto.
Qed.

Lemma type_case_hit t l : In t (map fst l) -> exists s, type_case t l = Some s.
Proof.
  induction l as [|[v x] r IH]; simpl; [tauto|]. intros H.
  destruct (N.eqb v t) eqn:E; [eauto|]. apply N.eqb_neq in E. destruct H; [congruence|auto].
Qed.

Lemma short_string_chars t c : In c (short_string t) -> name_char c.
Proof.
  unfold short_string. destruct (type_case t highlight_type_table) as [[l s]|] eqn:E; [|intros []].
  apply type_case_In in E.
  assert (H : forallb (fun e => forallb name_charb (snd (snd e))) highlight_type_table = true)
    by (vm_compute; reflexivity).
  rewrite forallb_forall in H. apply H in E. cbn [snd] in E. rewrite forallb_forall in E.
  intros Hc. apply name_charb_spec. now apply E.
Qed.

Lemma short_string_nonempty t : In t (map fst highlight_type_table) -> t <> hl_none ->
  short_string t <> [].
Proof.
  intros Hi Hn. unfold short_string.
  destruct (type_case_hit _ _ Hi) as ([l s] & E). rewrite E. apply type_case_In in E.
  assert (H : forallb (fun e => (fst e =? hl_none)%N || negb (length (snd (snd e)) =? 0))
     highlight_type_table = true) by (vm_compute; reflexivity).
  rewrite forallb_forall in H. apply H in E. cbn [fst snd] in E.
  apply orb_true_iff in E. destruct E as [E|E]; [apply N.eqb_eq in E; congruence|].
  intros ->. discriminate.
Qed.

Lemma short_string_unknown t : ~ In t (map fst highlight_type_table) -> short_string t = [].
Proof. intros H. unfold short_string. now rewrite (type_case_notin _ _ H). Qed.

Lemma long_string_unknown t : ~ In t (map fst highlight_type_table) -> long_string t = [].
Proof. intros H. unfold long_string. now rewrite (type_case_notin _ _ H). Qed.

(** All pairs of types with equal short strings. *)
Definition clash_ok (a b : N) : bool :=
  ((a =? b) || ((a =? hl_name_shell_command) && (b =? hl_name_shell_command_delim))
   || ((b =? hl_name_shell_command) && (a =? hl_name_shell_command_delim)))%N.

Lemma short_string_inj t u :
  In t (map fst highlight_type_table) -> In u (map fst highlight_type_table) ->
  short_string t = short_string u ->
  t = u \/ (t = hl_name_shell_command /\ u = hl_name_shell_command_delim)
  \/ (u = hl_name_shell_command /\ t = hl_name_shell_command_delim).
Proof.
  intros Ht Hu E.
  assert (H : forallb (fun a => forallb (fun b =>
     implb (str_eqb (short_string a) (short_string b)) (clash_ok a b))
     (map fst highlight_type_table)) (map fst highlight_type_table) = true)
    by (vm_compute; reflexivity).
  rewrite forallb_forall in H. apply H in Ht. rewrite forallb_forall in Ht. apply Ht in Hu.
  rewrite E, str_eqb_refl in Hu. cbn [implb] in Hu. unfold clash_ok in Hu.
  rewrite !orb_true_iff, !andb_true_iff, !N.eqb_eq in Hu. tauto.
Qed.

Lemma long_string_inj t u :
  In t (map fst highlight_type_table) -> In u (map fst highlight_type_table) ->
  long_string t = long_string u -> t = u.
Proof.
  intros Ht Hu E.
  assert (H : forallb (fun a => forallb (fun b =>
     implb (str_eqb (long_string a) (long_string b)) (a =? b)%N)
     (map fst highlight_type_table)) (map fst highlight_type_table) = true)
    by (vm_compute; reflexivity).
  rewrite forallb_forall in H. apply H in Ht. rewrite forallb_forall in Ht. apply Ht in Hu.
  rewrite E, str_eqb_refl in Hu. now apply N.eqb_eq.
Qed.
