(** * CSS numbers are matched exactly (C68). *)
From Coq Require Import List NArith ZArith Bool Arith Lia.
From Verif Require Import M_Base L_Base M_Chars S_Parse M_Parse L_Parse M_LangCss S_LangCss.
Import ListNotations.

Definition nd (s : str) : nat := prefix_len is_ascii_digit s.
Definition frac (s : str) : nat :=
  match s with c :: d :: t => if (c =? 46)%N && is_ascii_digit d then 2 + nd t else 0 | _ => 0 end.
Definition expo (s : str) : nat :=
  match s with
  | c :: t => if (c =? 101)%N || (c =? 69)%N then
      if unit_is (fun c => (c =? 43)%N || (c =? 45)%N) t 0 && unit_is is_ascii_digit t 1 then 3 + nd (skipn 2 t)
      else if unit_is is_ascii_digit t 0 then 2 + nd (skipn 1 t) else 0
    else 0
  | [] => 0
  end.
Definition sgn (s : str) : nat := if starts_with_ch s 43 || starts_with_ch s 45 then 1 else 0.

Lemma unit_skip p s n k : unit_is p (skipn n s) k = unit_is p s (n + k).
Proof.
  unfold unit_is. revert s. induction n as [|n IH]; intros s; [reflexivity|]. destruct s; cbn [skipn Nat.add nth_error]; [destruct k; reflexivity|apply IH].
Qed.

Lemma unit_cons p x t k : unit_is p (x :: t) (S k) = unit_is p t k.
Proof. reflexivity. Qed.

Lemma number_eq s : css_match_number s =
  let a := sgn s in let b := a + nd (skipn a s) in let c := b + frac (skipn b s) in c + expo (skipn c s).
Proof.
  unfold css_match_number. change (ch "+") with 43%N. change (ch "-") with 45%N. change (ch ".") with 46%N. change (ch "e") with 101%N. change (ch "E") with 69%N.
  fold (sgn s). cbv zeta.
  assert (DG : forall k, css_digits s k = k + nd (skipn k s)) by (intros k; unfold css_digits; rewrite length_if_eq; reflexivity).
  rewrite (DG (sgn s)). set (b := sgn s + nd (skipn (sgn s) s)).
  assert (FR : (if unit_is (fun c => (c =? 46)%N) s b && unit_is is_ascii_digit s (b + 1) then css_digits s (b + 2) else b) = b + frac (skipn b s)).
  { replace b with (b + 0) at 1 by lia. rewrite <- !unit_skip, DG, <- skipn_skipn.
    destruct (skipn b s) as [|x [|y t]]; unfold unit_is; cbn [nth_error frac skipn andb]; [lia|rewrite andb_false_r; lia|].
    destruct ((x =? 46)%N && is_ascii_digit y); lia. }
  rewrite FR. set (c := b + frac (skipn b s)).
  replace (unit_is (fun c0 : N => ((c0 =? 101) || (c0 =? 69))%N) s c) with (unit_is (fun c0 : N => ((c0 =? 101) || (c0 =? 69))%N) s (c + 0)) by (f_equal; lia).
  rewrite <- !unit_skip, !DG, <- !skipn_skipn. destruct (skipn c s) as [|x t]; [unfold unit_is; cbn [nth_error expo]; lia|].
  change (skipn 3 (x :: t)) with (skipn 2 t). change (skipn 2 (x :: t)) with (skipn 1 t). unfold expo.
  change (unit_is ?p (x :: t) 0) with (p x). cbv beta.
  destruct ((x =? 101)%N || (x =? 69)%N); [|lia].
  rewrite !unit_cons.
  clear FR. destruct (_ && _); [lia|]. destruct (unit_is _ t 0); lia.
Qed.

Lemma digit_iff c : is_ascii_digit c = true <-> css_digit c.
Proof. unfold is_ascii_digit, between, css_digit. rewrite andb_true_iff, !N.leb_le. reflexivity. Qed.
Lemma nd_le s : nd s <= length s. Proof. apply prefix_len_le. Qed.
Lemma nd_digits s : Forall css_digit (firstn (nd s) s).
Proof. eapply Forall_impl; [|apply (prefix_len_firstn_Forall is_ascii_digit s); unfold nd; lia]. intros c; apply digit_iff. Qed.
(** Digits at the front of [s] are counted, and when there are fewer of them than counted, another follows. *)
Lemma nd_app d t : Forall css_digit d -> length d <= nd (d ++ t) /\ (nd (d ++ t) = length d + nd t).
Proof.
  intros F. assert (E : nd (d ++ t) = length d + nd t); [|lia]. unfold nd. induction F as [|c d Hc _ IH]; [reflexivity|].
  cbn [app prefix_len length]. apply digit_iff in Hc. rewrite Hc, IH. reflexivity.
Qed.
Lemma not_digit_nd c t : ~ css_digit c -> nd (c :: t) = 0.
Proof. intros H. unfold nd. cbn [prefix_len]. destruct (is_ascii_digit c) eqn:E; [apply digit_iff in E; contradiction|reflexivity]. Qed.

Lemma frac_le s : frac s <= length s /\ (firstn (frac s) s = [] \/ css_fraction (firstn (frac s) s)).
Proof.
  unfold frac. destruct s as [|c [|d t]]; [cbn; auto with arith|cbn; auto with arith|].
  destruct ((c =? 46)%N && is_ascii_digit d) eqn:E; [|cbn; auto with arith].
  apply andb_true_iff in E as [E1 E2]. apply N.eqb_eq in E1. subst c. apply digit_iff in E2. pose proof (nd_le t). cbn [length firstn Nat.add]. split; [lia|].
  right. eexists. split; [reflexivity|]. split; [discriminate|]. constructor; [exact E2|apply nd_digits].
Qed.
Lemma expo_le s : expo s <= length s /\ (firstn (expo s) s = [] \/ css_exponent (firstn (expo s) s)).
Proof.
  unfold expo. destruct s as [|c t]; [cbn; auto with arith|].
  destruct ((c =? 101)%N || (c =? 69)%N) eqn:E; [|cbn; auto with arith]. apply orb_true_iff in E. rewrite !N.eqb_eq in E.
  destruct (unit_is (fun c => (c =? 43)%N || (c =? 45)%N) t 0 && unit_is is_ascii_digit t 1) eqn:E2.
  - apply andb_true_iff in E2 as [E2 E3]. destruct t as [|g [|d t]]; try discriminate. unfold unit_is in E2, E3. cbn [nth_error] in E2, E3.
    cbn [skipn]. pose proof (nd_le t). cbn [length firstn Nat.add]. split; [lia|]. right. exists c, [g], (d :: firstn (nd t) t).
    split; [reflexivity|]. split; [exact E|]. split; [|split; [discriminate|constructor; [apply digit_iff; exact E3|apply nd_digits]]].
    apply orb_true_iff in E2. rewrite !N.eqb_eq in E2. unfold css_sign. destruct E2 as [->| ->]; auto.
  - destruct (unit_is is_ascii_digit t 0) eqn:E3; [|cbn; auto with arith]. destruct t as [|d t]; [discriminate|]. unfold unit_is in E3. cbn [nth_error] in E3.
    cbn [skipn]. pose proof (nd_le t). cbn [length firstn Nat.add]. split; [lia|]. right. exists c, [], (d :: firstn (nd t) t).
    split; [reflexivity|]. split; [exact E|]. split; [left; reflexivity|split; [discriminate|constructor; [apply digit_iff; exact E3|apply nd_digits]]].
Qed.
Lemma expo_max e t : css_exponent e -> length e <= expo (e ++ t).
Proof.
  intros (c & g & d & -> & Hc & Hg & Hd & F). destruct d as [|d0 d]; [congruence|]. inversion F as [|? ? F0 F1]; subst.
  apply digit_iff in F0. unfold expo. cbn [app].
  assert (E : ((c =? 101)%N || (c =? 69)%N) = true) by (apply orb_true_iff; rewrite !N.eqb_eq; exact Hc). rewrite E.
  destruct (nd_app d t F1) as [L _].
  assert (X : forall g0, (g0 = 43 \/ g0 = 45)%N -> length (c :: [g0] ++ d0 :: d) <=
    (if unit_is (fun c0 : N => ((c0 =? 43) || (c0 =? 45))%N) (([g0] ++ d0 :: d) ++ t) 0 && unit_is is_ascii_digit (([g0] ++ d0 :: d) ++ t) 1
    then 3 + nd (skipn 2 (([g0] ++ d0 :: d) ++ t)) else if unit_is is_ascii_digit (([g0] ++ d0 :: d) ++ t) 0
    then 2 + nd (skipn 1 (([g0] ++ d0 :: d) ++ t)) else 0)).
  { intros g0 Hg0. unfold unit_is. cbn [app nth_error skipn]. rewrite F0. assert (E0 : ((g0 =? 43) || (g0 =? 45))%N = true) by (apply orb_true_iff; rewrite !N.eqb_eq; exact Hg0).
    rewrite E0. cbn [andb length]. lia. }
  destruct Hg as [->|[->| ->]]; [|apply X; auto|apply X; auto].
  unfold unit_is. cbn [app nth_error skipn]. rewrite F0.
  assert (E0 : ((d0 =? 43) || (d0 =? 45))%N = false).
  { apply digit_iff in F0. unfold css_digit in F0. apply orb_false_iff. rewrite !N.eqb_neq. lia. }
  rewrite E0. cbn [andb length]. lia.
Qed.

(** What comes after the digits: a fraction or none, an exponent or none. *)
Lemma tail_max f e t : (f = [] \/ css_fraction f) -> (e = [] \/ css_exponent e) ->
  let s := f ++ e ++ t in length f + length e <= frac s + expo (skipn (frac s) s).
Proof.
  intros [->|(d & -> & Hd & F)] He; cbn [app].
  - destruct He as [->|He]; [cbn; lia|]. pose proof (expo_max e t He) as L. destruct He as (c & g & d & -> & Hc & _).
    assert (Z : frac ((c :: g ++ d) ++ t) = 0).
    { unfold frac. cbn [app]. destruct ((g ++ d) ++ t); [reflexivity|]. assert (E : (c =? 46)%N = false) by (apply N.eqb_neq; lia). rewrite E. reflexivity. }
    cbv zeta. rewrite Z. cbn [skipn length Nat.add] in *. exact L.
  - destruct d as [|d0 d]; [congruence|]. inversion F as [|? ? F0 F1]; subst. apply digit_iff in F0. cbv zeta.
    assert (Z : frac (46%N :: (d0 :: d) ++ e ++ t) = 2 + length d + nd (e ++ t)).
    { unfold frac. cbn [app]. rewrite N.eqb_refl, F0. cbn [andb]. rewrite (proj2 (nd_app d (e ++ t) F1)). lia. }
    rewrite Z. destruct He as [->|He]; [cbn [length]; lia|]. pose proof (expo_max e t He) as L.
    assert (Z2 : nd (e ++ t) = 0).
    { destruct He as (c & g & d1 & -> & Hc & _). cbn [app]. apply not_digit_nd. unfold css_digit. lia. }
    rewrite Z2, Nat.add_0_r. cbn [Nat.add skipn app]. rewrite skipn_app_exact. cbn [length]. lia.
Qed.

Lemma starts_iff s : css_starts_with_number s = true <-> 0 < nd (skipn (sgn s) s) + frac (skipn (sgn s) s).
Proof.
  unfold css_starts_with_number, sgn. change (ch "+") with 43%N. change (ch "-") with 45%N. change (ch ".") with 46%N.
  set (u := if starts_with_ch s 43 || starts_with_ch s 45 then skipn 1 s else s).
  replace (skipn (if starts_with_ch s 43 || starts_with_ch s 45 then 1 else 0) s) with u by (subst u; destruct (_ || _); reflexivity).
  clearbody u. destruct u as [|c u]; [cbn; split; [discriminate|lia]|]. unfold nd. cbn [prefix_len frac].
  destruct (is_ascii_digit c) eqn:E; cbn [orb]; [split; [lia|reflexivity]|]. destruct u as [|d u]; [rewrite andb_false_r; split; [discriminate|lia]|].
  destruct ((c =? 46)%N && is_ascii_digit d); split; try discriminate; try reflexivity; lia.
Qed.

Lemma firstn_add_app {A} (l : list A) a b : firstn (a + b) l = firstn a l ++ firstn b (skipn a l).
Proof. revert l. induction a as [|a IH]; intros l; [reflexivity|]. destruct l; [destruct b; reflexivity|]. cbn. now rewrite IH. Qed.

Lemma number_valid s : css_starts_with_number s = true -> css_match_number s <= length s /\ css_number_text (firstn (css_match_number s) s).
Proof.
  intros H. apply starts_iff in H. rewrite number_eq. cbv zeta. set (a := sgn s) in *. set (n := nd (skipn a s)) in *.
  set (f := frac (skipn (a + n) s)). set (x := expo (skipn (a + n + f) s)).
  assert (La : a <= length s /\ css_sign (firstn a s)).
  { unfold a, sgn, starts_with_ch. destruct s as [|c s]; [cbn; split; [lia|left; reflexivity]|].
    destruct ((c =? 43)%N || (c =? 45)%N) eqn:E; cbn [firstn length]; [|split; [lia|left; reflexivity]]. split; [lia|].
    apply orb_true_iff in E. rewrite !N.eqb_eq in E. unfold css_sign. destruct E as [->| ->]; auto. }
  destruct La as [La Sg]. pose proof (nd_le (skipn a s)) as Ln. fold n in Ln. rewrite skipn_length in Ln.
  pose proof (frac_le (skipn (a + n) s)) as [Lf Ff]. fold f in Lf, Ff. rewrite skipn_length in Lf.
  pose proof (expo_le (skipn (a + n + f) s)) as [Lx Fx]. fold x in Lx, Fx. rewrite skipn_length in Lx.
  split; [lia|]. replace (a + n + f + x) with (a + (n + (f + x))) by lia. rewrite !firstn_add_app, !skipn_skipn.
  exists (firstn a s), (firstn n (skipn a s)), (firstn f (skipn (a + n) s)), (firstn x (skipn (a + n + f) s)).
  split; [repeat f_equal; lia|]. split; [exact Sg|]. split; [apply nd_digits|]. split; [exact Ff|]. split; [exact Fx|].
  destruct (Nat.eq_dec n 0) as [Z|Z].
  - right. assert (X : f = frac (skipn a s)) by (unfold f; rewrite Z, Nat.add_0_r; reflexivity).
    intros E. apply (f_equal (@length N)) in E. rewrite firstn_length, skipn_length in E. cbn [length] in E. lia.
  - left. intros E. apply (f_equal (@length N)) in E. rewrite firstn_length, skipn_length in E. cbn [length] in E. lia.
Qed.

Lemma number_max e t : css_number_text e -> css_starts_with_number (e ++ t) = true /\ length e <= css_match_number (e ++ t).
Proof.
  intros (g & i & f & x & -> & Hg & Hi & Hf & Hx & Hn). rewrite starts_iff, number_eq. cbv zeta.
  set (s := (g ++ i ++ f ++ x) ++ t).
  assert (Es : s = g ++ i ++ f ++ x ++ t) by (subst s; rewrite <- !app_assoc; reflexivity).
  assert (Sg : sgn s = length g).
  { rewrite Es. destruct Hg as [->|[->| ->]]; [|reflexivity|reflexivity]. cbn [app length]. unfold sgn, starts_with_ch.
    destruct (i ++ f ++ x ++ t) as [|c u] eqn:E; [reflexivity|].
    assert (X : css_digit c \/ c = 46%N).
    { destruct i as [|c0 i]; cbn [app] in E; [|injection E as -> _; left; inversion Hi; assumption].
      destruct Hf as [->|(d & -> & _)]; [destruct Hn; congruence|]. cbn [app] in E. injection E as <- _. right; reflexivity. }
    unfold css_digit in X. assert (E1 : (c =? 43)%N = false) by (apply N.eqb_neq; lia). assert (E2 : (c =? 45)%N = false) by (apply N.eqb_neq; lia).
    rewrite E1, E2. reflexivity. }
  rewrite Sg, Es. rewrite skipn_app_exact. destruct (nd_app i (f ++ x ++ t) Hi) as [_ N1]. rewrite N1.
  pose proof (tail_max f x t Hf Hx) as T. cbv zeta in T. set (r := f ++ x ++ t) in *.
  replace (skipn (length g + (length i + nd r)) (g ++ i ++ r)) with (skipn (nd r) r).
  2: { rewrite <- !skipn_skipn, !skipn_app_exact. reflexivity. }
  replace (skipn (length g + (length i + nd r) + frac (skipn (nd r) r)) (g ++ i ++ r)) with (skipn (nd r + frac (skipn (nd r) r)) r).
  2: { rewrite <- !Nat.add_assoc. rewrite <- (skipn_skipn (_ + (_ + _)) (length g)), skipn_app_exact, <- (skipn_skipn (_ + _) (length i)), skipn_app_exact. reflexivity. }
  rewrite !app_length. destruct (Nat.eq_dec (nd r) 0) as [Z|Z].
  - rewrite Z in *. cbn [skipn Nat.add] in *. rewrite Nat.add_0_r. split; [|lia].
    destruct i as [|c0 i]; [cbn [app length]|cbn [length]; lia]. destruct Hf as [->|(d & -> & Hd & F)]; [destruct Hn; congruence|].
    destruct d as [|d0 d]; [congruence|]. unfold r. cbn [app frac]. inversion F as [|? ? F0 F1]; subst. apply digit_iff in F0. rewrite F0, N.eqb_refl. cbn [andb]. lia.
  - assert (f = [] /\ x = []) as [-> ->].
    { destruct Hf as [->|(d & -> & _)]; [|exfalso; apply Z; apply not_digit_nd; unfold css_digit; lia]. split; [reflexivity|].
      destruct Hx as [->|(c & g' & d & -> & Hc & _)]; [reflexivity|exfalso; apply Z; apply not_digit_nd; unfold css_digit; lia]. }
    cbn [length]. split; lia.
Qed.

(** ** C68 *)
(** The check for a number and the length of the number agree with the CSS grammar: a number is
    recognised iff one starts there, and what is taken is the longest one. *)
Theorem C68_css_number : forall s,
  (css_starts_with_number s = true <-> exists e t, s = e ++ t /\ css_number_text e)
  /\ (css_starts_with_number s = true ->
      css_match_number s <= length s /\ longest_prefix css_number_text s (firstn (css_match_number s) s)).
Proof.
  intros s. split.
  - split; [intros H|intros (e & t & -> & He); apply (number_max e t He)].
    exists (firstn (css_match_number s) s), (skipn (css_match_number s) s). split; [symmetry; apply firstn_skipn|apply number_valid; exact H].
  - intros H. destruct (number_valid s H) as [L V]. split; [exact L|]. split; [exists (skipn (css_match_number s) s); symmetry; apply firstn_skipn|].
    split; [exact V|]. intros e t -> He. rewrite firstn_length_le by exact L. apply (number_max e t He).
Qed.
Print Assumptions C68_css_number.

Example C68_case : css_starts_with_number (bs "-.5e+3em") = true /\ firstn (css_match_number (bs "-.5e+3em")) (bs "-.5e+3em") = bs "-.5e+3"
  /\ css_match_number (bs "1.e3") = 1 /\ css_match_number (bs "12em") = 2 /\ css_starts_with_number (bs "-.e1") = false.
Proof. vm_compute. auto. Qed.
