(** * Exact effects of highlighter steps on pieces whose ftokens may be joined (as L_Does) *)
From Coq Require Import List NArith Bool Arith Lia.
From Verif Require Import M_Base L_Base M_Emit S_Ops M_Highlighter L_Highlighter L_Auto S_Lexemes L_Lexemes S_LexemesForced.
Import ListNotations.

Lemma ftext_app a b : ftext (a ++ b) = ftext a ++ ftext b.
Proof. unfold ftext. rewrite map_app, concat_app. reflexivity. Qed.
Lemma ftext_cons t h l : ftext ((t, h) :: l) = t ++ ftext l.
Proof. reflexivity. Qed.
Lemma ftokens_app a : forall i b, ftokens i (a ++ b) = ftokens i a ++ ftokens (i + length (ftext a)) b.
Proof.
  induction a as [|[t [[h f]|]] a IH]; intros i b; cbn [app ftokens].
  - change (ftext []) with (@nil N). cbn [length]. rewrite Nat.add_0_r. reflexivity.
  - rewrite IH, ftext_cons, app_length, Nat.add_assoc. reflexivity.
  - rewrite IH, ftext_cons, app_length, Nat.add_assoc. reflexivity.
Qed.

(** In state [s], before the ftext of [p] and then [rest], the step [m] consumes the ftext of [p], emits its ftokens, and gives [x] and state [s']. *)
Definition fdoes {S A} (m : M S A) (s : S) (p : list fpiece) (rest : str) (x : A) (s' : S) : Prop :=
  forall i o, wp m (fun b st' => b = x /\ st' = mk_hst rest (i + length (ftext p)) (rev (ftokens i p) ++ o) s') (mk_hst (ftext p ++ rest) i o s).

Section fdoes.
Context {S : Type}.
Implicit Types (s : S) (p q : list fpiece) (rest : str).

Lemma fdoes_bind {A B} (m : M S A) (k : A -> M S B) s p q rest x s1 y s2 :
  fdoes m s p (ftext q ++ rest) x s1 -> fdoes (k x) s1 q rest y s2 -> fdoes (bindM m k) s (p ++ q) rest y s2.
Proof.
  intros H1 H2 i o. rewrite ftext_app, <- app_assoc. apply wp_bind. eapply wp_mono; [apply H1|]. cbn beta. intros ? ? [-> ->]. eapply wp_mono; [apply H2|]. cbn beta. intros ? ? [-> ->].
  split; [reflexivity|]. rewrite ftokens_app, rev_app_distr, app_length, Nat.add_assoc, <- app_assoc. reflexivity.
Qed.
Lemma fdoes_cons {A B} (m : M S A) (k : A -> M S B) s t q rest x s1 y s2 :
  fdoes m s [t] (ftext q ++ rest) x s1 -> fdoes (k x) s1 q rest y s2 -> fdoes (bindM m k) s (t :: q) rest y s2.
Proof. apply (fdoes_bind m k s [t] q). Qed.
Lemma fdoes_nil {A B} (m : M S A) (k : A -> M S B) s q rest x s1 y s2 :
  fdoes m s [] (ftext q ++ rest) x s1 -> fdoes (k x) s1 q rest y s2 -> fdoes (bindM m k) s q rest y s2.
Proof. apply (fdoes_bind m k s [] q). Qed.
Lemma fdoes_last {A B} (m : M S A) (k : A -> M S B) s p rest x s1 y s2 :
  fdoes m s p rest x s1 -> fdoes (k x) s1 [] rest y s2 -> fdoes (bindM m k) s p rest y s2.
Proof. intros H1 H2. rewrite <- (app_nil_r p). eapply fdoes_bind; [|exact H2]. exact H1. Qed.
Lemma fdoes_ret {A} (x : A) s rest : fdoes (ret x) s [] rest x s.
Proof. intros i o. apply wp_ret. cbn [ftext map concat length ftokens rev app]. rewrite Nat.add_0_r. split; reflexivity. Qed.
Lemma fdoes_get {B} (k : str -> M S B) s p rest y s' : fdoes (k (ftext p ++ rest)) s p rest y s' -> fdoes (bindM get_rem k) s p rest y s'.
Proof. intros H i o. apply wp_bind, wp_get_rem. cbn [rem]. apply H. Qed.
Lemma fdoes_eof {B} (k : bool -> M S B) s p rest y s' : ftext p ++ rest <> [] -> fdoes (k false) s p rest y s' -> fdoes (bindM eof k) s p rest y s'.
Proof. intros N H i o. apply wp_bind. apply wp_eof; cbn [rem]; [contradiction|]. intros _. apply H. Qed.
Lemma fdoes_eof_end {B} (k : bool -> M S B) s y s' : fdoes (k true) s [] [] y s' -> fdoes (bindM eof k) s [] [] y s'.
Proof. intros H i o. apply wp_bind. apply wp_eof; cbn [rem]; [|intros E; elim E; reflexivity]. intros _. apply H. Qed.
Lemma fdoes_get_loc {B} (k : S -> M S B) s p rest y s' : fdoes (k s) s p rest y s' -> fdoes (bindM get_loc k) s p rest y s'.
Proof. intros H i o. exact (H i o). Qed.
Lemma fdoes_set_loc {B} (k : unit -> M S B) s s1 p rest y s' : fdoes (k tt) s1 p rest y s' -> fdoes (bindM (set_loc s1) k) s p rest y s'.
Proof. intros H i o. apply wp_bind, wp_set_loc_exact. apply H. Qed.
Lemma fdoes_lift {A B} (r : res A) (a : A) (k : A -> M S B) s p rest y s' : r = Ok a -> fdoes (k a) s p rest y s' -> fdoes (bindM (lift r) k) s p rest y s'.
Proof. intros E H i o. apply wp_bind. eapply wp_lift; [exact E|]. apply H. Qed.
Lemma fdoes_check {B} b f (k : unit -> M S B) s p rest y s' : b = true -> fdoes (k tt) s p rest y s' -> fdoes (bindM (checkM b f) k) s p rest y s'.
Proof. intros E H i o. apply wp_bind, wp_check; [exact E|]. apply H. Qed.
Lemma fdoes_at {B} r n c (k : N -> M S B) s p rest y s' : nth_error r n = Some c -> fdoes (k c) s p rest y s' -> fdoes (bindM (at_ r n) k) s p rest y s'.
Proof. intros E H i o. apply wp_bind. eapply wp_at_is; [exact E|]. apply H. Qed.
Lemma fdoes_substr {B} r n (k : str -> M S B) s p rest y s' : n <= length r -> fdoes (k (skipn n r)) s p rest y s' -> fdoes (bindM (substr_from r n) k) s p rest y s'.
Proof. intros E H i o. apply wp_bind, wp_substr_from; [exact E|]. apply H. Qed.
Lemma fdoes_emit_c f w n h s rest : n = length w -> w <> [] -> fdoes (emit_and_advance_c f n h) s [(w, Some (h, f))] rest tt s.
Proof.
  intros -> L i o. assert (ftext [(w, Some (h, f))] = w) as E by (cbn; apply app_nil_r). rewrite E. apply wp_emit_exact; [destruct w; [congruence|]; rewrite app_length; cbn; lia|]. rewrite skipn_app_exact. split; reflexivity.
Qed.
Lemma fdoes_emit w n h s rest : n = length w -> w <> [] -> fdoes (emit_and_advance n h) s [alone w h] rest tt s.
Proof. exact (fdoes_emit_c false w n h s rest). Qed.
Lemma fdoes_advance w n s rest : n = length w -> fdoes (advance n) s [(w, None)] rest tt s.
Proof.
  intros -> i o. assert (ftext [(w, @None (N * bool))] = w) as E by (cbn; apply app_nil_r). rewrite E. apply wp_advance_exact; [rewrite app_length; lia|]. rewrite skipn_app_exact. split; reflexivity.
Qed.
Lemma fdoes_when {b} (m : M S unit) s p rest s' : (b = true -> fdoes m s p rest tt s') -> (b = false -> p = [] /\ s' = s) -> fdoes (when b m) s p rest tt s'.
Proof. intros H1 H2. destruct b; [apply H1; reflexivity|]. destruct (H2 eq_refl) as [-> ->]. apply fdoes_ret. Qed.
Lemma fdoes_opt w n h s rest : n = length w -> fdoes (when (negb (n =? 0)) (emit_and_advance n h)) s (fopt w h) rest tt s.
Proof. intros ->. destruct w as [|c w]; [apply fdoes_ret|]. cbn [length Nat.eqb negb when fopt]. apply fdoes_emit; [reflexivity|discriminate]. Qed.
Lemma fdoes_opt_c w n h s rest : n = length w -> fdoes (when (negb (n =? 0)) (emit_and_advance_c true n h)) s (fopt_joined w h) rest tt s.
Proof. intros ->. destruct w as [|c w]; [apply fdoes_ret|]. cbn [length Nat.eqb negb when fopt_joined]. apply fdoes_emit_c; [reflexivity|discriminate]. Qed.

(** Only texts and ftokens matter. *)
Lemma fdoes_same {A} (m : M S A) s p q rest x s' : ftext p = ftext q -> (forall i, ftokens i p = ftokens i q) -> fdoes m s p rest x s' -> fdoes m s q rest x s'.
Proof. intros E1 E2 H i o. rewrite <- E1, <- E2. apply H. Qed.
Lemma fdoes_join {A} (m : M S A) s a b p rest x s' : fdoes m s ((a, None) :: (b, None) :: p) rest x s' <-> fdoes m s ((a ++ b, None) :: p) rest x s'.
Proof.
  assert (E1 : ftext ((a, None) :: (b, None) :: p) = ftext ((a ++ b, None) :: p)) by (rewrite !ftext_cons, app_assoc; reflexivity).
  assert (E2 : forall i, ftokens i ((a, None) :: (b, None) :: p) = ftokens i ((a ++ b, None) :: p)) by (intros i; cbn [ftokens]; rewrite app_length, Nat.add_assoc; reflexivity).
  split; apply fdoes_same; auto.
Qed.
(** Loops *)
Inductive fiterates {A B} (body : A -> M S (A + B)) (b : B) (rest : str) (s' : S) : A -> S -> list fpiece -> Prop :=
| fiterates_end a s p : fdoes (body a) s p rest (inr b) s' -> fiterates body b rest s' a s p
| fiterates_more a s p a1 s1 q : fdoes (body a) s p (ftext q ++ rest) (inl a1) s1 -> ftext p <> [] -> fiterates body b rest s' a1 s1 q -> fiterates body b rest s' a s (p ++ q).
Lemma fdoes_loop {A B} c (body : A -> M S (A + B)) a s p rest b s' : fiterates body b rest s' a s p -> fdoes (hloop (Datatypes.S c) body a) s p rest b s'.
Proof.
  intros Hp i o.
  apply wp_hloop with (mu := fun _ st' => length (rem st'))
    (Inv := fun a1 st' => exists s1 q, fiterates body b rest s' a1 s1 q /\ rem st' = ftext q ++ rest /\ loc st' = s1 /\ idx st' + length (ftext q) = i + length (ftext p)
       /\ rev (ftokens (idx st') q) ++ rops st' = rev (ftokens i p) ++ o).
  - exists s, p. repeat split; auto.
  - lia.
  - intros a1 [r j o1 s2] (s1 & q & C & R & L & I & T). cbn [rem idx rops loc] in *. subst r s2. destruct C as [a1 s1 q H|a1 s1 q a2 s2 q2 H N C].
    + eapply wp_mono; [apply H|]. cbn beta. intros ? ? [-> ->]. split; [reflexivity|]. rewrite I, T. reflexivity.
    + rewrite ftext_app, <- app_assoc. eapply wp_mono; [apply H|]. cbn beta. intros ? ? [-> ->]. cbn [rem]. split.
      * exists s2, q2. cbn [rem idx rops loc]. rewrite ftext_app, app_length in I. repeat split; auto; [lia|]. rewrite <- T, ftokens_app, rev_app_distr, <- app_assoc. reflexivity.
      * rewrite !app_length. destruct (ftext q); [congruence|]. cbn [length]. lia.
Qed.
(** Loops that look for the end of a run before they consume it *)
Inductive fscans {B} (body : nat -> M S (nat + B)) (b : B) (rest : str) (s' : S) : nat -> S -> list fpiece -> Prop :=
| fscans_end a s p : fdoes (body a) s p rest (inr b) s' -> fscans body b rest s' a s p
| fscans_step a s p : a < length (ftext p ++ rest) -> fdoes (body a) s [] (ftext p ++ rest) (inl (a + 1)) s -> fscans body b rest s' (a + 1) s p -> fscans body b rest s' a s p
| fscans_more a s p a1 s1 q : fdoes (body a) s p (ftext q ++ rest) (inl a1) s1 -> a < length (ftext p) -> fscans body b rest s' a1 s1 q -> fscans body b rest s' a s (p ++ q).
Lemma fscans_run {B} (body : nat -> M S (nat + B)) b rest s' s p m : forall a, a <= m -> m <= length (ftext p ++ rest) ->
  (forall k, a <= k < m -> fdoes (body k) s [] (ftext p ++ rest) (inl (k + 1)) s) -> fscans body b rest s' m s p -> fscans body b rest s' a s p.
Proof.
  intros a La Lm. remember (m - a) as d eqn:Ed. revert a La Ed. induction d as [|d IH]; intros a La Ed H Hm; [replace a with m by lia; exact Hm|].
  apply fscans_step; [lia|apply H; lia|]. apply IH; [lia|lia| |exact Hm]. intros k Hk. apply H. lia.
Qed.
Lemma fdoes_scan {B} c (body : nat -> M S (nat + B)) a s p rest b s' : fscans body b rest s' a s p -> fdoes (hloop (Datatypes.S c) body a) s p rest b s'.
Proof.
  intros Hp i o.
  apply wp_hloop with (mu := fun a1 st' => length (rem st') - a1)
    (Inv := fun a1 st' => exists s1 q, fscans body b rest s' a1 s1 q /\ rem st' = ftext q ++ rest /\ loc st' = s1 /\ idx st' + length (ftext q) = i + length (ftext p)
       /\ rev (ftokens (idx st') q) ++ rops st' = rev (ftokens i p) ++ o).
  - exists s, p. repeat split; auto.
  - lia.
  - intros a1 [r j o1 s2] (s1 & q & C & R & L & I & T). cbn [rem idx rops loc] in *. subst r s2. destruct C as [a1 s1 q H|a1 s1 q N H C|a1 s1 q a2 s2 q2 H N C].
    + eapply wp_mono; [apply H|]. cbn beta. intros ? ? [-> ->]. split; [reflexivity|]. rewrite I, T. reflexivity.
    + eapply wp_mono; [apply (H j o1)|]. cbn beta. intros ? ? [-> ->]. cbn [rem]. split; [|lia].
      exists s1, q. cbn [rem idx rops loc ftext map concat length ftokens rev app]. rewrite Nat.add_0_r. repeat split; auto.
    + rewrite ftext_app, <- app_assoc. eapply wp_mono; [apply H|]. cbn beta. intros ? ? [-> ->]. cbn [rem]. split.
      * exists s2, q2. cbn [rem idx rops loc]. rewrite ftext_app, app_length in I. repeat split; auto; [lia|]. rewrite <- T, ftokens_app, rev_app_distr, <- app_assoc. reflexivity.
      * rewrite !app_length. lia.
Qed.
End fdoes.
