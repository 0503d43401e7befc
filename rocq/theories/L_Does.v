(** * Exact effects of highlighter steps on pieces *)
From Coq Require Import List NArith Bool Arith Lia.
From Verif Require Import M_Base L_Base M_Emit S_Ops M_Highlighter L_Highlighter L_Auto S_Lexemes L_Lexemes.
Import ListNotations.

(** In state [s], before the text of [p] and then [rest], the step [m] consumes the text of [p], emits its tokens, and gives [x] and state [s']. *)
Definition does {S A} (m : M S A) (s : S) (p : list piece) (rest : str) (x : A) (s' : S) : Prop :=
  forall i o, wp m (fun b st' => b = x /\ st' = mk_hst rest (i + length (text p)) (rev (tokens i p) ++ o) s') (mk_hst (text p ++ rest) i o s).

Section does.
Context {S : Type}.
Implicit Types (s : S) (p q : list piece) (rest : str).

Lemma does_bind {A B} (m : M S A) (k : A -> M S B) s p q rest x s1 y s2 :
  does m s p (text q ++ rest) x s1 -> does (k x) s1 q rest y s2 -> does (bindM m k) s (p ++ q) rest y s2.
Proof.
  intros H1 H2 i o. rewrite text_app, <- app_assoc. apply wp_bind. eapply wp_mono; [apply H1|]. cbn beta. intros ? ? [-> ->]. eapply wp_mono; [apply H2|]. cbn beta. intros ? ? [-> ->].
  split; [reflexivity|]. rewrite tokens_app, rev_app_distr, app_length, Nat.add_assoc, <- app_assoc. reflexivity.
Qed.
Lemma does_cons {A B} (m : M S A) (k : A -> M S B) s t q rest x s1 y s2 :
  does m s [t] (text q ++ rest) x s1 -> does (k x) s1 q rest y s2 -> does (bindM m k) s (t :: q) rest y s2.
Proof. apply (does_bind m k s [t] q). Qed.
Lemma does_nil {A B} (m : M S A) (k : A -> M S B) s q rest x s1 y s2 :
  does m s [] (text q ++ rest) x s1 -> does (k x) s1 q rest y s2 -> does (bindM m k) s q rest y s2.
Proof. apply (does_bind m k s [] q). Qed.
Lemma does_last {A B} (m : M S A) (k : A -> M S B) s p rest x s1 y s2 :
  does m s p rest x s1 -> does (k x) s1 [] rest y s2 -> does (bindM m k) s p rest y s2.
Proof. intros H1 H2. rewrite <- (app_nil_r p). eapply does_bind; [|exact H2]. exact H1. Qed.
Lemma does_ret {A} (x : A) s rest : does (ret x) s [] rest x s.
Proof. intros i o. apply wp_ret. cbn [text map concat length tokens rev app]. rewrite Nat.add_0_r. split; reflexivity. Qed.
Lemma does_get {B} (k : str -> M S B) s p rest y s' : does (k (text p ++ rest)) s p rest y s' -> does (bindM get_rem k) s p rest y s'.
Proof. intros H i o. apply wp_bind, wp_get_rem. cbn [rem]. apply H. Qed.
Lemma does_eof {B} (k : bool -> M S B) s p rest y s' : text p ++ rest <> [] -> does (k false) s p rest y s' -> does (bindM eof k) s p rest y s'.
Proof. intros N H i o. apply wp_bind. apply wp_eof; cbn [rem]; [contradiction|]. intros _. apply H. Qed.
Lemma does_eof_end {B} (k : bool -> M S B) s y s' : does (k true) s [] [] y s' -> does (bindM eof k) s [] [] y s'.
Proof. intros H i o. apply wp_bind. apply wp_eof; cbn [rem]; [|intros E; elim E; reflexivity]. intros _. apply H. Qed.
Lemma does_get_loc {B} (k : S -> M S B) s p rest y s' : does (k s) s p rest y s' -> does (bindM get_loc k) s p rest y s'.
Proof. intros H i o. exact (H i o). Qed.
Lemma does_set_loc {B} (k : unit -> M S B) s s1 p rest y s' : does (k tt) s1 p rest y s' -> does (bindM (set_loc s1) k) s p rest y s'.
Proof. intros H i o. apply wp_bind, wp_set_loc_exact. apply H. Qed.
Lemma does_lift {A B} (r : res A) (a : A) (k : A -> M S B) s p rest y s' : r = Ok a -> does (k a) s p rest y s' -> does (bindM (lift r) k) s p rest y s'.
Proof. intros E H i o. apply wp_bind. eapply wp_lift; [exact E|]. apply H. Qed.
Lemma does_check {B} b f (k : unit -> M S B) s p rest y s' : b = true -> does (k tt) s p rest y s' -> does (bindM (checkM b f) k) s p rest y s'.
Proof. intros E H i o. apply wp_bind, wp_check; [exact E|]. apply H. Qed.
Lemma does_at {B} r n c (k : N -> M S B) s p rest y s' : nth_error r n = Some c -> does (k c) s p rest y s' -> does (bindM (at_ r n) k) s p rest y s'.
Proof. intros E H i o. apply wp_bind. eapply wp_at_is; [exact E|]. apply H. Qed.
Lemma does_substr {B} r n (k : str -> M S B) s p rest y s' : n <= length r -> does (k (skipn n r)) s p rest y s' -> does (bindM (substr_from r n) k) s p rest y s'.
Proof. intros E H i o. apply wp_bind, wp_substr_from; [exact E|]. apply H. Qed.
Lemma does_emit w n h s rest : n = length w -> w <> [] -> does (emit_and_advance n h) s [(w, Some h)] rest tt s.
Proof.
  intros -> L i o. assert (text [(w, Some h)] = w) as E by (cbn; apply app_nil_r). rewrite E. apply wp_emit_exact; [destruct w; [congruence|]; rewrite app_length; cbn; lia|]. rewrite skipn_app_exact. split; reflexivity.
Qed.
Lemma does_advance w n s rest : n = length w -> does (advance n) s [(w, None)] rest tt s.
Proof.
  intros -> i o. assert (text [(w, @None N)] = w) as E by (cbn; apply app_nil_r). rewrite E. apply wp_advance_exact; [rewrite app_length; lia|]. rewrite skipn_app_exact. split; reflexivity.
Qed.
Lemma does_when {b} (m : M S unit) s p rest s' : (b = true -> does m s p rest tt s') -> (b = false -> p = [] /\ s' = s) -> does (when b m) s p rest tt s'.
Proof. intros H1 H2. destruct b; [apply H1; reflexivity|]. destruct (H2 eq_refl) as [-> ->]. apply does_ret. Qed.
Lemma does_opt w n h s rest : n = length w -> does (when (negb (n =? 0)) (emit_and_advance n h)) s (opt_piece w h) rest tt s.
Proof. intros ->. destruct w as [|c w]; [apply does_ret|]. cbn [length Nat.eqb negb when opt_piece]. apply does_emit; [reflexivity|discriminate]. Qed.

(** Only texts and tokens matter. *)
Lemma does_same {A} (m : M S A) s p q rest x s' : text p = text q -> (forall i, tokens i p = tokens i q) -> does m s p rest x s' -> does m s q rest x s'.
Proof. intros E1 E2 H i o. rewrite <- E1, <- E2. apply H. Qed.
Lemma does_join {A} (m : M S A) s a b p rest x s' : does m s ((a, None) :: (b, None) :: p) rest x s' <-> does m s ((a ++ b, None) :: p) rest x s'.
Proof.
  assert (E1 : text ((a, None) :: (b, None) :: p) = text ((a ++ b, None) :: p)) by (rewrite !text_cons, app_assoc; reflexivity).
  assert (E2 : forall i, tokens i ((a, None) :: (b, None) :: p) = tokens i ((a ++ b, None) :: p)) by (intros i; cbn [tokens]; rewrite app_length, Nat.add_assoc; reflexivity).
  split; apply does_same; auto.
Qed.
(** Loops *)
Inductive iterates {A B} (body : A -> M S (A + B)) (b : B) (rest : str) (s' : S) : A -> S -> list piece -> Prop :=
| iterates_end a s p : does (body a) s p rest (inr b) s' -> iterates body b rest s' a s p
| iterates_more a s p a1 s1 q : does (body a) s p (text q ++ rest) (inl a1) s1 -> text p <> [] -> iterates body b rest s' a1 s1 q -> iterates body b rest s' a s (p ++ q).
Lemma does_loop {A B} c (body : A -> M S (A + B)) a s p rest b s' : iterates body b rest s' a s p -> does (hloop (Datatypes.S c) body a) s p rest b s'.
Proof.
  intros Hp i o.
  apply wp_hloop with (mu := fun _ st' => length (rem st'))
    (Inv := fun a1 st' => exists s1 q, iterates body b rest s' a1 s1 q /\ rem st' = text q ++ rest /\ loc st' = s1 /\ idx st' + length (text q) = i + length (text p)
       /\ rev (tokens (idx st') q) ++ rops st' = rev (tokens i p) ++ o).
  - exists s, p. repeat split; auto.
  - lia.
  - intros a1 [r j o1 s2] (s1 & q & C & R & L & I & T). cbn [rem idx rops loc] in *. subst r s2. destruct C as [a1 s1 q H|a1 s1 q a2 s2 q2 H N C].
    + eapply wp_mono; [apply H|]. cbn beta. intros ? ? [-> ->]. split; [reflexivity|]. rewrite I, T. reflexivity.
    + rewrite text_app, <- app_assoc. eapply wp_mono; [apply H|]. cbn beta. intros ? ? [-> ->]. cbn [rem]. split.
      * exists s2, q2. cbn [rem idx rops loc]. rewrite text_app, app_length in I. repeat split; auto; [lia|]. rewrite <- T, tokens_app, rev_app_distr, <- app_assoc. reflexivity.
      * rewrite !app_length. destruct (text q); [congruence|]. cbn [length]. lia.
Qed.
(** Loops that look for the end of a run before they consume it *)
Inductive scans {B} (body : nat -> M S (nat + B)) (b : B) (rest : str) (s' : S) : nat -> S -> list piece -> Prop :=
| scans_end a s p : does (body a) s p rest (inr b) s' -> scans body b rest s' a s p
| scans_step a s p : a < length (text p ++ rest) -> does (body a) s [] (text p ++ rest) (inl (a + 1)) s -> scans body b rest s' (a + 1) s p -> scans body b rest s' a s p
| scans_more a s p a1 s1 q : does (body a) s p (text q ++ rest) (inl a1) s1 -> a < length (text p) -> scans body b rest s' a1 s1 q -> scans body b rest s' a s (p ++ q).
Lemma scans_run {B} (body : nat -> M S (nat + B)) b rest s' s p m : forall a, a <= m -> m <= length (text p ++ rest) ->
  (forall k, a <= k < m -> does (body k) s [] (text p ++ rest) (inl (k + 1)) s) -> scans body b rest s' m s p -> scans body b rest s' a s p.
Proof.
  intros a La Lm. remember (m - a) as d eqn:Ed. revert a La Ed. induction d as [|d IH]; intros a La Ed H Hm; [replace a with m by lia; exact Hm|].
  apply scans_step; [lia|apply H; lia|]. apply IH; [lia|lia| |exact Hm]. intros k Hk. apply H. lia.
Qed.
Lemma does_scan {B} c (body : nat -> M S (nat + B)) a s p rest b s' : scans body b rest s' a s p -> does (hloop (Datatypes.S c) body a) s p rest b s'.
Proof.
  intros Hp i o.
  apply wp_hloop with (mu := fun a1 st' => length (rem st') - a1)
    (Inv := fun a1 st' => exists s1 q, scans body b rest s' a1 s1 q /\ rem st' = text q ++ rest /\ loc st' = s1 /\ idx st' + length (text q) = i + length (text p)
       /\ rev (tokens (idx st') q) ++ rops st' = rev (tokens i p) ++ o).
  - exists s, p. repeat split; auto.
  - lia.
  - intros a1 [r j o1 s2] (s1 & q & C & R & L & I & T). cbn [rem idx rops loc] in *. subst r s2. destruct C as [a1 s1 q H|a1 s1 q N H C|a1 s1 q a2 s2 q2 H N C].
    + eapply wp_mono; [apply H|]. cbn beta. intros ? ? [-> ->]. split; [reflexivity|]. rewrite I, T. reflexivity.
    + eapply wp_mono; [apply (H j o1)|]. cbn beta. intros ? ? [-> ->]. cbn [rem]. split; [|lia].
      exists s1, q. cbn [rem idx rops loc text map concat length tokens rev app]. rewrite Nat.add_0_r. repeat split; auto.
    + rewrite text_app, <- app_assoc. eapply wp_mono; [apply H|]. cbn beta. intros ? ? [-> ->]. cbn [rem]. split.
      * exists s2, q2. cbn [rem idx rops loc]. rewrite text_app, app_length in I. repeat split; auto; [lia|]. rewrite <- T, tokens_app, rev_app_distr, <- app_assoc. reflexivity.
      * rewrite !app_length. lia.
Qed.
End does.
