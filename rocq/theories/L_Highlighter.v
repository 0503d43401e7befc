(** * Reasoning about highlighters. *)
From Coq Require Import List NArith ZArith Bool Arith Lia.
From Verif Require Import M_Base L_Base M_Emit S_Ops L_Emit M_Types M_Chars M_Parse L_Parse M_Api
  M_Highlighter S_Highlight.
Import ListNotations.

(** Position [pos] of the source is inside one of the emitted spans (nested ones do not count). *)
Definition covered (pos : nat) (ops : list out_op) : Prop :=
  exists o, In o ops /\ match o with
                        | OEmit b n _ _ => b <= pos < b + n
                        | ONested _ _ _ _ => False
                        end.

(** [st'] is reached from [st] by consuming [k] units and performing operations in order inside
    the consumed span; units not covered by an operation satisfy [P]. *)
Definition steps {S} (P : N -> Prop) (k : nat) (st st' : hst S) : Prop :=
  k <= length (rem st) /\ rem st' = skipn k (rem st) /\ idx st' = idx st + k
  /\ exists new, rops st' = new ++ rops st /\ ops_in (idx st) (idx st') (rev new)
     /\ forall j c, j < k -> nth_error (rem st) j = Some c -> P c \/ covered (idx st + j) new.

(** No claim about uncovered units. *)
Definition anything : N -> Prop := fun _ => True.

(** [m] succeeds from [st], with result and final state in [Q]. *)
Definition wp {S A} (m : M S A) (Q : A -> hst S -> Prop) (st : hst S) : Prop :=
  match m st with Ok (a, st') => Q a st' | Fail _ => False end.

Section S.
Context {S : Type}.
Implicit Types st : hst S.

Lemma steps_refl P st : steps P 0 st st.
Proof.
  split; [lia|]. split; [reflexivity|]. split; [lia|]. exists []. split; [reflexivity|].
  split; [constructor; lia|]. intros; lia.
Qed.

Lemma covered_app pos a b : covered pos a \/ covered pos b -> covered pos (a ++ b).
Proof. intros [(o & Ho & H)|(o & Ho & H)]; exists o; split; auto; apply in_or_app; auto. Qed.

Lemma nth_error_skipn {A} (l : list A) k j : nth_error (skipn k l) j = nth_error l (k + j).
Proof.
  revert l. induction k as [|k IH]; intros l; [reflexivity|].
  destruct l as [|x l]; [destruct j; reflexivity|]. apply IH.
Qed.

Lemma steps_trans P a b st st' st'' :
  steps P a st st' -> steps P b st' st'' -> steps P (a + b) st st''.
Proof.
  intros (H1 & H2 & H3 & n1 & H4 & H5 & H6) (G1 & G2 & G3 & n2 & G4 & G5 & G6).
  rewrite H2, skipn_length in G1.
  split; [lia|]. split; [rewrite G2, H2, skipn_skipn; reflexivity|]. split; [lia|].
  exists (n2 ++ n1). split; [rewrite G4, H4, app_assoc; reflexivity|]. split.
  - rewrite rev_app_distr. eapply ops_in_app; eassumption.
  - intros j c Hj Hc. destruct (Nat.lt_ge_cases j a) as [Hlt|Hge].
    + destruct (H6 j c Hlt Hc) as [H|H]; [auto|]. right. apply covered_app. auto.
    + destruct (G6 (j - a) c) as [H|H]; [lia| |auto|].
      * rewrite H2, nth_error_skipn. replace (a + (j - a)) with j by lia. assumption.
      * right. apply covered_app. left. replace (idx st + j) with (idx st' + (j - a)) by lia.
        assumption.
Qed.

Lemma steps_eq P a b st st' : steps P a st st' -> a = b -> steps P b st st'.
Proof. intros H <-. exact H. Qed.

Lemma steps_weaken (P P' : N -> Prop) a st st' : (forall c, P c -> P' c) ->
  steps P a st st' -> steps P' a st st'.
Proof.
  intros HP (H1 & H2 & H3 & n & H4 & H5 & H6). repeat split; auto. exists n. repeat split; auto.
  intros j c Hj Hc. destruct (H6 j c Hj Hc); auto.
Qed.

Lemma steps_len P k st st' : steps P k st st' ->
  k <= length (rem st) /\ length (rem st') = length (rem st) - k.
Proof. intros (H1 & H2 & _). rewrite H2, skipn_length. auto. Qed.

Lemma steps_rem P k st st' : steps P k st st' -> rem st' = skipn k (rem st).
Proof. intros (_ & H & _). exact H. Qed.

Lemma wp_mono {A} (m : M S A) (P Q : A -> hst S -> Prop) st : wp m P st ->
  (forall a st', P a st' -> Q a st') -> wp m Q st.
Proof. unfold wp. destruct (m st) as [[a st']|]; auto. Qed.

Lemma wp_bind {A B} (m : M S A) (k : A -> M S B) Q st :
  wp m (fun a st' => wp (k a) Q st') st -> wp (bindM m k) Q st.
Proof. unfold wp, bindM. destruct (m st) as [[a st']|]; auto. Qed.

Lemma wp_ret {A} (a : A) (Q : A -> hst S -> Prop) st : Q a st -> wp (ret a) Q st.
Proof. auto. Qed.

Lemma wp_lift {A} (r : res A) a (Q : A -> hst S -> Prop) st : r = Ok a -> Q a st -> wp (lift r) Q st.
Proof. intros ->. auto. Qed.

Lemma wp_check b f (Q : unit -> hst S -> Prop) st : b = true -> Q tt st -> wp (checkM b f) Q st.
Proof. intros ->. auto. Qed.

Lemma wp_get_rem (Q : str -> hst S -> Prop) st : Q (rem st) st -> wp get_rem Q st.
Proof. auto. Qed.
Lemma wp_get_idx (Q : nat -> hst S -> Prop) st : Q (idx st) st -> wp get_idx Q st.
Proof. auto. Qed.
Lemma wp_get_loc (Q : S -> hst S -> Prop) st : Q (loc st) st -> wp get_loc Q st.
Proof. auto. Qed.
Lemma wp_set_loc P l (Q : unit -> hst S -> Prop) st :
  (forall st', steps P 0 st st' -> rem st' = rem st -> loc st' = l -> Q tt st') ->
  wp (set_loc l) Q st.
Proof.
  intros H. unfold wp, set_loc. apply H; [|reflexivity|reflexivity].
  split; [lia|]. split; [reflexivity|]. split; [cbn; lia|]. exists []. split; [reflexivity|].
  split; [constructor; cbn; lia|]. intros; lia.
Qed.
Lemma wp_eof (Q : bool -> hst S -> Prop) st :
  (rem st = [] -> Q true st) -> (rem st <> [] -> Q false st) -> wp eof Q st.
Proof.
  intros H1 H2. unfold wp, eof. destruct (rem st) eqn:E.
  - apply H1. reflexivity.
  - apply H2. discriminate.
Qed.

Lemma wp_when b (m : M S unit) (Q : unit -> hst S -> Prop) st :
  (b = true -> wp m Q st) -> (b = false -> Q tt st) -> wp (when b m) Q st.
Proof. intros H1 H2. destruct b; [apply H1|apply H2]; reflexivity. Qed.

Lemma wp_if {A} (b : bool) (m1 m2 : M S A) Q st :
  (b = true -> wp m1 Q st) -> (b = false -> wp m2 Q st) -> wp (if b then m1 else m2) Q st.
Proof. destruct b; auto. Qed.

Lemma wp_at s i (Q : N -> hst S -> Prop) st : i < length s ->
  (forall c, nth_error s i = Some c -> Q c st) -> wp (at_ s i) Q st.
Proof.
  intros H HQ. unfold at_. destruct (nth_error s i) eqn:E.
  - apply wp_ret. auto.
  - apply nth_error_None in E. lia.
Qed.

Lemma wp_substr_from s n (Q : str -> hst S -> Prop) st : n <= length s ->
  Q (skipn n s) st -> wp (substr_from s n) Q st.
Proof. intros H HQ. unfold substr_from. apply Nat.leb_le in H. rewrite H. exact HQ. Qed.

Lemma wp_remove_prefix s n (Q : str -> hst S -> Prop) st : n <= length s ->
  Q (skipn n s) st -> wp (remove_prefix s n) Q st.
Proof. intros H HQ. unfold remove_prefix. apply Nat.leb_le in H. rewrite H. exact HQ. Qed.

Lemma firstn_Forall_nth {A} (P : A -> Prop) n (l : list A) : Forall P (firstn n l) ->
  forall j c, j < n -> nth_error l j = Some c -> P c.
Proof.
  intros H j c Hj Hc. rewrite Forall_forall in H. apply H.
  apply nth_error_In with j. rewrite <- Hc. clear -Hj.
  revert n Hj l. induction j as [|j IH]; intros [|n] Hj l; try lia; destruct l; cbn; auto.
  apply IH. lia.
Qed.

Lemma wp_advance P n (Q : unit -> hst S -> Prop) st : n <= length (rem st) ->
  Forall P (firstn n (rem st)) ->
  (forall st', steps P n st st' -> loc st' = loc st -> Q tt st') -> wp (advance n) Q st.
Proof.
  intros Hn HP H. unfold wp, advance. apply Nat.leb_le in Hn. rewrite Hn. apply H; [|reflexivity].
  apply Nat.leb_le in Hn. split; [assumption|]. split; [reflexivity|]. split; [reflexivity|].
  exists []. split; [reflexivity|]. split; [constructor; cbn; lia|].
  intros j c Hj Hc. left. eapply firstn_Forall_nth; eassumption.
Qed.

Lemma wp_emit_adv_c P f n ty (Q : unit -> hst S -> Prop) st : 0 < n <= length (rem st) ->
  (forall st', steps P n st st' -> loc st' = loc st -> Q tt st') ->
  wp (emit_and_advance_c f n ty) Q st.
Proof.
  intros Hn H. unfold wp, emit_and_advance_c, bindM, get_idx, emit_at, advance. cbn [rem idx].
  assert (E1 : (n =? 0) = false) by (apply Nat.eqb_neq; lia). rewrite E1.
  assert (E2 : (idx st <? idx st + length (rem st)) = true) by (apply Nat.ltb_lt; lia). rewrite E2.
  assert (E3 : (idx st + n <=? idx st + length (rem st)) = true) by (apply Nat.leb_le; lia).
  rewrite E3. cbn [negb andb rem idx].
  assert (E4 : (n <=? length (rem st)) = true) by (apply Nat.leb_le; lia). rewrite E4.
  apply H; [|reflexivity]. split; [lia|]. split; [reflexivity|]. split; [reflexivity|].
  exists [OEmit (idx st) n ty f]. split; [reflexivity|]. split.
  - cbn. constructor; [lia|lia|]. constructor. lia.
  - intros j c Hj _. right. exists (OEmit (idx st) n ty f). split; [left; reflexivity|]. lia.
Qed.

Lemma wp_emit_adv P n ty (Q : unit -> hst S -> Prop) st : 0 < n <= length (rem st) ->
  (forall st', steps P n st st' -> loc st' = loc st -> Q tt st') ->
  wp (emit_and_advance n ty) Q st.
Proof. apply wp_emit_adv_c. Qed.

Lemma wp_nested P h strict n cap (Q : bool -> hst S -> Prop) st : n <= length (rem st) -> 0 < cap ->
  Forall P (firstn n (rem st)) ->
  (exists b ops, h (firstn n (rem st)) strict = Ok (b, ops)
                 /\ ops_in 0 (length (firstn n (rem st))) ops) ->
  (forall st', steps P n st st' -> loc st' = loc st -> Q true st') ->
  (0 < n -> Q false st) ->
  wp (consume_nested h strict n cap) Q st.
Proof.
  intros Hn Hc HP Hh H1 H2. unfold wp, consume_nested.
  destruct (Nat.eqb_spec n 0) as [->|Hn0]; [apply H1; [apply steps_refl|reflexivity]|].
  destruct Hh as (b & ops & -> & Hops).
  destruct b; [|apply H2; lia].
  apply Nat.leb_le in Hn. rewrite Hn. apply Nat.leb_le in Hn.
  apply H1; [|reflexivity]. split; [assumption|]. split; [reflexivity|]. split; [reflexivity|].
  eexists [_]. split; [reflexivity|]. rewrite firstn_length_le in * by assumption. cbn. split.
  - constructor; [lia|assumption|assumption|]. constructor. lia.
  - intros j c Hj Hj'. left. eapply firstn_Forall_nth; eassumption.
Qed.

Lemma wp_nested_true P h strict n cap ops (Q : bool -> hst S -> Prop) st : n <= length (rem st) -> 0 < cap ->
  Forall P (firstn n (rem st)) ->
  h (firstn n (rem st)) strict = Ok (true, ops) -> ops_in 0 (length (firstn n (rem st))) ops ->
  (forall st', steps P n st st' -> loc st' = loc st -> Q true st') ->
  wp (consume_nested h strict n cap) Q st.
Proof.
  intros Hn Hc HP Hh Hops H1. unfold wp, consume_nested.
  destruct (Nat.eqb_spec n 0) as [->|Hn0]; [apply H1; [apply steps_refl|reflexivity]|].
  rewrite Hh. apply Nat.leb_le in Hn. rewrite Hn. apply Nat.leb_le in Hn.
  apply H1; [|reflexivity]. split; [assumption|]. split; [reflexivity|]. split; [reflexivity|].
  eexists [_]. split; [reflexivity|]. rewrite firstn_length_le in * by assumption. cbn. split.
  - constructor; [lia|assumption|assumption|]. constructor. lia.
  - intros j c Hj Hj'. left. eapply firstn_Forall_nth; eassumption.
Qed.

Lemma wp_iter {A B} (body : A -> M S (A + B)) (Inv : A -> hst S -> Prop)
    (mu : A -> hst S -> nat) (Q : B -> hst S -> Prop) :
  (forall a st, Inv a st ->
     wp (body a) (fun r st' => match r with
                               | inl a' => Inv a' st' /\ mu a' st' < mu a st
                               | inr b => Q b st'
                               end) st) ->
  forall fuel a st, Inv a st -> mu a st < fuel -> wp (iter fuel body a) Q st.
Proof.
  intros Hb. induction fuel as [|n IH]; intros a st Ha Hm; [lia|].
  cbn [iter]. apply wp_bind. eapply wp_mono; [apply Hb; exact Ha|].
  intros [a'|b] st' H; cbn beta iota in H.
  - apply IH; [tauto|lia].
  - apply wp_ret. exact H.
Qed.

Lemma wp_hloop {A B} c (body : A -> M S (A + B)) (Inv : A -> hst S -> Prop)
    (mu : A -> hst S -> nat) (Q : B -> hst S -> Prop) a st :
  Inv a st -> mu a st < c * length (rem st) + c ->
  (forall a st, Inv a st ->
     wp (body a) (fun r st' => match r with
                               | inl a' => Inv a' st' /\ mu a' st' < mu a st
                               | inr b => Q b st'
                               end) st) ->
  wp (hloop c body a) Q st.
Proof. intros Ha Hm Hb. unfold hloop. apply (wp_iter body Inv mu Q Hb _ a st Ha Hm). Qed.

(** Member functions that only move forward. *)
Definition safe {A} (P : N -> Prop) (m : M S A) : Prop :=
  forall st, wp m (fun _ st' => exists k, steps P k st st') st.
(** ... and that consume something when they return true. *)
Definition consumes (P : N -> Prop) (m : M S bool) : Prop :=
  forall st, wp m (fun b st' => exists k, steps P k st st' /\ (b = true -> 0 < k)) st.

Lemma consumes_safe P m : consumes P m -> safe P m.
Proof. intros H st. eapply wp_mono; [apply H|]. cbn. intros b st' (k & Hk & _). eauto. Qed.

Lemma wp_consumes P m (Q : bool -> hst S -> Prop) st : consumes P m ->
  (forall b k st', steps P k st st' -> (b = true -> 0 < k) -> Q b st') -> wp m Q st.
Proof.
  intros H HQ. eapply wp_mono; [apply H|]. cbn. intros b st' (k & Hk & Hb). eauto.
Qed.

Lemma wp_safe {A} P (m : M S A) (Q : A -> hst S -> Prop) st : safe P m ->
  (forall a k st', steps P k st st' -> Q a st') -> wp m Q st.
Proof. intros H HQ. eapply wp_mono; [apply H|]. cbn. intros b st' (k & Hk). eauto. Qed.

(** Alternatives: something is consumed when [m] returns true, nothing has happened otherwise. *)
Definition attempt (P : N -> Prop) (st : hst S) (b : bool) (st' : hst S) : Prop :=
  if b then exists k, steps P k st st' /\ 0 < k else st' = st.
Definition tries (P : N -> Prop) (m : M S bool) : Prop := forall st, wp m (attempt P st) st.

Lemma tries_consumes P m : tries P m -> consumes P m.
Proof.
  intros H st. eapply wp_mono; [apply H|]. intros [] st' A; cbn in A.
  - destruct A as (k & Hk & H0). eauto.
  - subst. exists 0. split; [apply steps_refl|discriminate].
Qed.

Lemma wp_tries P (m : M S bool) (Q : bool -> hst S -> Prop) st : wp m (attempt P st) st ->
  (forall k st', steps P k st st' -> 0 < k -> Q true st') -> Q false st -> wp m Q st.
Proof.
  intros H H1 H2. eapply wp_mono; [exact H|]. intros [] st' A; cbn in A.
  - destruct A as (k & Hk & H0). eauto.
  - subst. exact H2.
Qed.

Lemma wp_orelse P (m : M S bool) {A} (a : A) (k : M S A) (Q : A -> hst S -> Prop) st : wp m (attempt P st) st ->
  (forall n st', steps P n st st' -> 0 < n -> Q a st') -> wp k Q st ->
  wp (bindM m (fun b => if b then ret a else k)) Q st.
Proof. intros H H1 H2. apply wp_bind. eapply wp_tries; [exact H|intros n st' G L; apply wp_ret; eauto|exact H2]. Qed.

(** The main loop: if every iteration consumes something the loop is safe and consumes
    everything. *)
Lemma while_rem_all P (body : M S unit) :
  (forall st, rem st <> [] -> wp body (fun _ st' => exists k, steps P k st st' /\ 0 < k) st) ->
  forall st, wp (while_rem body) (fun _ st' => steps P (length (rem st)) st st') st.
Proof.
  intros Hb st. unfold while_rem.
  apply wp_hloop with (Inv := fun _ st' => exists k, steps P k st st') (mu := fun _ st' => length (rem st')).
  - exists 0. apply steps_refl.
  - lia.
  - intros _ st1 (k & Hk). apply wp_bind. apply wp_eof.
    + intros He. apply wp_ret. apply steps_len in Hk as L. rewrite He in L. cbn in L.
      eapply steps_eq; [exact Hk|lia].
    + intros He. apply wp_bind. eapply wp_mono; [apply Hb; exact He|].
      intros _ st2 (k2 & H2 & H0). cbn beta. apply wp_ret. split.
      * exists (k + k2). eapply steps_trans; eassumption.
      * apply steps_len in H2. lia.
Qed.

Lemma while_rem_safe P (body : M S unit) :
  (forall st, rem st <> [] -> wp body (fun _ st' => exists k, steps P k st st' /\ 0 < k) st) ->
  safe P (while_rem body).
Proof. intros H st. eapply wp_mono; [apply while_rem_all; exact H|]. cbn. eauto. Qed.

(** ** Compound functions of the base class. *)

Lemma wp_emit_at f b n ty (Q : unit -> hst S -> Prop) st : 0 < n ->
  b + n <= idx st + length (rem st) ->
  Q tt (mk_hst (rem st) (idx st) (OEmit b n ty f :: rops st) (loc st)) ->
  wp (emit_at f b n ty) Q st.
Proof.
  intros H1 H2 HQ. unfold wp, emit_at.
  assert (E1 : (n =? 0) = false) by (apply Nat.eqb_neq; lia). rewrite E1.
  assert (E2 : (b <? idx st + length (rem st)) = true) by (apply Nat.ltb_lt; lia). rewrite E2.
  assert (E3 : (b + n <=? idx st + length (rem st)) = true) by (apply Nat.leb_le; lia). rewrite E3.
  exact HQ.
Qed.

Lemma covers_app lo mid hi a b : covers lo mid a -> covers mid hi b -> covers lo hi (a ++ b).
Proof.
  revert lo. induction a as [|[b0 n t f|] a IH]; intros lo Ha Hb; cbn in *.
  - subst. assumption.
  - destruct Ha as (-> & H1 & H2). repeat split; auto.
  - contradiction.
Qed.

Lemma covers_le lo hi ops : covers lo hi ops -> lo <= hi.
Proof.
  revert lo. induction ops as [|[b n t f|] r IH]; intros lo H; cbn in *; [lia| |contradiction].
  destruct H as (_ & _ & H). apply IH in H. lia.
Qed.

Lemma covers_ops_in lo hi ops : covers lo hi ops -> ops_in lo hi ops.
Proof.
  revert lo. induction ops as [|[b n t f|] r IH]; intros lo H; cbn in *.
  - subst. constructor. lia.
  - destruct H as (-> & H1 & H2). constructor; [lia|assumption|]. apply IH. assumption.
  - contradiction.
Qed.

Lemma covers_covered lo hi ops pos : covers lo hi ops -> lo <= pos < hi -> covered pos ops.
Proof.
  revert lo. induction ops as [|[b n t f|] r IH]; intros lo H Hp; cbn in *.
  - lia.
  - destruct H as (-> & H1 & H2). destruct (Nat.lt_ge_cases pos (lo + n)) as [Hlt|Hge].
    + eexists. split; [left; reflexivity|]. cbn. lia.
    + destruct (IH _ H2) as (o & Ho & C); [lia|]. exists o. split; [right; assumption|assumption].
  - contradiction.
Qed.

(** [st'] is reached from [st] by consuming [k] units, every one of which is highlighted. *)
Definition paints (k : nat) (st st' : hst S) : Prop :=
  k <= length (rem st) /\ rem st' = skipn k (rem st) /\ idx st' = idx st + k /\ loc st' = loc st
  /\ exists new, rops st' = new ++ rops st /\ covers (idx st) (idx st') (rev new).

Lemma paints_steps P k st st' : paints k st st' -> steps P k st st'.
Proof.
  intros (H1 & H2 & H3 & _ & new & H4 & H5). repeat split; auto. exists new. split; [assumption|].
  split; [apply covers_ops_in; assumption|]. intros j c Hj _. right.
  assert (C : covered (idx st + j) (rev new)) by (eapply covers_covered; [exact H5|lia]).
  destruct C as (o & Ho & C). exists o. split; [apply in_rev; assumption|assumption].
Qed.

Lemma paints_refl st : paints 0 st st.
Proof.
  split; [lia|]. split; [reflexivity|]. split; [lia|]. split; [reflexivity|].
  exists []. split; [reflexivity|]. reflexivity.
Qed.

Lemma paints_trans a b st st' st'' :
  paints a st st' -> paints b st' st'' -> paints (a + b) st st''.
Proof.
  intros (H1 & H2 & H3 & H6 & n1 & H4 & H5) (G1 & G2 & G3 & G6 & n2 & G4 & G5).
  rewrite H2, skipn_length in G1.
  split; [lia|]. split; [rewrite G2, H2, skipn_skipn; reflexivity|]. split; [lia|].
  split; [congruence|].
  exists (n2 ++ n1). split; [rewrite G4, H4, app_assoc; reflexivity|].
  rewrite rev_app_distr. eapply covers_app; eassumption.
Qed.

Lemma paint_emit_adv n ty st : 0 < n <= length (rem st) ->
  wp (emit_and_advance n ty) (fun _ st' => paints n st st') st.
Proof.
  intros Hn. unfold wp, emit_and_advance, emit_and_advance_c, bindM, get_idx, emit_at, advance. cbn [rem idx].
  assert (E1 : (n =? 0) = false) by (apply Nat.eqb_neq; lia). rewrite E1.
  assert (E2 : (idx st <? idx st + length (rem st)) = true) by (apply Nat.ltb_lt; lia). rewrite E2.
  assert (E3 : (idx st + n <=? idx st + length (rem st)) = true) by (apply Nat.leb_le; lia).
  rewrite E3. cbn [negb andb rem idx].
  assert (E4 : (n <=? length (rem st)) = true) by (apply Nat.leb_le; lia). rewrite E4.
  split; [lia|]. split; [reflexivity|]. split; [reflexivity|]. split; [reflexivity|].
  exists [OEmit (idx st) n ty false]. split; [reflexivity|]. cbn. repeat split; lia.
Qed.

Lemma paints_len k st st' : paints k st st' ->
  k <= length (rem st) /\ length (rem st') = length (rem st) - k.
Proof. intros H. exact (steps_len anything _ _ _ (paints_steps _ _ _ _ H)). Qed.

Lemma paint_when b n ty st : n <= length (rem st) -> (b = true -> 0 < n) -> (b = false -> n = 0) ->
  wp (when b (emit_and_advance n ty)) (fun _ st' => paints n st st') st.
Proof.
  intros H1 H2 H3. apply wp_when.
  - intros E. apply paint_emit_adv. split; auto.
  - intros E. rewrite (H3 E). apply paints_refl.
Qed.

Lemma paint_digits_loop digits sep : forall len st, len + length digits <= length (rem st) ->
  wp (highlight_digits_loop digits sep len)
     (fun _ st' => paints (len + length digits) st st') st.
Proof.
  induction digits as [|c digits IH]; intros len st H; cbn [highlight_digits_loop length].
  - cbn in H. eapply wp_mono.
    + apply (paint_when (negb (len =? 0)) len); [lia| |].
      * intros E. apply negb_true_iff, Nat.eqb_neq in E. lia.
      * intros E. apply negb_false_iff, Nat.eqb_eq in E. assumption.
    + cbn. intros _ st' Hp. replace (len + 0) with len by lia. exact Hp.
  - cbn [length] in H. destruct (c =? sep)%N.
    + apply wp_bind. eapply wp_mono.
      { apply (paint_when (negb (len =? 0)) len); [lia| |].
        * intros E. apply negb_true_iff, Nat.eqb_neq in E. lia.
        * intros E. apply negb_false_iff, Nat.eqb_eq in E. assumption. }
      cbn beta. intros _ st1 P1. apply paints_len in P1 as L1. apply wp_bind.
      eapply wp_mono; [apply paint_emit_adv; lia|]. cbn beta. intros _ st2 P2.
      apply paints_len in P2 as L2.
      eapply wp_mono; [apply IH; lia|]. cbn beta. intros _ st3 P3.
      pose proof (paints_trans _ _ _ _ _ P1 (paints_trans _ _ _ _ _ P2 P3)) as P.
      replace (len + Datatypes.S (length digits)) with (len + (1 + (0 + length digits))) by lia.
      exact P.
    + eapply wp_mono; [apply IH; lia|]. cbn beta. intros _ st' P.
      replace (len + Datatypes.S (length digits)) with (len + 1 + length digits) by lia. exact P.
Qed.

Lemma paint_digits digits sep st : sep <> 0%N -> length digits <= length (rem st) ->
  wp (highlight_digits digits sep) (fun _ st' => paints (length digits) st st') st.
Proof.
  intros Hs Hl. unfold highlight_digits. apply wp_bind, wp_check.
  { apply negb_true_iff, N.eqb_neq. assumption. }
  apply wp_bind, wp_get_rem. apply wp_bind, wp_check; [apply Nat.leb_le; assumption|].
  eapply wp_mono; [apply paint_digits_loop; lia|]. auto.
Qed.

Lemma paint_digits_ignore digits st : length digits <= length (rem st) ->
  wp (highlight_digits_ignore_separator digits) (fun _ st' => paints (length digits) st st') st.
Proof.
  intros Hl. unfold highlight_digits_ignore_separator. destruct digits as [|c d].
  - apply wp_ret. apply paints_refl.
  - apply paint_emit_adv. cbn in *. lia.
Qed.

Lemma paint_number_impl fn r st :
  (forall d st, length d <= length (rem st) -> wp (fn d) (fun _ st' => paints (length d) st st') st) ->
  nr_length r = parts r -> 0 < nr_length r <= length (rem st) ->
  wp (highlight_number_impl fn r) (fun _ st' => paints (nr_length r) st st') st.
Proof.
  intros Hfn Hp Hl. unfold highlight_number_impl. destruct (nr_erroneous r).
  { apply paint_emit_adv. assumption. }
  rewrite Hp in *. unfold parts in *.
  assert (D : forall n st, n <= length (rem st) ->
    wp (when (negb (n =? 0)) (let! s := get_rem in fn (firstn n s)))
       (fun _ st' => paints n st st') st).
  { intros n st0 Hn. apply wp_when.
    - intros _. apply wp_bind, wp_get_rem. eapply wp_mono.
      + apply Hfn. rewrite firstn_length. lia.
      + cbn beta. intros _ st'. rewrite firstn_length_le by assumption. auto.
    - intros E. apply negb_false_iff, Nat.eqb_eq in E. rewrite E. apply paints_refl. }
  assert (W : forall n ty st, n <= length (rem st) ->
    wp (when (negb (n =? 0)) (emit_and_advance n ty)) (fun _ st' => paints n st st') st).
  { intros n ty st0 Hn. apply paint_when; [assumption| |].
    - intros E. apply negb_true_iff, Nat.eqb_neq in E. lia.
    - intros E. apply negb_false_iff, Nat.eqb_eq in E. assumption. }
  Ltac nx L := match goal with
    | P : paints _ ?a ?b |- wp _ _ ?b =>
      apply paints_len in P as L
    end.
  apply wp_bind. eapply wp_mono; [apply W; lia|]. cbn beta. intros _ s1 P1.
  apply paints_len in P1 as L1.
  apply wp_bind. eapply wp_mono; [apply D; lia|]. cbn beta. intros _ s2 P2.
  apply paints_len in P2 as L2.
  apply wp_bind. eapply wp_mono; [apply W; lia|]. cbn beta. intros _ s3 P3.
  apply paints_len in P3 as L3.
  apply wp_bind. eapply wp_mono; [apply D; lia|]. cbn beta. intros _ s4 P4.
  apply paints_len in P4 as L4.
  apply wp_bind. eapply wp_mono; [apply W; lia|]. cbn beta. intros _ s5 P5.
  apply paints_len in P5 as L5.
  apply wp_bind. eapply wp_mono; [apply D; lia|]. cbn beta. intros _ s6 P6.
  apply paints_len in P6 as L6.
  eapply wp_mono; [apply W; lia|]. cbn beta. intros _ s7 P7.
  pose proof (paints_trans _ _ _ _ _ (paints_trans _ _ _ _ _ (paints_trans _ _ _ _ _
    (paints_trans _ _ _ _ _ (paints_trans _ _ _ _ _ (paints_trans _ _ _ _ _ P1 P2) P3) P4) P5)
    P6) P7) as P. exact P.
Qed.

(** Highlighting a matched number paints exactly its length. *)
Lemma paint_number_sep r sep st : sep <> 0%N -> nr_length r = parts r ->
  0 < nr_length r <= length (rem st) ->
  wp (highlight_number_sep r sep) (fun _ st' => paints (nr_length r) st st') st.
Proof.
  intros Hs Hp Hl. apply paint_number_impl; auto. intros d st0 Hd. apply paint_digits; assumption.
Qed.
Lemma paint_number r st : nr_length r = parts r -> 0 < nr_length r <= length (rem st) ->
  wp (highlight_number r) (fun _ st' => paints (nr_length r) st st') st.
Proof.
  intros Hp Hl. apply paint_number_impl; auto. intros d st0 Hd. apply paint_digits_ignore. assumption.
Qed.

Lemma wp_highlight_number P r (Q : unit -> hst S -> Prop) st :
  nr_length r = parts r -> 0 < nr_length r <= length (rem st) ->
  (forall st', steps P (nr_length r) st st' -> loc st' = loc st -> Q tt st') ->
  wp (highlight_number r) Q st.
Proof.
  intros H1 H2 H3. eapply wp_mono; [apply paint_number; assumption|]. cbn beta.
  intros [] st' Hp. apply H3; [apply paints_steps; assumption|]. apply Hp.
Qed.
Lemma wp_highlight_number_sep P r sep (Q : unit -> hst S -> Prop) st : sep <> 0%N ->
  nr_length r = parts r -> 0 < nr_length r <= length (rem st) ->
  (forall st', steps P (nr_length r) st st' -> loc st' = loc st -> Q tt st') ->
  wp (highlight_number_sep r sep) Q st.
Proof.
  intros H0 H1 H2 H3. eapply wp_mono; [apply paint_number_sep; assumption|]. cbn beta.
  intros [] st' Hp. apply H3; [apply paints_steps; assumption|]. apply Hp.
Qed.
Lemma wp_highlight_digits P d sep (Q : unit -> hst S -> Prop) st : sep <> 0%N ->
  length d <= length (rem st) ->
  (forall st', steps P (length d) st st' -> loc st' = loc st -> Q tt st') ->
  wp (highlight_digits d sep) Q st.
Proof.
  intros H0 H1 H3. eapply wp_mono; [apply paint_digits; assumption|]. cbn beta.
  intros [] st' Hp. apply H3; [apply paints_steps; assumption|]. apply Hp.
Qed.

Lemma paint_enclosed e prefix suffix content delim st : 0 < prefix -> prefix <= en_length e ->
  (en_terminated e = true -> 0 < suffix /\ prefix + suffix <= en_length e) ->
  en_length e <= length (rem st) ->
  wp (highlight_enclosed e prefix suffix content delim)
     (fun _ st' => paints (en_length e) st st') st.
Proof.
  intros H0 H1 H2 H3. unfold highlight_enclosed.
  apply wp_bind, wp_check; [apply negb_true_iff, Nat.eqb_neq; lia|].
  apply wp_bind, wp_check; [apply Nat.leb_le; lia|].
  apply wp_bind, wp_check.
  { destruct (en_terminated e); [|reflexivity]. cbn. apply Nat.leb_le. apply H2. reflexivity. }
  apply wp_bind, wp_get_idx. apply wp_bind, wp_emit_at; [assumption|lia|].
  assert (A : forall st1 new, rem st1 = rem st -> idx st1 = idx st -> loc st1 = loc st ->
    rops st1 = new ++ rops st -> covers (idx st) (idx st + en_length e) (rev new) ->
    wp (advance (en_length e)) (fun _ st' => paints (en_length e) st st') st1).
  { intros st1 new E1 E2 E3 E4 C. unfold wp, advance. rewrite E1.
    assert (E5 : (en_length e <=? length (rem st)) = true) by (apply Nat.leb_le; lia). rewrite E5.
    split; [lia|]. cbn. rewrite E2, E3. repeat split. exists new. split; assumption. }
  destruct (en_terminated e).
  - destruct (H2 eq_refl) as [H4 H5]. cbn zeta. set (n := en_length e - prefix - suffix).
    assert (En : en_length e = prefix + (n + suffix)) by (subst n; lia). clearbody n.
    destruct (Nat.eqb_spec n 0) as [E|E]; cbn [negb when].
    + apply wp_bind, wp_bind, wp_ret. apply wp_emit_at; [lia|cbn [rem idx]; lia|].
      cbn [rem idx rops loc].
      match goal with |- wp _ _ (mk_hst _ _ (?a :: ?b :: _) _) =>
        apply (A _ [a; b]); try reflexivity end.
      cbn. repeat split; try lia.
    + apply wp_bind, wp_bind. apply wp_emit_at; [lia|cbn [rem idx]; lia|].
      apply wp_emit_at; [lia|cbn [rem idx]; lia|].
      cbn [rem idx rops loc].
      match goal with |- wp _ _ (mk_hst _ _ (?a :: ?b :: ?c :: _) _) =>
        apply (A _ [a; b; c]); try reflexivity end.
      cbn. repeat split; try lia.
  - cbn zeta. set (n := en_length e - prefix).
    assert (En : en_length e = prefix + n) by (subst n; lia). clearbody n.
    destruct (Nat.eqb_spec n 0) as [E|E]; cbn [negb when].
    + apply wp_bind, wp_ret. cbn [rem idx rops loc].
      match goal with |- wp _ _ (mk_hst _ _ (?a :: _) _) =>
        apply (A _ [a]); try reflexivity end.
      cbn. repeat split; try lia.
    + apply wp_bind. apply wp_emit_at; [lia|cbn [rem idx]; lia|].
      cbn [rem idx rops loc].
      match goal with |- wp _ _ (mk_hst _ _ (?a :: ?b :: _) _) =>
        apply (A _ [a; b]); try reflexivity end.
      cbn. repeat split; try lia.
Qed.

Lemma wp_highlight_enclosed P e prefix suffix content delim (Q : unit -> hst S -> Prop) st :
  0 < prefix -> prefix <= en_length e ->
  (en_terminated e = true -> 0 < suffix /\ prefix + suffix <= en_length e) ->
  en_length e <= length (rem st) ->
  (forall st', steps P (en_length e) st st' -> loc st' = loc st -> Q tt st') ->
  wp (highlight_enclosed e prefix suffix content delim) Q st.
Proof.
  intros H0 H1 H2 H3 H4. eapply wp_mono; [apply paint_enclosed; assumption|]. cbn beta.
  intros [] st' Hp. apply H4; [apply paints_steps; assumption|]. apply Hp.
Qed.

(** For a match of [match_enclosed]. *)
Lemma wp_enclosed_match P p q content delim (Q : unit -> hst S -> Prop) st :
  p <> [] -> q <> [] -> en_length (match_enclosed (rem st) p q) <> 0 ->
  (forall st', steps P (en_length (match_enclosed (rem st) p q)) st st' -> loc st' = loc st -> Q tt st') ->
  wp (highlight_enclosed (match_enclosed (rem st) p q) (length p) (length q) content delim) Q st.
Proof.
  intros Hp Hq Hn HQ. assert (0 < length p) by (destruct p; cbn; [congruence|lia]).
  assert (0 < length q) by (destruct q; cbn; [congruence|lia]).
  apply (wp_highlight_enclosed P); auto.
  - apply match_enclosed_prefix. lia.
  - intros T. split; [assumption|]. apply match_enclosed_terminated. assumption.
  - apply match_enclosed_le.
Qed.

(** ** Spans emitted ahead of the current position *)

(** [st'] is [st] with operations added inside the next [p] units; units among these that are not
    covered satisfy [P]. *)
Definition ahead (P : N -> Prop) (p : nat) (st st' : hst S) : Prop :=
  rem st' = rem st /\ idx st' = idx st /\ loc st' = loc st /\ p <= length (rem st)
  /\ exists new, rops st' = new ++ rops st /\ ops_in (idx st) (idx st + p) (rev new)
     /\ forall j c, j < p -> nth_error (rem st) j = Some c -> P c \/ covered (idx st + j) new.

Lemma ahead_refl P st : ahead P 0 st st.
Proof.
  split; [reflexivity|]. split; [reflexivity|]. split; [reflexivity|]. split; [lia|]. exists [].
  split; [reflexivity|]. split; [constructor; lia|]. intros; lia.
Qed.

Lemma ahead_emit P p b n f ty (Q : unit -> hst S -> Prop) st st1 : ahead P p st st1 -> 0 < n ->
  b = idx st + p -> p + n <= length (rem st) ->
  (forall st2, ahead P (p + n) st st2 -> Q tt st2) -> wp (emit_at f b n ty) Q st1.
Proof.
  intros (E1 & E2 & E3 & L & new & E4 & O & C) Hn -> Hl H.
  apply wp_emit_at; [exact Hn|rewrite E1, E2; lia|]. apply H.
  split; [exact E1|]. split; [exact E2|]. split; [exact E3|]. split; [exact Hl|].
  exists (OEmit (idx st + p) n ty f :: new). cbn [rops]. split; [rewrite E4; reflexivity|]. cbn [rev]. split.
  - eapply ops_in_app; [exact O|]. constructor; [lia|exact Hn|]. constructor. lia.
  - intros j c Hj Hc. destruct (Nat.lt_ge_cases j p) as [Hlt|Hge].
    + destruct (C j c Hlt Hc) as [X|(op & Ho & X)]; [auto|]. right. exists op. split; [right; exact Ho|exact X].
    + right. eexists. split; [left; reflexivity|]. cbn. lia.
Qed.

Lemma ahead_skip P p q st st1 : ahead P p st st1 -> p <= q -> q <= length (rem st) ->
  Forall P (firstn (q - p) (skipn p (rem st))) -> ahead P q st st1.
Proof.
  intros (E1 & E2 & E3 & L & new & E4 & O & C) Hq Hl F.
  split; [exact E1|]. split; [exact E2|]. split; [exact E3|]. split; [exact Hl|].
  exists new. split; [exact E4|]. split; [eapply ops_in_weaken; [exact O|lia|lia]|].
  intros j c Hj Hc. destruct (Nat.lt_ge_cases j p) as [Hlt|Hge]; [auto|]. left.
  eapply firstn_Forall_nth with (j := j - p); [exact F|lia|].
  rewrite nth_error_skipn. replace (p + (j - p)) with j by lia. exact Hc.
Qed.

Lemma ahead_advance P p n (Q : unit -> hst S -> Prop) st st1 : ahead P p st st1 -> n = p ->
  (forall st', steps P n st st' -> loc st' = loc st -> Q tt st') -> wp (advance n) Q st1.
Proof.
  intros (E1 & E2 & E3 & L & new & E4 & O & C) -> H. unfold wp, advance. rewrite E1.
  assert (E : (p <=? length (rem st)) = true) by (apply Nat.leb_le; exact L). rewrite E.
  apply H; [|exact E3]. split; [exact L|]. split; [reflexivity|]. cbn [idx rops]. rewrite E2. split; [reflexivity|].
  exists new. auto.
Qed.

End S.

(** A highlighter whose body is safe from every state gives operations in order and in bounds. *)
Lemma run_ok {S} P (init : S) (m : M S bool) src :
  wp m (fun b st' => b = true /\ exists k, steps P k (mk_hst src 0 [] init) st')
     (mk_hst src 0 [] init) ->
  exists ops, run init m src = Ok (true, ops) /\ ops_in 0 (length src) ops.
Proof.
  unfold wp, run. destruct (m (mk_hst src 0 [] init)) as [[b st']|]; [|contradiction].
  intros (-> & k & H1 & H2 & H3 & new & H4 & H5 & _). cbn in *. rewrite app_nil_r in H4.
  exists (rev (rops st')). split; [reflexivity|]. rewrite H4.
  eapply ops_in_weaken; [exact H5|lia|lia].
Qed.

(** ... and when everything is consumed, every byte is covered or satisfies [P]. *)
Lemma run_ok_all {S} P (init : S) (m : M S bool) src :
  wp m (fun b st' => b = true /\ steps P (length src) (mk_hst src 0 [] init) st')
     (mk_hst src 0 [] init) ->
  exists ops, run init m src = Ok (true, ops) /\ ops_in 0 (length src) ops
    /\ forall pos c, nth_error src pos = Some c -> P c \/ covered pos ops.
Proof.
  unfold wp, run. destruct (m (mk_hst src 0 [] init)) as [[b st']|]; [|contradiction].
  intros (-> & H1 & H2 & H3 & new & H4 & H5 & H6). cbn in *. rewrite app_nil_r in H4.
  exists (rev (rops st')). split; [reflexivity|]. rewrite H4. split.
  - eapply ops_in_weaken; [exact H5|lia|lia].
  - intros pos c Hc. assert (pos < length src) by (apply nth_error_Some; congruence).
    destruct (H6 pos c) as [H0|(o & Ho & C)]; auto. right. exists o.
    split; [apply in_rev in Ho; assumption|assumption].
Qed.

(** ** Automation *)

Lemma starts_with_len s p : starts_with s p = true -> length p <= length s.
Proof. intros H. apply starts_with_app in H as [t ->]. rewrite app_length. lia. Qed.
Lemma starts_with_ch_len s c : starts_with_ch s c = true -> 1 <= length s.
Proof. destruct s; cbn; [discriminate|lia]. Qed.
Lemma Forall_anything l : Forall anything l.
Proof. apply Forall_forall. intros; exact I. Qed.
Lemma neq_nil_len {A} (l : list A) : l <> [] -> 1 <= length l.
Proof. destruct l; cbn; [congruence|lia]. Qed.

(** Length facts for lia, each posed once. *)
Ltac know P := lazymatch goal with H : P |- _ => fail | _ => idtac end.
Ltac pose_len :=
  repeat match goal with
  | H : steps _ ?k ?a ?b |- _ =>
    let T := type of (steps_len _ _ _ _ H) in know T; pose proof (steps_len _ _ _ _ H)
  | H : starts_with ?s ?p = true |- _ =>
    let T := type of (starts_with_len _ _ H) in know T; pose proof (starts_with_len _ _ H)
  | H : starts_with_ch ?s ?c = true |- _ =>
    let T := type of (starts_with_ch_len _ _ H) in know T; pose proof (starts_with_ch_len _ _ H)
  | H : rem ?st <> [] |- _ =>
    let T := type of (neq_nil_len _ H) in know T; pose proof (neq_nil_len _ H)
  | H : rem ?st = [] |- _ =>
    lazymatch goal with
    | _ : length (rem st) = 0 |- _ => fail
    | _ => assert (length (rem st) = 0) by (rewrite H; reflexivity)
    end
  | H : rem ?st = ?c :: ?r |- _ =>
    lazymatch goal with
    | _ : length (rem st) = Datatypes.S (length r) |- _ => fail
    | _ => assert (length (rem st) = Datatypes.S (length r)) by (rewrite H; reflexivity)
    end
  end.
(** Lengths of literal strings. *)
Ltac lit_len :=
  repeat match goal with
  | H : context [@length N (bs ?x)] |- _ =>
    let n := eval vm_compute in (@length N (bs x)) in change (@length N (bs x)) with n in H
  | |- context [@length N (bs ?x)] =>
    let n := eval vm_compute in (@length N (bs x)) in change (@length N (bs x)) with n
  end.
Ltac bool_hyps :=
  repeat match goal with
  | H : negb _ = true |- _ => apply negb_true_iff in H
  | H : negb _ = false |- _ => apply negb_false_iff in H
  | H : (_ && _) = true |- _ => apply andb_prop in H; destruct H
  | H : (_ =? _)%nat = true |- _ => apply Nat.eqb_eq in H
  | H : (_ =? _)%nat = false |- _ => apply Nat.eqb_neq in H
  | H : (_ <=? _)%nat = true |- _ => apply Nat.leb_le in H
  | H : (_ <=? _)%nat = false |- _ => apply Nat.leb_gt in H
  | H : (_ <? _)%nat = true |- _ => apply Nat.ltb_lt in H
  | H : (_ <? _)%nat = false |- _ => apply Nat.ltb_ge in H
  | H : (_ || _) = false |- _ => apply orb_false_elim in H; destruct H
  end.
Ltac bool_goal :=
  repeat match goal with
  | |- negb _ = true => apply negb_true_iff
  | |- negb _ = false => apply negb_false_iff
  | |- (_ && _) = true => apply andb_true_intro; split
  | |- (_ =? _)%nat = true => apply Nat.eqb_eq
  | |- (_ =? _)%nat = false => apply Nat.eqb_neq
  | |- (_ <=? _)%nat = true => apply Nat.leb_le
  | |- (_ <=? _)%nat = false => apply Nat.leb_gt
  | |- (_ <? _)%nat = true => apply Nat.ltb_lt
  | |- (_ <? _)%nat = false => apply Nat.ltb_ge
  end.
Ltac hlia := bool_goal; bool_hyps; pose_len; lit_len; cbn [length rem] in *; lia.

(** Combines [steps P k s0 st] with a new [steps P n st st']. *)
Ltac fuse :=
  match goal with
  | H1 : steps ?P ?k ?s0 ?st, H2 : steps ?P ?n ?st ?st' |- _ =>
    lazymatch s0 with st => fail | _ => idtac end;
    lazymatch st with st' => fail | _ => idtac end;
    pose_len; pose proof (steps_rem _ _ _ _ H2);
    let H := fresh "HS" in pose proof (steps_trans P k n s0 st st' H1 H2) as H; clear H1 H2
  end.
Ltac begin_steps P st := pose proof (steps_refl P st).
(** The initial state of the current proof is the source of the longest chain. *)
Ltac the_P k := match goal with _ : steps ?P _ _ _ |- _ => k P end.

(** One step of a weakest-precondition proof; side conditions by [hlia]. *)
Ltac side := try solve [hlia | apply Forall_anything | assumption | reflexivity].
Ltac hl1 :=
  cbn beta;
  lazymatch goal with
  | |- wp (bindM _ _) _ _ => apply wp_bind
  | |- wp (ret _) _ _ => apply wp_ret
  | |- wp get_rem _ _ => apply wp_get_rem
  | |- wp get_idx _ _ => apply wp_get_idx
  | |- wp get_loc _ _ => apply wp_get_loc
  | |- wp eof _ _ => apply wp_eof; intros ?
  | |- wp (when _ _) _ _ => apply wp_when; intros ?
  | |- wp (if true then ?a else _) ?Q ?s => change (wp a Q s)
  | |- wp (if false then _ else ?a) ?Q ?s => change (wp a Q s)
  | |- wp (if _ then _ else _) _ _ => apply wp_if; intros ?
  | |- wp (checkM _ _) _ _ => apply wp_check; [side|]
  | |- wp (at_ _ _) _ _ => apply wp_at; [side|intros ? ?]
  | |- wp (substr_from _ _) _ _ => apply wp_substr_from; [side|]
  | |- wp (remove_prefix _ _) _ _ => apply wp_remove_prefix; [side|]
  | |- wp (set_loc _) _ _ => the_P ltac:(fun P => apply (wp_set_loc P); intros ? ? ? ?; try fuse)
  | |- wp (advance _) _ _ =>
    the_P ltac:(fun P => apply (wp_advance P); [side|side|intros ? ? ?; try fuse])
  | |- wp (emit_and_advance _ _) _ _ =>
    the_P ltac:(fun P => apply (wp_emit_adv P); [side|intros ? ? ?; try fuse])
  | |- wp (emit_and_advance_c _ _ _) _ _ =>
    the_P ltac:(fun P => apply (wp_emit_adv_c P); [side|intros ? ? ?; try fuse])
  end.
Ltac hl := repeat hl1.
(** Closes [exists k, steps P k st st' /\ ...]. *)
Ltac done_steps :=
  match goal with
  | H : steps ?P ?k ?s ?s' |- exists k, steps ?P k ?s ?s' => exists k; exact H
  | H : steps ?P ?k ?s ?s' |- exists k, steps ?P k ?s ?s' /\ _ =>
    exists k; split; [exact H|try solve [intros; try discriminate; hlia]]
  end.
(** Closes [attempt P st b st']. *)
Ltac done_try := cbn beta; unfold attempt; cbn iota; first [reflexivity | done_steps; hlia].
(** Calls of functions already proved. *)
Ltac call lem :=
  cbn beta; first [ eapply wp_consumes; [apply lem|intros ? ? ? ? ?; try fuse]
                  | eapply wp_safe; [apply lem|intros ? ? ? ?; try fuse] ].

Lemma covered_highlighted pos ops : covered pos ops ->
  exists ty, Exists (fun o => op_covers o pos ty) ops.
Proof.
  intros ([b n ty f|] & Ho & H); [|contradiction]. exists ty. apply Exists_exists.
  exists (OEmit b n ty f). split; [assumption|]. cbn. auto.
Qed.

(** From operations in order to the statement about tokens. *)
Lemma always_from_ops (h : highlighter) :
  (forall src strict, exists ops, h src strict = Ok (true, ops) /\ ops_in 0 (length src) ops) ->
  always_highlights h.
Proof.
  intros H src strict coal cap Hc. destruct (H src strict) as (ops & E & Ho).
  destruct (token_output_spec coal cap (length src) ops Hc) as (cs & E2 & Ht & Hf).
  { now apply ops_in_bounds in Ho. }
  exists ops, cs. split; [exact E|]. split; [exact E2|]. rewrite Ht. now apply tokens_of_wf.
Qed.

Lemma highlights_from_ops (h : highlighter) src : in_order h src -> highlights h src.
Proof.
  intros H strict coal cap Hc. destruct (H strict) as (ops & E & Ho).
  destruct (token_output_spec coal cap (length src) ops Hc) as (cs & E2 & Ht & Hf).
  { now apply ops_in_bounds in Ho. }
  exists ops, cs. split; [exact E|]. split; [exact E2|]. rewrite Ht. now apply tokens_of_wf.
Qed.

Lemma always_except_from_ops (P : N -> Prop) (h : highlighter) :
  (forall src strict, exists ops, h src strict = Ok (true, ops) /\ ops_in 0 (length src) ops
     /\ forall pos c, nth_error src pos = Some c -> P c \/ covered pos ops) ->
  always_highlights_except P h.
Proof.
  intros H src strict coal cap Hc. destruct (H src strict) as (ops & E & Ho & Hcov).
  destruct (token_output_spec coal cap (length src) ops Hc) as (cs & E2 & Ht & Hf).
  { now apply ops_in_bounds in Ho. }
  exists ops, cs. split; [exact E|]. split; [exact E2|].
  split; [rewrite Ht; now apply tokens_of_wf|].
  intros pos c Hp Hn. destruct (Hcov pos c Hp) as [HP|Hv]; [contradiction|].
  destruct (covered_highlighted _ _ Hv) as (ty & Hx). exists ty. rewrite Ht.
  now apply tokens_of_highlighted.
Qed.
