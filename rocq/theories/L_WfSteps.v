(** * Highlighters that keep to UTF-8 boundaries: shared lemmas *)
From Coq Require Import List NArith ZArith Bool Arith Lia.
From Verif Require Import M_Base L_Base M_Chars S_Parse M_Parse L_Parse M_Types S_Tokens M_Emit S_Ops S_Utf8 M_Api M_Highlighter S_Highlight L_Highlighter L_Wf8.
Import ListNotations.

Definition ascii (c : N) : Prop := (c < 128)%N.

Lemma wf8_steps {S} P k (st st' : hst S) : steps P k st st' -> wf8 (rem st) -> Forall ascii (firstn k (rem st)) -> wf8 (rem st').
Proof. intros Hs W F. rewrite (steps_rem _ _ _ _ Hs). apply wf8_skip_ascii; assumption. Qed.
Lemma steps_wf8 {S} P k (st st' : hst S) : steps P k st st' -> wf8 (skipn k (rem st)) -> wf8 (rem st').
Proof. intros Hs. rewrite (steps_rem _ _ _ _ Hs). auto. Qed.

Lemma hex_ascii c : is_ascii_hex_digit c = true -> ascii c.
Proof. intros H. apply hex_iff in H. unfold hex, ascii in *. lia. Qed.
Lemma digit_ascii c : is_ascii_digit c = true -> ascii c.
Proof. unfold is_ascii_digit, between, ascii. rewrite andb_true_iff, !N.leb_le. lia. Qed.
Lemma html_space_ascii c : is_html_whitespace c = true -> ascii c.
Proof. unfold is_html_whitespace. rewrite !orb_true_iff, !N.eqb_eq. unfold ascii. lia. Qed.

Lemma Forall_firstn_S {A} (P : A -> Prop) l n c : nth_error l n = Some c -> Forall P (firstn n l) -> P c -> Forall P (firstn (n + 1) l).
Proof.
  revert n. induction l as [|x l IH]; intros [|n] H F Hc; cbn in *; try discriminate.
  - injection H as ->. constructor; auto.
  - inversion F; subst. constructor; auto.
Qed.
Lemma Forall_firstn_le {A} (P : A -> Prop) l n m : n <= m -> Forall P (firstn m l) -> Forall P (firstn n l).
Proof.
  intros L F. replace n with (Nat.min n m) by lia. rewrite <- firstn_firstn. rewrite <- (firstn_skipn n (firstn m l)) in F.
  apply Forall_app in F. tauto.
Qed.
Lemma Forall_firstn_add {A} (P : A -> Prop) (l : list A) a b : Forall P (firstn a l) -> Forall P (firstn b (skipn a l)) -> Forall P (firstn (a + b) l).
Proof.
  revert l. induction a as [|a IH]; intros l F1 F2; [exact F2|]. destruct l as [|x l]; [constructor|]. cbn in *. inversion F1; subst. constructor; auto.
Qed.
Lemma Forall_prefix_len (P : N -> Prop) p s : (forall c, p c = true -> P c) -> Forall P (firstn (prefix_len p s) s).
Proof. intros H. eapply Forall_impl; [exact H|]. apply (prefix_len_firstn_Forall p s); lia. Qed.

(** [when (len <> 0) (emit and advance)] *)
Lemma wp_flush_c {S} forced len ty (Q : unit -> hst S -> Prop) st : len <= length (rem st) ->
  (forall st', steps anything len st st' -> Q tt st') -> wp (when (negb (len =? 0)) (emit_and_advance_c forced len ty)) Q st.
Proof.
  intros L H. unfold when. destruct (Nat.eqb_spec len 0) as [->|N]; cbn [negb].
  - apply wp_ret. apply H. apply steps_refl.
  - apply (wp_emit_adv_c anything); [lia|]. intros st' Hs _. apply H. exact Hs.
Qed.

(** For examples. *)
Lemma low_scalars l : forallb (fun c => (c <=? 0xD7FF)%N) l = true -> Forall S_Utf8.scalar_value l.
Proof. intros H. apply Forall_forall. intros x Hx. rewrite forallb_forall in H. specialize (H x Hx). apply N.leb_le in H. unfold S_Utf8.scalar_value. lia. Qed.
Lemma valid_case cs s : forallb (fun c => (c <=? 0xD7FF)%N) cs = true -> s = concat (map S_Utf8.utf8_encoding cs) -> S_Utf8.valid_utf8 s.
Proof. intros H ->. exists cs. split; [apply low_scalars; exact H|reflexivity]. Qed.
