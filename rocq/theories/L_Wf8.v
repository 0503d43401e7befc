(** * Sources that do not end in the middle of a UTF-8 sequence, and UTF-8 boundaries. *)
From Coq Require Import List NArith ZArith Bool Arith Lia.
From Verif Require Import M_Base L_Base S_Utf8 M_Utf8 L_Utf8 L_Utf8b L_Any L_Highlighter S_Highlight.
Import ListNotations.

(** The same with the model's sequence_length. *)
Definition fits (s : str) : Prop := forall k c, nth_error s k = Some c -> k + sequence_length c <= length s.

Lemma fits_untruncated s : bytes s -> untruncated s -> fits s.
Proof.
  intros B H k c Hk. rewrite sequence_length_eq; [exact (H _ _ Hk)|].
  apply nth_error_In in Hk. unfold bytes in B. rewrite Forall_forall in B. exact (B _ Hk).
Qed.

Lemma fits_skip s k : fits s -> fits (skipn k s).
Proof.
  intros H j c Hj. rewrite nth_error_skipn in Hj. specialize (H _ _ Hj).
  assert (k + j < length s) by (apply nth_error_Some; congruence). rewrite skipn_length. lia.
Qed.

(** The beginning of a sequence or the end of the text, and so on to the end. *)
Inductive wf8 : str -> Prop :=
| wf8_nil : wf8 []
| wf8_cons c t r : sequence_length c = S (length t) -> Forall (fun x => (128 <= x < 192)%N) t -> wf8 r ->
    wf8 (c :: t ++ r).

Lemma seqlen_cont x : (128 <= x < 192)%N -> sequence_length x = 0.
Proof.
  intros H. rewrite sequence_length_eq by lia. unfold seqlen.
  destruct (N.ltb_spec x 0x80); [lia|]. destruct (N.ltb_spec x 0xC2); [reflexivity|lia].
Qed.
Lemma seqlen_ascii x : (x < 128)%N -> sequence_length x = 1.
Proof. intros H. rewrite sequence_length_eq by lia. apply seqlen_1. exact H. Qed.

Lemma wf8_app s t : wf8 s -> wf8 t -> wf8 (s ++ t).
Proof.
  induction 1 as [|c u r H1 H2 H3 IH]; intros Ht; [exact Ht|]. cbn [app]. rewrite <- app_assoc. constructor; auto.
Qed.

Lemma wf8_encoding c : scalar_value c -> wf8 (utf8_encoding c).
Proof.
  intros Hc. destruct (first_of_encoding c [] Hc) as (b0 & r & E & Hb & Hs). rewrite app_nil_r in E.
  assert (W : well_formed_sequence (utf8_encoding c)) by (apply wf_encoding; eauto).
  rewrite E in *. rewrite <- (app_nil_r r). constructor; [|clear Hs|constructor].
  - rewrite sequence_length_eq, Hs by exact Hb. reflexivity.
  - destruct W as (row & Hrow & F). inversion F as [|x0 y0 r0 row0 Hxy F2 E1 E2]. subst.
    clear F Hxy E Hb. cbn [In table_3_7] in Hrow. unfold S_Utf8.in_range in F2.
    repeat (destruct Hrow as [Hrow|Hrow]; [injection Hrow as <- <-; clear - F2;
      repeat match goal with X : Forall2 _ _ _ |- _ => inversion X; clear X; subst end;
      cbn [fst snd] in *; repeat constructor; lia|]).
    destruct Hrow.
Qed.

Lemma valid_wf8 s : valid_utf8 s -> wf8 s.
Proof.
  intros (cs & H & ->). induction H as [|c cs Hc Hcs IH]; cbn [map concat]; [constructor|].
  apply wf8_app; [apply wf8_encoding; exact Hc|exact IH].
Qed.

Lemma wf8_fits s : wf8 s -> fits s.
Proof.
  induction 1 as [|c t r H1 H2 H3 IH]; intros k x Hk; [destruct k; discriminate|].
  cbn [length]. rewrite app_length. destruct k as [|k]; cbn [nth_error] in Hk; [injection Hk as <-; lia|].
  destruct (Nat.lt_ge_cases k (length t)) as [L|L].
  - rewrite nth_error_app1 in Hk by exact L. apply nth_error_In in Hk. rewrite Forall_forall in H2.
    rewrite (seqlen_cont _ (H2 _ Hk)). lia.
  - rewrite nth_error_app2 in Hk by exact L. specialize (IH _ _ Hk). lia.
Qed.
Lemma valid_fits s : valid_utf8 s -> fits s.
Proof. intros H. apply wf8_fits, valid_wf8, H. Qed.

(** Before and after an ASCII character there is a boundary. *)
Lemma wf8_at s : wf8 s -> forall k c, nth_error s k = Some c -> (c < 128)%N -> wf8 (skipn k s).
Proof.
  induction 1 as [|c t r H1 H2 H3 IH]; intros k x Hk Hx; [destruct k; discriminate|].
  destruct k as [|k]; [constructor; assumption|]. cbn [nth_error] in Hk. cbn [skipn].
  destruct (Nat.lt_ge_cases k (length t)) as [L|L].
  - rewrite nth_error_app1 in Hk by exact L. apply nth_error_In in Hk. rewrite Forall_forall in H2.
    specialize (H2 _ Hk). cbn beta in H2. lia.
  - rewrite nth_error_app2 in Hk by exact L. rewrite skipn_app, skipn_all2 by exact L. cbn [app].
    eapply IH; eassumption.
Qed.
Lemma wf8_tail c s : wf8 (c :: s) -> (c < 128)%N -> wf8 s.
Proof.
  intros H Hc. inversion H as [|? t r H1 H2 H3]; subst. rewrite seqlen_ascii in H1 by exact Hc.
  destruct t; [exact H3|discriminate H1].
Qed.
Lemma wf8_after s k c : wf8 s -> nth_error s k = Some c -> (c < 128)%N -> wf8 (skipn (k + 1) s).
Proof.
  intros H Hk Hc. pose proof (wf8_at _ H _ _ Hk Hc) as W. rewrite <- skipn_skipn.
  destruct (skipn k s) as [|d u] eqn:E; [constructor|].
  assert (d = c). { rewrite <- (Nat.add_0_r k), <- nth_error_skipn, E in Hk. injection Hk as ->. reflexivity. }
  subst d. cbn [skipn]. eapply wf8_tail; eassumption.
Qed.
(** After all of an ASCII prefix there is a boundary. *)
Lemma wf8_prefix p s : Forall (fun c => (c < 128)%N) p -> wf8 (p ++ s) -> wf8 s.
Proof. induction 1 as [|c p Hc _ IH]; intros H; [exact H|]. apply IH. eapply wf8_tail; [exact H|exact Hc]. Qed.
Lemma wf8_skip_ascii n s : Forall (fun c => (c < 128)%N) (firstn n s) -> wf8 s -> wf8 (skipn n s).
Proof. intros F H. rewrite <- (firstn_skipn n s) in H. eapply wf8_prefix; eassumption. Qed.
(** A whole sequence. *)
Lemma wf8_sequence c s : wf8 (c :: s) -> 1 <= sequence_length c <= length (c :: s)
  /\ wf8 (skipn (sequence_length c) (c :: s)).
Proof.
  intros H. inversion H as [|? t r H1 H2 H3]; subst. rewrite H1. cbn [length skipn]. rewrite app_length, skipn_app_exact.
  split; [lia|exact H3].
Qed.

Lemma repl_encoding c t : scalar_value c -> bytes t -> (Z.of_nat (length (utf8_encoding c ++ t)) < 2147483648)%Z ->
  decode_and_length_or_replacement (utf8_encoding c ++ t) = Ok (c, length (utf8_encoding c)).
Proof.
  intros H Hb Hl. rewrite replacement_eq; [|apply Forall_app; split; [apply encoding_bytes; exact H|exact Hb]|exact Hl].
  unfold dec_repl. rewrite dec_complete by exact H. reflexivity.
Qed.

Lemma repl_ascii c t : (c < 128)%N -> decode_and_length_or_replacement (c :: t) = Ok (c, 1).
Proof.
  intros H. unfold decode_and_length_or_replacement. rewrite seqlen_ascii by exact H. cbn [Nat.eqb Nat.sub continuation_loop bind].
  rewrite decode_unchecked_eq by lia. cbn [bind]. rewrite at_padded by lia. reflexivity.
Qed.
