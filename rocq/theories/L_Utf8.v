(** * Lemmas about the UTF-8 model. *)
From Coq Require Import List NArith ZArith Bool Arith Lia.
From Verif Require Import M_Base L_Base S_Utf8 M_Utf8.
Import ListNotations.
Local Open Scope N_scope.

Ltac Zify.zify_post_hook ::= Z.to_euclidean_division_equations.

(** ** Facts about single bytes, by exhaustion *)
Lemma byte_sweep (P : N -> bool) :
  forallb P (map N.of_nat (seq 0 256)) = true -> forall b, b < 256 -> P b = true.
Proof.
  intros H b Hb. rewrite forallb_forall in H. apply H. apply in_map_iff.
  exists (N.to_nat b). split; [apply N2Nat.id|]. apply in_seq. lia.
Qed.

Ltac sweep f := let H := fresh in
  pose proof (byte_sweep f ltac:(vm_compute; reflexivity)) as H; cbn beta in H.

Definition seqlen (b : N) : nat :=
  if b <? 0x80 then 1%nat else if b <? 0xC2 then 0%nat else if b <? 0xE0 then 2%nat
  else if b <? 0xF0 then 3%nat else if b <? 0xF5 then 4%nat else 0%nat.

Lemma sequence_length_eq b : b < 256 -> sequence_length b = seqlen b.
Proof.
  intro Hb. sweep (fun b => Nat.eqb (sequence_length b) (seqlen b)).
  apply Nat.eqb_eq. auto.
Qed.

Definition cont (b : N) : bool := (0x80 <=? b) && (b <=? 0xBF).

Lemma cont_eq b : b < 256 -> (N.land b 0xC0 =? 0x80) = cont b.
Proof.
  intro Hb. sweep (fun b => Bool.eqb (N.land b 0xC0 =? 0x80) (cont b)).
  apply eqb_prop. auto.
Qed.

Definition second_ok (b0 b1 : N) : bool :=
  ((if b0 =? 0xE0 then 0xA0 else if b0 =? 0xF0 then 0x90 else 0x80) <=? b1) &&
  (b1 <=? (if b0 =? 0xED then 0x9F else if b0 =? 0xF4 then 0x8F else 0xBF)).

Ltac bdestr :=
  repeat match goal with
  | |- context[?a =? ?b] => destruct (N.eqb_spec a b)
  end;
  repeat match goal with
  | |- context[?a <? ?b] => destruct (N.ltb_spec a b)
  | |- context[?a <=? ?b] => destruct (N.leb_spec a b)
  end; subst; simpl; try reflexivity; try lia.

Lemma second_eq b0 b1 : b1 < 256 -> is_valid_second_utf8_byte b0 b1 = second_ok b0 b1.
Proof.
  intro H. unfold is_valid_second_utf8_byte. rewrite (cont_eq _ H). unfold cont, second_ok.
  bdestr.
Qed.

Lemma second_cont b0 b1 : second_ok b0 b1 = true -> cont b1 = true.
Proof.
  unfold second_ok, cont. rewrite !andb_true_iff, !N.leb_le.
  repeat match goal with |- context[?a =? ?b] => destruct (N.eqb_spec a b) end; lia.
Qed.

Lemma bits_tail b : b < 256 -> N.land b 0x3f = b mod 64.
Proof. intros _. exact (N.land_ones b 6). Qed.
Lemma bits_1f b : N.land b 0x1f = b mod 32.
Proof. exact (N.land_ones b 5). Qed.
Lemma bits_0f b : N.land b 0x0f = b mod 16.
Proof. exact (N.land_ones b 4). Qed.
Lemma bits_07 b : N.land b 0x07 = b mod 8.
Proof. exact (N.land_ones b 3). Qed.
Lemma bits_3f b : N.land b 0x3f = b mod 64.
Proof. exact (N.land_ones b 6). Qed.

Lemma lor_shift a b k : b < 2 ^ k -> N.lor (N.shiftl a k) b = a * 2 ^ k + b.
Proof.
  intro H. rewrite <- N.shiftl_mul_pow2. symmetry.
  rewrite <- N.lxor_lor, N.add_nocarry_lxor; auto;
    apply N.bits_inj; intro i; rewrite N.land_spec, N.bits_0;
    destruct (N.lt_ge_cases i k) as [L|L];
    try (rewrite N.shiftl_spec_low by exact L; reflexivity);
    apply andb_false_iff; right;
    destruct (N.eq_dec b 0) as [->|Hb]; try apply N.bits_0;
    apply N.bits_above_log2; apply N.log2_lt_pow2; try lia;
    apply N.lt_le_trans with (2 ^ k); auto; apply N.pow_le_mono_r; lia.
Qed.

Lemma lor2 a b : b < 64 -> N.lor (N.shiftl a 6) b = a * 64 + b.
Proof. intro. rewrite lor_shift; auto. Qed.
Lemma lor3 a b c : b < 64 -> c < 64 ->
  N.lor (N.lor (N.shiftl a 12) (N.shiftl b 6)) c = a * 4096 + b * 64 + c.
Proof.
  intros. rewrite <- N.lor_assoc, lor2 by lia.
  rewrite lor_shift by (change (2 ^ 12) with 4096; lia). change (2 ^ 12) with 4096. lia.
Qed.
Lemma lor4 a b c d : b < 64 -> c < 64 -> d < 64 ->
  N.lor (N.lor (N.lor (N.shiftl a 18) (N.shiftl b 12)) (N.shiftl c 6)) d
  = a * 262144 + b * 4096 + c * 64 + d.
Proof.
  intros. rewrite <- !N.lor_assoc, lor2 by lia.
  rewrite (lor_shift b) by (change (2 ^ 12) with 4096; lia). change (2 ^ 12) with 4096.
  rewrite lor_shift by (change (2 ^ 18) with 262144; lia). change (2 ^ 18) with 262144. lia.
Qed.

(** ** The decoder as arithmetic on ranges *)
Definition val2 b0 b1 := (b0 mod 32) * 64 + b1 mod 64.
Definition val3 b0 b1 b2 := (b0 mod 16) * 4096 + b1 mod 64 * 64 + b2 mod 64.
Definition val4 b0 b1 b2 b3 := (b0 mod 8) * 262144 + b1 mod 64 * 4096 + b2 mod 64 * 64 + b3 mod 64.

Lemma decode_unchecked_eq s len : (1 <= len <= 4)%nat -> decode_unchecked s len =
  Ok (match len with
      | 1%nat => at_ s 0
      | 2%nat => val2 (at_ s 0) (at_ s 1)
      | 3%nat => val3 (at_ s 0) (at_ s 1) (at_ s 2)
      | _ => val4 (at_ s 0) (at_ s 1) (at_ s 2) (at_ s 3)
      end).
Proof.
  intro H. unfold decode_unchecked.
  destruct len as [|[|[|[|[|len]]]]]; try lia; simpl; f_equal; unfold val2, val3, val4;
    rewrite ?bits_1f, ?bits_0f, ?bits_07, ?bits_3f.
  - apply lor2. lia.
  - apply lor3; lia.
  - apply lor4; lia.
Qed.

(** Byte [i] is acceptable given the bytes before it. *)
Definition step_ok (b0 : N) (i : nat) (b : N) : bool :=
  if (i =? 1)%nat then second_ok b0 b else cont b.

Lemma continuation_ok_eq b0 b i : b < 256 -> continuation_ok b0 b i = step_ok b0 i b.
Proof.
  intro H. unfold continuation_ok, step_ok. rewrite second_eq, cont_eq by exact H. reflexivity.
Qed.

(** Number of acceptable bytes from position [i] on, at most [k]. *)
Fixpoint good (b0 : N) (i k : nat) (t : str) : nat :=
  match k, t with
  | S k, b :: t => if step_ok b0 i b then S (good b0 (S i) k t) else O
  | _, _ => O
  end.

Definition value_of (s : str) (len : nat) : N :=
  match len with
  | 1%nat => at_ s 0
  | 2%nat => val2 (at_ s 0) (at_ s 1)
  | 3%nat => val3 (at_ s 0) (at_ s 1) (at_ s 2)
  | _ => val4 (at_ s 0) (at_ s 1) (at_ s 2) (at_ s 3)
  end.

(** [inl (c, n)]: starts with a well-formed sequence; [inr k]: maximal subpart length. *)
Definition dec (s : str) : option (N * nat) + nat :=
  match s with
  | [] => inr 0%nat
  | b0 :: t =>
    match seqlen b0 with
    | O => inr 1%nat
    | S e => let g := good b0 1 e t in
             if (g =? e)%nat then inl (Some (value_of s (S e), S e)) else inr (S g)
    end
  end.

Lemma good_le b0 i k t : (good b0 i k t <= k)%nat /\ (good b0 i k t <= length t)%nat.
Proof.
  revert i t. induction k as [|k IH]; intros i t; destruct t as [|b t]; simpl; try lia.
  destruct (step_ok b0 i b); [|lia]. specialize (IH (S i) t). lia.
Qed.

Lemma seqlen_le b : (seqlen b <= 4)%nat.
Proof. unfold seqlen. bdestr. Qed.

Lemma bytes_cons b t : bytes (b :: t) <-> b < 256 /\ bytes t.
Proof. unfold bytes. rewrite Forall_cons_iff. tauto. Qed.

Lemma at_padded s i : (i < 4)%nat -> at_ (first_4_padded s) i = at_ s i.
Proof.
  intro H. unfold at_, first_4_padded.
  do 4 (destruct s as [|? s]; [do 4 (destruct i as [|i]; [reflexivity|]); lia|]).
  simpl. do 4 (destruct i as [|i]; [reflexivity|]). lia.
Qed.

(** Explicit short prefixes of a string. *)
Lemma good_full1 b0 b1 t : good b0 1 1 (b1 :: t) = (if second_ok b0 b1 then 1 else 0)%nat.
Proof. simpl. unfold step_ok; simpl. destruct (second_ok b0 b1); reflexivity. Qed.

Lemma is_valid_sequence_eq s b0 t : s = b0 :: t -> bytes s -> seqlen b0 <> 0%nat ->
  (seqlen b0 <= length s)%nat ->
  is_valid_sequence (first_4_padded s) (seqlen b0)
  = Ok (good b0 1 (seqlen b0 - 1) t =? seqlen b0 - 1)%nat.
Proof.
  intros -> Hb Hs Hl. apply bytes_cons in Hb as [H0 Ht].
  unfold is_valid_sequence, matches_expectation.
  cbn [forallb]. rewrite !at_padded by lia.
  pose proof (fun f => byte_sweep f) as SW.
  unfold seqlen in *.
  destruct (N.ltb_spec b0 0x80).
  { cbn. f_equal. rewrite !N.land_0_r. cbn.
    assert (E: (N.land b0 0x80 =? 0) = true).
    { sweep (fun b => implb (b <? 0x80) (N.land b 0x80 =? 0)).
      specialize (H1 b0 H0). apply N.ltb_lt in H. rewrite H in H1. exact H1. }
    rewrite E. reflexivity. }
  destruct (N.ltb_spec b0 0xC2); [easy|].
  destruct (N.ltb_spec b0 0xE0).
  { destruct t as [|b1 t]; [simpl in Hl; lia|]. apply bytes_cons in Ht as [H1' _].
    cbn [Nat.sub]. rewrite good_full1.
    cbn -[N.land N.ltb]. f_equal. rewrite !N.land_0_r. cbn -[N.land N.ltb].
    assert (E: (N.land b0 0xE0 =? 0xC0) = true).
    { sweep (fun b => implb ((0xC2 <=? b) && (b <? 0xE0)) (N.land b 0xE0 =? 0xC0)).
      specialize (H3 b0 H0). apply N.ltb_lt in H2. apply N.leb_le in H1. rewrite H1, H2 in H3. exact H3. }
    rewrite E, (cont_eq _ H1').
    replace (b0 <? 0xC2) with false by (symmetry; apply N.ltb_ge; lia).
    assert (S: second_ok b0 b1 = cont b1) by (unfold second_ok, cont; bdestr).
    rewrite S. destruct (cont b1); reflexivity. }
  destruct (N.ltb_spec b0 0xF0).
  { destruct t as [|b1 [|b2 t]]; try (simpl in Hl; lia).
    apply bytes_cons in Ht as [H1' Ht]. apply bytes_cons in Ht as [H2' _].
    cbn -[N.land N.ltb N.leb]. f_equal. rewrite !N.land_0_r. cbn -[N.land N.ltb N.leb].
    assert (E: (N.land b0 0xF0 =? 0xE0) = true).
    { sweep (fun b => implb ((0xE0 <=? b) && (b <? 0xF0)) (N.land b 0xF0 =? 0xE0)).
      specialize (H4 b0 H0). apply N.ltb_lt in H3. apply N.leb_le in H2. rewrite H2, H3 in H4. exact H4. }
    rewrite E, (cont_eq _ H1'), (cont_eq _ H2'). unfold step_ok. cbn -[N.land N.ltb N.leb].
    assert (S: second_ok b0 b1 = cont b1 && negb ((b0 =? 0xE0) && (b1 <? 0xA0))
                 && negb ((b0 =? 0xED) && (0xA0 <=? b1))) by (unfold second_ok, cont; bdestr).
    rewrite S. destruct (cont b1), (cont b2), ((b0 =? 0xE0) && (b1 <? 0xA0)),
      ((b0 =? 0xED) && (0xA0 <=? b1)); reflexivity. }
  destruct (N.ltb_spec b0 0xF5); [|easy].
  { destruct t as [|b1 [|b2 [|b3 t]]]; try (simpl in Hl; lia).
    apply bytes_cons in Ht as [H1' Ht]. apply bytes_cons in Ht as [H2' Ht].
    apply bytes_cons in Ht as [H3' _].
    cbn -[N.land N.ltb N.leb]. f_equal.
    assert (E: (N.land b0 0xF8 =? 0xF0) = true).
    { sweep (fun b => implb ((0xF0 <=? b) && (b <? 0xF5)) (N.land b 0xF8 =? 0xF0)).
      specialize (H5 b0 H0). apply N.ltb_lt in H4. apply N.leb_le in H3. rewrite H3, H4 in H5. exact H5. }
    rewrite E, (cont_eq _ H1'), (cont_eq _ H2'), (cont_eq _ H3'). unfold step_ok. cbn -[N.land N.ltb N.leb].
    replace (0xF4 <? b0) with false by (symmetry; apply N.ltb_ge; lia).
    assert (S: second_ok b0 b1 = cont b1 && negb ((b0 =? 0xF0) && (b1 <? 0x90))
                 && negb ((b0 =? 0xF4) && (0x8F <? b1))) by (unfold second_ok, cont; bdestr).
    rewrite S. destruct (cont b1), (cont b2), (cont b3), ((b0 =? 0xF0) && (b1 <? 0x90)),
      ((b0 =? 0xF4) && (0x8F <? b1)); reflexivity. }
Qed.

Lemma value_padded s len : value_of (first_4_padded s) len = value_of s len.
Proof. unfold value_of. rewrite !at_padded by lia. reflexivity. Qed.

(** The strict decoder. *)
Lemma decode_and_length_dec s : bytes s ->
  exists r, decode_and_length s = Ok r /\
    match dec s with
    | inl (Some v) => r = Value v
    | _ => exists e, r = Unexpected e
    end.
Proof.
  intro Hb. destruct s as [|b0 t]; [eexists; split; [reflexivity|]; simpl; eauto|].
  pose proof Hb as Hb'. apply bytes_cons in Hb' as [H0 Ht].
  unfold decode_and_length, dec. rewrite sequence_length_eq by exact H0.
  destruct (seqlen b0) as [|e] eqn:E; [simpl; eauto|].
  cbn [Nat.eqb]. destruct (Nat.ltb_spec (length (b0 :: t)) (S e)) as [L|L].
  - eexists; split; [reflexivity|].
    destruct (Nat.eqb_spec (good b0 1 e t) e) as [G|G]; [|eauto].
    pose proof (good_le b0 1 e t). simpl in L. lia.
  - unfold decode_sequence.
    pose proof (is_valid_sequence_eq (b0 :: t) b0 t eq_refl Hb) as V.
    rewrite E in V. rewrite V by (auto; lia). cbn [bind Nat.sub]. rewrite Nat.sub_0_r.
    destruct (Nat.eqb_spec (good b0 1 e t) e) as [G|G]; cbn [negb].
    + pose proof (seqlen_le b0). rewrite decode_unchecked_eq by lia.
      cbn [bind]. eexists; split; [reflexivity|].
      rewrite <- (value_padded (b0 :: t)). unfold value_of.
      destruct e as [|[|[|[|e]]]]; try lia; reflexivity.
    + cbn [bind]. eexists; split; [reflexivity|]. eauto.
Qed.

(** ** The replacing decoders *)
Definition dec_repl (s : str) : N * nat :=
  match dec s with inl (Some v) => v | inl None => (REPLACEMENT, 0%nat) | inr k => (REPLACEMENT, k) end.

Lemma nth_error_skip (s : str) i b r : skipn i s = b :: r -> nth_error s i = Some b.
Proof.
  revert s. induction i as [|i IH]; intros s H; [simpl in H; subst; reflexivity|].
  destruct s as [|x s]; [discriminate|]. apply IH. exact H.
Qed.

Lemma skipn_nil_len {A} i (s : list A) : skipn i s = [] -> (length s <= i)%nat.
Proof. intro H. assert (L: length (skipn i s) = 0%nat) by now rewrite H. rewrite skipn_length in L. lia. Qed.

Lemma continuation_loop_eq s b0 : bytes s -> Z.of_nat (length s) = int_of_size (length s) ->
  forall k i, (i <= length s)%nat ->
  continuation_loop s (int_of_size (length s)) b0 k i
  = Ok (let g := good b0 i k (skipn i s) in if (g =? k)%nat then None else Some (i + g)%nat).
Proof.
  intros Hb Hsz k. induction k as [|k IH]; intros i Hi; [reflexivity|].
  cbn [continuation_loop good]. rewrite <- Hsz.
  destruct (skipn i s) as [|b r] eqn:E.
  - apply skipn_nil_len in E. replace (Z.of_nat (length s) <=? Z.of_nat i)%Z with true
      by (symmetry; apply Z.leb_le; lia). simpl. f_equal. f_equal. lia.
  - assert (L: (i < length s)%nat).
    { destruct (Nat.lt_ge_cases i (length s)); auto. rewrite skipn_all2 in E by lia. discriminate. }
    replace (Z.of_nat (length s) <=? Z.of_nat i)%Z with false by (symmetry; apply Z.leb_gt; lia).
    rewrite (nth_error_skip _ _ _ _ E).
    assert (Hbb: b < 256).
    { unfold bytes in Hb. rewrite Forall_forall in Hb. apply Hb.
      rewrite <- (firstn_skipn i s), E. apply in_app_iff. right. left. reflexivity. }
    rewrite continuation_ok_eq by exact Hbb.
    destruct (step_ok b0 i b) eqn:S1; cbn [negb].
    + rewrite Hsz, IH by lia.
      assert (E2: skipn (S i) s = r).
      { replace (S i) with (i + 1)%nat by lia. rewrite <- skipn_skipn, E. reflexivity. }
      rewrite E2. cbv zeta. change (S (good b0 (S i) k r) =? S k)%nat with (good b0 (S i) k r =? k)%nat.
      destruct (good b0 (S i) k r =? k)%nat; f_equal. f_equal. lia.
    + simpl. f_equal. f_equal. lia.
Qed.

Lemma int_of_size_small n : (Z.of_nat n < 2147483648)%Z -> Z.of_nat n = int_of_size n.
Proof.
  intro H. unfold int_of_size. rewrite Z.mod_small by lia.
  destruct (Z.ltb_spec (Z.of_nat n) 2147483648); lia.
Qed.

Lemma replacement_eq s : bytes s -> (Z.of_nat (length s) < 2147483648)%Z ->
  decode_and_length_or_replacement s = Ok (dec_repl s).
Proof.
  intros Hb Hsz. destruct s as [|b0 t]; [reflexivity|].
  unfold decode_and_length_or_replacement, dec_repl, dec.
  pose proof Hb as Hb'. apply bytes_cons in Hb' as [H0 Ht]. rewrite sequence_length_eq by exact H0.
  destruct (seqlen b0) as [|e] eqn:E; [reflexivity|]. cbn [Nat.eqb]. rewrite Nat.sub_succ, Nat.sub_0_r.
  rewrite continuation_loop_eq by (auto using int_of_size_small; simpl; lia).
  cbn [bind skipn]. cbv zeta. destruct (good b0 1 e t =? e)%nat; [|reflexivity].
  pose proof (seqlen_le b0). rewrite decode_unchecked_eq by lia. cbn [bind].
  rewrite <- (value_padded (b0 :: t)). unfold value_of.
  destruct e as [|[|[|[|e]]]]; try lia; reflexivity.
Qed.

Lemma continuation_array_eq s b0 : bytes s ->
  forall k i, (i + k <= length s)%nat ->
  continuation_loop_array s b0 k i
  = (let g := good b0 i k (skipn i s) in if (g =? k)%nat then None else Some (i + g)%nat).
Proof.
  intros Hb k. induction k as [|k IH]; intros i Hi; [reflexivity|].
  cbn [continuation_loop_array good].
  destruct (skipn i s) as [|b r] eqn:E; [apply skipn_nil_len in E; lia|].
  assert (Hn: at_ s i = b).
  { unfold at_. apply nth_error_nth. eapply nth_error_skip; eauto. }
  rewrite Hn.
  assert (Hbb: b < 256).
  { unfold bytes in Hb. rewrite Forall_forall in Hb. apply Hb.
    rewrite <- (firstn_skipn i s), E. apply in_app_iff. right. left. reflexivity. }
  rewrite continuation_ok_eq by exact Hbb.
  destruct (step_ok b0 i b) eqn:S1; cbn [negb].
  + rewrite IH by lia.
    assert (E2: skipn (S i) s = r).
    { replace (S i) with (i + 1)%nat by lia. rewrite <- skipn_skipn, E. reflexivity. }
    rewrite E2. cbv zeta. change (S (good b0 (S i) k r) =? S k)%nat with (good b0 (S i) k r =? k)%nat.
    destruct (good b0 (S i) k r =? k)%nat; f_equal. lia.
  + simpl. f_equal. lia.
Qed.

Lemma good_firstn b0 i k t m : (k <= m)%nat -> good b0 i k (firstn m t) = good b0 i k t.
Proof.
  revert i t m. induction k as [|k IH]; intros i t m H; [reflexivity|].
  destruct m as [|m]; [lia|]. destruct t as [|b t]; [reflexivity|].
  cbn [firstn good]. rewrite IH by lia. reflexivity.
Qed.

Lemma bytes_firstn n s : bytes s -> bytes (firstn n s).
Proof. intro H. rewrite <- (firstn_skipn n s) in H. apply Forall_app in H. apply H. Qed.
Lemma bytes_skipn n s : bytes s -> bytes (skipn n s).
Proof. intro H. rewrite <- (firstn_skipn n s) in H. apply Forall_app in H. apply H. Qed.

Lemma replacement_array_eq s : bytes s -> (4 <= length s)%nat ->
  decode_and_length_or_replacement_array (firstn 4 s) = Ok (dec_repl s).
Proof.
  intros Hb Hl. destruct s as [|b0 t]; [simpl in Hl; lia|].
  unfold decode_and_length_or_replacement_array, dec_repl, dec.
  change (at_ (firstn 4 (b0 :: t)) 0) with b0.
  pose proof Hb as Hb'. apply bytes_cons in Hb' as [H0 Ht]. rewrite sequence_length_eq by exact H0.
  destruct (seqlen b0) as [|e] eqn:E; [reflexivity|]. cbn [Nat.eqb]. rewrite Nat.sub_succ, Nat.sub_0_r.
  pose proof (seqlen_le b0).
  rewrite continuation_array_eq; [|now apply bytes_firstn|rewrite firstn_length_le; lia].
  change (skipn 1 (firstn 4 (b0 :: t))) with (firstn 3 t). rewrite good_firstn by lia.
  cbv zeta. destruct (good b0 1 e t =? e)%nat; [|reflexivity].
  rewrite decode_unchecked_eq by lia. cbn [bind]. do 2 f_equal.
  simpl in Hl. destruct t as [|b1 [|b2 [|b3 t]]]; simpl in Hl; try lia.
  unfold value_of. destruct e as [|[|[|[|e]]]]; try lia; reflexivity.
Qed.
