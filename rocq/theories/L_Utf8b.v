(** * The UTF-8 model against the specification. *)
From Coq Require Import List NArith ZArith Bool Arith Lia.
From Verif Require Import M_Base L_Base S_Utf8 M_Utf8 L_Utf8.
Import ListNotations.
Local Open Scope N_scope.

Ltac Zify.zify_post_hook ::= Z.to_euclidean_division_equations.

Ltac ubool := rewrite ?andb_true_iff, ?N.leb_le, ?N.ltb_lt, ?N.eqb_eq, ?N.leb_gt, ?N.ltb_ge in *.

Lemma cont_range b : cont b = true <-> 0x80 <= b <= 0xBF.
Proof. unfold cont. rewrite andb_true_iff, !N.leb_le. tauto. Qed.

Lemma second_range b0 b1 : second_ok b0 b1 = true <->
  0x80 <= b1 <= 0xBF /\ (b0 = 0xE0 -> 0xA0 <= b1) /\ (b0 = 0xF0 -> 0x90 <= b1) /\
  (b0 = 0xED -> b1 <= 0x9F) /\ (b0 = 0xF4 -> b1 <= 0x8F).
Proof.
  unfold second_ok. rewrite andb_true_iff, !N.leb_le.
  repeat match goal with |- context[?a =? ?b] => destruct (N.eqb_spec a b) end; lia.
Qed.

Lemma enc1 c : c < 0x80 -> utf8_encoding c = [c].
Proof. intro H. unfold utf8_encoding. apply N.ltb_lt in H. now rewrite H. Qed.

Lemma enc2 c : 0x80 <= c < 0x800 -> utf8_encoding c = [0xC0 + c / 64; 0x80 + c mod 64].
Proof.
  intros [H1 H2]. unfold utf8_encoding. apply N.ltb_ge in H1. apply N.ltb_lt in H2.
  now rewrite H1, H2.
Qed.
Lemma enc3 c : 0x800 <= c < 0x10000 ->
  utf8_encoding c = [0xE0 + c / 4096; 0x80 + c / 64 mod 64; 0x80 + c mod 64].
Proof.
  intros [H1 H2]. unfold utf8_encoding. assert (H0: 0x80 <= c) by lia. apply N.ltb_ge in H1, H0.
  apply N.ltb_lt in H2. now rewrite H0, H1, H2.
Qed.
Lemma enc4 c : 0x10000 <= c ->
  utf8_encoding c = [0xF0 + c / 262144; 0x80 + c / 4096 mod 64; 0x80 + c / 64 mod 64; 0x80 + c mod 64].
Proof.
  intros H1. unfold utf8_encoding. assert (H0: 0x80 <= c) by lia. assert (H2: 0x800 <= c) by lia.
  apply N.ltb_ge in H1, H0, H2. now rewrite H0, H1, H2.
Qed.

Lemma val2_enc b0 b1 : 0xC2 <= b0 < 0xE0 -> 0x80 <= b1 <= 0xBF ->
  scalar_value (val2 b0 b1) /\ utf8_encoding (val2 b0 b1) = [b0; b1].
Proof.
  intros H0 H1. assert (E: val2 b0 b1 = (b0 - 0xC0) * 64 + (b1 - 0x80)) by (unfold val2; lia).
  rewrite E. split; [unfold scalar_value; lia|].
  rewrite enc2 by lia. repeat f_equal; lia.
Qed.

Lemma val3_enc b0 b1 b2 : 0xE0 <= b0 < 0xF0 -> second_ok b0 b1 = true -> 0x80 <= b2 <= 0xBF ->
  scalar_value (val3 b0 b1 b2) /\ utf8_encoding (val3 b0 b1 b2) = [b0; b1; b2].
Proof.
  intros H0 H1 H2. apply second_range in H1 as (H1 & Ha & _ & Hb & _).
  assert (E: val3 b0 b1 b2 = (b0 - 0xE0) * 4096 + (b1 - 0x80) * 64 + (b2 - 0x80))
    by (unfold val3; lia).
  rewrite E.
  assert (R: 0x800 <= (b0 - 0xE0) * 4096 + (b1 - 0x80) * 64 + (b2 - 0x80) < 0x10000).
  { destruct (N.eq_dec b0 0xE0); [specialize (Ha e)|]; lia. }
  split.
  - split; [lia|]. intro. destruct (N.eq_dec b0 0xED); [specialize (Hb e)|]; lia.
  - rewrite enc3 by exact R. repeat f_equal; lia.
Qed.

Lemma val4_enc b0 b1 b2 b3 : 0xF0 <= b0 < 0xF5 -> second_ok b0 b1 = true ->
  0x80 <= b2 <= 0xBF -> 0x80 <= b3 <= 0xBF ->
  scalar_value (val4 b0 b1 b2 b3) /\ utf8_encoding (val4 b0 b1 b2 b3) = [b0; b1; b2; b3].
Proof.
  intros H0 H1 H2 H3. apply second_range in H1 as (H1 & _ & Ha & _ & Hb).
  assert (E: val4 b0 b1 b2 b3 = (b0 - 0xF0) * 262144 + (b1 - 0x80) * 4096 + (b2 - 0x80) * 64 + (b3 - 0x80))
    by (unfold val4; lia).
  rewrite E.
  assert (R: 0x10000 <= (b0 - 0xF0) * 262144 + (b1 - 0x80) * 4096 + (b2 - 0x80) * 64 + (b3 - 0x80) <= 0x10FFFF).
  { destruct (N.eq_dec b0 0xF0); [specialize (Ha e)|];
      (destruct (N.eq_dec b0 0xF4); [specialize (Hb ltac:(assumption))|]); lia. }
  split.
  - unfold scalar_value. lia.
  - rewrite enc4 by lia. repeat f_equal; lia.
Qed.

Lemma seqlen_1 b : seqlen b = 1%nat <-> b < 0x80.
Proof. unfold seqlen. repeat match goal with |- context[?a <? ?b] => destruct (N.ltb_spec a b) end; split; intros; try discriminate; try lia; reflexivity. Qed.
Lemma seqlen_2 b : seqlen b = 2%nat <-> 0xC2 <= b < 0xE0.
Proof. unfold seqlen. repeat match goal with |- context[?a <? ?b] => destruct (N.ltb_spec a b) end; split; intros; try discriminate; try lia; reflexivity. Qed.
Lemma seqlen_3 b : seqlen b = 3%nat <-> 0xE0 <= b < 0xF0.
Proof. unfold seqlen. repeat match goal with |- context[?a <? ?b] => destruct (N.ltb_spec a b) end; split; intros; try discriminate; try lia; reflexivity. Qed.
Lemma seqlen_4 b : seqlen b = 4%nat <-> 0xF0 <= b < 0xF5.
Proof. unfold seqlen. repeat match goal with |- context[?a <? ?b] => destruct (N.ltb_spec a b) end; split; intros; try discriminate; try lia; reflexivity. Qed.

Lemma good1 b0 t : good b0 1 1 t = 1%nat -> exists b1 t', t = b1 :: t' /\ second_ok b0 b1 = true.
Proof.
  destruct t as [|b1 t]; simpl; [discriminate|]. unfold step_ok; simpl.
  destruct (second_ok b0 b1) eqn:E; [|discriminate]. eauto.
Qed.
Lemma good2 b0 t : good b0 1 2 t = 2%nat ->
  exists b1 b2 t', t = b1 :: b2 :: t' /\ second_ok b0 b1 = true /\ cont b2 = true.
Proof.
  destruct t as [|b1 [|b2 t]]; cbn [good]; unfold step_ok; cbn [Nat.eqb];
    try destruct (second_ok b0 b1) eqn:E; try discriminate.
  destruct (cont b2) eqn:E2; try discriminate. eauto 8.
Qed.
Lemma good3 b0 t : good b0 1 3 t = 3%nat ->
  exists b1 b2 b3 t', t = b1 :: b2 :: b3 :: t' /\ second_ok b0 b1 = true /\ cont b2 = true /\ cont b3 = true.
Proof.
  destruct t as [|b1 [|b2 [|b3 t]]]; cbn [good]; unfold step_ok; cbn [Nat.eqb];
    try destruct (second_ok b0 b1) eqn:E; try discriminate;
    try (destruct (cont b2) eqn:E2; try discriminate).
  destruct (cont b3) eqn:E3; try discriminate. eauto 10.
Qed.

Lemma dec_sound s c n : dec s = inl (Some (c, n)) -> starts_with_scalar s c n.
Proof.
  destruct s as [|b0 t]; [discriminate|]. unfold dec.
  destruct (seqlen b0) as [|e] eqn:E; [discriminate|].
  cbv zeta. destruct (Nat.eqb_spec (good b0 1 e t) e) as [G|]; [|discriminate].
  intro H. injection H as <- <-.
  pose proof (seqlen_le b0). unfold starts_with_scalar.
  destruct e as [|[|[|[|e]]]]; try lia.
  - apply seqlen_1 in E. cbn [value_of at_ nth]. change (at_ (b0 :: t) 0) with b0. rewrite enc1 by exact E.
    unfold scalar_value. split; [lia|]. split; [reflexivity|]. now exists t.
  - apply seqlen_2 in E. apply good1 in G as (b1 & t' & -> & S1). apply second_cont in S1.
    apply cont_range in S1. cbn [value_of].
    change (at_ (b0 :: b1 :: t') 0) with b0. change (at_ (b0 :: b1 :: t') 1) with b1.
    destruct (val2_enc b0 b1 E S1) as [V1 V2]. rewrite V2. repeat split; try apply V1. now exists t'.
  - apply seqlen_3 in E. apply good2 in G as (b1 & b2 & t' & -> & S1 & S2). apply cont_range in S2.
    cbn [value_of]. change (at_ (b0 :: b1 :: b2 :: t') 0) with b0.
    change (at_ (b0 :: b1 :: b2 :: t') 1) with b1. change (at_ (b0 :: b1 :: b2 :: t') 2) with b2.
    destruct (val3_enc b0 b1 b2 E S1 S2) as [V1 V2]. rewrite V2. repeat split; try apply V1. now exists t'.
  - apply seqlen_4 in E. apply good3 in G as (b1 & b2 & b3 & t' & -> & S1 & S2 & S3).
    apply cont_range in S2, S3.
    cbn [value_of]. change (at_ (b0 :: b1 :: b2 :: b3 :: t') 0) with b0.
    change (at_ (b0 :: b1 :: b2 :: b3 :: t') 1) with b1. change (at_ (b0 :: b1 :: b2 :: b3 :: t') 2) with b2.
    change (at_ (b0 :: b1 :: b2 :: b3 :: t') 3) with b3.
    destruct (val4_enc b0 b1 b2 b3 E S1 S2 S3) as [V1 V2]. rewrite V2. repeat split; try apply V1. now exists t'.
Qed.

Lemma dec_unfold2 b0 b1 t : 0xC2 <= b0 < 0xE0 -> second_ok b0 b1 = true ->
  dec (b0 :: b1 :: t) = inl (Some (val2 b0 b1, 2%nat)).
Proof.
  intros H S. unfold dec. apply seqlen_2 in H. rewrite H. cbn [good]. unfold step_ok. cbn [Nat.eqb]. rewrite S.
  reflexivity.
Qed.
Lemma dec_unfold3 b0 b1 b2 t : 0xE0 <= b0 < 0xF0 -> second_ok b0 b1 = true -> cont b2 = true ->
  dec (b0 :: b1 :: b2 :: t) = inl (Some (val3 b0 b1 b2, 3%nat)).
Proof.
  intros H S S2. unfold dec. apply seqlen_3 in H. rewrite H. cbn [good]. unfold step_ok. cbn [Nat.eqb]. rewrite S, S2.
  reflexivity.
Qed.
Lemma dec_unfold4 b0 b1 b2 b3 t : 0xF0 <= b0 < 0xF5 -> second_ok b0 b1 = true -> cont b2 = true ->
  cont b3 = true -> dec (b0 :: b1 :: b2 :: b3 :: t) = inl (Some (val4 b0 b1 b2 b3, 4%nat)).
Proof.
  intros H S S2 S3. unfold dec. apply seqlen_4 in H. rewrite H. cbn [good]. unfold step_ok. cbn [Nat.eqb]. rewrite S, S2, S3.
  reflexivity.
Qed.

Lemma dec_complete c t : scalar_value c ->
  dec (utf8_encoding c ++ t) = inl (Some (c, length (utf8_encoding c))).
Proof.
  intros [H1 H2].
  destruct (N.lt_ge_cases c 0x80) as [L|L].
  { rewrite enc1 by exact L. simpl. apply seqlen_1 in L. unfold dec. rewrite L. reflexivity. }
  destruct (N.lt_ge_cases c 0x800) as [L2|L2].
  { rewrite enc2 by lia. cbn [app length]. rewrite dec_unfold2.
    - do 3 f_equal. unfold val2. lia.
    - lia.
    - apply second_range. lia. }
  destruct (N.lt_ge_cases c 0x10000) as [L3|L3].
  { rewrite enc3 by lia. cbn [app length]. rewrite dec_unfold3.
    - do 3 f_equal. unfold val3. lia.
    - lia.
    - apply second_range. lia.
    - apply cont_range. lia. }
  { rewrite enc4 by lia. cbn [app length]. rewrite dec_unfold4.
    - do 3 f_equal. unfold val4. lia.
    - lia.
    - apply second_range. lia.
    - apply cont_range. lia.
    - apply cont_range. lia. }
Qed.

Lemma dec_scalar s c n : starts_with_scalar s c n <-> dec s = inl (Some (c, n)).
Proof.
  split; [|apply dec_sound]. intros (Hc & <- & t & ->). now apply dec_complete.
Qed.

(** ** Table 3-7 *)
Lemma Forall2_len {A B} (R : A -> B -> Prop) l l' : Forall2 R l l' -> length l = length l'.
Proof. induction 1; simpl; auto. Qed.

Lemma wf_length p : well_formed_sequence p -> (1 <= length p <= 4)%nat.
Proof.
  intros (row & Hr & F). apply Forall2_len in F. rewrite F. clear F.
  simpl in Hr. repeat (destruct Hr as [<-|Hr]; [simpl; lia|]). destruct Hr.
Qed.

Lemma wf1 b0 : well_formed_sequence [b0] <-> b0 < 0x80.
Proof.
  unfold well_formed_sequence, in_range. split.
  - intros (row & Hr & F). simpl in Hr.
    repeat (destruct Hr as [<-|Hr]; [repeat match goal with H : Forall2 _ _ _ |- _ => inversion H; clear H; subst end; simpl in *; lia|]).
    destruct Hr.
  - intro. eexists. split; [left; reflexivity|]. repeat constructor; simpl; lia.
Qed.

Ltac f2inv := repeat match goal with H : Forall2 _ (_ :: _) _ |- _ => inversion H; clear H; subst
                                   | H : Forall2 _ [] _ |- _ => inversion H; clear H; subst
                                   | H : Forall2 _ _ [] |- _ => inversion H; clear H; subst end.

Lemma wf2 b0 b1 : well_formed_sequence [b0; b1] <-> 0xC2 <= b0 < 0xE0 /\ second_ok b0 b1 = true.
Proof.
  rewrite second_range. unfold well_formed_sequence, in_range. split.
  - intros (row & Hr & F). simpl in Hr.
    repeat (destruct Hr as [<-|Hr]; [f2inv; simpl in *; lia|]). destruct Hr.
  - intro. exists [(0xC2, 0xDF); (0x80, 0xBF)]. split; [simpl; tauto|]. repeat constructor; simpl; lia.
Qed.

Lemma wf3 b0 b1 b2 : well_formed_sequence [b0; b1; b2] <->
  0xE0 <= b0 < 0xF0 /\ second_ok b0 b1 = true /\ cont b2 = true.
Proof.
  rewrite second_range, cont_range. unfold well_formed_sequence, in_range. split.
  - intros (row & Hr & F). simpl in Hr.
    repeat (destruct Hr as [<-|Hr]; [f2inv; simpl in *; lia|]). destruct Hr.
  - intros (H0 & (H1 & Ha & _ & Hb & _) & H2).
    destruct (N.eq_dec b0 0xE0); [exists [(0xE0, 0xE0); (0xA0, 0xBF); (0x80, 0xBF)];
      split; [simpl; tauto|]; specialize (Ha e); repeat constructor; simpl; lia|].
    destruct (N.eq_dec b0 0xED); [exists [(0xED, 0xED); (0x80, 0x9F); (0x80, 0xBF)];
      split; [simpl; tauto|]; specialize (Hb e); repeat constructor; simpl; lia|].
    destruct (N.lt_ge_cases b0 0xED).
    + exists [(0xE1, 0xEC); (0x80, 0xBF); (0x80, 0xBF)]. split; [simpl; tauto|]. repeat constructor; simpl; lia.
    + exists [(0xEE, 0xEF); (0x80, 0xBF); (0x80, 0xBF)]. split; [simpl; tauto|]. repeat constructor; simpl; lia.
Qed.

Lemma wf4 b0 b1 b2 b3 : well_formed_sequence [b0; b1; b2; b3] <->
  0xF0 <= b0 < 0xF5 /\ second_ok b0 b1 = true /\ cont b2 = true /\ cont b3 = true.
Proof.
  rewrite second_range, !cont_range. unfold well_formed_sequence, in_range. split.
  - intros (row & Hr & F). simpl in Hr.
    repeat (destruct Hr as [<-|Hr]; [f2inv; simpl in *; lia|]). destruct Hr.
  - intros (H0 & (H1 & _ & Ha & _ & Hb) & H2 & H3).
    destruct (N.eq_dec b0 0xF0); [exists [(0xF0, 0xF0); (0x90, 0xBF); (0x80, 0xBF); (0x80, 0xBF)];
      split; [simpl; tauto|]; specialize (Ha e); repeat constructor; simpl; lia|].
    destruct (N.eq_dec b0 0xF4); [exists [(0xF4, 0xF4); (0x80, 0x8F); (0x80, 0xBF); (0x80, 0xBF)];
      split; [simpl; tauto|]; specialize (Hb e); repeat constructor; simpl; lia|].
    exists [(0xF1, 0xF3); (0x80, 0xBF); (0x80, 0xBF); (0x80, 0xBF)]. split; [simpl; tauto|]. repeat constructor; simpl; lia.
Qed.

(** The well-formed sequences are the encodings of scalar values. *)
Lemma wf_encoding p : well_formed_sequence p <-> exists c, scalar_value c /\ p = utf8_encoding c.
Proof.
  split.
  - intro H. pose proof (wf_length p H) as L.
    destruct p as [|b0 [|b1 [|b2 [|b3 [|b4 p]]]]]; simpl in L; try lia.
    + apply wf1 in H. exists b0. rewrite enc1 by exact H. split; auto. unfold scalar_value; lia.
    + apply wf2 in H as [H0 H1]. apply second_cont, cont_range in H1.
      destruct (val2_enc b0 b1 H0 H1) as [V1 V2]. eauto.
    + apply wf3 in H as (H0 & H1 & H2). apply cont_range in H2.
      destruct (val3_enc b0 b1 b2 H0 H1 H2) as [V1 V2]. eauto.
    + apply wf4 in H as (H0 & H1 & H2 & H3). apply cont_range in H2, H3.
      destruct (val4_enc b0 b1 b2 b3 H0 H1 H2 H3) as [V1 V2]. eauto.
  - intros (c & [H1 H2] & ->).
    destruct (N.lt_ge_cases c 0x80) as [L|L]; [rewrite enc1 by exact L; now apply wf1|].
    destruct (N.lt_ge_cases c 0x800) as [L2|L2];
      [rewrite enc2 by lia; apply wf2; split; [lia|apply second_range; lia]|].
    destruct (N.lt_ge_cases c 0x10000) as [L3|L3].
    + rewrite enc3 by lia. apply wf3. repeat split; [lia..|apply second_range; lia|apply cont_range; lia].
    + rewrite enc4 by lia. apply wf4. repeat split; [lia..|apply second_range; lia|apply cont_range; lia|apply cont_range; lia].
Qed.

(** ** Initial subsequences *)
Definition init_ok (p : str) : bool :=
  match p with
  | [] => false
  | b0 :: t => (length t <? seqlen b0)%nat && (good b0 1 (length t) t =? length t)%nat
  end.

Lemma second_exists b0 : exists b1, second_ok b0 b1 = true.
Proof.
  destruct (N.eq_dec b0 0xED); [exists 0x80; apply second_range; lia|].
  destruct (N.eq_dec b0 0xF4); [exists 0x80; apply second_range; lia|].
  exists 0xBF. apply second_range. lia.
Qed.

Lemma cont_80 : cont 0x80 = true. Proof. reflexivity. Qed.

Lemma good_len1 b0 b1 : (good b0 1 1 [b1] =? 1)%nat = second_ok b0 b1.
Proof. cbn [good]. unfold step_ok. cbn [Nat.eqb]. destruct (second_ok b0 b1); reflexivity. Qed.
Lemma good_len2 b0 b1 b2 : (good b0 1 2 [b1; b2] =? 2)%nat = second_ok b0 b1 && cont b2.
Proof. cbn [good]. unfold step_ok. cbn [Nat.eqb]. destruct (second_ok b0 b1), (cont b2); reflexivity. Qed.
Lemma good_len3 b0 b1 b2 b3 : (good b0 1 3 [b1; b2; b3] =? 3)%nat = second_ok b0 b1 && cont b2 && cont b3.
Proof. cbn [good]. unfold step_ok. cbn [Nat.eqb]. destruct (second_ok b0 b1), (cont b2), (cont b3); reflexivity. Qed.

Lemma init_ok_wf p q : p <> [] -> well_formed_sequence (p ++ q) -> init_ok p = true.
Proof.
  intros Hp H. pose proof (wf_length _ H) as L. rewrite app_length in L.
  destruct p as [|b0 p]; [easy|]. cbn [app length] in *.
  assert (exists t, p ++ q = t /\ (length t <= 3)%nat) as (t & E & Lt).
  { eexists; split; [reflexivity|]. rewrite app_length. lia. }
  rewrite E in H.
  assert (S: (length t < seqlen b0)%nat /\ (good b0 1 (length t) t = length t)).
  { destruct t as [|b1 [|b2 [|b3 [|b4 t]]]]; simpl in Lt; try lia.
    - apply wf1, seqlen_1 in H. rewrite H. simpl. lia.
    - apply wf2 in H as [H H1]. apply seqlen_2 in H. rewrite H. split; [simpl; lia|].
      apply Nat.eqb_eq. cbn [length]. rewrite (good_len1 b0 b1). exact H1.
    - apply wf3 in H as (H & H1 & H2). apply seqlen_3 in H. rewrite H. split; [simpl; lia|].
      apply Nat.eqb_eq. cbn [length]. rewrite (good_len2 b0 b1). now rewrite H1, H2.
    - apply wf4 in H as (H & H1 & H2 & H3). apply seqlen_4 in H. rewrite H. split; [simpl; lia|].
      apply Nat.eqb_eq. cbn [length]. rewrite (good_len3 b0 b1). now rewrite H1, H2, H3. }
  destruct S as [S1 S2]. subst t. rewrite app_length in *. unfold init_ok.
  apply andb_true_iff. split; [apply Nat.ltb_lt; lia|]. apply Nat.eqb_eq.
  clear - S2. revert S2. generalize 1%nat.
  induction p as [|b p IH]; intros i S2; [reflexivity|].
  cbn [length app Nat.add good] in *. destruct (step_ok b0 i b); [|discriminate].
  f_equal. apply IH. congruence.
Qed.

Lemma init_ok_sound p : init_ok p = true -> initial_subsequence p.
Proof.
  intro H. destruct p as [|b0 t]; [discriminate|]. unfold init_ok in H.
  apply andb_true_iff in H as [H1 H2]. apply Nat.ltb_lt in H1.
  split; [easy|]. pose proof (seqlen_le b0) as L4.
  destruct (second_exists b0) as [x Hx].
  destruct t as [|b1 [|b2 [|b3 [|b4 t]]]]; simpl in H1; try lia;
    try (rewrite good_len1 in H2 || (cbn [length] in H2; rewrite ?good_len1, ?good_len2, ?good_len3 in H2));
    rewrite ?andb_true_iff in H2;
    destruct (seqlen b0) as [|[|[|[|[|e]]]]] eqn:E; try lia.
  - exists []. apply wf1. now apply seqlen_1.
  - exists [x]. apply wf2. split; [now apply seqlen_2|exact Hx].
  - exists [x; 0x80]. apply wf3. repeat split; auto; apply seqlen_3 in E; lia.
  - exists [x; 0x80; 0x80]. apply wf4. repeat split; auto; apply seqlen_4 in E; lia.
  - exists []. apply wf2. split; [now apply seqlen_2|exact H2].
  - exists [0x80]. apply wf3. repeat split; auto; apply seqlen_3 in E; lia.
  - exists [0x80; 0x80]. apply wf4. repeat split; auto; apply seqlen_4 in E; lia.
  - exists []. apply wf3. repeat split; try tauto; apply seqlen_3 in E; lia.
  - exists [0x80]. apply wf4. repeat split; try tauto; apply seqlen_4 in E; lia.
  - exists []. apply wf4. repeat split; try tauto; apply seqlen_4 in E; lia.
Qed.

Lemma init_ok_iff p : init_ok p = true <-> initial_subsequence p.
Proof.
  split; [apply init_ok_sound|]. intros [H1 [q H2]]. eapply init_ok_wf; eauto.
Qed.

Lemma good_prefix b0 i k t j : (j <= length t)%nat -> (j <= k)%nat ->
  (good b0 i j (firstn j t) = j <-> (j <= good b0 i k t)%nat).
Proof.
  revert i k t. induction j as [|j IH]; intros i k t H Hk; [simpl; split; [lia|destruct k; reflexivity]|].
  destruct t as [|b t]; [simpl in H; lia|]. destruct k as [|k]; [lia|].
  cbn [firstn good]. destruct (step_ok b0 i b); [|lia].
  simpl in H. specialize (IH (S i) k t ltac:(lia) ltac:(lia)). lia.
Qed.

Lemma dec_invalid s k : s <> [] -> dec s = inr k -> maximal_subpart s k.
Proof.
  intros Hs H. destruct s as [|b0 t]; [easy|]. unfold dec in H.
  destruct (seqlen b0) as [|e] eqn:E.
  - injection H as <-. split; [simpl; lia|]. split.
    + right. split; auto. intros j Hj I. apply init_ok_iff in I. destruct j; [discriminate|].
      simpl in I. rewrite E in I. destruct (length (firstn j t)); discriminate.
    + intros j Hj I. apply init_ok_iff in I. destruct j; [lia|].
      simpl in I. rewrite E in I. destruct (length (firstn j t)); discriminate.
  - cbv zeta in H. destruct (Nat.eqb_spec (good b0 1 e t) e) as [G|G]; [discriminate|].
    injection H as <-. destruct (good_le b0 1 e t) as [G1 G2].
    assert (EQ: forall j, (j <= length t)%nat ->
              (initial_subsequence (firstn (S j) (b0 :: t)) <-> (j <= good b0 1 e t)%nat)).
    { intros j Hj. rewrite <- init_ok_iff. cbn [firstn init_ok]. rewrite firstn_length_le by lia.
      rewrite E, andb_true_iff, Nat.ltb_lt, Nat.eqb_eq. split.
      - intros [A B]. apply (good_prefix b0 1 e t j); lia.
      - intro A. split; [lia|]. apply (good_prefix b0 1 e t j); lia. }
    split; [simpl; lia|]. split.
    + left. apply EQ; lia.
    + intros j Hj I. destruct j as [|j]; [lia|]. simpl in Hj. apply EQ in I; lia.
Qed.

Lemma dec_next s : s <> [] -> next_code_point s (fst (dec_repl s)) (snd (dec_repl s)).
Proof.
  intro Hs. unfold dec_repl. destruct (dec s) as [[[c n]|]|k] eqn:E.
  - apply next_valid. now apply dec_scalar.
  - unfold dec in E. destruct s as [|b0 t]; [easy|]. destruct (seqlen b0); [discriminate|].
    cbv zeta in E. destruct (good b0 1 n t =? n)%nat; discriminate.
  - apply next_invalid; auto.
    + intros c n H. apply dec_scalar in H. congruence.
    + now apply dec_invalid.
Qed.

Lemma dec_repl_len s : s <> [] -> (1 <= snd (dec_repl s) <= length s)%nat /\ (snd (dec_repl s) <= 4)%nat.
Proof.
  intro Hs. unfold dec_repl, dec. destruct s as [|b0 t]; [easy|].
  pose proof (seqlen_le b0). destruct (seqlen b0) as [|e]; [simpl; lia|].
  cbv zeta. destruct (good_le b0 1 e t) as [G1 G2].
  destruct (Nat.eqb_spec (good b0 1 e t) e) as [G|G]; simpl; lia.
Qed.

(** ** Searching *)
Lemma dec_small_length (s : str) : (length s < 4)%nat -> (Z.of_nat (length s) < 2147483648)%Z.
Proof. lia. Qed.

Definition expect (p : N -> bool) (expected : bool) : N -> bool := fun c => Bool.eqb (p c) expected.

Lemma remove_prefix_ok s n : (n <= length s)%nat -> remove_prefix s n = Ok (skipn n s).
Proof. intro H. unfold remove_prefix. apply Nat.leb_le in H. now rewrite H. Qed.

Lemma option_map_comp {A B C} (f : B -> C) (g : A -> B) o :
  option_map f (option_map g o) = option_map (fun x => f (g x)) o.
Proof. destruct o; reflexivity. Qed.

Lemma find_if_slow_spec p e : forall fuel s cu, bytes s -> (length s < 4)%nat -> (length s <= fuel)%nat ->
  exists r, find_if_slow fuel p e s cu = Ok (option_map (Nat.add cu) r) /\
            first_code_point (expect p e) s r.
Proof.
  induction fuel as [|fuel IH]; intros s cu Hb H4 Hf.
  - destruct s; [|simpl in Hf; lia]. exists None. split; [reflexivity|constructor].
  - destruct s as [|b0 t]; [exists None; split; [reflexivity|constructor]|].
    cbn [find_if_slow]. rewrite replacement_eq by (auto using dec_small_length).
    cbn [bind]. pose proof (dec_next (b0 :: t) ltac:(easy)) as HN.
    pose proof (dec_repl_len (b0 :: t) ltac:(easy)) as HL.
    destruct (dec_repl (b0 :: t)) as [c n]. cbn [fst snd] in *.
    destruct (Bool.eqb (p c) e) eqn:EQ.
    + exists (Some 0%nat). split; [simpl; do 2 f_equal; lia|]. eapply first_hit; eauto.
    + rewrite remove_prefix_ok by lia. cbn [bind].
      destruct (IH (skipn n (b0 :: t)) (cu + n)%nat) as (r & Hr & HF).
      * now apply bytes_skipn.
      * rewrite skipn_length. lia.
      * rewrite skipn_length. lia.
      * exists (option_map (Nat.add n) r). split.
        -- rewrite Hr, option_map_comp. f_equal. destruct r; simpl; f_equal. lia.
        -- eapply first_miss; eauto.
Qed.

Lemma find_if_fast_spec p e : forall fuel s cu, bytes s -> (length s <= fuel)%nat ->
  exists r, find_if_fast fuel p e s cu = Ok (option_map (Nat.add cu) r) /\
            first_code_point (expect p e) s r.
Proof.
  induction fuel as [|fuel IH]; intros s cu Hb Hf.
  - destruct s; [|simpl in Hf; lia]. exists None. split; [reflexivity|constructor].
  - cbn [find_if_fast]. destruct (Nat.leb_spec 4 (length s)) as [L|L].
    + unfold first_4_unchecked. replace (4 <=? length s)%nat with true by (symmetry; now apply Nat.leb_le).
      cbn [check bind]. rewrite replacement_array_eq by auto. cbn [bind].
      assert (Hs: s <> []) by (destruct s; [simpl in L; lia|easy]).
      pose proof (dec_next s Hs) as HN. pose proof (dec_repl_len s Hs) as HL.
      destruct (dec_repl s) as [c n]. cbn [fst snd] in *.
      destruct (Bool.eqb (p c) e) eqn:EQ.
      * exists (Some 0%nat). split; [simpl; do 2 f_equal; lia|]. eapply first_hit; eauto.
      * rewrite remove_prefix_ok by lia. cbn [bind].
        destruct (IH (skipn n s) (cu + n)%nat) as (r & Hr & HF).
        -- now apply bytes_skipn.
        -- rewrite skipn_length. lia.
        -- exists (option_map (Nat.add n) r). split.
           ++ rewrite Hr, option_map_comp. f_equal. destruct r; simpl; f_equal. lia.
           ++ eapply first_miss; eauto.
    + apply find_if_slow_spec; auto.
Qed.

Lemma utf8_find_spec p e s : bytes s ->
  exists r, utf8_find p e s = Ok r /\ first_code_point (expect p e) s r.
Proof.
  intro H. destruct (find_if_fast_spec p e (length s) s 0%nat H (le_n _)) as (r & H1 & H2).
  exists r. split; auto. unfold utf8_find. rewrite H1. f_equal. destruct r; reflexivity.
Qed.

Lemma next_unique s c n c' n' : next_code_point s c n -> next_code_point s c' n' -> c = c' /\ n = n'.
Proof.
  intros H1 H2. destruct H1 as [c n H1|k Hs H1 M1]; destruct H2 as [c' n' H2|k' Hs' H2 M2].
  - apply dec_scalar in H1, H2. rewrite H1 in H2. injection H2; auto.
  - exfalso. eapply H2; eauto.
  - exfalso. eapply H1; eauto.
  - split; auto. destruct M1 as (A1 & B1 & C1), M2 as (A2 & B2 & C2).
    destruct (Nat.lt_trichotomy k k') as [L|[L|L]]; auto.
    + exfalso. destruct B2 as [B2|[-> _]]; [|lia]. apply (C1 k'); auto. lia.
    + exfalso. destruct B1 as [B1|[-> _]]; [|lia]. apply (C2 k); auto. lia.
Qed.

Lemma next_nonempty s c n : next_code_point s c n -> s <> [].
Proof.
  intros [c' n' (_ & _ & t & ->)|k Hs]; auto. unfold utf8_encoding.
  destruct (c' <? 0x80), (c' <? 0x800), (c' <? 0x10000); easy.
Qed.

Lemma first_unique p s r r' : first_code_point p s r -> first_code_point p s r' -> r = r'.
Proof.
  intro H. revert r'. induction H as [|s c n HN HP|s c n r HN HP HF IH]; intros r' H'.
  - inversion H'; subst; auto; exfalso; eapply next_nonempty; eauto.
  - inversion H' as [|s' c' n' HN' HP'|s' c' n' r'' HN' HP' HF']; subst; auto.
    + exfalso. eapply next_nonempty; eauto.
    + destruct (next_unique _ _ _ _ _ HN HN') as [-> ->]. congruence.
  - inversion H' as [|s' c' n' HN' HP'|s' c' n' r'' HN' HP' HF']; subst; auto.
    + exfalso. eapply next_nonempty; eauto.
    + destruct (next_unique _ _ _ _ _ HN HN') as [-> ->]. congruence.
    + destruct (next_unique _ _ _ _ _ HN HN') as [-> ->]. f_equal. auto.
Qed.

(** ** Whole strings *)
Lemma encoding_nonempty c : (1 <= length (utf8_encoding c) <= 4)%nat.
Proof. unfold utf8_encoding. destruct (c <? 0x80), (c <? 0x800), (c <? 0x10000); simpl; lia. Qed.

Lemma is_valid_loop_spec : forall fuel s, bytes s -> (length s <= fuel)%nat ->
  exists r, is_valid_loop fuel s = Ok r /\
    (r = Value tt <-> exists cs, Forall scalar_value cs /\ s = concat (map utf8_encoding cs)).
Proof.
  induction fuel as [|fuel IH]; intros s Hb Hf.
  - destruct s; [|simpl in Hf; lia]. exists (Value tt). split; [reflexivity|].
    split; auto. intros _. exists []. split; [constructor|reflexivity].
  - destruct s as [|b0 t].
    + exists (Value tt). split; [reflexivity|]. split; auto. intros _. exists []. split; [constructor|reflexivity].
    + cbn [is_valid_loop]. destruct (decode_and_length_dec (b0 :: t) Hb) as (r & Hr & Hd). rewrite Hr.
      cbn [bind]. destruct (dec (b0 :: t)) as [[[c n]|]|k] eqn:E.
      * subst r. pose proof E as E'. apply dec_scalar in E' as (Hc & Hn & t' & Ht).
        assert (L: (n <= length (b0 :: t))%nat) by (rewrite Ht, app_length; lia).
        rewrite remove_prefix_ok by exact L. cbn [bind].
        assert (SK: skipn n (b0 :: t) = t') by (rewrite Ht, <- Hn; apply skipn_app_exact).
        destruct (IH (skipn n (b0 :: t))) as (r & Hr' & HI).
        -- now apply bytes_skipn.
        -- rewrite skipn_length. pose proof (encoding_nonempty c). lia.
        -- exists r. split; [exact Hr'|]. rewrite HI, SK. split.
           ++ intros (cs & F & ->). exists (c :: cs). split; [now constructor|]. exact Ht.
           ++ intros (cs & F & Hcs). destruct cs as [|c' cs]; [discriminate|].
              inversion F as [|? ? Hc' F']; subst. cbn [map concat] in Hcs.
              assert (E2: dec (b0 :: t) = inl (Some (c', length (utf8_encoding c'))))
                by (rewrite Hcs; now apply dec_complete).
              rewrite E in E2. injection E2 as <- _. exists cs. split; auto.
              rewrite Hcs in Ht. apply app_inv_head in Ht. congruence.
      * destruct Hd as [e ->]. eexists. split; [reflexivity|]. split; [discriminate|].
        intros (cs & F & Hcs). destruct cs as [|c' cs]; [discriminate|].
        inversion F; subst. cbn [map concat] in Hcs. rewrite Hcs, dec_complete in E by auto. discriminate.
      * destruct Hd as [e ->]. eexists. split; [reflexivity|]. split; [discriminate|].
        intros (cs & F & Hcs). destruct cs as [|c' cs]; [discriminate|].
        inversion F; subst. cbn [map concat] in Hcs. rewrite Hcs, dec_complete in E by auto. discriminate.
Qed.

Lemma encoding_unique : forall cs ds, Forall scalar_value cs -> Forall scalar_value ds ->
  concat (map utf8_encoding cs) = concat (map utf8_encoding ds) -> cs = ds.
Proof.
  induction cs as [|c cs IH]; intros ds Hc Hd H; destruct ds as [|d ds]; auto.
  - exfalso. cbn in H. pose proof (encoding_nonempty d). destruct (utf8_encoding d); [simpl in *; lia|discriminate].
  - exfalso. cbn in H. pose proof (encoding_nonempty c). destruct (utf8_encoding c); [simpl in *; lia|discriminate].
  - inversion Hc; inversion Hd; subst. cbn [map concat] in H.
    pose proof (dec_complete c (concat (map utf8_encoding cs)) H2) as E1. rewrite H in E1.
    rewrite dec_complete in E1 by auto. injection E1 as -> _. f_equal. apply IH; auto.
    now apply app_inv_head in H.
Qed.

(** ** Encoding *)
Lemma lor_const a b k : a < 2 ^ k -> b mod 2 ^ k = 0 -> N.lor a b = b + a.
Proof.
  intros H1 H2. rewrite N.lor_comm.
  rewrite (N.div_mod b (2 ^ k)) by (apply N.pow_nonzero; lia). rewrite H2, N.add_0_r, N.mul_comm.
  rewrite <- N.shiftl_mul_pow2 at 1. apply lor_shift. exact H1.
Qed.

Lemma encode8_eq c : c <= 0x10FFFF -> encode8_unchecked c = utf8_encoding c.
Proof.
  intro H. unfold encode8_unchecked.
  destruct (N.ltb_spec c 0x80); [rewrite enc1 by lia; f_equal; apply N.mod_small; lia|].
  rewrite !bits_3f, !N.shiftr_div_pow2.
  change (2 ^ 6) with 64. change (2 ^ 12) with 4096. change (2 ^ 18) with 262144.
  destruct (N.ltb_spec c 0x800).
  { rewrite enc2 by lia. rewrite (lor_const (c / 64) _ 5), (lor_const (c mod 64) _ 6);
      try reflexivity; try (change (2 ^ 5) with 32; lia); try (change (2 ^ 6) with 64; lia).
    repeat rewrite (N.mod_small (_ + _) 256) by lia. reflexivity. }
  destruct (N.ltb_spec c 0x10000).
  { rewrite enc3 by lia. rewrite (lor_const (c / 4096) _ 4), (lor_const (c / 64 mod 64) _ 6), (lor_const (c mod 64) _ 6);
      try reflexivity; try (change (2 ^ 4) with 16; lia); try (change (2 ^ 6) with 64; lia).
    repeat rewrite (N.mod_small (_ + _) 256) by lia. reflexivity. }
  { rewrite enc4 by lia. rewrite (lor_const (c / 262144) _ 3), (lor_const (c / 4096 mod 64) _ 6), (lor_const (c / 64 mod 64) _ 6), (lor_const (c mod 64) _ 6);
      try reflexivity; try (change (2 ^ 3) with 8; lia); try (change (2 ^ 6) with 64; lia).
    repeat rewrite (N.mod_small (_ + _) 256) by lia. reflexivity. }
Qed.

Lemma encoding_bytes c : scalar_value c -> bytes (utf8_encoding c).
Proof.
  intros [H _].
  destruct (N.lt_ge_cases c 0x80) as [L|L]; [rewrite enc1 by lia; repeat constructor; lia|].
  destruct (N.lt_ge_cases c 0x800) as [L2|L2]; [rewrite enc2 by lia; repeat constructor; lia|].
  destruct (N.lt_ge_cases c 0x10000) as [L3|L3]; [rewrite enc3 by lia; repeat constructor; lia|].
  rewrite enc4 by lia; repeat constructor; lia.
Qed.

(** ** Bit compression *)
Fixpoint sum_bits (x : N) (l : list N) : N :=
  match l with
  | [] => 0
  | i :: l => N.b2n (N.testbit x i) + 2 * sum_bits x l
  end.

Lemma sum_bits_app x l1 l2 :
  sum_bits x (l1 ++ l2) = sum_bits x l1 + 2 ^ N.of_nat (length l1) * sum_bits x l2.
Proof.
  induction l1 as [|i l1 IH]; [cbn [app sum_bits length]; change (2 ^ N.of_nat 0) with 1; lia|].
  cbn [app sum_bits length]. rewrite IH, Nat2N.inj_succ, N.pow_succ_r by lia. lia.
Qed.

Lemma sum_bits_low a b l : b < 256 -> Forall (fun i => i < 8) l ->
  sum_bits (a * 256 + b) l = sum_bits b l.
Proof.
  intros Hb. induction 1 as [|i l Hi _ IH]; [reflexivity|].
  cbn [sum_bits]. rewrite IH. do 2 f_equal.
  replace b with ((a * 256 + b) mod 2 ^ 8) at 2 by (change (2 ^ 8) with 256; lia).
  symmetry. apply N.mod_pow2_bits_low. exact Hi.
Qed.

Lemma sum_bits_high a b l : b < 256 ->
  sum_bits (a * 256 + b) (map (N.add 8) l) = sum_bits a l.
Proof.
  intros Hb. induction l as [|i l IH]; [reflexivity|].
  cbn [sum_bits map]. rewrite IH. do 2 f_equal.
  replace a with ((a * 256 + b) / 2 ^ 8) at 2 by (change (2 ^ 8) with 256; lia).
  rewrite N.div_pow2_bits. f_equal. lia.
Qed.

Lemma sum_bits_6 b : b < 256 -> sum_bits b [0; 1; 2; 3; 4; 5] = b mod 64.
Proof.
  intro H. sweep (fun b => sum_bits b [0; 1; 2; 3; 4; 5] =? b mod 64). apply N.eqb_eq. auto.
Qed.
Lemma sum_bits_5 b : b < 256 -> sum_bits b [0; 1; 2; 3; 4] = b mod 32.
Proof.
  intro H. sweep (fun b => sum_bits b [0; 1; 2; 3; 4] =? b mod 32). apply N.eqb_eq. auto.
Qed.
Lemma sum_bits_4 b : b < 256 -> sum_bits b [0; 1; 2; 3] = b mod 16.
Proof.
  intro H. sweep (fun b => sum_bits b [0; 1; 2; 3] =? b mod 16). apply N.eqb_eq. auto.
Qed.
Lemma sum_bits_3 b : b < 256 -> sum_bits b [0; 1; 2] = b mod 8.
Proof.
  intro H. sweep (fun b => sum_bits b [0; 1; 2] =? b mod 8). apply N.eqb_eq. auto.
Qed.
Lemma sum_bits_7 b : b < 256 -> sum_bits b [0; 1; 2; 3; 4; 5; 6] = b mod 128.
Proof.
  intro H. sweep (fun b => sum_bits b [0; 1; 2; 3; 4; 5; 6] =? b mod 128). apply N.eqb_eq. auto.
Qed.

Definition up (l : list N) := map (N.add 8) l.
Definition six := [0; 1; 2; 3; 4; 5].

Lemma bc1 x : bit_compress x 0x7f000000 = sum_bits x (up (up (up [0; 1; 2; 3; 4; 5; 6]))).
Proof. reflexivity. Qed.
Lemma bc2 x : bit_compress x 0x1f3f0000 = sum_bits x (up (up (six ++ up [0; 1; 2; 3; 4]))).
Proof. reflexivity. Qed.
Lemma bc3 x : bit_compress x 0x0f3f3f00 = sum_bits x (up (six ++ up (six ++ up [0; 1; 2; 3]))).
Proof. reflexivity. Qed.
Lemma bc4 x : bit_compress x 0x073f3f3f = sum_bits x (six ++ up (six ++ up (six ++ up [0; 1; 2]))).
Proof. reflexivity. Qed.

Lemma six_low : Forall (fun i => i < 8) six.
Proof. unfold six. repeat constructor; lia. Qed.

Lemma pext_eq s len : bytes s -> (1 <= len <= 4)%nat -> (len = 1%nat -> at_ s 0 < 0x80) ->
  decode_unchecked_pext s len = decode_unchecked s len.
Proof.
  intros Hb Hl H1. rewrite decode_unchecked_eq by exact Hl. unfold decode_unchecked_pext.
  assert (HA: forall i, at_ s i < 256).
  { intro i. unfold at_. destruct (nth_in_or_default i s 0) as [H|H].
    - unfold bytes in Hb. rewrite Forall_forall in Hb. auto.
    - rewrite H. lia. }
  assert (E: ((1 <=? len)%nat && (len <=? 4)%nat)%bool = true)
    by (apply andb_true_iff; split; apply Nat.leb_le; lia).
  rewrite E. cbn [check bind]. f_equal. unfold byteswapped.
  replace (at_ s 0 * 16777216 + at_ s 1 * 65536 + at_ s 2 * 256 + at_ s 3)
    with (((at_ s 0 * 256 + at_ s 1) * 256 + at_ s 2) * 256 + at_ s 3) by lia.
  pose proof six_low.
  destruct len as [|[|[|[|[|len]]]]]; try lia; cbn [bit_compress_mask].
  - rewrite bc1. unfold up. rewrite !sum_bits_high by auto. rewrite sum_bits_7 by auto.
    apply N.mod_small. specialize (H1 eq_refl). lia.
  - rewrite bc2. unfold up. rewrite !sum_bits_high by auto. rewrite sum_bits_app.
    rewrite sum_bits_low, sum_bits_high by auto. unfold six. rewrite sum_bits_6, sum_bits_5 by auto.
    change (2 ^ N.of_nat (length [0; 1; 2; 3; 4; 5])) with 64. unfold val2. lia.
  - rewrite bc3. unfold up. rewrite !sum_bits_high by auto. rewrite !sum_bits_app.
    rewrite sum_bits_low, !sum_bits_high by auto. rewrite sum_bits_app.
    rewrite sum_bits_low, !sum_bits_high by auto.
    unfold six. rewrite !sum_bits_6, sum_bits_4 by auto.
    change (2 ^ N.of_nat (length [0; 1; 2; 3; 4; 5])) with 64. unfold val3. lia.
  - rewrite bc4. unfold up. rewrite !sum_bits_app.
    rewrite sum_bits_low, !sum_bits_high by auto. rewrite sum_bits_app.
    rewrite sum_bits_low, !sum_bits_high by auto. rewrite sum_bits_app.
    rewrite sum_bits_low, !sum_bits_high by auto.
    unfold six. rewrite !sum_bits_6, sum_bits_3 by auto.
    change (2 ^ N.of_nat (length [0; 1; 2; 3; 4; 5])) with 64. unfold val4. lia.
Qed.

(** ** Strings of 2^31 bytes and more *)
Lemma replacement_huge b0 b1 t : 0xC2 <= b0 < 0xE0 -> 0x80 <= b1 <= 0xBF ->
  (int_of_size (length (b0 :: b1 :: t)) <= 1)%Z ->
  decode_and_length_or_replacement (b0 :: b1 :: t) = Ok (REPLACEMENT, 1%nat).
Proof.
  intros H0 H1 Hsz. unfold decode_and_length_or_replacement.
  rewrite sequence_length_eq by lia. apply seqlen_2 in H0 as E. rewrite E.
  cbn [Nat.eqb Nat.sub]. cbn [continuation_loop].
  replace (int_of_size (length (b0 :: b1 :: t)) <=? Z.of_nat 1)%Z with true
    by (symmetry; apply Z.leb_le; lia).
  reflexivity.
Qed.

(** ** Counting and iterating *)
Lemma seqlen_unchecked b : b < 256 -> seqlen b <> 0%nat -> unchecked_sequence_length b = seqlen b.
Proof.
  intros Hb H. sweep (fun b => (seqlen b =? 0)%nat || (unchecked_sequence_length b =? seqlen b)%nat).
  specialize (H0 b Hb). apply orb_true_iff in H0 as [H0|H0]; apply Nat.eqb_eq in H0; auto. lia.
Qed.

Lemma dec_seqlen b0 t c n : dec (b0 :: t) = inl (Some (c, n)) -> n = seqlen b0 /\ n <> 0%nat.
Proof.
  unfold dec. destruct (seqlen b0) as [|e]; [discriminate|].
  cbv zeta. destruct (good b0 1 e t =? e)%nat; [|discriminate]. intro H. injection H as _ <-. lia.
Qed.

Lemma concat_bytes cs : Forall scalar_value cs -> bytes (concat (map utf8_encoding cs)).
Proof.
  induction 1 as [|c cs Hc _ IH]; [constructor|]. cbn [map concat].
  apply Forall_app. split; auto. now apply encoding_bytes.
Qed.

Lemma first_of_encoding c t : scalar_value c -> exists b0 r, utf8_encoding c ++ t = b0 :: r /\
  b0 < 256 /\ seqlen b0 = length (utf8_encoding c).
Proof.
  intro Hc. pose proof (encoding_nonempty c) as HL. pose proof (encoding_bytes c Hc) as HB.
  pose proof (dec_complete c t Hc) as D.
  destruct (utf8_encoding c) as [|b0 r]; [simpl in HL; lia|]. exists b0, (r ++ t).
  split; [reflexivity|]. apply bytes_cons in HB as [HB _]. split; auto.
  cbn [app] in D. apply dec_seqlen in D. symmetry. apply D.
Qed.

Lemma code_points_loop_spec cs : Forall scalar_value cs -> forall fuel k,
  (length (concat (map utf8_encoding cs)) <= fuel)%nat ->
  code_points_loop fuel (concat (map utf8_encoding cs)) k = Ok (k + length cs)%nat.
Proof.
  induction 1 as [|c cs Hc Hcs IH]; intros fuel k Hf.
  - destruct fuel; simpl; f_equal; lia.
  - cbn [map concat] in *.
    destruct (first_of_encoding c (concat (map utf8_encoding cs)) Hc) as (b0 & r & E & Hb & Hs).
    pose proof (encoding_nonempty c) as HL. rewrite app_length in Hf.
    destruct fuel as [|fuel]; [lia|].
    rewrite E. cbn [code_points_loop]. rewrite <- E.
    rewrite seqlen_unchecked by (auto; lia). rewrite Hs.
    rewrite remove_prefix_ok by (rewrite app_length; lia). cbn [bind].
    rewrite skipn_app_exact, IH by lia. simpl. f_equal. lia.
Qed.

Lemma code_point_view_spec cs : Forall scalar_value cs -> forall fuel,
  (length (concat (map utf8_encoding cs)) <= fuel)%nat ->
  code_point_view_loop fuel (concat (map utf8_encoding cs)) = Ok cs.
Proof.
  induction 1 as [|c cs Hc Hcs IH]; intros fuel Hf.
  - destruct fuel; reflexivity.
  - assert (HB: bytes (concat (map utf8_encoding (c :: cs)))) by (apply concat_bytes; now constructor).
    cbn [map concat] in *.
    destruct (first_of_encoding c (concat (map utf8_encoding cs)) Hc) as (b0 & r & E & Hb & Hs).
    pose proof (encoding_nonempty c) as HL. rewrite app_length in Hf.
    destruct fuel as [|fuel]; [lia|].
    destruct (decode_and_length_dec _ HB) as (d & D1 & D2).
    rewrite dec_complete in D2 by exact Hc. subst d.
    rewrite E. cbn [code_point_view_loop]. rewrite <- E.
    unfold iterator_deref. rewrite D1. cbn [bind].
    assert (N1: iterator_next (utf8_encoding c ++ concat (map utf8_encoding cs))
                = Ok (concat (map utf8_encoding cs))).
    { rewrite E at 1. unfold iterator_next. rewrite sequence_length_eq, Hs by exact Hb.
      rewrite <- E. destruct (Nat.eqb_spec (length (utf8_encoding c)) 0); [lia|].
      destruct (Nat.ltb_spec (length (utf8_encoding c ++ concat (map utf8_encoding cs)))
                  (length (utf8_encoding c))) as [L|L]; [rewrite app_length in L; lia|].
      cbn [orb]. now rewrite skipn_app_exact. }
    rewrite N1. cbn [bind]. rewrite IH by lia. reflexivity.
Qed.
