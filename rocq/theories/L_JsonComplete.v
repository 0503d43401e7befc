(** * The JSON parser against the grammar: completeness. *)
From Coq Require Import List NArith ZArith Bool Arith Lia.
From Verif Require Import M_Base L_Base M_Emit M_Types M_Chars M_Parse L_Parse S_Utf8 M_Utf8 L_Utf8b M_Api
  M_Highlighter M_Json S_Json L_JsonNum L_JsonText L_JsonParse L_JsonSound.
Import ListNotations.

Definition never (f : failure) : Prop := False.

Section Parser.
Variable src : str.
Variable o : json_options.
Notation pos := (position_of src).
Notation blank := lenient_blank.
Notation jws' := (jws blank o pos).
Notation jws_end' := (jws_end blank o pos).
Notation jvalue' := (jvalue blank o pos).
Notation jelements' := (jelements blank o pos).
Notation jmember' := (jmember blank o pos).
Notation jmembers' := (jmembers blank o pos).
Notation jchars' := (jchars o pos).
Notation At := (At src).
Notation ran := (ran src).
Notation reports := (Forall2 (reported false)).

(** The text [s], up to [r], has been read with the calls [spec]. *)
Definition yes (i : nat) (s : str) (spec : list event) (r : str) (st : hst pstate) (b : bool) (st' : hst pstate) : Prop :=
  b = true /\ rem st' = r /\ exists evs, ran i (i + length s) s st st' evs /\ reports spec evs.

Lemma yes_after i j s1 st st1 ev1 spec1 s2 spec2 r b st' :
  ran i j s1 st st1 ev1 -> reports spec1 ev1 -> yes j s2 spec2 r st1 b st' ->
  yes i (s1 ++ s2) (spec1 ++ spec2) r st b st'.
Proof.
  intros R1 Rep1 (-> & Hr & evs & R2 & Rep2). split; [reflexivity|]. split; [exact Hr|].
  exists (ev1 ++ evs). pose proof (ran_j _ _ _ _ _ _ _ R1) as ->. split; [|apply Forall2_app; assumption].
  rewrite app_length, Nat.add_assoc. eapply ran_trans; eassumption.
Qed.

(** ** Whitespace *)
Definition stop (c : N) : Prop := blank c \/ c = 47%N.

Lemma jws_split i s e : jws' i s e -> exists w s', s = w ++ s' /\ Forall blank w
  /\ ((s' = [] /\ e = [])
      \/ (exists t c s2 e2, s' = t ++ c :: s2 /\ jo_comments o = true /\ line_comment t /\ In c [10; 13]%N
            /\ e = EvLineComment (pos (i + length w)) t :: e2 /\ jws' (i + length w + length t) (c :: s2) e2)
      \/ (exists t s2 e2, s' = t ++ s2 /\ jo_comments o = true /\ block_comment t
            /\ e = EvBlockComment (pos (i + length w)) t :: e2 /\ jws' (i + length w + length t) s2 e2)).
Proof.
  induction 1 as [i|i c w e Hc Hw IH|i t c w e Ho Ht Hc Hw _|i t w e Ho Ht Hw _].
  - exists [], []. auto.
  - destruct IH as (w' & s' & -> & Hw' & IH). exists (c :: w'), s'. split; [reflexivity|]. split; [constructor; assumption|].
    cbn [length]. replace (i + S (length w')) with (i + 1 + length w') by lia. exact IH.
  - exists [], (t ++ c :: w). split; [reflexivity|]. split; [constructor|]. right; left.
    exists t, c, w, e. cbn [length]. rewrite Nat.add_0_r. auto 10.
  - exists [], (t ++ w). split; [reflexivity|]. split; [constructor|]. right; right.
    exists t, w, e. cbn [length]. rewrite Nat.add_0_r. auto 10.
Qed.

(** Whitespace before [r]. *)
Definition wsr (i : nat) (s : str) (e : list event) (r : str) : Prop :=
  jws' i s e /\ unless_head stop r \/ jws_end' i s e /\ r = [].

Lemma wsr_split i s e r : wsr i s e r -> exists w s', s = w ++ s' /\ Forall blank w
  /\ ((s' = [] /\ e = [] /\ unless_head stop r)
      \/ (exists t s2 e2, s' = t ++ s2 /\ jo_comments o = true /\ line_comment t
            /\ (s2 ++ r = [] \/ exists c x, s2 ++ r = c :: x /\ In c [10; 13]%N)
            /\ e = EvLineComment (pos (i + length w)) t :: e2 /\ wsr (i + length w + length t) s2 e2 r)
      \/ (exists t s2 e2, s' = t ++ s2 /\ jo_comments o = true /\ block_comment t
            /\ e = EvBlockComment (pos (i + length w)) t :: e2 /\ wsr (i + length w + length t) s2 e2 r)).
Proof.
  intros [[H Hr]|[H ->]].
  - destruct (jws_split _ _ _ H) as (w & s' & -> & Hw & [(-> & ->)|[(t & c & s2 & e2 & -> & Ho & Ht & Hc & -> & H2)|(t & s2 & e2 & -> & Ho & Ht & -> & H2)]]);
      exists w; eexists; (split; [reflexivity|]); (split; [exact Hw|]).
    + auto.
    + right; left. exists t, (c :: s2), e2. repeat (split; [solve [auto]|]). split; [right; cbn; eauto|]. split; [reflexivity|]. left; auto.
    + right; right. exists t, s2, e2. repeat (split; [solve [auto]|]). left; auto.
  - destruct H as [i s e H|i s e u Ho H Hu].
    + destruct (jws_split _ _ _ H) as (w & s' & -> & Hw & [(-> & ->)|[(t & c & s2 & e2 & -> & Ho & Ht & Hc & -> & H2)|(t & s2 & e2 & -> & Ho & Ht & -> & H2)]]);
        exists w; eexists; (split; [reflexivity|]); (split; [exact Hw|]).
      * left. cbn. auto.
      * right; left. exists t, (c :: s2), e2. repeat (split; [solve [auto]|]). split; [right; cbn; eauto|]. split; [reflexivity|]. right; split; [constructor; exact H2|reflexivity].
      * right; right. exists t, s2, e2. repeat (split; [solve [auto]|]). right; split; [constructor; exact H2|reflexivity].
    + destruct (jws_split _ _ _ H) as (w & s' & -> & Hw & [(-> & ->)|[(t & c & s2 & e2 & -> & _ & Ht & Hc & -> & H2)|(t & s2 & e2 & -> & _ & Ht & -> & H2)]]);
        exists w; eexists; (split; [rewrite <- app_assoc; reflexivity|]); (split; [exact Hw|]).
      * right; left. exists u, [], []. rewrite !app_nil_r. cbn [app]. repeat (split; [solve [auto]|]).
        right. split; [constructor; constructor|reflexivity].
      * right; left. exists t, (c :: s2 ++ u), (e2 ++ [EvLineComment (pos (i + length w + length t + length (c :: s2))) u]).
        rewrite <- app_assoc. repeat (split; [solve [auto]|]).
        split; [right; cbn; eauto|].
        split; [rewrite !app_length, !Nat.add_assoc; reflexivity|]. right. split; [|reflexivity].
           change (c :: s2 ++ u) with ((c :: s2) ++ u). apply ws_end_line; assumption.
      * right; right. exists t, (s2 ++ u), (e2 ++ [EvLineComment (pos (i + length w + length t + length s2)) u]).
        rewrite <- app_assoc. repeat (split; [solve [auto]|]).
        split; [rewrite !app_length, !Nat.add_assoc; reflexivity|]. right. split; [|reflexivity].
        apply ws_end_line; assumption.
Qed.

Lemma not_blank_slash : ~ blank 47%N.
Proof. intros [H|H]; [cbn in H; intuition discriminate|discriminate]. Qed.
Lemma unless_stop_blank r : unless_head stop r -> unless_head blank r.
Proof. destruct r; cbn; [auto|]. unfold stop. auto. Qed.
Lemma line_starts t r : line_comment t -> starts_with (t ++ r) (bs "//") = true.
Proof. intros (b & -> & _). apply starts_with_app. exists (b ++ r). rewrite app_assoc. reflexivity. Qed.
Lemma block_starts t r : block_comment t ->
  starts_with (t ++ r) (bs "//") = false /\ starts_with (t ++ r) (bs "/*") = true.
Proof.
  intros (b & -> & _). split; [reflexivity|]. apply starts_with_app. exists (b ++ bs "*/" ++ r).
  rewrite <- !app_assoc. reflexivity.
Qed.
Lemma stop_starts r : unless_head stop r -> starts_with r (bs "//") = false /\ starts_with r (bs "/*") = false.
Proof.
  destruct r as [|c r]; [auto|]. cbn [unless_head]. unfold stop. intros H.
  assert (c <> 47%N) by tauto. cbn. apply N.eqb_neq in H0. rewrite N.eqb_sym in H0. rewrite ?H0. 
  split; cbn; destruct (c =? 47)%N eqn:X; try reflexivity; apply N.eqb_eq in X; subst; exfalso; tauto.
Qed.

Lemma ws_complete i s e r st : At i st -> rem st = s ++ r -> wsr i s e r ->
  tri (p_ws o) (yes i s e r st) never st.
Proof.
  intros A Er Hw. unfold p_ws. apply tri_if; intros Ec.
  { apply negb_true_iff in Ec.
    destruct (wsr_split _ _ _ _ Hw) as (w & s' & -> & Bw & [(-> & -> & Hr)|[(t & s2 & e2 & _ & Ho & _)|(t & s2 & e2 & _ & Ho & _)]]);
      try congruence.
    rewrite app_nil_r in *. apply tri_bind, tri_get_rem. rewrite Er, match_whitespace_exact by (try assumption; apply unless_stop_blank; exact Hr).
    apply tri_bind. eapply tri_advance; [exact A|exact Er|reflexivity|]. intros st' R E'. apply tri_ret.
    split; [reflexivity|]. split; [exact E'|]. exists []. split; [exact R|constructor]. }
  apply negb_false_iff in Ec.
  apply tri_hloop with
    (Inv := fun (_ : unit) st1 => exists s1 e1 s2 e2 evs, s = s1 ++ s2 /\ e = e1 ++ e2 /\ ran i (i + length s1) s1 st st1 evs
        /\ reports e1 evs /\ rem st1 = s2 ++ r /\ wsr (i + length s1) s2 e2 r)
    (mu := fun _ st1 => length (rem st1)).
  - exists [], [], s, e, []. cbn [length app]. rewrite Nat.add_0_r. split; [reflexivity|]. split; [reflexivity|].
    split; [apply ran_refl; exact A|]. split; [constructor|]. auto.
  - lia.
  - intros _ st1 (s1 & e1 & s2 & e2 & evs & -> & -> & R & Rep & Er1 & Hw1).
    destruct (wsr_split _ _ _ _ Hw1) as (w & s' & -> & Bw & H). rewrite <- app_assoc in Er1.
    pose proof (ran_At _ _ _ _ _ _ _ R) as A1.
    assert (Hh : unless_head blank (s' ++ r)).
    { destruct H as [(-> & _ & Hr)|[(t & s2 & e3 & -> & _ & (b & -> & _) & _)|(t & s2 & e3 & -> & _ & (b & -> & _) & _)]].
      - apply unless_stop_blank. exact Hr.
      - exact not_blank_slash.
      - exact not_blank_slash. }
    apply tri_bind, tri_get_rem. rewrite Er1, match_whitespace_exact by assumption.
    apply tri_bind. eapply tri_advance; [exact A1|exact Er1|reflexivity|]. intros st2 R2 E2.
    pose proof (ran_At _ _ _ _ _ _ _ R2) as A2. pose proof (ran_len _ _ _ _ _ _ _ R2) as [L2 _].
    pose proof (ran_trans _ _ _ _ _ _ _ _ _ _ _ R R2) as R'. rewrite app_nil_r in R'.
    apply tri_bind, tri_get_rem.
    destruct H as [(-> & -> & Hr)|[(t & s2 & e3 & -> & _ & Ht & Hn & -> & Hw2)|(t & s2 & e3 & -> & _ & Ht & -> & Hw2)]].
    + cbn [app] in E2. rewrite E2. destruct (stop_starts _ Hr) as [-> ->]. apply tri_ret. rewrite !app_nil_r.
      split; [reflexivity|]. split; [exact E2|]. exists evs. split; [|exact Rep].
      rewrite app_length, Nat.add_assoc. exact R'.
    + rewrite <- app_assoc in E2. rewrite E2, line_starts by assumption. apply tri_bind.
      unfold p_line_comment. apply tri_bind, tri_get_rem. rewrite E2, match_line_comment_complete by assumption.
      assert (Lt : 2 <= length t) by (destruct Ht as (b & -> & _); cbn; lia).
      replace (length t =? 0) with false by (symmetry; apply Nat.eqb_neq; lia). cbn [negb].
      rewrite firstn_app_exact.
      apply tri_bind. eapply tri_visit; [exact A2| |].
      { eapply good_line; [exact A2|exact E2]. }
      intros st3 R3 E3. rewrite E2 in E3.
      apply tri_bind. eapply tri_line; [apply (ran_At _ _ _ _ _ _ _ R3)|exact E3|reflexivity|apply line_comment_no_lf; exact Ht|].
      intros st4 R4 E4. apply tri_ret. apply tri_ret. cbv beta iota.
      pose proof (ran_trans _ _ _ _ _ _ _ _ _ _ _ R' (ran_trans _ _ _ _ _ _ _ _ _ _ _ R3 R4)) as R5.
      split.
      * exists (s1 ++ w ++ t), (e1 ++ [EvLineComment (pos (i + length s1 + length w)) t]), s2, e3, (evs ++ [EvLineComment (pos (i + length s1 + length w)) t] ++ []).
        split; [rewrite <- !app_assoc; reflexivity|]. split; [rewrite <- !app_assoc; reflexivity|].
        rewrite !app_length, !Nat.add_assoc. rewrite <- app_assoc in R5. split; [exact R5|].
        split; [apply Forall2_app; [exact Rep|apply reported_refl]|]. auto.
      * rewrite <- Er1. apply ran_len in R3, R4. cbn [length] in R3. lia.
    + rewrite <- app_assoc in E2. rewrite E2. destruct (block_starts t (s2 ++ r) Ht) as [-> ->]. apply tri_bind.
      unfold p_block_comment. apply tri_bind, tri_get_rem. rewrite E2, match_block_comment_complete by assumption.
      cbn [en_length en_terminated].
      assert (Lt : 2 <= length t) by (destruct Ht as (b & -> & _); cbn; lia).
      replace (length t =? 0) with false by (symmetry; apply Nat.eqb_neq; lia). cbn [negb].
      apply tri_bind. eapply tri_advance; [exact A2|exact E2|reflexivity|]. intros st3 R3 E3.
      apply tri_bind, tri_get_rem. apply tri_bind. eapply tri_visit; [apply (ran_At _ _ _ _ _ _ _ R3)| |].
      { split; [left; exact I|exact (fun x => x)]. }
      intros st4 R4 E4. apply tri_ret. apply tri_ret. cbv beta iota.
      pose proof (ran_trans _ _ _ _ _ _ _ _ _ _ _ R' (ran_trans _ _ _ _ _ _ _ _ _ _ _ R3 R4)) as R5.
      split.
      * exists (s1 ++ w ++ t), (e1 ++ [EvBlockComment (pos (i + length s1 + length w)) t]), s2, e3. eexists.
        split; [rewrite <- !app_assoc; reflexivity|]. split; [rewrite <- !app_assoc; reflexivity|].
        rewrite !app_length, !Nat.add_assoc. rewrite app_nil_r, <- app_assoc in R5. split; [exact R5|].
        split; [apply Forall2_app; [exact Rep|]; cbn [app]; constructor; [constructor|constructor]|].
        rewrite E4, E3. auto.
      * rewrite <- Er1. apply ran_len in R3, R4. cbn [length] in R4. lia.
Qed.

Lemma ws_complete' i s e r st (Q : bool -> hst pstate -> Prop) : At i st -> rem st = s ++ r ->
  jws' i s e -> unless_head stop r ->
  (forall evs st', ran i (i + length s) s st st' evs -> reports e evs -> rem st' = r -> Q true st') ->
  tri (p_ws o) Q never st.
Proof.
  intros A E W U H. eapply tri_mono; [apply (ws_complete i s e r); [exact A|exact E|left; auto]|].
  intros b st' (-> & Hr & evs & R & Rep). eapply H; eassumption.
Qed.

(** ** Strings *)
Definition lit (i : nat) (l : str) : list event := match l with [] => [] | _ => [EvLiteral (pos i) l] end.
Definition escaped (i : nat) (x : str) (es : list event) : Prop :=
  x = [] /\ es = [] \/ exists t v e s es', x = t ++ s /\ es = e :: es' /\ json_escape t v
    /\ escape_event o (pos i) t v e /\ jchars' (i + length t) s es'.

Lemma jchars_split i k es : jchars' i k es -> exists l x es', k = l ++ x /\ Forall unescaped l
  /\ es = lit i l ++ es' /\ escaped (i + length l) x es'.
Proof.
  intros H. destruct H as [i|i t v s e es Ht He Hs|i t s es Hn Hu Hh Hs].
  - exists [], [], []. split; [reflexivity|]. split; [constructor|]. split; [reflexivity|]. left. auto.
  - exists [], (t ++ s), (e :: es). split; [reflexivity|]. split; [constructor|]. split; [reflexivity|].
    cbn [length]. rewrite Nat.add_0_r. right. exists t, v, e, s, es. auto.
  - exists t, s, es. split; [reflexivity|]. split; [exact Hu|]. split; [destruct t; [congruence|reflexivity]|].
    inversion Hs as [|? t2 v s2 e es2 Ht He Hs2|? t2 s2 es2 Hn2 Hu2 Hh2 Hs2]; subst.
    + left. auto.
    + right. exists t2, v, e, s2, es2. auto.
    + exfalso. destruct t2 as [|c t2]; [congruence|]. specialize (Hh c (t2 ++ s2) eq_refl).
      inversion Hu2 as [|? ? Hc]. destruct Hc as (_ & _ & Hc). congruence.
Qed.

Lemma escape_complete i t v e r st : At i st -> rem st = t ++ r -> json_escape t v -> escape_event o (pos i) t v e ->
  tri (p_escape o) (yes i t [e] r st) never st.
Proof.
  intros A Er Ht He. unfold p_escape. apply tri_bind, tri_get_rem. rewrite Er.
  rewrite match_escape_complete with (v := v) by assumption. apply tri_bind. eapply tri_lift; [reflexivity|].
  destruct (escape_head _ _ Ht) as (r' & _ & NL & L). replace (length t =? 0) with false by (symmetry; apply Nat.eqb_neq; lia).
  rewrite firstn_app_exact. set (f := fun p : position => _).
  assert (Hf : f (pos i) = e).
  { subst f. unfold escape_event in He. cbv beta. destruct (jo_escapes o); rewrite He; try reflexivity.
    rewrite encode8_eq; [reflexivity|]. pose proof (escape_value_bound _ _ Ht). lia. }
  apply tri_bind. eapply tri_visit; [exact A| |].
  { split; [right|].
    - eapply At_located; [exact A| |].
      + rewrite Er. instantiate (1 := r). f_equal. unfold f. destruct (jo_escapes o); reflexivity.
      + unfold f. destruct (jo_escapes o); reflexivity.
    - unfold f. destruct (jo_escapes o); exact (fun x => x). }
  intros st1 R1 Hr1. rewrite Er in Hr1.
  apply tri_bind. eapply tri_line; [apply (ran_At _ _ _ _ _ _ _ R1)|exact Hr1|reflexivity|exact NL|].
  intros st2 R2 Hr2. apply tri_ret. pose proof (ran_trans _ _ _ _ _ _ _ _ _ _ _ R1 R2) as R.
  split; [reflexivity|]. split; [exact Hr2|]. eexists. split; [exact R|]. rewrite Hf. apply reported_refl.
Qed.

Lemma string_complete property i k es r st : At i st -> rem st = ([34%N] ++ k ++ [34%N]) ++ r ->
  jchars' (i + 1) k es ->
  tri (p_string o property) (yes i ([34%N] ++ k ++ [34%N])
     ([push_ev property (pos i)] ++ es ++ [pop_ev property (pos (i + 1 + length k))]) r st) never st.
Proof.
  intros A Er Hk. unfold p_string. apply tri_bind, tri_get_rem.
  assert (Hq : starts_with_ch (rem st) 34 = true) by (rewrite Er; reflexivity). rewrite Hq. cbn [negb].
  rewrite <- !app_assoc in Er.
  apply tri_bind. eapply tri_visit; [exact A| |].
  { split; [right; eapply At_located; [exact A|rewrite Er; destruct property; reflexivity|destruct property; reflexivity]
           |destruct property; exact (fun x => x)]. }
  intros st1 R1 Hr1. rewrite Er in Hr1.
  apply tri_bind. eapply tri_line; [apply (ran_At _ _ _ _ _ _ _ R1)|exact Hr1|reflexivity|exact quote_no_lf|].
  intros st2 R2 Hr2. pose proof (ran_trans _ _ _ _ _ _ _ _ _ _ _ R1 R2) as R. cbn [app] in R.
  eapply tri_mono; [|intros b st' H; eapply yes_after; [exact R|apply reported_refl|exact H]].
  change (i + length [34%N]) with (i + 1) in *. clear R1 Hr1 R.
  pose proof (ran_At _ _ _ _ _ _ _ R2) as A2.
  apply tri_hloop with
    (Inv := fun len st3 => exists s1 e1 l l2 x es', k = s1 ++ (l ++ l2) ++ x /\ es = e1 ++ lit (i + 1 + length s1) (l ++ l2) ++ es'
        /\ ran (i + 1) (i + 1 + length s1) s1 st2 st3 e1 /\ length l = len /\ Forall unescaped (l ++ l2)
        /\ escaped (i + 1 + length s1 + length (l ++ l2)) x es' /\ rem st3 = (l ++ l2) ++ x ++ [34%N] ++ r)
    (mu := fun len st3 => length (rem st3) - len).
  - destruct (jchars_split _ _ _ Hk) as (l2 & x & es' & Ek & Hu & Ees & Hx).
    exists [], [], [], l2, x, es'. cbn [app length]. rewrite Nat.add_0_r. split; [exact Ek|]. split; [exact Ees|].
    split; [apply ran_refl; exact A2|]. split; [reflexivity|]. split; [exact Hu|]. split; [exact Hx|].
    rewrite Hr2, Ek, <- app_assoc. reflexivity.
  - lia.
  - intros len st3 (s1 & e1 & l & l2 & x & es' & Ek & Ees & R3 & Ll & Hu & Hx & E3).
    pose proof (ran_At _ _ _ _ _ _ _ R3) as A3.
    unfold p_string_body. apply tri_bind, tri_get_rem.
    assert (Lx : length (rem st3) = len + length l2 + length x + 1 + length r).
    { rewrite E3, !app_length. cbn [length]. lia. }
    replace (negb (len <? length (rem st3))) with false by (symmetry; apply negb_false_iff, Nat.ltb_lt; lia).
    apply tri_bind, tri_at; [lia|]. intros c Hc.
    destruct l2 as [|y l2].
    + rewrite app_nil_r in *.
      destruct (rem_nth _ _ _ _ _ E3 (eq_sym Ll) Hc) as (r' & Ec).
      destruct Hx as [(-> & ->)|(t & v & e & s & es2 & -> & -> & Ht & He & Hs)].
      * cbn in Ec. injection Ec as <- _. rewrite N.eqb_refl. rewrite <- Ll. cbn [app] in E3.
        apply tri_bind. eapply tri_flush; [exact A3|exact E3|exact Hu|]. intros st4 ev4 R4 E4 Eev.
        pose proof (ran_At _ _ _ _ _ _ _ R4) as A4.
        apply tri_bind. eapply tri_visit; [exact A4| |].
        { split; [right; eapply At_located; [exact A4|rewrite E4; destruct property; reflexivity|destruct property; reflexivity]
             |destruct property; exact (fun x => x)]. }
        intros st5 R5 E5. rewrite E4 in E5. change (34%N :: r) with ([34%N] ++ r) in E5.
        apply tri_bind. eapply tri_line; [apply (ran_At _ _ _ _ _ _ _ R5)|exact E5|reflexivity|exact quote_no_lf|].
        intros st6 R6 E6. apply tri_ret. cbv beta iota.
        pose proof (ran_trans _ _ _ _ _ _ _ _ _ _ _ R3 (ran_trans _ _ _ _ _ _ _ _ _ _ _ R4 (ran_trans _ _ _ _ _ _ _ _ _ _ _ R5 R6))) as R7.
        split; [reflexivity|]. split; [exact E6|]. eexists. rewrite Ek, app_nil_r.
        rewrite !app_length, <- !app_assoc. cbn [length]. rewrite !Nat.add_assoc. split; [exact R7|].
        rewrite Ees, app_nil_r, Eev, <- !app_assoc. cbn [app]. apply reported_refl.
      * destruct (escape_head _ _ Ht) as (t' & Et & _ & Lt). rewrite Et in Ec. cbn in Ec. injection Ec as <- _.
        replace (92 =? 34)%N with false by reflexivity. replace (92 =? ch "\")%N with true by reflexivity.
        rewrite <- Ll. rewrite <- !app_assoc in E3.
        apply tri_bind. eapply tri_flush; [exact A3|exact E3|exact Hu|]. intros st4 ev4 R4 E4 Eev.
        pose proof (ran_At _ _ _ _ _ _ _ R4) as A4.
        apply tri_bind. eapply tri_mono; [eapply escape_complete; [exact A4|exact E4|exact Ht|exact He]|].
        intros b st5 (-> & E5 & evs5 & R5 & Rep5). cbn [negb]. apply tri_ret. cbv beta iota.
        assert (evs5 = [e]).
        { inversion Rep5 as [|? e' ? ? Re Rn]; subst. inversion Rn; subst. f_equal.
          unfold escape_event in He. destruct (jo_escapes o); subst e; inversion Re; reflexivity. }
        subst evs5.
        pose proof (ran_trans _ _ _ _ _ _ _ _ _ _ _ R3 (ran_trans _ _ _ _ _ _ _ _ _ _ _ R4 R5)) as R7.
        destruct (jchars_split _ _ _ Hs) as (l2 & x & es3 & -> & Hu2 & -> & Hx2).
        split.
        -- exists (s1 ++ l ++ t), (e1 ++ ev4 ++ [e]), [], l2, x, es3. cbn [app length].
           split; [rewrite Ek, <- !app_assoc; reflexivity|].
           rewrite !app_length, !Nat.add_assoc.
           split; [rewrite Ees, Eev, <- !app_assoc; reflexivity|]. split; [exact R7|]. split; [reflexivity|].
           split; [exact Hu2|]. split; [exact Hx2|]. rewrite E5, <- !app_assoc. reflexivity.
        -- apply ran_len in R4, R5. lia.
    + assert (Ey : c = y).
      { rewrite E3, <- !app_assoc, nth_error_app2, Ll, Nat.sub_diag in Hc by lia. cbn in Hc. congruence. }
      subst y. assert (Uc : unescaped c).
      { rewrite Forall_forall in Hu. apply Hu. apply in_or_app. right. left. reflexivity. }
      destruct Uc as (U1 & U2 & U3).
      replace (c =? 34)%N with false by (symmetry; apply N.eqb_neq; exact U2).
      replace (c =? ch "\")%N with false by (symmetry; apply N.eqb_neq; exact U3).
      replace (c <? 0x20)%N with false by (symmetry; apply N.ltb_ge; exact U1).
      apply tri_ret. split; [|cbn [length] in Lx; lia].
      exists s1, e1, (l ++ [c]), l2, x, es'. rewrite <- (app_assoc l). cbn [app].
      repeat (split; [assumption|]). split; [rewrite app_length; cbn; lia|]. auto.
Qed.

(** ** Numbers *)
Definition follows (c : N) : Prop := blank c \/ In c (bs "/,]}").
Definition follow_ok (r : str) : Prop := r = [] \/ exists c r', r = c :: r' /\ follows c.

Lemma follow_number r : follow_ok r -> unless_head continues_number r /\ unless_head is_x r.
Proof.
  intros [->|(c & r' & -> & H)]; [cbn; auto|]. cbn [unless_head].
  assert (X : In c [32; 9; 10; 13; 12; 47; 44; 93; 125]%N).
  { destruct H as [[H|H]|H]; cbn in *; intuition. }
  unfold continues_number, digit, is_x, is_point, is_e.
  change (ch ".") with 46%N. change (ch "e") with 101%N. change (ch "E") with 69%N.
  change (ch "x") with 120%N. change (ch "X") with 88%N.
  cbn in X. lia.
Qed.

Lemma number_complete i t r st : At i st -> rem st = t ++ r -> json_number t -> follow_ok r ->
  tri (p_number o) (yes i t [number_event o (pos i) t] r st) never st.
Proof.
  intros A Er Ht Hr. destruct (follow_number r Hr) as [F1 F2]. unfold p_number. apply tri_bind, tri_get_rem. rewrite Er.
  destruct (match_number_complete t r Ht F1) as (n & -> & Ln & Hn). apply tri_bind. eapply tri_lift; [reflexivity|].
  rewrite Hn, Ln. destruct (number_head _ Ht) as (c & t' & Et & _).
  assert (L : 0 < length t) by (rewrite Et; cbn; lia).
  replace (length t =? 0) with false by (symmetry; apply Nat.eqb_neq; lia). cbn [orb].
  rewrite firstn_app_exact, strtod_exact by assumption.
  replace (length t =? 0) with false by (symmetry; apply Nat.eqb_neq; lia).
  rewrite firstn_app_exact.
  assert (Hv : forall f, (forall p, f p = number_event o p t) ->
    tri (visit f ;; advance_on_same_line (length t) ;; ret true) (yes i t [number_event o (pos i) t] r st) never st).
  { intros f Hf. apply tri_bind. eapply tri_visit; [exact A| |].
    { rewrite Hf. unfold number_event. split; [right|destruct (jo_numbers o); exact (fun x => x)].
      eapply At_located; [exact A|instantiate (1 := r); rewrite Er; destruct (jo_numbers o); reflexivity|destruct (jo_numbers o); reflexivity]. }
    intros st1 R1 E1. rewrite Er in E1.
    apply tri_bind. eapply tri_line; [apply (ran_At _ _ _ _ _ _ _ R1)|exact E1|reflexivity|apply number_no_lf; exact Ht|].
    intros st2 R2 E2. apply tri_ret. pose proof (ran_trans _ _ _ _ _ _ _ _ _ _ _ R1 R2) as R.
    split; [reflexivity|]. split; [exact E2|]. eexists. split; [exact R|]. rewrite Hf. apply reported_refl. }
  apply tri_if; intros Ho; apply Hv; intros p; unfold number_event; rewrite Ho; reflexivity.
Qed.

(** ** Sequences *)
Lemma follow_ws i w e r : jws' i w e -> follow_ok r -> follow_ok (w ++ r).
Proof.
  intros H Hr. apply jws_head in H as [->|(c & x & -> & H)]; [exact Hr|]. right. cbn. exists c, (x ++ r).
  split; [reflexivity|]. destruct H as [H| ->]; [left; exact H|right; cbn; auto].
Qed.
Lemma unless_other P c r : ~ P c -> unless_head P (c :: r).
Proof. auto. Qed.
Lemma other_stop c : In c (bs ",]}:") -> ~ stop c.
Proof.
  intros H. cbn in H. intros [[X|X]|X]; cbn in X; repeat destruct X as [X|X]; try contradiction; subst;
    intuition discriminate.
Qed.
(** The start of an item: neither whitespace nor punctuation. *)
Definition item_start (s : str) : Prop :=
  exists c r, s = c :: r /\ ~ stop c /\ ~ In c (bs ",]}:").

Section Seq.
Variable item : P bool.
Variable n : nat.
Variable close : N.
Variable pop : position -> event.
Variable err : json_error.
Hypothesis close_ok : In close (bs "]}").
Hypothesis pop_ok : forall p, event_text (pop p) = [close] /\ event_position (pop p) = p /\ ~ is_error (pop p).
Notation body := (seq_body o close pop err item).

Definition good_item (i : nat) (s : str) (e : list event) : Prop :=
  forall st r, At i st -> rem st = s ++ r -> follow_ok r -> length (rem st) < n ->
    tri item (yes i s e r st) never st.
(** From an item to the closing bracket. *)
Definition good_items (i : nat) (s : str) (e : list event) : Prop :=
  forall st r, At i st -> rem st = s ++ [close] ++ r -> length (rem st) < n ->
    tri item (fun b st1 => b = true /\ length (rem st1) < length (rem st)
      /\ forall fuel, length (rem st1) < fuel ->
      tri (iter fuel body false) (yes i (s ++ [close]) (e ++ [pop (pos (i + length s))]) r st) never st1) never st.

Lemma close_cases : close <> 10%N /\ follows close /\ ~ stop close /\ close <> ch ",".
Proof.
  cbn in close_ok. destruct close_ok as [<-|[<-|[]]]; (split; [discriminate|]); (split; [right; cbn; auto|]);
    (split; [apply other_stop; cbn; auto|discriminate]).
Qed.

(** The loop at whitespace and the closing bracket. *)
Lemma closing fuel first i w e r st : At i st -> rem st = w ++ [close] ++ r -> jws' i w e -> 0 < fuel ->
  tri (iter fuel body first) (yes i (w ++ [close]) (e ++ [pop (pos (i + length w))]) r st) never st.
Proof.
  intros A Er Hw Hf. destruct fuel as [|fuel]; [lia|]. cbn [iter]. apply tri_bind. unfold seq_body at 1.
  destruct close_cases as (C1 & C2 & C3 & C4).
  apply tri_bind, tri_eof; intros He; [rewrite Er in He; destruct w; discriminate|].
  apply tri_bind. eapply ws_complete'; [exact A|exact Er|exact Hw|exact C3|]. intros ev1 st1 R1 Rep1 E1. cbn [negb].
  pose proof (ran_At _ _ _ _ _ _ _ R1) as A1.
  apply tri_bind, tri_get_rem. rewrite E1. change ([close] ++ r) with (close :: r). rewrite starts_ch_true.
  destruct (pop_ok (pos (i + length w))) as (P1 & P2 & P3).
  apply tri_bind. eapply tri_visit; [exact A1| |].
  { split; [right; eapply At_located; [exact A1|rewrite P1; exact E1|exact P2]|exact P3]. }
  intros st2 R2 E2. rewrite E1 in E2.
  apply tri_bind. eapply tri_line; [apply (ran_At _ _ _ _ _ _ _ R2)|exact E2|reflexivity|constructor; [exact C1|constructor]|].
  intros st3 R3 E3. apply tri_ret. apply tri_ret.
  eapply yes_after; [exact R1|exact Rep1|]. split; [reflexivity|]. split; [exact E3|].
  eexists. split; [exact (ran_trans _ _ _ _ _ _ _ _ _ _ _ R2 R3)|]. apply reported_refl.
Qed.

Lemma starts_other s c : unless_head (fun x => x = c) s -> starts_with_ch s c = false.
Proof. apply starts_ch_false. Qed.

Lemma items_last i v ev w ew : good_item i v ev -> item_start v -> jws' (i + length v) w ew -> good_items i (v ++ w) (ev ++ ew).
Proof.
  intros Hv (c0 & r0 & Ev & _) Hw st r A Er Ln. rewrite <- app_assoc in Er. destruct close_cases as (C1 & C2 & C3 & C4).
  eapply tri_mono; [apply Hv; [exact A|exact Er| |exact Ln]|].
  { eapply follow_ws; [exact Hw|]. right. cbn. eauto. }
  intros b st1 (-> & E1 & evs & R & Rep). split; [reflexivity|].
  split; [rewrite E1, Er, Ev; rewrite !app_length; cbn; lia|]. intros fuel Hf.
  pose proof (ran_At _ _ _ _ _ _ _ R) as A1.
  eapply tri_mono; [eapply closing; [exact A1|exact E1|exact Hw|lia]|].
  intros b st2 H. rewrite <- !app_assoc, app_length, Nat.add_assoc. eapply yes_after; eassumption.
Qed.

Lemma items_next i v ev w ew w' ew' s es : good_item i v ev -> item_start v -> jws' (i + length v) w ew ->
  jws' (i + length v + length w + 1) w' ew' -> item_start s ->
  good_items (i + length v + length w + 1 + length w') s es ->
  good_items i (v ++ w ++ bs "," ++ w' ++ s) (ev ++ ew ++ ew' ++ es).
Proof.
  intros Hv (c0 & r0 & Ev & _) Hw Hw' (c1 & r1 & Es & S1 & S2) Hs st r A Er Ln.
  destruct close_cases as (C1 & C2 & C3 & C4).
  rewrite <- !app_assoc in Er.
  eapply tri_mono; [apply Hv; [exact A|exact Er| |exact Ln]|].
  { eapply follow_ws; [exact Hw|]. right. cbn. eexists _, _. split; [reflexivity|]. right. cbn. auto. }
  intros b st1 (-> & E1 & evs & R & Rep). split; [reflexivity|].
  split; [rewrite E1, Er, Ev; rewrite !app_length; cbn; lia|]. intros fuel Hf.
  pose proof (ran_At _ _ _ _ _ _ _ R) as A1.
  destruct fuel as [|fuel]; [lia|]. cbn [iter]. apply tri_bind. unfold seq_body at 1.
  apply tri_bind, tri_eof; intros He; [rewrite E1 in He; destruct w; discriminate|].
  apply tri_bind. eapply ws_complete'; [exact A1|exact E1|exact Hw|apply other_stop; cbn; auto|].
  intros ev2 st2 R2 Rep2 E2. cbn [negb].
  pose proof (ran_At _ _ _ _ _ _ _ R2) as A2.
  apply tri_bind, tri_get_rem. rewrite E2.
  rewrite starts_other by (cbn; intros X; apply C4; symmetry; exact X).
  change (bs "," ++ w' ++ s ++ [close] ++ r) with (ch "," :: w' ++ s ++ [close] ++ r). rewrite starts_ch_true.
  apply tri_bind. eapply tri_line; [exact A2|exact E2|reflexivity|constructor; [discriminate|constructor]|].
  intros st3 R3 E3. pose proof (ran_At _ _ _ _ _ _ _ R3) as A3.
  apply tri_bind. eapply ws_complete'; [exact A3|exact E3|exact Hw'|rewrite Es; exact S1|].
  intros ev4 st4 R4 Rep4 E4. cbn [negb]. pose proof (ran_At _ _ _ _ _ _ _ R4) as A4.
  assert (Q1 : length (rem st4) <= length (rem st1)).
  { apply ran_len in R2, R3, R4. lia. }
  assert (Q2 : length (rem st1) < length (rem st)).
  { rewrite E1, Er, Ev, !app_length. cbn. lia. }
  apply tri_bind. eapply tri_mono; [apply Hs; [exact A4|exact E4|lia]|].
  cbv beta. intros b st5 (-> & L5 & Hit). cbn [negb]. apply tri_ret.
  eapply tri_mono; [apply Hit; lia|]. intros b st6 H.
  pose proof (ran_trans _ _ _ _ _ _ _ _ _ _ _ R (ran_trans _ _ _ _ _ _ _ _ _ _ _ R2 (ran_trans _ _ _ _ _ _ _ _ _ _ _ R3 R4))) as R'.
  cbn [app] in R'.
  pose proof (yes_after _ _ _ _ _ _ _ _ _ _ _ _ R' (Forall2_app Rep (Forall2_app Rep2 Rep4)) H) as Y.
  rewrite <- !app_assoc in Y. rewrite <- !app_assoc.
  replace (i + length (v ++ w ++ bs "," ++ w' ++ s)) with (i + length v + length w + 1 + length w' + length s).
  2:{ rewrite !app_length. change (length (bs ",")) with 1. lia. }
  exact Y.
Qed.

(** The whole loop. *)
Lemma loop_empty i w e r st : At i st -> rem st = w ++ [close] ++ r -> jws' i w e ->
  tri (hloop 1 body true) (yes i (w ++ [close]) (e ++ [pop (pos (i + length w))]) r st) never st.
Proof. intros A Er Hw. unfold hloop. unfold tri. apply (closing _ true i w e r st); auto. lia. Qed.

Lemma loop_items i w e s es r st : At i st -> rem st = w ++ s ++ [close] ++ r -> length (rem st) < n ->
  jws' i w e -> item_start s -> good_items (i + length w) s es ->
  tri (hloop 1 body true) (yes i (w ++ s ++ [close]) (e ++ es ++ [pop (pos (i + length w + length s))]) r st) never st.
Proof.
  intros A Er Ln Hw (c1 & r1 & Es & S1 & S2) Hs. unfold hloop, tri.
  set (fuel := 1 * length (rem st) + 1). replace fuel with (S (length (rem st))) by (subst fuel; lia).
  match goal with |- match ?m st with _ => _ end => change (tri m (yes i (w ++ s ++ [close]) (e ++ es ++ [pop (pos (i + length w + length s))]) r st) never st) end.
  cbn [iter]. apply tri_bind. unfold seq_body at 1.
  apply tri_bind, tri_eof; intros He; [rewrite Er, Es in He; destruct w; discriminate|].
  apply tri_bind. eapply ws_complete'; [exact A|exact Er|exact Hw|rewrite Es; exact S1|].
  intros ev1 st1 R1 Rep1 E1. cbn [negb]. pose proof (ran_At _ _ _ _ _ _ _ R1) as A1. pose proof (ran_len _ _ _ _ _ _ _ R1) as [L1 _].
  apply tri_bind, tri_get_rem. rewrite E1.
  rewrite starts_other.
  2:{ rewrite Es. cbn. intros ->. apply S2. cbn in close_ok |- *. tauto. }
  apply tri_bind. eapply tri_mono; [apply Hs; [exact A1|exact E1|lia]|].
  cbv beta. intros b st2 (-> & L2 & Hit). cbn [negb]. apply tri_ret.
  eapply tri_mono; [apply Hit; lia|]. intros b st3 H. eapply yes_after; eassumption.
Qed.
End Seq.

(** ** Values *)
Definition P_value (i : nat) (s : str) (e : list event) : Prop :=
  item_start s /\ forall n, good_item (p_value n o) n i s e.
Definition P_elements (i : nat) (s : str) (e : list event) : Prop :=
  item_start s /\ forall n, good_items (p_value n o) n (ch "]") EvPopArray err_unterminated_array i s e.
Definition P_member (i : nat) (s : str) (e : list event) : Prop :=
  item_start s /\ forall n, good_item (p_member o (p_value n o)) n i s e.
Definition P_members (i : nat) (s : str) (e : list event) : Prop :=
  item_start s /\ forall n, good_items (p_member o (p_value n o)) n (ch "}") EvPopObject err_unterminated_object i s e.

Lemma start_app s t : item_start s -> item_start (s ++ t).
Proof. intros (c & r & -> & H). exists c, (r ++ t). auto. Qed.
Lemma start_char c r : ~ In c [32; 9; 10; 13; 12; 47; 44; 93; 125; 58]%N -> item_start (c :: r).
Proof.
  intros H. exists c, r. split; [reflexivity|]. split.
  - intros [[X|X]|X]; apply H; cbn in *; intuition.
  - intros X. apply H. cbn in *. intuition.
Qed.
Ltac not_in := cbn; intros X; repeat (destruct X as [X|X]; [discriminate X|]); exact X.

Lemma keyword_complete k ev i r st : At i st -> rem st = k ++ r -> In k [bs "true"; bs "false"; bs "null"] ->
  (forall p, event_text (ev p) = k /\ event_position (ev p) = p /\ ~ is_error (ev p)) ->
  forall n, n = length k ->
  tri (if starts_with (rem st) k then visit ev ;; advance_on_same_line n ;; ret true else ret false)
    (yes i k [ev (pos i)] r st) never st.
Proof.
  intros A Er Hk Hev n ->. assert (E : starts_with (rem st) k = true) by (apply starts_with_app; eauto). rewrite E.
  destruct (Hev (pos i)) as (F1 & F2 & F3).
  apply tri_bind. eapply tri_visit; [exact A| |].
  { split; [right; eapply At_located; [exact A|rewrite F1; exact Er|exact F2]|exact F3]. }
  intros st1 R1 E1. rewrite Er in E1.
  apply tri_bind. eapply tri_line; [apply (ran_At _ _ _ _ _ _ _ R1)|exact E1|reflexivity| |].
  { destruct Hk as [<-|[<-|[<-|[]]]]; repeat (constructor; [discriminate|]); constructor. }
  intros st2 R2 E2. apply tri_ret. split; [reflexivity|]. split; [exact E2|].
  eexists. split; [exact (ran_trans _ _ _ _ _ _ _ _ _ _ _ R1 R2)|]. apply reported_refl.
Qed.

(** The bracket and the loop after it. *)
Lemma array_complete n i s e r st :
  At i st -> rem st = bs "[" ++ s ++ r ->
  (forall st1, At (i + 1) st1 -> rem st1 = s ++ r -> length (rem st1) = length (rem st) - 1 ->
     tri (let! ok := p_ws o in if negb ok then ret false
          else hloop 1 (seq_body o (ch "]") EvPopArray err_unterminated_array (p_value n o)) true)
       (yes (i + 1) s e r st1) never st1) ->
  tri (p_value (S n) o) (yes i (bs "[" ++ s) (EvPushArray (pos i) :: e) r st) never st.
Proof.
  intros A Er H. cbn [p_value]. apply tri_bind, tri_get_rem. rewrite Er.
  change (bs "[" ++ s ++ r) with (ch "[" :: s ++ r). cbv iota.
  replace (ch "[" =? 34)%N with false by reflexivity. rewrite N.eqb_refl.
  unfold p_array. apply tri_bind, tri_get_rem. rewrite Er.
  change (bs "[" ++ s ++ r) with (ch "[" :: s ++ r). rewrite starts_ch_true. cbn [negb].
  apply tri_bind. eapply tri_visit; [exact A| |].
  { split; [right; eapply At_located; [exact A|exact Er|reflexivity]|exact (fun x => x)]. }
  intros st1 R1 E1. rewrite Er in E1.
  apply tri_bind. eapply tri_line; [apply (ran_At _ _ _ _ _ _ _ R1)|exact E1|reflexivity|constructor; [discriminate|constructor]|].
  intros st2 R2 E2. pose proof (ran_trans _ _ _ _ _ _ _ _ _ _ _ R1 R2) as R12.
  rewrite array_body_eq. eapply tri_mono; [apply H; [apply (ran_At _ _ _ _ _ _ _ R2)|exact E2|]|].
  { apply ran_len in R12. destruct R12 as [R12 _]. rewrite R12. reflexivity. }
  intros b st3 Y. change (EvPushArray (pos i) :: e) with ([EvPushArray (pos i)] ++ e).
  eapply yes_after; [exact R12|apply reported_refl|exact Y].
Qed.
Lemma object_complete n i s e r st :
  At i st -> rem st = bs "{" ++ s ++ r ->
  (forall st1, At (i + 1) st1 -> rem st1 = s ++ r -> length (rem st1) = length (rem st) - 1 ->
     tri (hloop 1 (seq_body o (ch "}") EvPopObject err_unterminated_object (p_member o (p_value n o))) true)
       (yes (i + 1) s e r st1) never st1) ->
  tri (p_value (S n) o) (yes i (bs "{" ++ s) (EvPushObject (pos i) :: e) r st) never st.
Proof.
  intros A Er H. cbn [p_value]. apply tri_bind, tri_get_rem. rewrite Er.
  change (bs "{" ++ s ++ r) with (ch "{" :: s ++ r). cbv iota.
  replace (ch "{" =? 34)%N with false by reflexivity. replace (ch "{" =? ch "[")%N with false by reflexivity. rewrite N.eqb_refl.
  unfold p_object. apply tri_bind, tri_get_rem. rewrite Er.
  change (bs "{" ++ s ++ r) with (ch "{" :: s ++ r). rewrite starts_ch_true. cbn [negb].
  apply tri_bind. eapply tri_visit; [exact A| |].
  { split; [right; eapply At_located; [exact A|exact Er|reflexivity]|exact (fun x => x)]. }
  intros st1 R1 E1. rewrite Er in E1.
  apply tri_bind. eapply tri_line; [apply (ran_At _ _ _ _ _ _ _ R1)|exact E1|reflexivity|constructor; [discriminate|constructor]|].
  intros st2 R2 E2. pose proof (ran_trans _ _ _ _ _ _ _ _ _ _ _ R1 R2) as R12.
  rewrite object_body_eq. eapply tri_mono; [apply H; [apply (ran_At _ _ _ _ _ _ _ R2)|exact E2|]|].
  { apply ran_len in R12. destruct R12 as [R12 _]. rewrite R12. reflexivity. }
  intros b st3 Y. change (EvPushObject (pos i) :: e) with ([EvPushObject (pos i)] ++ e).
  eapply yes_after; [exact R12|apply reported_refl|exact Y].
Qed.

Scheme value_mut := Minimality for jvalue Sort Prop
  with elements_mut := Minimality for jelements Sort Prop
  with member_mut := Minimality for jmember Sort Prop
  with members_mut := Minimality for jmembers Sort Prop.

Lemma value_complete : forall i s e, jvalue' i s e -> P_value i s e.
Proof.
  apply (value_mut blank o pos P_value P_elements P_member P_members).
  - intros i. split; [apply start_char; not_in|]. intros [|n] st r A Er Hr Ln; [lia|].
    cbn [p_value]. apply tri_bind, tri_get_rem. 
    pose proof (keyword_complete (bs "null") EvNull i r st A Er ltac:(cbn; auto) ltac:(intros p; cbn; auto) 4 eq_refl) as K.
    rewrite Er in K |- *. exact K.
  - intros i. split; [apply start_char; not_in|]. intros [|n] st r A Er Hr Ln; [lia|].
    cbn [p_value]. apply tri_bind, tri_get_rem. 
    pose proof (keyword_complete (bs "true") (fun p => EvBoolean p true) i r st A Er ltac:(cbn; auto) ltac:(intros p; cbn; auto) 4 eq_refl) as K.
    rewrite Er in K |- *. exact K.
  - intros i. split; [apply start_char; not_in|]. intros [|n] st r A Er Hr Ln; [lia|].
    cbn [p_value]. apply tri_bind, tri_get_rem. 
    pose proof (keyword_complete (bs "false") (fun p => EvBoolean p false) i r st A Er ltac:(cbn; auto) ltac:(intros p; cbn; auto) 5 eq_refl) as K.
    rewrite Er in K |- *. exact K.
  - intros i t Ht. destruct (number_head t Ht) as (c & t' & Et & Hc). split.
    { rewrite Et. apply start_char. intros X. destruct Hc as [->|Hc]; [revert X; not_in|].
      unfold digit in Hc. cbn in X. lia. }
    intros [|n] st r A Er Hr Ln; [lia|]. cbn [p_value]. apply tri_bind, tri_get_rem. rewrite Er, Et. cbn [app]. cbv iota.
    assert (X : ((c =? 34)%N = false /\ (c =? ch "[")%N = false /\ (c =? ch "{")%N = false)
                /\ ((c =? ch "-")%N || is_ascii_digit c) = true).
    { split.
      - repeat split; apply N.eqb_neq; intros ->; (destruct Hc as [Hc|Hc]; [discriminate|unfold digit in Hc; revert Hc; cbn; lia]).
      - apply orb_true_iff. destruct Hc as [->|Hc]; [left; reflexivity|right; apply digit_iff; exact Hc]. }
    destruct X as ((-> & -> & ->) & ->). rewrite <- Et. apply number_complete; assumption.
  - intros i s es Hs. split; [apply start_char; not_in|]. intros [|n] st r A Er Hr Ln; [lia|].
    cbn [p_value]. apply tri_bind, tri_get_rem. rewrite Er. cbn [app]. cbv iota. rewrite N.eqb_refl.
    apply (string_complete false); assumption.
  - intros i w e Hw. split; [apply start_char; not_in|]. intros [|n] st r A Er Hr Ln; [lia|].
    change ([EvPushArray (pos i)] ++ e ++ [EvPopArray (pos (i + 1 + length w))])
      with (EvPushArray (pos i) :: e ++ [EvPopArray (pos (i + 1 + length w))]).
    rewrite <- app_assoc in Er.
    assert (Lp : 0 < length (rem st)) by (rewrite Er; cbn; lia).
    apply array_complete; [exact A|exact Er|]. intros st1 A1 E1 L1. rewrite <- app_assoc in E1.
    apply tri_bind. eapply ws_complete'; [exact A1|exact E1|exact Hw|apply other_stop; cbn; auto|].
    intros ev2 st2 R2 Rep2 E2. cbn [negb]. pose proof (ran_At _ _ _ _ _ _ _ R2) as A2.
    eapply tri_mono; [eapply (loop_empty (p_value n o) (ch "]") EvPopArray) with (w := []) (e := []) (r := r);
      [cbn; auto|intros p; cbn; auto|exact A2|exact E2|constructor]|].
    intros b st3 Y. cbn [app length] in Y. rewrite Nat.add_0_r in Y. eapply yes_after; eassumption.
  - intros i w e s es Hw _ [Hst Hs]. split; [apply start_char; not_in|]. intros [|n] st r A Er Hr Ln; [lia|].
    change ([EvPushArray (pos i)] ++ e ++ es ++ [EvPopArray (pos (i + 1 + length w + length s))])
      with (EvPushArray (pos i) :: e ++ es ++ [EvPopArray (pos (i + 1 + length w + length s))]).
    rewrite <- app_assoc in Er.
    assert (Lp : 0 < length (rem st)) by (rewrite Er; cbn; lia).
    apply array_complete; [exact A|exact Er|]. intros st1 A1 E1 L1. rewrite <- !app_assoc in E1.
    destruct (start_app s (bs "]" ++ r) Hst) as (c1 & r1 & Es & S1 & _).
    apply tri_bind. eapply ws_complete'; [exact A1|exact E1|exact Hw|rewrite Es; exact S1|].
    intros ev2 st2 R2 Rep2 E2. cbn [negb]. pose proof (ran_At _ _ _ _ _ _ _ R2) as A2. pose proof (ran_len _ _ _ _ _ _ _ R2) as [L2 _].
    eapply tri_mono; [eapply (loop_items (p_value n o) n (ch "]") EvPopArray) with (w := []) (e := []) (r := r) (s := s) (es := es) (i := i + 1 + length w);
      [cbn; auto|exact A2|exact E2|lia|constructor|exact Hst|cbn [length]; rewrite Nat.add_0_r; apply Hs]|].
    intros b st3 Y. cbn [app length] in Y. rewrite Nat.add_0_r in Y. eapply yes_after; eassumption.
  - intros i w e Hw. split; [apply start_char; not_in|]. intros [|n] st r A Er Hr Ln; [lia|].
    change ([EvPushObject (pos i)] ++ e ++ [EvPopObject (pos (i + 1 + length w))])
      with (EvPushObject (pos i) :: e ++ [EvPopObject (pos (i + 1 + length w))]).
    rewrite <- app_assoc in Er.
    assert (Lp : 0 < length (rem st)) by (rewrite Er; cbn; lia).
    apply object_complete; [exact A|exact Er|]. intros st1 A1 E1 L1. rewrite <- app_assoc in E1.
    eapply (loop_empty (p_member o (p_value n o)) (ch "}") EvPopObject);
      [cbn; auto|intros p; cbn; auto|exact A1|exact E1|exact Hw].
  - intros i w e s es Hw _ [Hst Hs]. split; [apply start_char; not_in|]. intros [|n] st r A Er Hr Ln; [lia|].
    change ([EvPushObject (pos i)] ++ e ++ es ++ [EvPopObject (pos (i + 1 + length w + length s))])
      with (EvPushObject (pos i) :: e ++ es ++ [EvPopObject (pos (i + 1 + length w + length s))]).
    rewrite <- app_assoc in Er.
    assert (Lp : 0 < length (rem st)) by (rewrite Er; cbn; lia).
    apply object_complete; [exact A|exact Er|]. intros st1 A1 E1 L1. rewrite <- !app_assoc in E1.
    eapply (loop_items (p_member o (p_value n o)) n (ch "}") EvPopObject);
      [cbn; auto|exact A1|exact E1|lia|exact Hw|exact Hst|apply Hs].
  - intros i v ev w ew _ [Sv Hv] Hw. split; [apply start_app; exact Sv|]. intros n.
    apply items_last; [cbn; auto|intros p; cbn; auto|apply Hv|exact Sv|exact Hw].
  - intros i v ev w ew w' ew' s es _ [Sv Hv] Hw Hw' _ [Ss Hs]. split; [apply start_app; exact Sv|]. intros n.
    apply items_next; [cbn; auto|intros p; cbn; auto|apply Hv|exact Sv|exact Hw|exact Hw'|exact Ss|apply Hs].
  - intros i k ek w1 e1 w2 e2 v ev Hk Hw1 Hw2 _ [Sv Hv]. split; [apply start_char; not_in|]. intros n st r A Er Hr Ln.
    replace ([34%N] ++ k ++ [34%N] ++ w1 ++ bs ":" ++ w2 ++ v) with (([34%N] ++ k ++ [34%N]) ++ w1 ++ bs ":" ++ w2 ++ v) in *
      by (rewrite <- !app_assoc; reflexivity).
    rewrite <- app_assoc in Er. unfold p_member.
    apply tri_bind. eapply tri_mono; [apply (string_complete true); [exact A|exact Er|exact Hk]|].
    intros b st1 (-> & E1 & evs1 & R1 & Rep1). cbn [negb].
    pose proof (ran_At _ _ _ _ _ _ _ R1) as A1.
    assert (Ei1 : i + length ([34%N] ++ k ++ [34%N]) = i + 2 + length k) by (rewrite !app_length; cbn; lia).
    rewrite Ei1 in *. rewrite <- !app_assoc in E1.
    apply tri_bind. eapply ws_complete'; [exact A1|exact E1|exact Hw1|apply other_stop; cbn; auto|].
    intros ev2 st2 R2 Rep2 E2. cbn [negb]. pose proof (ran_At _ _ _ _ _ _ _ R2) as A2.
    apply tri_bind, tri_get_rem. rewrite E2.
    change (bs ":" ++ w2 ++ v ++ r) with (ch ":" :: w2 ++ v ++ r). rewrite starts_ch_true. cbn [negb].
    apply tri_bind. eapply tri_line; [exact A2|exact E2|reflexivity|constructor; [discriminate|constructor]|].
    intros st3 R3 E3. pose proof (ran_At _ _ _ _ _ _ _ R3) as A3.
    replace (i + 2 + length k + length w1 + 1) with (i + 3 + length k + length w1) in * by lia.
    destruct (start_app v r Sv) as (c1 & r1 & Es & S1 & S2).
    apply tri_bind. eapply ws_complete'; [exact A3|exact E3|exact Hw2|rewrite Es; exact S1|].
    intros ev4 st4 R4 Rep4 E4. cbn [negb]. pose proof (ran_At _ _ _ _ _ _ _ R4) as A4.
    apply tri_bind, tri_get_rem.
    replace ((length (rem st4) =? 0) || starts_with_ch (rem st4) (ch "}") || starts_with_ch (rem st4) (ch ",")) with false.
    2:{ rewrite E4, Es. rewrite !starts_ch_false; [reflexivity|cbn; intros ->; apply S2; cbn; auto..]. }
    assert (Ln4 : length (rem st4) < n) by (apply ran_len in R1, R2, R3, R4; lia).
    eapply tri_mono; [apply Hv; [exact A4|exact E4|exact Hr|exact Ln4]|].
    intros b st5 Y.
    pose proof (ran_trans _ _ _ _ _ _ _ _ _ _ _ R1 (ran_trans _ _ _ _ _ _ _ _ _ _ _ R2 (ran_trans _ _ _ _ _ _ _ _ _ _ _ R3 R4))) as R'.
    cbn [app] in R'.
    pose proof (yes_after _ _ _ _ _ _ _ _ _ _ _ _ R' (Forall2_app Rep1 (Forall2_app Rep2 Rep4)) Y) as Z.
    repeat (progress (rewrite <- ?app_assoc in Z; cbn [app] in Z)).
    repeat (progress (rewrite <- ?app_assoc; cbn [app])). exact Z.
  - intros i v ev w ew _ [Sv Hv] Hw. split; [apply start_app; exact Sv|]. intros n.
    apply items_last; [cbn; auto|intros p; cbn; auto|apply Hv|exact Sv|exact Hw].
  - intros i v ev w ew w' ew' s es _ [Sv Hv] Hw Hw' _ [Ss Hs]. split; [apply start_app; exact Sv|]. intros n.
    apply items_next; [cbn; auto|intros p; cbn; auto|apply Hv|exact Sv|exact Hw|exact Hw'|exact Ss|apply Hs].
Qed.
End Parser.

Lemma parse_complete src o evs : json_text lenient_blank o src evs ->
  exists evs', parse_json src o = Ok (true, evs') /\ Forall2 (reported false) evs evs'.
Proof.
  intros H. unfold json_text in H. remember (position_of src) as pos eqn:Ep.
  inversion H as [w1 e1 v ev w2 e2 H1 H2 H3 Es Ee]. subst pos. rewrite Es in *.
  unfold parse_json. set (st0 := mk_hst _ _ _ _). set (m := bindM _ _).
  assert (A0 : At src 0 st0) by (repeat split; cbn; lia).
  assert (T : tri m (yes src 0 src evs [] st0) never st0).
  { destruct (value_complete src o _ _ _ H2) as [Sv Hv].
    assert (E0 : rem st0 = w1 ++ v ++ w2) by (symmetry; exact Es).
    destruct (start_app v w2 Sv) as (c1 & r1 & Ec & S1 & S2).
    subst m. apply tri_bind. eapply (ws_complete' src o 0); [exact A0|exact E0|exact H1|rewrite Ec; exact S1|].
    intros ev1 st1 R1 Rep1 E1. cbn [negb]. cbn [Nat.add] in R1. pose proof (ran_At _ _ _ _ _ _ _ R1) as A1.
    apply tri_bind. eapply tri_mono; [apply Hv; [exact A1|exact E1| |]|].
    { inversion H3 as [i w e H4|i w e t Ho H4 (b & -> & _)]; subst.
      - rewrite <- (app_nil_r w2). eapply follow_ws; [exact H4|]. left. reflexivity.
      - eapply follow_ws; [exact H4|]. right. cbn. eexists _, _. split; [reflexivity|]. right. cbn. auto. }
    { apply ran_len in R1. subst st0. cbn [rem] in R1. lia. }
    intros b st2 (-> & E2 & ev2 & R2 & Rep2). cbn [negb]. pose proof (ran_At _ _ _ _ _ _ _ R2) as A2.
    eapply tri_mono; [eapply (ws_complete src o _ w2 e2 []); [exact A2|rewrite app_nil_r; exact E2|right; auto]|].
    intros b st3 Y.
    pose proof (yes_after _ _ _ _ _ _ _ _ _ _ _ _ _ (ran_trans _ _ _ _ _ _ _ _ _ _ _ R1 R2) (Forall2_app Rep1 Rep2) Y) as Z.
    rewrite <- !app_assoc, Ee, Es in Z. exact Z. }
  unfold tri in T. destruct (m st0) as [[b st]|f]; [|destruct T].
  destruct T as (-> & _ & ev' & (_ & _ & _ & _ & Ev & _) & Rep). cbn in Ev. rewrite app_nil_r in Ev.
  exists ev'. rewrite Ev, rev_involutive. split; [reflexivity|rewrite Ee; exact Rep].
Qed.
