(** * Lemmas: the token loop with white space given as code points *)
From Coq Require Import List NArith ZArith Bool Arith Lia.
From Verif Require Import M_Base L_Base S_Tokens M_Emit S_Ops L_Emit M_Types M_Chars M_Parse S_Parse L_Parse P_Parse M_Utf8 S_Utf8 L_Utf8 P_Utf8 L_Any
  M_Api M_Highlighter S_Highlight L_Highlighter L_Auto M_TokenLoop S_Lexemes L_Lexemes S_Utf8Lexemes.
Import ListNotations.

Lemma next_encoding c t : scalar_value c -> next_code_point (utf8_encoding c ++ t) c (length (utf8_encoding c)).
Proof. intros H. apply next_valid. split; [exact H|]. split; [reflexivity|]. eauto. Qed.

(** What the scan skips *)
Lemma scan_prefix p s r : first_code_point (fun c => negb (p c)) s r -> p 0xFFFD%N = false ->
  exists cs, Forall (fun c => p c = true) cs /\ firstn (match r with Some i => i | None => length s end) s = concat (map utf8_encoding cs)
    /\ match r with Some i => i | None => length s end <= length s.
Proof.
  intros H HF. induction H as [|s c n H Hp|s c n r H Hp Hr IH].
  - exists []. cbn. auto with arith.
  - exists []. cbn. repeat split; auto. lia.
  - destruct IH as (cs & F & E & L). apply negb_false_iff in Hp. destruct H as [c n (Hs & <- & t & ->)|k]; [|congruence].
    rewrite skipn_app_exact in *. exists (c :: cs). split; [constructor; assumption|]. cbn [map concat]. rewrite <- E. destruct r as [i|]; cbn [option_map]; rewrite ?app_length; split; try lia.
    + rewrite firstn_app, firstn_all2 by lia. f_equal. f_equal. lia.
    + rewrite firstn_app, firstn_all2 by lia. f_equal. f_equal. lia.
Qed.

Definition ws_at (ws : N -> Prop) (src : str) (pos : nat) : Prop :=
  exists a c b, ws c /\ src = a ++ utf8_encoding c ++ b /\ length a <= pos < length a + length (utf8_encoding c).
Lemma ws_concat ws cs a b pos : Forall ws cs -> length a <= pos < length a + length (concat (map utf8_encoding cs)) ->
  ws_at ws (a ++ concat (map utf8_encoding cs) ++ b) pos.
Proof.
  intros F. revert a. induction F as [|c cs Hc F IH]; intros a L; cbn [map concat] in *; [cbn [length] in L; lia|].
  rewrite app_length in L. rewrite <- app_assoc. destruct (Nat.lt_ge_cases pos (length a + length (utf8_encoding c))) as [H|H].
  - exists a, c, (concat (map utf8_encoding cs) ++ b). split; [exact Hc|]. split; [reflexivity|lia].
  - rewrite app_assoc. apply IH. rewrite app_length. lia.
Qed.

(** ** Safety: the uncovered positions are in white space *)
Section safe.
Context {S : Type} (wsb : N -> bool) (ws : N -> Prop) (token : M S unit).
Hypothesis Hws : forall c, wsb c = true -> ws c.
Hypothesis Hrep : wsb 0xFFFD%N = false.
Hypothesis Htoken : forall st, rem st <> [] -> wp token (fun _ st' => exists k, steps (fun _ => False) k st st' /\ 0 < k) st.

Definition reached (src : str) (st : hst S) : Prop :=
  exists k, k <= length src /\ rem st = skipn k src /\ idx st = k /\ ops_in 0 k (rev (rops st))
    /\ forall pos, pos < k -> covered pos (rops st) \/ ws_at ws src pos.

Lemma reached_steps src st st' k : steps (fun _ => False) k st st' -> reached src st -> reached src st'.
Proof.
  intros (L & R & I & new & N1 & N2 & N3) (k0 & L0 & R0 & I0 & O0 & C0). exists (k0 + k). rewrite R0, skipn_length in L.
  split; [lia|]. split; [rewrite R, R0, skipn_skipn; f_equal; lia|]. split; [lia|]. split.
  - rewrite N1, rev_app_distr. eapply ops_in_app; [exact O0|]. rewrite <- I0. replace (idx st + k) with (idx st') by lia. exact N2.
  - intros pos Hp. rewrite N1. destruct (Nat.lt_ge_cases pos k0) as [H|H].
    + destruct (C0 pos H) as [C|C]; [left; apply covered_app; right; exact C|right; exact C].
    + left. apply covered_app. left. destruct (nth_error (rem st) (pos - k0)) as [c|] eqn:E.
      * destruct (N3 (pos - k0) c) as [[]|C]; [lia|exact E|]. replace (idx st + (pos - k0)) with pos in C by lia. exact C.
      * apply nth_error_None in E. rewrite R0, skipn_length in E. lia.
Qed.

Lemma token_loop_utf8_all src init : bytes src ->
  wp (token_loop_utf8 wsb token) (fun _ st' => reached src st' /\ rem st' = []) (mk_hst src 0 [] init).
Proof.
  intros Hb. unfold token_loop_utf8. apply wp_hloop with (Inv := fun _ st' => reached src st') (mu := fun _ st' => length (rem st')).
  - exists 0. cbn. split; [lia|]. repeat split; try constructor; try lia.
  - lia.
  - intros _ st1 H1. apply wp_bind, wp_get_rem. destruct H1 as (k & L1 & R1 & I1 & O1 & C1).
    assert (Hb1 : bytes (rem st1)) by (rewrite R1; apply bytes_skipn; exact Hb).
    destruct (C20_search (rem st1) wsb Hb1) as (r & r' & _ & F & _ & _ & E & _). apply wp_bind. eapply wp_lift; [exact E|].
    set (n := match r' with Some i => i | None => length (rem st1) end) in *.
    destruct (scan_prefix _ _ _ F Hrep) as (cs & Fc & Ec & Lc). fold n in Ec, Lc.
    apply wp_bind. destruct st1 as [rm ix op lc]. cbn [rem idx rops loc] in *. apply wp_advance_exact; [exact Lc|].
    set (st2 := mk_hst (skipn n rm) (ix + n) op lc).
    assert (H2 : reached src st2).
    { rewrite R1, skipn_length in Lc. exists (k + n). unfold st2. cbn [rem idx rops]. split; [lia|]. split; [rewrite R1, skipn_skipn; f_equal; lia|]. split; [lia|]. split; [eapply ops_in_weaken; [exact O1|lia|lia]|].
      intros pos Hp. destruct (Nat.lt_ge_cases pos k) as [H|H]; [apply C1; exact H|]. right.
      assert (Ln : length (concat (map utf8_encoding cs)) = n) by (rewrite <- Ec, firstn_length, R1, skipn_length; lia).
      replace src with (firstn k src ++ concat (map utf8_encoding cs) ++ skipn n rm).
      - apply ws_concat; [eapply Forall_impl; [|exact Fc]; exact Hws|]. rewrite firstn_length, Nat.min_l by lia. lia.
      - rewrite <- Ec, firstn_skipn, R1. apply firstn_skipn. }
    apply wp_bind. apply wp_eof; intros He.
    + apply wp_ret. split; assumption.
    + apply wp_bind. eapply wp_mono; [apply Htoken; exact He|]. cbn beta. intros _ st3 (k3 & S3 & K3). apply wp_ret. split; [eapply reached_steps; eassumption|].
      apply steps_len in S3. unfold st2 in S3. cbn [rem] in *. rewrite skipn_length in S3. lia.
Qed.
Lemma utf8_loop_highlights init (h : highlighter) : (forall src strict, h src strict = run init (token_loop_utf8 wsb token ;; ret true) src) ->
  highlights_except_code_points ws h.
Proof.
  intros Hh src strict coal cap Hb Hc. rewrite Hh. pose proof (token_loop_utf8_all src init Hb) as W. unfold wp in W. unfold run, bindM.
  destruct (token_loop_utf8 wsb token (mk_hst src 0 [] init)) as [[[] st']|]; [|contradiction]. cbn [ret]. destruct W as ((k & L & R & I & O & C) & E).
  assert (k = length src) as ->. { rewrite R in E. apply (f_equal (@length N)) in E. rewrite skipn_length in E. cbn in E. lia. }
  destruct (token_output_spec coal cap (length src) (rev (rops st')) Hc) as (cs & E2 & Ht & Hf).
  { now apply ops_in_bounds in O. }
  exists (rev (rops st')), cs. split; [reflexivity|]. split; [exact E2|]. split; [rewrite Ht; now apply tokens_of_wf|].
  intros pos Hp. destruct (C pos Hp) as [Cv|W]; [left|right; exact W]. assert (Cv2 : covered pos (rev (rops st'))) by (unfold covered in *; setoid_rewrite <- in_rev; exact Cv). destruct (covered_highlighted _ _ Cv2) as (ty & Hx). exists ty. rewrite Ht. now apply tokens_of_highlighted.
Qed.
End safe.

(** ** Exactness on programs *)
Section exact.
Context {S : Type} (init : S) (wsb : N -> bool) (ws : N -> Prop) (lexeme : list piece -> str -> Prop) (token : M S unit).
Hypothesis Hws : forall c, wsb c = true <-> ws c.
Hypothesis Hscalar : forall c, ws c -> scalar_value c.
Hypothesis Hhead : forall p r, lexeme p r -> exists c t, text p = c :: t /\ (c < 128)%N /\ ~ ws c.
Hypothesis Htoken : forall p r i o, lexeme p r -> bytes (text p ++ r) ->
  wp token (fun _ st' => st' = mk_hst r (i + length (text p)) (rev (tokens i p) ++ o) init) (mk_hst (text p ++ r) i o init).

Lemma scan_skip cs t r : Forall ws cs -> first_code_point (fun c => negb (wsb c)) t r ->
  first_code_point (fun c => negb (wsb c)) (concat (map utf8_encoding cs) ++ t) (option_map (Nat.add (length (concat (map utf8_encoding cs)))) r).
Proof.
  intros F H. induction F as [|c cs Hc F IH]; cbn [map concat app length].
  - destruct r; exact H.
  - rewrite <- app_assoc, app_length. replace (option_map _ r) with (option_map (Nat.add (length (utf8_encoding c))) (option_map (Nat.add (length (concat (map utf8_encoding cs)))) r)).
    + apply (first_miss _ _ c); [apply next_encoding, Hscalar, Hc|apply negb_false_iff, Hws, Hc|]. rewrite skipn_app_exact. exact IH.
    + destruct r; cbn [option_map]; [f_equal; lia|reflexivity].
Qed.
Lemma program8_skip l : program_utf8 ws lexeme l -> forall i, exists r l', let n := match r with Some i => i | None => length (text l) end in
  program_utf8 ws lexeme l' /\ first_code_point (fun c => negb (wsb c)) (text l) r /\ n <= length (text l)
  /\ skipn n (text l) = text l' /\ tokens i l = tokens (i + n) l' /\ (l' = [] \/ exists p q, l' = p ++ q /\ lexeme p (text q) /\ program_utf8 ws lexeme q).
Proof.
  induction 1 as [|b l (cs & F & ->) H IH|p l Hp H IH]; intros i.
  - exists None, []. cbn. split; [constructor|]. split; [apply first_end|]. repeat split; auto.
  - set (b := concat (map utf8_encoding cs)). destruct (IH (i + length b)) as (r & l' & H1 & H2 & H3 & H4 & H5 & H6). exists (option_map (Nat.add (length b)) r), l'. rewrite text_cons. cbv zeta. split; [exact H1|].
    split; [apply scan_skip; assumption|].
    assert (En : match option_map (Nat.add (length b)) r with Some i => i | None => length (b ++ text l) end = length b + match r with Some i => i | None => length (text l) end) by (destruct r; cbn [option_map]; rewrite ?app_length; reflexivity).
    rewrite En. set (n := match r with Some i => i | None => length (text l) end) in *.
    split; [rewrite app_length; lia|]. split; [rewrite <- H4, skipn_app, skipn_all2 by lia; cbn [app]; f_equal; lia|]. split; [|exact H6].
    cbn [tokens]. rewrite H5. f_equal. lia.
  - destruct (Hhead _ _ Hp) as (c & t & E & Hc & Nw). exists (Some 0), (p ++ l). cbv zeta. split; [apply program8_lexeme; assumption|]. split.
    + rewrite text_app, E. apply (first_hit _ _ c 1); [|apply negb_true_iff; destruct (wsb c) eqn:W; [apply Hws in W; contradiction|reflexivity]].
      assert (Ec : utf8_encoding c = [c]) by (unfold utf8_encoding; rewrite (proj2 (N.ltb_lt _ _)); [reflexivity|exact Hc]).
      pose proof (next_encoding c (t ++ text l)) as X. rewrite Ec in X. apply X. unfold scalar_value. lia.
    + split; [lia|]. split; [reflexivity|]. split; [rewrite Nat.add_0_r; reflexivity|]. right. eauto.
Qed.
Lemma token_loop_utf8_exact l : bytes (text l) -> program_utf8 ws lexeme l -> run init (token_loop_utf8 wsb token ;; ret true) (text l) = Ok (true, tokens 0 l).
Proof.
  intros Hb Hl. set (st0 := mk_hst (text l) 0 [] init).
  assert (W : wp (token_loop_utf8 wsb token) (fun _ st' => rops st' = rev (tokens 0 l)) st0).
  { unfold token_loop_utf8. apply wp_hloop with (mu := fun _ st' => length (rem st'))
      (Inv := fun _ st' => exists l1, program_utf8 ws lexeme l1 /\ bytes (text l1) /\ rem st' = text l1 /\ rev (rops st') ++ tokens (idx st') l1 = tokens 0 l /\ loc st' = init).
    - exists l. split; [exact Hl|]. split; [exact Hb|]. repeat split.
    - lia.
    - intros _ [r i o s] (l1 & P1 & B1 & R1 & T1 & L1). cbn [rem idx rops loc] in *. subst r s.
      destruct (program8_skip l1 P1 i) as (r & l2 & P2 & F2 & B2 & S2 & T2 & C2).
      destruct (C20_search (text l1) wsb B1) as (x & r' & _ & F & _ & _ & E & _). rewrite <- (C20_scan_unique _ _ _ _ F2 F) in E. set (n := match r with Some i => i | None => length (text l1) end) in *.
      assert (B3 : bytes (text l2)) by (rewrite <- S2; apply bytes_skipn; exact B1).
      apply wp_bind, wp_get_rem. cbn [rem]. apply wp_bind. eapply wp_lift; [exact E|]. apply wp_bind. apply wp_advance_exact; [exact B2|]. rewrite S2. apply wp_bind. apply wp_eof; cbn [rem]; intros He.
      + apply wp_ret. cbn [rops]. assert (H : tokens i l1 = []). { rewrite T2. destruct C2 as [->|(p & q & -> & Hp & _)]; [reflexivity|]. destruct (Hhead _ _ Hp) as (c & t & Ec & _). rewrite text_app, Ec in He. discriminate. }
        rewrite H, app_nil_r in T1. rewrite <- T1, rev_involutive. reflexivity.
      + destruct C2 as [->|(p & q & -> & Hp & Hq)]; [elim He; reflexivity|]. destruct (Hhead _ _ Hp) as (c & t & Ec & _). apply wp_bind. rewrite text_app. eapply wp_mono; [apply Htoken; [exact Hp|rewrite <- text_app; exact B3]|]. cbn beta. intros _ st' ->. apply wp_ret. cbn [rem idx rops loc]. split.
        * exists q. split; [assumption|]. split; [rewrite text_app in B3; apply Forall_app in B3; apply B3|]. repeat split. rewrite rev_app_distr, rev_involutive, <- app_assoc, <- T1, T2, tokens_app. reflexivity.
        * rewrite text_app, Ec in S2. apply (f_equal (@length N)) in S2. rewrite skipn_length, app_length in S2. cbn [length] in S2. lia. }
  unfold run, bindM. fold st0. unfold wp in W. destruct (token_loop_utf8 wsb token st0) as [[[] st']|]; [|contradiction]. unfold ret. rewrite W, rev_involutive. reflexivity.
Qed.
End exact.
