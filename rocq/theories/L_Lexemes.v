(** * Lemmas about programs made of lexemes *)
From Coq Require Import List NArith ZArith Bool Arith Lia.
From Verif Require Import M_Base L_Base M_Chars M_Types M_Emit S_Ops M_Utf8 L_Utf8 L_Any M_Parse L_Parse S_Parse P_Parse M_Api M_Highlighter S_Highlight L_Highlighter
  M_LangCpp P_LangCpp L_Auto M_TokenLoop S_Lexemes.
Import ListNotations.

Lemma text_app a b : text (a ++ b) = text a ++ text b.
Proof. unfold text. rewrite map_app, concat_app. reflexivity. Qed.
Lemma text_cons t h l : text ((t, h) :: l) = t ++ text l.
Proof. reflexivity. Qed.
Lemma tokens_app a : forall i b, tokens i (a ++ b) = tokens i a ++ tokens (i + length (text a)) b.
Proof.
  induction a as [|[t [h|]] a IH]; intros i b; cbn [app tokens].
  - change (text []) with (@nil N). cbn [length]. rewrite Nat.add_0_r. reflexivity.
  - rewrite IH, text_cons, app_length, Nat.add_assoc. reflexivity.
  - rewrite IH, text_cons, app_length, Nat.add_assoc. reflexivity.
Qed.

(** ** Safety of the loop *)
Lemma token_loop_all {S} (gap : N -> Prop) ws (token : M S unit) : (forall c, ws c = true -> gap c) ->
  (forall st, rem st <> [] -> wp token (fun _ st' => exists k, steps gap k st st' /\ 0 < k) st) ->
  forall st, wp (token_loop ws token) (fun _ st' => steps gap (length (rem st)) st st') st.
Proof.
  intros Hw Ht st. unfold token_loop.
  apply wp_hloop with (Inv := fun _ st' => exists k, steps gap k st st') (mu := fun _ st' => length (rem st')).
  - exists 0. apply steps_refl.
  - lia.
  - intros _ st1 (k & Hk). apply wp_bind, wp_get_rem. apply wp_bind.
    pose proof (length_if_le (rem st1) ws) as L. apply (wp_advance gap); [exact L| |].
    + rewrite length_if_eq. eapply Forall_impl; [|apply prefix_len_all]. intros c Hc. apply Hw. exact Hc.
    + intros st2 H2 _. pose proof (steps_trans _ _ _ _ _ _ Hk H2) as H3. apply wp_bind. apply wp_eof; intros He.
      * apply wp_ret. apply steps_len in H3 as L3. rewrite He in L3. cbn in L3. eapply steps_eq; [exact H3|lia].
      * apply wp_bind. eapply wp_mono; [apply Ht; exact He|]. cbn beta. intros _ st3 (k3 & H4 & K3). apply wp_ret.
        split; [exists (k + length_if (rem st1) ws + k3); eapply steps_trans; eassumption|]. apply steps_len in H2, H4. lia.
Qed.

Lemma wp_error_code_point {S} gap (Q : unit -> hst S -> Prop) st : rem st <> [] ->
  (forall k st', steps gap k st st' -> 0 < k -> Q tt st') -> wp emit_error_code_point Q st.
Proof.
  intros Hne H. unfold emit_error_code_point. apply wp_bind, wp_get_rem. apply wp_bind.
  destruct (replacement_any (rem st) Hne) as (c & n & E & B & _). eapply wp_lift; [exact E|]. cbn [snd]. apply wp_bind. apply wp_check; [destruct n; [lia|reflexivity]|].
  apply (wp_emit_adv_c gap); [lia|]. intros st' Hs _. apply (H n); [exact Hs|lia].
Qed.

(** ** The loop on programs *)
Section skip.
Context (wsb : N -> bool) (ws : N -> Prop) (lexeme : list piece -> str -> Prop).
Hypothesis Hws : forall c, wsb c = true <-> ws c.
Hypothesis Hhead : forall p r, lexeme p r -> exists c t, text p = c :: t /\ ~ ws c.
Lemma program_skip l : program ws lexeme l -> forall i, exists n l', program ws lexeme l' /\ length_if (text l) wsb = n /\ n <= length (text l)
  /\ skipn n (text l) = text l' /\ tokens i l = tokens (i + n) l' /\ (l' = [] \/ exists p q, l' = p ++ q /\ lexeme p (text q) /\ program ws lexeme q).
Proof.
  induction 1 as [|b l F H IH|p l Hp H IH]; intros i.
  - exists 0, []. split; [constructor|]. repeat split; auto.
  - destruct (IH (i + length b)) as (n & l' & H1 & H2 & H3 & H4 & H5 & H6). exists (length b + n), l'. rewrite text_cons. split; [exact H1|].
    split; [rewrite length_if_eq in *; rewrite prefix_len_app_all, H2; [reflexivity|eapply Forall_impl; [|exact F]; intros; apply Hws; assumption]|].
    split; [rewrite app_length; lia|]. split; [rewrite <- H4, skipn_app, skipn_all2 by lia; cbn [app]; f_equal; lia|]. split; [|exact H6].
    cbn [tokens]. rewrite H5. f_equal. lia.
  - destruct (Hhead _ _ Hp) as (c & t & E & Nw). exists 0, (p ++ l). split; [apply program_lexeme; assumption|]. split.
    + rewrite text_app, E, length_if_eq. cbn [app prefix_len]. destruct (wsb c) eqn:W; [apply Hws in W; contradiction|reflexivity].
    + split; [lia|]. split; [reflexivity|]. split; [rewrite Nat.add_0_r; reflexivity|]. right. eauto.
Qed.
End skip.

Section exact.
Context {S : Type} (init : S) (wsb : N -> bool) (ws : N -> Prop) (lexeme : list piece -> str -> Prop) (token : M S unit).
Hypothesis Hws : forall c, wsb c = true <-> ws c.
Hypothesis Hhead : forall p r, lexeme p r -> exists c t, text p = c :: t /\ ~ ws c.
Hypothesis Htoken : forall p r i o, lexeme p r ->
  wp token (fun _ st' => st' = mk_hst r (i + length (text p)) (rev (tokens i p) ++ o) init) (mk_hst (text p ++ r) i o init).

Lemma token_loop_exact l : program ws lexeme l -> run init (token_loop wsb token ;; ret true) (text l) = Ok (true, tokens 0 l).
Proof.
  intros Hl. set (st0 := mk_hst (text l) 0 [] init).
  assert (W : wp (token_loop wsb token) (fun _ st' => rops st' = rev (tokens 0 l)) st0).
  { unfold token_loop. apply wp_hloop with (mu := fun _ st' => length (rem st'))
      (Inv := fun _ st' => exists l1, program ws lexeme l1 /\ rem st' = text l1 /\ rev (rops st') ++ tokens (idx st') l1 = tokens 0 l /\ loc st' = init).
    - exists l. repeat split. exact Hl.
    - lia.
    - intros _ [r i o s] (l1 & P1 & R1 & T1 & L1). cbn [rem idx rops loc] in *. subst r s.
      destruct (program_skip wsb ws lexeme Hws Hhead l1 P1 i) as (n & l2 & P2 & N2 & B2 & S2 & T2 & C2).
      apply wp_bind, wp_get_rem. cbn [rem]. rewrite N2. apply wp_bind. apply wp_advance_exact; [exact B2|]. rewrite S2. apply wp_bind. apply wp_eof; cbn [rem]; intros He.
      + apply wp_ret. cbn [rops]. assert (tokens i l1 = []). { rewrite T2. destruct C2 as [->|(p & q & -> & Hp & _)]; [reflexivity|]. destruct (Hhead _ _ Hp) as (c & t & E & _). rewrite text_app, E in He. discriminate. }
        rewrite H, app_nil_r in T1. rewrite <- T1, rev_involutive. reflexivity.
      + destruct C2 as [->|(p & q & -> & Hp & Hq)]; [elim He; reflexivity|]. destruct (Hhead _ _ Hp) as (c & t & E & _). apply wp_bind. rewrite text_app. eapply wp_mono; [apply Htoken; exact Hp|]. cbn beta. intros _ st' ->. apply wp_ret. cbn [rem idx rops loc]. split.
        * exists q. repeat split; try assumption. rewrite rev_app_distr, rev_involutive, <- app_assoc, <- T1, T2, tokens_app. reflexivity.
        * rewrite text_app, E in S2. apply (f_equal (@length N)) in S2. rewrite skipn_length, app_length in S2. cbn [length] in S2. lia. }
  unfold run, bindM. fold st0. unfold wp in W. destruct (token_loop wsb token st0) as [[[] st']|]; [|contradiction]. unfold ret. rewrite W, rev_involutive. reflexivity.
Qed.
End exact.

(** The plain loop [while (!eof()) token]; white space belongs to the lexemes. *)
Section exact_plain.
Context {S : Type} (init : S) (lexeme : list piece -> str -> Prop) (token : M S unit).
Hypothesis Hhead : forall p r, lexeme p r -> text p <> [].
Hypothesis Htoken : forall p r i o, lexeme p r ->
  wp token (fun _ st' => st' = mk_hst r (i + length (text p)) (rev (tokens i p) ++ o) init) (mk_hst (text p ++ r) i o init).
Lemma while_rem_exact l : program (fun _ => False) lexeme l -> run init (while_rem token ;; ret true) (text l) = Ok (true, tokens 0 l).
Proof.
  intros Hl. set (st0 := mk_hst (text l) 0 [] init).
  assert (W : wp (while_rem token) (fun _ st' => rops st' = rev (tokens 0 l)) st0).
  { unfold while_rem. apply wp_hloop with (mu := fun _ st' => length (rem st'))
      (Inv := fun _ st' => exists l1, program (fun _ => False) lexeme l1 /\ rem st' = text l1 /\ rev (rops st') ++ tokens (idx st') l1 = tokens 0 l /\ loc st' = init).
    - exists l. repeat split. exact Hl.
    - lia.
    - intros _ [r i o s] (l1 & P1 & R1 & T1 & L1). cbn [rem idx rops loc] in *. subst r s.
      assert (C : text l1 = [] /\ tokens i l1 = [] \/ exists p q, text l1 = text p ++ text q /\ tokens i l1 = tokens i p ++ tokens (i + length (text p)) q /\ lexeme p (text q) /\ program (fun _ => False) lexeme q).
      { clear T1. revert i. induction P1 as [|b l1 F H IH|p q Hp H IH]; intros i.
        - left. split; reflexivity.
        - destruct F as [|x b F _]; [|contradiction]. cbn [tokens]. rewrite text_cons. cbn [app length]. rewrite Nat.add_0_r. apply IH.
        - right. exists p, q. rewrite text_app, tokens_app. auto. }
      apply wp_bind. apply wp_eof; cbn [rem]; intros He.
      + apply wp_ret. cbn [rops]. destruct C as [[_ C]|(p & q & C & _ & Hp & _)]; [|exfalso; apply Hhead in Hp; rewrite C in He; apply app_eq_nil in He; tauto].
        rewrite C, app_nil_r in T1. rewrite <- T1, rev_involutive. reflexivity.
      + destruct C as [[C _]|(p & q & C & C2 & Hp & Hq)]; [contradiction|]. apply wp_bind. rewrite C. eapply wp_mono; [apply Htoken; exact Hp|]. cbn beta. intros _ st' ->. apply wp_ret. cbn [rem idx rops loc]. split.
        * exists q. repeat split; try assumption. rewrite rev_app_distr, rev_involutive, <- app_assoc, <- T1, C2. reflexivity.
        * apply Hhead in Hp. rewrite app_length. destruct (text p); [contradiction|]. cbn [length]. lia. }
  unfold run, bindM. fold st0. unfold wp in W. destruct (while_rem token st0) as [[[] st']|]; [|contradiction]. unfold ret. rewrite W, rev_involutive. reflexivity.
Qed.
End exact_plain.

(** ** Characters *)
Lemma digit_iff c : is_ascii_digit c = true <-> digit c.
Proof. unfold is_ascii_digit, digit, between. rewrite andb_true_iff, !N.leb_le. reflexivity. Qed.
Lemma digit_10 c : is_ascii_digit_base c 10 = true <-> digit c.
Proof. unfold is_ascii_digit_base. cbn. rewrite !orb_true_iff, !andb_true_iff, digit_iff, !N.leb_le, !Z.ltb_lt. unfold digit. lia. Qed.
Lemma digit_16 c : is_ascii_digit_base c 16 = true <-> hex_digit c.
Proof. unfold is_ascii_digit_base. cbn. rewrite !orb_true_iff, !andb_true_iff, digit_iff, !N.leb_le, !Z.ltb_lt. unfold digit, hex_digit. lia. Qed.
Lemma digit_8 c : is_ascii_digit_base c 8 = true <-> octal_digit c.
Proof. unfold is_ascii_digit_base. cbn. rewrite andb_true_iff, N.leb_le, Z.ltb_lt. unfold octal_digit. lia. Qed.
Lemma digit_2 c : is_ascii_digit_base c 2 = true <-> binary_digit c.
Proof. unfold is_ascii_digit_base. cbn. rewrite andb_true_iff, N.leb_le, Z.ltb_lt. unfold binary_digit. lia. Qed.
Lemma ident_start_iff c : is_cpp_ascii_identifier_start c = true <-> ident_start c.
Proof.
  unfold is_cpp_ascii_identifier_start, is_ascii_xid_start, is_ascii_alpha, is_ascii_upper_alpha, is_ascii_lower_alpha, between, ident_start, letter.
  rewrite !orb_true_iff, !andb_true_iff, !N.leb_le, N.eqb_eq. lia.
Qed.
Lemma ident_char_iff c : is_cpp_ascii_identifier_continue c = true <-> ident_char c.
Proof.
  unfold is_cpp_ascii_identifier_continue, is_ascii_xid_continue, is_ascii_alphanumeric, is_ascii_alpha, is_ascii_upper_alpha, is_ascii_lower_alpha, is_ascii_digit, between, ident_char, letter, digit.
  rewrite !orb_true_iff, !andb_true_iff, !N.leb_le, N.eqb_eq. lia.
Qed.
Lemma decode_ascii c s : (c < 128)%N -> decode_and_length_or_replacement (c :: s) = Ok (c, 1).
Proof.
  intros H. cbn [decode_and_length_or_replacement]. rewrite sequence_length_eq by lia. unfold seqlen. rewrite (proj2 (N.ltb_lt c 128) H). cbn [Nat.eqb Nat.sub continuation_loop bind]. reflexivity.
Qed.
Lemma identifier_loop_ascii w rest : forall fuel len, length (w ++ rest) <= fuel -> Forall ident_char w -> not_before ident_or_non_ascii rest ->
  identifier_loop fuel (w ++ rest) len = Ok (len + length w).
Proof.
  induction w as [|c w IH]; intros fuel len L F R; cbn [app length].
  - rewrite Nat.add_0_r. destruct rest as [|c t]; [destruct fuel; reflexivity|]. destruct fuel as [|fuel]; [cbn in L; lia|]. cbn [identifier_loop].
    specialize (R c eq_refl). unfold ident_or_non_ascii in R. rewrite decode_ascii by lia. cbn [bind]. unfold is_identifier_continue_likely_ascii, is_ascii.
    assert (c < 128)%N as L2 by lia. rewrite (proj2 (N.leb_le c 127)) by lia. destruct (is_cpp_ascii_identifier_continue c) eqn:E; [apply ident_char_iff in E; tauto|]. reflexivity.
  - apply Forall_cons_iff in F as [Fc F]. destruct fuel as [|fuel]; [cbn in L; lia|]. cbn [identifier_loop].
    assert (c < 128)%N as L2 by (unfold ident_char, letter, digit in Fc; lia). rewrite decode_ascii by assumption. cbn [bind]. unfold is_identifier_continue_likely_ascii, is_ascii.
    rewrite (proj2 (N.leb_le c 127)) by lia. rewrite (proj2 (ident_char_iff c) Fc). cbn [negb]. rewrite remove_prefix_any by (cbn; lia). cbn [bind skipn]. rewrite IH by (cbn in L; assumption || lia). f_equal. lia.
Qed.
Lemma identifier_exact w rest : identifier w -> not_before ident_or_non_ascii rest -> cpp_match_identifier (w ++ rest) = Ok (length w).
Proof.
  intros (c & t & -> & Hc & F) R. cbn [app cpp_match_identifier]. assert (c < 128)%N as L2 by (unfold ident_start, letter in Hc; lia).
  rewrite decode_ascii by assumption. cbn [bind]. unfold is_identifier_start_likely_ascii, is_ascii.
  rewrite (proj2 (N.leb_le c 127)) by lia. rewrite (proj2 (ident_start_iff c) Hc). cbn [negb]. rewrite remove_prefix_any by (cbn; lia). cbn [bind skipn].
  rewrite identifier_loop_ascii; [reflexivity|cbn; lia|assumption|assumption].
Qed.
(** A text that starts with an ASCII character outside identifiers is no identifier. *)
Lemma not_identifier c s : (c < 128)%N -> ~ ident_start c -> cpp_match_identifier (c :: s) = Ok 0.
Proof.
  intros L H. cbn [cpp_match_identifier]. rewrite decode_ascii by assumption. cbn [bind]. unfold is_identifier_start_likely_ascii, is_ascii.
  rewrite (proj2 (N.leb_le c 127)) by lia. destruct (is_cpp_ascii_identifier_start c) eqn:E; [apply ident_start_iff in E; contradiction|]. reflexivity.
Qed.
Lemma wp_decode {S} r (Q : N * nat -> hst S -> Prop) st : (forall c n, n <= length r -> (r <> [] -> 0 < n) -> Q (c, n) st) ->
  wp (lift (decode_and_length_or_replacement r)) Q st.
Proof.
  intros H. destruct r as [|x r]; [eapply wp_lift; [reflexivity|apply H; [lia|congruence]]|].
  destruct (replacement_any (x :: r)) as (c & n & E & B & _); [discriminate|]. eapply wp_lift; [exact E|]. apply H; lia.
Qed.
