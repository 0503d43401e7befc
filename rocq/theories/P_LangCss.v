(** * Properties of the CSS highlighter (C67-C69). *)
From Coq Require Import List NArith ZArith Bool Arith Lia.
From Verif Require Import M_Base L_Base M_Chars S_Parse M_Parse L_Parse P_Parse M_Types S_Tokens M_Emit S_Ops S_Utf8 M_Utf8 L_Any
  M_Api M_Highlighter S_Highlight L_Highlighter L_Wf8 L_WfSteps M_LangHtml M_LangCpp P_LangCpp M_LangCss S_LangCss P_CssNumber.
Import ListNotations.

Notation any := anything.

Lemma css_space_ascii c : is_css_whitespace c = true -> ascii c.
Proof. apply html_space_ascii. Qed.
Lemma css_ident_ascii c : is_css_identifier c = true -> ascii c.
Proof.
  unfold is_css_identifier, is_css_identifier_start, is_ascii_alpha, is_ascii_lower_alpha, is_ascii_upper_alpha, is_ascii_digit, between, ascii.
  change (ch "_") with 95%N. change (ch "-") with 45%N.
  rewrite !orb_true_iff, !andb_true_iff, !N.leb_le, !N.eqb_eq. lia.
Qed.
Lemma escaped_ok s : wf8 s -> match_escaped_code_point s <= length s /\ wf8 (skipn (match_escaped_code_point s) s)
  /\ (s <> [] -> 0 < match_escaped_code_point s).
Proof.
  intros W. unfold match_escaped_code_point. destruct s as [|c s]; [cbn; split; [lia|]; split; [constructor|congruence]|].
  set (t := c :: s) in *. rewrite length_if_eq, prefix_len_firstn. set (n := Nat.min 6 (prefix_len is_ascii_hex_digit t)).
  assert (Ln : n <= length t) by (pose proof (prefix_len_le is_ascii_hex_digit t); lia).
  assert (F : Forall ascii (firstn n t)).
  { eapply Forall_impl; [|apply prefix_len_firstn_Forall with (p := is_ascii_hex_digit); lia]. exact hex_ascii. }
  destruct (Nat.eqb_spec n 0) as [Z|Z]; cbn [negb].
  - pose proof (wf8_sequence c s W) as [B W2]. fold t in B, W2. split; [lia|]. split; [exact W2|]. intros _. lia.
  - unfold unit_is. destruct (nth_error t n) as [d|] eqn:E.
    + destruct (is_css_whitespace d) eqn:Ed.
      * assert (n < length t) by (apply nth_error_Some; congruence). split; [lia|]. split; [|intros; lia].
        apply wf8_skip_ascii; [|exact W]. eapply Forall_firstn_S; [exact E|exact F|apply css_space_ascii; exact Ed].
      * split; [exact Ln|]. split; [|intros; lia]. apply wf8_skip_ascii; assumption.
    + split; [exact Ln|]. split; [|intros; lia]. apply wf8_skip_ascii; assumption.
Qed.

Lemma valid_escape_shape s : starts_with_valid_escape s = true -> exists d t, s = 92%N :: d :: t.
Proof.
  unfold starts_with_valid_escape. destruct s as [|c [|d t]]; try discriminate. intros H. apply andb_true_iff in H as [H _].
  apply N.eqb_eq in H. subst c. exists d, t. reflexivity.
Qed.

Definition ident_head (s : str) : bool :=
  starts_with_valid_escape s || unit_is is_css_identifier s 0.

Lemma ident_loop_ok fuel : forall s len, wf8 s -> length s <= fuel ->
  exists n, ident_sequence_loop fuel s len = Ok n /\ len <= n <= len + length s /\ (ident_head s = true <-> len < n).
Proof.
  induction fuel as [|fuel IH]; intros s len W L.
  - destruct s; [|cbn in L; lia]. exists len. cbn. split; [reflexivity|]. split; [lia|]. split; [discriminate|lia].
  - destruct s as [|c s]; [exists len; cbn; split; [reflexivity|]; split; [lia|]; split; [discriminate|lia]|].
    cbn [ident_sequence_loop length] in *. unfold ident_head. change (unit_is is_css_identifier (c :: s) 0) with (is_css_identifier c).
    destruct (starts_with_valid_escape (c :: s)) eqn:E.
    + destruct (valid_escape_shape _ E) as (d & t & X). injection X as -> ->.
      assert (W2 : wf8 (d :: t)) by (eapply wf8_tail; [exact W|lia]).
      destruct (escaped_ok _ W2) as (B1 & B2 & B3).
      destruct (IH (skipn (match_escaped_code_point (d :: t)) (d :: t)) (len + 1 + match_escaped_code_point (d :: t)) B2) as (n & E1 & E2 & _).
      { rewrite skipn_length. cbn [length] in *. lia. }
      exists n. split; [exact E1|]. rewrite skipn_length in E2. split; [lia|]. cbn [orb]. split; [lia|reflexivity].
    + cbn [orb]. destruct (is_css_identifier c) eqn:E2.
      * destruct (IH s (len + 1)) as (n & E3 & E4 & _); [eapply wf8_tail; [exact W|apply css_ident_ascii; exact E2]|lia|].
        exists n. split; [exact E3|]. split; [lia|]. split; [lia|reflexivity].
      * exists len. split; [reflexivity|]. split; [lia|]. split; [discriminate|lia].
Qed.
Lemma ident_ok s : wf8 s -> exists n, match_ident_sequence s = Ok n /\ n <= length s /\ (ident_head s = true <-> 0 < n).
Proof.
  intros W. destruct (ident_loop_ok (length s) s 0 W (le_n _)) as (n & E & L & H). exists n. split; [exact E|]. split; [lia|exact H].
Qed.

(** A function that moves forward by at least one unit, to a boundary. *)
Definition moves (m : M css_loc unit) (st : hst css_loc) : Prop :=
  wp m (fun _ st' => (exists k, steps any k st st' /\ 0 < k) /\ wf8 (rem st')) st.

Lemma m_ident_like ty st : wf8 (rem st) -> ident_head (rem st) = true -> moves (css_consume_ident_like_token ty) st.
Proof.
  intros W H. unfold moves, css_consume_ident_like_token. hl1. hl1. hl1.
  destruct (ident_ok _ W) as (n & E & L & HI). pose proof (proj1 HI H) as Hn.
  eapply wp_lift.
  { unfold match_ident_like_token. rewrite E. cbn [bind]. unfold check. assert (X : (n <=? length (rem st)) = true) by (apply Nat.leb_le; lia).
    rewrite X. reflexivity. }
  cbn [fst snd]. hl1. hl1. cbv zeta.
  match goal with |- wp (hloop 1 (ident_like_body ?t) 0) _ _ => set (ty2 := t); clearbody ty2 end.
  apply wp_hloop with (Inv := fun len st1 => exists k, steps any k st st1 /\ wf8 (rem st1) /\ len <= length (rem st1)
      /\ Forall ascii (firstn len (rem st1)) /\ (0 < k + len \/ ident_head (rem st1) = true)) (mu := fun len st1 => length (rem st1) - len).
  - exists 0. split; [apply steps_refl|]. split; [exact W|]. split; [lia|]. split; [constructor|auto].
  - lia.
  - intros len st1 (k & HK & W1 & L1 & F1 & P1). unfold ident_like_body. hl1. hl1.
    assert (FL : (starts_with_valid_escape (skipn len (rem st1)) = false) ->
       (forall c, nth_error (rem st1) len = Some c -> is_css_identifier c = false) ->
       wp (ident_flush len ty2;; ret (inr tt))
        (fun r st' => match r with
           | inl a' => (exists k0, steps any k0 st st' /\ wf8 (rem st') /\ a' <= length (rem st') /\ Forall ascii (firstn a' (rem st')) /\ (0 < k0 + a' \/ ident_head (rem st') = true)) /\ length (rem st') - a' < length (rem st1) - len
           | inr _ => (exists k0, steps any k0 st st' /\ 0 < k0) /\ wf8 (rem st') end) st1).
    { intros N1 N2. hl1. unfold ident_flush. apply wp_flush_c; [exact L1|]. intros st2 S2. hl1. split.
      - exists (k + len). split; [eapply steps_trans; eassumption|]. destruct P1 as [P1|P1]; [exact P1|].
        destruct len as [|len]; [|lia]. exfalso. unfold ident_head in P1. cbn [skipn] in N1. rewrite N1 in P1. cbn [orb] in P1.
        unfold unit_is in P1. destruct (nth_error (rem st1) 0) as [c|] eqn:Ec; [|discriminate]. specialize (N2 c eq_refl). congruence.
      - eapply wf8_steps; eassumption. }
    hl1; bool_hyps.
    + hl1. unfold substr_from. assert (X : (len <=? length (rem st1)) = true) by (apply Nat.leb_le; lia). rewrite X. clear X. hl1.
      hl1.
      * destruct (valid_escape_shape _ H1) as (d & t & X). hl1. unfold ident_flush. apply wp_flush_c; [lia|]. intros st2 S2.
        assert (R2 : rem st2 = 92%N :: d :: t) by (rewrite (steps_rem _ _ _ _ S2); exact X).
        hl1. hl1. rewrite R2. hl1. unfold substr_from. cbn [length Nat.leb skipn]. hl1.
        assert (W2 : wf8 (rem st2)) by (eapply wf8_steps; eassumption). rewrite R2 in W2.
        assert (W3 : wf8 (d :: t)) by (eapply wf8_tail; [exact W2|lia]). destruct (escaped_ok _ W3) as (B1 & B2 & B3).
        specialize (B3 ltac:(discriminate)). hl1.
        apply (wp_emit_adv any); [rewrite R2; cbn [length] in *; lia|]. intros st3 S3 _. hl1.
        assert (W4 : wf8 (rem st3)).
        { eapply steps_wf8; [exact S3|]. rewrite R2, Nat.add_comm. exact B2. }
        pose proof (steps_len _ _ _ _ S2) as [_ E2]. pose proof (steps_len _ _ _ _ S3) as [_ E3].
        split.
        -- eexists. split; [eapply steps_trans; [exact HK|eapply steps_trans; eassumption]|]. split; [exact W4|]. split; [lia|]. split; [constructor|left; lia].
        -- rewrite R2 in *. cbn [length] in *. lia.
      * hl1. apply wp_at; [lia|]. intros x Hx. destruct (is_css_identifier x) eqn:Ex.
        -- hl1. split; [|lia]. exists k. split; [exact HK|]. split; [exact W1|]. split; [lia|]. split; [|left; lia].
           eapply Forall_firstn_S; [eassumption|exact F1|apply css_ident_ascii; exact Ex].
        -- apply FL; [assumption|]. intros c Hc. congruence.
    + apply FL.
      * rewrite skipn_all2 by lia. reflexivity.
      * intros c Hc. exfalso. assert (len < length (rem st1)) by (apply nth_error_Some; congruence). lia.
Qed.

Lemma number_ascii t : css_number_text t -> Forall ascii t.
Proof.
  intros (g & i & f & e & -> & Hg & Hi & Hf & He & _).
  assert (D : forall d, Forall css_digit d -> Forall ascii d) by (intros d; apply Forall_impl; unfold css_digit, ascii; intros; lia).
  assert (G : forall g, css_sign g -> Forall ascii g) by (intros g0 [->|[->| ->]]; repeat constructor).
  repeat (apply Forall_app; split); auto.
  - destruct Hf as [->|(d & -> & _ & F)]; [constructor|]. constructor; [unfold ascii; lia|auto].
  - destruct He as [->|(c & g' & d & -> & Hc & Hs & _ & F)]; [constructor|]. constructor; [unfold ascii; lia|]. apply Forall_app; auto.
Qed.
Lemma number_nonempty t : css_number_text t -> 0 < length t.
Proof.
  intros (g & i & f & e & -> & _ & _ & _ & _ & H). rewrite !app_length. destruct H as [H|H]; apply neq_nil_len in H; lia.
Qed.

Lemma ident_head_of s : starts_with_ident_sequence s = true -> ident_head s = true.
Proof.
  unfold starts_with_ident_sequence, ident_head. destruct s as [|c s]; [discriminate|].
  change (unit_is is_css_identifier (c :: s) 0) with (is_css_identifier c).
  destruct (N.eqb_spec c (ch "-")) as [->|N].
  - intros _. apply orb_true_iff. right. reflexivity.
  - intros H. apply orb_true_iff in H as [H|H]; apply orb_true_iff; [right|left; exact H]. unfold is_css_identifier. rewrite H. reflexivity.
Qed.

Lemma m_numeric st : wf8 (rem st) -> css_starts_with_number (rem st) = true -> moves css_consume_numeric_token st.
Proof.
  intros W H. destruct (C68_css_number (rem st)) as [_ X]. destruct (X H) as (L & _ & V & _). clear X.
  set (n := css_match_number (rem st)) in *. assert (P : 0 < n) by (pose proof (number_nonempty _ V) as P; rewrite firstn_length in P; lia).
  unfold moves, css_consume_numeric_token, css_consume_number. hl1. hl1. hl1. hl1. hl1. fold n.
  apply (wp_emit_adv any); [lia|]. intros st1 S1 _. assert (W1 : wf8 (rem st1)) by (eapply wf8_steps; [exact S1|exact W|apply number_ascii; exact V]).
  hl1. hl1. hl1.
  - eapply wp_mono; [apply m_ident_like; [exact W1|apply ident_head_of; assumption]|]. cbn beta. intros [] st2 [(k & S2 & _) W2]. split; [|exact W2].
    exists (n + k). split; [eapply steps_trans; eassumption|lia].
  - hl1.
    + apply (wp_emit_adv any); [hlia|]. intros st2 S2 _. split; [exists (n + 1); split; [eapply steps_trans; eassumption|lia]|].
      eapply wf8_steps; [exact S2|exact W1|]. unfold starts_with_ch in *. destruct (rem st1) as [|c u]; [discriminate|].
      match goal with E : (c =? _)%N = true |- _ => apply N.eqb_eq in E; subst c end. repeat constructor.
    + split; [exists n; split; [exact S1|exact P]|exact W1].
Qed.

Lemma m_string q st : wf8 (rem st) -> ascii q -> rem st <> [] -> moves (css_consume_string_token q) st.
Proof.
  intros W Hq Hne. unfold moves, css_consume_string_token.
  apply wp_hloop with (Inv := fun len st1 => exists k, steps any k st st1 /\ wf8 (rem st1) /\ len <= length (rem st1) /\ 0 < k + len)
    (mu := fun len st1 => length (rem st1) - len).
  - exists 0. split; [apply steps_refl|]. split; [exact W|]. apply neq_nil_len in Hne. lia.
  - lia.
  - intros len st1 (k & HK & W1 & L1 & P1). unfold css_string_body. hl1. hl1. unfold string_flush, emit_and_advance.
    hl1; bool_hyps.
    + hl1. apply wp_at; [lia|]. intros x Hx. hl1; [|hl1; [|hl1]].
      * apply N.eqb_eq in H0. subst x. hl1. apply wp_flush_c; [lia|]. intros st2 S2. hl1. split.
        -- exists (k + (len + 1)). split; [eapply steps_trans; eassumption|lia].
        -- eapply steps_wf8; [exact S2|]. eapply wf8_after; eassumption.
      * hl1. apply wp_flush_c; [lia|]. intros st2 S2. hl1. split.
        -- exists (k + len). split; [eapply steps_trans; eassumption|lia].
        -- eapply steps_wf8; [exact S2|]. eapply wf8_at; [exact W1|exact Hx|]. apply mem_In in H1. cbn in H1. lia.
      * apply N.eqb_eq in H2. subst x. change (ch "\") with 92%N in *. hl1. apply wp_flush_c; [lia|]. intros st2 S2.
        assert (W2 : wf8 (rem st2)) by (eapply steps_wf8; [exact S2|]; eapply wf8_at; [exact W1|exact Hx|lia]).
        pose proof (steps_rem _ _ _ _ S2) as R2. destruct (rem st2) as [|y t] eqn:E2.
        { exfalso. symmetry in R2. apply (f_equal (@length N)) in R2. rewrite skipn_length in R2. cbn in R2. lia. }
        assert (y = 92%N).
        { rewrite <- (Nat.add_0_r len), <- nth_error_skipn, <- R2 in Hx. injection Hx as ->. reflexivity. }
        subst y. assert (W3 : wf8 t) by (eapply wf8_tail; [exact W2|lia]). destruct (escaped_ok _ W3) as (B1 & B2 & B3).
        hl1. hl1. rewrite E2. hl1. unfold substr_from. cbn [length Nat.leb skipn]. hl1. hl1.
        apply (wp_emit_adv_c any); [rewrite E2; cbn [length]; lia|]. intros st3 S3 _. hl1.
        pose proof (steps_len _ _ _ _ S2). pose proof (steps_len _ _ _ _ S3). rewrite E2 in *. cbn [length] in *. split; [|lia].
        eexists. split; [eapply steps_trans; [exact HK|eapply steps_trans; eassumption]|].
        split; [|lia]. eapply steps_wf8; [exact S3|]. rewrite E2, Nat.add_comm. exact B2.
      * hl1. split; [|lia]. exists k. split; [exact HK|]. split; [exact W1|lia].
    + hl1. apply wp_flush_c; [lia|]. intros st2 S2. hl1. split.
      * exists (k + len). split; [eapply steps_trans; eassumption|lia].
      * eapply steps_wf8; [exact S2|]. rewrite skipn_all2 by lia. constructor.
Qed.

Lemma some_eq (a b : nat) : option_map (fun i => 2 + i) (Some a) = Some b -> b = 2 + a.
Proof. cbn. congruence. Qed.
Lemma cpp_comment_end s : wf8 s -> wf8 (skipn (en_length (cpp_match_block_comment s)) s).
Proof.
  intros W. unfold cpp_match_block_comment. destruct (starts_with s (bs "/*")) eqn:E; cbn [negb]; [|exact W].
  destruct (find_str s (bs "*/") 2) as [i|] eqn:F; cbn [en_length]; [|rewrite skipn_all; constructor].
  unfold find_str in F. destruct (length s <? 2); [discriminate|]. destruct (find_sub (skipn 2 s) (bs "*/")) as [j|] eqn:F2; [|discriminate]. apply some_eq in F. subst i.
  apply P_Parse.find_sub_first in F2 as (a & b & F2 & La & _).
  replace (2 + j + 2) with ((2 + j + 1) + 1) by lia. apply (wf8_after s (2 + j + 1) 47%N); [exact W| |lia].
  rewrite <- Nat.add_assoc, <- nth_error_skipn, F2, nth_error_app2 by lia. replace (j + 1 - length a) with 1 by lia. reflexivity.
Qed.

Lemma m_comments st : wf8 (rem st) ->
  wp css_consume_comments (fun _ st' => (exists k, steps any k st st') /\ wf8 (rem st')) st.
Proof.
  intros W. unfold css_consume_comments.
  apply wp_hloop with (Inv := fun _ st1 => (exists k, steps any k st st1) /\ wf8 (rem st1)) (mu := fun _ st1 => length (rem st1)).
  - split; [exists 0; apply steps_refl|exact W].
  - lia.
  - intros [] st1 [(k & HK) W1]. hl1. hl1. cbv zeta. pose proof (block_comment_le (rem st1)) as [L1 L2]. pose proof (cpp_comment_end (rem st1) W1) as W2.
    set (e := cpp_match_block_comment (rem st1)) in *. hl1; [hl; split; [eauto|exact W1]|]. bool_hyps. specialize (L2 ltac:(assumption)).
    assert (A : forall st2 n, ahead any n st1 st2 -> n = en_length e ->
      wp (let! _ := advance (en_length e) in ret (@inl unit unit tt))
        (fun r st' => match r with inl a' => ((exists k, steps any k st st') /\ wf8 (rem st')) /\ length (rem st') < length (rem st1)
                                 | inr _ => (exists k, steps any k st st') /\ wf8 (rem st') end) st2).
    { intros st2 n A1 ->. hl1. eapply ahead_advance; [exact A1|reflexivity|]. intros st3 S3 _. hl1. pose proof (steps_len _ _ _ _ S3).
      split; [split; [eexists; eapply steps_trans; eassumption|eapply steps_wf8; eassumption]|lia]. }
    hl1. hl1. hl1. eapply (ahead_emit any); [apply ahead_refl|lia|lia|destruct (en_terminated e); lia|].
    intros st2 A2. hl1. cbn [Nat.add] in A2.
    assert (Last : forall st3, ahead any (en_length e - (if en_terminated e then 2 else 0)) st1 st3 ->
      wp (let! _ := when (en_terminated e) (emit_at false (idx st1 + en_length e - 2) 2 hl_comment_delim) in advance (en_length e);; ret (@inl unit unit tt))
        (fun r st' => match r with inl a' => ((exists k, steps any k st st') /\ wf8 (rem st')) /\ length (rem st') < length (rem st1)
                                 | inr _ => (exists k, steps any k st st') /\ wf8 (rem st') end) st3).
    { intros st3 A3. hl1. hl1.
      - eapply (ahead_emit any); [exact A3|lia| | |].
        1-2: rewrite H0 in *; lia.
        intros st4 A4. eapply A; [exact A4|]. rewrite H0 in *; lia.
      - eapply A; [exact A3|]. rewrite H0 in *; lia. }
    hl1; bool_hyps.
    + eapply (ahead_emit any); [exact A2|lia|lia|destruct (en_terminated e); lia|]. intros st3 A3. apply Last.
      replace (en_length e - (if en_terminated e then 2 else 0)) with (2 + (en_length e - 2 - (if en_terminated e then 2 else 0))) by (destruct (en_terminated e); lia). exact A3.
    + apply Last. replace (en_length e - (if en_terminated e then 2 else 0)) with 2 by (destruct (en_terminated e); lia). exact A2.
Qed.

Lemma m_whitespace st c r : wf8 (rem st) -> rem st = c :: r -> is_html_whitespace c = true -> moves css_consume_whitespace st.
Proof.
  intros W E H. unfold moves, css_consume_whitespace. hl1. hl1. unfold html_match_whitespace. rewrite length_if_eq.
  pose proof (prefix_len_le is_html_whitespace (rem st)). apply (wp_advance any); [lia|apply Forall_anything|]. intros st1 S1 _. split.
  - eexists. split; [exact S1|]. rewrite E. cbn [prefix_len]. rewrite H. lia.
  - eapply wf8_steps; [exact S1|exact W|]. apply Forall_prefix_len. exact html_space_ascii.
Qed.

Lemma upper_ascii a : ascii (to_ascii_upper a) -> ascii a.
Proof.
  unfold to_ascii_upper, ascii. destruct (is_ascii_lower_alpha a) eqn:E; [|auto]. intros _.
  unfold is_ascii_lower_alpha, between in E. rewrite andb_true_iff, !N.leb_le in E. lia.
Qed.
Lemma equal_upper_ascii y : Forall (fun b => ascii (to_ascii_upper b)) y -> forall x, equal_upper x y = true -> Forall ascii (firstn (length y) x).
Proof.
  induction 1 as [|b y Hb _ IH]; intros x E; [constructor|]. destruct x as [|a x]; [constructor|]. cbn [equal_upper] in E. apply andb_true_iff in E as [E1 E2].
  cbn [length firstn]. constructor; [|apply IH; exact E2]. apply upper_ascii. apply N.eqb_eq in E1. rewrite E1. exact Hb.
Qed.

(** One ASCII character, whatever is emitted. *)
Lemma m_one f ty c r st : wf8 (rem st) -> rem st = c :: r -> ascii c -> moves (emit_and_advance_c f 1 ty) st.
Proof.
  intros W E H. unfold moves. apply (wp_emit_adv_c any); [rewrite E; cbn; lia|]. intros st1 S1 _. split; [exists 1; split; [exact S1|lia]|].
  eapply wf8_steps; [exact S1|exact W|]. rewrite E. repeat constructor. exact H.
Qed.
Lemma m_skip c r st : wf8 (rem st) -> rem st = c :: r -> ascii c -> moves (advance 1) st.
Proof.
  intros W E H. unfold moves. apply (wp_advance any); [rewrite E; cbn; lia|apply Forall_anything|]. intros st1 S1 _. split; [exists 1; split; [exact S1|lia]|].
  eapply wf8_steps; [exact S1|exact W|]. rewrite E. repeat constructor. exact H.
Qed.
Lemma m_set l m st : (forall st', rem st' = rem st -> moves m st') -> moves (set_loc l ;; m) st.
Proof.
  intros H. unfold moves. hl1. apply (wp_set_loc any). intros st1 S1 R1 _. eapply wp_mono; [apply H; exact R1|]. cbn beta.
  intros [] st2 [(k & S2 & P) W2]. split; [|exact W2]. exists k. split; [|exact P]. replace k with (0 + k) by lia. eapply steps_trans; eassumption.
Qed.
Lemma m_set_context x m st : (forall st', rem st' = rem st -> moves m st') -> moves (set_context x ;; m) st.
Proof.
  intros H. unfold moves, set_context. hl1. hl1. hl1. change (moves (let! _ := set_loc (mk_css_loc (brace_level (loc st)) x) in m) st). apply m_set. exact H.
Qed.
Lemma m_seq m1 m2 st : moves m1 st -> (forall st' k, steps any k st st' -> 0 < k -> wf8 (rem st') -> moves m2 st') -> moves (m1 ;; m2) st.
Proof.
  intros H1 HN. unfold moves. hl1. eapply wp_mono; [exact H1|]. cbn beta. intros [] st1 [(k & S1 & P1) W1].
  eapply wp_mono; [eapply HN; eassumption|]. cbn beta. intros [] st2 [(k2 & S2 & P2) W2]. split; [|exact W2]. eexists. split; [eapply steps_trans; eassumption|lia].
Qed.

Lemma m_ret m st : moves m st -> moves (ret tt ;; m) st.
Proof. auto. Qed.

Ltac one := first [eapply m_one; [eassumption|eassumption|unfold ascii; lia] | eapply m_skip; [eassumption|eassumption|unfold ascii; lia]].

Lemma m_emit_then f ty m c r st : wf8 (rem st) -> rem st = c :: r -> ascii c ->
  (forall st', rem st' = r -> wf8 r -> moves m st') -> moves (emit_and_advance_c f 1 ty ;; m) st.
Proof.
  intros W E H HN. unfold moves. hl1. apply (wp_emit_adv_c any); [rewrite E; cbn; lia|]. intros st1 S1 _.
  assert (R : rem st1 = r) by (rewrite (steps_rem _ _ _ _ S1), E; reflexivity).
  assert (W1 : wf8 r) by (rewrite E in W; eapply wf8_tail; eassumption).
  eapply wp_mono; [eapply HN; assumption|]. cbn beta. intros [] st2 [(k2 & S2 & P2) W2]. split; [|exact W2]. eexists. split; [eapply steps_trans; eassumption|lia].
Qed.

Lemma m_literal f ty l st : wf8 (rem st) -> starts_with (rem st) l = true -> Forall ascii l -> l <> [] -> moves (emit_and_advance_c f (length l) ty) st.
Proof.
  intros W E F N. unfold moves. pose proof (starts_with_len _ _ E). apply neq_nil_len in N. apply (wp_emit_adv_c any); [lia|]. intros st1 S1 _.
  split; [exists (length l); split; [exact S1|lia]|]. eapply wf8_steps; [exact S1|exact W|]. apply starts_with_app in E as [t E]. rewrite E, firstn_app_exact. exact F.
Qed.

Lemma m_switch st c r : wf8 (rem st) -> rem st = c :: r -> moves (css_switch c (rem st) (loc st)) st.
Proof.
  intros W E. unfold css_switch. cbv zeta. set (l := loc st). clearbody l. destruct l as [lv ctx]. cbn [cx brace_level].
  set (hl := contextual_highlight_type ctx). clearbody hl.
  assert (WT : ascii c -> wf8 r) by (intros; rewrite E in W; eapply wf8_tail; eassumption).
  destruct (mem c [32; 9; 13; 10; 12]%N) eqn:E0.
  { eapply m_whitespace; [exact W|exact E|]. apply mem_In in E0. cbn in E0. destruct E0 as [<-|[<-|[<-|[<-|[<-|[]]]]]]; reflexivity. }
  clear E0. destruct ((c =? 34)%N || (c =? 39)%N) eqn:E0.
  { apply orb_true_iff in E0. rewrite !N.eqb_eq in E0. apply m_string; [exact W|unfold ascii; lia|congruence]. }
  clear E0. destruct (N.eqb_spec c (ch "#")) as [->|E0].
  { change (ch "#") with 35%N in *. rewrite E at 1. destruct (unit_is is_css_identifier (35%N :: r) 1 || starts_with_valid_escape (skipn 1 (rem st))) eqn:E1; [|one].
    eapply m_emit_then; [exact W|exact E|unfold ascii; lia|]. intros st' R W1. apply m_ident_like; [rewrite R; exact W1|]. rewrite R. unfold ident_head.
    rewrite E in E1. cbn [skipn] in E1. rewrite orb_comm. exact E1. }
  clear E0. destruct ((c =? ch "(")%N || (c =? ch ")")%N) eqn:E0.
  { apply orb_true_iff in E0. change (ch "(") with 40%N in E0. change (ch ")") with 41%N in E0. rewrite !N.eqb_eq in E0. one. }
  clear E0. destruct (N.eqb_spec c (ch ".")) as [->|E0].
  { change (ch ".") with 46%N in *. destruct (css_starts_with_number (rem st)) eqn:E1; [apply m_numeric; assumption|]. destruct ctx; one. }
  clear E0. destruct ((c =? ch "+")%N || (c =? ch "-")%N) eqn:E0.
  { apply orb_true_iff in E0. rewrite !N.eqb_eq in E0. change (ch "+") with 43%N in E0. change (ch "-") with 45%N in *.
    destruct (css_starts_with_number (rem st)) eqn:E1; [apply m_numeric; assumption|].
    destruct ((c =? 45)%N && starts_with (rem st) (bs "-->")) eqn:E2.
    { apply andb_true_iff in E2 as [_ E2]. change (emit_and_advance 3 hl_comment_delim) with (@emit_and_advance_c css_loc false (length (bs "-->")) hl_comment_delim).
      apply m_literal; [exact W|exact E2|repeat constructor|discriminate]. }
    destruct ((c =? 45)%N && starts_with_ident_sequence (skipn 1 (rem st))) eqn:E3; [|destruct ctx; one].
    apply andb_true_iff in E3 as [E3 _]. apply N.eqb_eq in E3. apply m_ident_like; [exact W|]. rewrite E. subst c. unfold ident_head. apply orb_true_iff. right. reflexivity. }
  clear E0. destruct (N.eqb_spec c (ch ",")) as [->|E0]; [change (ch ",") with 44%N in *; one|].
  clear E0. destruct (N.eqb_spec c (ch ":")) as [->|E0].
  { change (ch ":") with 58%N in *. destruct ctx; try one. apply m_set_context. intros st' R. eapply m_one; [rewrite R; exact W|rewrite R; exact E|unfold ascii; lia]. }
  clear E0. destruct (N.eqb_spec c (ch ";")) as [->|E0].
  { change (ch ";") with 59%N in *. destruct ctx; [apply m_ret; one| |apply m_ret; one|];
    apply m_set_context; intros st' R; (eapply m_one; [rewrite R; exact W|rewrite R; exact E|unfold ascii; lia]). }
  clear E0. destruct (N.eqb_spec c (ch "<")) as [->|E0].
  { change (ch "<") with 60%N in *. destruct (starts_with (rem st) (bs "<!--")) eqn:E1; [|one].
    change (emit_and_advance 4 hl_comment_delim) with (@emit_and_advance_c css_loc false (length (bs "<!--")) hl_comment_delim).
    apply m_literal; [exact W|exact E1|repeat constructor|discriminate]. }
  clear E0. destruct ((c =? ch ">")%N || (c =? ch "~")%N || (c =? ch "*")%N) eqn:E0.
  { rewrite !orb_true_iff, !N.eqb_eq in E0. change (ch ">") with 62%N in E0. change (ch "~") with 126%N in E0. change (ch "*") with 42%N in E0. destruct ctx; one. }
  clear E0. destruct (N.eqb_spec c (ch "@")) as [->|E0].
  { change (ch "@") with 64%N in *. apply m_set_context. intros st' R. rewrite E. cbn [skipn]. rewrite <- R in W. rewrite <- R in E.
    destruct (starts_with_ident_sequence r) eqn:E1; [|one]. eapply m_emit_then; [exact W|exact E|unfold ascii; lia|].
    intros st2 R2 W2. apply m_ident_like; [rewrite R2; exact W2|]. rewrite R2. apply ident_head_of. exact E1. }
  clear E0. destruct (N.eqb_spec c (ch "!")) as [->|E0].
  { change (ch "!") with 33%N in *. set (w := html_match_whitespace (skipn 1 (rem st))).
    assert (Lw : w <= length r) by (unfold w, html_match_whitespace; rewrite length_if_eq, E; cbn [skipn]; apply prefix_len_le).
    assert (Fw : Forall ascii (firstn w r)).
    { unfold w, html_match_whitespace. rewrite length_if_eq, E. cbn [skipn]. apply Forall_prefix_len. exact html_space_ascii. }
    assert (Ww : wf8 (skipn w r)) by (apply wf8_skip_ascii; [exact Fw|apply WT; unfold ascii; lia]).
    unfold moves. hl1. apply wp_substr_from; [rewrite E; cbn [length]; lia|]. replace (skipn (1 + w) (rem st)) with (skipn w r) by (rewrite E; reflexivity). hl1.
    destruct (ident_ok _ Ww) as (n & En & Ln & _). eapply wp_lift; [exact En|].
    destruct (negb (n =? 0) && starts_with_ignore_case (firstn n (skipn w r)) (bs "important")) eqn:E1.
    - apply andb_true_iff in E1 as [_ E1]. unfold starts_with_ignore_case in E1. change (length (bs "important")) with 9 in E1.
      destruct (Nat.ltb_spec (length (firstn n (skipn w r))) 9) as [X|X]; [discriminate|]. rewrite firstn_length in X.
      apply equal_upper_ascii in E1; [|repeat constructor]. change (length (bs "important")) with 9 in E1. rewrite firstn_firstn in E1.
      replace (Nat.min 9 n) with 9 in E1 by lia. rewrite skipn_length in X.
      apply (wp_emit_adv any); [rewrite E; cbn [length]; lia|]. intros st1 S1 _. split; [eexists; split; [exact S1|lia]|].
      eapply wf8_steps; [exact S1|exact W|]. rewrite E. cbn [Nat.add firstn]. constructor; [unfold ascii; lia|]. apply Forall_firstn_add; assumption.
    - change (moves (advance 1) st). one. }
  clear E0. destruct ((c =? ch "[")%N || (c =? ch "]")%N) eqn:E0.
  { rewrite !orb_true_iff, !N.eqb_eq in E0. change (ch "[") with 91%N in E0. change (ch "]") with 93%N in E0. one. }
  clear E0. destruct (N.eqb_spec c (ch "\")) as [->|E0].
  { change (ch "\") with 92%N in *. destruct (starts_with_valid_escape (rem st)) eqn:E1; [|one]. apply m_ident_like; [exact W|]. unfold ident_head. rewrite E1. reflexivity. }
  clear E0. destruct (N.eqb_spec c (ch "{")) as [->|E0].
  { change (ch "{") with 123%N in *. apply m_set. intros st' R. eapply m_one; [rewrite R; exact W|rewrite R; exact E|unfold ascii; lia]. }
  clear E0. destruct (N.eqb_spec c (ch "}")) as [->|E0].
  { change (ch "}") with 125%N in *. apply m_set. intros st' R. eapply m_one; [rewrite R; exact W|rewrite R; exact E|unfold ascii; lia]. }
  clear E0. destruct (is_ascii_digit c) eqn:E0.
  { apply m_numeric; [exact W|]. rewrite E. unfold css_starts_with_number.
    assert (X : (starts_with_ch (c :: r) (ch "+") || starts_with_ch (c :: r) (ch "-")) = false).
    { apply digit_iff in E0. unfold css_digit in E0. unfold starts_with_ch. change (ch "+") with 43%N. change (ch "-") with 45%N. apply orb_false_iff. rewrite !N.eqb_neq. lia. }
    rewrite X, E0. reflexivity. }
  clear E0. destruct (is_css_identifier_start c) eqn:E0.
  { apply m_ident_like; [exact W|]. rewrite E. unfold ident_head. change (unit_is is_css_identifier (c :: r) 0) with (is_css_identifier c). unfold is_css_identifier. rewrite E0. cbn [orb]. apply orb_true_r. }
  unfold moves. pose proof W as W0. rewrite E in W0. apply wf8_sequence in W0 as [B1 B2]. apply (wp_advance any); [rewrite E; lia|apply Forall_anything|].
  intros st1 S1 _. split; [exists (sequence_length c); split; [exact S1|lia]|]. eapply steps_wf8; [exact S1|]. rewrite E. exact B2.
Qed.

Lemma css_in_order src : wf8 src -> in_order highlight_css src.
Proof.
  intros W strict. unfold highlight_css. apply (run_ok any). set (st := mk_hst src 0 [] (mk_css_loc 0 cx_top_level)).
  begin_steps any st. hl1.
  eapply wp_mono with (P := fun _ st' => exists k, steps any k st st'); [|intros; hl; auto].
  unfold while_rem. apply wp_hloop with (Inv := fun _ st' => (exists k, steps any k st st') /\ wf8 (rem st')) (mu := fun _ st' => length (rem st')).
  - split; [eauto|exact W].
  - lia.
  - intros [] st1 [(k & HK) W1]. hl1. hl1; [hl; eauto|]. hl1. unfold css_body. hl1.
    eapply wp_mono; [apply m_comments; exact W1|]. cbn beta. intros [] st2 [(k2 & S2) W2]. hl1. hl1.
    pose proof (steps_len _ _ _ _ S2).
    destruct (rem st2) as [|c r] eqn:E2.
    + hl. split; [split; [eexists; eapply steps_trans; eassumption|rewrite E2; constructor]|]. rewrite E2. hlia.
    + hl1. hl1. rewrite <- E2. rewrite <- E2 in W2. eapply wp_mono; [eapply m_switch; eassumption|]. cbn beta.
      intros [] st3 [(k3 & S3 & P3) W3]. hl. pose proof (steps_len _ _ _ _ S3). split; [|hlia].
      split; [|exact W3]. eexists. eapply steps_trans; [exact HK|eapply steps_trans; eassumption].
Qed.

(** ** C67 *)
(** On text that is not valid UTF-8 the highlighter can loop forever (a continuation byte is skipped
    with advance(0)), read past the end of the text, or throw. *)
Theorem C67_css_refuted : forall strict,
  highlight_css [0x80]%N strict = Fail FFuel
  /\ highlight_css [0xC3]%N strict = Fail FDebugAssert
  /\ highlight_css (bs "a\" ++ [0xC3])%N strict = Fail FThrow.
Proof. intros strict. split; [|split]; vm_compute; reflexivity. Qed.
Print Assumptions C67_css_refuted.

(** The loop does not end: a continuation byte is never consumed, for whatever follows. *)
Theorem C67_css_stuck : forall c r l, (0x80 <= c < 0xC0)%N ->
  forall ix ops, css_body (mk_hst (c :: r) ix ops l) = Ok (tt, mk_hst (c :: r) ix ops l).
Proof.
  intros c r l H ix ops.
  assert (X : forall k, (k < 128)%N -> (c =? k)%N = false) by (intros; apply N.eqb_neq; lia).
  assert (NC : css_consume_comments (mk_hst (c :: r) ix ops l) = Ok (tt, mk_hst (c :: r) ix ops l)).
  { unfold css_consume_comments, hloop. cbn [rem length Nat.mul Nat.add iter]. unfold bindM at 1, bindM at 1, get_rem. cbn [rem].
    assert (B : cpp_match_block_comment (c :: r) = mk_enclosed 0 false).
    { unfold cpp_match_block_comment. change (bs "/*") with [47; 42]%N. cbn [starts_with]. rewrite X by lia. reflexivity. }
    rewrite B. reflexivity. }
  unfold css_body. unfold bindM at 1. rewrite NC. unfold bindM at 1, get_rem. cbn [rem]. unfold bindM at 1, get_loc. cbn [loc].
  unfold css_switch. cbv zeta.
  assert (M1 : mem c [32; 9; 13; 10; 12]%N = false) by (destruct (mem c [32; 9; 13; 10; 12]%N) eqn:Y; [apply mem_In in Y; cbn in Y; lia|reflexivity]). rewrite M1.
  repeat match goal with |- context [(c =? ch ?k)%N] => let v := eval vm_compute in (ch k) in change (ch k) with v; rewrite (X v) by lia end.
  rewrite ?X by lia. cbn [orb andb].
  assert (D : is_ascii_digit c = false) by (unfold is_ascii_digit, between; apply andb_false_iff; right; apply N.leb_gt; lia). rewrite D.
  assert (I : is_css_identifier_start c = false).
  { destruct (is_css_identifier_start c) eqn:E; [|reflexivity]. exfalso. assert (Y : is_css_identifier c = true) by (unfold is_css_identifier; rewrite E; reflexivity).
    apply css_ident_ascii in Y. unfold ascii in Y. lia. }
  rewrite I, seqlen_cont by lia. unfold advance. cbn [rem Nat.leb skipn idx rops loc]. rewrite Nat.add_0_r. reflexivity.
Qed.
Print Assumptions C67_css_stuck.

Theorem C67_css_partial : forall src, valid_utf8 src -> highlights highlight_css src.
Proof. intros src H. apply highlights_from_ops. apply css_in_order. apply valid_wf8. exact H. Qed.
Print Assumptions C67_css_partial.

Example C67_case : valid_utf8 (bs "a{b:'x" ++ [0xC3; 0xA9] ++ bs "\41 y'}/*c*/#d")%N
  /\ exists ops, highlight_css (bs "a{b:'x" ++ [0xC3; 0xA9] ++ bs "\41 y'}/*c*/#d")%N false = Ok (true, ops) /\ length ops = 13.
Proof.
  split; [|eexists; split; [vm_compute; reflexivity|vm_compute; reflexivity]].
  apply (valid_case (bs "a{b:'x" ++ [0xE9] ++ bs "\41 y'}/*c*/#d")%N); vm_compute; reflexivity.
Qed.

(** ** C69 *)
(** url( is meant to be highlighted as a keyword (css.cpp:489-491), but never is: the text that
    follows the identifier, which starts with a parenthesis, is what gets compared with "url". *)
Theorem C69_url_refuted :
  ~ (forall s, starts_with_ignore_case s (bs "url(") = true -> match_ident_like_token s = Ok (3, it_url)).
Proof. intros H. specialize (H (bs "url(a)") eq_refl). discriminate H. Qed.
Print Assumptions C69_url_refuted.

Lemma after_paren s : unit_is (fun c => (c =? ch "(")%N) s 0 = true -> equals_ignore_case s (bs "url") = false.
Proof.
  unfold unit_is. destruct s as [|c s]; [discriminate|]. cbn [nth_error]. change (ch "(") with 40%N. intros E. apply N.eqb_eq in E. subst c.
  unfold equals_ignore_case. destruct (negb _); reflexivity.
Qed.
(** No identifier at all is classified as a URL: functions are, identifiers are. *)
Theorem C69_url_partial : forall s n ty, match_ident_like_token s = Ok (n, ty) ->
  n <= length s /\ ty = (if unit_is (fun c => c =? 40)%N s n then it_function else it_ident).
Proof.
  intros s n ty. unfold match_ident_like_token. destruct (match_ident_sequence s) as [m|f]; [|discriminate]. cbn [bind]. unfold check.
  destruct (m <=? length s) eqn:L; [|discriminate]. cbn [bind]. apply Nat.leb_le in L. intros H. injection H as <- <-. split; [exact L|].
  change 40%N with (ch "("). destruct (unit_is (fun c => (c =? ch "(")%N) s m) eqn:U; cbn [negb].
  - assert (m < length s) by (unfold unit_is in U; apply nth_error_Some; destruct (nth_error s m); congruence).
    destruct (Nat.eqb_spec m (length s)); [lia|]. cbn [orb]. rewrite after_paren; [reflexivity|]. rewrite P_CssNumber.unit_skip, Nat.add_0_r. exact U.
  - rewrite orb_true_r. reflexivity.
Qed.
Print Assumptions C69_url_partial.
