(** * The Bash highlighter: exact tokens (C162) *)
From Coq Require Import List NArith ZArith Bool Arith Lia.
From Verif Require Import M_Base L_Base S_Tokens M_Emit S_Ops L_Emit M_Types M_Chars S_Chars P_Chars M_Parse S_Parse L_Parse P_Parse M_Lang L_Lang
  M_Api M_Table L_Table M_Highlighter S_Highlight L_Highlighter P_LangCpp L_Auto M_Json S_Json L_JsonText S_Lexemes L_Lexemes L_Does L_Number L_Number2 L_Symbols L_Escapes L_Scan L_Comments
  M_LangBash S_LangBash P_LangBash S_LangBashLexemes.
From Verif Require P_LangCowelLexemes P_LangJsLexemes P_LangJsClaims.
Import ListNotations.

Lemma bash_start_iff c : is_bash_identifier_start c = true <-> ident_start c.
Proof.
  unfold is_bash_identifier_start, is_ascii_alpha, is_ascii_upper_alpha, is_ascii_lower_alpha, between, ident_start, letter.
  rewrite !orb_true_iff, !andb_true_iff, !N.leb_le, N.eqb_eq. change (ch "_") with 95%N. tauto.
Qed.
Lemma bash_ident_iff c : is_bash_identifier c = true <-> ident_char c.
Proof.
  unfold is_bash_identifier, is_ascii_alphanumeric, is_ascii_alpha, is_ascii_upper_alpha, is_ascii_lower_alpha, is_ascii_digit, between, ident_char, letter, digit.
  rewrite !orb_true_iff, !andb_true_iff, !N.leb_le, N.eqb_eq. change (ch "_") with 95%N. tauto.
Qed.
Lemma expandable_iff c : is_bash_parameter_substitution_start c = true <-> bash_expandable c.
Proof.
  unfold is_bash_parameter_substitution_start, is_bash_special_parameter, bash_expandable. rewrite !orb_true_iff, !mem_In, bash_start_iff.
  change (bs "({*@#?-$!0") with (bs "({" ++ bs "*@#?-$!0"). rewrite in_app_iff. tauto.
Qed.
Lemma special_iff c : is_bash_unquoted_terminator c = true <-> bash_special c.
Proof.
  unfold is_bash_unquoted_terminator, is_bash_whitespace, is_bash_metacharacter, is_bash_blank, bash_special, bash_blank, bash_line_break. rewrite !orb_true_iff, !mem_In.
  change (bs "\'" ++ [34%N]) with [92; 39; 34]%N. cbn [In]. intuition.
Qed.
Lemma substitution_iff c t : bash_starts_with_substitution (c :: t) = true <-> c = ch "$" /\ ~ not_before bash_expandable t.
Proof.
  unfold bash_starts_with_substitution. destruct t as [|d t].
  - split; [discriminate|]. intros [_ H]. elim H. intros x [=].
  - rewrite andb_true_iff, N.eqb_eq, expandable_iff. split; intros [H1 H2]; split; auto.
    + intros H. exact (H d eq_refl H2).
    + destruct (is_bash_parameter_substitution_start d) eqn:E; [apply expandable_iff; exact E|]. elim H2. intros x [= <-] Hx. apply expandable_iff in Hx. congruence.
Qed.
Lemma substitution_not c t : (c = ch "$" -> not_before bash_expandable t) -> bash_starts_with_substitution (c :: t) = false.
Proof. intros H. destruct (bash_starts_with_substitution (c :: t)) eqn:E; [|reflexivity]. apply substitution_iff in E as [E1 E2]. tauto. Qed.

(** Words *)
Lemma word_length_exact b w rest : bash_word b w rest -> bash_word_length b (w ++ rest) = length w.
Proof.
  intros (_ & _ & H1 & H2). revert H1. induction w as [|c w IH]; intros H1.
  - cbn [app length]. destruct rest as [|c t]; [reflexivity|]. cbn [bash_word_length]. destruct (H2 c t eq_refl) as [X|[[X1 X2]|[-> ->]]].
    + apply special_iff in X. rewrite X. reflexivity.
    + rewrite (proj2 (substitution_iff c t) (conj X1 X2)), orb_true_r. reflexivity.
    + change (ch "}" =? ch "}")%N with true. rewrite !orb_true_r. reflexivity.
  - cbn [app length bash_word_length]. destruct (H1 [] c (w ++ rest) eq_refl ltac:(cbn; lia)) as (X1 & X2 & X3).
    destruct (is_bash_unquoted_terminator c) eqn:E1; [apply special_iff in E1; contradiction|]. rewrite (substitution_not _ _ X2).
    destruct (b && (c =? ch "}")%N) eqn:E3; [apply andb_true_iff in E3 as [-> E3]; apply N.eqb_eq in E3; elim X3; auto|]. cbn [orb]. rewrite IH; [reflexivity|].
    intros a x t E L. apply (H1 (c :: a) x t); [cbn; rewrite E; reflexivity|cbn; lia].
Qed.
Lemma word_nonempty b w rest : bash_word b w rest -> w <> []. Proof. intros H. apply H. Qed.

(** The states of the highlighter for a role *)
Definition fits (r : bash_role) (s : bash_state) : Prop :=
  match r with
  | at_command => s = bs_before_command
  | in_command => s = bs_in_command
  | at_argument => s = bs_before_argument
  | in_argument => s = bs_in_argument
  | at_end => s = bs_in_command \/ s = bs_in_argument \/ s = bs_before_argument
  | in_parameter => s = bs_parameter_sub
  | no_word | no_word_blank => True
  end.
(** The roles inside and outside braces *)
Definition good (parameter : bool) (r : bash_role) : Prop :=
  match r with in_parameter => parameter = true | no_word | no_word_blank => True | _ => parameter = false end.
Definition closes (ctx : bash_context) (close : list piece) (rest : str) : Prop :=
  match ctx with
  | cx_file => close = [] /\ rest = []
  | cx_parameter_sub => bash_closing (bs "}") hl_string_interpolation_delim close rest
  | cx_command_sub => bash_closing (bs ")") hl_string_interpolation_delim close rest
  | cx_subshell => bash_closing (bs ")") hl_symbol_parens close rest
  | cx_arith_sub => False
  end.

Ltac bcase := repeat (match goal with
  | H : fits _ _ |- _ => progress cbn [fits] in H
  | H : good _ _ |- _ => progress cbn [good] in H
  | H : _ \/ _ |- _ => destruct H as [H|H]
  | s : bash_state |- _ => subst s
  end).

Lemma update_does r s rest : fits r s -> exists s', fits (after_parameter r) s' /\ does bash_update_state s [] rest tt s'.
Proof.
  intros F. destruct r; cbn [after_parameter fits] in *; try subst s;
  try (eexists; split; [|unfold bash_update_state; apply does_get_loc; first [apply does_ret|intros i o; apply wp_set_loc_exact; cbn; rewrite Nat.add_0_r; split; reflexivity]]; cbn; auto; fail).
  - destruct s; (eexists; split; [|unfold bash_update_state; apply does_get_loc; first [apply does_ret|intros i o; apply wp_set_loc_exact; cbn; rewrite Nat.add_0_r; split; reflexivity]]; cbn; auto; destruct F as [F|[F|F]]; congruence).
  - destruct s; (eexists; split; [|unfold bash_update_state; apply does_get_loc; first [apply does_ret|intros i o; apply wp_set_loc_exact; cbn; rewrite Nat.add_0_r; split; reflexivity]]; cbn; auto).
  - destruct s; (eexists; split; [|unfold bash_update_state; apply does_get_loc; first [apply does_ret|intros i o; apply wp_set_loc_exact; cbn; rewrite Nat.add_0_r; split; reflexivity]]; cbn; auto).
Qed.

Section nested.
Variable inner : bool -> bash_role -> list piece -> str -> bash_role -> Prop.
Variable nested : bash_context -> M bash_state unit.
Variable B : nat.
Hypothesis Hin : forall p r body tail e, inner p r body tail e -> forall ctx close rest s, tail = text close ++ rest -> is_parameter_sub ctx = p -> good p r ->
  closes ctx close rest -> fits r s -> length (text (body ++ close)) < B -> exists s', fits e s' /\ does (nested ctx) s (body ++ close) rest tt s'.

Lemma does_set_last {S} (s s' : S) rest : does (set_loc s') s [] rest tt s'.
Proof. intros i o. apply wp_set_loc_exact. cbn. rewrite Nat.add_0_r. split; reflexivity. Qed.

Lemma good_expansion par r p rest r' : bash_expansion inner r p rest r' -> good par r -> good par r'.
Proof. intros H G. destruct H as [r w rest|r c rest|r body e close rest|r body e close rest]; [destruct r; exact G|destruct r; exact G|exact I|]. destruct r; cbn [good after_commands] in *; auto; destruct e; cbn; auto. Qed.
Lemma expansion_start r p rest r' : bash_expansion inner r p rest r' -> exists c t, text p = ch "$" :: c :: t /\ bash_expandable c.
Proof.
  intros H. destruct H as [r w rest (c & t & -> & Hc & _)|r c rest Hc|r body e close rest|r body e close rest].
  - exists c, t. rewrite text_one. split; [reflexivity|right; exact Hc].
  - exists c, []. rewrite text_one. split; [reflexivity|]. left. change (bs "({*@#?-$!0") with (bs "({" ++ bash_parameters). apply in_or_app. auto.
  - exists (ch "{"), (text (body ++ close)). rewrite text_cons. split; [reflexivity|left; cbn; auto].
  - exists (ch "("), (text (body ++ close)). rewrite text_cons. split; [reflexivity|left; cbn; auto].
Qed.
Lemma expansion_yes r p rest r' : bash_expansion inner r p rest r' -> bash_starts_with_substitution (text p ++ rest) = true.
Proof.
  intros H. destruct (expansion_start _ _ _ _ H) as (c & t & -> & Hc). cbn [app]. apply substitution_iff. split; [reflexivity|]. intros X. exact (X c eq_refl Hc).
Qed.

Lemma do_expansion r p rest r' s : bash_expansion inner r p rest r' -> fits r s -> length (text p) <= B ->
  exists s', fits r' s' /\ does (bash_consume_substitution nested) s p rest tt s'.
Proof.
  intros H F L. destruct (expansion_start _ _ _ _ H) as (c0 & t0 & E0 & _).
  assert (C1 : (2 <=? length (text p ++ rest)) && starts_with_ch (text p ++ rest) (ch "$") = true) by (rewrite E0; reflexivity).
  destruct H as [r w rest Hw R|r c rest Hc|r body e close rest Hb Hc|r body e close rest Hb Hp Hc].
  - destruct (update_does r s rest F) as (s' & F' & D). exists s'. split; [exact F'|]. destruct Hw as (c & t & -> & Hc & Ht).
    unfold bash_consume_substitution. apply does_get. apply does_check; [exact C1|]. rewrite text_one. eapply does_at; [reflexivity|].
    assert (Hn : (c =? ch "{")%N = false /\ (c =? ch "(")%N = false /\ is_bash_special_parameter c = false).
    { repeat split; [apply N.eqb_neq; change (ch "{") with 123%N; unfold ident_start, letter in Hc; lia|apply N.eqb_neq; change (ch "(") with 40%N; unfold ident_start, letter in Hc; lia|].
      apply not_true_iff_false. intros X. apply mem_In in X. change (bs "*@#?-$!0") with [42;64;35;63;45;36;33;48]%N in X. cbn [In] in X. unfold ident_start, letter in Hc. lia. }
    destruct Hn as (-> & -> & ->). apply does_substr; [cbn; lia|]. cbn [app skipn]. unfold bash_match_identifier. rewrite length_if_head_tail_eq.
    rewrite (proj2 (bash_start_iff c) Hc). rewrite prefix_len_exact;
      [|eapply Forall_impl; [|exact Ht]; intros x Hx; apply bash_ident_iff; exact Hx|eapply not_before_impl; [|exact R]; intros x Hx; apply bash_ident_iff; exact Hx].
    cbn [Nat.eqb negb]. eapply does_last; [apply does_emit; [cbn; lia|discriminate]|]. exact D.
  - destruct (update_does r s rest F) as (s' & F' & D). exists s'. split; [exact F'|].
    unfold bash_consume_substitution. apply does_get. apply does_check; [exact C1|]. rewrite text_one. eapply does_at; [reflexivity|].
    assert (Hn : (c =? ch "{")%N = false /\ (c =? ch "(")%N = false /\ is_bash_special_parameter c = true).
    { unfold bash_parameters in Hc. cbn in Hc. repeat (destruct Hc as [<-|Hc]; [repeat split; reflexivity|]). contradiction. }
    destruct Hn as (-> & -> & ->). eapply does_last; [apply does_emit; [reflexivity|discriminate]|]. exact D.
  - rewrite text_cons, app_length in L. cbn in L.
    destruct (Hin _ _ _ _ _ Hb cx_parameter_sub close rest bs_parameter_sub eq_refl eq_refl eq_refl Hc eq_refl ltac:(lia)) as (s' & F' & D). exists s'. split; [exact I|].
    unfold bash_consume_substitution. apply does_get. apply does_check; [exact C1|]. rewrite text_cons. eapply does_at; [reflexivity|]. change (ch "{" =? ch "{")%N with true. cbv iota.
    eapply does_cons; [apply does_emit; [reflexivity|discriminate]|]. apply does_set_loc. exact D.
  - rewrite text_cons, app_length in L. cbn in L.
    destruct (Hin _ _ _ _ _ Hb cx_command_sub close rest bs_before_command eq_refl eq_refl eq_refl Hc eq_refl ltac:(lia)) as (s' & F' & D). exists s'. split.
    { destruct r; cbn [after_commands fits]; auto; destruct e; cbn [fits] in *; auto. }
    unfold bash_consume_substitution. apply does_get. apply does_check; [exact C1|]. rewrite text_cons. eapply does_at; [reflexivity|]. change (ch "(" =? ch "{")%N with false. change (ch "(" =? ch "(")%N with true. cbv iota.
    assert (G : (3 <=? length ((bs "$(" ++ text (body ++ close)) ++ rest)) && (nth 2 ((bs "$(" ++ text (body ++ close)) ++ rest) 0 =? ch "(")%N = false).
    { change (bs "$(") with [36; 40]%N. cbn [app nth length]. rewrite text_app. destruct (text body) as [|x t] eqn:Eb.
      - destruct Hc as [->|[-> ->]]; [rewrite text_one; reflexivity|reflexivity].
      - cbn [app nth]. rewrite (proj2 (N.eqb_neq x (ch "("))) by (exact (Hp x eq_refl)). apply andb_false_r. }
    rewrite G. eapply does_cons; [apply does_emit; [reflexivity|discriminate]|]. apply does_set_loc. exact D.
Qed.

(** Double quotes *)
Section quoted.
Variables (close : list piece) (rest : str).
Hypothesis Hclose : bash_closing [34%N] hl_string_delim close rest.
Let tail := text close ++ rest.

Lemma plain_step run l s k : bash_quoted_plain run (text l ++ rest) -> k < length run -> does (bash_string_body nested k) s [] (run ++ text l ++ rest) (inl (k + 1)) s.
Proof.
  intros H L. unfold bash_string_body. cbv zeta. apply does_get. cbn [text map concat app]. rewrite (proj2 (Nat.ltb_lt k _)) by (rewrite app_length; lia). cbn [negb].
  pose proof (firstn_skipn k run) as Er. destruct (skipn k run) as [|c t] eqn:E; [apply (f_equal (@length N)) in Er; rewrite app_length, firstn_length in Er; cbn in Er; lia|].
  assert (Ek : length (firstn k run) = k) by (rewrite firstn_length; lia). set (a := firstn k run) in *.
  assert (E1 : run ++ text l ++ rest = a ++ c :: (t ++ text l ++ rest)) by (rewrite <- Er, <- app_assoc; reflexivity).
  destruct (H a c (t ++ text l ++ rest) E1 ltac:(lia)) as (H1 & H2 & H3). rewrite E1.
  apply does_at with (c := c); [rewrite nth_error_app2 by lia; rewrite Ek, Nat.sub_diag; reflexivity|]. rewrite (proj2 (N.eqb_neq c 34) H1).
  assert (G : (c =? 92)%N && (k + 1 <? length (a ++ c :: t ++ text l ++ rest)) && is_bash_escapable_in_double_quotes (nth (k + 1) (a ++ c :: t ++ text l ++ rest) 0%N) = false).
  { destruct (N.eqb_spec c 92) as [Ec|]; [|reflexivity]. specialize (H2 Ec). cbn [andb]. destruct (t ++ text l ++ rest) as [|d u] eqn:Et.
    - rewrite (proj2 (Nat.ltb_ge _ _)) by (rewrite app_length; cbn; lia). reflexivity.
    - destruct (is_bash_escapable_in_double_quotes (nth (k + 1) (a ++ c :: d :: u) 0%N)) eqn:X; [|apply andb_false_r]. rewrite app_nth2 in X by lia. replace (k + 1 - length a) with 1 in X by lia. cbn [nth] in X.
      elim (H2 d eq_refl). unfold is_bash_escapable_in_double_quotes in X. apply mem_In in X. exact X. }
  rewrite G. apply does_substr; [rewrite app_length; lia|]. rewrite skipn_app. rewrite <- Ek at 1. rewrite skipn_all, <- Ek at 1. rewrite Nat.sub_diag. cbn [skipn app]. rewrite (substitution_not _ _ H3). apply does_ret.
Qed.
Lemma flush_does run (s : bash_state) k : does (when (negb (length run =? 0)) (emit_and_advance (length run) hl_string)) s (opt_piece run hl_string) k tt s.
Proof. apply does_opt. reflexivity. Qed.
Lemma at_piece (run x : str) : nth_error (run ++ x) (length run) = hd_error x.
Proof. rewrite nth_error_app2 by lia. rewrite Nat.sub_diag. destruct x; reflexivity. Qed.

Lemma quoted_run f r l r' : bash_quoted inner tail f r l r' -> forall run s, (f = true -> run = []) -> fits r s -> length (text l) <= B ->
  exists s', fits r' s' /\ scans (bash_string_body nested) tt rest s' (length run) s (opt_piece run hl_string ++ l ++ close).
Proof.
  unfold tail. intros H. induction H as [f r|r run0 l r' Hn Hp H IH|f r c l r' Hc H IH|f r e r1 l r' He H IH]; intros run s Hr F L.
  - exists s. split; [exact F|]. cbn [app]. apply scans_end. unfold bash_string_body. cbv zeta. apply does_get. rewrite text_app, opt_piece_text, <- app_assoc.
    destruct Hclose as [->|[-> ->]].
    + rewrite text_one. rewrite (proj2 (Nat.ltb_lt _ _)) by (rewrite !app_length; cbn; lia). cbn [negb]. eapply does_at; [rewrite at_piece; reflexivity|]. change (34 =? 34)%N with true. cbv iota.
      eapply does_bind; [apply flush_does|]. eapply does_last; [apply does_emit; [reflexivity|discriminate]|]. apply does_ret.
    + cbn [text map concat app]. rewrite !app_nil_r. rewrite Nat.ltb_irrefl. cbn [negb]. eapply does_last; [apply flush_does|]. apply does_ret.
  - rewrite text_cons, app_length in L. rewrite (Hr eq_refl). destruct (IH run0 s ltac:(discriminate) F ltac:(lia)) as (s' & F' & D). exists s'. split; [exact F'|]. cbn [opt_piece app length].
    assert (Eo : opt_piece run0 hl_string = [(run0, Some hl_string)]) by (destruct run0; [congruence|reflexivity]). rewrite Eo in D. cbn [app] in D.
    eapply (scans_run _ _ _ _ _ _ (length run0)); [lia|rewrite text_cons, !app_length; lia| |exact D]. intros k Hk. rewrite text_cons, <- app_assoc. apply plain_step; [|lia].
    rewrite text_app, <- app_assoc. exact Hp.
  - rewrite text_cons, app_length in L. destruct (IH [] s (fun _ => eq_refl) F ltac:(lia)) as (s' & F' & D). exists s'. split; [exact F'|]. cbn [opt_piece app length] in D.
    change (opt_piece run hl_string ++ (([92%N; c], Some hl_string_escape) :: l) ++ close) with (opt_piece run hl_string ++ [([92%N; c], Some hl_string_escape)] ++ (l ++ close)). rewrite app_assoc.
    eapply scans_more; [|rewrite text_app, opt_piece_text, app_length, text_one; cbn; lia|exact D].
    unfold bash_string_body. cbv zeta. apply does_get. rewrite text_app, opt_piece_text, text_one, <- app_assoc. rewrite (proj2 (Nat.ltb_lt _ _)) by (rewrite !app_length; cbn; lia). cbn [negb].
    eapply does_at; [rewrite at_piece; reflexivity|]. change (92 =? 34)%N with false. change (92 =? 92)%N with true. cbv iota. cbn [andb]. rewrite (proj2 (Nat.ltb_lt _ _)) by (rewrite !app_length; cbn; lia).
    rewrite app_nth2 by lia. replace (length run + 1 - length run) with 1 by lia. cbn [app nth]. unfold is_bash_escapable_in_double_quotes. rewrite (proj2 (mem_In _ _) Hc). cbn [andb].
    eapply does_bind; [apply flush_does|]. eapply does_last; [apply does_emit; [reflexivity|discriminate]|]. apply does_ret.
  - rewrite text_app, app_length in L. rewrite <- app_assoc.
    assert (He' : bash_expansion inner r e (text (l ++ close) ++ rest) r1) by (rewrite text_app, <- app_assoc; exact He). destruct (do_expansion _ _ _ _ s He' F ltac:(lia)) as (s1 & F1 & D1). destruct (IH [] s1 (fun _ => eq_refl) F1 ltac:(lia)) as (s' & F' & D). exists s'. split; [exact F'|]. cbn [opt_piece app length] in D.
    rewrite app_assoc. destruct (expansion_start _ _ _ _ He') as (c & t & Ee & Hc).
    eapply scans_more; [|rewrite text_app, opt_piece_text, app_length, Ee; cbn; lia|exact D].
    pose proof (expansion_yes _ _ _ _ He') as Y.
    unfold bash_string_body. cbv zeta. apply does_get. rewrite text_app, opt_piece_text, <- app_assoc. rewrite (proj2 (Nat.ltb_lt _ _)) by (rewrite !app_length, Ee; cbn; lia). cbn [negb].
    eapply does_at; [rewrite at_piece, Ee; reflexivity|]. change (ch "$" =? 34)%N with false. change (ch "$" =? 92)%N with false. cbv iota. cbn [andb].
    apply does_substr; [rewrite app_length; lia|]. rewrite skipn_app_exact, Y. eapply does_bind; [apply flush_does|]. eapply does_last; [exact D1|]. apply does_ret.
Qed.
End quoted.

(** One round of the loop *)
Section round.
Variable ctx : bash_context.
Let par := is_parameter_sub ctx.
Notation body := (bash_commands_body nested ctx).
Notation round s p rest s' := (does (body tt) s p rest (inl tt) s').

Lemma again_does (m : M bash_state unit) s p rest s' : does m s p rest tt s' -> does (m ;; ret (inl tt) : M bash_state (unit + unit)) s p rest (inl tt) s'.
Proof. intros H. eapply does_last; [exact H|]. apply does_ret. Qed.

Lemma find_none c (t : str) : ~ In c t -> find_ch t c 0 = None.
Proof. intros H. rewrite <- (app_nil_r t). rewrite P_LangJsLexemes.find_skip; [reflexivity|]. apply Forall_forall. intros x Hx ->. contradiction. Qed.
Lemma find_some c (t u : str) : ~ In c t -> find_ch (t ++ c :: u) c 0 = Some (length t).
Proof. intros H. rewrite P_LangJsLexemes.find_skip; [|apply Forall_forall; intros x Hx ->; contradiction]. unfold find_ch, find_if_from. cbn. rewrite N.eqb_refl. cbn. f_equal. lia. Qed.
Lemma find_one c x t : find_ch (x :: t) c 1 = option_map S (find_ch t c 0).
Proof. unfold find_ch, find_if_from. cbn [skipn]. destruct (find_if _ t); reflexivity. Qed.

Lemma round_blank r s b rest : fits r s -> b <> [] -> Forall bash_blank b -> not_before bash_blank rest -> exists s', fits (after_blank r) s' /\ round s [(b, None)] rest s'.
Proof.
  intros F Hb Fb R.
  assert (G : exists s', fits (after_blank r) s' /\ does (match s with bs_in_command | bs_in_argument => set_loc bs_before_argument | _ => ret tt end) s [] rest tt s').
  { destruct s; (eexists; split; [|first [apply does_ret|apply does_set_last]]); destruct r; cbn [fits after_blank] in *; auto; try discriminate; decompose [or] F; congruence. }
  destruct G as (s' & F' & D). exists s'. split; [exact F'|]. unfold bash_commands_body. apply does_get. rewrite text_one.
  assert (E : bash_match_blank (b ++ rest) = length b).
  { apply (P_LangCowelLexemes.length_if_exact _ bash_blank); [|exact Fb|exact R]. intros c. apply mem_In. }
  assert (D2 : does (advance (bash_match_blank (b ++ rest)) ;; (let! s := get_loc in match s with bs_in_command | bs_in_argument => set_loc bs_before_argument | _ => ret tt end)) s [(b, None)] rest tt s').
  { rewrite E. eapply does_last; [apply does_advance; reflexivity|]. apply does_get_loc. exact D. }
  destruct b as [|c b]; [congruence|]. inversion Fb as [|? ? Hc _]. subst. cbn [app] in *.
  destruct Hc as [<-|[<-|[]]]; apply again_does; exact D2.
Qed.
Lemma round_newline s c rest : bash_line_break c -> round s [([c], None)] rest bs_before_command.
Proof.
  intros Hc. unfold bash_commands_body. apply does_get. rewrite text_one.
  repeat (destruct Hc as [<-|Hc]; [apply again_does; eapply does_last; [apply does_advance; reflexivity|apply does_set_last]|]). contradiction.
Qed.
Lemma round_comment s t rest : ~ In 10%N t -> rest = [] \/ (exists u, rest = 10%N :: u) -> round s ((bs "#", Some hl_comment_delim) :: opt_piece t hl_comment) rest s.
Proof.
  intros H R. unfold bash_commands_body. apply does_get. rewrite text_cons, opt_piece_text. change (bs "#") with [35%N]. cbn [app].
  assert (E : bash_match_comment (35%N :: t ++ rest) = S (length t)).
  { unfold bash_match_comment. change (negb (starts_with_ch (35%N :: t ++ rest) (ch "#"))) with false. cbv iota. rewrite find_one. destruct R as [->|[u ->]].
    - rewrite app_nil_r, find_none by exact H. reflexivity.
    - rewrite find_some by exact H. reflexivity. }
  assert (D : does (emit_and_advance 1 hl_comment_delim ;; when (1 <? bash_match_comment (35%N :: t ++ rest)) (emit_and_advance (bash_match_comment (35%N :: t ++ rest) - 1) hl_comment)) s (([35%N], Some hl_comment_delim) :: opt_piece t hl_comment) rest tt s).
  { rewrite E. eapply does_cons; [apply does_emit; [reflexivity|discriminate]|]. cbn [Nat.sub]. rewrite Nat.sub_0_r.
    replace (1 <? S (length t)) with (negb (length t =? 0)) by (destruct (length t); reflexivity). apply does_opt. reflexivity. }
  apply again_does. exact D.
Qed.
Lemma word_dispatch c t : ~ bash_special c -> (c = ch "$" -> not_before bash_expandable t) -> c <> ch "#" -> c <> ch "}" ->
  forall s p rest s', text p ++ rest = c :: t -> does (bash_consume_word ctx) s p rest tt s' -> round s p rest s'.
Proof.
  intros H1 H2 H3 H4 s p rest s' E D. unfold bash_commands_body. apply does_get. rewrite E. cbv zeta.
  assert (X : forall l, (forall x, In x l -> bash_special x) -> mem c l = false) by (intros l Hl; apply not_true_iff_false; intros X; apply mem_In in X; auto).
  assert (Y : forall x, bash_special x -> (c =? x)%N = false) by (intros x Hx; apply N.eqb_neq; intros ->; contradiction).
  rewrite (Y 92%N), (Y 39%N), (Y 34%N) by (unfold bash_special; left; cbn; auto). rewrite (proj2 (N.eqb_neq _ _) H3).
  rewrite (X [32; 9]%N) by (intros x Hx; right; left; exact Hx). rewrite (X [11; 13; 10]%N) by (intros x Hx; right; right; left; unfold bash_line_break; cbn [In] in *; tauto).
  rewrite (Y (ch "(")), (Y (ch ")")) by (right; right; right; cbn; auto 10). rewrite (X (bs "|&;<>")) by (intros x Hx; right; right; right; cbn in *; tauto). rewrite (proj2 (N.eqb_neq _ _) H4).
  rewrite (substitution_not c t H2). destruct (c =? ch "$")%N; apply again_does; exact D.
Qed.
Lemma round_word r s w h r' rest : fits r s -> bash_word par w rest -> bash_word_highlight r w = Some (h, r') -> exists s', fits r' s' /\ round s [(w, Some h)] rest s'.
Proof.
  intros F Hw Hh. pose proof (word_length_exact _ _ _ Hw) as EL. pose proof (word_nonempty _ _ _ Hw) as Nw.
  assert (D : exists s', fits r' s' /\ does (bash_consume_word ctx) s [(w, Some h)] rest tt s').
  { assert (Nl : negb (length w =? 0) = true) by (destruct w; [congruence|reflexivity]).
    assert (Eh : starts_with_ch (w ++ rest) (ch "-") = (hd 0 w =? ch "-")%N) by (destruct w as [|x w]; [congruence|reflexivity]).
    destruct r; cbn [bash_word_highlight fits] in *; try discriminate Hh; injection Hh as <- <-; subst s;
    (eexists; split; [|unfold bash_consume_word; apply does_get; rewrite text_one; cbv zeta; fold par; rewrite EL; apply does_check; [exact Nl|]; apply does_get_loc; try rewrite Eh;
      first [eapply does_last; [apply does_emit; [reflexivity|exact Nw]|apply does_set_last]|apply does_emit; [reflexivity|exact Nw]]]); reflexivity. }
  destruct D as (s' & F' & D). exists s'. split; [exact F'|]. destruct Hw as (_ & N1 & N2 & _). destruct w as [|c w]; [congruence|].
  destruct (N2 [] c (w ++ rest) eq_refl ltac:(cbn; lia)) as (X1 & X2 & _).
  apply (word_dispatch c (w ++ rest)); [exact X1|exact X2|intros ->; apply (N1 _ eq_refl); auto|intros ->; apply (N1 _ eq_refl); auto|rewrite text_one; reflexivity|exact D].
Qed.
Lemma round_single s t close rest : ~ In 39%N t -> bash_closing [39%N] hl_string_delim close rest -> round s (([39%N], Some hl_string_delim) :: opt_piece t hl_string ++ close) rest s.
Proof.
  intros H Hc. unfold bash_commands_body. apply does_get. rewrite text_cons, text_app, opt_piece_text, <- !app_assoc. cbn [app].
  assert (D : does (bash_highlight_string (bash_match_single_quoted_string (39%N :: t ++ text close ++ rest))) s (([39%N], Some hl_string_delim) :: opt_piece t hl_string ++ close) rest tt s).
  { unfold bash_match_single_quoted_string. change (negb (starts_with_ch (39%N :: t ++ text close ++ rest) 39)) with false. cbv iota. rewrite find_one. destruct Hc as [->|[-> ->]].
    - rewrite text_one. cbn [app]. rewrite find_some by exact H. cbn [option_map]. unfold bash_highlight_string. cbn [en_length en_terminated]. apply does_check; [destruct (Nat.eqb_spec (S (length t) + 1) 0); [lia|reflexivity]|].
      eapply does_cons; [apply does_emit; [reflexivity|discriminate]|]. cbv zeta. replace (S (length t) + 1 - 2) with (length t) by lia. eapply does_bind; [apply does_opt; reflexivity|]. apply does_emit; [reflexivity|discriminate].
    - cbn [text map concat app]. rewrite !app_nil_r, find_none by exact H. cbn [option_map]. unfold bash_highlight_string. cbn [en_length en_terminated length Nat.eqb negb]. apply does_check; [reflexivity|].
      eapply does_cons; [apply does_emit; [reflexivity|discriminate]|]. cbv zeta. cbn [Nat.sub]. rewrite Nat.sub_0_r. eapply does_last; [apply does_opt; reflexivity|]. apply does_ret. }
  apply again_does. exact D.
Qed.
Lemma round_double r s q e close rest : bash_quoted inner (text close ++ rest) true r q e -> bash_closing [34%N] hl_string_delim close rest -> fits r s -> length (text q) <= B ->
  exists s', fits e s' /\ round s (([34%N], Some hl_string_delim) :: q ++ close) rest s'.
Proof.
  intros H Hc F L. destruct (quoted_run close rest Hc true r q e H [] s (fun _ => eq_refl) F L) as (s' & F' & D). exists s'. split; [exact F'|].
  unfold bash_commands_body. apply does_get. rewrite text_cons. apply again_does. eapply does_cons; [apply does_emit; [reflexivity|discriminate]|]. apply does_scan. exact D.
Qed.
Lemma round_escape s c rest : c <> 10%N -> round s [([92%N; c], Some hl_string_escape)] rest s.
Proof.
  intros H. unfold bash_commands_body. apply does_get. rewrite text_one. apply again_does. unfold bash_consume_escape. apply does_get. rewrite text_one.
  assert (E : starts_with ([92%N; c] ++ rest) [92; 10]%N = false) by (cbn; rewrite (proj2 (N.eqb_neq c 10) H); reflexivity). rewrite E. apply does_emit; [reflexivity|discriminate].
Qed.
Lemma round_continuation s rest : round s [([92%N], Some hl_string_escape); ([10%N], None)] rest s.
Proof.
  unfold bash_commands_body. apply does_get. apply again_does. unfold bash_consume_escape. apply does_get. cbn [text map fst concat app starts_with].
  change (92 =? 92)%N with true. change (10 =? 10)%N with true. cbn [andb]. replace (starts_with rest []) with true by (destruct rest; reflexivity). eapply does_cons; [apply does_emit; [reflexivity|discriminate]|]. apply does_advance. reflexivity.
Qed.
Lemma round_expansion r p rest r' s : bash_expansion inner r p rest r' -> fits r s -> length (text p) <= B -> exists s', fits r' s' /\ round s p rest s'.
Proof.
  intros H F L. destruct (do_expansion _ _ _ _ _ H F L) as (s' & F' & D). exists s'. split; [exact F'|]. pose proof (expansion_yes _ _ _ _ H) as Y. destruct (expansion_start _ _ _ _ H) as (c & t & E & _).
  unfold bash_commands_body. apply does_get. rewrite E in *. cbn [app] in *. cbv zeta. change (ch "$") with 36%N in *.
  assert (D2 : does (if bash_starts_with_substitution (36%N :: c :: t ++ rest) then bash_consume_substitution nested else bash_consume_word ctx) s p rest tt s') by (rewrite Y; exact D). apply again_does. exact D2.
Qed.
Lemma operator_exact w rest : In w (bash_redirections ++ bash_separators) -> longest bash_operators w rest -> bash_match_operator (w ++ rest) = Some w.
Proof.
  intros H L.
  assert (K : forall u, In u (map fst bash_operators) -> length w < length u -> starts_with (w ++ rest) u = false).
  { intros u Hu Lu. destruct (starts_with (w ++ rest) u) eqn:E; [|reflexivity]. apply starts_with_app in E as [v E]. apply in_map_iff in Hu as ([u' h] & <- & Hu). specialize (L u' h v Hu E). cbn [fst] in Lu. lia. }
  assert (K' : forall u, length u <= length w -> starts_with (w ++ rest) u = starts_with w u) by (intros u; apply starts_with_short).
  cbn in H. repeat (destruct H as [<-|H]; [
    pose proof (K (bs "&&")) as K1; pose proof (K (bs "&>>")) as K2; pose proof (K (bs "&>")) as K3; pose proof (K (bs "<<<")) as K4; pose proof (K (bs "<<")) as K5; pose proof (K (bs "<&")) as K6; pose proof (K (bs "<>")) as K7;
    pose proof (K (bs ">>")) as K8; pose proof (K (bs ">&")) as K9; pose proof (K (bs "||")) as K10; clear K;
    pose proof (K' (bs "&&")) as J1; pose proof (K' (bs "&>>")) as J2; pose proof (K' (bs "&>")) as J3; pose proof (K' (bs "<<<")) as J4; pose proof (K' (bs "<<")) as J5; pose proof (K' (bs "<&")) as J6; pose proof (K' (bs "<>")) as J7;
    pose proof (K' (bs ">>")) as J8; pose proof (K' (bs ">&")) as J9; pose proof (K' (bs "||")) as J10; clear K' L;
    repeat match goal with
    | J : ?a <= ?b -> starts_with _ _ = _ |- _ => first [specialize (J ltac:(cbn; lia))|clear J]
    | J : In _ _ -> ?a < ?b -> starts_with _ _ = _ |- _ => first [specialize (J ltac:(cbn; auto 20) ltac:(cbn; lia))|clear J]
    end;
    match goal with |- bash_match_operator (?w ++ rest) = _ => remember (w ++ rest) as x eqn:Ex; cbn [app] in Ex; unfold bash_match_operator; rewrite Ex at 1; cbn iota beta end;
    repeat match goal with |- context [(?a =? ?b)%N] => let v := eval vm_compute in (a =? b)%N in change (a =? b)%N with v; cbv iota end;
    repeat match goal with J : starts_with ?y ?u = ?v |- context [starts_with ?y ?u] => rewrite J; cbn [starts_with]; repeat match goal with |- context [(?a =? ?b)%N] => let v := eval vm_compute in (a =? b)%N in change (a =? b)%N with v; cbv iota end end; reflexivity|]). contradiction.
Qed.
Lemma round_operator s w rest : In w (bash_redirections ++ bash_separators) -> longest bash_operators w rest -> round s [(w, Some hl_symbol_op)] rest s.
Proof.
  intros H L. pose proof (operator_exact w rest H L) as E. unfold bash_commands_body. apply does_get. rewrite text_one. cbv zeta.
  assert (X : exists c t, w = c :: t /\ In c (bs "|&;<>")) by (cbn in H; repeat (destruct H as [<-|H]; [eexists _, _; split; [reflexivity|cbn; tauto]|]); contradiction).
  destruct X as (c & t & -> & Hc). cbn [app] in *. rewrite E.
  assert (D : does (emit_and_advance (length (c :: t)) hl_symbol_op) s [(c :: t, Some hl_symbol_op)] rest tt s) by (apply does_emit; [reflexivity|discriminate]).
  cbn in Hc. repeat (destruct Hc as [<-|Hc]; [apply again_does; exact D|]). contradiction.
Qed.
Lemma round_subshell s q e close rest : inner false at_command q (text close ++ rest) e -> bash_closing (bs ")") hl_symbol_parens close rest -> length (text (q ++ close)) < B ->
  exists s', round s ((bs "(", Some hl_symbol_parens) :: q ++ close) rest s'.
Proof.
  intros H Hc L. destruct (Hin _ _ _ _ _ H cx_subshell close rest bs_before_command eq_refl eq_refl eq_refl Hc eq_refl L) as (s' & _ & D). exists s'.
  unfold bash_commands_body. apply does_get. rewrite text_cons. apply again_does. eapply does_cons; [apply does_emit; [reflexivity|discriminate]|]. apply does_set_loc. exact D.
Qed.
Lemma round_end_group s rest : par = false -> round s [(bs "}", Some hl_symbol_brace)] rest s.
Proof. intros H. unfold par in H. unfold bash_commands_body. apply does_get. rewrite text_one. change (bs "}" ++ rest) with (125%N :: rest). cbv iota zeta. rewrite H. apply again_does. apply does_emit; [reflexivity|discriminate]. Qed.

Lemma good_quoted tail f r l e : bash_quoted inner tail f r l e -> good par r -> good par e.
Proof. intros H. induction H; intros G; auto. eapply IHbash_quoted, good_expansion; eauto. Qed.
Lemma good_lexeme r p rest r' : bash_lexeme inner par r p rest r' -> good par r -> good par r'.
Proof.
  intros H G. destruct H as [r b rest|r c rest Ep|r t rest|r w h r' rest Hw Hh|r t close rest|r q e close rest Hq He|r c rest|r rest|r p rest r' Hp|r w rest Hr|r w rest|w v rest|q e close rest|rest Ep]; auto.
  - destruct r; exact G.
  - destruct r; cbn [bash_word_highlight] in Hh; try discriminate Hh; injection Hh as _ <-; exact G.
  - destruct r; exact G.
  - pose proof (good_quoted _ _ _ _ _ Hq G) as G'. destruct e; exact G'.
  - destruct r; exact G.
  - eapply good_expansion; eauto.
  - destruct r; exact G.
  - exact I.
Qed.
Lemma fits_quote r s : r <> at_command -> fits r s -> fits (after_quote r) s.
Proof. intros N F. destruct r; cbn [after_quote fits] in *; auto. Qed.
Lemma longest_last w rest : In w bash_separators -> rest = [] \/ (exists c t, rest = c :: t /\ ~ In c (bs "&|<>")) -> longest bash_operators w rest.
Proof.
  intros Hw R u h v Hu E. destruct (Nat.le_gt_cases (length u) (length w)) as [|L]; [assumption|exfalso].
  assert (X : exists c, In c (bs "&|<>") /\ exists y, u = w ++ c :: y).
  { assert (Eu : exists y, u = w ++ y /\ y <> []).
    { exists (skipn (length w) u). assert (Ef : firstn (length w) u = w) by (apply (f_equal (firstn (length w))) in E; rewrite firstn_app_exact, firstn_app in E; replace (length w - length u) with 0 in E by lia; rewrite firstn_O, app_nil_r in E; auto).
      split; [rewrite <- Ef at 1; rewrite firstn_skipn; reflexivity|]. intros Es. apply (f_equal (@length N)) in Es. rewrite skipn_length in Es. cbn in Es. lia. }
    destruct Eu as (y & -> & Ny). destruct y as [|c y]; [congruence|]. exists c. split; [|exists y; reflexivity].
    apply in_map_iff in Hu as (z & Ez & Hz). injection Ez as Ez _. subst z.
    cbn in Hw. repeat (destruct Hw as [<-|Hw]; [cbn in Hz; repeat (destruct Hz as [Hz|Hz]; [try discriminate Hz; injection Hz as <- _; cbn; tauto|]); contradiction|]). contradiction. }
  destruct X as (c & Hc & y & ->). rewrite <- app_assoc in E. apply app_inv_head in E. cbn [app] in E. destruct R as [->|(c' & t & -> & Hn)]; [discriminate E|]. injection E as -> _. contradiction.
Qed.

Lemma do_lexeme r p rest r' s : bash_lexeme inner par r p rest r' -> good par r -> fits r s -> length (text p) <= B ->
  exists s', fits r' s' /\ forall k rest0 sf, rest = text k ++ rest0 -> iterates body tt rest0 sf tt s' k -> iterates body tt rest0 sf tt s (p ++ k).
Proof.
  intros H G F L.
  assert (One : (exists s', fits r' s' /\ round s p rest s') -> text p <> [] ->
    exists s', fits r' s' /\ forall k rest0 sf, rest = text k ++ rest0 -> iterates body tt rest0 sf tt s' k -> iterates body tt rest0 sf tt s (p ++ k)).
  { intros (s' & F' & D) N. exists s'. split; [exact F'|]. intros k rest0 sf E I. eapply iterates_more; [rewrite <- E; exact D|exact N|exact I]. }
  destruct H as [r b rest Hb Fb R|r c rest Ep Hc|r t rest Hr Ep Ht R|r w h r' rest Hw Hh|r t close rest Hr Ht Hc|r q e close rest Hq He Hc|r c rest Hr Hc|r rest|r p rest r' Hp|r w rest Hr Hw HL|r w rest Hr Hw R|w v rest Hw Hv HL|q e close rest Hq Hp Hc|rest Ep].
  - apply One; [apply round_blank; assumption|rewrite text_one; exact Hb].
  - apply One; [exists bs_before_command; split; [reflexivity|apply round_newline; exact Hc]|rewrite text_one; discriminate].
  - apply One; [exists s; split; [exact F|apply round_comment; assumption]|discriminate].
  - apply One; [|rewrite text_one; exact (word_nonempty _ _ _ Hw)]. apply (round_word r); [exact F| |exact Hh]. replace par with (in_braces r); [exact Hw|]. destruct r; cbn in *; congruence.
  - apply One; [exists s; split; [apply fits_quote; assumption|apply round_single; assumption]|discriminate].
  - apply One; [|discriminate]. rewrite text_cons, text_app, !app_length in L. destruct (round_double r s q e close rest Hq Hc F ltac:(lia)) as (s' & F' & D). exists s'. split; [apply fits_quote; assumption|exact D].
  - apply One; [exists s; split; [apply fits_quote; assumption|apply round_escape; exact Hc]|discriminate].
  - apply One; [exists s; split; [exact F|apply round_continuation]|discriminate].
  - apply One; [eapply round_expansion; eassumption|]. destruct (expansion_start _ _ _ _ Hp) as (c & t & E & _). rewrite E. discriminate.
  - apply One; [exists s; split; [destruct r; auto; cbn; auto|apply round_operator; [apply in_or_app; auto|exact HL]]|]. rewrite text_one. cbn in Hw. repeat (destruct Hw as [<-|Hw]; [discriminate|]). contradiction.
  - apply One; [exists s; split; [exact F|apply round_operator; [apply in_or_app; auto|]]|rewrite text_one; cbn in Hw; repeat (destruct Hw as [<-|Hw]; [discriminate|]); contradiction].
    apply longest_last; [exact Hw|]. destruct R as [->|(c & t & -> & Hc)]; [auto|]. right. exists c, t. split; [reflexivity|]. change (bs "&|<>") with [38; 124; 60; 62]%N. unfold bash_line_break in Hc. cbn [In] in *. lia.
  - cbn [fits] in F. subst s. cbn [good] in G. exists bs_in_command. split; [reflexivity|]. intros k rest0 sf E I. change ([(w, Some hl_symbol_op); (v, Some hl_name_shell_command)] ++ k) with ([(w, Some hl_symbol_op)] ++ [(v, Some hl_name_shell_command)] ++ k).
    assert (Nw : w <> []) by (cbn in Hw; repeat (destruct Hw as [<-|Hw]; [discriminate|]); contradiction).
    rewrite <- G in Hv. destruct (round_word in_command bs_in_command v hl_name_shell_command in_command rest eq_refl Hv eq_refl) as (s' & F' & D). cbn [fits] in F'. subst s'.
    eapply iterates_more; [|rewrite text_one; exact Nw|eapply iterates_more; [rewrite <- E; exact D|rewrite text_one; exact (word_nonempty _ _ _ Hv)|exact I]].
    apply round_operator; [apply in_or_app; auto|]. rewrite text_app, text_one, <- app_assoc, <- E. exact HL.
  - apply One; [|discriminate]. rewrite text_cons, app_length in L. cbn in L. destruct (round_subshell s q e close rest Hq Hc ltac:(lia)) as (s' & D). exists s'. split; [exact I|exact D].
  - apply One; [exists s; split; [exact F|apply round_end_group; exact Ep]|discriminate].
Qed.
Lemma round_close s close rest : closes ctx close rest -> does (body tt) s close rest (inr tt) s.
Proof.
  intros H. unfold bash_commands_body. apply does_get. destruct ctx; cbn [closes] in H; try contradiction.
  - destruct H as [-> ->]. apply does_ret.
  - destruct H as [->|[-> ->]]; [|apply does_ret]. eapply does_last; [apply does_emit; [reflexivity|discriminate]|]. apply does_ret.
  - destruct H as [->|[-> ->]]; [|apply does_ret]. eapply does_last; [apply does_emit; [reflexivity|discriminate]|]. apply does_ret.
  - destruct H as [->|[-> ->]]; [|apply does_ret]. eapply does_last; [apply does_emit; [reflexivity|discriminate]|]. apply does_ret.
Qed.
Lemma code_run r l tail r' : bash_code inner par r l tail r' -> forall close rest s, tail = text close ++ rest -> good par r -> closes ctx close rest -> fits r s -> length (text l) <= B ->
  exists s', fits r' s' /\ iterates body tt rest s' tt s (l ++ close).
Proof.
  intros H. induction H as [r tail|r p r1 l tail r' Hp H IH]; intros close rest s E G Hc F L.
  - exists s. split; [exact F|]. apply iterates_end. apply round_close. exact Hc.
  - rewrite text_app, app_length in L. destruct (do_lexeme _ _ _ _ s Hp G F ltac:(lia)) as (s1 & F1 & K). destruct (IH close rest s1 E (good_lexeme _ _ _ _ Hp G) Hc F1 ltac:(lia)) as (s' & F' & I).
    exists s'. split; [exact F'|]. rewrite <- app_assoc. apply K; [|exact I]. rewrite text_app, <- app_assoc, <- E. reflexivity.
Qed.
End round.
End nested.

Lemma commands_exact n : forall fuel p r body tail e, bash_nested n p r body tail e -> forall ctx close rest s, tail = text close ++ rest -> is_parameter_sub ctx = p -> good p r ->
  closes ctx close rest -> fits r s -> length (text (body ++ close)) < fuel -> exists s', fits e s' /\ does (bash_commands fuel ctx) s (body ++ close) rest tt s'.
Proof.
  induction n as [|n IH]; intros fuel p r body tail e H ctx close rest s E Ep G Hc F L; [contradiction|]. destruct fuel as [|fuel]; [lia|]. cbn [bash_nested] in H. subst p.
  rewrite text_app, app_length in L.
  destruct (code_run (bash_nested n) (bash_commands fuel) fuel (IH fuel) ctx r body tail e H close rest s E G Hc F ltac:(lia)) as (s' & F' & I).
  exists s'. split; [exact F'|]. cbn [bash_commands]. apply does_loop. exact I.
Qed.

Theorem C162_bash_lexemes : forall l, bash_script l -> tokenizes highlight_bash l.
Proof.
  intros l (n & r & H) strict. destruct (commands_exact n (S (length (text l))) false at_command l [] r H cx_file [] [] bs_before_command eq_refl eq_refl eq_refl (conj eq_refl eq_refl) eq_refl ltac:(rewrite app_nil_r; lia)) as (s' & _ & D).
  rewrite app_nil_r in D. specialize (D 0 []). unfold wp in D. rewrite app_nil_r in D.
  unfold highlight_bash, run, bindM. destruct (bash_commands (S (length (text l))) cx_file _) as [[[] st]|]; [|contradiction]. destruct D as [_ ->]. unfold ret. cbn [rops]. rewrite app_nil_r, rev_involutive. reflexivity.
Qed.
Print Assumptions C162_bash_lexemes.

(** ** A concrete script *)
Lemma word_by b w rest : match w with [] => false | c :: _ => negb (mem c (bs "#}")) && (bash_word_length b (w ++ rest) =? length w) end = true -> bash_word b w rest.
Proof.
  intros H. destruct w as [|c0 w0]; [discriminate|]. apply andb_true_iff in H as [H0 H]. apply Nat.eqb_eq in H. split; [discriminate|]. split.
  { intros c [= <-] [E|E]; subst c0; discriminate H0. }
  clear H0. remember (c0 :: w0) as w eqn:Ew. clear Ew c0 w0. induction w as [|c w IH].
  - split; [intros a c t _ L; cbn in L; lia|]. intros c t ->. cbn [app length bash_word_length] in H. destruct (is_bash_unquoted_terminator c) eqn:E1; [left; apply special_iff; exact E1|].
    destruct (bash_starts_with_substitution (c :: t)) eqn:E2; [right; left; apply substitution_iff; exact E2|]. destruct b; [|discriminate H]. destruct (N.eqb_spec c (ch "}")); [auto|discriminate H].
  - cbn [app length bash_word_length] in H. destruct (is_bash_unquoted_terminator c) eqn:E1; [discriminate H|]. destruct (bash_starts_with_substitution (c :: w ++ rest)) eqn:E2; [discriminate H|].
    destruct (b && (c =? ch "}")%N) eqn:E3; [discriminate H|]. cbn [orb] in H. injection H as H. destruct (IH H) as [I1 I2]. split; [|exact I2].
    intros a x t E L. destruct a as [|y a].
    + injection E as <- <-. split; [intros X; apply special_iff in X; congruence|]. split.
      * intros ->. intros d Hd X. assert (Y : bash_starts_with_substitution (ch "$" :: w ++ rest) = true) by (apply substitution_iff; split; [reflexivity|]; intros Z; exact (Z d Hd X)). congruence.
      * intros -> ->. discriminate E3.
    + injection E as -> E. apply (I1 a x t E). cbn in L. lia.
Qed.
Fixpoint quoted_plain (run rest : str) : bool :=
  match run with
  | [] => true
  | c :: run => negb (c =? 34)%N && negb (starts_with_ch (c :: run ++ rest) 92 && match run ++ rest with d :: _ => mem d [39; 36; 96; 34; 92; 10]%N | [] => false end)
                && negb (bash_starts_with_substitution (c :: run ++ rest)) && quoted_plain run rest
  end.
Lemma quoted_by run rest : quoted_plain run rest = true -> bash_quoted_plain run rest.
Proof.
  induction run as [|c run IH]; intros H a x t E L; [cbn in L; lia|]. cbn [quoted_plain] in H. apply andb_true_iff in H as [H H4]. apply andb_true_iff in H as [H H3]. apply andb_true_iff in H as [H1 H2].
  destruct a as [|y a].
  - injection E as <- <-. split; [intros ->; discriminate H1|]. split.
    + intros -> d Hd X. destruct (run ++ rest) as [|e u]; [discriminate Hd|]. injection Hd as ->. cbn [starts_with_ch] in H2. change (92 =? 92)%N with true in H2. rewrite (proj2 (mem_In _ _) X) in H2. discriminate H2.
    + intros -> d Hd X. rewrite (proj2 (substitution_iff (ch "$") (run ++ rest))) in H3; [discriminate H3|]. split; [reflexivity|]. intros Z. exact (Z d Hd X).
  - injection E as -> E. apply (IH H4 a x t E). cbn in L. lia.
Qed.

Ltac nb_ := let c := fresh "c" in let H := fresh "H" in intros c H; vm_compute in H; first [discriminate H | injection H as <-; vm_compute; intuition discriminate].
Ltac fa_ := repeat (apply Forall_cons; [vm_compute; intuition discriminate|]); apply Forall_nil.
Ltac step_ p r := refine (bash_code_lexeme _ _ _ p r _ _ _ _ _).
Ltac space_ b r := step_ [(b, None : option N)] r; [apply bash_space; [discriminate|repeat (apply Forall_cons; [cbn; tauto|]); apply Forall_nil|nb_]|].
Ltac word_ w h r := step_ [(w, Some h)] r; [eapply bash_text; [apply word_by; vm_compute; reflexivity|reflexivity]|].
Definition script : list piece :=
  [(bs "ls", Some hl_name_shell_command); (bs " ", None); (bs "-l", Some hl_name_shell_option); (bs "  ", None);
   ([34%N], Some hl_string_delim); (bs "$HOME", Some hl_string_interpolation); (bs "/a b", Some hl_string); ([34%N], Some hl_string_delim);
   (bs " ", None); (bs ">", Some hl_symbol_op); (bs "out", Some hl_string); (bs " ", None); (bs "#", Some hl_comment_delim); (bs " all", Some hl_comment); ([10%N], None);
   (bs "echo", Some hl_name_shell_command); (bs " ", None); (bs "a", Some hl_string);
   (bs "$(", Some hl_string_interpolation_delim); (bs "cat", Some hl_name_shell_command); (bs " ", None); (bs "f", Some hl_string); (bs "\*", Some hl_string_escape); (bs ")", Some hl_string_interpolation_delim);
   (bs " ", None); (bs "${", Some hl_string_interpolation_delim); (bs "x:-y", Some hl_string_interpolation); (bs "}", Some hl_string_interpolation_delim)].
Example C162_case : bash_script script.
Proof.
  exists 2, no_word. unfold script. cbn [bash_nested]. word_ (bs "ls") hl_name_shell_command in_command. space_ (bs " ") at_argument. word_ (bs "-l") hl_name_shell_option in_argument. space_ (bs "  ") at_argument.
  step_ (([34%N], Some hl_string_delim) :: ([(bs "$HOME", Some hl_string_interpolation)] ++ [(bs "/a b", Some hl_string)]) ++ [([34%N], Some hl_string_delim)]) in_argument.
  { apply (bash_double _ _ _ _ in_argument); [|discriminate|left; reflexivity]. apply (bash_quoted_expansion _ _ _ _ _ in_argument).
    - apply (bash_name _ at_argument (bs "HOME")); [|nb_]. exists (ch "H"), (bs "OME"). split; [reflexivity|]. split; [left; vm_compute; intuition discriminate|fa_].
    - apply bash_quoted_text; [discriminate|apply quoted_by; vm_compute; reflexivity|apply bash_quoted_end]. }
  space_ (bs " ") at_argument. step_ [(bs ">", Some hl_symbol_op)] at_argument. { apply (bash_redirection _ _ at_argument); [cbn; tauto|cbn; tauto|]. apply P_LangJsClaims.longest_by. vm_compute. reflexivity. }
  word_ (bs "out") hl_string in_argument. space_ (bs " ") at_argument.
  step_ ((bs "#", Some hl_comment_delim) :: opt_piece (bs " all") hl_comment) at_argument. { apply bash_comment; [cbn; tauto|reflexivity|vm_compute; intuition discriminate|right; eexists; reflexivity]. }
  step_ [([10%N], None : option N)] at_command. { apply bash_newline; [reflexivity|cbn; tauto]. }
  word_ (bs "echo") hl_name_shell_command in_command. space_ (bs " ") at_argument. word_ (bs "a") hl_string in_argument.
  step_ ((bs "$(", Some hl_string_interpolation_delim) :: [(bs "cat", Some hl_name_shell_command); (bs " ", None); (bs "f", Some hl_string); (bs "\*", Some hl_string_escape)] ++ [(bs ")", Some hl_string_interpolation_delim)]) at_end.
  { apply bash_expand. apply (bash_commands_in _ in_argument _ in_argument); [|nb_|left; reflexivity]. word_ (bs "cat") hl_name_shell_command in_command. space_ (bs " ") at_argument. word_ (bs "f") hl_string in_argument.
    step_ [(bs "\*", Some hl_string_escape)] in_argument; [apply (bash_escape _ _ in_argument); discriminate|apply bash_code_end]. }
  space_ (bs " ") at_argument.
  step_ ((bs "${", Some hl_string_interpolation_delim) :: [(bs "x:-y", Some hl_string_interpolation)] ++ [(bs "}", Some hl_string_interpolation_delim)]) no_word.
  { apply bash_expand. apply (bash_braces _ _ _ in_parameter); [|left; reflexivity]. word_ (bs "x:-y") hl_string_interpolation in_parameter. apply bash_code_end. }
  apply bash_code_end.
Qed.
