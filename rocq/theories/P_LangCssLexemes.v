(** * CSS style sheets get exactly the expected tokens (C173). *)
From Coq Require Import List NArith ZArith Bool Arith Lia.
From Verif Require Import M_Base L_Base M_Chars S_Parse M_Parse L_Parse M_Types M_Emit S_Ops S_Utf8 M_Utf8 L_Utf8
  M_Api M_Highlighter L_Highlighter L_Auto M_LangHtml M_LangCpp S_LangCss M_LangCss P_CssNumber S_Lexemes L_Lexemes L_Number L_LangCppLexemes L_Escapes L_Comments
  S_LexemesForced L_FDoes S_LangCssLexemes.
Import ListNotations.

(** ** Characters *)
Lemma start_iff c : is_css_identifier_start c = true <-> css_start c.
Proof.
  unfold is_css_identifier_start, is_ascii_alpha, is_ascii_lower_alpha, is_ascii_upper_alpha, between, css_start, letter. change (ch "_") with 95%N.
  rewrite !orb_true_iff, !andb_true_iff, !N.leb_le, N.eqb_eq. lia.
Qed.
Lemma char_iff c : is_css_identifier c = true <-> css_char c.
Proof.
  unfold is_css_identifier. rewrite !orb_true_iff, start_iff, N.eqb_eq. unfold is_ascii_digit, between, css_start, css_char, digit. change (ch "-") with 45%N.
  rewrite andb_true_iff, !N.leb_le. tauto.
Qed.
Lemma white_iff c : is_css_whitespace c = true <-> css_white c.
Proof.
  unfold is_css_whitespace, is_html_whitespace, css_white, css_newline. unfold mem. cbn [existsb]. rewrite !orb_true_iff, !N.eqb_eq. lia.
Qed.
Lemma newline_iff c : is_css_newline c = true <-> css_newline c.
Proof. unfold is_css_newline, css_newline, mem. cbn [existsb]. rewrite !orb_true_iff, !N.eqb_eq. split; intuition congruence. Qed.
Lemma false_of (f : bool) (P : Prop) : (f = true <-> P) -> ~ P -> f = false.
Proof. intros H N. destruct f; [exfalso; apply N, H; reflexivity|reflexivity]. Qed.
Lemma len_if (f : N -> bool) (d : N -> Prop) w rest : (forall c, f c = true <-> d c) -> Forall d w -> not_before d rest -> length_if (w ++ rest) f = length w.
Proof.
  intros F W R. rewrite length_if_eq. apply prefix_len_exact; [eapply Forall_impl; [|exact W]; intros; apply F; assumption|]. eapply not_before_impl; [|exact R]. intros; apply F; assumption.
Qed.
Lemma no_head {P : N -> Prop} : not_before P [].
Proof. intros c [=]. Qed.
Lemma head_not (P : N -> Prop) c t : ~ P c -> not_before P (c :: t).
Proof. intros H d [= <-]. exact H. Qed.

(** ** Escapes *)
Lemma escaped_eq s : let n := length_if (firstn 6 s) is_ascii_hex_digit in 0 < n -> match_escaped_code_point s = if unit_is is_css_whitespace s n then n + 1 else n.
Proof.
  cbv zeta. unfold match_escaped_code_point. destruct s as [|c s]; [cbn; lia|]. intros H. destruct (Nat.eqb_spec (length_if (firstn 6 (c :: s)) is_ascii_hex_digit) 0) as [Z|Z]; [lia|]. reflexivity.
Qed.
Lemma escaped_hex d w next : d <> [] -> length d <= 6 -> Forall hex_digit d -> length w <= 1 -> Forall css_white w ->
  (length d = 6 \/ not_before hex_digit (w ++ next)) -> (w = [] -> not_before css_white next) -> match_escaped_code_point ((d ++ w) ++ next) = length (d ++ w).
Proof.
  intros D L F Lw W H1 H2. assert (Ld : 0 < length d) by (destruct d; [congruence|cbn; lia]).
  assert (E : length_if (firstn 6 ((d ++ w) ++ next)) is_ascii_hex_digit = length d).
  { rewrite <- app_assoc, firstn_app, firstn_all2 by exact L. destruct H1 as [H1|H1].
    - replace (6 - length d) with 0 by lia. cbn [firstn]. apply (len_if _ _ _ _ hex_digit_iff F no_head).
    - apply (len_if _ _ _ _ hex_digit_iff F). intros x Hx. apply H1. destruct (6 - length d); [discriminate|]. destruct (w ++ next); [discriminate|exact Hx]. }
  rewrite escaped_eq; rewrite E; [|lia]. unfold unit_is.
  rewrite <- app_assoc, nth_error_app2, Nat.sub_diag by lia. rewrite app_length. destruct w as [|x [|]]; cbn [length] in Lw; [| |lia].
  - cbn [app length]. rewrite Nat.add_0_r. specialize (H2 eq_refl). destruct next as [|y next]; [reflexivity|]. cbn [nth_error]. rewrite (false_of _ _ (white_iff y)); [reflexivity|]. apply H2. reflexivity.
  - cbn [app nth_error length]. inversion W as [|? ? Wx _]. rewrite (proj2 (white_iff x) Wx). reflexivity.
Qed.
Lemma sequence_length_ascii c : (c < 128)%N -> sequence_length c = 1.
Proof. intros H. rewrite sequence_length_eq by lia. unfold seqlen. apply N.ltb_lt in H. rewrite H. reflexivity. Qed.
Lemma escaped_ascii c next : (c < 128)%N -> ~ hex_digit c -> match_escaped_code_point (c :: next) = 1.
Proof.
  intros A H. unfold match_escaped_code_point. cbn [firstn]. rewrite length_if_eq. cbn [prefix_len]. rewrite (false_of _ _ (hex_digit_iff c) H). cbn [Nat.eqb negb]. apply sequence_length_ascii. exact A.
Qed.
Lemma escape_shape e next : css_escape e next -> exists c t, e = 92%N :: c :: t /\ ~ css_newline c /\ match_escaped_code_point ((c :: t) ++ next) = length (c :: t).
Proof.
  intros [d w n D L F Lw W H1 H2|c n A H N].
  - destruct d as [|c d]; [congruence|]. exists c, (d ++ w). split; [reflexivity|]. split; [|apply (escaped_hex (c :: d) w n); assumption].
    inversion F as [|? ? F0 _]. unfold hex_digit in F0. unfold css_newline. lia.
  - exists c, []. split; [reflexivity|]. split; [exact N|]. apply (escaped_ascii c n A H).
Qed.
Lemma escape_valid e next : css_escape e next -> starts_with_valid_escape (e ++ next) = true.
Proof.
  intros H. destruct (escape_shape e next H) as (c & t & -> & N & _). cbn [app starts_with_valid_escape]. change (ch "\") with 92%N.
  rewrite (false_of _ _ (newline_iff c) N). reflexivity.
Qed.
Lemma no_escape c t : c <> 92%N -> starts_with_valid_escape (c :: t) = false.
Proof. intros H. unfold starts_with_valid_escape. destruct t; [reflexivity|]. change (ch "\") with 92%N. apply N.eqb_neq in H. rewrite H. reflexivity. Qed.

Lemma ftext_alone t h l : ftext (alone t h :: l) = t ++ ftext l.
Proof. reflexivity. Qed.
(** ** Names *)
Lemma fopt_joined_text t h : ftext (fopt_joined t h) = t.
Proof. destruct t; [reflexivity|]. cbn. rewrite app_nil_r. reflexivity. Qed.
Lemma fopt_text t h : ftext (fopt t h) = t.
Proof. destruct t; [reflexivity|]. cbn. rewrite app_nil_r. reflexivity. Qed.
Lemma name_text_escape r e h p : ftext (fopt_joined r h ++ alone e hl_string_escape :: p) = r ++ e ++ ftext p.
Proof. rewrite ftext_app, fopt_joined_text. reflexivity. Qed.
Lemma css_char_not_escape c : css_char c -> c <> 92%N.
Proof. unfold css_char, letter, digit. lia. Qed.
Lemma ident_run r : forall fuel rest len, Forall css_char r -> length r <= fuel -> ident_sequence_loop fuel (r ++ rest) len = ident_sequence_loop (fuel - length r) rest (len + length r).
Proof.
  induction r as [|c r IH]; intros fuel rest len F L; [rewrite Nat.sub_0_r, Nat.add_0_r; reflexivity|]. cbn [length] in L. destruct fuel as [|fuel]; [lia|]. inversion F as [|? ? Fc Fr]; subst.
  cbn [app ident_sequence_loop]. rewrite no_escape by (apply css_char_not_escape; exact Fc). rewrite (proj2 (char_iff c) Fc), IH by (auto; lia). f_equal; cbn [length]; lia.
Qed.
Lemma ident_stop fuel rest len : not_before css_more rest -> length rest <= fuel -> ident_sequence_loop fuel rest len = Ok len.
Proof.
  intros H L. destruct rest as [|c t]; [destruct fuel; reflexivity|]. cbn [length] in L. destruct fuel as [|fuel]; [lia|]. specialize (H c eq_refl). unfold css_more in H. cbn [ident_sequence_loop].
  rewrite no_escape by tauto. rewrite (false_of _ _ (char_iff c)) by tauto. reflexivity.
Qed.
Lemma name_len h p rest : css_name h p rest -> forall fuel len, length (ftext p ++ rest) <= fuel -> ident_sequence_loop fuel (ftext p ++ rest) len = Ok (len + length (ftext p)).
Proof.
  induction 1 as [r rest F R|r e p rest F E _ IH]; intros fuel len L.
  - rewrite fopt_joined_text in *. rewrite app_length in L. rewrite ident_run by (auto; lia). apply ident_stop; [exact R|lia].
  - rewrite name_text_escape, <- !app_assoc in *. rewrite !app_length in L. rewrite ident_run by (auto; lia). pose proof (escape_valid _ _ E) as V.
    destruct (escape_shape _ _ E) as (c & t & -> & _ & M). cbn [length] in L. destruct (fuel - length r) as [|f] eqn:Ef; [lia|].
    cbn [app ident_sequence_loop]. cbn [app] in V. rewrite V. change (c :: t ++ ftext p ++ rest) with ((c :: t) ++ ftext p ++ rest). rewrite M, skipn_app_exact, IH by (rewrite app_length; lia).
    f_equal. rewrite !app_length. cbn [length]. rewrite !app_length. cbn [length]. lia.
Qed.
Lemma name_match h p rest : css_name h p rest -> match_ident_sequence (ftext p ++ rest) = Ok (length (ftext p)).
Proof. intros H. unfold match_ident_sequence. apply (name_len _ _ _ H). lia. Qed.

Lemma skipn_at {A} (a : list A) k b : k <= length a -> skipn k (a ++ b) = skipn k a ++ b.
Proof. intros H. rewrite skipn_app. replace (k - length a) with 0 by lia. reflexivity. Qed.
Lemma run_at (P : N -> Prop) r k : Forall P r -> k < length r -> exists c t, skipn k r = c :: t /\ P c /\ nth_error r k = Some c.
Proof.
  revert k. induction r as [|x r IH]; intros k F L; [cbn in L; lia|]. inversion F as [|? ? Fx Fr]; subst. destruct k as [|k]; [exists x, r; auto|]. cbn [length] in L. destruct (IH k Fr) as (c & t & E & P1 & E2); [lia|]. exists c, t. auto.
Qed.
Lemma name_scan ty l h p rest : css_name h p rest -> h = ty -> fscans (ident_like_body ty) tt rest l 0 l p.
Proof.
  induction 1 as [r rest F R|r e p rest F E _ IH]; intros ->.
  - apply fscans_run with (m := length r); [lia|rewrite fopt_joined_text, app_length; lia| |].
    + intros k Hk. unfold ident_like_body. apply fdoes_get. rewrite fopt_joined_text. assert (B : (k <? length (ftext [] ++ r ++ rest)) = true) by (apply Nat.ltb_lt; cbn; rewrite app_length; lia). rewrite B.
      apply fdoes_substr; [apply Nat.ltb_lt in B; lia|]. change (ftext [] ++ r ++ rest) with (r ++ rest) in *. rewrite skipn_at by lia. destruct (run_at _ r k F) as (c & t & E1 & E2 & E3); [lia|]. rewrite E1. cbn [app].
      rewrite no_escape by (apply css_char_not_escape; exact E2). eapply fdoes_at; [rewrite nth_error_app1 by lia; exact E3|]. rewrite (proj2 (char_iff c) E2). apply fdoes_ret.
    + apply fscans_end. unfold ident_like_body. apply fdoes_get. rewrite fopt_joined_text.
      assert (X : fdoes (ident_flush (length r) ty;; ret (inr tt)) l (fopt_joined r ty) rest (inr tt : nat + unit) l) by (eapply fdoes_last; [apply (fdoes_opt_c r); reflexivity|apply fdoes_ret]).
      destruct rest as [|c t]; [rewrite app_nil_r, Nat.ltb_irrefl; exact X|]. specialize (R c eq_refl). unfold css_more in R.
      assert (B : (length r <? length (r ++ c :: t)) = true) by (apply Nat.ltb_lt; rewrite app_length; cbn; lia). rewrite B. apply fdoes_substr; [apply Nat.ltb_lt in B; lia|].
      rewrite skipn_app_exact, no_escape by tauto. eapply fdoes_at; [rewrite nth_error_app2, Nat.sub_diag by lia; reflexivity|]. rewrite (false_of _ _ (char_iff c)) by tauto. exact X.
  - assert (T : ftext (fopt_joined r ty ++ alone e hl_string_escape :: p) ++ rest = r ++ e ++ ftext p ++ rest) by (rewrite name_text_escape, <- !app_assoc; reflexivity).
    apply fscans_run with (m := length r); [lia|rewrite T, app_length; lia| |].
    + intros k Hk. rewrite T. unfold ident_like_body. apply fdoes_get. change (ftext [] ++ ?x) with x. assert (B : (k <? length (r ++ e ++ ftext p ++ rest)) = true) by (apply Nat.ltb_lt; rewrite app_length; lia). rewrite B.
      apply fdoes_substr; [apply Nat.ltb_lt in B; lia|]. rewrite skipn_at by lia. destruct (run_at _ r k F) as (c & t & E1 & E2 & E3); [lia|]. rewrite E1. cbn [app].
      rewrite no_escape by (apply css_char_not_escape; exact E2). eapply fdoes_at; [rewrite nth_error_app1 by lia; exact E3|]. rewrite (proj2 (char_iff c) E2). apply fdoes_ret.
    + replace (fopt_joined r ty ++ alone e hl_string_escape :: p) with ((fopt_joined r ty ++ [alone e hl_string_escape]) ++ p) by (rewrite <- app_assoc; reflexivity).
      pose proof (escape_valid _ _ E) as V. destruct (escape_shape _ _ E) as (c & t & -> & _ & M).
      eapply fscans_more; [| |apply IH; reflexivity].
      * unfold ident_like_body. apply fdoes_get. rewrite ftext_app, fopt_joined_text. change (ftext [alone ?x hl_string_escape]) with (x ++ []). rewrite app_nil_r, <- app_assoc.
        assert (B : (length r <? length (r ++ (92%N :: c :: t) ++ ftext p ++ rest)) = true) by (apply Nat.ltb_lt; rewrite app_length; cbn; lia). rewrite B. apply fdoes_substr; [apply Nat.ltb_lt in B; lia|].
        rewrite skipn_app_exact, V. eapply fdoes_bind; [apply fdoes_opt_c; reflexivity|]. apply fdoes_get. change (ftext [alone ?x hl_string_escape]) with (x ++ []). rewrite app_nil_r.
        apply fdoes_substr; [cbn; lia|]. cbn [app skipn]. change (c :: t ++ ftext p ++ rest) with ((c :: t) ++ ftext p ++ rest). rewrite M. eapply fdoes_last; [apply fdoes_emit; [cbn [length]; lia|discriminate]|apply fdoes_ret].
      * rewrite ftext_app, fopt_joined_text, app_length. cbn. lia.
Qed.
Definition like_type (d : N) (rest : str) : N :=
  if negb (d =? hl_name)%N then d else if match rest with c :: _ => (c =? 40)%N | [] => false end then hl_name_function else hl_name.
Lemma ident_like d l p rest : ftext p <> [] -> css_name (like_type d rest) p rest -> fdoes (css_consume_ident_like_token d) l p rest tt l.
Proof.
  intros N H. unfold css_consume_ident_like_token. apply fdoes_get. set (s := ftext p ++ rest). set (n := length (ftext p)).
  assert (E : match_ident_like_token s = Ok (n, if match rest with c :: _ => (c =? 40)%N | [] => false end then it_function else it_ident)).
  { unfold match_ident_like_token. unfold s. rewrite (name_match _ _ _ H). cbn [bind]. fold n. unfold check. assert (B : (n <=? length (ftext p ++ rest)) = true) by (apply Nat.leb_le; rewrite app_length; unfold n; lia). rewrite B. cbn [bind].
    unfold n. rewrite skipn_app_exact. unfold unit_is. rewrite nth_error_app2, Nat.sub_diag by lia. rewrite app_length. change (ch "(") with 40%N. destruct rest as [|c t].
    - cbn [length]. rewrite Nat.add_0_r, Nat.eqb_refl. reflexivity.
    - cbn [nth_error length]. assert (X : (length (ftext p) =? length (ftext p) + S (length t)) = false) by (apply Nat.eqb_neq; lia). rewrite X. cbn [orb].
      destruct (N.eqb_spec c 40) as [->|_]; [|reflexivity]. cbn [negb]. unfold equals_ignore_case. destruct (negb _); reflexivity. }
  eapply fdoes_lift; [exact E|]. cbn [fst snd]. apply fdoes_check; [destruct (ftext p); [congruence|reflexivity]|]. cbv zeta. apply fdoes_scan. apply (name_scan _ l _ p rest H).
  unfold like_type. destruct (negb _); [reflexivity|]. destruct rest as [|c t]; [reflexivity|]. destruct (c =? 40)%N; reflexivity.
Qed.

(** ** Strings *)
Lemma string_shape e next : css_escape e next \/ css_continuation e next -> exists c t, e = 92%N :: c :: t /\ match_escaped_code_point ((c :: t) ++ next) = length (c :: t).
Proof.
  intros [H|H]; [destruct (escape_shape e next H) as (c & t & E & _ & M); eauto|].
  destruct H as [->|[->|[-> _]]]; (eexists; exists []; split; [reflexivity|]; apply escaped_ascii; [lia|unfold hex_digit; lia]).
Qed.
Lemma string_at q l (p : list fpiece) pre r t k : Forall (fun c => c <> q /\ c <> 92%N /\ ~ css_newline c) r -> length pre <= k < length (pre ++ r) ->
  fdoes (css_string_body q k) l [] (pre ++ r ++ t) (inl (k + 1)) l.
Proof.
  intros F Hk. unfold css_string_body. apply fdoes_get. change (ftext [] ++ ?x) with x. assert (B : (k <? length (pre ++ r ++ t)) = true) by (apply Nat.ltb_lt; rewrite app_assoc, app_length; lia). rewrite B.
  rewrite app_length in Hk. destruct (run_at _ r (k - length pre) F) as (c & u & _ & (P1 & P2 & P3) & E3); [lia|]. apply fdoes_at with (c := c); [rewrite nth_error_app2, nth_error_app1 by lia; exact E3|].
  apply N.eqb_neq in P1, P2. change (ch "\") with 92%N. rewrite P1, P2, (false_of _ _ (newline_iff c) P3). apply fdoes_ret.
Qed.
Lemma string_scan q l pre p rest : q = 34%N \/ q = 39%N -> css_string q pre p rest -> fscans (css_string_body q) tt rest l (length pre) l p.
Proof.
  intros Q. induction 1 as [pre r rest F|pre r rest F R|pre r e p rest F E _ IH].
  - assert (T : ftext [alone (pre ++ r ++ [q]) hl_string] ++ rest = pre ++ r ++ q :: rest) by (cbn; rewrite app_nil_r, <- !app_assoc; reflexivity).
    apply fscans_run with (m := length (pre ++ r)); [rewrite app_length; lia|rewrite T, app_assoc, !app_length; lia| |].
    + intros k Hk. rewrite T. apply (string_at q l []); assumption.
    + apply fscans_end. unfold css_string_body. apply fdoes_get. rewrite T. assert (B : (length (pre ++ r) <? length (pre ++ r ++ q :: rest)) = true) by (apply Nat.ltb_lt; rewrite app_assoc, (app_length (pre ++ r)); cbn; lia). rewrite B.
      apply fdoes_at with (c := q); [rewrite app_assoc, nth_error_app2, Nat.sub_diag by lia; reflexivity|]. rewrite N.eqb_refl. eapply fdoes_last; [|apply fdoes_ret]. unfold string_flush. replace (negb (length (pre ++ r) + 1 =? 0)) with true by (rewrite Nat.add_1_r; reflexivity). cbn [when]. apply fdoes_emit; [rewrite !app_length; cbn; lia|destruct pre; [destruct r|]; discriminate].
  - assert (T : ftext (fopt (pre ++ r) hl_string) ++ rest = pre ++ r ++ rest) by (rewrite fopt_text, <- app_assoc; reflexivity).
    apply fscans_run with (m := length (pre ++ r)); [rewrite app_length; lia|rewrite T, app_assoc, !app_length; lia| |].
    + intros k Hk. rewrite T. apply (string_at q l []); assumption.
    + apply fscans_end. unfold css_string_body. apply fdoes_get. rewrite T.
      assert (X : fdoes (string_flush (length (pre ++ r));; ret (inr tt)) l (fopt (pre ++ r) hl_string) rest (inr tt : nat + unit) l) by (eapply fdoes_last; [apply fdoes_opt; reflexivity|apply fdoes_ret]).
      destruct rest as [|c t]; [rewrite app_nil_r, Nat.ltb_irrefl; exact X|]. specialize (R c eq_refl). assert (B : (length (pre ++ r) <? length (pre ++ r ++ c :: t)) = true) by (apply Nat.ltb_lt; rewrite app_assoc, (app_length (pre ++ r)); cbn; lia). rewrite B.
      apply fdoes_at with (c := c); [rewrite app_assoc, nth_error_app2, Nat.sub_diag by lia; reflexivity|]. assert (N1 : (c =? q)%N = false) by (apply N.eqb_neq; unfold css_newline in R; lia). rewrite N1, (proj2 (newline_iff c) R). exact X.
  - destruct (string_shape _ _ E) as (c & t & -> & M).
    assert (T : ftext (fopt (pre ++ r) hl_string ++ alone (92%N :: c :: t) hl_string_escape :: p) ++ rest = pre ++ r ++ (92%N :: c :: t) ++ ftext p ++ rest) by (rewrite ftext_app, fopt_text, ftext_alone, <- !app_assoc; reflexivity).
    apply fscans_run with (m := length (pre ++ r)); [rewrite app_length; lia|rewrite T, app_assoc, !app_length; lia| |].
    + intros k Hk. rewrite T. apply (string_at q l []); assumption.
    + replace (fopt (pre ++ r) hl_string ++ alone (92%N :: c :: t) hl_string_escape :: p) with ((fopt (pre ++ r) hl_string ++ [alone (92%N :: c :: t) hl_string_escape]) ++ p) by (rewrite <- app_assoc; reflexivity).
      eapply fscans_more; [| |exact IH].
      * unfold css_string_body. apply fdoes_get. rewrite ftext_app, fopt_text. change (ftext [alone ?x hl_string_escape]) with (x ++ []). rewrite app_nil_r, <- (app_assoc (pre ++ r)).
        assert (B : (length (pre ++ r) <? length ((pre ++ r) ++ (92%N :: c :: t) ++ ftext p ++ rest)) = true) by (apply Nat.ltb_lt; rewrite (app_length (pre ++ r)); cbn; lia). rewrite B.
        apply fdoes_at with (c := 92%N); [rewrite nth_error_app2, Nat.sub_diag by lia; reflexivity|]. assert (N1 : (92 =? q)%N = false) by (apply N.eqb_neq; lia). rewrite N1. change (is_css_newline 92) with false. change (92 =? ch "\")%N with true. cbv iota.
        eapply fdoes_bind; [apply fdoes_opt; reflexivity|]. apply fdoes_get. change (ftext [alone ?x hl_string_escape]) with (x ++ []). rewrite app_nil_r.
        apply fdoes_substr; [cbn; lia|]. cbn [app skipn]. change (c :: t ++ ftext p ++ rest) with ((c :: t) ++ ftext p ++ rest). rewrite M. eapply fdoes_last; [apply fdoes_emit; [cbn [length]; lia|discriminate]|apply fdoes_ret].
      * rewrite ftext_app, fopt_text, (app_length (pre ++ r)). cbn. lia.
Qed.

(** ** Comments *)
Definition no_comment (s : str) : Prop := starts_with s (bs "/*") = false.
Lemma comments_none l rest : no_comment rest -> fdoes css_consume_comments l [] rest tt l.
Proof.
  intros H. apply fdoes_loop, fiterates_end. apply fdoes_get. change (ftext [] ++ rest) with rest. unfold cpp_match_block_comment. unfold no_comment in H. change (bs "/*") with [47; 42]%N in *. rewrite H. cbn [negb en_length Nat.eqb]. apply fdoes_ret.
Qed.
(** Comments one after another, before [rest] *)
Inductive comments : list fpiece -> str -> Prop :=
| comments_end rest : comments [] rest
| comments_more p q rest : css_comment p (ftext q ++ rest) -> comments q rest -> comments (p ++ q) rest.
Lemma comments_exact l c rest : no_comment rest -> comments c rest -> fdoes css_consume_comments l c rest tt l.
Proof.
  intros N H. apply fdoes_loop. induction H as [rest|p q rest Hp Hq IH].
  - apply fiterates_end. apply fdoes_get. change (ftext [] ++ rest) with rest. unfold cpp_match_block_comment. unfold no_comment in N. change (bs "/*") with [47; 42]%N in *. rewrite N. cbn [negb en_length Nat.eqb]. apply fdoes_ret.
  - destruct Hp as (t & closed & -> & H & R). set (p := alone (bs "/*") hl_comment_delim :: fopt t hl_comment ++ (if closed : bool then [alone (bs "*/") hl_comment_delim] else [])).
    assert (Tp : ftext p = bs "/*" ++ t ++ block_end closed) by (unfold p; rewrite ftext_alone, ftext_app, fopt_text; destruct closed; reflexivity).
    eapply fiterates_more with (a1 := tt) (s1 := l); [|rewrite Tp; discriminate|apply IH; exact N].
    apply fdoes_get. rewrite Tp, <- !app_assoc. rewrite block_len by assumption. cbn [en_length en_terminated Nat.add Nat.eqb]. intros i o. rewrite Tp, <- !app_assoc. apply wp_bind. unfold get_idx at 1, wp at 1. cbn [idx].
    apply wp_bind. cbv zeta.
    assert (Lr : length (bs "/*" ++ t ++ block_end closed ++ ftext q ++ rest) = 2 + length t + length (block_end closed) + length (ftext q ++ rest)) by (rewrite !app_length; change (length (bs "/*")) with 2; lia).
    assert (Lb : length (block_end closed) = if closed then 2 else 0) by (destruct closed; reflexivity).
    apply wp_emit_at_exact; [cbn; lia|lia|cbn in *; lia|]. apply wp_bind.
    replace (S (S (length t + (if closed then 2 else 0))) - 2 - (if closed then 2 else 0)) with (length t) by (destruct closed; lia).
    set (TXT := bs "/*" ++ t ++ block_end closed ++ ftext q ++ rest) in *.
    assert (X : forall (Q : unit -> hst css_loc -> Prop) o', Q tt (mk_hst TXT i (rev (ftokens (i + 2) (fopt t hl_comment)) ++ o') l) ->
      wp (when (negb (length t =? 0)) (emit_at false (i + 2) (length t) hl_comment)) Q (mk_hst TXT i o' l)).
    { intros Q o' HQ. destruct t as [|x t]; [apply wp_ret; exact HQ|]. cbn [length Nat.eqb negb when]. apply wp_emit_at_exact; [cbn; lia|lia|cbn in *; lia|]. exact HQ. }
    apply X. apply wp_bind. clear X. unfold p. cbn [ftokens alone]. rewrite ftokens_app, fopt_text, app_length. destruct closed; cbn [block_end] in *.
    + cbn [when]. apply wp_emit_at_exact; [cbn; lia|lia|cbn in *; lia|]. apply wp_bind, wp_advance_exact; [unfold TXT; rewrite !app_length; cbn; lia|]. apply wp_ret. split; [reflexivity|]. f_equal.
      * unfold TXT. replace (S (S (length t + 2))) with (length (bs "/*" ++ t ++ bs "*/")) by (rewrite !app_length; cbn; lia). rewrite !app_assoc. rewrite <- (app_assoc _ (ftext q)). rewrite <- app_assoc. apply skipn_app_exact.
      * rewrite !app_length. cbn. lia.
      * change (length (bs "/*")) with 2. cbn [rev]. rewrite rev_app_distr. cbn [ftokens alone rev app]. rewrite <- app_assoc. cbn [app]. f_equal. f_equal. lia.
    + cbn [when]. apply wp_ret, wp_bind, wp_advance_exact; [unfold TXT; rewrite !app_length; cbn; lia|]. apply wp_ret. split; [reflexivity|]. f_equal.
      * unfold TXT. replace (S (S (length t + 0))) with (length (bs "/*" ++ t)) by (rewrite !app_length; cbn; lia). rewrite app_nil_l, app_assoc. apply skipn_app_exact.
      * rewrite !app_length. cbn. lia.
      * change (length (bs "/*")) with 2. cbn [ftokens]. rewrite app_nil_r. cbn [rev app]. rewrite <- app_assoc. reflexivity.
Qed.

(** ** Rounds of the main loop: comments, then a token *)
Definition tok (l : css_loc) (p : list fpiece) (rest : str) (l' : css_loc) : Prop :=
  ftext p <> [] /\ no_comment (ftext p ++ rest) /\ forall c t, ftext p ++ rest = c :: t -> fdoes (css_switch c (c :: t) l) l p rest tt l'.
Inductive rounds : css_loc -> list fpiece -> Prop :=
| rounds_end l c : comments c [] -> rounds l c
| rounds_more l c p l' q : comments c (ftext p ++ ftext q) -> tok l p (ftext q) l' -> rounds l' q -> rounds l (c ++ p ++ q).
Lemma rounds_tok l p l' q : tok l p (ftext q) l' -> rounds l' q -> rounds l (p ++ q).
Proof. intros H1 H2. apply (rounds_more l [] p l' q); [constructor|exact H1|exact H2]. Qed.
Lemma rounds_note l p q : css_comment p (ftext q) -> rounds l q -> rounds l (p ++ q).
Proof.
  intros Hp H. revert Hp. destruct H as [l0 c H|l0 c p0 l' q0 Hc H1 H2]; intros Hp.
  - apply rounds_end. apply comments_more; [rewrite app_nil_r; exact Hp|exact H].
  - rewrite app_assoc. eapply rounds_more; [|exact H1|exact H2]. apply comments_more; [|exact Hc]. rewrite !ftext_app in Hp. exact Hp.
Qed.
Lemma body_tok l c p l' q : comments c (ftext p ++ ftext q) -> tok l p (ftext q) l' -> fdoes css_body l (c ++ p) (ftext q) tt l'.
Proof.
  intros Hc (N & C & H). unfold css_body. eapply fdoes_bind; [apply comments_exact; assumption|]. apply fdoes_get. destruct (ftext p ++ ftext q) as [|x t] eqn:E; [apply app_eq_nil in E; tauto|].
  apply fdoes_get_loc. apply H. reflexivity.
Qed.
Lemma rounds_loop l q : rounds l q -> exists l', fiterates (fun _ : unit => let! e := eof in if e then ret (inr tt) else css_body ;; ret (inl tt)) tt [] l' tt l q.
Proof.
  induction 1 as [l c H|l c p l' q Hc H1 H2 (s & IH)].
  - exists l. inversion H as [rest E1 E2|p q rest Hp Hq E1 E2]; subst.
    + apply fiterates_end. apply fdoes_eof_end, fdoes_ret.
    + set (c := p ++ q). assert (N : ftext c <> []).
      { destruct Hp as (t & cl & E & _). unfold c. rewrite E. discriminate. }
      rewrite <- (app_nil_r c). apply fiterates_more with (a1 := tt) (s1 := l); [|exact N|apply fiterates_end, fdoes_eof_end, fdoes_ret].
      apply fdoes_eof; [rewrite app_nil_r; exact N|]. eapply fdoes_last; [|apply fdoes_ret]. unfold css_body. eapply fdoes_last; [apply comments_exact; [reflexivity|apply comments_more; [exact Hp|exact Hq]]|]. apply fdoes_get. apply fdoes_ret.
  - exists s. rewrite app_assoc. apply fiterates_more with (a1 := tt) (s1 := l').
    + rewrite app_nil_r. assert (N : ftext (c ++ p) ++ ftext q <> []) by (destruct H1 as [N _]; rewrite ftext_app; intros E; apply app_eq_nil in E as [E _]; apply app_eq_nil in E; tauto).
      apply fdoes_eof; [exact N|]. eapply fdoes_last; [eapply body_tok; eassumption|apply fdoes_ret].
    + destruct H1 as [N _]; rewrite ftext_app; intros E; apply app_eq_nil in E; tauto.
    + exact IH.
Qed.
Lemma rounds_exact q : rounds (mk_css_loc 0 cx_top_level) q -> ftokenizes highlight_css q.
Proof.
  intros H strict. unfold highlight_css. destruct (rounds_loop _ _ H) as (l' & I). set (l0 := mk_css_loc 0 cx_top_level) in *.
  assert (W : wp (while_rem css_body) (fun _ st' => rops st' = rev (ftokens 0 q)) (mk_hst (ftext q) 0 [] l0)).
  { pose proof (fdoes_loop 0 _ _ _ _ _ _ _ I 0 []) as W. rewrite !app_nil_r in W. eapply wp_mono; [exact W|]. cbn beta. intros ? ? [_ ->]. reflexivity. }
  unfold run, bindM. unfold wp in W. destruct (while_rem css_body _) as [[[] st']|]; [|contradiction]. unfold ret. rewrite W, rev_involutive. reflexivity.
Qed.

(** ** Tokens *)
Ltac skip_tests c := unfold css_switch, mem; cbn [existsb]; repeat match goal with
  | |- context [(c =? ?k)%N] => let v := eval compute in k in
      replace (c =? k)%N with false by (symmetry; apply N.eqb_neq; change k with v; first [assumption | lia])
  | |- context [(?k =? c)%N] => replace (k =? c)%N with false by (symmetry; apply N.eqb_neq; first [assumption | lia])
  end; cbn [orb andb].
Lemma tok_plain l p rest c w l' : ftext p = c :: w -> c <> 47%N -> fdoes (css_switch c (c :: w ++ rest) l) l p rest tt l' -> tok l p rest l'.
Proof.
  intros E N H. split; [rewrite E; discriminate|]. split.
  - rewrite E. unfold no_comment. change (bs "/*") with [47; 42]%N. cbn [app starts_with]. apply N.eqb_neq in N. rewrite N. reflexivity.
  - intros x t E2. rewrite E in E2. injection E2 as <- <-. exact H.
Qed.
Lemma tok_white l w rest : w <> [] -> Forall css_white w -> not_before css_white rest -> tok l [bare w] rest l.
Proof.
  intros N F R. destruct w as [|c w]; [congruence|]. inversion F as [|? ? Fc _]; subst. apply (tok_plain l _ rest c w); [cbn; rewrite app_nil_r; reflexivity|unfold css_white, css_newline in Fc; lia|].
  assert (E : mem c [32; 9; 13; 10; 12]%N = true) by (unfold mem; cbn [existsb]; rewrite !orb_true_iff, !N.eqb_eq; unfold css_white, css_newline in Fc; lia).
  unfold css_switch. rewrite E. unfold css_consume_whitespace. apply fdoes_get. change (ftext [bare (c :: w)]) with ((c :: w) ++ []). rewrite app_nil_r. apply fdoes_advance. apply (len_if _ css_white); [exact white_iff|exact F|exact R].
Qed.
Lemma css_string_head q pre p rest : css_string q pre p rest -> pre <> [] -> exists t, ftext p ++ rest = pre ++ t /\ exists u, ftext p = pre ++ u.
Proof.
  intros H N. destruct H as [pre r rest _|pre r rest _ _|pre r e p rest _ _ _].
  - exists (r ++ [q] ++ rest). cbn. rewrite app_nil_r, <- !app_assoc. split; [reflexivity|]. exists (r ++ [q]). reflexivity.
  - exists (r ++ rest). rewrite fopt_text, <- app_assoc. split; [reflexivity|]. eauto.
  - rewrite ftext_app, fopt_text, ftext_alone, <- !app_assoc. eexists. split; [reflexivity|]. eauto.
Qed.
Lemma tok_string l q p rest : q = 34%N \/ q = 39%N -> css_string q [q] p rest -> tok l p rest l.
Proof.
  intros Q H. destruct (css_string_head _ _ _ _ H) as (t & _ & u & E); [discriminate|]. apply (tok_plain l _ rest q u); [exact E|lia|].
  assert (X : css_switch q (q :: u ++ rest) l = css_consume_string_token q) by (destruct Q as [->| ->]; reflexivity). rewrite X. apply fdoes_scan. apply (string_scan q l [q]); assumption.
Qed.
Lemma switch_start c r l : css_start c -> css_switch c r l = css_consume_ident_like_token (contextual_highlight_type (cx l)).
Proof.
  intros H. assert (E : is_css_identifier_start c = true) by (apply start_iff; exact H). unfold css_start, letter in H. skip_tests c. rewrite E.
  assert (D : is_ascii_digit c = false) by (unfold is_ascii_digit, between; apply andb_false_iff; rewrite !N.leb_gt; lia). rewrite D. reflexivity.
Qed.
Lemma name_escape_head h p rest : css_name h p rest -> (exists t, ftext p = 92%N :: t) -> starts_with_valid_escape (ftext p ++ rest) = true.
Proof.
  intros [r rest' F R|r e p' rest' F E _] (t & T).
  - rewrite fopt_joined_text in T. subst r. inversion F as [|? ? Fc _]. unfold css_char, letter, digit in Fc. lia.
  - rewrite name_text_escape in *. destruct r as [|x r]; [|cbn in T; injection T as -> _; inversion F as [|? ? Fc _]; unfold css_char, letter, digit in Fc; lia].
    cbn [app]. rewrite <- app_assoc. apply escape_valid. exact E.
Qed.
Lemma tok_name n cx p rest : css_plain p -> css_name (like_type (contextual_highlight_type cx) rest) p rest -> tok (mk_css_loc n cx) p rest (mk_css_loc n cx).
Proof.
  intros (c & t & T & S) H. apply (tok_plain _ _ rest c t); [exact T|unfold css_start, letter in S; lia|]. assert (N : ftext p <> []) by (rewrite T; discriminate). destruct S as [S| ->].
  - rewrite switch_start by exact S. apply ident_like; assumption.
  - assert (V : starts_with_valid_escape (92%N :: t ++ rest) = true) by (pose proof (name_escape_head _ _ _ H) as V; rewrite T in V; apply V; eauto).
    change (css_switch 92 (92%N :: t ++ rest) (mk_css_loc n cx)) with (if starts_with_valid_escape (92%N :: t ++ rest) then css_consume_ident_like_token (contextual_highlight_type cx) else emit_and_advance 1 hl_error).
    rewrite V. apply ident_like; assumption.
Qed.
Lemma same_run r : forall a x y, Forall css_char r -> Forall css_char a -> r ++ 92%N :: x = a ++ 92%N :: y -> x = y.
Proof.
  induction r as [|c r IH]; intros [|d a] x y F G E; cbn [app] in E; injection E.
  - auto.
  - intros _ <-. inversion G as [|? ? Fc _]. unfold css_char, letter, digit in Fc. lia.
  - intros _ ->. inversion F as [|? ? Fc _]. unfold css_char, letter, digit in Fc. lia.
  - intros E2 _. inversion F; inversion G; subst. eapply IH; eassumption.
Qed.
Lemma escape_next h p rest a t : css_name h p rest -> ftext p = a ++ 92%N :: t -> Forall css_char a -> starts_with_valid_escape (92%N :: t ++ rest) = true.
Proof.
  intros H T A. destruct H as [r rest F R|r e p rest F E _].
  - rewrite fopt_joined_text in T. subst r. apply Forall_app in F as [_ F]. inversion F as [|? ? Fc _]. unfold css_char, letter, digit in Fc. lia.
  - rewrite name_text_escape in T. pose proof (escape_valid _ _ E) as V. destruct (escape_shape _ _ E) as (c & u & -> & _). cbn [app] in *. apply same_run in T; [|assumption|assumption]. subst t. cbn [app]. rewrite <- app_assoc. exact V.
Qed.
Lemma starts_ident h p rest : css_name h p rest -> css_plain p \/ css_dash p -> starts_with_ident_sequence (ftext p ++ rest) = true.
Proof.
  intros H [(c & t & T & S)|(c & t & T & S)]; rewrite T; cbn [app starts_with_ident_sequence]; change (ch "-") with 45%N.
  - assert (N : (c =? 45)%N = false) by (apply N.eqb_neq; unfold css_start, letter in S; lia). rewrite N. destruct S as [S| ->]; [rewrite (proj2 (start_iff c) S); reflexivity|].
    rewrite (escape_next h p rest [] t H T (Forall_nil _)). apply orb_true_r.
  - cbn [N.eqb Pos.eqb]. destruct S as [S| ->]; [rewrite (proj2 (start_iff c) S); reflexivity|]. rewrite (escape_next h p rest [45%N] t H T); [apply orb_true_r|]. constructor; [unfold css_char; auto 6|constructor].
Qed.
Lemma no_number_dash c t : ~ digit c -> c <> 46%N -> css_starts_with_number (45%N :: c :: t) = false /\ css_starts_with_number (43%N :: c :: t) = false.
Proof.
  intros D N. apply N.eqb_neq in N. pose proof (false_of _ _ (L_Lexemes.digit_iff c) D) as E. split.
  - change (css_starts_with_number (45%N :: c :: t)) with (is_ascii_digit c || ((c =? 46)%N && match t with d :: _ => is_ascii_digit d | [] => false end)). rewrite E, N. reflexivity.
  - change (css_starts_with_number (43%N :: c :: t)) with (is_ascii_digit c || ((c =? 46)%N && match t with d :: _ => is_ascii_digit d | [] => false end)). rewrite E, N. reflexivity.
Qed.
Lemma tok_dash n cx p rest : css_dash p \/ css_custom p -> css_name (like_type hl_name rest) p rest -> tok (mk_css_loc n cx) p rest (mk_css_loc n cx).
Proof.
  intros D H. assert (X : exists c t, ftext p = 45%N :: c :: t /\ (css_start c \/ c = 92%N \/ c = 45%N /\ exists d u, t = d :: u /\ css_start d)).
  { destruct D as [(c & t & T & S)|(c & t & T & S)]; [exists c, t; tauto|exists 45%N, (c :: t)]. split; [exact T|]. right. right. eauto. }
  destruct X as (c & t & T & S). apply (tok_plain _ _ rest 45%N (c :: t)); [exact T|lia|].
  assert (S2 : starts_with_ident_sequence (c :: t ++ rest) = true).
  { cbn [starts_with_ident_sequence]. change (ch "-") with 45%N. destruct S as [S|[->|[-> (d & u & -> & S)]]].
    - assert (N : (c =? 45)%N = false) by (apply N.eqb_neq; unfold css_start, letter in S; lia). rewrite N, (proj2 (start_iff c) S). reflexivity.
    - rewrite (escape_next _ p rest [45%N] t H T); [apply orb_true_r|]. constructor; [unfold css_char; auto 6|constructor].
    - cbn [N.eqb Pos.eqb app]. rewrite (proj2 (start_iff d) S). reflexivity. }
  destruct (no_number_dash c (t ++ rest)) as [E _]; [|unfold css_start, letter in S; lia|].
  { unfold digit. unfold css_start, letter in S. lia. }
  change (css_switch 45 (45%N :: (c :: t) ++ rest) (mk_css_loc n cx)) with
    (if css_starts_with_number (45%N :: c :: t ++ rest) then css_consume_numeric_token
     else if starts_with (45%N :: c :: t ++ rest) (bs "-->") then emit_and_advance 3 hl_comment_delim
     else if starts_with_ident_sequence (c :: t ++ rest) then css_consume_ident_like_token hl_name
     else emit_and_advance 1 (match cx with cx_value | cx_at_prelude => hl_symbol_op | _ => hl_error end) : M css_loc unit).
  rewrite E, S2. assert (Y : starts_with (45%N :: c :: t ++ rest) (bs "-->") = false).
  { change (bs "-->") with [45; 45; 62]%N. cbn [starts_with]. rewrite N.eqb_refl. cbn [andb]. destruct (N.eqb_spec c 45) as [->|Z]; [|reflexivity]. destruct S as [S|[S|[_ (d & u & -> & S)]]]; [unfold css_start, letter in S; lia|discriminate|].
    cbn [app starts_with andb]. assert (Z : (d =? 62)%N = false) by (apply N.eqb_neq; unfold css_start, letter in S; lia). rewrite Z. reflexivity. }
  rewrite Y. apply ident_like; [rewrite T; discriminate|exact H].
Qed.
Lemma name_head h p rest : css_name h p rest -> p <> [] -> ftext p <> [] /\ (unit_is is_css_identifier (ftext p ++ rest) 0 || starts_with_valid_escape (ftext p ++ rest) = true).
Proof.
  intros [r rest' F R|r e p' rest' F E _] N.
  - destruct r as [|c r]; [elim N; reflexivity|]. rewrite fopt_joined_text. split; [discriminate|]. inversion F as [|? ? Fc _]. unfold unit_is. cbn [app nth_error]. rewrite (proj2 (char_iff c) Fc). reflexivity.
  - rewrite name_text_escape. pose proof (escape_valid _ _ E) as V. split.
    + destruct (escape_shape _ _ E) as (c & t & -> & _). destruct r; discriminate.
    + destruct r as [|c r]; cbn [app]; [rewrite <- app_assoc, V; apply orb_true_r|]. inversion F as [|? ? Fc _]. unfold unit_is. cbn [nth_error]. rewrite (proj2 (char_iff c) Fc). reflexivity.
Qed.
Lemma like_not_name d rest : d <> hl_name -> like_type d rest = d.
Proof. intros H. unfold like_type. apply N.eqb_neq in H. rewrite H. reflexivity. Qed.
Lemma tok_hash n cx p rest ty : ty = (match cx with cx_value => hl_value | _ => contextual_highlight_type cx end) -> p <> [] -> css_name ty p rest -> tok (mk_css_loc n cx) (alone (bs "#") ty :: p) rest (mk_css_loc n cx).
Proof.
  intros Ty N H. apply (tok_plain _ _ rest 35%N (ftext p)); [reflexivity|lia|]. destruct (name_head _ _ _ H N) as [NT E]. set (l := mk_css_loc n cx).
  change (css_switch 35 (35%N :: ftext p ++ rest) l) with
    (if unit_is is_css_identifier (ftext p ++ rest) 0 || starts_with_valid_escape (ftext p ++ rest)
     then emit_and_advance 1 (match cx with cx_value => hl_value | _ => contextual_highlight_type cx end) ;; css_consume_ident_like_token (match cx with cx_value => hl_value | _ => contextual_highlight_type cx end)
     else advance 1 : M css_loc unit). rewrite <- Ty, E.
  eapply fdoes_cons; [apply fdoes_emit; [reflexivity|discriminate]|]. apply ident_like; [exact NT|]. rewrite like_not_name; [exact H|]. subst ty. destruct cx; discriminate.
Qed.
Lemma number_len d t : longest_prefix css_number_text (d ++ t) d -> css_starts_with_number (d ++ t) = true /\ css_match_number (d ++ t) = length d /\ d <> [].
Proof.
  intros (_ & D & L). destruct (number_max d t D) as [S M]. split; [exact S|]. destruct (number_valid _ S) as [V1 V2]. split.
  - specialize (L _ _ (eq_sym (firstn_skipn (css_match_number (d ++ t)) (d ++ t))) V2). rewrite firstn_length_le in L by exact V1. lia.
  - intros ->. destruct D as (g & i & f & e & E & _ & _ & _ & _ & H). symmetry in E. apply app_eq_nil in E as [_ E]. apply app_eq_nil in E as [E1 E]. apply app_eq_nil in E as [E2 _]. destruct H; congruence.
Qed.
Lemma numeric l d p rest : longest_prefix css_number_text (d ++ ftext p ++ rest) d -> css_unit p rest -> fdoes css_consume_numeric_token l (alone d hl_number :: p) rest tt l.
Proof.
  intros D U. destruct (number_len _ _ D) as (S & M & N). unfold css_consume_numeric_token. eapply fdoes_cons with (x := tt) (s1 := l).
  - unfold css_consume_number. apply fdoes_get. change (ftext [alone d hl_number]) with (d ++ []). rewrite app_nil_r, M. apply fdoes_check; [destruct d; [congruence|reflexivity]|]. apply fdoes_emit; [reflexivity|exact N].
  - apply fdoes_get. destruct U as [[-> R]|[->|[H U]]].
    + change (ftext [] ++ rest) with rest. destruct rest as [|c t]; [apply fdoes_ret|]. specialize (R c eq_refl). cbn beta in R. cbn [starts_with_ident_sequence]. change (ch "-") with 45%N.
      assert (N1 : (c =? 45)%N = false) by (apply N.eqb_neq; tauto). rewrite N1, (false_of _ _ (start_iff c)), no_escape by tauto. cbn [orb starts_with_ch]. assert (N2 : (c =? ch "%")%N = false) by (apply N.eqb_neq; change (ch "%") with 37%N; tauto). rewrite N2. apply fdoes_ret.
    + cbn [starts_with_ident_sequence]. change (starts_with_ident_sequence (ftext [alone (bs "%") hl_number_decor] ++ rest)) with (false || starts_with_valid_escape (37%N :: rest)). rewrite no_escape by discriminate. cbn [orb].
      change (starts_with_ch (ftext [alone (bs "%") hl_number_decor] ++ rest) (ch "%")) with true. cbn [when]. apply fdoes_emit; [reflexivity|discriminate].
    + rewrite (starts_ident _ _ _ H U). apply ident_like; [|rewrite like_not_name by discriminate; exact H]. destruct U as [(c & t & T & _)|(c & t & T & _)]; rewrite T; discriminate.
Qed.
Lemma number_head d : css_number_text d -> exists c t, d = c :: t /\ (digit c \/ c = 46%N \/ c = 43%N \/ c = 45%N).
Proof.
  intros (g & i & f & e & -> & G & I & F & _ & H). destruct G as [->|[->| ->]]; [|eexists; eexists; split; [reflexivity|]; auto|eexists; eexists; split; [reflexivity|]; auto].
  destruct i as [|c i]; [|inversion I as [|? ? Ic _]; eexists; eexists; split; [reflexivity|]; left; exact Ic]. destruct F as [->|(u & -> & _)]; [destruct H; congruence|]. eexists; eexists; split; [reflexivity|]. auto.
Qed.
Lemma tok_number l d p rest : longest_prefix css_number_text (d ++ ftext p ++ rest) d -> css_unit p rest -> tok l (alone d hl_number :: p) rest l.
Proof.
  intros D U. destruct D as (D0 & D1 & D2). destruct (number_head d D1) as (c & t & -> & C). apply (tok_plain _ _ rest c (t ++ ftext p)); [reflexivity|unfold digit in C; lia|]. rewrite <- app_assoc.
  destruct (number_len (c :: t) (ftext p ++ rest)) as (S & _); [repeat split; assumption|]. pose proof (numeric l (c :: t) p rest (conj D0 (conj D1 D2)) U) as G. cbn [app] in S. destruct C as [C|C].
  - assert (DD : is_ascii_digit c = true) by (apply L_Lexemes.digit_iff; exact C). unfold digit in C. skip_tests c. rewrite DD. exact G.
  - destruct C as [->|[->| ->]]; unfold css_switch, mem; cbn [existsb N.eqb Pos.eqb orb andb]; cbn -[css_starts_with_number css_consume_numeric_token fdoes]; rewrite S; exact G.
Qed.
Lemma tok_symbol l l' c h f rest : c <> 47%N -> fdoes (css_switch c (c :: rest) l) l [([c], Some (h, f))] rest tt l' -> tok l [([c], Some (h, f))] rest l'.
Proof. intros N H. apply (tok_plain _ _ rest c []); [reflexivity|exact N|exact H]. Qed.
Lemma tok_other l c rest : In c (bs "=^$|&") \/ c = ch "/" /\ not_before (fun d => d = ch "*") rest -> tok l [bare [c]] rest l.
Proof.
  intros H. assert (A : c = 61%N \/ c = 94%N \/ c = 36%N \/ c = 124%N \/ c = 38%N \/ c = 47%N) by (destruct H as [H|[-> _]]; [|auto 10]; change (bs "=^$|&") with [61; 94; 36; 124; 38]%N in H; cbn in H; intuition).
  split; [discriminate|]. split.
  - unfold no_comment. change (bs "/*") with [47; 42]%N. change (ftext [bare [c]] ++ rest) with (c :: rest). cbn [starts_with]. destruct (N.eqb_spec c 47) as [->|]; [|reflexivity]. cbn [andb].
    destruct H as [H|[_ H]]; [change (bs "=^$|&") with [61; 94; 36; 124; 38]%N in H; cbn in H; intuition discriminate|]. destruct rest as [|d t]; [reflexivity|]. specialize (H d eq_refl). cbn beta in H. change (ch "*") with 42%N in H. apply N.eqb_neq in H. rewrite H. reflexivity.
  - intros x t [= <- <-]. assert (E : css_switch c (c :: rest) l = advance 1) by (destruct A as [->|[->|[->|[->|[->| ->]]]]]; reflexivity). rewrite E. apply fdoes_advance. reflexivity.
Qed.

Lemma fdoes_set_context n c c' rest : fdoes (set_context c) (mk_css_loc n c') [] rest tt (mk_css_loc n c).
Proof. intros i o. unfold set_context. apply wp_bind. unfold get_loc at 1, wp at 1. cbn [loc brace_level]. apply wp_set_loc_exact. cbn. rewrite Nat.add_0_r. auto. Qed.
Definition loc_of (r : css_role) : css_loc :=
  match r with
  | at_selector => mk_css_loc 0 cx_top_level
  | at_prelude => mk_css_loc 0 cx_at_prelude
  | at_property => mk_css_loc 1 cx_block
  | at_value => mk_css_loc 1 cx_value
  end.
Ltac one_symbol := match goal with |- tok _ [alone ?w _] ?rest _ => let v := eval compute in w in match v with [?c] => apply (tok_plain _ _ rest c []); [reflexivity|discriminate|] end | |- tok _ [joined ?w _] ?rest _ => let v := eval compute in w in match v with [?c] => apply (tok_plain _ _ rest c []); [reflexivity|discriminate|] end end; cbn -[fdoes emit_and_advance emit_and_advance_c set_context bindM set_loc ret];
  first [apply fdoes_emit_c; [reflexivity|discriminate] | apply fdoes_set_loc; apply fdoes_emit_c; [reflexivity|discriminate]
    | eapply fdoes_nil; [apply fdoes_set_context|]; apply fdoes_emit_c; [reflexivity|discriminate] | eapply fdoes_nil; [apply fdoes_ret|]; apply fdoes_emit_c; [reflexivity|discriminate]].
Lemma important_eq k : Forall2 css_same_letter k (bs "important") -> forall t, equal_upper (k ++ t) (bs "important") = true /\ Forall css_char k /\ length k = 9.
Proof.
  intros H t. assert (X : forall w, Forall2 css_same_letter k w -> Forall (fun c => 97 <= c <= 122)%N w -> equal_upper (k ++ t) w = true /\ Forall css_char k /\ length k = length w).
  { clear H. intros w H. induction H as [|c d k w Hc H IH]; intros F; [destruct t; repeat split; constructor|]. inversion F as [|? ? Fd Fw]; subst. destruct (IH Fw) as (E1 & E2 & E3). split; [|split; [constructor; [|exact E2]|cbn [length]; lia]].
    - cbn [app equal_upper]. rewrite E1, andb_true_r. apply N.eqb_eq. unfold to_ascii_upper, is_ascii_lower_alpha, between. destruct Hc as [->|Hc]; [reflexivity|].
      assert (Y : (c = d - 32)%N) by lia. assert (A1 : ((97 <=? c) && (c <=? 122))%N = false) by (apply andb_false_iff; left; apply N.leb_gt; lia). assert (A2 : ((97 <=? d) && (d <=? 122))%N = true) by (apply andb_true_iff; rewrite !N.leb_le; lia). rewrite A1, A2.
      assert (Z : forall m, (m < 26)%nat -> (N.land (97 + N.of_nat m) 0xDF = 65 + N.of_nat m)%N) by (intros m Hm; do 26 (destruct m as [|m]; [reflexivity|]); lia).
      specialize (Z (N.to_nat (d - 97)) ltac:(lia)). rewrite N2Nat.id in Z. replace (97 + (d - 97))%N with d in Z by lia. rewrite Z. lia.
    - unfold css_char, letter. destruct Hc as [->|Hc]; lia. }
  apply (X _ H). repeat constructor; vm_compute; discriminate.
Qed.
Lemma tok_important n cx w k rest : Forall css_white w -> Forall2 css_same_letter k (bs "important") -> not_before css_more rest -> tok (mk_css_loc n cx) [alone (bs "!" ++ w ++ k) hl_keyword] rest (mk_css_loc n cx).
Proof.
  intros W K R. apply (tok_plain _ _ rest 33%N (w ++ k)); [cbn; rewrite app_nil_r; reflexivity|discriminate|]. set (l := mk_css_loc n cx). set (r := (w ++ k) ++ rest).
  destruct (important_eq k K []) as (E1 & E2 & E3). rewrite app_nil_r in E1.
  assert (Hw : html_match_whitespace r = length w).
  { unfold r. rewrite <- app_assoc. apply (len_if _ css_white); [exact white_iff|exact W|]. destruct k as [|c k]; [discriminate|]. apply head_not. inversion E2 as [|? ? Fc _]. unfold css_char, letter, digit in Fc. unfold css_white, css_newline. lia. }
  assert (Hs : skipn (length w) r = k ++ rest) by (unfold r; rewrite <- app_assoc; apply skipn_app_exact).
  assert (Hm : match_ident_sequence (k ++ rest) = Ok (length k)).
  { pose proof (name_match hl_name (fopt_joined k hl_name) rest (name_last _ k rest E2 R)) as X. rewrite fopt_joined_text in X. exact X. }
  change (css_switch 33 (33%N :: r) l) with
    (let white := html_match_whitespace r in
     let! s := substr_from (33%N :: r) (1 + white) in
     let! n := lift (match_ident_sequence s) in
     if negb (n =? 0) && starts_with_ignore_case (firstn n s) (bs "important")
     then emit_and_advance (1 + white + 9) hl_keyword else advance 1 : M css_loc unit). cbv zeta. rewrite Hw.
  apply fdoes_substr; [cbn [length Nat.add]; unfold r; rewrite !app_length; lia|]. cbn [Nat.add skipn]. rewrite Hs. eapply fdoes_lift; [exact Hm|]. rewrite firstn_app, Nat.sub_diag, firstn_all. cbn [firstn]. rewrite app_nil_r.
  unfold starts_with_ignore_case. rewrite E1, E3. cbn [Nat.eqb negb andb]. change (9 <? length (bs "important")) with false. cbv iota. apply fdoes_emit; [rewrite !app_length; cbn; lia|discriminate].
Qed.
Lemma lexeme_tok r p rest r' : css_lexeme r p rest r' -> tok (loc_of r) p rest (loc_of r').
Proof.
  intros H. destruct H as [r w rest N F R|r q p rest Q S|r p rest P N|p rest D N|p rest P N|p rest P N|rest R|rest|c rest C|r d p rest Hr D U|r c rest Hr C|r c rest Hr C R|r rest R|r rest|r rest|r rest|r rest Hr|rest|r rest|r c rest C|r c rest C|p rest P N|w k rest W K R|r rest Hr|r rest Hr|r c rest C].
  - apply tok_white; assumption.
  - apply (tok_string _ q); assumption.
  - destruct r; apply tok_name; assumption.
  - apply tok_dash; assumption.
  - apply tok_hash; [reflexivity|assumption|assumption].
  - apply tok_hash; [reflexivity|assumption|assumption].
  - apply (tok_plain _ _ rest 46%N []); [reflexivity|discriminate|]. assert (E : css_starts_with_number (46%N :: rest) = false).
    { unfold css_starts_with_number. cbn -[is_ascii_digit]. destruct rest as [|d t]; [reflexivity|]. specialize (R d eq_refl). rewrite (false_of _ _ (L_Lexemes.digit_iff d) R). reflexivity. }
    change (css_switch 46 (46%N :: [] ++ rest) (loc_of at_selector)) with (if css_starts_with_number (46%N :: rest) then css_consume_numeric_token else emit_and_advance_c true 1 selector_highlight_type). rewrite E. apply fdoes_emit_c; [reflexivity|discriminate].
  - one_symbol.
  - change (bs ">~*") with [62; 126; 42]%N in C. destruct C as [<-|[<-|[<-|[]]]]; one_symbol.
  - apply tok_number; assumption.
  - change (bs ">~*") with [62; 126; 42]%N in C. destruct C as [<-|[<-|[<-|[]]]]; (destruct r; [congruence| | |]); one_symbol.
  - change (bs "+-") with [43; 45]%N in C.
    assert (E : css_starts_with_number (c :: rest) = false /\ starts_with (c :: rest) (bs "-->") = false /\ starts_with_ident_sequence rest = false).
    { destruct rest as [|d t].
      - destruct C as [<-|[<-|[]]]; repeat split.
      - specialize (R d eq_refl). unfold css_word, css_more, css_char in R. destruct (no_number_dash d t) as [E1 E2]; [tauto|tauto|]. split; [destruct C as [<-|[<-|[]]]; assumption|]. split.
        + change (bs "-->") with [45; 45; 62]%N. cbn [starts_with]. assert (X : (d =? 45)%N = false) by (apply N.eqb_neq; tauto). rewrite X. apply andb_false_r.
        + cbn [starts_with_ident_sequence]. change (ch "-") with 45%N. assert (X : (d =? 45)%N = false) by (apply N.eqb_neq; tauto). rewrite X, no_escape, (false_of _ _ (start_iff d)) by (unfold css_start; tauto). reflexivity. }
    destruct E as (E1 & E2 & E3). apply tok_symbol; [destruct C as [<-|[<-|[]]]; discriminate|]. set (l := loc_of r).
    assert (E : css_switch c (c :: rest) l = emit_and_advance 1 hl_symbol_op).
    { transitivity (if css_starts_with_number (c :: rest) then css_consume_numeric_token
       else if (c =? ch "-")%N && starts_with (c :: rest) (bs "-->") then emit_and_advance 3 hl_comment_delim
       else if (c =? ch "-")%N && starts_with_ident_sequence rest then css_consume_ident_like_token hl_name
       else emit_and_advance 1 (match cx l with cx_value | cx_at_prelude => hl_symbol_op | _ => hl_error end)).
      - destruct C as [<-|[<-|[]]]; reflexivity.
      - rewrite E1, E2, E3, !andb_false_r. destruct Hr as [->| ->]; reflexivity. }
    rewrite E. apply fdoes_emit; [reflexivity|discriminate].
  - apply (tok_plain _ _ rest 60%N []); [reflexivity|discriminate|]. assert (E : starts_with (60%N :: rest) (bs "<!--") = false).
    { change (bs "<!--") with [60; 33; 45; 45]%N. cbn [starts_with]. rewrite N.eqb_refl. cbn [andb]. destruct rest as [|d t]; [reflexivity|]. specialize (R d eq_refl). cbn beta in R. apply N.eqb_neq in R. rewrite R. reflexivity. }
    change (css_switch 60 (60%N :: [] ++ rest) (loc_of r)) with (if starts_with (60%N :: rest) (bs "<!--") then emit_and_advance 4 hl_comment_delim else emit_and_advance 1 hl_symbol_op : M css_loc unit). rewrite E. apply fdoes_emit; [reflexivity|discriminate].
  - apply (tok_plain _ _ rest 60%N [33; 45; 45]%N); [reflexivity|discriminate|]. apply fdoes_emit; [reflexivity|discriminate].
  - apply (tok_plain _ _ rest 45%N [45; 62]%N); [reflexivity|discriminate|]. apply fdoes_emit; [reflexivity|discriminate].
  - one_symbol.
  - destruct Hr as [->| ->]; one_symbol.
  - one_symbol.
  - destruct r; one_symbol.
  - change (bs "()") with [40; 41]%N in C. destruct C as [<-|[<-|[]]]; one_symbol.
  - change (bs "[]") with [91; 93]%N in C. destruct C as [<-|[<-|[]]]; one_symbol.
  - apply (tok_plain _ _ rest 64%N (ftext p)); [reflexivity|discriminate|].
    change (css_switch 64 (64%N :: ftext p ++ rest) (loc_of at_selector)) with
      (set_context cx_at_prelude ;; if starts_with_ident_sequence (ftext p ++ rest) then emit_and_advance 1 hl_name_macro_delim ;; css_consume_ident_like_token hl_name_macro else emit_and_advance 1 hl_error).
    rewrite (starts_ident _ _ _ N P). eapply fdoes_nil; [apply fdoes_set_context|]. eapply fdoes_cons; [apply fdoes_emit; [reflexivity|discriminate]|]. apply ident_like; [|rewrite like_not_name by discriminate; exact N].
    destruct P as [(c & t & T & _)|(c & t & T & _)]; rewrite T; discriminate.
  - apply tok_important; assumption.
  - destruct Hr as [->| ->]; one_symbol.
  - destruct Hr as [->| ->]; one_symbol.
  - apply tok_other. assumption.
Qed.
Lemma code_rounds r l : css_code r l -> rounds (loc_of r) l.
Proof.
  induction 1 as [r|r p l Hp _ IH|r p r' l Hp _ IH].
  - apply rounds_end. constructor.
  - apply rounds_note; assumption.
  - eapply rounds_tok; [apply lexeme_tok; exact Hp|exact IH].
Qed.

(** ** C173 *)
Theorem C173_css_lexemes : forall l, css_sheet l -> ftokenizes highlight_css l.
Proof. intros l H. apply rounds_exact. exact (code_rounds at_selector l H). Qed.
Print Assumptions C173_css_lexemes.

(** ** A style sheet *)
Lemma class_by (f : N -> bool) (P : N -> Prop) w : (forall c, f c = true <-> P c) -> forallb f w = true -> Forall P w.
Proof. intros F H. rewrite forallb_forall in H. apply Forall_forall. intros c Hc. apply F, H, Hc. Qed.
Lemma chars_by w : forallb is_css_identifier w = true -> Forall css_char w.
Proof. apply class_by, char_iff. Qed.
Lemma white_by w : forallb is_css_whitespace w = true -> Forall css_white w.
Proof. apply class_by, white_iff. Qed.
Definition more_b (c : N) : bool := is_css_identifier c || (c =? 92)%N || (128 <=? c)%N.
Lemma stop_by rest : negb (unit_is more_b rest 0) = true -> not_before css_more rest.
Proof.
  intros H c Hc M. destruct rest as [|d t]; [discriminate|]. injection Hc as <-. apply negb_true_iff in H. unfold unit_is in H. cbn [nth_error] in H. unfold more_b in H. apply orb_false_iff in H as [H H3]. apply orb_false_iff in H as [H1 H2].
  apply N.eqb_neq in H2. apply N.leb_gt in H3. destruct M as [M|[M|M]]; [apply char_iff in M; congruence|congruence|lia].
Qed.
Lemma plain_by p : unit_is is_css_identifier_start (ftext p) 0 = true -> css_plain p.
Proof. intros H. unfold unit_is in H. unfold css_plain. destruct (ftext p) as [|c t]; [discriminate|]. exists c, t. split; [reflexivity|]. left. apply start_iff. exact H. Qed.
Lemma word_by h w rest : w <> [] -> forallb is_css_identifier w = true -> negb (unit_is more_b rest 0) = true -> css_name h [joined w h] rest.
Proof. intros N F R. destruct w as [|c w]; [congruence|]. apply (name_last h (c :: w) rest (chars_by _ F) (stop_by _ R)). Qed.
Ltac css_word := apply word_by; [discriminate|reflexivity|reflexivity].
Ltac css_head := apply plain_by; reflexivity.
Ltac css_class := apply white_by; reflexivity.
Ltac css_stop := let c := fresh in let H := fresh in intros c H; cbn in H; first [discriminate H | injection H as <-; unfold css_more, css_char, css_start, letter, digit, css_white, css_newline; lia].
Definition C173_sheet : list fpiece :=
  [alone (bs "@") hl_name_macro_delim; joined (bs "import") hl_name_macro; bare (bs " "); alone (bs """x""") hl_string; alone (bs ";") hl_symbol_punc;
   alone (bs "/*") hl_comment_delim; alone (bs "c") hl_comment; alone (bs "*/") hl_comment_delim;
   joined (bs "a") hl_markup_tag; joined (bs ".") hl_markup_tag; joined (bs "b") hl_markup_tag; joined (bs ">") hl_markup_tag; alone (bs "#") hl_markup_tag; joined (bs "c") hl_markup_tag;
   joined (bs ":") hl_markup_tag; joined (bs "hover") hl_markup_tag; alone (bs "{") hl_symbol_brace; joined (bs "margin") hl_markup_attr; alone (bs ":") hl_symbol_punc;
   alone (bs "-1.5") hl_number; joined (bs "em") hl_number_decor; bare (bs " "); joined (bs "var") hl_name_function; alone (bs "(") hl_symbol_parens; joined (bs "--x") hl_name; alone (bs ")") hl_symbol_parens;
   alone (bs "!important") hl_keyword; alone (bs "}") hl_symbol_brace].
Example C173_case : css_sheet C173_sheet
  /\ ftext C173_sheet = bs "@import ""x"";/*c*/a.b>#c:hover{margin:-1.5em var(--x)!important}"
  /\ highlight_css (bs "@import ""x"";/*c*/a.b>#c:hover{margin:-1.5em var(--x)!important}") false = Ok (true, ftokens 0 C173_sheet).
Proof.
  split; [|split; vm_compute; reflexivity]. unfold css_sheet, C173_sheet.
  refine (css_next _ [_; _] at_prelude _ _ _); [apply lex_at; [left; css_head|css_word]|].
  refine (css_next _ [_] at_prelude _ _ _); [apply lex_white; [discriminate|css_class|css_stop]|].
  refine (css_next _ [_] at_prelude _ _ _).
  { apply (lex_string _ 34%N); [left; reflexivity|]. refine (string_close 34%N [34%N] (bs "x") _ _). apply Forall_cons; [|constructor]. repeat split; try discriminate. intros [H|[H|H]]; discriminate H. }
  refine (css_next _ [_] at_selector _ _ _); [apply lex_semicolon|].
  refine (css_note _ [_; _; _] _ _ _).
  { exists (bs "c"), true. split; [reflexivity|]. split; [|discriminate]. intros a b E. destruct a as [|? [|? a]]; discriminate E. }
  refine (css_next _ [_] at_selector _ _ _); [apply lex_name; [css_head|css_word]|].
  refine (css_next _ [_] at_selector _ _ _); [apply lex_class; css_stop|].
  refine (css_next _ [_] at_selector _ _ _); [apply lex_name; [css_head|css_word]|].
  refine (css_next _ [_] at_selector _ _ _); [apply (lex_combinator 62%N); left; reflexivity|].
  refine (css_next _ [_; _] at_selector _ _ _); [apply lex_id; [discriminate|css_word]|].
  refine (css_next _ [_] at_selector _ _ _); [apply lex_pseudo|].
  refine (css_next _ [_] at_selector _ _ _); [apply lex_name; [css_head|css_word]|].
  refine (css_next _ [_] at_property _ _ _); [apply lex_begin; left; reflexivity|].
  refine (css_next _ [_] at_property _ _ _); [apply lex_name; [css_head|css_word]|].
  refine (css_next _ [_] at_value _ _ _); [apply lex_property|].
  refine (css_next _ [_; _] at_value _ _ _).
  { apply lex_number; [right; reflexivity| |right; right; split; [css_word|left; css_head]].
    match goal with |- longest_prefix _ ?s _ => destruct (C68_css_number s) as [_ X] end. destruct (X eq_refl) as [_ Y]. exact Y. }
  refine (css_next _ [_] at_value _ _ _); [apply lex_white; [discriminate|css_class|css_stop]|].
  refine (css_next _ [_] at_value _ _ _); [apply lex_name; [css_head|css_word]|].
  refine (css_next _ [_] at_value _ _ _); [apply (lex_parens _ 40%N); left; reflexivity|].
  refine (css_next _ [_] at_value _ _ _).
  { apply lex_dash; [right|css_word]. exists (ch "x"), []. split; [reflexivity|]. apply start_iff. reflexivity. }
  refine (css_next _ [_] at_value _ _ _); [apply (lex_parens _ 41%N); right; left; reflexivity|].
  refine (css_next _ [_] at_value _ _ _); [apply (lex_important [] (bs "important")); [constructor|repeat (apply Forall2_cons; [left; reflexivity|]); apply Forall2_nil|css_stop]|].
  refine (css_next _ [_] at_selector _ _ _); [apply lex_end; right; reflexivity|].
  apply css_end.
Qed.
