(** * Properties of HTML highlighting (C39). *)
From Coq Require Import List NArith ZArith Bool Arith Lia.
From Verif Require Import M_Base L_Base S_Tokens M_Emit S_Ops L_Emit M_Types M_Chars S_Chars P_Chars M_Parse L_Parse
  M_Utf8 L_Any M_Api M_Highlighter S_Highlight L_Highlighter M_LangHtml S_LangHtml.
Import ListNotations.

(** ** Matchers *)
Lemma reference_le s : match_character_reference s <= length s.
Proof.
  unfold match_character_reference. destruct (starts_with_ch s (ch "&")); cbn [negb]; [|lia].
  destruct (find_ch s (ch ";") 1) as [r|] eqn:E; [|lia]. apply find_if_from_Some in E.
  destruct (is_character_reference_content _); lia.
Qed.

(** A character reference ends with a semicolon. *)
Lemma reference_semicolon s : match_character_reference s <> 0 ->
  2 <= match_character_reference s /\
  nth_error s (match_character_reference s - 1) = Some (ch ";").
Proof.
  unfold match_character_reference. destruct (starts_with_ch s (ch "&")); cbn [negb]; [|congruence].
  destruct (find_ch s (ch ";") 1) as [r|] eqn:E; [|congruence]. apply find_if_from_Some in E as (B & E & _).
  destruct (is_character_reference_content _); [|congruence]. intros _. split; [lia|].
  replace (r + 1 - 1) with r by lia. apply N.eqb_eq in E. rewrite <- E. apply nth_error_nth'. lia.
Qed.

Lemma ne_len {A} (l : list A) : l <> [] -> 0 < length l.
Proof. destruct l; cbn; [congruence|lia]. Qed.

Lemma comment_loop_ok : forall fuel s len, length s <= fuel ->
  exists e, html_comment_loop fuel s len = Ok e
    /\ (en_length e = 0 \/ len <= en_length e <= len + length s
        /\ (en_terminated e = true -> len + 3 <= en_length e)).
Proof.
  induction fuel as [|f IH]; intros s len Hf.
  - destruct s; [|cbn in Hf; lia]. eexists. split; [reflexivity|]. right. cbn. split; [lia|discriminate].
  - destruct s as [|c s]; [eexists; split; [reflexivity|]; right; cbn; split; [lia|discriminate]|].
    cbn [html_comment_loop]. set (t := c :: s) in *. assert (Ht : 0 < length t) by (subst t; cbn; lia).
    destruct (find_first_of t (bs "<-") 0) as [n|] eqn:E.
    2:{ eexists. split; [reflexivity|]. right. cbn [en_length en_terminated]. split; [lia|discriminate]. }
    apply find_if_from_Some in E as (B & _). rewrite remove_prefix_any by lia. cbn [bind].
    destruct (starts_with (skipn n t) (bs "-->")) eqn:E1.
    { apply starts_with_len in E1. rewrite skipn_length in E1. change (length (bs "-->")) with 3 in E1.
      eexists. split; [reflexivity|]. right. cbn [en_length en_terminated]. lia. }
    destruct (starts_with (skipn n t) (bs "<!--")) eqn:E2.
    { destruct (starts_with (skipn n t) (bs "<!-->")) eqn:E3.
      - apply starts_with_len in E3. rewrite skipn_length in E3. change (length (bs "<!-->")) with 5 in E3.
        eexists. split; [reflexivity|]. right. cbn [en_length en_terminated]. lia.
      - eexists. split; [reflexivity|]. left. reflexivity. }
    destruct (starts_with (skipn n t) (bs "--!>")) eqn:E3; [eexists; split; [reflexivity|]; left; reflexivity|].
    rewrite remove_prefix_any by (rewrite skipn_length; lia). cbn [bind].
    destruct (IH (skipn 1 (skipn n t)) (len + n + 1)) as (e & -> & G); [rewrite !skipn_length; lia|].
    rewrite !skipn_length in G. eexists. split; [reflexivity|].
    destruct G as [G|(G1 & G2)]; [left; exact G|right; split; [lia|intros T; specialize (G2 T); lia]].
Qed.

Lemma comment_ok s : exists e, html_match_comment s = Ok e
  /\ (en_length e = 0 \/ 4 <= en_length e <= length s /\ (en_terminated e = true -> 7 <= en_length e)).
Proof.
  unfold html_match_comment. destruct (starts_with s (bs "<!--")) eqn:E; cbn [negb].
  2:{ eexists. split; [reflexivity|]. left. reflexivity. }
  apply starts_with_len in E. change (length (bs "<!--")) with 4 in E. rewrite remove_prefix_any by lia. cbn [bind].
  destruct (_ || _). { eexists. split; [reflexivity|]. left. reflexivity. }
  destruct (comment_loop_ok (length (skipn 4 s)) (skipn 4 s) 4 (le_n _)) as (e & -> & G).
  rewrite skipn_length in G. eexists. split; [reflexivity|].
  destruct G as [G|(G1 & G2)]; [left; exact G|right; split; [lia|intros T; specialize (G2 T); lia]].
Qed.

Lemma doctype_le s : en_length (match_doctype_permissive s) <= length s.
Proof.
  unfold match_doctype_permissive. destruct (negb _); [cbn; lia|].
  destruct (find_ch s (ch ">") 9) as [r|] eqn:E; cbn; [|lia]. apply find_if_from_Some in E. lia.
Qed.

Lemma end_tag_ok s : exists l n, match_end_tag_permissive s = Ok (l, n)
  /\ (l = 0 \/ 0 < n /\ n + 3 <= l <= length s).
Proof.
  unfold match_end_tag_permissive. destruct (starts_with s (bs "</")) eqn:E; cbn [negb]; [|eauto 6].
  apply starts_with_len in E. change (length (bs "</")) with 2 in E. unfold ascii_find_checked.
  replace (2 <=? length s) with true by (symmetry; apply Nat.leb_le; lia). cbn [check bind].
  destruct (ascii_find _ _ _ _) as [e|] eqn:F; [|eauto 6]. apply find_if_from_Some in F as (B & F & _).
  destruct (Nat.eqb_spec (e - 2) 0) as [Z|Z]; [eauto 6|].
  destruct (nth_error s e) as [c|] eqn:N; [|apply nth_error_None in N; lia].
  destruct (N.eqb_spec c (ch ">")) as [->|Hc].
  - eexists _, _. split; [reflexivity|]. right. lia.
  - destruct (find_ch s (ch ">") e) as [p|] eqn:G; [|eauto 6]. apply find_if_from_Some in G as (B2 & G & _).
    eexists _, _. split; [reflexivity|]. right. enough (p <> e) by lia. intros ->. apply N.eqb_eq in G.
    apply nth_error_nth with (d := 0%N) in N. congruence.
Qed.

(** *** Raw text *)
Lemma html_space_iff c : is_html_whitespace c = true <-> html_space c.
Proof.
  unfold is_html_whitespace, html_space. rewrite !orb_true_iff, !N.eqb_eq. cbn [In].
  split; [intros H; decompose [or] H; subst; auto 7|intros H; decompose [or] H; subst; tauto].
Qed.

Lemma find_sub_starts s nd m : find_sub s nd = Some m -> starts_with (skipn m s) nd = true.
Proof.
  revert m. induction s as [|x s IH]; intros m H; cbn [find_sub] in H.
  - destruct nd; [|discriminate]. injection H as <-. reflexivity.
  - destruct (starts_with (x :: s) nd) eqn:E; [injection H as <-; exact E|].
    destruct (find_sub s nd) as [k|] eqn:F; [|discriminate]. cbn in H. injection H as <-. cbn. apply IH. reflexivity.
Qed.
Lemma skipn_suffix {A} k (l : list A) : exists p, l = p ++ skipn k l.
Proof. exists (firstn k l). symmetry. apply firstn_skipn. Qed.

Lemma good_skip s k : good_end s -> good_end (skipn k s).
Proof.
  intros [->|(p & c & -> & Hc & Hp)]; [left; apply skipn_nil|].
  destruct (Nat.leb_spec k (length p)) as [L|L].
  - right. exists (skipn k p), c. split.
    + rewrite skipn_app. f_equal. replace (k - length p) with 0 by lia. reflexivity.
    + split; [exact Hc|]. destruct Hp as [Hp|Hp]; [left; exact Hp|]. right.
      intros name Hn (q & m & E & Em). apply (Hp name Hn). exists (firstn k p ++ q), m. split; [|exact Em].
      rewrite <- app_assoc, <- E. symmetry. apply firstn_skipn.
  - left. apply skipn_all2. rewrite app_length. cbn. lia.
Qed.

Lemma raw_loop_ok closing : In closing [bs "script"; bs "style"] -> forall fuel s len, length s <= fuel -> good_end s ->
  exists n, match_raw_text_loop fuel s closing len = Ok n /\ n <= len + length s.
Proof.
  intros Hcl. induction fuel as [|f IH]; intros s len Hf Hg.
  - destruct s; [|cbn in Hf; lia]. exists len. split; [reflexivity|cbn; lia].
  - destruct s as [|c s]; [exists len; split; [reflexivity|cbn; lia]|].
    cbn [match_raw_text_loop]. set (t := c :: s) in *. assert (Ht : 0 < length t) by (subst t; cbn; lia). clearbody t.
    destruct (find_str t (bs "</") 0) as [n|] eqn:E; [|eexists; split; [reflexivity|lia]].
    assert (ES : starts_with (skipn n t) (bs "</") = true).
    { unfold find_str in E. cbn [Nat.ltb Nat.leb skipn] in E.
      destruct (find_sub t (bs "</")) as [m|] eqn:F; [|discriminate]. cbn in E. injection E as <-.
      apply find_sub_starts. exact F. }
    apply find_str_bound in E as (_ & B). change (length (bs "</")) with 2 in B.
    rewrite remove_prefix_any by lia. cbn [bind].
    rewrite remove_prefix_any by (rewrite skipn_length; lia). cbn [bind].
    rewrite skipn_skipn.
    destruct (starts_with_ignore_case (skipn (n + 2) t) closing) eqn:SC; cbn [negb].
    2:{ destruct (IH (skipn (n + 2) t) (len + n + 2)) as (k & -> & G).
        { rewrite skipn_length. lia. } { apply good_skip. exact Hg. }
        rewrite skipn_length in G. eexists. split; [reflexivity|]. lia. }
    apply starts_with_ignore_case_spec in SC as (a & b & Eab & Ea).
    assert (La : length a = length closing) by (apply (f_equal (@length _)) in Ea; rewrite !map_length in Ea; exact Ea).
    assert (L2 : length (skipn (n + 2) t) = length a + length b) by (rewrite Eab, app_length; reflexivity).
    rewrite skipn_length in L2. rewrite remove_prefix_any by (rewrite skipn_length; lia). cbn [bind].
    rewrite Eab, <- La, skipn_app_exact.
    destruct b as [|x b]; [eexists; split; [reflexivity|]; cbn in L2; lia|].
    destruct (_ || _ || _) eqn:T; [eexists; split; [reflexivity|]; lia|].
    destruct b as [|y b].
    + exfalso. pose proof (good_skip t n Hg) as Hs. pose proof ES as ES'. apply starts_with_app in ES' as [u Eu].
      assert (Ex : skipn n t = (bs "</" ++ a) ++ [x]).
      { rewrite Eu, <- app_assoc. f_equal. rewrite <- Eab. rewrite <- skipn_skipn, Eu. reflexivity. }
      destruct Hs as [Hs|(p & z & Ez & Hz & Hp)]; [rewrite Hs in Ex; discriminate|].
      rewrite Ex in Ez. apply app_inj_tail in Ez as [<- <-]. destruct Hp as [Hp|Hp].
      * apply orb_false_elim in T as [T T3]. apply orb_false_elim in T as [T1 T2]. apply N.eqb_neq in T2, T3.
        destruct Hp as [Hp|[Hp|Hp]]; [apply html_space_iff in Hp; congruence|congruence|congruence].
      * apply (Hp closing Hcl). exists [], a. split; [reflexivity|]. exact Ea.
    + rewrite remove_prefix_any by (cbn; lia). cbn [bind].
      destruct (IH (skipn 2 (x :: y :: b)) (len + n + 2)) as (k & -> & G).
      { cbn [skipn]. cbn [length] in L2. lia. }
      { replace (skipn 2 (x :: y :: b)) with (skipn (n + 2 + (length a + 2)) t); [apply good_skip; exact Hg|].
        rewrite <- skipn_skipn, Eab, <- skipn_skipn, skipn_app_exact. reflexivity. }
      cbn [skipn length] in *. eexists. split; [reflexivity|]. lia.
Qed.

(** Where raw text ends *)
Lemma longer_close_app name a s : longer_close name s -> longer_close name (a ++ s).
Proof. intros (p & m & x & r & -> & H). exists (a ++ p), m, x, r. rewrite <- app_assoc. auto. Qed.
Lemma raw_end closing : forall fuel s len n, match_raw_text_loop fuel s closing len = Ok n ->
  (len <= n /\ (n - len = length s \/ (exists b, skipn (n - len) s = bs "</" ++ b))) \/ longer_close closing s.
Proof.
  induction fuel as [|f IH]; intros s len n E.
  { destruct s; [|discriminate E]. injection E as <-. left. split; [lia|]. left. cbn. lia. }
  destruct s as [|c s]; [injection E as <-; left; split; [lia|]; left; cbn; lia|].
  cbn [match_raw_text_loop] in E. set (t := c :: s) in *. clearbody t.
  destruct (find_str t (bs "</") 0) as [k|] eqn:F; [|injection E as <-; left; split; [lia|]; left; lia].
  assert (ES : starts_with (skipn k t) (bs "</") = true).
  { unfold find_str in F. cbn [Nat.ltb Nat.leb skipn] in F.
    destruct (find_sub t (bs "</")) as [m|] eqn:G; [|discriminate]. cbn in F. injection F as <-.
    apply find_sub_starts. exact G. }
  apply find_str_bound in F as (_ & B). change (length (bs "</")) with 2 in B.
  rewrite remove_prefix_any in E by lia. cbn [bind] in E.
  rewrite remove_prefix_any in E by (rewrite skipn_length; lia). cbn [bind] in E. rewrite skipn_skipn in E.
  apply starts_with_app in ES as [u Eu].
  destruct (starts_with_ignore_case _ closing) eqn:SC; cbn [negb] in E.
  2:{ destruct (IH _ _ _ E) as [[X1 X2]|X].
      - left. split; [lia|]. rewrite skipn_length in X2. rewrite skipn_skipn in X2.
        replace (k + 2 + (n - (len + k + 2))) with (n - len) in X2 by lia. destruct X2 as [X2|X2]; [left; lia|right; exact X2].
      - right. rewrite <- (firstn_skipn (k + 2) t). apply longer_close_app. exact X. }
  apply starts_with_ignore_case_spec in SC as (m & v & Ev & Em).
  assert (Lm : length m = length closing) by (apply (f_equal (@length _)) in Em; rewrite !map_length in Em; exact Em).
  assert (Et : t = firstn k t ++ bs "</" ++ m ++ v).
  { rewrite <- Ev, <- skipn_skipn, Eu. change (skipn 2 (bs "</" ++ u)) with u. rewrite <- Eu. symmetry. apply firstn_skipn. }
  rewrite Ev, remove_prefix_any in E by (rewrite app_length; lia). rewrite <- Lm, skipn_app_exact in E. cbn [bind] in E.
  destruct v as [|x v].
  - injection E as <-. left. split; [lia|]. left. rewrite Et at 1. rewrite !app_length, firstn_length. cbn [length]. change (length (bs "</")) with 2. lia.
  - destruct (_ || _ || _) eqn:T.
    + injection E as <-. left. split; [lia|]. right. exists u. replace (len + k - len) with k by lia. exact Eu.
    + right. exists (firstn k t), m, x, v. split; [exact Et|]. split; [exact Em|].
      apply orb_false_elim in T as [T T3]. apply orb_false_elim in T as [T1 T2]. apply N.eqb_neq in T2, T3.
      intros [X|[X|X]]; [apply html_space_iff in X; congruence|congruence|congruence].
Qed.
Lemma raw_ok closing s : In closing [bs "script"; bs "style"] -> good_end s ->
  exists n, match_raw_text s closing = Ok n /\ n <= length s
    /\ (skipn n s = [] \/ (exists b, skipn n s = bs "</" ++ b) \/ longer_close closing (firstn n s ++ skipn n s)).
Proof.
  intros H1 H2. destruct (raw_loop_ok closing H1 (length s) s 0 (le_n _) H2) as (n & E & L). exists n. split; [exact E|]. split; [exact L|].
  rewrite firstn_skipn. destruct (raw_end _ _ _ _ _ E) as [[_ [X|X]]|X]; [|rewrite Nat.sub_0_r in X; auto|auto].
  left. apply skipn_all2. lia.
Qed.

Lemma escapable_loop_ok closing : forall fuel s len, length s <= fuel ->
  exists a b, match_escapable_loop fuel s closing len = Ok (a, b) /\ a + b <= len + length s.
Proof.
  induction fuel as [|f IH]; intros s len Hf.
  - destruct s; [|cbn in Hf; lia]. exists len, 0. split; [reflexivity|cbn; lia].
  - destruct s as [|c s]; [exists len, 0; split; [reflexivity|cbn; lia]|].
    cbn [match_escapable_loop]. set (t := c :: s) in *. assert (Ht : 0 < length t) by (subst t; cbn; lia). clearbody t.
    destruct (find_first_of t (bs "<&") 0) as [n|] eqn:E; [|eexists _, _; split; [reflexivity|lia]].
    apply find_if_from_Some in E as (B & _). rewrite remove_prefix_any by lia. cbn [bind].
    pose proof (reference_le (skipn n t)) as R. rewrite skipn_length in R.
    destruct (Nat.eqb_spec (match_character_reference (skipn n t)) 0) as [Z|Z]; cbn [negb];
      [|eexists _, _; split; [reflexivity|lia]].
    destruct (starts_with (skipn n t) (bs "</")) eqn:ES; cbn [negb].
    2:{ rewrite remove_prefix_any by (rewrite skipn_length; lia). cbn [bind].
        destruct (IH (skipn 1 (skipn n t)) (len + n + 1)) as (x & y & -> & G); [rewrite !skipn_length; lia|].
        rewrite !skipn_length in G. eexists _, _. split; [reflexivity|]. lia. }
    apply starts_with_len in ES. rewrite skipn_length in ES. change (length (bs "</")) with 2 in ES.
    rewrite remove_prefix_any by (rewrite skipn_length; lia). cbn [bind]. rewrite skipn_skipn.
    destruct (starts_with_ignore_case (skipn (n + 2) t) closing) eqn:SC; cbn [negb].
    2:{ destruct (IH (skipn (n + 2) t) (len + n + 2)) as (x & y & -> & G); [rewrite skipn_length; lia|].
        rewrite skipn_length in G. eexists _, _. split; [reflexivity|]. lia. }
    apply starts_with_ignore_case_spec in SC as (a & b & Eab & Ea).
    assert (La : length a = length closing) by (apply (f_equal (@length _)) in Ea; rewrite !map_length in Ea; exact Ea).
    assert (L2 : length (skipn (n + 2) t) = length a + length b) by (rewrite Eab, app_length; reflexivity).
    rewrite skipn_length in L2. rewrite remove_prefix_any by (rewrite skipn_length; lia). cbn [bind].
    rewrite Eab, <- La, skipn_app_exact.
    destruct b as [|x b]; [eexists _, _; split; [reflexivity|]; cbn in L2; lia|].
    destruct (_ || _ || _) eqn:T; [eexists _, _; split; [reflexivity|]; lia|].
    destruct (IH (x :: b) (len + n)) as (u & v & -> & G); [lia|].
    eexists _, _. split; [reflexivity|]. lia.
Qed.

(** ** The highlighter *)
Lemma starts_with_ch_cons s c : starts_with_ch s c = true -> exists r, s = c :: r.
Proof. destruct s; [discriminate|]. cbn. intros E. apply N.eqb_eq in E as ->. eauto. Qed.
Notation any := anything.

Section Proofs.
Variables (js css : highlighter) (strict : bool).

(** What is required of the remaining source. *)
Definition fine (s : str) : Prop :=
  good_end s /\ (forall piece, element_text (bs "script") piece s -> in_order js piece)
  /\ (forall piece, element_text (bs "style") piece s -> in_order css piece).
Lemma element_text_skip name piece s k : element_text name piece (skipn k s) -> element_text name piece s.
Proof.
  intros (x & n & y & b & E & H). exists (firstn k s ++ x), n, y, b. split; [|exact H].
  rewrite <- app_assoc, <- E. symmetry. apply firstn_skipn.
Qed.
Lemma fine_skip s k : fine s -> fine (skipn k s).
Proof.
  intros (H1 & H2 & H3). split; [apply good_skip; exact H1|].
  split; intros piece H; [apply H2|apply H3]; eapply element_text_skip; exact H.
Qed.
Lemma fine_steps k (st st' : hst unit) : fine (rem st) -> steps any k st st' -> fine (rem st').
Proof. intros H S. rewrite (steps_rem _ _ _ _ S). apply fine_skip. exact H. Qed.
(** A character reference is never at the very end. *)
Lemma fine_reference s : fine s -> match_character_reference s <> 0 -> match_character_reference s < length s.
Proof.
  intros [G _] H. destruct (reference_semicolon s H) as [H2 E]. pose proof (reference_le s) as L.
  destruct (Nat.eq_dec (match_character_reference s) (length s)) as [X|X]; [|lia]. exfalso.
  rewrite X in E. destruct G as [->|(p & c & -> & Hc & _)]; [rewrite X in H2; cbn in H2; lia|].
  rewrite app_length in E. cbn [length] in E. rewrite nth_error_app2 in E by lia.
  replace (length p + 1 - 1 - length p) with 0 in E by lia. cbn [nth_error] in E. congruence.
Qed.

Definition fsafe (m : M unit bool) : Prop :=
  forall st, fine (rem st) -> wp m (attempt any st) st.

Lemma h_whitespace : safe any html_expect_whitespace.
Proof.
  intros st. begin_steps any st. unfold html_expect_whitespace. hl1. hl1. cbv zeta.
  pose proof (length_if_le (rem st) is_html_whitespace). unfold html_match_whitespace. hl; done_steps.
Qed.

Lemma h_doctype : tries any html_expect_doctype.
Proof.
  intros st. begin_steps any st. unfold html_expect_doctype. hl1. hl1. cbv zeta.
  pose proof (doctype_le (rem st)). hl; done_try.
Qed.

Lemma h_cdata : tries any html_expect_cdata.
Proof.
  intros st. begin_steps any st. unfold html_expect_cdata, match_cdata. hl1. hl1. cbv zeta.
  pose proof (match_enclosed_le (rem st) (bs "<![CDATA[") (bs "]]>")) as L1.
  pose proof (match_enclosed_prefix (rem st) (bs "<![CDATA[") (bs "]]>")) as L2.
  pose proof (match_enclosed_terminated (rem st) (bs "<![CDATA[") (bs "]]>")) as L3.
  set (e := match_enclosed _ _ _) in *. change (length (bs "<![CDATA[")) with 9 in *. change (length (bs "]]>")) with 3 in *.
  hl1; [hl; done_try|]. bool_hyps. hl1. hl1. hl1. eapply (ahead_emit any); [apply ahead_refl|lia|lia|lia|]. intros st1 A1.
  hl1. hl1.
  - specialize (L3 H1). eapply ahead_emit.
    + eapply ahead_skip with (q := en_length e - 3); [exact A1|lia|lia|apply Forall_anything].
    + lia. + lia. + lia.
    + intros st2 A2. hl1. eapply ahead_advance; [exact A2|lia|]. intros st3 S3 _. hl1. done_try.
  - hl1. eapply ahead_advance.
    + eapply ahead_skip with (q := en_length e); [exact A1|lia|lia|apply Forall_anything].
    + reflexivity.
    + intros st3 S3 _. hl1. done_try.
Qed.

Lemma h_comment : tries any html_expect_comment.
Proof.
  intros st. begin_steps any st. unfold html_expect_comment. hl1. hl1. hl1.
  destruct (comment_ok (rem st)) as (e & E & B). eapply wp_lift; [exact E|]. hl1.
  - hl. done_try.
  - bool_hyps. destruct B as [B|(B1 & B2)]; [lia|]. hl1. hl1. cbv zeta. hl1. hl1.
    + specialize (B2 H3). hl; done_try.
    + hl; done_try.
Qed.

Lemma h_flush piece (Q : unit -> hst unit -> Prop) st : piece <= length (rem st) ->
  (forall st', steps any piece st st' -> Q tt st') -> wp (html_flush piece) Q st.
Proof.
  intros L H. begin_steps any st. unfold html_flush. hl1; bool_hyps.
  - hl1. apply H. assumption.
  - apply H. subst piece. assumption.
Qed.

Lemma h_unquoted st : fine (rem st) ->
  wp html_expect_unquoted (fun b st' => b = true /\ exists k, steps any k st st') st.
Proof.
  intros F. unfold html_expect_unquoted.
  apply wp_hloop with (Inv := fun a st1 => a <= length (rem st1) /\ exists k, steps any k st st1)
    (mu := fun a st1 => length (rem st1) - a).
  - split; [lia|]. exists 0. apply steps_refl.
  - lia.
  - intros a st1 (La & k & H). pose proof (fine_steps _ _ _ F H) as F1. unfold html_unquoted_body. hl1. hl1. hl1; bool_hyps.
    { hl1. apply h_flush; [lia|]. intros st2 HS2. fuse. hl. split; [reflexivity|done_steps]. }
    hl1. hl1. hl1.
    { hl1. apply h_flush; [lia|]. intros st2 HS2. fuse. hl. split; [reflexivity|done_steps]. }
    hl1. hl1. cbv zeta. pose proof (fine_reference _ (fine_skip _ a F1)) as R. rewrite skipn_length in R.
    hl1; bool_hyps; [|hl; split; [split; [lia|done_steps]|lia]].
    specialize (R ltac:(assumption)). hl1. apply h_flush; [lia|]. intros st2 HS2. fuse. hl. split; [split; [hlia|done_steps]|hlia].
Qed.

Lemma h_quoted quote st : fine (rem st) -> wp (html_expect_quoted quote) (fun _ st' => exists k, steps any k st st') st.
Proof.
  intros F. unfold html_expect_quoted. hl1. hl1. hl1; [hl; exists 0; apply steps_refl|]. bool_hyps.
  apply wp_hloop with (Inv := fun a st1 => a <= length (rem st1) /\ exists k, steps any k st st1)
    (mu := fun a st1 => length (rem st1) - a).
  - split; [hlia|]. exists 0. apply steps_refl.
  - lia.
  - intros a st1 (La & k & HK). pose proof (fine_steps _ _ _ F HK) as F1. unfold html_quoted_body. hl1. hl1. hl1; bool_hyps.
    { hl1. apply h_flush; [lia|]. intros st2 HS2. fuse. hl. done_steps. }
    hl1. hl1. hl1.
    { hl1. apply h_flush; [lia|]. intros st2 HS2. fuse. hl. done_steps. }
    hl1. hl1. cbv zeta. pose proof (fine_reference _ (fine_skip _ a F1)) as R. rewrite skipn_length in R.
    hl1; bool_hyps; [|hl; split; [split; [lia|done_steps]|lia]].
    specialize (R ltac:(assumption)). hl1. apply h_flush; [lia|]. intros st2 HS2. fuse. hl. split; [split; [hlia|done_steps]|hlia].
Qed.

(** A step with a known function, keeping [fine]. *)
Lemma wp_fine {A} (m : M unit A) (Q : A -> hst unit -> Prop) st :
  fine (rem st) -> (fine (rem st) -> wp m (fun _ st' => exists k, steps any k st st') st) ->
  (forall a k st', steps any k st st' -> fine (rem st') -> Q a st') -> wp m Q st.
Proof.
  intros F H HQ. eapply wp_mono; [apply H; exact F|]. cbn. intros a st' (k & S). apply (HQ a k); [exact S|].
  eapply fine_steps; eassumption.
Qed.

Lemma h_attribute : fsafe html_expect_attribute.
Proof.
  intros st F. begin_steps any st. unfold html_expect_attribute. hl1. hl1. hl1.
  destruct (utf8_length_if_any (rem st) is_html_attribute_name_character) as (n & E & L).
  eapply wp_lift; [exact E|]. hl1; [hl; done_try|]. bool_hyps. hl1. hl1.
  match goal with X : steps any _ st ?s |- _ => pose proof (fine_steps _ _ _ F X) as F1 end.
  hl1. eapply wp_fine; [exact F1|intros _; apply h_whitespace|]. intros [] k2 st2 HS2 F2. fuse.
  hl1. hl1. hl1; [hl; done_try|]. bool_hyps. hl1. hl1.
  match goal with X : steps any _ st ?s |- wp _ _ ?s => pose proof (fine_steps _ _ _ F X) as F3 end.
  hl1. eapply wp_fine; [exact F3|intros _; apply h_whitespace|]. intros [] k4 st4 HS4 F4. fuse.
  hl1. eapply wp_fine; [exact F4|apply h_quoted|]. intros b k5 st5 HS5 F5. fuse. hl1; [hl; done_try|].
  hl1. eapply wp_fine; [exact F5|apply h_quoted|]. intros b6 k6 st6 HS6 F6. fuse. hl1; [hl; done_try|].
  eapply wp_mono; [apply h_unquoted; exact F6|]. cbn beta. intros b7 st7 (-> & k7 & HS7). fuse. done_try.
Qed.

Lemma wp_nested_fine (h : highlighter) len st : len <= length (rem st) ->
  (len <> 0 -> in_order h (firstn len (rem st))) ->
  wp (html_consume_nested strict h len) (fun _ st' => exists k, steps any k st st') st.
Proof.
  intros L I. unfold html_consume_nested. hl1; [hl; exists 0; apply steps_refl|]. hl1. bool_hyps.
  destruct (I ltac:(assumption) strict) as (ops & E & O).
  eapply wp_nested_true with (P := any); [exact L|lia|apply Forall_anything|exact E|exact O|].
  intros st' S' _. hl. done_steps.
Qed.

Lemma end_of_tag (d : str) (st : hst unit) k (st1 : hst unit) : steps any k st st1 -> starts_with (rem st1) d = true -> In d [bs "/>"; bs ">"] ->
  exists y, firstn (k + length d) (rem st) = y ++ bs ">".
Proof.
  intros S H D. apply starts_with_app in H as [u H]. rewrite (steps_rem _ _ _ _ S) in H.
  assert (E : rem st = firstn k (rem st) ++ d ++ u) by (rewrite <- H; symmetry; apply firstn_skipn).
  assert (L : length (firstn k (rem st)) = k) by (apply steps_len in S; rewrite firstn_length; lia).
  clear H. set (p := firstn k (rem st)) in *. clearbody p. rewrite E, app_assoc. replace (k + length d) with (length (p ++ d)) by (rewrite app_length; lia).
  rewrite firstn_app_exact.
  destruct D as [<-|[<-|[]]]; [exists (p ++ bs "/"); rewrite <- app_assoc; reflexivity|eexists; reflexivity].
Qed.
Lemma h_tag_loop st : fine (rem st) -> wp (hloop 1 html_tag_body tt)
  (fun go st' => exists k, steps any k st st' /\ (go = true -> rem st' = [] \/ exists y, firstn k (rem st) = y ++ bs ">")) st.
Proof.
  intros F. apply wp_hloop with (Inv := fun _ st1 => exists k, steps any k st st1) (mu := fun _ st1 => length (rem st1)).
  - exists 0. apply steps_refl.
  - lia.
  - intros [] st1 (k & HK). pose proof (fine_steps _ _ _ F HK) as F1. unfold html_tag_body. hl1. hl1; [hl; exists k; auto|].
    hl1. eapply wp_fine; [exact F1|intros _; apply h_whitespace|]. intros [] k2 st2 HS2 F2. fuse.
    hl1. hl1. hl1; [|hl1].
    + assert (T : exists y, firstn (k + k2 + 2) (rem st) = y ++ bs ">").
      { eapply end_of_tag with (d := bs "/>"); [eassumption|assumption|cbn; auto]. }
      hl. eexists. split; [eassumption|]. intros _. right. exact T.
    + assert (T : exists y, firstn (k + k2 + 1) (rem st) = y ++ bs ">").
      { eapply end_of_tag with (d := bs ">"); [eassumption| |cbn; auto].
        match goal with X : starts_with_ch _ _ = true |- _ => apply starts_with_ch_cons in X as [z ->] end. reflexivity. }
      hl. eexists. split; [eassumption|]. intros _. right. exact T.
    + hl1. eapply wp_tries; [apply h_attribute; exact F2| |hl; eexists; split; [eassumption|discriminate]]. intros k3 st3 HS3 P3. fuse.
      hl. split; [done_steps|hlia].
Qed.

Lemma h_escapable_loop name : safe any (hloop 1 (html_escapable_body name) tt).
Proof.
  intros st. apply wp_hloop with (Inv := fun _ st1 => exists k, steps any k st st1) (mu := fun _ st1 => length (rem st1)).
  - exists 0. apply steps_refl.
  - lia.
  - intros [] st1 (k & HK). unfold html_escapable_body. hl1. hl1. hl1.
    destruct (escapable_loop_ok name (length (rem st1)) (rem st1) 0 (le_n _)) as (a & b & E & L).
    eapply wp_lift; [exact E|]. cbn [fst snd]. hl1; [hl; done_steps|].
    assert (0 < a + b).
    { match goal with X : (_ && _) = false |- _ => apply andb_false_iff in X as [X|X] end; bool_hyps; lia. }
    hl; (split; [done_steps|hlia]).
Qed.

Lemma tag_element (name : str) s1 s2 n k2 piece b : s1 = ch "<" :: s2 -> map lower (firstn n s2) = map lower name ->
  (exists y, firstn k2 (skipn n s2) = y ++ bs ">") -> skipn k2 (skipn n s2) = piece ++ b ->
  (b = [] \/ (exists b', b = bs "</" ++ b') \/ longer_close name (piece ++ b)) -> element_text name piece s1.
Proof.
  intros -> Hn (y & Hy) Hp Hb. exists [], (firstn n s2), y, b. split; [|split; assumption].
  cbn [app bs]. change (ch "<" :: s2 = ch "<" :: firstn n s2 ++ y ++ bs ">" ++ piece ++ b). f_equal.
  rewrite <- Hp. rewrite (app_assoc y), <- Hy, firstn_skipn. symmetry. apply firstn_skipn.
Qed.

Lemma h_start_tag st : fine (rem st) -> wp (html_expect_start_tag js css strict)
  (fun b st' => attempt any st b st' /\ (b = false -> starts_with_ch (rem st) (ch "<") = false)) st.
Proof.
  intros F. begin_steps any st. unfold html_expect_start_tag. hl1. hl1. hl1; [hl; bool_hyps; split; [done_try|auto]|]. bool_hyps.
  hl1. hl1. hl1. hl1. hl1.
  assert (Es : rem st = ch "<" :: rem st').
  { match goal with X : steps any _ st st' |- _ => rewrite (steps_rem _ _ _ _ X) end.
    match goal with X : starts_with_ch _ _ = true |- _ => apply starts_with_ch_cons in X as [z ->] end. reflexivity. }
  destruct (utf8_length_if_any (rem st') is_html_tag_name_character) as (n & E & L).
  eapply wp_lift; [exact E|]. hl1; [hl; (split; [done_try|discriminate])|]. bool_hyps. cbv zeta.
  hl1. eapply (wp_emit_adv any); [lia|]. intros st1 S1 _.
  assert (HS : exists k, steps any k st st1) by (eexists; eapply steps_trans; eassumption). destruct HS as [k1 HS1].
  pose proof (fine_steps _ _ _ F HS1) as F1. hl1.
  eapply wp_mono; [apply h_tag_loop; exact F1|]. cbn beta. intros go st2 (k2 & HS2 & Hgo).
  assert (HS3 : steps any (k1 + k2) st st2) by (eapply steps_trans; eassumption).
  pose proof (fine_steps _ _ _ F HS3) as F2. hl1; [hl; (split; [done_try|discriminate])|].
  hl1; [|hl1].
  - hl1. call h_escapable_loop. hl. (split; [done_try|discriminate]).
  - hl1. hl1. hl1. destruct (raw_ok (bs "script") (rem st2)) as (len & EL & LL & XL); [left; reflexivity|apply F2|].
    eapply wp_lift; [exact EL|]. hl1. eapply wp_fine; [exact F2|intros _; apply wp_nested_fine|]; [exact LL| |].
    { intros Z. destruct F as (_ & F & _). apply F. destruct (Hgo ltac:(destruct go; [reflexivity|discriminate])) as [X|X]; [rewrite X in LL; cbn in LL; lia|].
      eapply tag_element with (n := n) (k2 := k2); [exact Es|apply equals_ignore_case_spec; assumption| |
        rewrite <- (steps_rem _ _ _ _ S1), <- (steps_rem _ _ _ _ HS2); symmetry; apply firstn_skipn|exact XL].
      rewrite <- (steps_rem _ _ _ _ S1). exact X. }
    intros [] k3 st3 HS4 F3. fuse. hl. (split; [done_try|discriminate]).
  - hl1; [|hl; (split; [done_try|discriminate])].
    hl1. hl1. hl1. destruct (raw_ok (bs "style") (rem st2)) as (len & EL & LL & XL); [right; left; reflexivity|apply F2|].
    eapply wp_lift; [exact EL|]. hl1. eapply wp_fine; [exact F2|intros _; apply wp_nested_fine|]; [exact LL| |].
    { intros Z. destruct F as (_ & _ & F). apply F. destruct (Hgo ltac:(destruct go; [reflexivity|discriminate])) as [X|X]; [rewrite X in LL; cbn in LL; lia|].
      eapply tag_element with (n := n) (k2 := k2); [exact Es|apply equals_ignore_case_spec; assumption| |
        rewrite <- (steps_rem _ _ _ _ S1), <- (steps_rem _ _ _ _ HS2); symmetry; apply firstn_skipn|exact XL].
      rewrite <- (steps_rem _ _ _ _ S1). exact X. }
    intros [] k3 st3 HS4 F3. fuse. hl. (split; [done_try|discriminate]).
Qed.

Lemma h_end_tag : tries any html_expect_end_tag.
Proof.
  intros st. begin_steps any st. unfold html_expect_end_tag. hl1. hl1. hl1.
  destruct (end_tag_ok (rem st)) as (l & n & E & B). eapply wp_lift; [exact E|]. cbn [fst snd].
  hl1; [hl; done_try|]. bool_hyps. destruct B as [B|(B1 & B2)]; [lia|]. hl1. hl1. hl1. hl1. hl1.
  eapply (ahead_emit any); [apply ahead_refl|lia|lia|lia|]. intros st1 A1. hl1.
  eapply ahead_emit; [exact A1|lia|lia|lia|]. intros st2 A2. hl1.
  eapply ahead_emit.
  { eapply ahead_skip with (q := l - 1); [exact A2|lia|lia|apply Forall_anything]. }
  { lia. } { lia. } { lia. }
  intros st3 A3. hl1. eapply ahead_advance; [exact A3|lia|]. intros st4 S4 _. hl1. done_try.
Qed.

Lemma h_reference : tries any html_expect_reference.
Proof.
  intros st. begin_steps any st. unfold html_expect_reference. hl1. hl1. cbv zeta.
  pose proof (reference_le (rem st)) as L. hl1; [hl; done_try|]. bool_hyps. hl1. hl1. hl1.
  eapply (ahead_emit any); [apply ahead_refl|lia|lia|lia|]. intros st1 A1. hl1. eapply ahead_advance; [exact A1|lia|].
  intros st2 S2 _. hl1. done_try.
Qed.

(** Normal text: from a state that does not start with [<], something is consumed. *)
Lemma h_text st : starts_with_ch (rem st) (ch "<") = false -> rem st <> [] ->
  wp html_expect_normal_text (fun b st' => b = true /\ exists k, steps any k st st' /\ 0 < k) st.
Proof.
  intros H0 Hne. unfold html_expect_normal_text. hl1.
  apply wp_hloop with (Inv := fun _ st1 => exists k, steps any k st st1 /\ (0 < k \/ st1 = st)) (mu := fun _ st1 => length (rem st1)).
  - exists 0. split; [apply steps_refl|auto].
  - lia.
  - intros [] st1 (k & HK & Hk). unfold html_text_body. hl1. hl1.
    { hl. split; [reflexivity|]. exists k. split; [exact HK|]. destruct Hk as [Hk|Hk]; [exact Hk|subst; contradiction]. }
    hl1. hl1. destruct (find_first_of (rem st1) (bs "<&") 0) as [n|] eqn:E.
    + apply find_if_from_Some in E as (B & _). hl1. hl1. hl1.
      * hl. split; [reflexivity|]. eexists. split; [eassumption|]. destruct Hk as [Hk|Hk]; [lia|]. subst st1.
        destruct n; [|lia]. exfalso. destruct (rem st); [contradiction|]. cbn in *.
        match goal with X : Some _ = Some _ |- _ => injection X as -> end. congruence.
      * hl1. assert (L1 : 1 <= length (rem st1)) by lia. eapply wp_tries; [apply h_reference| |].
        { intros k2 st2 HS2 P2. fuse. hl. split; [|hlia]. eexists. split; [eassumption|lia]. }
        { hl. split; [|hlia]. eexists. split; [eassumption|lia]. }
    + hl. split; [reflexivity|]. eexists. split; [eassumption|hlia].
Qed.

Lemma h_body st : fine (rem st) -> rem st <> [] ->
  wp (html_body js css strict) (fun _ st' => exists k, steps any k st st' /\ 0 < k) st.
Proof.
  intros F Hne. unfold html_body.
  eapply wp_orelse; [apply h_comment|eauto|]. eapply wp_orelse; [apply h_doctype|eauto|].
  eapply wp_orelse; [apply h_cdata|eauto|]. eapply wp_orelse; [apply h_end_tag|eauto|].
  hl1. eapply wp_mono; [apply h_start_tag; exact F|]. cbn beta. intros [] st1 [A E]; cbn in A.
  - hl. exact A.
  - subst st1. specialize (E eq_refl). hl1. eapply wp_mono; [apply h_text; assumption|]. cbn beta.
    intros b st2 (-> & k & HK). hl. eauto.
Qed.

Lemma html_in_order src : fine src ->
  exists ops, highlight_html js css src strict = Ok (true, ops) /\ ops_in 0 (length src) ops.
Proof.
  intros F. apply (run_ok any). set (st := mk_hst src 0 [] tt).
  assert (Fst : fine (rem st)) by exact F. begin_steps any st. hl1. unfold html_expect_bom.
  assert (W : forall k st1, steps any k st st1 ->
    wp (let! _ := while_rem (html_body js css strict) in ret true) (fun b st' => b = true /\ exists k, steps any k st st') st1).
  { intros k st1 HK. hl1. eapply wp_mono with (P := fun _ st' => exists k, steps any k st st'); [|intros; hl; auto].
    unfold while_rem. apply wp_hloop with (Inv := fun _ st' => exists k, steps any k st st') (mu := fun _ st' => length (rem st')).
    - eauto.
    - lia.
    - intros [] st2 (k2 & HK2). hl1. hl1; [hl; done_steps|]. hl1.
      eapply wp_mono; [apply h_body; [eapply fine_steps; eassumption|assumption]|]. cbn beta.
      intros [] st3 (k3 & HS3 & P3). fuse. hl. split; [done_steps|hlia]. }
  hl1. hl1. hl1.
  - hl1. eapply W; eassumption.
  - eapply W. eassumption.
Qed.
End Proofs.

(** ** C39 *)
(** Failures: a character reference at the end of an attribute value at the end of the source,
    and an incomplete closing tag. *)
Theorem C39_html_refuted : forall js css strict,
  (exists f, highlight_html js css (bs "<a b=&lt;") strict = Fail f)
  /\ (exists f, highlight_html js css (bs "<script></scriptx") strict = Fail f).
Proof. intros js css strict. split; eexists; vm_compute; reflexivity. Qed.
Print Assumptions C39_html_refuted.

Theorem C39_html_partial : forall js css src, good_end src ->
  (forall piece, element_text (bs "script") piece src -> in_order js piece) ->
  (forall piece, element_text (bs "style") piece src -> in_order css piece) ->
  highlights (highlight_html js css) src.
Proof.
  intros js css src H1 H2 H3. apply highlights_from_ops. intros strict. apply html_in_order. repeat split; assumption.
Qed.
Print Assumptions C39_html_partial.

(** Concrete sources. *)
Example C39_case : good_end (bs "<p id=x&lt;y>a</p><script>1</script>")
  /\ (forall s, in_order (fun _ _ => Ok (true, [])) s)
  /\ exists ops, highlight_html (fun _ _ => Ok (true, [])) (fun _ _ => Ok (true, []))
       (bs "<p id=x&lt;y>a</p><script>1</script>") false = Ok (true, ops) /\ length ops = 18.
Proof.
  split.
  { right. eexists (bs "<p id=x&lt;y>a</p><script>1</script"), _. split; [reflexivity|]. split; [discriminate|].
    left. right. left. reflexivity. }
  split.
  { intros s strict. exists []. split; [reflexivity|]. constructor. lia. }
  eexists. split; [vm_compute; reflexivity|]. vm_compute. reflexivity.
Qed.
