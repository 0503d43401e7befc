(** * HTML character references and comments are recognised exactly (C59, C60). *)
From Coq Require Import List NArith ZArith Bool Arith Lia.
From Verif Require Import M_Base L_Base M_Chars S_Parse M_Parse L_Parse M_Utf8 L_Any M_LangHtml S_LangHtml.
Import ListNotations.

(** ** C59 *)
Lemma digit_iff c : is_ascii_digit c = true <-> (48 <= c <= 57)%N.
Proof. unfold is_ascii_digit, between. rewrite andb_true_iff, !N.leb_le. tauto. Qed.
Lemma alnum_iff c : is_ascii_alphanumeric c = true <->
  (48 <= c <= 57 \/ 65 <= c <= 90 \/ 97 <= c <= 122)%N.
Proof.
  unfold is_ascii_alphanumeric, is_ascii_alpha, is_ascii_lower_alpha, is_ascii_upper_alpha, is_ascii_digit, between.
  rewrite !orb_true_iff, !andb_true_iff, !N.leb_le. tauto.
Qed.
Lemma forallb_iff (p : N -> bool) (P : N -> Prop) l : (forall c, p c = true <-> P c) ->
  forallb p l = true <-> Forall P l.
Proof.
  intros H. rewrite forallb_forall, Forall_forall. split; intros G x Hx; apply H, G, Hx.
Qed.
Lemma ltb_len (d : str) k : (k <? length d + k) = true <-> d <> [].
Proof. rewrite Nat.ltb_lt. destruct d; cbn; split; try congruence; lia. Qed.

Lemma body_iff b : is_character_reference_content b = true <-> reference_body b.
Proof.
  unfold is_character_reference_content.
  destruct (starts_with b (bs "#x")) eqn:E1.
  { apply starts_with_app in E1 as [d ->]. change (skipn 2 (bs "#x" ++ d)) with d.
    rewrite app_length. change (length (bs "#x")) with 2. rewrite Nat.add_comm.
    rewrite andb_true_iff, ltb_len, (forallb_iff _ _ d hex_iff). split.
    - intros [H1 H2]. constructor; assumption.
    - intros H. inversion H as [d' H1 H2 E|d' H1 H2 E|d' H1 H2 E].
      + subst. auto.
      + exfalso. subst d'. inversion H2 as [|x l A B]; subst. cbn in A. lia.
      + exfalso. subst d'. change (bs "#x" ++ d) with (35 :: 120 :: d)%N in H2. inversion H2; subst. lia. }
  destruct (starts_with_ch b (ch "#")) eqn:E2.
  { destruct b as [|c d]; [discriminate|]. apply N.eqb_eq in E2. subst c.
    cbn [skipn]. change (length (ch "#" :: d)) with (1 + length d). rewrite Nat.add_comm.
    rewrite andb_true_iff, ltb_len, (forallb_iff _ _ d digit_iff). split.
    - intros [H1 H2]. apply (ref_dec d); assumption.
    - intros H. inversion H as [d' H1 H2 E|d' H1 H2 E|d' H1 H2 E].
      + exfalso. subst d. cbn in E1. discriminate.
      + subst d'. auto.
      + exfalso. subst d'. inversion H2 as [|x l A B]; subst. change (ch "#") with 35%N in A. lia. }
  rewrite andb_true_iff, (forallb_iff _ _ b alnum_iff). split.
  - intros [H1 H2]. constructor; [|assumption]. destruct b; [discriminate|discriminate].
  - intros H. inversion H as [d' H1 H2 E|d' H1 H2 E|d' H1 H2 E]; subst.
    + exfalso. cbn in E1. discriminate.
    + exfalso. cbn in E2. discriminate.
    + split; [destruct b; [congruence|reflexivity]|assumption].
Qed.

Lemma body_no_semicolon b : reference_body b -> ~ In 59%N b.
Proof.
  intros H I. destruct H as [d _ H|d _ H|d _ H]; try apply in_app_or in I; rewrite Forall_forall in H.
  - destruct I as [I|I]; [cbn in I; intuition discriminate|]. apply H in I. unfold hex in I. lia.
  - destruct I as [I|I]; [cbn in I; intuition discriminate|]. apply H in I. lia.
  - apply H in I. lia.
Qed.

Theorem C59_reference : forall s n, 0 < n ->
  match_character_reference s = n <->
  exists body rest, s = bs "&" ++ body ++ bs ";" ++ rest /\ reference_body body /\ n = length body + 2.
Proof.
  intros s n Hn. unfold match_character_reference. destruct (starts_with_ch s (ch "&")) eqn:E; cbn [negb].
  2:{ split; [lia|]. intros (b & r & -> & _). cbn in E. discriminate. }
  destruct s as [|c s]; [discriminate|]. apply N.eqb_eq in E. subst c.
  unfold find_ch, find_if_from. cbn [skipn].
  destruct (find_if (fun x => (x =? ch ";")%N) s) as [r|] eqn:F; cbn [option_map].
  - apply find_if_split in F as (a & c & b & -> & <- & Ec & Ha). apply N.eqb_eq in Ec. subst c.
    unfold substr. cbn [skipn]. replace (1 + length a - 1) with (length a) by lia. rewrite firstn_app_exact.
    destruct (is_character_reference_content a) eqn:C.
    + apply body_iff in C. split.
      * intros <-. exists a, b. split; [reflexivity|]. split; [exact C|lia].
      * intros (b' & r & E & Hb & ->). change (bs "&" ++ b' ++ bs ";" ++ r) with (ch "&" :: (b' ++ ch ";" :: r)) in E.
        injection E as E. enough (a = b') by (subst; lia). clear -E C Hb.
        apply body_no_semicolon in C, Hb. revert b' Hb E. induction a as [|x a IH]; intros [|y b'] Hb E; cbn in *.
        -- reflexivity.
        -- exfalso. injection E as E1 E2. apply Hb. left. symmetry. exact E1.
        -- exfalso. injection E as E1 E2. apply C. left. exact E1.
        -- injection E as -> E. f_equal. apply IH; [tauto|tauto|exact E].
    + split; [lia|]. intros (b' & r & E & Hb & ->). exfalso.
      change (bs "&" ++ b' ++ bs ";" ++ r) with (ch "&" :: (b' ++ ch ";" :: r)) in E. injection E as E.
      enough (a = b') by (subst; apply body_iff in Hb; congruence).
      assert (C' : ~ In 59%N a). { intros I. apply Ha in I. discriminate. }
      apply body_no_semicolon in Hb. clear -E C' Hb.
      revert b' Hb E. induction a as [|x a IH]; intros [|y b'] Hb E; cbn in *.
      -- reflexivity.
      -- exfalso. injection E as E1 E2. apply Hb. left. symmetry. exact E1.
      -- exfalso. injection E as E1 E2. apply C'. left. exact E1.
      -- injection E as -> E. f_equal. apply IH; [tauto|tauto|exact E].
  - split; [lia|]. intros (b' & r & E & Hb & ->). exfalso.
    change (bs "&" ++ b' ++ bs ";" ++ r) with (ch "&" :: (b' ++ ch ";" :: r)) in E. injection E as ->.
    assert (X : (ch ";" =? ch ";")%N = false).
    { apply (find_if_None _ _ F). apply in_or_app. right. left. reflexivity. }
    discriminate.
Qed.
Print Assumptions C59_reference.

Example C59_case : reference_body (bs "#x1F") /\ match_character_reference (bs "&#x1F;z") = 6
  /\ match_character_reference (bs "&#;z") = 0.
Proof.
  split; [|split; reflexivity]. apply (ref_hex (bs "1F")); [discriminate|].
  repeat constructor; unfold hex; cbn; lia.
Qed.

(** ** C60 *)
Definition okt (t : str) : Prop :=
  ~ contains t (bs "<!--") /\ ~ contains t (bs "-->") /\ ~ contains t (bs "--!>")
  /\ ~ exists a, t = a ++ bs "<!-".

Lemma contains_cons c t p : contains (c :: t) p <-> starts_with (c :: t) p = true \/ contains t p.
Proof.
  rewrite starts_with_app. split.
  - intros ([|x a] & b & E); [left; eauto|]. injection E as -> ->. right. exists a, b. reflexivity.
  - intros [[r E]|(a & b & ->)]; [exists [], r; exact E|exists (c :: a), b; reflexivity].
Qed.
Lemma starts_with_prefix t r p : starts_with t p = true -> starts_with (t ++ r) p = true.
Proof. rewrite !starts_with_app. intros [x ->]. exists (x ++ r). now rewrite app_assoc. Qed.

(** Prepending one character that starts none of the forbidden strings. *)
Lemma okt_cons c t : starts_with (c :: t) (bs "<!--") = false -> starts_with (c :: t) (bs "-->") = false ->
  starts_with (c :: t) (bs "--!>") = false -> c :: t <> bs "<!-" -> okt (c :: t) <-> okt t.
Proof.
  intros H1 H2 H3 H4. unfold okt. rewrite !contains_cons, H1, H2, H3.
  assert (E : (exists a, c :: t = a ++ bs "<!-") <-> (exists a, t = a ++ bs "<!-")).
  { split.
    - intros ([|x a] & E); [elim (H4 E)|]. injection E as -> ->. eauto.
    - intros (a & ->). exists (c :: a). reflexivity. }
  rewrite E. intuition discriminate.
Qed.

Lemma okt_plain pre t : Forall (fun c => c <> 60 /\ c <> 45)%N pre -> okt (pre ++ t) <-> okt t.
Proof.
  induction 1 as [|c pre [H1 H2] _ IH]; [reflexivity|]. cbn [app]. rewrite okt_cons; [exact IH| | | |].
  - apply N.eqb_neq in H1. cbn. rewrite H1. reflexivity.
  - apply N.eqb_neq in H2. cbn. rewrite H2. reflexivity.
  - apply N.eqb_neq in H2. cbn. rewrite H2. reflexivity.
  - intros E. injection E as -> _. congruence.
Qed.

Definition splits (t : str) (m : nat) : Prop :=
  exists text rest, t = text ++ bs "-->" ++ rest /\ m = length text + 3 /\ okt text.

Lemma okt_nil : okt [].
Proof.
  unfold okt, contains. repeat split; intros H; destruct H as ([|? ?] & H); try destruct H as (? & H); discriminate.
Qed.

Lemma splits_plain pre t m : Forall (fun c => c <> 60 /\ c <> 45)%N pre ->
  splits (pre ++ t) m <-> length pre <= m /\ splits t (m - length pre).
Proof.
  intros H. split.
  - intros (text & rest & E & -> & Ho). revert text E Ho. induction H as [|c pre [H1 H2] Hp IH]; intros text E Ho.
    + split; [cbn; lia|]. exists text, rest. cbn [app] in E. split; [exact E|]. split; [cbn; lia|exact Ho].
    + cbn [app] in E. destruct text as [|x text]; [exfalso; cbn in E; injection E as E1 _; congruence|].
      injection E as <- E. destruct (IH text E) as [L SP].
      { apply (okt_plain [c] text); auto. }
      cbn [length] in *. split; [lia|]. replace (S (length text) + 3 - S (length pre)) with (length text + 3 - length pre) by lia.
      exact SP.
  - intros [L (text & rest & -> & Em & Ho)]. exists (pre ++ text), rest. rewrite <- app_assoc. split; [reflexivity|].
    rewrite app_length. split; [lia|]. apply okt_plain; assumption.
Qed.

Lemma splits_cons c t m : starts_with (c :: t) (bs "-->") = false -> starts_with (c :: t) (bs "<!--") = false ->
  starts_with (c :: t) (bs "--!>") = false -> splits (c :: t) m <-> 1 <= m /\ splits t (m - 1).
Proof.
  intros H1 H2 H3. split.
  - intros (text & rest & E & -> & Ho). destruct text as [|x text].
    { exfalso. assert (starts_with (c :: t) (bs "-->") = true) by (apply starts_with_app; exists rest; exact E). congruence. }
    rewrite <- app_comm_cons in E. injection E as <- ->. cbn [length]. split; [lia|].
    exists text, rest. split; [reflexivity|]. split; [lia|]. apply okt_cons in Ho; auto.
    + destruct (starts_with (c :: text) _) eqn:E; auto. apply (starts_with_prefix _ (bs "-->" ++ rest)) in E. elim (Bool.diff_true_false (eq_trans (eq_sym E) H2)).
    + destruct (starts_with (c :: text) _) eqn:E; auto. apply (starts_with_prefix _ (bs "-->" ++ rest)) in E. elim (Bool.diff_true_false (eq_trans (eq_sym E) H1)).
    + destruct (starts_with (c :: text) _) eqn:E; auto. apply (starts_with_prefix _ (bs "-->" ++ rest)) in E. elim (Bool.diff_true_false (eq_trans (eq_sym E) H3)).
    + intros E. injection E as -> ->. cbn in H2. discriminate.
  - intros [L (text & rest & -> & Em & Ho)]. exists (c :: text), rest. split; [reflexivity|]. split; [cbn; lia|].
    apply okt_cons; auto.
    + destruct (starts_with (c :: text) _) eqn:E; auto. apply (starts_with_prefix _ (bs "-->" ++ rest)) in E. elim (Bool.diff_true_false (eq_trans (eq_sym E) H2)).
    + destruct (starts_with (c :: text) _) eqn:E; auto. apply (starts_with_prefix _ (bs "-->" ++ rest)) in E. elim (Bool.diff_true_false (eq_trans (eq_sym E) H1)).
    + destruct (starts_with (c :: text) _) eqn:E; auto. apply (starts_with_prefix _ (bs "-->" ++ rest)) in E. elim (Bool.diff_true_false (eq_trans (eq_sym E) H3)).
    + intros E. injection E as -> ->. cbn in H2. discriminate.
Qed.

(** The three ways a comment can stop. *)
Ltac short E text :=
  destruct text as [|x1 [|x2 [|x3 [|x4 text]]]]; cbn in E; try discriminate E;
  try (injection E; intros; subst; try discriminate; try congruence).

Lemma splits_end r m : splits (bs "-->" ++ r) m <-> m = 3.
Proof.
  split.
  - intros (text & rest & E & -> & _ & Ho & _). destruct text as [|a [|b [|c text]]]; [reflexivity| | |].
    + exfalso. discriminate E.
    + exfalso. discriminate E.
    + exfalso. injection E as <- <- <- E. apply Ho. exists [], text. reflexivity.
  - intros ->. exists [], r. split; [reflexivity|]. split; [reflexivity|apply okt_nil].
Qed.

Lemma splits_open t m : starts_with t (bs "<!--") = true ->
  splits t m <-> m = 5 /\ starts_with t (bs "<!-->") = true.
Proof.
  intros H. apply starts_with_app in H as [r ->]. split.
  - intros (text & rest & E & -> & Ho1 & _ & _ & Ho4). destruct text as [|a [|b [|c [|d text]]]].
    + discriminate E.
    + discriminate E.
    + injection E as <- <- E. split; [reflexivity|]. rewrite E. reflexivity.
    + exfalso. injection E as <- <- <- E. apply Ho4. exists []. reflexivity.
    + exfalso. injection E as <- <- <- <- E. apply Ho1. exists [], text. reflexivity.
  - intros [-> H]. apply starts_with_app in H as [q E]. exists (bs "<!"), q. split; [exact E|]. split; [reflexivity|].
    unfold okt, contains. repeat split; intros (a & G); try destruct G as (b & G);
      destruct a as [|? [|? [|? a]]]; discriminate.
Qed.

Lemma splits_bang r m : ~ splits (bs "--!>" ++ r) m.
Proof.
  intros (text & rest & E & -> & _ & _ & Ho & _). destruct text as [|a [|b [|c [|d text]]]]; try discriminate E.
  injection E as <- <- <- <- E. apply Ho. exists [], text. reflexivity.
Qed.

Lemma comment_loop_spec : forall fuel s len, length s <= fuel ->
  exists e, html_comment_loop fuel s len = Ok e
    /\ forall n, (en_terminated e = true /\ en_length e = n) <-> len <= n /\ splits s (n - len).
Proof.
  assert (Nil : forall len n, (en_terminated (mk_enclosed len false) = true /\ en_length (mk_enclosed len false) = n)
    <-> len <= n /\ splits [] (n - len)).
  { intros len n. cbn. split; [intros [? _]; discriminate|]. intros (_ & [|? ?] & r & E & _); discriminate. }
  induction fuel as [|f IH]; intros s len Hf.
  - destruct s; [|cbn in Hf; lia]. eexists. split; [reflexivity|]. apply Nil.
  - destruct s as [|c s]; [eexists; split; [reflexivity|]; apply Nil|].
    cbn [html_comment_loop]. set (t := c :: s) in *. assert (Ht : 0 < length t) by (subst t; cbn; lia). clearbody t.
    unfold find_first_of, find_if_from. cbn [skipn].
    assert (Plain : forall a, (forall x, In x a -> mem x (bs "<-") = false) -> Forall (fun c => c <> 60 /\ c <> 45)%N a).
    { intros a Ha. apply Forall_forall. intros x Hx. specialize (Ha x Hx).
      split; intros ->; discriminate. }
    destruct (find_if (fun x => mem x (bs "<-")) t) as [k|] eqn:F; cbn [option_map].
    + apply find_if_split in F as (a & x & b & -> & <- & Ex & Ha). apply Plain in Ha. cbn [Nat.add].
      rewrite remove_prefix_any by (rewrite app_length; lia). rewrite skipn_app_exact. cbn [bind].
      assert (Sp : forall n, splits (a ++ x :: b) n <-> length a <= n /\ splits (x :: b) (n - length a))
        by (intros n; apply splits_plain; exact Ha).
      set (u := x :: b) in *. assert (Lu : 0 < length u) by (subst u; cbn; lia).
      destruct (starts_with u (bs "-->")) eqn:E1.
      { eexists. split; [reflexivity|]. intros n. rewrite Sp. cbn [en_length en_terminated].
        apply starts_with_app in E1 as [r ->]. rewrite splits_end. split; [intros [_ ?]|intros (? & ? & ?); split; [reflexivity|]]; lia. }
      destruct (starts_with u (bs "<!--")) eqn:E2.
      { destruct (starts_with u (bs "<!-->")) eqn:E3; (eexists; split; [reflexivity|]); intros n; rewrite Sp, splits_open by assumption;
          rewrite E3; cbn [en_length en_terminated].
        - split; [intros [_ ?]; repeat split; lia|intros (? & ? & ? & _); split; [reflexivity|]]; lia.
        - split; [intros [? _]|intros (? & ? & ? & ?)]; discriminate. }
      destruct (starts_with u (bs "--!>")) eqn:E3.
      { eexists. split; [reflexivity|]. intros n. rewrite Sp. cbn [en_length en_terminated].
        apply starts_with_app in E3 as [r ->]. split; [intros [? _]; discriminate|]. intros (_ & _ & G). apply splits_bang in G. contradiction. }
      rewrite remove_prefix_any by lia. cbn [bind]. unfold u at 1. cbn [skipn].
      destruct (IH b (len + length a + 1)) as (e & Ee & He).
      { rewrite app_length in Hf. subst u. cbn in Hf. lia. }
      rewrite Ee. eexists. split; [reflexivity|]. intros n. rewrite Sp.
      unfold u in *. rewrite splits_cons by assumption. split.
      * intros G. apply He in G as [G1 G2]. repeat split; try lia.
        replace (n - len - length a - 1) with (n - (len + length a + 1)) by lia. exact G2.
      * intros (L0 & L1 & L2 & G). apply He. split; [lia|].
        replace (n - (len + length a + 1)) with (n - len - length a - 1) by lia. exact G.
    + eexists. split; [reflexivity|]. intros n. cbn [en_length en_terminated].
      split; [intros [? _]; discriminate|]. intros (_ & text & rest & E & _). exfalso.
      assert (X : mem 45%N (bs "<-") = false).
      { apply (find_if_None _ _ F). rewrite E. apply in_or_app. right. left. reflexivity. }
      discriminate.
Qed.

Theorem C60_comment : forall s, exists e, html_match_comment s = Ok e /\
  forall n, (en_terminated e = true /\ en_length e = n) <->
    exists text rest, s = bs "<!--" ++ text ++ bs "-->" ++ rest /\ comment_text text /\ n = length text + 7.
Proof.
  intros s. unfold html_match_comment. destruct (starts_with s (bs "<!--")) eqn:E; cbn [negb].
  2:{ eexists. split; [reflexivity|]. intros n. split; [intros [H _]; discriminate|].
      intros (t & r & -> & _). exfalso. revert E. rewrite (proj2 (starts_with_app _ _)) by eauto. discriminate. }
  apply starts_with_app in E as [u ->]. change (bs "<!--" ++ u) with ([60; 33; 45; 45]%N ++ u).
  rewrite remove_prefix_any by (rewrite app_length; cbn; lia). change (skipn 4 ([60; 33; 45; 45]%N ++ u)) with u. cbn [bind].
  assert (Gen : forall e : enclosed, ~ (starts_with u (bs ">") = true \/ starts_with u (bs "->") = true) ->
    (forall n, (en_terminated e = true /\ en_length e = n) <-> 4 <= n /\ splits u (n - 4)) ->
    forall n, (en_terminated e = true /\ en_length e = n) <->
    exists text rest, [60; 33; 45; 45]%N ++ u = bs "<!--" ++ text ++ bs "-->" ++ rest /\ comment_text text /\ n = length text + 7).
  { intros e Hs H n. split.
    - intros G. apply H in G as (Hn & t & r & Eu & Em & Ho).
      exists t, r. split; [rewrite Eu; reflexivity|]. split; [|lia].
      unfold comment_text. rewrite Eu in Hs. repeat split; try apply Ho.
      * intros (b & ->). apply Hs. left. rewrite <- app_assoc. apply starts_with_app. eauto.
      * intros (b & ->). apply Hs. right. rewrite <- app_assoc. apply starts_with_app. eauto.
    - intros (t & r & Eu & (_ & _ & Ho) & ->). apply (app_inv_head [60; 33; 45; 45]%N) in Eu.
      apply H. split; [lia|]. exists t, r. repeat split; [exact Eu|lia| | | |]; apply Ho. }
  destruct (starts_with_ch u (ch ">") || starts_with u (bs "->")) eqn:B.
  - eexists. split; [reflexivity|]. intros n. cbn [en_length en_terminated].
    split; [intros [H _]; discriminate|]. intros (t & r & Eu & (H1 & H2 & _) & _). exfalso.
    apply (app_inv_head [60; 33; 45; 45]%N) in Eu. subst u. apply orb_true_iff in B as [B|B].
    + destruct t as [|x t]; [discriminate|]. apply N.eqb_eq in B. apply H1. exists t. rewrite B. reflexivity.
    + destruct t as [|x [|y t]]; [discriminate| |].
      * cbn in B. rewrite andb_false_r in B. discriminate.
      * apply H2. exists t. apply starts_with_app in B as [q B]. injection B as -> -> _. reflexivity.
  - destruct (comment_loop_spec (length u) u 4 (le_n _)) as (e & Ee & He). exists e. split; [exact Ee|].
    apply Gen; [|exact He]. apply orb_false_elim in B as [B1 B2]. intros [C|C]; [|congruence].
    destruct u as [|x u]; [discriminate|]. cbn in B1, C. rewrite B1 in C. discriminate.
Qed.
Print Assumptions C60_comment.

Example C60_case : comment_text (bs " a<!-b ") /\ html_match_comment (bs "<!-- a<!-b -->z") = Ok (mk_enclosed 14 true)
  /\ html_match_comment (bs "<!--a--!>b-->") = Ok (mk_enclosed 0 false).
Proof.
  split; [|split; reflexivity]. unfold comment_text, contains.
  repeat split; intros (a & G); try destruct G as (b & G);
    try discriminate; do 8 (try (destruct a as [|? a]; try discriminate)).
Qed.
