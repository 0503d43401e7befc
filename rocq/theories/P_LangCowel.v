(** * Properties of the COWEL highlighter *)
From Coq Require Import List NArith ZArith Bool Arith Lia.
From Verif Require Import M_Base L_Base S_Tokens M_Utf8 L_Utf8 L_Any P_Utf8 M_Emit S_Ops L_Emit M_Types M_Chars S_Chars P_Chars M_Parse S_Parse L_Parse P_Parse
  M_Api M_Highlighter S_Highlight L_Highlighter P_LangCpp L_Auto M_LangCowel.
Import ListNotations.
Notation anyc := (anything).
Lemma cowel_options : good_options cowel_number_options.
Proof. split; [left; reflexivity|]. split; [repeat constructor; discriminate|]. discriminate. Qed.
#[local] Hint Resolve cowel_options : good_opts.

(** ** The matchers *)
Lemma identifier_le s : cowel_match_identifier s <= length s.
Proof. apply length_if_head_tail_le. Qed.
Lemma cowel_whitespace_le s : cowel_match_whitespace s <= length s.
Proof. apply length_if_le. Qed.
Lemma line_comment_len s : cowel_match_line_comment s = 0 \/ 2 <= cowel_match_line_comment s <= length s.
Proof.
  unfold cowel_match_line_comment. destruct (starts_with s (bs "\:")) eqn:E; cbn [negb]; [|left; reflexivity]. right. apply starts_with_len in E. change (length (bs "\:")) with 2 in E.
  unfold ascii_find. rewrite or_length_from by exact E. match goal with |- context [prefix_len ?p ?l] => pose proof (prefix_len_le p l) as H end. rewrite skipn_length in H. lia.
Qed.
Lemma block_comment_len s : en_length (cowel_match_block_comment s) = 0
  \/ 2 <= en_length (cowel_match_block_comment s) <= length s /\ (en_terminated (cowel_match_block_comment s) = true -> 4 <= en_length (cowel_match_block_comment s)).
Proof.
  unfold cowel_match_block_comment. destruct (starts_with s (bs "\*")) eqn:E; cbn [negb]; [|left; reflexivity]. right. apply starts_with_len in E. change (length (bs "\*")) with 2 in E.
  destruct (find_str s (bs "*\") 2) as [e|] eqn:F; cbn [en_length en_terminated]; [|split; [lia|discriminate]]. apply find_str_bound in F. change (length (bs "*\")) with 2 in F. lia.
Qed.
Lemma reserved_le : forall n s, length s <= n -> cowel_reserved_loop s <= length s.
Proof.
  induction n as [|n IH]; intros s L; (destruct s as [|c s]; [cbn; lia|]); cbn [length] in L; [lia|].
  cbn [cowel_reserved_loop]. destruct s as [|d s]; [destruct (_ || _); cbn [length]; lia|].
  pose proof (IH (d :: s) ltac:(lia)) as X. pose proof (IH s ltac:(cbn [length] in L; lia)) as Y. destruct (_ && _); [cbn [length] in *; lia|]. destruct (_ || _); cbn [length] in *; lia.
Qed.
Lemma reserved_number_le s : cowel_match_reserved_number s <= length s.
Proof.
  destruct s as [|c t]; [cbn; lia|]. unfold cowel_match_reserved_number. destruct (c =? ch ".")%N; [|apply (reserved_le (length (c :: t))); lia].
  pose proof (reserved_le (length t) t). cbn [length]. lia.
Qed.

(** The bytes after the first of a decoded sequence *)
Lemma land_128 b : N.land b 0xC0 = 0x80%N -> (128 <= b)%N.
Proof. intros H. destruct (N.lt_ge_cases b 128) as [L|L]; [|exact L]. exfalso. assert (B : N.testbit b 7 = false) by (apply N.bits_above_log2; destruct (N.eq_dec b 0) as [->|]; [reflexivity|]; apply N.log2_lt_pow2; [lia|]; exact L).
  assert (X : N.testbit (N.land b 0xC0) 7 = true) by (rewrite H; reflexivity). rewrite N.land_spec, B in X. discriminate. Qed.
Lemma continuation_128 b0 b i : continuation_ok b0 b i = true -> (128 <= b)%N.
Proof.
  unfold continuation_ok, is_valid_second_utf8_byte. intros H. apply land_128. apply N.eqb_eq. destruct (i =? 1); [|exact H]. destruct (N.land b 0xC0 =? 0x80)%N; [reflexivity|discriminate].
Qed.
Lemma continuation_loop_128 s av b0 : forall k i r, continuation_loop s av b0 k i = Ok r ->
  forall j, i <= j < match r with Some e => e | None => i + k end -> exists b, nth_error s j = Some b /\ (128 <= b)%N.
Proof.
  induction k as [|k IH]; intros i r H j Hj; cbn [continuation_loop] in H; [injection H as <-; lia|].
  destruct (Z.leb av (Z.of_nat i)); [injection H as <-; lia|]. destruct (nth_error s i) as [b|] eqn:E; [|discriminate].
  destruct (continuation_ok b0 b i) eqn:C; cbn [negb] in H; [|injection H as <-; lia]. destruct (Nat.eq_dec i j) as [<-|Ne].
  - exists b. split; [exact E|]. eapply continuation_128. exact C.
  - apply (IH (S i) r H). destruct r; lia.
Qed.
Lemma replacement_128 s c n : decode_and_length_or_replacement s = Ok (c, n) -> forall j, 1 <= j < n -> exists b, nth_error s j = Some b /\ (128 <= b)%N.
Proof.
  destruct s as [|b0 t]; cbn [decode_and_length_or_replacement]; [intros [= <- <-]; lia|]. destruct (Nat.eqb_spec (sequence_length b0) 0) as [E|E]; [intros [= <- <-]; lia|].
  destruct (continuation_loop _ _ _ _ _) as [r|] eqn:C; [|discriminate]. cbn [bind]. intros H j Hj. eapply continuation_loop_128; [exact C|].
  destruct r as [e|]; [injection H as <- <-; exact Hj|]. destruct (decode_unchecked _ _); [|discriminate]. cbn [bind] in H. injection H as <- <-. lia.
Qed.

(** Escapes *)
Lemma match_char_hex d c d' : cowel_match_char d c = Some d' -> c <> 34%N /\ c <> 92%N.
Proof.
  intros H. split; intros ->; unfold cowel_match_char in H; vm_compute in H; repeat match type of H with context [match ?x with _ => _ end] => destruct x end; discriminate.
Qed.
Lemma match_chars_le : forall s d, cowel_match_chars d s <= length s.
Proof. induction s as [|c s IH]; intros d; cbn; [lia|]. destruct (cowel_match_char d c) as [d'|]; [specialize (IH d')|]; lia. Qed.
Lemma match_chars_hex : forall s d n, n <= cowel_match_chars d s -> Forall (fun c => c <> 34%N /\ c <> 92%N) (firstn n s).
Proof.
  induction s as [|c s IH]; intros d [|n] H; cbn in H |- *; try constructor; destruct (cowel_match_char d c) as [d'|] eqn:E; try lia.
  - eapply match_char_hex; exact E.
  - apply (IH d'). lia.
Qed.
Definition no_quote (c : N) : Prop := c <> 34%N /\ c <> 92%N.
Lemma ends_nth s n c : 0 < n <= length s -> ends_with_ch (firstn n s) c = (nth (n - 1) s 0 =? c)%N.
Proof.
  intros L. unfold ends_with_ch. assert (E : firstn n s = firstn (n - 1) s ++ [nth (n - 1) s 0%N]).
  { rewrite <- (firstn_skipn (n - 1) (firstn n s)). rewrite firstn_firstn, Nat.min_l by lia. f_equal.
    assert (X : skipn (n - 1) s <> []) by (intros X; apply (f_equal (@length N)) in X; rewrite skipn_length in X; cbn in X; lia).
    rewrite firstn_skipn_comm || idtac. rewrite skipn_firstn_comm. replace (n - (n - 1)) with 1 by lia. destruct (skipn (n - 1) s) as [|x y] eqn:S; [congruence|]. cbn [firstn].
    f_equal. rewrite <- (firstn_skipn (n - 1) s) at 1. rewrite app_nth2; rewrite firstn_length; [|lia]. rewrite Nat.min_l by lia. rewrite Nat.sub_diag, S. reflexivity. }
  rewrite E, rev_app_distr. reflexivity.
Qed.
(** An escape is no longer than the text, and if it ends in a line terminator, then there is no quote and no backslash after its first character. *)
Lemma escape_ok s : exists e, cowel_match_escape s = Ok e /\ ce_length e <= length s
  /\ (ce_length e <> 0 -> exists t, s = 92%N :: t
       /\ (ends_with_ch (firstn (ce_length e) s) 10 || ends_with_ch (firstn (ce_length e) s) 13 = true -> Forall no_quote (firstn (ce_length e - 1) t))).
Proof.
  assert (Z : exists e, Ok (mk_cowel_escape 0 false) = Ok e /\ ce_length e <= length s /\ (ce_length e <> 0 -> exists t, s = 92%N :: t
       /\ (ends_with_ch (firstn (ce_length e) s) 10 || ends_with_ch (firstn (ce_length e) s) 13 = true -> Forall no_quote (firstn (ce_length e - 1) t)))).
  { eexists. split; [reflexivity|]. cbn [ce_length]. split; [lia|congruence]. }
  destruct s as [|b t]; [exact Z|]. cbn [cowel_match_escape]. destruct (N.eqb_spec b 92) as [->|]; cbn [negb]; [|exact Z].
  assert (K : forall n r, n <= S (length t) -> (0 < n -> ends_with_ch (firstn n (92%N :: t)) 10 || ends_with_ch (firstn n (92%N :: t)) 13 = true -> Forall no_quote (firstn (n - 1) t)) ->
     exists e, Ok (mk_cowel_escape n r) = Ok e /\ ce_length e <= length (92%N :: t) /\ (ce_length e <> 0 -> exists t', 92%N :: t = 92%N :: t'
       /\ (ends_with_ch (firstn (ce_length e) (92%N :: t)) 10 || ends_with_ch (firstn (ce_length e) (92%N :: t)) 13 = true -> Forall no_quote (firstn (ce_length e - 1) t')))).
  { intros n r L H. eexists. split; [reflexivity|]. cbn [ce_length length]. split; [exact L|]. intros Hn. exists t. split; [reflexivity|]. apply H. lia. }
  clear Z. destruct t as [|c u]; [apply K; [cbn; lia|intros; constructor]|].
  assert (K2 : no_quote c \/ (c = 34 \/ c = 92)%N) by (unfold no_quote; lia).
  assert (K3 : forall r, exists e, Ok (mk_cowel_escape 2 r) = Ok e /\ ce_length e <= length (92%N :: c :: u) /\ (ce_length e <> 0 -> exists t', 92%N :: c :: u = 92%N :: t'
       /\ (ends_with_ch (firstn (ce_length e) (92%N :: c :: u)) 10 || ends_with_ch (firstn (ce_length e) (92%N :: c :: u)) 13 = true -> Forall no_quote (firstn (ce_length e - 1) t')))).
  { intros r. apply K; [cbn; lia|]. intros _ H. cbn [firstn Nat.sub]. constructor; [|constructor]. destruct K2 as [|[->| ->]]; [assumption|discriminate H|discriminate H]. }
  destruct (is_cowel_escapeable c) eqn:E1.
  - destruct (N.eqb_spec c (ch "+")) as [->|N1].
    + set (s := 92%N :: ch "+" :: u) in *. destruct (Nat.eqb_spec (cowel_match_numeric_char_escape s) 0) as [E|E]; cbn [negb]; [apply K3|].
      assert (B : exists m, cowel_match_numeric_char_escape s = 2 + m /\ m <= length u /\ Forall no_quote (firstn m u)).
      { revert E. unfold cowel_match_numeric_char_escape. destruct (_ || _); [congruence|]. change (skipn 2 s) with u.
        destruct (Nat.ltb_spec (length s) 10); cbn [length s] in *.
        - destruct (Nat.eqb_spec (cowel_match_chars 0 (firstn 4 u)) 4) as [E4|]; [|congruence]. intros _. exists 4. split; [reflexivity|]. pose proof (match_chars_le (firstn 4 u) 0) as L. rewrite firstn_length in L. split; [lia|].
          pose proof (match_chars_hex (firstn 4 u) 0 4 ltac:(lia)) as H4. rewrite firstn_firstn in H4. exact H4.
        - pose proof (match_chars_le (firstn 8 u) 0) as L. rewrite firstn_length in L. pose proof (match_chars_hex (firstn 8 u) 0) as X. intros E.
          destruct (Nat.eqb_spec (cowel_match_chars 0 (firstn 8 u)) 8) as [E8|E8].
          + exists 8. split; [reflexivity|]. split; [lia|]. specialize (X 8 ltac:(lia)). rewrite firstn_firstn in X. exact X.
          + destruct (Nat.leb_spec 6 (2 + cowel_match_chars 0 (firstn 8 u))); [|congruence]. exists 4. split; [reflexivity|]. split; [lia|]. specialize (X 4 ltac:(lia)). rewrite firstn_firstn in X. exact X. }
      destruct B as (m & -> & Lm & Fm). apply K; [cbn [length]; lia|]. intros _ _. replace (2 + m - 1) with (S m) by lia. cbn [firstn]. constructor; [split; discriminate|exact Fm].
    + destruct (N.eqb_spec c 39) as [->|N2].
      * unfold cowel_match_named. set (s := 92%N :: 39%N :: u) in *.
        destruct (find_if_from _ s 2) as [q|] eqn:F; [|apply K3]. apply find_if_from_Some in F as (B & _). destruct (N.eqb_spec (nth q s 0%N) 39) as [Q|Q]; cbn [negb]; [|apply K3].
        destruct (Nat.eqb_spec q 2) as [->|Nq].
        -- apply K; [cbn [length s] in *; lia|]. intros _. rewrite !ends_nth by (cbn [length s] in *; lia). cbn [Nat.sub]. rewrite Q. discriminate.
        -- cbv zeta. apply K; [cbn [length s] in *; lia|]. intros _. rewrite !ends_nth by (cbn [length s] in *; lia). replace (q + 1 - 1) with q by lia. rewrite Q. discriminate.
      * destruct (starts_with (92%N :: c :: u) [92; 13; 10]%N) eqn:S3.
        -- pose proof (starts_with_len _ _ S3) as L3. apply K; [cbn [length] in *; lia|]. intros _ _. apply starts_with_app in S3 as [v E]. injection E as -> ->. cbn. repeat constructor; discriminate.
        -- assert (A : is_ascii c = true). { unfold is_cowel_escapeable in E1. apply mem_In in E1. cbn [In] in E1. intuition (subst; reflexivity). }
           rewrite A. cbn [check bind]. apply K3.
  - destruct (is_ascii c) eqn:A; cbn [negb].
    + destruct (is_cowel_ascii_reserved_escapable c); [apply K3|]. apply K; [cbn; lia|lia].
    + destruct (replacement_any (c :: u)) as (d & n & E & L & _); [discriminate|]. rewrite E. cbn [bind snd]. apply K; [lia|]. intros _ _. replace (n + 1 - 1) with n by lia.
      apply Forall_forall. intros x Hx. apply In_nth_error in Hx as [j Hj].
      assert (j < n) by (assert (X : nth_error (firstn n (c :: u)) j <> None) by congruence; apply nth_error_Some in X; rewrite firstn_length in X; lia).
      assert (Ej : nth_error (c :: u) j = Some x). { rewrite <- (firstn_skipn n (c :: u)). rewrite nth_error_app1; [exact Hj|]. rewrite firstn_length. lia. }
      assert (G : (128 <= x)%N).
      { destruct j as [|j]; [injection Ej as <-; unfold is_ascii in A; apply N.ltb_ge in A || apply N.leb_gt in A; lia|]. destruct (replacement_128 _ _ _ E (S j)) as (b & Eb & Lb); [lia|]. congruence. }
      unfold no_quote. lia.
Qed.
(** Blanks *)
Lemma blank_step fuel s : s <> [] -> cowel_blank_loop (S fuel) s =
  let more n := let* m := cowel_blank_loop fuel (skipn n s) in Ok (n + m) in
  if negb (cowel_match_whitespace s =? 0) then more (cowel_match_whitespace s)
  else if negb (cowel_match_line_comment s =? 0) then more (cowel_match_line_comment s)
  else if negb (en_length (cowel_match_block_comment s) =? 0) then more (en_length (cowel_match_block_comment s))
  else Ok 0.
Proof. destruct s; [congruence|reflexivity]. Qed.
Lemma blank_total : forall fuel s, length s <= fuel -> exists n, cowel_blank_loop fuel s = Ok n /\ n <= length s.
Proof.
  induction fuel as [|fuel IH]; intros s L; [destruct s; [|cbn in L; lia]; exists 0; split; [reflexivity|lia]|].
  assert (D : s = [] \/ s <> []) by (destruct s; [left; reflexivity|right; discriminate]). destruct D as [->|D]; [exists 0; split; [reflexivity|lia]|].
  assert (M : forall n, 0 < n <= length s -> exists m, (let* m := cowel_blank_loop fuel (skipn n s) in Ok (n + m)) = Ok m /\ m <= length s).
  { intros n Ln. destruct (IH (skipn n s)) as (m & E & B); [rewrite skipn_length; lia|]. rewrite skipn_length in B. rewrite E. cbn [bind]. exists (n + m). split; [reflexivity|lia]. }
  pose proof (cowel_whitespace_le s). pose proof (line_comment_len s). pose proof (block_comment_len s).
  rewrite blank_step by exact D. cbv zeta. destruct (Nat.eqb_spec (cowel_match_whitespace s) 0); cbn [negb]; [|apply M; lia].
  destruct (Nat.eqb_spec (cowel_match_line_comment s) 0); cbn [negb]; [|apply M; lia]. destruct (Nat.eqb_spec (en_length (cowel_match_block_comment s)) 0); cbn [negb]; [|apply M; lia].
  exists 0. split; [reflexivity|lia].
Qed.
Lemma blank_ok s : exists n, cowel_match_blank s = Ok n /\ n <= length s.
Proof. apply blank_total. lia. Qed.
Lemma quoted_step fuel s len c : hd_error s = Some c -> cowel_quoted_loop (S fuel) s len =
  let more n := cowel_quoted_loop fuel (skipn n s) (len + n) in
  if (c =? 34)%N then Ok (len + 1)
  else if (c =? 92)%N then
    let* e := cowel_match_escape s in
    if negb (ce_length e =? 0) then more (ce_length e)
    else if negb (cowel_match_line_comment s =? 0) then more (cowel_match_line_comment s)
    else if negb (en_length (cowel_match_block_comment s) =? 0) then more (en_length (cowel_match_block_comment s))
    else Ok 0
  else more 1.
Proof. destruct s; [discriminate|]. intros [= ->]. reflexivity. Qed.
Lemma quoted_total : forall fuel s len, length s <= fuel -> exists n, cowel_quoted_loop fuel s len = Ok n /\ n <= len + length s.
Proof.
  induction fuel as [|fuel IH]; intros s len L; [destruct s; [|cbn in L; lia]; exists 0; split; [reflexivity|lia]|].
  destruct (hd_error s) as [c|] eqn:D; [|destruct s; [exists 0; split; [reflexivity|lia]|discriminate]].
  assert (length s <> 0) by (destruct s; [discriminate|cbn; lia]).
  assert (M : forall n, 0 < n <= length s -> exists m, cowel_quoted_loop fuel (skipn n s) (len + n) = Ok m /\ m <= len + length s).
  { intros n Ln. destruct (IH (skipn n s) (len + n)) as (m & E & B); [rewrite skipn_length; lia|]. rewrite skipn_length in B. exists m. split; [exact E|lia]. }
  rewrite (quoted_step _ _ _ _ D). cbv zeta. destruct (c =? 34)%N; [exists (len + 1); split; [reflexivity|lia]|]. destruct (c =? 92)%N; [|apply M; lia].
  destruct (escape_ok s) as (e & -> & Le & _). cbn [bind]. pose proof (line_comment_len s). pose proof (block_comment_len s).
  destruct (Nat.eqb_spec (ce_length e) 0); cbn [negb]; [|apply M; lia].
  destruct (Nat.eqb_spec (cowel_match_line_comment s) 0); cbn [negb]; [|apply M; lia]. destruct (Nat.eqb_spec (en_length (cowel_match_block_comment s)) 0); cbn [negb]; [|apply M; lia].
  exists 0. split; [reflexivity|lia].
Qed.
Lemma quoted_ok s : exists n, cowel_match_quoted_member_name s = Ok n /\ n <= length s.
Proof.
  unfold cowel_match_quoted_member_name. destruct (starts_with_ch s 34) eqn:E; cbn [negb]; [|exists 0; split; [reflexivity|lia]]. apply starts_with_ch_len in E.
  destruct (quoted_total (length s) (skipn 1 s) 1) as (n & -> & L); rewrite skipn_length in *; [lia|]. exists n. split; [reflexivity|lia].
Qed.
Lemma text_le k : forall s l, fst (cowel_text k s l) <= length s.
Proof.
  induction s as [|c s IH]; intros l; cbn [cowel_text]; [cbn; lia|].
  assert (M : forall l, fst (let '(n, l) := cowel_text k s l in (S n, l)) <= S (length s)) by (intros l0; specialize (IH l0); destruct (cowel_text k s l0); cbn [fst] in *; lia).
  destruct (c =? 92)%N; [cbn; lia|]. cbn [length]. destruct k; repeat match goal with |- context [if ?b then _ else _] => destruct b end; try apply M; cbn; lia.
Qed.
Lemma fixed_token_le s t : cowel_match_fixed_token s = Some t -> 0 < length (fst t) <= length s.
Proof.
  destruct s as [|c s]; [discriminate|]. unfold cowel_match_fixed_token. intros H.
  repeat match type of H with context [if ?b then _ else _] => destruct b eqn:? end; try discriminate; injection H as <-; cbn [fst length];
    repeat match goal with E : starts_with _ _ = true |- _ => apply starts_with_len in E end; lit_len; cbn [length] in *; lia.
Qed.

(** ** The parts without recursion *)
Lemma c_escape st : wp cowel_expect_escape (attempt anyc st) st.
Proof.
  begin_steps anyc st. unfold cowel_expect_escape. go1. go1. go1. destruct (escape_ok (rem st)) as (e & E & L & _). eapply wp_lift; [exact E|]. go1; [go; fin|]. go; fin.
Qed.
Definition exactly_ (n : nat) (st : hst unit) (b : bool) (st' : hst unit) : Prop := if b then steps anyc n st st' /\ 0 < n else st' = st /\ n = 0.
Lemma exactly_attempt n st b st' : exactly_ n st b st' -> attempt anyc st b st'.
Proof. unfold exactly_, attempt. destruct b; [intros [H L]; exists n; auto|intros [H _]; exact H]. Qed.
Lemma c_line_exact st : wp cowel_expect_line_comment (exactly_ (cowel_match_line_comment (rem st)) st) st.
Proof.
  begin_steps anyc st. unfold cowel_expect_line_comment. pose proof (line_comment_len (rem st)) as L. set (n := cowel_match_line_comment (rem st)) in *. go1. go1. cbv zeta. fold n. clearbody n.
  go1; [go1; split; [reflexivity|hlia]|]. go1. go1. go1. go1. go1. go1; [go1|]; go1; (split; [|hlia]); (eapply steps_eq; [eassumption|hlia]).
Qed.
Lemma c_block_exact st : wp cowel_expect_block_comment (exactly_ (en_length (cowel_match_block_comment (rem st))) st) st.
Proof.
  begin_steps anyc st. unfold cowel_expect_block_comment. pose proof (block_comment_len (rem st)) as L. go1. go1. cbv zeta. destruct (cowel_match_block_comment (rem st)) as [n b]. cbn [en_length en_terminated] in *.
  go1; [go1; split; [reflexivity|hlia]|]. destruct L as [L|[L L2]]; [hlia|]. go1. go1. go1. go1. go1. destruct b.
  - specialize (L2 eq_refl). go1. go1; [go1|]; go; (split; [|hlia]); (eapply steps_eq; [eassumption|hlia]).
  - go1; [go1|]; go1; (split; [|hlia]); (eapply steps_eq; [eassumption|hlia]).
Qed.
Lemma c_line_comment st : wp cowel_expect_line_comment (attempt anyc st) st.
Proof. eapply wp_mono; [apply c_line_exact|]. intros b st'. apply exactly_attempt. Qed.
Lemma c_block_comment st : wp cowel_expect_block_comment (attempt anyc st) st.
Proof. eapply wp_mono; [apply c_block_exact|]. intros b st'. apply exactly_attempt. Qed.
Lemma whitespace_twice s : cowel_match_whitespace (skipn (cowel_match_whitespace s) s) = 0.
Proof.
  unfold cowel_match_whitespace. rewrite !length_if_eq. induction s as [|c s IH]; [reflexivity|]. cbn [prefix_len]. destruct (is_html_whitespace c) eqn:E; [exact IH|]. cbn [skipn prefix_len]. rewrite E. reflexivity.
Qed.
Lemma blank_nil f : cowel_blank_loop f [] = Ok 0.
Proof. destruct f; reflexivity. Qed.
(** After white space: a comment, or the blank ends. *)
Lemma blank_comment st f m (Q : unit + unit -> hst unit -> Prop) : cowel_blank_loop f (rem st) = Ok m -> cowel_match_whitespace (rem st) = 0 ->
  (forall n f' m' st', steps anyc n st st' -> 0 < n -> cowel_blank_loop f' (rem st') = Ok m' -> n + m' = m -> Q (inl tt) st') ->
  (m = 0 -> Q (inr tt) st) ->
  wp (let! b := cowel_expect_line_comment in if b then ret (inl tt) else let! b := cowel_expect_block_comment in if b then ret (inl tt) else ret (inr tt)) Q st.
Proof.
  intros B W Q1 Q2. assert (D : rem st = [] \/ rem st <> []) by (destruct (rem st); [left; reflexivity|right; discriminate]).
  assert (K : rem st <> [] -> exists f', m = 0 \/ True /\ f = S f').
  { intros X. destruct f; [|exists f; auto]. destruct (rem st); [congruence|discriminate]. }
  pose proof (line_comment_len (rem st)) as L1. pose proof (block_comment_len (rem st)) as L2.
  apply wp_bind. eapply wp_mono; [apply c_line_exact|]. cbn beta. intros [|] st1; cbn [exactly_].
  - intros [S1 P1]. apply wp_ret. destruct D as [D|D]; [rewrite D in *; cbn in *; lia|]. destruct f as [|f]; [destruct (rem st); [congruence|discriminate B]|]. rewrite blank_step in B by exact D. cbv zeta in B. rewrite W in B. cbn [Nat.eqb negb] in B.
    rewrite (proj2 (Nat.eqb_neq _ _)) in B by lia. cbn [negb] in B. destruct (cowel_blank_loop f _) as [m'|] eqn:E; [|discriminate]. cbn [bind] in B. injection B as <-.
    eapply Q1; [exact S1|exact P1| |reflexivity]. rewrite (steps_rem _ _ _ _ S1). exact E.
  - intros [-> Z]. apply wp_bind. eapply wp_mono; [apply c_block_exact|]. cbn beta. intros [|] st2; cbn [exactly_].
    + intros [S1 P1]. apply wp_ret. destruct D as [D|D]; [rewrite D in *; cbn in *; lia|]. destruct f as [|f]; [destruct (rem st); [congruence|discriminate B]|]. rewrite blank_step in B by exact D. cbv zeta in B. rewrite W, Z in B. cbn [Nat.eqb negb] in B.
      rewrite (proj2 (Nat.eqb_neq _ _)) in B by lia. cbn [negb] in B. destruct (cowel_blank_loop f _) as [m'|] eqn:E; [|discriminate]. cbn [bind] in B. injection B as <-.
      eapply Q1; [exact S1|exact P1| |reflexivity]. rewrite (steps_rem _ _ _ _ S1). exact E.
    + intros [-> Z2]. apply wp_ret. apply Q2. destruct D as [D|D]; [rewrite D, blank_nil in B; congruence|]. destruct f as [|f]; [destruct (rem st); [congruence|discriminate B]|]. rewrite blank_step in B by exact D. cbv zeta in B. rewrite W, Z, Z2 in B. cbn in B. congruence.
Qed.
Lemma c_blank st : wp cowel_consume_blank (fun _ st' => exists n, cowel_match_blank (rem st) = Ok n /\ steps anyc n st st') st.
Proof.
  destruct (blank_ok (rem st)) as (n & B & _). unfold cowel_consume_blank.
  apply wp_hloop with (Inv := fun _ st1 => exists k f m, steps anyc k st st1 /\ cowel_blank_loop f (rem st1) = Ok m /\ k + m = n) (mu := fun _ st1 => length (rem st1)).
  - exists 0, (length (rem st)), n. split; [apply steps_refl|]. split; [exact B|lia].
  - lia.
  - intros [] st1 (k & f & m & S1 & B1 & <-). unfold cowel_blank_round. apply wp_bind. apply wp_eof; intros He.
    { apply wp_ret. exists (k + m). split; [exact B|]. rewrite He, blank_nil in B1. injection B1 as <-. rewrite Nat.add_0_r. exact S1. }
    apply wp_bind, wp_get_rem. cbv zeta. destruct f as [|f]; [destruct (rem st1); [congruence|discriminate B1]|]. fold (cowel_match_whitespace (rem st1)).
    apply wp_bind. apply wp_when; intros W; bool_hyps.
    + apply (wp_advance anyc); [apply cowel_whitespace_le|apply Forall_anything|]. intros st2 S2 _. rewrite blank_step in B1 by exact He. cbv zeta in B1. rewrite (proj2 (Nat.eqb_neq _ _) W) in B1. cbn [negb] in B1.
      destruct (cowel_blank_loop f _) as [m2|] eqn:E2; [|discriminate]. cbn [bind] in B1. injection B1 as <-. rewrite <- (steps_rem _ _ _ _ S2) in E2.
      eapply blank_comment; [exact E2|rewrite (steps_rem _ _ _ _ S2); apply whitespace_twice| |].
      * intros n3 f3 m3 st3 S3 P3 B3 <-. split; [exists (k + (cowel_match_whitespace (rem st1) + n3)), f3, m3; split; [|split; [exact B3|lia]]|hlia]. eapply steps_trans; [exact S1|]. eapply steps_trans; eassumption.
      * intros ->. exists (k + (cowel_match_whitespace (rem st1) + 0)). split; [exact B|]. rewrite Nat.add_0_r. eapply steps_trans; eassumption.
    + eapply blank_comment; [exact B1|assumption| |].
      * intros n3 f3 m3 st3 S3 P3 B3 <-. split; [exists (k + n3), f3, m3; split; [|split; [exact B3|lia]]|hlia]. eapply steps_trans; eassumption.
      * intros ->. exists (k + 0). split; [exact B|]. rewrite Nat.add_0_r. exact S1.
Qed.
Lemma c_horizontal st : wp cowel_consume_horizontal_blank (fun _ st' => exists k, steps anyc k st st') st.
Proof.
  unfold cowel_consume_horizontal_blank. eapply wp_mono; [apply (wp_rounds anyc 1 _ (fun _ _ _ => True)); [lia|]|cbn beta; intros _ st' (k & Hk & _); eauto].
  intros k st1 Hk. unfold cowel_blank_round. go1. go1; [go; fin|]. go1. go1. go1. cbv zeta. pose proof (length_if_le (rem st1) is_horizontal_whitespace).
  go1; [go1|]; go1; (attempt_ c_line_comment; [go; fin|]); go1; (attempt_ c_block_comment; [go; fin|]); go; fin.
Qed.
Lemma c_ellipsis st : wp cowel_expect_ellipsis (attempt anyc st) st.
Proof.
  begin_steps anyc st. unfold cowel_expect_ellipsis, cowel_match_ellipsis. go1. go1. cbv zeta. destruct (starts_with (rem st) (bs "...")) eqn:E; cbn [Nat.eqb negb]; go; fin.
Qed.
Lemma c_member_token st : wp cowel_expect_member_token (attempt anyc st) st.
Proof.
  begin_steps anyc st. unfold cowel_expect_member_token. go1. go1. destruct (cowel_match_fixed_token (rem st)) as [t|] eqn:E; [|go; fin]. apply fixed_token_le in E. go1; [|go; fin]. go; fin.
Qed.
Lemma c_number st : wp cowel_expect_number (attempt anyc st) st.
Proof.
  begin_steps anyc st. unfold cowel_expect_number. go1. go1. cbv zeta. pose proof (reserved_number_le (rem st)) as L. set (n := cowel_match_reserved_number (rem st)) in *. clearbody n.
  go1; [go; fin|]. go1. destruct (match_common_number_ok (firstn n (rem st)) _ cowel_options) as (r & E & E1 & E2). eapply wp_lift; [exact E|]. rewrite firstn_length in E2.
  go1. go1; [go; fin|]. bool_hyps. apply (wp_highlight_number anyc); try hlia. intros. go. fin.
Qed.
Lemma c_identifier_like st : wp cowel_expect_identifier_like (attempt anyc st) st.
Proof.
  begin_steps anyc st. unfold cowel_expect_identifier_like. go1. go1. go1.
  - cbv zeta. destruct (str_eqb _ _) eqn:E; [|go; fin]. apply str_eqb_eq in E. assert (L : 9 <= length (rem st)) by (apply (f_equal (@length N)) in E; rewrite firstn_length in E; change (length (bs "-infinity")) with 9 in E; lia). go; fin.
  - cbv zeta. pose proof (identifier_le (rem st)) as L. set (n := cowel_match_identifier (rem st)) in *. assert (Hd : n <> 0 -> exists c t, rem st = c :: t /\ is_cowel_identifier_start c = true).
    { unfold n, cowel_match_identifier. rewrite length_if_head_tail_eq. destruct (rem st) as [|c t]; [congruence|]. destruct (is_cowel_identifier_start c) eqn:E; [eauto|congruence]. }
    clearbody n. go1; [go; fin|]. bool_hyps. destruct (Hd ltac:(assumption)) as (c & t & Er & Hc).
    assert (En : exists m, n = S m) by (destruct n; [congruence|eauto]). destruct En as [m ->].
    apply wp_bind. eapply wp_at_is; [rewrite Er; reflexivity|]. cbn beta. go1. apply wp_check.
    { apply negb_true_iff. unfold is_cowel_identifier_start in Hc. destruct (is_ascii_digit c) eqn:Dg; [|reflexivity]. exfalso. unfold is_ascii_alpha, is_ascii_lower_alpha, is_ascii_upper_alpha, is_ascii_digit, between in *.
      apply andb_true_iff in Dg. rewrite !N.leb_le in Dg. repeat rewrite orb_true_iff in Hc. repeat rewrite andb_true_iff in Hc. rewrite !N.leb_le in Hc. rewrite N.eqb_eq in Hc. change (ch "_") with 95%N in Hc. lia. }
    assert (Kw : forall w, str_eqb (firstn (S m) (rem st)) w = true -> length w <= length (rem st)).
    { intros w E. apply str_eqb_eq in E. rewrite <- E, firstn_length. lia. }
    go1. go1.
    + go1. go1. go1; [|go; fin]. go1. eapply wp_mono; [apply c_horizontal|]. cbn beta. intros _ st2 (k2 & S2). fuse. go1. go1. cbv zeta. pose proof (identifier_le (rem st2)). set (j := cowel_match_identifier (rem st2)) in *. clearbody j. go; fin.
    + destruct (str_eqb _ (bs "true")) eqn:E1; [apply Kw in E1; change (length (bs "true")) with 4 in E1; go; fin|].
      destruct (str_eqb _ (bs "false")) eqn:E2; [apply Kw in E2; change (length (bs "false")) with 5 in E2; go; fin|].
      destruct (str_eqb _ (bs "infinity")) eqn:E3; [apply Kw in E3; change (length (bs "infinity")) with 8 in E3; go; fin|]. go; fin.
Qed.

(** ** The recursive parts *)
Definition group_safe (bound : nat) (group : M unit bool) : Prop := forall st, length (rem st) < bound -> wp group (attempt anyc st) st.
Definition sequence_safe (bound : nat) (sequence : cowel_kind -> M unit unit) : Prop := forall k st, length (rem st) < bound -> wp (sequence k) (fun _ st' => exists j, steps anyc j st st') st.
(** The sequence inside a quoted member name ends where match_quoted_member_name says. *)
Definition names_exact (bound : nat) (sequence : cowel_kind -> M unit unit) : Prop := forall st f len n, length (rem st) < bound ->
  cowel_quoted_loop f (rem st) len = Ok n -> n <> 0 ->
  wp (sequence cowel_name) (fun _ st' => exists k, steps anyc k st st' /\ starts_with_ch (rem st') 34 = true /\ len + k + 1 = n) st.

Section safety.
Variable bound : nat.
Variable group : M unit bool.
Variable sequence : cowel_kind -> M unit unit.
Hypothesis Hgroup : group_safe bound group.
Hypothesis Hsequence : sequence_safe bound sequence.
Hypothesis Hnames : names_exact bound sequence.

Ltac blank_ := cbn beta; eapply wp_mono; [apply c_blank|cbn beta; intros _ ? (? & _ & ?); try fuse].
Lemma c_enclosed o c h k st : length (rem st) < S bound -> wp (cowel_expect_enclosed sequence o c h k) (attempt anyc st) st.
Proof.
  intros Lb. begin_steps anyc st. unfold cowel_expect_enclosed. go1. go1. go1; [go; fin|]. go1. go1. go1. eapply wp_mono; [apply Hsequence; hlia|]. cbn beta. intros _ st2 (j & S2). fuse. go; fin.
Qed.
Lemma c_directive_call st : length (rem st) < S bound -> wp (cowel_expect_directive_call group sequence) (attempt anyc st) st.
Proof.
  intros Lb. begin_steps anyc st. unfold cowel_expect_directive_call. go1. go1. cbv zeta. pose proof (identifier_le (rem st)) as L. set (n := cowel_match_identifier (rem st)) in *. clearbody n. go1; [go; fin|].
  go1. destruct (blank_ok (skipn n (rem st))) as (m & E & Lm). eapply wp_lift; [exact E|]. go1; [go; fin|]. go1. go1. go1; [go; fin|]. go1. go1. go1. blank_. go1. eapply wp_tries; [apply Hgroup; hlia| |].
  - intros st3 k3 S3 L3. fuse. go1. blank_. go1. eapply wp_tries; [apply c_enclosed; hlia| |]; [intros st5 k5 S5 L5; fuse|]; go; fin.
  - go1. blank_. go1. eapply wp_tries; [apply c_enclosed; hlia| |]; [intros st5 k5 S5 L5; fuse|]; go; fin.
Qed.
Ltac try_ lem := cbn beta; eapply wp_tries; [apply lem; try hlia| intros ? ? ? ?; try fuse; cbn beta iota | cbn beta iota].
Lemma c_expression st : length (rem st) < bound -> wp (cowel_expect_expression group sequence) (attempt anyc st) st.
Proof.
  intros Lb. begin_steps anyc st. unfold cowel_expect_expression. go1. try_ c_directive_call; [go; fin|]. go1. try_ c_identifier_like; [go; fin|]. go1. try_ c_number; [go; fin|].
  unfold cowel_expect_quoted_string, cowel_expect_block. go1. try_ c_enclosed; [go; fin|]. go1. try_ c_enclosed; [go; fin|]. apply Hgroup. exact Lb.
Qed.
Lemma c_other_member st : length (rem st) < bound -> wp (cowel_expect_other_member group sequence) (fun b st' => exists k, steps anyc k st st' /\ (b = true -> 0 < k)) st.
Proof.
  intros Lb. begin_steps anyc st. unfold cowel_expect_other_member. go1. go1. cbv zeta. pose proof (cowel_whitespace_le (rem st)) as L. set (n := cowel_match_whitespace (rem st)) in *. clearbody n.
  go1. assert (K : forall st2 j, steps anyc j st st2 -> wp (let! b := cowel_expect_ellipsis in if b then ret true else let! b0 := cowel_expect_expression group sequence in if b0 then ret true else cowel_expect_member_token)
    (fun b st' => exists k, steps anyc k st st' /\ (b = true -> 0 < k)) st2).
  { clear - Hgroup Hsequence Lb. intros st2 j Sj. go1. try_ c_ellipsis; [go; fin|]. go1. try_ c_expression; [go; fin|]. try_ c_member_token; [fin|]. exists j. split; [exact Sj|discriminate]. }
  go1; [go1|]; eapply K; eassumption.
Qed.
Lemma c_group_member st : length (rem st) < bound -> wp (cowel_expect_group_member group sequence) (fun b st' => exists k, steps anyc k st st' /\ (b = true -> 0 < k)) st.
Proof.
  intros Lb. unfold cowel_expect_group_member. apply wp_bind, wp_get_rem. cbv zeta. apply wp_bind.
  eapply wp_mono with (P := fun n st1 => st1 = st /\ n <= length (rem st) /\ (n <> 0 -> cowel_match_identifier (rem st) = n \/ cowel_match_identifier (rem st) = 0 /\ cowel_match_quoted_member_name (rem st) = Ok n)).
  { destruct (Nat.eqb_spec (cowel_match_identifier (rem st)) 0) as [E|E]; cbn [negb].
    - destruct (quoted_ok (rem st)) as (n & En & L). eapply wp_lift; [exact En|]. auto.
    - apply wp_ret. split; [reflexivity|]. split; [apply identifier_le|auto]. }
  cbn beta. intros n st1 (-> & Ln & Hn). apply wp_if; intros N; [|apply c_other_member; exact Lb]. bool_hyps. specialize (Hn N).
  apply wp_bind, wp_substr_from; [exact Ln|]. destruct (blank_ok (skipn n (rem st))) as (m & E & Lm). rewrite skipn_length in Lm. apply wp_bind. eapply wp_lift; [exact E|]. apply wp_bind, wp_substr_from; [lia|].
  apply wp_if; intros B; [|apply c_other_member; exact Lb]. apply andb_prop in B as [B _].
  (* the name *)
  apply wp_bind. unfold cowel_expect_quoted_member_name, cowel_expect_enclosed. apply wp_bind, wp_get_rem.
  eapply wp_mono with (P := fun (b : bool) (st1 : hst unit) => wp (if b then ret tt else emit_and_advance n hl_markup_attr) (fun _ st2 => steps anyc n st st2) st1).
  { assert (D : forall s, cowel_match_identifier s <> 0 -> starts_with_ch s 34 = false).
    { intros s. unfold cowel_match_identifier. rewrite length_if_head_tail_eq. destruct s as [|c t]; [congruence|]. destruct (is_cowel_identifier_start c) eqn:I; [|congruence]. intros _. cbn. apply N.eqb_neq. intros ->. discriminate. }
    destruct Hn as [Hn|[Hn1 Hn2]].
    - rewrite D by lia. cbn [negb]. apply wp_ret. begin_steps anyc st. apply (wp_emit_adv anyc); [lia|]. intros st2 S2 _. exact S2.
    - unfold cowel_match_quoted_member_name in Hn2. destruct (starts_with_ch (rem st) 34) eqn:Q; cbn [negb] in *; [|congruence].
      apply wp_bind. apply (wp_emit_adv anyc); [hlia|]. intros st1 S1 _. apply wp_bind. rewrite <- (steps_rem _ _ _ _ S1) in Hn2. eapply wp_mono; [eapply Hnames; [hlia|exact Hn2|exact N]|].
      cbn beta. intros _ st2 (k & S2 & Q2 & <-). apply wp_bind, wp_get_rem. apply wp_bind. rewrite Q2. apply (wp_emit_adv anyc); [hlia|]. intros st3 S3 _. apply wp_ret. apply wp_ret.
      eapply steps_trans; [eapply steps_trans; eassumption|exact S3]. }
  cbn beta. intros b st1 Hb. apply wp_bind. eapply wp_mono; [exact Hb|]. cbn beta. intros _ st2 S2. clear Hb b st1.
  apply wp_bind. eapply wp_mono; [apply c_blank|]. cbn beta. intros _ st3 (m' & E' & S3). rewrite (steps_rem _ _ _ _ S2), E in E'. injection E' as <-.
  assert (R3 : rem st3 = skipn (n + m) (rem st)). { rewrite (steps_rem _ _ _ _ S3), (steps_rem _ _ _ _ S2), skipn_skipn. reflexivity. }
  apply wp_bind, wp_get_rem. apply wp_bind, wp_check; [rewrite R3; exact B|]. rewrite <- R3 in B.
  fuse. go1. go1. go1. blank_. go1. try_ c_expression; go; fin.
Qed.
Lemma c_group_loop st : length (rem st) < bound -> wp (hloop 1 (cowel_group_round group sequence) tt) (fun _ st' => exists k, steps anyc k st st') st.
Proof.
  intros Lb. eapply wp_mono; [apply (wp_rounds anyc 1 _ (fun _ _ _ => True)); [lia|]|cbn beta; intros _ st' (k & Hk & _); eauto].
  intros k st1 Hk. unfold cowel_group_round. go1. go1; [go; fin|]. go1. blank_. go1. eapply wp_mono; [apply c_group_member; hlia|]. cbn beta. intros b st3 (j & Hj & Pj). fuse. go1. blank_.
  go1. go1. match goal with |- wp (match rem ?s with _ => _ end) _ _ => destruct (rem s) as [|c r] eqn:Er end; [go; fin|].
  apply wp_if; intros B1; [go; fin|]. apply wp_if; intros B2; [go; fin|]. apply wp_if; intros B3; [go; fin|]. apply wp_if; intros B4; [|go; fin].
  destruct (find_first_of (c :: r) (bs ",})") 0) as [n|] eqn:F.
  - apply find_if_from_Some in F as (Ln & Fn & _). assert (n <> 0).
    { intros ->. cbn [nth] in Fn. apply mem_In in Fn. change (bs ",})") with [ch ","; ch "}"; ch ")"] in Fn. cbn [In] in Fn. apply N.eqb_neq in B1, B2, B3. intuition congruence. }
    cbn [length] in Ln. go1. go1. go1. go1. go1. go1. go1; [go; fin|]. go; fin.
  - go1. go1. go; fin.
Qed.
Lemma c_group st : length (rem st) < S bound -> wp (cowel_group_body group sequence) (attempt anyc st) st.
Proof.
  intros Lb. begin_steps anyc st. unfold cowel_group_body. go1. go1. go1; [go; fin|]. go1. go1. go1. eapply wp_mono; [apply c_group_loop; hlia|]. cbn beta. intros _ st2 (k & Hk). fuse. go; fin.
Qed.
Lemma c_token_or_error st : rem st <> [] -> wp cowel_token_or_error (fun _ st' => exists k, steps anyc k st st' /\ 0 < k) st.
Proof. intros Hne. begin_steps anyc st. unfold cowel_token_or_error. go1. try_ c_member_token; go; fin. Qed.
Lemma c_line_splice st : length (rem st) < S bound -> wp (cowel_expect_line_splice group sequence) (attempt anyc st) st.
Proof.
  intros Lb. begin_steps anyc st. unfold cowel_expect_line_splice. go1. go1. go1; [go; fin|]. destruct (find_first_of _ _ _); [|go; fin]. go1. apply negb_false_iff in H0 || idtac. go1. go1.
  eapply wp_mono; [apply (wp_rounds anyc 1 _ (fun _ _ _ => True)); [lia|]|cbn beta; intros _ ? (? & ? & _); fuse; go; fin].
  intros k st1 Hk. unfold cowel_line_round. go1. go1; [go; fin|]. go1. go1. go1; [go; fin|]. go1; [go; fin|]. go1. try_ c_escape; [go; fin|]. go1. try_ c_line_comment; [go; fin|]. go1. try_ c_block_comment; [go; fin|].
  go1. try_ c_expression; [go; fin|]. go1. go1. cbv zeta. pose proof (cowel_whitespace_le (rem st1)). set (w := cowel_match_whitespace (rem st1)) in *. clearbody w. go1; [go; fin|].
  go1. eapply wp_mono; [apply c_token_or_error; assumption|]. cbn beta. intros _ st3 (j & Hj & Pj). fuse. go; fin.
Qed.
Lemma c_splice st : length (rem st) < S bound -> wp (cowel_expect_splice group sequence) (attempt anyc st) st.
Proof.
  intros Lb. begin_steps anyc st. unfold cowel_expect_splice. go1. go1. go1; [go; fin|]. go1. go1. go1.
  eapply wp_mono; [apply (wp_rounds anyc 1 _ (fun _ _ _ => True)); [lia|]|cbn beta; intros _ ? (? & ? & _); fuse; go; fin].
  intros k st1 Hk. unfold cowel_splice_round. go1. go1; [go; fin|]. go1. blank_. go1.
  eapply wp_mono with (P := fun _ st2 => exists j, steps anyc j st' st2 /\ k <= j).
  { try_ c_expression; fin. }
  cbn beta. intros _ st3 (j & Hj & Lj). match goal with H : steps _ _ st' ?s |- _ => first [constr_eq s st3; fail 1 | clear H] end. go1. blank_.
  go1. go1. match goal with |- wp (match rem ?s with _ => _ end) _ _ => destruct (rem s) as [|c r] eqn:Er end; [go; fin|].
  apply wp_if; intros B1; [go; fin|]. apply wp_if; intros B2; [go; fin|]. go1. eapply wp_mono; [apply c_token_or_error; congruence|]. cbn beta. intros _ st5 (i & Hi & Pi). fuse. go; fin.
Qed.
Lemma c_directive_splice st : length (rem st) < S bound -> wp (cowel_expect_directive_splice group sequence) (attempt anyc st) st.
Proof.
  intros Lb. begin_steps anyc st. unfold cowel_expect_directive_splice. go1. go1. go1; [go; fin|]. cbv zeta. pose proof (identifier_le (skipn 1 (rem st))) as L. rewrite skipn_length in L.
  set (n := cowel_match_identifier (skipn 1 (rem st))) in *. clearbody n. go1; [go; fin|]. go1. go1. go1. unfold cowel_expect_block. try_ Hgroup; go1; try_ c_enclosed; go; fin.
Qed.
Lemma c_text k level st : (0 <= level)%Z -> wp (cowel_expect_text k level) (fun r st' => attempt anyc st (fst r) st') st.
Proof.
  intros Hl. begin_steps anyc st. unfold cowel_expect_text. go1. apply wp_check; [apply Z.leb_le; exact Hl|]. go1. go1. pose proof (text_le k (rem st) level) as L. destruct (cowel_text k (rem st) level) as [n l]. cbn [fst] in L.
  go1; [go1; reflexivity|]. go1. destruct k; go1; go1; cbn [fst]; fin.
Qed.
Lemma c_content k level st : (0 <= level)%Z -> length (rem st) < S bound -> wp (cowel_expect_content group sequence k level) (fun r st' => attempt anyc st (fst r) st') st.
Proof.
  intros Hl Lb. begin_steps anyc st. unfold cowel_expect_content. go1. apply wp_check; [apply Z.leb_le; exact Hl|]. go1. try_ c_escape; [go1; cbn [fst]; fin|]. go1. try_ c_directive_splice; [go1; cbn [fst]; fin|]. go1. try_ c_splice; [go1; cbn [fst]; fin|]. go1. try_ c_line_splice; [go1; cbn [fst]; fin|].
  go1. try_ c_line_comment; [go1; cbn [fst]; fin|]. go1. try_ c_block_comment; [go1; cbn [fst]; fin|]. apply c_text. exact Hl.
Qed.
Lemma c_sequence k st : length (rem st) < S bound -> wp (cowel_sequence_body group sequence k) (fun _ st' => exists j, steps anyc j st st') st.
Proof.
  intros Lb. unfold cowel_sequence_body. apply wp_hloop with (Inv := fun _ st' => exists j, steps anyc j st st') (mu := fun _ st' => length (rem st')).
  - exists 0. apply steps_refl.
  - lia.
  - intros level st1 (j & Hj). unfold cowel_sequence_round. apply wp_if; intros Bl; [apply wp_ret; eauto|]. apply Z.ltb_ge in Bl. apply wp_bind. eapply wp_mono; [apply c_content; [exact Bl|hlia]|].
    intros [b l] st2; cbn [fst attempt]. unfold attempt. destruct b; [|intros ->; apply wp_ret; eauto]. intros (i & Hi & Pi). apply wp_ret. fuse. split; [eauto|hlia].
Qed.

Lemma quoted_skip w : Forall no_quote w -> forall f r len, cowel_quoted_loop (length w + f) (w ++ r) len = cowel_quoted_loop f r (len + length w).
Proof.
  induction 1 as [|c w [H1 H2] _ IH]; intros f r len; cbn [length app Nat.add]; [rewrite Nat.add_0_r; reflexivity|].
  rewrite (quoted_step _ _ _ c) by reflexivity. cbv zeta. rewrite (proj2 (N.eqb_neq _ _) H1), (proj2 (N.eqb_neq _ _) H2). cbn [skipn]. rewrite IH. f_equal. lia.
Qed.
Lemma quoted_unskip w : Forall no_quote w -> forall f r len n, cowel_quoted_loop f (w ++ r) len = Ok n -> exists f', cowel_quoted_loop f' r (len + length w) = Ok n.
Proof.
  induction 1 as [|c w [H1 H2] _ IH]; intros f r len n H; cbn [length app] in *; [rewrite Nat.add_0_r; eauto|].
  destruct f as [|f]; [discriminate|]. rewrite (quoted_step _ _ _ c) in H by reflexivity. cbv zeta in H. rewrite (proj2 (N.eqb_neq _ _) H1), (proj2 (N.eqb_neq _ _) H2) in H. cbn [skipn] in H. apply IH in H. replace (len + S (length w)) with (len + 1 + length w) by lia. exact H.
Qed.
Lemma text_name : forall s l, snd (cowel_text cowel_name s l) = l /\ Forall no_quote (firstn (fst (cowel_text cowel_name s l)) s)
  /\ (forall c, hd_error s = Some c -> no_quote c -> fst (cowel_text cowel_name s l) <> 0).
Proof.
  induction s as [|c s IH]; intros l; cbn [cowel_text]; [cbn; repeat split; [constructor|discriminate]|].
  destruct (N.eqb_spec c 92) as [->|N1]; [cbn; repeat split; [constructor|intros x [= <-] [_ X]; congruence]|]. destruct (N.eqb_spec c 34) as [->|N2]; [cbn; repeat split; [constructor|intros x [= <-] [X _]; congruence]|].
  specialize (IH l) as (E & F & _). destruct (cowel_text cowel_name s l) as [n l']. cbn [fst snd] in *. split; [exact E|]. split; [cbn [firstn]; constructor; [split; assumption|exact F]|discriminate].
Qed.
Lemma no_backslash s c : hd_error s = Some c -> c <> 92%N -> starts_with_ch s 92 = false /\ (forall d, starts_with s [92; d]%N = false) /\ cowel_match_line_comment s = 0 /\ en_length (cowel_match_block_comment s) = 0.
Proof.
  destruct s as [|x s]; [discriminate|]. intros [= ->] N. assert (E : starts_with_ch (c :: s) 92 = false) by (cbn; apply N.eqb_neq; congruence).
  assert (E2 : forall d, starts_with (c :: s) [92; d]%N = false) by (intros d; cbn [starts_with]; rewrite (proj2 (N.eqb_neq c 92)) by congruence; reflexivity).
  split; [exact E|]. split; [exact E2|]. unfold cowel_match_line_comment, cowel_match_block_comment. change (bs "\:") with [92; 58]%N. change (bs "\*") with [92; 42]%N. rewrite !E2. split; reflexivity.
Qed.
Lemma comment_start s : cowel_match_line_comment s <> 0 \/ en_length (cowel_match_block_comment s) <> 0 -> exists c t, s = 92%N :: c :: t /\ (c = 58 \/ c = 42)%N.
Proof.
  unfold cowel_match_line_comment, cowel_match_block_comment. intros [H|H].
  - destruct (starts_with s (bs "\:")) eqn:E; [|elim H; reflexivity]. apply starts_with_app in E as [v ->]. exists 58%N, v. auto.
  - destruct (starts_with s (bs "\*")) eqn:E; [|elim H; reflexivity]. apply starts_with_app in E as [v ->]. exists 42%N, v. auto.
Qed.
(** What expect_content does inside a quoted member name that match_quoted_member_name accepts *)
Lemma content_name st f len n : cowel_quoted_loop f (rem st) len = Ok n -> n <> 0 ->
  wp (cowel_expect_content group sequence cowel_name 0) (fun r st' => snd r = 0%Z /\
    if fst r then exists k f', steps anyc k st st' /\ 0 < k /\ cowel_quoted_loop f' (rem st') (len + k) = Ok n
    else st' = st /\ starts_with_ch (rem st) 34 = true /\ len + 1 = n) st.
Proof.
  intros Hq Hn. destruct (hd_error (rem st)) as [c|] eqn:Hc; [|destruct (rem st); [|discriminate]; destruct f; injection Hq as <-; congruence].
  assert (Hf : exists f', f = S f') by (destruct f; [destruct (rem st); discriminate|eauto]). destruct Hf as [f' ->].
  rewrite (quoted_step _ _ _ _ Hc) in Hq. cbv zeta in Hq. unfold cowel_expect_content. apply wp_bind, wp_check; [reflexivity|].
  destruct (N.eq_dec c 92) as [Ec|N2]; [subst c|rewrite (proj2 (N.eqb_neq _ _) N2) in Hq].
  - (* a backslash *)
    change (92 =? 34)%N with false in Hq. change (92 =? 92)%N with true in Hq. cbn iota in Hq. destruct (escape_ok (rem st)) as (e & Ee & Le & He). rewrite Ee in Hq. cbn [bind] in Hq.
    apply wp_bind. unfold cowel_expect_escape. apply wp_bind, wp_get_rem. apply wp_bind. eapply wp_lift; [exact Ee|]. destruct (Nat.eqb_spec (ce_length e) 0) as [Z|Z]; cbn [negb] in Hq.
    + apply wp_ret. assert (Cs : exists c t, rem st = 92%N :: c :: t /\ (c = 58 \/ c = 42)%N).
      { apply comment_start. destruct (Nat.eqb_spec (cowel_match_line_comment (rem st)) 0); [|auto]. destruct (Nat.eqb_spec (en_length (cowel_match_block_comment (rem st))) 0); [|auto]. cbn [negb] in Hq. congruence. }
      destruct Cs as (d & t & Er & Hd).
      unfold cowel_expect_directive_splice, cowel_expect_splice, cowel_expect_line_splice.
      apply wp_bind, wp_bind, wp_get_rem. rewrite Er. cbn [starts_with_ch]. change (92 =? 92)%N with true. cbn [negb skipn]. cbv zeta. assert (I : cowel_match_identifier (d :: t) = 0) by (destruct Hd as [-> | ->]; reflexivity). rewrite I. cbn [Nat.eqb]. apply wp_ret.
      apply wp_bind, wp_bind, wp_get_rem. rewrite Er. assert (I2 : starts_with (92%N :: d :: t) [92; 40]%N = false) by (destruct Hd as [-> | ->]; reflexivity). rewrite I2. cbn [negb]. apply wp_ret.
      apply wp_bind, wp_bind, wp_get_rem. rewrite Er. assert (I3 : starts_with (92%N :: d :: t) [92; 32]%N = false) by (destruct Hd as [-> | ->]; reflexivity). rewrite I3. cbn [negb]. apply wp_ret.
      apply wp_bind. eapply wp_mono; [apply c_line_exact|]. cbn beta. intros [|] st1; cbn [exactly_].
      * intros [S1 P1]. apply wp_ret. cbn [fst snd]. split; [reflexivity|]. rewrite (proj2 (Nat.eqb_neq _ 0)) in Hq by lia. cbn [negb] in Hq. exists (cowel_match_line_comment (rem st)), f'. split; [exact S1|]. split; [exact P1|]. rewrite (steps_rem _ _ _ _ S1). exact Hq.
      * intros [-> Z1]. rewrite Z1 in Hq. cbn [Nat.eqb negb] in Hq. apply wp_bind. eapply wp_mono; [apply c_block_exact|]. cbn beta. intros [|] st1; cbn [exactly_].
        -- intros [S1 P1]. apply wp_ret. cbn [fst snd]. split; [reflexivity|]. rewrite (proj2 (Nat.eqb_neq _ 0)) in Hq by lia. cbn [negb] in Hq. eexists _, f'. split; [exact S1|]. split; [exact P1|]. rewrite (steps_rem _ _ _ _ S1). exact Hq.
        -- intros [-> Z2]. rewrite Z2 in Hq. cbn in Hq. congruence.
    + destruct (He Z) as (t & Er & Hends). cbv zeta. destruct (ends_with_ch _ 10 || ends_with_ch _ 13).
      * apply wp_bind. apply (wp_emit_adv anyc); [rewrite Er; cbn; lia|]. intros st1 S1 _. apply wp_ret. apply wp_ret. cbn [fst snd]. split; [reflexivity|]. specialize (Hends eq_refl).
        assert (Rt : rem st1 = t) by (rewrite (steps_rem _ _ _ _ S1), Er; reflexivity). exists 1, (length (firstn (ce_length e - 1) t) + f'). split; [exact S1|]. split; [lia|]. rewrite Rt.
        rewrite <- (firstn_skipn (ce_length e - 1) t) at 2. rewrite (quoted_skip _ Hends). rewrite firstn_length, Nat.min_l by (rewrite Er in Le; cbn [length] in Le; lia).
        replace (len + 1 + (ce_length e - 1)) with (len + ce_length e) by lia. rewrite Er in Hq. destruct (ce_length e) as [|m] eqn:Em; [congruence|]. cbn [skipn Nat.sub] in *. rewrite Nat.sub_0_r. exact Hq.
      * apply wp_bind. apply (wp_emit_adv anyc); [lia|]. intros st1 S1 _. apply wp_ret. apply wp_ret. cbn [fst snd]. split; [reflexivity|]. exists (ce_length e), f'. split; [exact S1|]. split; [lia|]. rewrite (steps_rem _ _ _ _ S1). exact Hq.
  - (* anything else *)
    destruct (no_backslash _ _ Hc N2) as (B1 & B2 & B3 & B4).
    apply wp_bind. unfold cowel_expect_escape. apply wp_bind, wp_get_rem. apply wp_bind. destruct (escape_ok (rem st)) as (e & Ee & _ & He). eapply wp_lift; [exact Ee|].
    destruct (Nat.eqb_spec (ce_length e) 0) as [Z|Z]; [|destruct (He Z) as (t & Er & _); rewrite Er in Hc; injection Hc as <-; congruence]. apply wp_ret.
    unfold cowel_expect_directive_splice, cowel_expect_splice, cowel_expect_line_splice.
    apply wp_bind, wp_bind, wp_get_rem. rewrite B1. cbn [negb]. apply wp_ret. apply wp_bind, wp_bind, wp_get_rem. rewrite B2. cbn [negb]. apply wp_ret. apply wp_bind, wp_bind, wp_get_rem. rewrite B2. cbn [negb]. apply wp_ret.
    apply wp_bind. unfold cowel_expect_line_comment. apply wp_bind, wp_get_rem. cbv zeta. rewrite B3. cbn [Nat.eqb]. apply wp_ret. apply wp_bind. unfold cowel_expect_block_comment. apply wp_bind, wp_get_rem. cbv zeta. rewrite B4. cbn [Nat.eqb]. apply wp_ret.
    unfold cowel_expect_text. apply wp_bind, wp_check; [reflexivity|]. apply wp_bind, wp_get_rem. pose proof (text_name (rem st) 0%Z) as (T1 & T2 & T3). pose proof (text_le cowel_name (rem st) 0%Z) as TL.
    destruct (N.eq_dec c 34) as [Ec|N1]; [subst c|rewrite (proj2 (N.eqb_neq _ _) N1) in Hq].
    + injection Hq as <-. destruct (rem st) as [|x s] eqn:Er; [discriminate|]. injection Hc as ->. cbn [cowel_text]. change (34 =? 92)%N with false. change (34 =? 34)%N with true. cbn iota. cbn [Nat.eqb]. apply wp_ret. cbn [fst snd]. rewrite ?Er. split; [reflexivity|]. split; [reflexivity|]. split; [reflexivity|lia].
    + destruct (cowel_text cowel_name (rem st) 0) as [m l]. cbn [fst snd] in *. subst l. specialize (T3 c Hc (conj N1 N2)). rewrite (proj2 (Nat.eqb_neq _ _) T3). apply wp_bind. apply (wp_emit_adv anyc); [lia|]. intros st1 S1 _. apply wp_ret. cbn [fst snd]. split; [reflexivity|].
      assert (Q : cowel_quoted_loop (S f') (rem st) len = Ok n). { rewrite (quoted_step _ _ _ _ Hc). cbv zeta. rewrite (proj2 (N.eqb_neq _ _) N1), (proj2 (N.eqb_neq _ _) N2). exact Hq. }
      rewrite <- (firstn_skipn m (rem st)) in Q. apply quoted_unskip in Q as [f2 Q]; [|exact T2]. rewrite firstn_length, Nat.min_l in Q by lia. exists m, f2. split; [exact S1|]. split; [lia|]. rewrite (steps_rem _ _ _ _ S1). exact Q.
Qed.
Lemma c_names st f len n : cowel_quoted_loop f (rem st) len = Ok n -> n <> 0 ->
  wp (cowel_sequence_body group sequence cowel_name) (fun _ st' => exists k, steps anyc k st st' /\ starts_with_ch (rem st') 34 = true /\ len + k + 1 = n) st.
Proof.
  intros Hq Hn. unfold cowel_sequence_body. apply wp_hloop with (Inv := fun l st1 => l = 0%Z /\ exists k f1, steps anyc k st st1 /\ cowel_quoted_loop f1 (rem st1) (len + k) = Ok n) (mu := fun _ st1 => length (rem st1)).
  - split; [reflexivity|]. exists 0, f. split; [apply steps_refl|]. rewrite Nat.add_0_r. exact Hq.
  - lia.
  - intros l st1 (-> & k & f1 & S1 & Q1). unfold cowel_sequence_round. cbn [Z.ltb Z.compare]. apply wp_bind. eapply wp_mono; [eapply content_name; eassumption|]. intros [b l] st2; cbn [fst snd]. intros [-> H]. destruct b.
    + destruct H as (j & f2 & S2 & P2 & Q2). apply wp_ret. split; [split; [reflexivity|]; exists (k + j), f2; split; [eapply steps_trans; eassumption|rewrite Nat.add_assoc; exact Q2]|hlia].
    + destruct H as (-> & Q & E). apply wp_ret. exists k. split; [exact S1|]. split; [exact Q|lia].
Qed.
End safety.
Lemma cowel_nested_ok : forall fuel, group_safe fuel (fst (cowel_nested fuel)) /\ sequence_safe fuel (snd (cowel_nested fuel)) /\ names_exact fuel (snd (cowel_nested fuel)).
Proof.
  induction fuel as [|fuel (IH1 & IH2 & IH3)]; [split; [|split]; intros st; intros; lia|]. cbn [cowel_nested fst snd]. split; [|split].
  - intros st L. apply (c_group fuel); assumption.
  - intros k st L. apply (c_sequence fuel); assumption.
  - intros st f len n L Hq Hn. eapply c_names; eassumption.
Qed.
(** ** C127 *)
Theorem C127_cowel : always_highlights highlight_cowel.
Proof.
  apply always_from_ops. intros src strict. unfold highlight_cowel. apply (run_ok anyc). apply wp_bind. destruct (cowel_nested_ok (length src + 1)) as (_ & H & _). eapply wp_mono; [apply H; cbn [rem]; lia|]. cbn beta. intros _ st' (k & Hk). apply wp_ret. split; [reflexivity|eauto].
Qed.
Print Assumptions C127_cowel.
Example C127_case : exists ops, highlight_cowel (bs "a \b(x = 1.5, f{a {b} \c}, ...y, -infinity) {z} \* hi *\ \(x + 1) \+0041 \: com") false = Ok (true, ops) /\ 20 < length ops.
Proof. eexists. split; [vm_compute; reflexivity|]. cbn [length]. lia. Qed.
