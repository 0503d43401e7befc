(** * Properties of the Markdown highlighter *)
From Coq Require Import List NArith ZArith Bool Arith Lia.
From Verif Require Import M_Base L_Base S_Tokens M_Utf8 L_Utf8 L_Any P_Utf8 M_Emit S_Ops L_Emit M_Types M_Chars S_Chars P_Chars M_Parse S_Parse L_Parse P_Parse
  M_Api M_Highlighter S_Highlight L_Highlighter P_LangCpp L_Auto M_LangHtml P_LangHtml M_LangMarkdown S_LangMarkdown.
Import ListNotations.
Notation anyc := (anything).

(** ** The matchers *)
Lemma close_ticks_bound n : forall s run i e, md_close_ticks n s run i = Some e -> 0 < n ->
  i <= e <= i + length s /\ (run < n -> i + n <= e + run) /\ (e = i -> run = n).
Proof.
  induction s as [|c s IH]; intros run i e; cbn [md_close_ticks length].
  - destruct (Nat.eqb_spec run n) as [->|]; [|discriminate]. intros [= <-]. lia.
  - destruct (c =? ch "`")%N.
    + intros H Hn. destruct (IH _ _ _ H Hn) as (A & B & C). split; [lia|]. split; [|lia]. intros L. destruct (Nat.eq_dec (S run) n); lia.
    + destruct (Nat.eqb_spec run n) as [->|]; [intros [= <-]; lia|]. intros H Hn. destruct (IH _ _ _ H Hn) as (A & B & C). split; [lia|]. split; [|lia]. intros L. lia.
Qed.
Lemma code_span_bound s n m : match_code_span s = Some (n, m) -> 0 < n /\ n + m + n <= length s.
Proof.
  unfold match_code_span. pose proof (prefix_len_le (N.eqb (ch "`")) s) as L. destruct (Nat.eqb_spec (prefix_len (N.eqb (ch "`")) s) 0) as [|Z]; [discriminate|].
  set (k := prefix_len (N.eqb (ch "`")) s) in *. destruct (md_close_ticks k (skipn k s) 0 k) as [e|] eqn:E; [|discriminate]. intros [= <- <-]. apply close_ticks_bound in E; [|lia]. rewrite skipn_length in E. lia.
Qed.
Lemma autolink_bound s : match_autolink s = 0 \/ match_autolink s + 2 <= length s.
Proof.
  unfold match_autolink. destruct (_ || _); [left; reflexivity|]. match goal with |- context [prefix_len ?p ?l] => set (k := prefix_len p l) end.
  destruct (starts_with_ch (skipn (1 + k) s) (ch ">")) eqn:E; cbn [negb]; [|left; reflexivity]. destruct (existsb _ _); [|left; reflexivity]. right.
  assert (X : skipn (1 + k) s <> []) by (destruct (skipn (1 + k) s); discriminate). assert (length (skipn (1 + k) s) <> 0) by (destruct (skipn (1 + k) s); cbn; congruence). rewrite skipn_length in *. lia.
Qed.
Lemma plain_url_le : forall n s, length s <= n -> md_plain_url s <= length s.
Proof.
  induction n as [|n IH]; intros [|c s] L; cbn [length] in L; [cbn; lia|lia|cbn; lia|]. cbn [md_plain_url]. destruct (_ || _); [lia|]. destruct (_ =? _)%N.
  - destruct s as [|d s]; cbn [length] in *; [lia|]. specialize (IH s). lia.
  - specialize (IH s). cbn [length]. lia.
Qed.
Lemma starts_length (s : str) k c : starts_with_ch (skipn k s) c = true -> k < length s.
Proof. intros H. assert (length (skipn k s) <> 0) by (destruct (skipn k s); cbn in *; congruence). rewrite skipn_length in *. lia. Qed.
Lemma url_length_le s : md_url_length s <= length s.
Proof.
  unfold md_url_length. destruct (starts_with_ch s (ch "<")) eqn:E; [|apply (plain_url_le (length s)); lia].
  match goal with |- context [prefix_len ?p ?l] => pose proof (prefix_len_le p l) as L; set (k := prefix_len p l) in * end. rewrite skipn_length in L.
  destruct s as [|c s]; [discriminate|]. cbn [length] in *. destruct (starts_with_ch _ (ch ">")) eqn:G; [|lia]. apply starts_length in G. cbn [length] in G. lia.
Qed.
Lemma reference_bound s : md_match_character_reference s <= length s.
Proof.
  unfold md_match_character_reference. destruct (_ || _); [lia|].
  assert (K : forall k p, md_reference_body s k p <= length s).
  { intros k p. unfold md_reference_body. destruct (Nat.eqb_spec (prefix_len p (skipn k s)) 0) as [|Z]; cbn [orb]; [lia|]. destruct (starts_with_ch _ _) eqn:E; cbn [negb]; [|lia]. apply starts_length in E. lia. }
  destruct (starts_with_ch _ _); [destruct (_ || _)|]; apply K.
Qed.
Lemma bracket_bound : forall m s d n, length s <= m -> 0 < d -> md_bracket d s = Some n -> 0 < n <= length s /\ nth_error s (n - 1) = Some (ch "]").
Proof.
  induction m as [|m IH]; intros [|c s] d n L Hd; cbn [length] in L; try discriminate; [lia|]. cbn [md_bracket].
  assert (K : forall d n, 0 < d -> option_map S (md_bracket d s) = Some n -> 0 < n <= length (c :: s) /\ nth_error (c :: s) (n - 1) = Some (ch "]")).
  { clear n. intros e n He. destruct (md_bracket e s) as [k|] eqn:E; [|discriminate]. cbn [option_map]. intros [= <-]. destruct (IH s e k) as [A B]; [lia|exact He|exact E|]. cbn [length]. split; [lia|].
    replace (S k - 1) with (S (k - 1)) by lia. exact B. }
  destruct (_ =? ch "\")%N.
  - destruct s as [|x s]; [discriminate|]. destruct (md_bracket d s) as [k|] eqn:E; [|discriminate]. cbn [option_map]. intros [= <-]. cbn [length] in *. destruct (IH s d k) as [A B]; [lia|exact Hd|exact E|]. split; [lia|].
    replace (S (S k) - 1) with (S (S (k - 1))) by lia. exact B.
  - destruct (_ =? ch "[")%N; [apply K; lia|]. destruct (N.eqb_spec c (ch "]")) as [->|]; [|apply K; lia]. destruct (Nat.eqb_spec d 1); [|apply K; lia]. intros [= <-]. cbn. split; [lia|reflexivity].
Qed.
Lemma prefix_len_nth p s k : k < prefix_len p s -> exists x, nth_error s k = Some x /\ p x = true.
Proof.
  revert k. induction s as [|c s IH]; intros k; cbn [prefix_len]; [lia|]. destruct (p c) eqn:E; [|lia]. destruct k as [|k]; [exists c; split; [reflexivity|exact E]|]. intros H. apply IH. lia.
Qed.
Lemma closer_bound c run : forall fuel prev s i, length s <= fuel -> exists r, md_closer fuel c run prev s i = Ok r
  /\ match r with None => True | Some k => i <= k /\ k + run <= i + length s /\ (0 < run -> nth_error s (k - i) = Some c) end.
Proof.
  induction fuel as [|fuel IH]; intros prev s i L; (destruct s as [|x s]; [exists None; split; [reflexivity|exact I]|]); cbn [length] in L; [lia|]. cbn [md_closer].
  assert (K : forall e prev, 0 < e <= length (x :: s) -> exists r, md_closer fuel c run prev (skipn e (x :: s)) (i + e) = Ok r
    /\ match r with None => True | Some k => i <= k /\ k + run <= i + length (x :: s) /\ (0 < run -> nth_error (x :: s) (k - i) = Some c) end).
  { clear prev. intros e prev Le. destruct (IH prev (skipn e (x :: s)) (i + e)) as (r & E & H); [rewrite skipn_length; cbn [length] in *; lia|]. exists r. split; [exact E|]. destruct r as [k|]; [|exact I].
    rewrite skipn_length in H. split; [lia|]. split; [cbn [length] in *; lia|]. intros R. destruct H as (A & B & H). rewrite L_Highlighter.nth_error_skipn in H. replace (e + (k - (i + e))) with (k - i) in H by lia. apply H. exact R. }
  destruct (N.eqb_spec x (ch "`")) as [->|N1].
  - set (s0 := ch "`" :: s) in *. set (n := prefix_len (N.eqb (ch "`")) s0). assert (N0 : 0 < n) by (unfold n, s0; cbn; lia). assert (Ln : n <= length s0) by apply prefix_len_le.
    destruct (md_close_ticks n (skipn n s0) 0 n) as [e|] eqn:E; [|exists None; split; [reflexivity|exact I]]. apply close_ticks_bound in E; [|exact N0]. rewrite skipn_length in E. apply K. lia.
  - destruct (N.eqb_spec x c) as [->|N2].
    + set (s0 := c :: s) in *. set (n := prefix_len (N.eqb c) s0). assert (N0 : 0 < n) by (unfold n, s0; cbn [prefix_len]; rewrite N.eqb_refl; lia). assert (Ln : n <= length s0) by apply prefix_len_le.
      destruct (Nat.eqb_spec n run) as [<-|]; cbn [andb]; [|apply K; lia]. destruct (_ && _); [|apply K; lia].
      exists (Some i). split; [reflexivity|]. split; [lia|]. split; [lia|]. intros _. rewrite Nat.sub_diag. reflexivity.
    + specialize (K 1 x). cbn [skipn] in K. apply K. cbn; lia.
Qed.
Lemma md_trailing_bound c s : md_trailing c s <= length s /\ Forall (eq c) (skipn (length s - md_trailing c s) s).
Proof.
  unfold md_trailing. pose proof (prefix_len_le (N.eqb c) (rev s)) as L. rewrite rev_length in L. split; [exact L|].
  pose proof (prefix_len_all (N.eqb c) (rev s)) as F. set (k := prefix_len (N.eqb c) (rev s)) in *.
  rewrite firstn_rev in F. apply Forall_rev in F. rewrite rev_involutive in F. eapply Forall_impl; [|exact F]. intros x Hx. apply N.eqb_eq in Hx. exact Hx.
Qed.
(** What is stripped from the end of a heading: spaces, then perhaps hashes and spaces *)
Lemma strip_bound s : strip_atx_trailing s <= length s
  /\ exists a b d, skipn (strip_atx_trailing s) s = a ++ b ++ d /\ Forall (eq 32%N) a /\ Forall (eq (ch "#")) b /\ Forall (eq 32%N) d.
Proof.
  unfold strip_atx_trailing. destruct (md_trailing_bound (ch " ") s) as [L1 F1]. set (e := length s - md_trailing (ch " ") s) in *. change (ch " ") with 32%N in *.
  assert (E0 : e <= length s /\ exists a b d, skipn e s = a ++ b ++ d /\ Forall (eq 32%N) a /\ Forall (eq (ch "#")) b /\ Forall (eq 32%N) d).
  { split; [lia|]. exists (skipn e s), [], []. rewrite !app_nil_r. repeat split; try constructor. exact F1. }
  destruct (Nat.eqb_spec e 0) as [Z|Z]; [rewrite Z in E0; exact E0|]. destruct (negb _); [exact E0|].
  destruct (md_trailing_bound (ch "#") (firstn e s)) as [L2 F2]. rewrite firstn_length, Nat.min_l in * by lia. set (h := e - md_trailing (ch "#") (firstn e s)) in *.
  destruct (_ || _); [|exact E0]. destruct (md_trailing_bound 32%N (firstn h s)) as [L3 F3]. rewrite firstn_length, Nat.min_l in * by lia. set (j := h - md_trailing 32%N (firstn h s)) in *.
  split; [lia|]. exists (skipn j (firstn h s)), (skipn h (firstn e s)), (skipn e s). split; [|repeat split; assumption].
  assert (X : forall i k, i <= k <= length s -> skipn i s = skipn i (firstn k s) ++ skipn k s).
  { intros i k Hik. rewrite <- (firstn_skipn k s) at 1. rewrite skipn_app, firstn_length, Nat.min_l by lia. replace (i - k) with 0 by lia. reflexivity. }
  rewrite (X j h), (X h e) by lia. reflexivity.
Qed.

(** ** Regions that do not end right after the start of a comment *)
Definition stop (s : str) : Prop := ~ followed s.
Lemma followed_cons c s : followed (c :: s) -> (c = 32%N /\ followed s) \/ (c <> 32 /\ c <> 35 /\ c <> 42 /\ c <> 95 /\ c <> 93 /\ c <> 10 /\ c <> 13)%N.
Proof.
  intros (sp & x & u & E & F & H). destruct sp as [|y sp]; injection E as -> E.
  - right. cbn in H. lia.
  - left. inversion F as [|? ? E1 E2]; subst. split; [reflexivity|]. exists sp, x, u. repeat split; assumption.
Qed.
Lemma stop_nil : stop [].
Proof. intros (sp & x & u & E & _). destruct sp; discriminate. Qed.
Lemma stop_cons c s : (c = 35 \/ c = 42 \/ c = 95 \/ c = 93 \/ c = 10 \/ c = 13)%N -> stop (c :: s).
Proof. intros H F. apply followed_cons in F. lia. Qed.
Lemma stop_spaces a s : Forall (eq 32%N) a -> stop s -> stop (a ++ s).
Proof. intros F H. induction F as [|x a Hx F IH]; [exact H|]. subst x. cbn. intros G. apply followed_cons in G as [[_ G]|G]; [exact (IH G)|lia]. Qed.
Lemma stop_strip a b d s : Forall (eq 32%N) a -> Forall (eq (ch "#")) b -> Forall (eq 32%N) d -> stop s -> stop (a ++ b ++ d ++ s).
Proof.
  intros A B D H. apply stop_spaces; [exact A|]. destruct B as [|x b Hx B]; [cbn [app]; apply stop_spaces; assumption|]. subst x. apply stop_cons. left. reflexivity.
Qed.
Lemma commented_suffix a s : comments_have_text (a ++ s) -> comments_have_text s.
Proof. intros H x y ->. apply (H (a ++ x) y). rewrite !app_assoc. reflexivity. Qed.
Lemma commented_skipn n s : comments_have_text s -> comments_have_text (skipn n s).
Proof. intros H. rewrite <- (firstn_skipn n s) in H. exact (commented_suffix _ _ H). Qed.
Lemma line_stop s : fst (match_crlf_line s) + snd (match_crlf_line s) <= length s /\ stop (skipn (fst (match_crlf_line s)) s)
  /\ (s <> [] -> 0 < fst (match_crlf_line s) + snd (match_crlf_line s)).
Proof.
  pose proof (C56_line s) as H. destruct (match_crlf_line s) as [n t]. cbn [fst snd].
  destruct H as (content & term & rest & -> & <- & <- & _ & _ & H). rewrite !app_length, skipn_app_exact. split; [lia|].
  destruct H as [[->|[->|[-> _]]]|[-> ->]]; (split; [|cbn; intros; try lia]); try (apply stop_cons; lia); [exact stop_nil|].
  destruct content; [cbn in *; congruence|cbn; lia].
Qed.

(** ** Consuming text, with a fence length that is not zero inside a fenced block *)
Definition fence_ok (l : md_state) : Prop := md_fenced l = true -> 0 < md_fence_length l.
Definition took (k : nat) (st st' : hst md_state) : Prop := steps anyc k st st' /\ (fence_ok (loc st) -> fence_ok (loc st')).
Lemma took_refl st : took 0 st st.
Proof. split; [apply steps_refl|auto]. Qed.
Lemma took_len k st st' : took k st st' -> k <= length (rem st).
Proof. intros [H _]. apply steps_len in H. lia. Qed.
Lemma took_rem k st st' : took k st st' -> rem st' = skipn k (rem st).
Proof. intros [H _]. eapply steps_rem; exact H. Qed.
Lemma took_trans k n st st1 st2 : took k st st1 -> took n st1 st2 -> took (k + n) st st2.
Proof. intros [A B] [C D]. split; [eapply steps_trans; eassumption|auto]. Qed.
Lemma w_advance k n st0 st (Q : unit -> hst md_state -> Prop) : took k st0 st -> k + n <= length (rem st0) ->
  (forall st', took (k + n) st0 st' -> Q tt st') -> wp (advance n) Q st.
Proof.
  intros T L H. apply (wp_advance anyc); [rewrite (took_rem _ _ _ T), skipn_length; lia|apply Forall_anything|]. intros st' S1 E. apply H. eapply took_trans; [exact T|]. split; [exact S1|]. rewrite E. auto.
Qed.
Lemma w_emit k n ty st0 st (Q : unit -> hst md_state -> Prop) : took k st0 st -> 0 < n -> k + n <= length (rem st0) ->
  (forall st', took (k + n) st0 st' -> Q tt st') -> wp (emit_and_advance n ty) Q st.
Proof.
  intros T P L H. apply (wp_emit_adv anyc); [rewrite (took_rem _ _ _ T), skipn_length; lia|]. intros st' S1 E. apply H. eapply took_trans; [exact T|]. split; [exact S1|]. rewrite E. auto.
Qed.
Lemma w_emit_if k n b ty st0 st (Q : unit -> hst md_state -> Prop) : took k st0 st -> (b = true <-> 0 < n) -> k + n <= length (rem st0) ->
  (forall st', took (k + n) st0 st' -> Q tt st') -> wp (when b (emit_and_advance n ty)) Q st.
Proof.
  intros T P L H. unfold when. destruct b; [apply (w_emit k n ty st0); [exact T|tauto|exact L|exact H]|]. apply wp_ret. apply H. assert (n = 0) by (destruct n; [reflexivity|]; exfalso; assert (X : false = true) by (apply P; lia); discriminate).
  subst n. rewrite Nat.add_0_r. exact T.
Qed.
Lemma w_set k l st0 st (Q : unit -> hst md_state -> Prop) : took k st0 st -> (fence_ok (loc st) -> fence_ok l) ->
  (forall st', took k st0 st' -> Q tt st') -> wp (set_loc l) Q st.
Proof.
  intros T P H. apply (wp_set_loc anyc). intros st' S1 E1 E2. apply H. replace k with (k + 0) by lia. eapply took_trans; [exact T|]. split; [exact S1|]. rewrite E2. exact P.
Qed.
Lemma w_region k n st0 st (Q : str -> hst md_state -> Prop) : took k st0 st -> k + n <= length (rem st0) ->
  Q (firstn n (rem st)) st -> wp (md_region n) Q st.
Proof.
  intros T L H. unfold md_region. apply wp_bind, wp_get_rem. apply wp_bind, wp_check; [|apply wp_ret; exact H]. apply Nat.leb_le. rewrite (took_rem _ _ _ T), skipn_length. lia.
Qed.
(** [m] consumes [n] units *)
Definition takes {A} (n : nat) (m : MD A) (st : hst md_state) : Prop := wp m (fun _ st' => took n st st') st.
(** [m] consumes some of the next [n] units, or nothing if its result is false *)
Definition some_of (n : nat) (m : MD bool) (st : hst md_state) : Prop := wp m (fun b st' => if b then exists k, 0 < k <= n /\ took k st st' else st' = st) st.
(** [m] consumes the next [n] units, or nothing if its result is false *)
Definition all_of_ (n : nat) (m : MD bool) (st : hst md_state) : Prop := wp m (fun b st' => if b then took n st st' else st' = st) st.

Ltac st_len := repeat match goal with T : took _ _ _ |- _ => pose proof (took_len _ _ _ T); revert T end; intros.
Ltac w1 :=
  cbn beta; cbv zeta;
  lazymatch goal with
  | |- wp (bindM _ _) _ _ => apply wp_bind
  | |- wp (ret _) _ _ => apply wp_ret
  | |- wp get_loc _ _ => apply wp_get_loc
  | |- wp (advance ?n) _ ?st => match goal with T : took ?k ?s0 st |- _ => apply (w_advance k n s0 st); [exact T|try lia|clear T; intros ? ?] end
  | |- wp (emit_and_advance ?n _) _ ?st => match goal with T : took ?k ?s0 st |- _ => apply (w_emit k n _ s0 st); [exact T|try lia|try lia|clear T; intros ? ?] end
  | |- wp (when ?b (emit_and_advance ?n _)) _ ?st => match goal with T : took ?k ?s0 st |- _ => apply (w_emit_if k n b _ s0 st); [exact T|rewrite ?negb_true_iff, ?Nat.eqb_neq, ?Nat.ltb_lt; try lia|try lia|clear T; intros ? ?] end
  | |- wp (md_region ?n) _ ?st => match goal with T : took ?k ?s0 st |- _ => apply (w_region k n s0 st); [exact T|try lia|] end
  end.
Ltac w := repeat w1.
Ltac ends := match goal with T : took ?a ?s0 ?s |- exists k, _ /\ took k ?s0 ?s => exists a; split; [try lia|exact T] end.
Ltac begin st := pose proof (took_refl st).

Lemma firstn_len (n : nat) (l : str) : n <= length l -> length (firstn n l) = n.
Proof. intros. rewrite firstn_length. lia. Qed.
Section inline.
Variable inline : nat -> N -> option N -> MD unit.
Variable bound : nat.
Hypothesis inline_ok : forall n prev h st, n <= bound -> n <= length (rem st) -> comments_have_text (rem st) -> stop (skipn n (rem st)) -> takes n (inline n prev h) st.

Lemma code_span_takes n st : n <= length (rem st) -> some_of n (md_expect_code_span n) st.
Proof.
  intros L. begin st. unfold some_of, md_expect_code_span. w. destruct (match_code_span (firstn n (rem st))) as [[a b]|] eqn:E; [|w; reflexivity].
  apply code_span_bound in E. rewrite firstn_len in E by exact L. w. ends.
Qed.
Lemma autolink_takes n st : n <= length (rem st) -> some_of n (md_expect_autolink n) st.
Proof.
  intros L. begin st. unfold some_of, md_expect_autolink. w. destruct (autolink_bound (firstn n (rem st))) as [E|E]; [rewrite E; cbn; w; reflexivity|].
  rewrite firstn_len in E by exact L. set (k := match_autolink _) in *. destruct (Nat.eqb_spec k 0); w; [reflexivity|ends].
Qed.
Lemma comment_unterminated s e : html_match_comment s = Ok e -> en_length e <> 0 -> starts_with s (bs "<!--") = true.
Proof. unfold html_match_comment. destruct (starts_with s (bs "<!--")); [reflexivity|]. cbn [negb]. intros [= <-]. cbn. congruence. Qed.
Lemma comment_takes n st : n <= length (rem st) -> comments_have_text (rem st) -> stop (skipn n (rem st)) -> some_of n (md_expect_html_comment n) st.
Proof.
  intros L G St. begin st. unfold some_of, md_expect_html_comment. w. destruct (comment_ok (firstn n (rem st))) as (e & E & B). eapply wp_lift; [exact E|]. rewrite firstn_len in B by exact L.
  destruct (Nat.eqb_spec (en_length e) 0) as [Z|Z]; [w; reflexivity|]. destruct B as [|[B1 B2]]; [congruence|]. w. destruct (en_terminated e) eqn:T.
  - specialize (B2 eq_refl). w. ends.
  - assert (P : 4 < en_length e \/ en_length e = 4) by lia. destruct P as [P|P].
    + w. match goal with T : took ?k ?s0 ?s |- wp (set_loc _) _ ?s => apply (w_set k _ s0 s); [exact T|unfold fence_ok; cbn; auto|clear T; intros ? ?] end. w. ends.
    + exfalso. pose proof (comment_unterminated _ _ E Z) as S4. apply starts_with_app in S4 as [u Eu].
      assert (U : u = []).
      { revert E. unfold html_match_comment. rewrite Eu, (proj2 (starts_with_app _ _)) by eauto. cbn [negb]. rewrite remove_prefix_any by (rewrite app_length; cbn; lia). change (skipn 4 (bs "<!--" ++ u)) with u. cbn [bind].
        destruct (_ || _); [intros [= <-]; cbn in Z; congruence|]. destruct u as [|x u]; [reflexivity|]. cbn [length html_comment_loop]. destruct (find_first_of (x :: u) (bs "<-") 0) as [p|] eqn:F.
        - intros E. exfalso. unfold find_first_of in F. apply find_if_from_Some in F. cbn [length] in *. rewrite remove_prefix_any in E by (cbn; lia). cbn [bind] in E.
          destruct (starts_with _ (bs "-->")); [injection E as <-; cbn in T; discriminate|]. destruct (starts_with _ (bs "<!--")); [destruct (starts_with _ (bs "<!-->")); injection E as <-; cbn in *; [discriminate|lia]|].
          destruct (starts_with _ (bs "--!>")); [injection E as <-; cbn in *; lia|]. destruct F as (F1 & F2 & F3). rewrite remove_prefix_any in E by (rewrite skipn_length; cbn [length]; lia). cbn [bind] in E.
          destruct (comment_loop_ok (length u) (skipn 1 (skipn p (x :: u))) (4 + p + 1)) as (e' & E' & B'); [rewrite !skipn_length; cbn [length]; lia|]. rewrite E' in E. injection E as ->. lia.
        - intros [= <-]. cbn in P. lia. }
      subst u. rewrite app_nil_r in Eu. apply St. apply (G [] (skipn n (rem st))). cbn [app]. rewrite <- Eu. symmetry. apply firstn_skipn.
Qed.
Lemma reference_takes n st : n <= length (rem st) -> some_of n (md_expect_reference n) st.
Proof.
  intros L. begin st. unfold some_of, md_expect_reference. w. pose proof (reference_bound (firstn n (rem st))) as B. rewrite firstn_len in B by exact L. destruct (Nat.eqb_spec (md_match_character_reference (firstn n (rem st))) 0); w; [reflexivity|ends].
Qed.
Lemma destination_takes n open inner st : n <= length (rem st) -> 0 < open ->
  (forall k st1, took open st st1 -> open + k + 2 <= n -> nth_error (rem st) (open + k) = Some (ch "]") -> takes k (inner k) st1) ->
  some_of n (md_expect_destination n open inner) st.
Proof.
  intros L P Hi. begin st. unfold some_of, md_expect_destination. destruct (Nat.ltb_spec n (open + 3)); [w; reflexivity|]. w. set (s := firstn n (rem st)). assert (Ls : length s = n) by (apply firstn_len; exact L).
  destruct (md_bracket 1 (skipn open s)) as [k|] eqn:E; [|w; reflexivity]. apply (bracket_bound (length (skipn open s))) in E as [B C]; [|lia|lia]. rewrite skipn_length, Ls in B. cbv zeta.
  destruct (Nat.leb_spec n (open + k)); [w; reflexivity|]. destruct (starts_with_ch _ _); cbn [negb]; [|w; reflexivity].
  pose proof (url_length_le (skipn (open + k + 1) s)) as U. set (u := md_url_length _) in *. rewrite skipn_length, Ls in U. unfold md_link_close. match goal with |- context [prefix_len ?p ?l] => set (t := prefix_len p l) end.
  destruct (Nat.leb_spec n (open + k + 1 + u + t)); [w; reflexivity|]. w.
  match goal with T : took _ st ?x |- _ => assert (W : took open st x) by exact T; clear T; rename x into st' || idtac end.
  eapply wp_mono; [apply (Hi (open + k - open - 1) st' W); [lia|]|].
  - rewrite L_Highlighter.nth_error_skipn in C. unfold s in C. replace (open + (open + k - open - 1)) with (open + (k - 1)) by lia. rewrite <- (firstn_skipn n (rem st)), nth_error_app1 by (rewrite firstn_len; lia). exact C.
  - intros [] st2 T2. assert (T3 : took (open + (open + k - open - 1)) st st2) by (eapply took_trans; eassumption). clear W T2. w. ends.
Qed.
Lemma image_takes n st : n <= length (rem st) -> some_of n (md_expect_image n) st.
Proof.
  intros L. apply destination_takes; [exact L|lia|]. intros k st1 T B _. pose proof (took_rem _ _ _ T) as R. unfold takes. begin st1. apply (w_advance 0 k st1 st1); [assumption|rewrite R, skipn_length; lia|]. auto.
Qed.
Lemma link_takes n st : n <= length (rem st) -> n <= S bound -> comments_have_text (rem st) -> some_of n (md_expect_link inline n) st.
Proof.
  intros L Bn G. apply destination_takes; [exact L|lia|]. intros k st1 T B C. pose proof (took_rem _ _ _ T) as R. apply inline_ok; [lia|rewrite R, skipn_length; lia|rewrite R; apply commented_skipn; exact G|].
  rewrite R, skipn_skipn. destruct (nth_error_split _ _ C) as (a & b & Es & La). rewrite Es. replace (1 + k) with (length a) by lia. rewrite skipn_app_exact. apply stop_cons. right. right. right. left. reflexivity.
Qed.
Lemma emphasis_takes n prev st : 0 < n <= length (rem st) -> n <= S bound -> comments_have_text (rem st) ->
  (forall c, nth_error (rem st) 0 = Some c -> c = ch "*" \/ c = ch "_") -> some_of n (md_expect_emphasis inline n prev) st.
Proof.
  intros L Bn G Hc. begin st. unfold some_of, md_expect_emphasis. w. set (s := firstn n (rem st)). assert (Ls : length s = n) by (apply firstn_len; lia). apply wp_at; [lia|]. intros c Ec.
  assert (Ec' : c = ch "*" \/ c = ch "_"). { apply Hc. rewrite <- (firstn_skipn n (rem st)), nth_error_app1 by (fold s; lia). exact Ec. } cbv zeta.
  set (run := prefix_len (N.eqb c) (firstn 3 s)). assert (R : run <= length s) by (unfold run; etransitivity; [apply prefix_len_le|rewrite firstn_length; lia]).
  destruct (Nat.eqb_spec run 0); [w; reflexivity|]. destruct (skipn run s) as [|x u] eqn:Es; [w; reflexivity|]. destruct (_ || _); [w; reflexivity|]. destruct (_ && _); [w; reflexivity|]. rewrite <- Es.
  assert (Lu : length (skipn run s) <= length s) by (rewrite skipn_length; lia). destruct (closer_bound c run (length s) c (skipn run s) run Lu) as (r & E & B). apply wp_bind. eapply wp_lift; [exact E|]. destruct r as [k|]; [|w; reflexivity].
  rewrite skipn_length in B. destruct B as (B1 & B2 & B3). specialize (B3 ltac:(lia)). rewrite L_Highlighter.nth_error_skipn in B3. replace (run + (k - run)) with k in B3 by lia.
  w. match goal with T : took _ st ?s |- _ => assert (W : took run st s) by exact T; clear T end. pose proof (took_rem _ _ _ W) as Rw.
  eapply wp_mono; [apply (inline_ok (k - run) c None st'); [lia|rewrite Rw, skipn_length; lia|rewrite Rw; apply commented_skipn; exact G|]|].
  - rewrite Rw, skipn_skipn. replace (run + (k - run)) with k by lia. assert (B4 : nth_error (rem st) k = Some c) by (rewrite <- (firstn_skipn n (rem st)), nth_error_app1 by (fold s; lia); exact B3).
    destruct (nth_error_split _ _ B4) as (a & b & Ea & La). rewrite Ea, <- La, skipn_app_exact. apply stop_cons. change (ch "*") with 42%N in *. change (ch "_") with 95%N in *. tauto.
  - intros [] st2 T2. assert (T3 : took (run + (k - run)) st st2) by (eapply took_trans; eassumption). clear W T2. w. ends.
Qed.
Lemma step_takes n h prev st : 0 < n <= length (rem st) -> n <= S bound -> comments_have_text (rem st) -> stop (skipn n (rem st)) ->
  wp (md_inline_step inline n h prev) (fun _ st' => exists k, 0 < k <= n /\ took k st st') st.
Proof.
  intros L Bn G St. begin st. unfold md_inline_step. w. set (s := firstn n (rem st)). assert (Ls : length s = n) by (apply firstn_len; lia).
  apply wp_at; [lia|]. intros c Ec. assert (Ec' : nth_error (rem st) 0 = Some c) by (rewrite <- (firstn_skipn n (rem st)), nth_error_app1 by (fold s; lia); exact Ec).
  assert (Sk : wp (advance 1 ;; ret c) (fun _ st' => exists k, 0 < k <= n /\ took k st st') st).
  { w. ends. }
  assert (K : forall m (a : N), some_of n m st -> wp (let! b := m in if b then ret a else advance 1 ;; ret c) (fun _ st' => exists k, 0 < k <= n /\ took k st st') st).
  { intros m a Hm. apply wp_bind. eapply wp_mono; [exact Hm|]. intros [] st'; [intros Hk; apply wp_ret; exact Hk|]. intros ->. exact Sk. }
  destruct (N.eqb_spec c (ch "`")); [apply K, code_span_takes; lia|].
  destruct (N.eqb_spec c (ch "<")).
  { apply K. unfold some_of. apply wp_bind. eapply wp_mono; [apply comment_takes; [lia|exact G|exact St]|]. intros [] st' H'; [apply wp_ret; exact H'|]. subst st'. apply autolink_takes. lia. }
  destruct (N.eqb_spec c (ch "\")).
  { destruct s as [|x [|d s']]; [exact Sk|exact Sk|]. cbn [length] in Ls. destruct (is_md_ascii_punctuation d); [|exact Sk]. w. ends. }
  destruct (N.eqb_spec c (ch "&")); [apply K, reference_takes; lia|].
  destruct (N.eqb_spec c (ch "!")). { destruct (starts_with_ch _ _); [apply K, image_takes; lia|exact Sk]. }
  destruct (N.eqb_spec c (ch "[")); [apply K, link_takes; [lia|lia|exact G]|].
  destruct ((c =? ch "*")%N || (c =? ch "_")%N) eqn:Em. { apply K, emphasis_takes; [lia|lia|exact G|]. intros x Hx. rewrite Hx in Ec'. injection Ec' as ->. apply orb_true_iff in Em. rewrite !N.eqb_eq in Em. exact Em. }
  match goal with |- context [prefix_len ?p ?l] => pose proof (prefix_len_le p l) as Lp; set (k := prefix_len p l) in * end. rewrite skipn_length, Ls in Lp. cbv zeta. apply wp_bind, wp_at; [lia|]. intros p _. destruct h as [h|]; w; ends.
Qed.
Lemma round_takes end_pos h prev st : end_pos = idx st + (end_pos - idx st) -> end_pos - idx st <= length (rem st) -> end_pos - idx st <= S bound ->
  comments_have_text (rem st) -> stop (skipn (end_pos - idx st) (rem st)) ->
  wp (md_inline_round inline end_pos h prev) (fun r st' => match r with inl _ => exists k, 0 < k <= end_pos - idx st /\ took k st st' | inr _ => st' = st /\ end_pos = idx st end) st.
Proof.
  intros E0 L Bn G St. set (n := end_pos - idx st) in *. unfold md_inline_round. apply wp_bind, wp_get_idx. apply wp_bind.
  assert (Z : n = 0 \/ 0 < n) by lia. destruct Z as [Z|Z].
  { apply wp_eof; intros _; (destruct (Nat.ltb_spec (idx st) end_pos) as [X|X]; [lia|]; cbn [negb orb]; apply wp_ret; split; [reflexivity|lia]). }
  apply wp_eof; intros Er; [rewrite Er in L; cbn in L; lia|]. destruct (Nat.ltb_spec (idx st) end_pos) as [X|X]; [|lia]. cbn [negb orb]. fold n. apply wp_bind. eapply wp_mono; [apply step_takes; [lia|lia|exact G|exact St]|].
  intros p st' H. apply wp_ret. exact H.
Qed.
Lemma body_takes n prev h st : n <= length (rem st) -> n <= S bound -> comments_have_text (rem st) -> stop (skipn n (rem st)) -> takes n (md_inline_body inline n prev h) st.
Proof.
  intros L Bn G St. unfold takes, md_inline_body. destruct (Nat.eqb_spec n 0) as [->|Z]; [apply wp_ret, took_refl|]. apply wp_bind, wp_get_idx.
  apply wp_hloop with (Inv := fun _ st1 => exists k, k <= n /\ took k st st1) (mu := fun _ st1 => idx st + n - idx st1).
  - exists 0. split; [lia|apply took_refl].
  - lia.
  - intros p st1 (k & Hk & T). pose proof (took_rem _ _ _ T) as R. assert (I : idx st1 = idx st + k) by (destruct T as [(_ & _ & I & _) _]; exact I).
    eapply wp_mono; [apply (round_takes (idx st + n) h p st1)|].
    + lia.
    + rewrite R, skipn_length, I. lia.
    + lia.
    + rewrite R. apply commented_skipn. exact G.
    + rewrite R, skipn_skipn, I. replace (k + (idx st + n - (idx st + k))) with n by lia. exact St.
    + intros [q|[]] st2.
      * intros (j & J & T2). split; [exists (k + j); split; [lia|eapply took_trans; eassumption]|]. destruct T2 as [(_ & _ & I2 & _) _]. lia.
      * intros [-> E]. replace n with k by lia. exact T.
Qed.
End inline.
Lemma inline_takes : forall fuel n prev h st, n <= fuel -> n <= length (rem st) -> comments_have_text (rem st) -> stop (skipn n (rem st)) -> takes n (md_inline_nested fuel n prev h) st.
Proof.
  induction fuel as [|fuel IH]; intros n prev h st B L G St; cbn [md_inline_nested].
  - replace n with 0 by lia. cbn. apply took_refl.
  - apply (body_takes _ fuel); [exact IH|exact L|exact B|exact G|exact St].
Qed.

(** ** Lines *)
(** The rest of a line: [n] units from [st], [k] units after [st0] *)
Lemma w_inline k n prev h st0 st (Q : unit -> hst md_state -> Prop) : took k st0 st -> comments_have_text (rem st0) -> k + n <= length (rem st0) -> stop (skipn (k + n) (rem st0)) ->
  (forall st', took (k + n) st0 st' -> Q tt st') -> wp (md_inline n prev h) Q st.
Proof.
  intros T G L St H. pose proof (took_rem _ _ _ T) as R. eapply wp_mono; [apply inline_takes; [lia|rewrite R, skipn_length; lia|rewrite R; apply commented_skipn; exact G|rewrite R, skipn_skipn; exact St]|].
  intros [] st' T'. apply H. eapply took_trans; eassumption.
Qed.
Ltac inl_ := match goal with T : took ?k ?s0 ?st |- wp (md_inline ?n _ _) _ ?st => apply (w_inline k n _ _ s0 st); [exact T|assumption|try lia| |clear T; intros ? ?] end.
Lemma lead_le s : match_lead_spaces s <= length s.
Proof. unfold match_lead_spaces. etransitivity; [apply prefix_len_le|]. rewrite firstn_length. lia. Qed.

Section line.
Variables (n : nat) (st : hst md_state).
Hypotheses (L : n <= length (rem st)) (G : comments_have_text (rem st)) (St : stop (skipn n (rem st))).
Lemma heading_takes : all_of_ n (md_expect_heading n) st.
Proof.
  begin st. unfold all_of_, md_expect_heading. w. set (s := firstn n (rem st)). assert (Ls : length s = n) by (apply firstn_len; exact L). pose proof (lead_le s) as Ll. set (lead := match_lead_spaces s) in *.
  destruct (starts_with_ch (skipn lead s) (ch "#")) eqn:E; cbn [negb]; [|w; reflexivity].
  set (hs := prefix_len (N.eqb (ch "#")) (firstn 6 (skipn lead s))). assert (Lh : 0 < hs /\ lead + hs <= n).
  { split; [|pose proof (prefix_len_le (N.eqb (ch "#")) (firstn 6 (skipn lead s))) as X; fold hs in X; rewrite firstn_length, skipn_length in X; lia].
    unfold hs. destruct (skipn lead s) as [|c u]; [discriminate|]. cbn [starts_with_ch] in E. apply N.eqb_eq in E. subst c. cbn. lia. }
  assert (Ea : length (skipn (lead + hs) s) = n - (lead + hs)) by (rewrite skipn_length; lia).
  destruct (match skipn (lead + hs) s with x :: _ => negb (is_md_space x) | [] => false end); [w; reflexivity|]. cbv zeta. remember (match skipn (lead + hs) s with [] => 0 | _ => 1 end) as sp eqn:Es.
  assert (Esp : lead + hs + sp <= n) by (subst sp; revert Ea; destruct (skipn (lead + hs) s); cbn [length]; intros; lia).
  w. destruct sp as [|[|sp]].
  3:{ revert Es. destruct (skipn (lead + hs) s); discriminate. }
  - assert (lead + hs = n) by (revert Ea Es; destruct (skipn (lead + hs) s); cbn [length]; intros; [lia|discriminate]). replace (n - (lead + hs + 0)) with 0 by lia. cbn [Nat.eqb negb when]. w. replace n with (0 + lead + hs + 0) by lia. assumption.
  - assert (lead + hs < n) by (revert Ea Es; destruct (skipn (lead + hs) s); cbn [length]; intros; [discriminate|lia]). apply wp_when; intros Hz.
    + match goal with X : took _ st ?x |- _ => assert (T : took (lead + hs + 1) st x) by exact X; clear X end. w. pose proof (took_rem _ _ _ T) as Rt. set (m := n - (lead + hs + 1)) in *. set (v := firstn m (rem st'1)).
      assert (Lv : length v = m) by (apply firstn_len; rewrite Rt, skipn_length; lia). destruct (strip_bound v) as [B1 (a & b & d & Eb & Fa & Fb & Fd)]. rewrite Lv in B1. set (x := strip_atx_trailing v) in *. inl_.
      * replace (skipn (lead + hs + 1 + x) (rem st)) with (a ++ b ++ d ++ skipn n (rem st)); [apply stop_strip; assumption|]. rewrite !app_assoc, <- (app_assoc a b d), <- Eb. unfold v. rewrite Rt. rewrite skipn_firstn_comm, skipn_skipn.
        replace (skipn n (rem st)) with (skipn (m - x) (skipn (lead + hs + 1 + x) (rem st))) by (rewrite skipn_skipn; f_equal; lia). rewrite firstn_skipn. reflexivity.
      * w. replace n with (lead + hs + 1 + x + (m - x)) by lia. assumption.
    + w. apply negb_false_iff, Nat.eqb_eq in Hz. replace n with (0 + lead + hs + 1) by lia. assumption.
Qed.
Lemma break_takes : all_of_ n (md_expect_break n) st.
Proof.
  begin st. unfold all_of_, md_expect_break. w. set (s := firstn n (rem st)). assert (Ls : length s = n) by (apply firstn_len; exact L). pose proof (lead_le s) as Ll. set (lead := match_lead_spaces s) in *.
  destruct (skipn lead s) as [|c u] eqn:E; [w; reflexivity|]. assert (lead < n) by (apply (f_equal (@length N)) in E; rewrite skipn_length in E; cbn [length] in E; lia).
  destruct (negb _); [w; reflexivity|]. destruct (negb _); [w; reflexivity|]. destruct (_ <? 3); [w; reflexivity|]. w. replace n with (0 + lead + (n - lead)) by lia. assumption.
Qed.
Lemma fence_takes : all_of_ n (md_expect_fence n) st.
Proof.
  begin st. unfold all_of_, md_expect_fence. w. set (s := firstn n (rem st)). assert (Ls : length s = n) by (apply firstn_len; exact L). pose proof (lead_le s) as Ll. set (lead := match_lead_spaces s) in *.
  destruct (skipn lead s) as [|c u] eqn:E; [w; reflexivity|]. rewrite <- E. pose proof (prefix_len_le (N.eqb c) (skipn lead s)) as Lr. rewrite skipn_length, Ls in Lr. set (run := prefix_len (N.eqb c) (skipn lead s)) in *.
  destruct (negb _); [w; reflexivity|]. destruct (Nat.ltb_spec run 3); [w; reflexivity|]. destruct (_ && _); [w; reflexivity|]. w.
  match goal with T : took ?k ?s0 ?s |- wp (set_loc _) _ ?s => apply (w_set k _ s0 s); [exact T|unfold fence_ok; cbn [md_fenced md_fence_length]; intros _ _; lia|clear T; intros ? ?] end. w. replace n with (0 + lead + run + (n - lead - run)) by lia. assumption.
Qed.
Lemma indented_takes : all_of_ n (md_expect_indented n) st.
Proof.
  begin st. unfold all_of_, md_expect_indented. w. set (s := firstn n (rem st)). assert (Ls : length s = n) by (apply firstn_len; exact L). destruct s as [|c u] eqn:Es; [w; reflexivity|]. rewrite <- Es in *.
  match goal with |- context [negb _ && (?k <? 4)] => set (ind := k) end. assert (Li : ind <= n).
  { unfold ind. destruct (_ =? _)%N; [rewrite <- Ls, Es; cbn; lia|]. etransitivity; [apply prefix_len_le|]. rewrite firstn_length. lia. }
  destruct (_ && _); [w; reflexivity|]. w. replace n with (0 + ind + (n - ind)) by lia. assumption.
Qed.
Lemma marker_bound s : md_marker s <= length s.
Proof.
  destruct s as [|c u]; [cbn; lia|]. cbn [md_marker]. destruct (mem c _); [cbn; lia|]. destruct (is_ascii_digit c); [|lia]. set (s := c :: u). set (d := prefix_len is_ascii_digit (firstn 9 s)).
  destruct (skipn d s) as [|x t] eqn:E; [lia|]. destruct (mem x _); [|lia]. apply (f_equal (@length N)) in E. rewrite skipn_length in E. cbn [length] in E. lia.
Qed.
Lemma list_takes : all_of_ n (md_expect_list n) st.
Proof.
  begin st. unfold all_of_, md_expect_list. w. set (s := firstn n (rem st)). assert (Ls : length s = n) by (apply firstn_len; exact L). pose proof (prefix_len_le (N.eqb (ch " ")) s) as Ll. set (lead := prefix_len (N.eqb (ch " ")) s) in *.
  pose proof (marker_bound (skipn lead s)) as Lm. rewrite skipn_length, Ls in Lm. set (m := md_marker (skipn lead s)) in *. destruct (Nat.eqb_spec m 0); [w; reflexivity|].
  destruct (skipn (lead + m) s) as [|c u] eqn:E; [w; reflexivity|]. assert (lead + m < n) by (apply (f_equal (@length N)) in E; rewrite skipn_length in E; cbn [length] in E; lia). destruct (negb _); [w; reflexivity|]. w. inl_.
  - replace (0 + lead + m + 1 + (n - (lead + m) - 1)) with n by lia. exact St.
  - w. replace n with (0 + lead + m + 1 + (n - (lead + m) - 1)) by lia. assumption.
Qed.
End line.
(** [k] units after [st0] *)
Lemma w_block k n m st0 st (Q : bool -> hst md_state -> Prop) : took k st0 st -> comments_have_text (rem st0) -> k + n <= length (rem st0) -> stop (skipn (k + n) (rem st0)) ->
  (n <= length (rem st) -> comments_have_text (rem st) -> stop (skipn n (rem st)) -> all_of_ n m st) ->
  (forall st', took (k + n) st0 st' -> Q true st') -> Q false st -> wp m Q st.
Proof.
  intros T G L St H H1 H2. pose proof (took_rem _ _ _ T) as R. eapply wp_mono; [apply H; [rewrite R, skipn_length; lia|rewrite R; apply commented_skipn; exact G|rewrite R, skipn_skipn; exact St]|].
  intros [] st' T'; [apply H1; eapply took_trans; eassumption|]. subst st'. exact H2.
Qed.
Ltac blk n En := match goal with T : took ?k ?s0 ?st |- wp ?m _ ?st => apply wp_bind; apply (w_block k n _ s0 st); [exact T|assumption|lia|rewrite ?En; assumption| | |] end.
Lemma quote_takes : forall fuel n st, n < fuel -> n <= length (rem st) -> comments_have_text (rem st) -> stop (skipn n (rem st)) -> all_of_ n (md_expect_quote fuel n) st.
Proof.
  induction fuel as [|fuel IH]; intros n st Lf L G St; [lia|]. begin st. unfold all_of_. cbn [md_expect_quote]. w. set (s := firstn n (rem st)). assert (Ls : length s = n) by (apply firstn_len; exact L). pose proof (lead_le s) as Ll. set (lead := match_lead_spaces s) in *.
  destruct (starts_with_ch (skipn lead s) (ch ">")) eqn:E; cbn [negb]; [|w; reflexivity]. apply starts_length in E. rewrite Ls in E. cbv zeta.
  set (sp := match skipn (lead + 1) s with x :: _ => if is_md_space x then 1 else 0 | [] => 0 end). assert (Lsp : lead + 1 + sp <= n).
  { unfold sp. destruct (skipn (lead + 1) s) as [|x u] eqn:E1; [lia|]. apply (f_equal (@length N)) in E1. rewrite skipn_length in E1. cbn [length] in E1. destruct (is_md_space x); lia. }
  w. match goal with X : took _ st ?x |- _ => assert (T : took (lead + 1 + sp) st x) by exact X; clear X end. destruct (Nat.eqb_spec (n - (lead + 1 + sp)) 0) as [Z|Z]; [w; replace n with (lead + 1 + sp) by lia; assumption|].
  set (k := lead + 1 + sp) in *. assert (En : k + (n - k) = n) by lia.
  blk (n - k) En; [apply heading_takes|intros; w; rewrite <- En; assumption|]. blk (n - k) En; [intros; apply break_takes; assumption|intros; w; rewrite <- En; assumption|]. blk (n - k) En; [apply list_takes|intros; w; rewrite <- En; assumption|].
  blk (n - k) En; [apply IH; lia|intros; w; rewrite <- En; assumption|]. blk (n - k) En; [intros; apply indented_takes; assumption|intros; w; rewrite <- En; assumption|]. w. inl_; [rewrite En; exact St|]. w. rewrite <- En. assumption.
Qed.
Definition progress (m : MD unit) (st : hst md_state) : Prop := wp m (fun _ st' => exists k, 0 < k /\ took k st st') st.
Section lines.
Variable st : hst md_state.
Hypotheses (Ne : rem st <> []) (G : comments_have_text (rem st)).
Lemma block_line_takes : progress md_block_line st.
Proof.
  begin st. unfold progress, md_block_line. apply wp_bind, wp_get_rem. pose proof (line_stop (rem st)) as (L & St & P). specialize (P Ne). destruct (match_crlf_line (rem st)) as [n t]. cbn [fst snd] in *. w.
  destruct (md_is_blank _); [w; ends|].
  assert (En : 0 + n = n) by lia.
  blk n En; [apply heading_takes|intros; w; ends|]. blk n En; [intros; apply break_takes; assumption|intros; w; ends|]. blk n En; [intros; apply fence_takes; assumption|intros; w; ends|]. blk n En; [apply list_takes|intros; w; ends|].
  blk n En; [apply quote_takes; lia|intros; w; ends|]. blk n En; [intros; apply indented_takes; assumption|intros; w; ends|]. w. inl_; [exact St|]. w. ends.
Qed.
Lemma fenced_line_takes : fence_ok (loc st) -> md_fenced (loc st) = true -> progress md_fenced_line st.
Proof.
  intros Fo Fe. specialize (Fo Fe). begin st. unfold progress, md_fenced_line. apply wp_bind, wp_get_rem. pose proof (line_stop (rem st)) as (L & St & P). specialize (P Ne). destruct (match_crlf_line (rem st)) as [n t]. cbn [fst snd] in *. w.
  set (s := firstn n (rem st)). assert (Ls : length s = n) by (apply firstn_len; lia). pose proof (lead_le s) as Ll. set (lead := match_lead_spaces s) in *.
  pose proof (prefix_len_le (N.eqb (md_fence_char (loc st))) (skipn lead s)) as Lr. rewrite skipn_length, Ls in Lr. set (run := prefix_len _ (skipn lead s)) in *. destruct (Nat.leb_spec (md_fence_length (loc st)) run); cbn [andb]; [destruct (forallb _ _)|].
  - w. match goal with T : took ?k ?s0 ?s |- wp (set_loc _) _ ?s => apply (w_set k _ s0 s); [exact T|unfold fence_ok; cbn; discriminate|clear T; intros ? ?] end. w. ends.
  - w. ends.
  - w. ends.
Qed.
Lemma find_sub_bound : forall s p i, find_sub s p = Some i -> i + length p <= length s.
Proof. intros s p i H. pose proof (find_str_bound s p 0 i) as X. unfold find_str in X. cbn [Nat.ltb Nat.leb length skipn] in X. rewrite H in X. apply X. reflexivity. Qed.
Lemma comment_line_takes : progress md_comment_line st.
Proof.
  begin st. unfold progress, md_comment_line. apply wp_bind, wp_get_rem. pose proof (line_stop (rem st)) as (L & St & P). specialize (P Ne). destruct (match_crlf_line (rem st)) as [n t]. cbn [fst snd] in *. w.
  set (s := firstn n (rem st)). assert (Ls : length s = n) by (apply firstn_len; lia). destruct (find_sub s (bs "-->")) as [i|] eqn:F; [|w; ends]. apply find_sub_bound in F. rewrite Ls in F. change (length (bs "-->")) with 3 in F. w.
  match goal with T : took ?k ?s0 ?s |- wp (set_loc _) _ ?s => apply (w_set k _ s0 s); [exact T|unfold fence_ok; cbn; auto|clear T; intros ? ?] end. w. inl_; [|w; ends]. replace (0 + i + 3 + (n - i - 3)) with n by lia. exact St.
Qed.
End lines.
Lemma line_takes st : rem st <> [] -> comments_have_text (rem st) -> fence_ok (loc st) -> progress md_line st.
Proof.
  intros Ne G F. unfold progress, md_line. apply wp_bind, wp_get_loc. destruct (md_fenced (loc st)) eqn:E; [apply fenced_line_takes; assumption|]. destruct (md_comment (loc st)); [apply comment_line_takes|apply block_line_takes]; assumption.
Qed.

(** ** C132 *)
Theorem C132_markdown_partial : forall src, comments_have_text src -> highlights highlight_markdown src.
Proof.
  intros src G. apply highlights_from_ops. intros strict. unfold highlight_markdown. apply (run_ok anyc). apply wp_bind. set (st0 := mk_hst src 0 [] _).
  assert (W : wp (while_rem md_line) (fun _ st' => exists k, took k st0 st') st0).
  { unfold while_rem. apply wp_hloop with (Inv := fun _ st1 => exists k, took k st0 st1) (mu := fun _ st1 => length (rem st1)).
    - exists 0. apply took_refl.
    - lia.
    - intros [] st1 (k & T). pose proof (took_rem _ _ _ T) as R. apply wp_bind. apply wp_eof; intros Er; [apply wp_ret; eauto|]. apply wp_bind. eapply wp_mono; [apply line_takes; [exact Er|rewrite R; apply commented_skipn; exact G|]|].
      + apply T. cbn. discriminate.
      + intros [] st2 (j & J & T2). apply wp_ret. split; [exists (k + j); eapply took_trans; eassumption|]. pose proof (took_len _ _ _ T2). rewrite (took_rem _ _ _ T2), skipn_length. lia. }
  eapply wp_mono; [exact W|]. intros [] st' (k & [S1 _]). apply wp_ret. split; [reflexivity|eauto].
Qed.
Print Assumptions C132_markdown_partial.
(** What is missing: the highlighter fails when a comment starts right at the end of a line (or of the text inside emphasis, a link or a heading). *)
Theorem C132_markdown_refuted : ~ always_highlights highlight_markdown.
Proof.
  intros H. destruct (H (bs "<!--") false false 1 ltac:(lia)) as (ops & chunks & E & _). vm_compute in E. discriminate.
Qed.
(** Whatever follows the first line *)
Theorem C132_markdown_comment_line_refuted : forall rest strict, highlight_markdown (bs "<!--" ++ 10%N :: rest) strict = Fail FDebugAssert.
Proof. intros rest strict. vm_compute. reflexivity. Qed.
Print Assumptions C132_markdown_refuted.
Print Assumptions C132_markdown_comment_line_refuted.
Example C132_case : comments_have_text (bs "# a <!-- b --> *c*") /\ exists ops, highlight_markdown (bs "# a <!-- b --> *c*") false = Ok (true, ops) /\ length ops = 8.
Proof.
  split; [|eexists; split; [vm_compute; reflexivity|reflexivity]]. intros a b E. exists [32%N], 98%N, (bs " --> *c*").
  assert (X : b = bs " b --> *c*").
  { do 15 (destruct a as [|? a]; [try discriminate; injection E as <-; try reflexivity|try discriminate; injection E as <- E]). apply (f_equal (@length N)) in E. rewrite !app_length in E. cbn in E. lia. }
  rewrite X. split; [reflexivity|]. split; [repeat constructor|]. cbn. lia.
Qed.
