(** * Properties of the JavaScript and TypeScript highlighters *)
From Coq Require Import List NArith ZArith Bool Arith Lia.
From Verif Require Import M_Base L_Base S_Tokens M_Utf8 L_Utf8 L_Any P_Utf8 L_Wf8 L_Utf8Ascii M_Emit S_Ops L_Emit M_Types M_Chars S_Chars P_Chars M_Parse S_Parse L_Parse P_Parse
  M_Api M_Highlighter S_Highlight L_Highlighter P_LangCpp L_Auto M_Table M_TokenLoop M_Json L_JsonText P_Json L_Symbols M_LangHtml M_LangJs S_LangJs.
Import ListNotations.
Notation anyj := (anything).
Lemma js_options : good_options js_number_options.
Proof. split; [right; reflexivity|]. split; [repeat constructor; discriminate|]. discriminate. Qed.
#[local] Hint Resolve js_options : good_opts.

(** ** Operations behind the position: the last [c] of the [k] consumed units are not part of an operation yet. *)
Definition trails {S} (k c : nat) (st st' : hst S) : Prop :=
  c <= k <= length (rem st) /\ rem st' = skipn k (rem st) /\ idx st' = idx st + k
  /\ exists new, rops st' = new ++ rops st /\ ops_in (idx st) (idx st' - c) (rev new).
Lemma steps_trails {S} k (st st' : hst S) : steps anyj k st st' -> trails k 0 st st'.
Proof. intros (L & R & I & new & O & B & _). split; [lia|]. split; [exact R|]. split; [exact I|]. exists new. rewrite Nat.sub_0_r. auto. Qed.
Lemma trails_steps {S} k (st st' : hst S) : trails k 0 st st' -> steps anyj k st st'.
Proof. intros (L & R & I & new & O & B). split; [lia|]. split; [exact R|]. split; [exact I|]. exists new. rewrite Nat.sub_0_r in B. split; [exact O|]. split; [exact B|]. intros. left. exact Logic.I. Qed.
Lemma trails_len {S} k c (st st' : hst S) : trails k c st st' -> k <= length (rem st) /\ length (rem st') = length (rem st) - k.
Proof. intros (L & R & _). rewrite R, skipn_length. lia. Qed.
Lemma trails_rem {S} k c (st st' : hst S) : trails k c st st' -> rem st' = skipn k (rem st).
Proof. intros (_ & R & _). exact R. Qed.
Lemma trails_then {S} k c n (st st1 st2 : hst S) : trails k 0 st st1 -> steps anyj n st1 st2 -> c = 0 -> trails (k + n) c st st2.
Proof. intros H1 H2 ->. apply steps_trails. eapply steps_trans; [apply trails_steps; exact H1|exact H2]. Qed.
Lemma trail_advance {S} k c n (Q : unit -> hst S -> Prop) st st1 : trails k c st st1 -> n <= length (rem st1) ->
  (forall st2, trails (k + n) (c + n) st st2 -> loc st2 = loc st1 -> rem st2 = skipn n (rem st1) -> Q tt st2) -> wp (advance n) Q st1.
Proof.
  intros (L & R & I & new & O & B) Ln H. unfold wp, advance. rewrite (proj2 (Nat.leb_le _ _) Ln). apply H; [|reflexivity|reflexivity].
  rewrite R, skipn_length in Ln. split; [lia|]. split; [cbn [rem]; rewrite R, skipn_skipn; reflexivity|]. split; [cbn [idx]; lia|]. exists new. cbn [idx rops]. split; [exact O|].
  replace (idx st1 + n - (c + n)) with (idx st1 - c) by lia. exact B.
Qed.
Lemma trail_flush k c (Q : unit -> hst js_input -> Prop) st st1 : trails k c st st1 ->
  (forall st2, steps anyj k st st2 -> rem st2 = rem st1 -> idx st2 = idx st1 -> loc st2 = loc st1 -> Q tt st2) -> wp (js_flush c) Q st1.
Proof.
  intros T H. pose proof (trails_len _ _ _ _ T) as Len. destruct T as (L & R & I & new & O & B). unfold js_flush. apply wp_bind, wp_get_idx. apply wp_when; intros E; bool_hyps.
  - apply wp_emit_at; [lia|lia|]. apply H; try reflexivity. split; [lia|]. split; [exact R|]. split; [exact I|]. exists (OEmit (idx st1 - c) c hl_string false :: new). cbn [rops idx]. split; [rewrite O; reflexivity|].
    split; [|intros; left; exact Logic.I]. cbn [rev]. eapply ops_in_app; [exact B|]. constructor; [lia|lia|]. constructor. lia.
  - subst c. apply H; try reflexivity. apply trails_steps. split; [lia|]. split; [exact R|]. split; [exact I|]. exists new. auto.
Qed.

(** ** The matchers *)
Lemma whitespace_ok s : exists n, js_match_whitespace s = Ok n /\ n <= length s.
Proof. apply utf8_length_if_any. Qed.
Lemma line_len s : match_line_comment s = 0 \/ 2 <= match_line_comment s <= length s.
Proof.
  destruct (Nat.eq_dec (match_line_comment s) 0) as [E|E]; [left; exact E|right]. destruct (match_line_comment_spec _ E) as (t & r & Es & L & (b & Et & _) & _).
  rewrite <- L, Es, app_length. subst t. rewrite app_length. change (length (bs "//")) with 2. lia.
Qed.
Lemma before_le s : before_line_terminator s <= length s.
Proof. induction s as [|c s IH]; [cbn; lia|]. change (before_line_terminator (c :: s)) with (if starts_with_line_terminator (c :: s) then 0 else S (before_line_terminator s)). destruct (starts_with_line_terminator _); cbn [length]; lia. Qed.
Lemma hashbang_len s : js_match_hashbang s = 0 \/ 2 <= js_match_hashbang s <= length s.
Proof.
  unfold js_match_hashbang. destruct (starts_with s (bs "#!")) eqn:E; cbn [negb]; [|left; reflexivity]. right. apply starts_with_len in E. change (length (bs "#!")) with 2 in E.
  pose proof (before_le (skipn 2 s)) as B. rewrite skipn_length in B. lia.
Qed.

(** Escape sequences *)
Lemma is_octal_inside c : is_ascii_octal_digit c = true -> inside c.
Proof. unfold is_ascii_octal_digit, between. intros H. apply andb_prop in H as [A B]. apply N.leb_le in A, B. unfold inside. lia. Qed.
Lemma mem_not c l : mem c l = false -> ~ In c l.
Proof. intros H I. apply mem_In in I. congruence. Qed.
Lemma hex_len k m d r : (k = hex_2 /\ m = 2 \/ k = hex_4 /\ m = 4) -> length d = m -> es_length (match_common_escape k (d ++ r)) = m.
Proof.
  intros K L. assert (F : firstn m (d ++ r) = d) by (rewrite <- L; apply firstn_app_exact).
  destruct K as [[-> ->]|[-> ->]]; cbn [match_common_escape escape_type_min_length]; rewrite F, L; reflexivity.
Qed.
Lemma braced_len d r : exists w, es_length (match_common_braced_escape (ch "{" :: d ++ ch "}" :: r) is_ascii_hex_digit) = 2 + length w /\ (exists u, d ++ [ch "}"] = w ++ [ch "}"] ++ u).
Proof.
  unfold match_common_braced_escape. change (starts_with_ch (ch "{" :: d ++ ch "}" :: r) 123) with true. cbn [negb es_length].
  assert (S : exists w u, d ++ [ch "}"] = w ++ [ch "}"] ++ u /\ ~ In (ch "}") w).
  { clear. induction d as [|c d (w & u & E & N)]; [exists [], []; split; [reflexivity|intros []]|]. destruct (N.eq_dec c (ch "}")) as [->|Ne]; [exists [], (d ++ [ch "}"]); split; [reflexivity|intros []]|].
    exists (c :: w), u. split; [cbn [app]; rewrite E; reflexivity|]. intros [X|X]; auto. }
  destruct S as (w & u & E & N). exists w. split; [|eauto].
  assert (E' : ch "{" :: d ++ ch "}" :: r = ch "{" :: w ++ ch "}" :: u ++ r).
  { f_equal. change (ch "}" :: r) with ([ch "}"] ++ r). rewrite app_assoc, E, <- !app_assoc. reflexivity. }
  rewrite E'. assert (LB : length_before (ch "{" :: w ++ ch "}" :: u ++ r) 125 1 = 1 + length w).
  { rewrite length_before_eq by (cbn [length]; lia). cbn [skipn]. f_equal. rewrite prefix_len_app_all; [cbn [prefix_len]; change (negb (ch "}" =? 125)%N) with false; cbn iota; lia|].
    apply Forall_forall. intros c Hc. apply negb_true_iff, N.eqb_neq. intros ->. apply N. exact Hc. }
  rewrite LB. cbn [length]. rewrite app_length. cbn [length]. rewrite (proj2 (Nat.eqb_neq _ _)) by lia. cbn [orb nth Nat.add]. rewrite app_nth2 by lia. rewrite Nat.sub_diag. cbn [nth]. change (N.eqb (ch "}") 125) with true. cbn [negb]. lia.
Qed.

Lemma escape_total s : exists e, js_match_escape s = Ok e /\ es_length e <= length s.
Proof.
  unfold js_match_escape. destruct s as [|c0 [|c1 rest]]; try (eexists; split; [reflexivity|cbn; lia]).
  assert (C : forall k, exists e, match_common_escape_at k (c0 :: c1 :: rest) 2 = Ok e /\ es_length e <= length (c0 :: c1 :: rest)).
  { intros k. unfold match_common_escape_at. cbn [length Nat.leb check bind skipn es_length]. eexists. split; [reflexivity|]. cbn [es_length]. pose proof (match_common_escape_le k rest). lia. }
  repeat match goal with
  | |- exists e, match_common_escape_at _ _ _ = _ /\ _ => apply C
  | |- exists e, Ok _ = _ /\ _ => eexists; split; [reflexivity|cbn [es_length length] in *; lia]
  | |- context [if ?b then _ else _] => destruct b eqn:?
  | |- context [match ?l with [] => _ | _ => _ end] => destruct l
  end.
Qed.
Lemma escape_within c v : escape_inside (c :: v) ->
  exists w r e, v = w ++ r /\ js_match_escape (92%N :: c :: v) = Ok e /\ es_length e = 2 + length w /\ Forall inside w.
Proof.
  intros [Hx Hu]. unfold js_match_escape. change (92 =? ch "\")%N with true. cbn [negb].
  destruct (N.eqb_spec c (ch "x")) as [->|Nx].
  { destruct (Hx v eq_refl) as (d & r & -> & L & F). exists d, r. eexists. split; [reflexivity|]. split; [unfold match_common_escape_at; cbn [length Nat.leb check bind skipn]; reflexivity|].
    cbn [es_length]. rewrite (hex_len hex_2 2) by auto. rewrite L. auto. }
  destruct (N.eqb_spec c (ch "u")) as [->|Nu].
  { destruct (Hu v eq_refl) as [(d & r & -> & L & F & Nb)|(d & r & -> & F)].
    - assert (Sb : starts_with_ch (d ++ r) (ch "{") = false). { destruct d as [|x d]; [discriminate|]. cbn [hd] in Nb. cbn. apply N.eqb_neq. exact Nb. }
      rewrite Sb. exists d, r. eexists. split; [reflexivity|]. split; [unfold match_common_escape_at; cbn [length Nat.leb check bind skipn]; reflexivity|].
      cbn [es_length]. rewrite (hex_len hex_4 4) by auto. rewrite L. auto.
    - change (starts_with_ch (ch "{" :: d ++ ch "}" :: r) (ch "{")) with true. destruct (braced_len d r) as (w & L & u & E).
      exists (ch "{" :: w ++ [ch "}"]), (u ++ r). eexists.
      split; [cbn [app]; f_equal; change (ch "}" :: r) with ([ch "}"] ++ r); rewrite app_assoc, E, <- !app_assoc; reflexivity|].
      split; [unfold match_common_escape_at; cbn [length Nat.leb check bind skipn]; reflexivity|].
      cbn [es_length match_common_escape]. rewrite L. split; [cbn [length]; rewrite app_length; cbn [length]; lia|].
      constructor; [repeat split; discriminate|]. assert (Fd : Forall inside (d ++ [ch "}"])) by (apply Forall_app; split; [exact F|repeat constructor; discriminate]).
      rewrite E, app_assoc in Fd. apply Forall_app in Fd. apply Fd. }
  clear Hx Hu.
  destruct (mem c (bs "0123")).
  { destruct v as [|d v]; [exists [], [], (mk_escape 2 false); auto|]. destruct (is_ascii_octal_digit d) eqn:Ed; [|exists [], (d :: v), (mk_escape 2 false); auto]. apply is_octal_inside in Ed.
    destruct v as [|e v]; [exists [d], [], (mk_escape 3 false); auto|]. destruct (is_ascii_octal_digit e) eqn:Ee; [|exists [d], (e :: v), (mk_escape 3 false); auto]. apply is_octal_inside in Ee.
    exists [d; e], v, (mk_escape 4 false); auto 7. }
  destruct (mem c (bs "4567")).
  { destruct v as [|d v]; [exists [], [], (mk_escape 2 false); auto|]. destruct (is_ascii_octal_digit d) eqn:Ed; [|exists [], (d :: v), (mk_escape 2 false); auto]. apply is_octal_inside in Ed.
    exists [d], v, (mk_escape 3 false); auto. }
  exists [], v, (mk_escape 2 false); auto.
Qed.

(** String literals *)
Lemma loop_shift q s : forall e n m, js_string_loop s q e (n + m) = mk_enclosed (n + en_length (js_string_loop s q e m)) (en_terminated (js_string_loop s q e m)).
Proof.
  induction s as [|c s IH]; intros e n m; cbn [js_string_loop en_length en_terminated]; [reflexivity|]. rewrite <- Nat.add_succ_r.
  destruct e; [apply IH|]. destruct (c =? ch "\")%N; [apply IH|]. destruct (c =? q)%N; [cbn [en_length en_terminated]; f_equal; lia|]. destruct (c =? 10)%N; [reflexivity|apply IH].
Qed.
Lemma loop_from q s e n : js_string_loop s q e n = mk_enclosed (n + en_length (js_string_loop s q e 0)) (en_terminated (js_string_loop s q e 0)).
Proof. rewrite <- (Nat.add_0_r n) at 1. apply loop_shift. Qed.
Lemma loop_le q s : forall e, en_length (js_string_loop s q e 0) <= length s.
Proof.
  induction s as [|c s IH]; intros e; cbn [js_string_loop en_length length]; [lia|].
  assert (I : forall e, en_length (js_string_loop s q e 1) <= S (length s)) by (intros e'; rewrite loop_from; cbn [en_length]; specialize (IH e'); lia).
  destruct e; [apply I|]. destruct (c =? ch "\")%N; [apply I|]. destruct (c =? q)%N; [cbn; lia|]. destruct (c =? 10)%N; [cbn; lia|apply I].
Qed.
Lemma loop_terminated q s : forall e n, en_terminated (js_string_loop s q e n) = true -> S n <= en_length (js_string_loop s q e n).
Proof.
  induction s as [|c s IH]; intros e n; cbn [js_string_loop en_length en_terminated]; [discriminate|].
  assert (I : forall e, en_terminated (js_string_loop s q e (S n)) = true -> S n <= en_length (js_string_loop s q e (S n))) by (intros e' H; specialize (IH _ _ H); lia).
  destruct e; [apply I|]. destruct (c =? ch "\")%N; [apply I|]. destruct (c =? q)%N; [cbn; lia|]. destruct (c =? 10)%N; [discriminate|apply I].
Qed.
Lemma loop_inside q w s n : q = 39%N \/ q = 34%N -> Forall inside w -> js_string_loop (w ++ s) q false n = js_string_loop s q false (length w + n).
Proof.
  intros Hq F. revert n. induction F as [|c w (A & B & C & D) F IH]; intros n; [reflexivity|]. cbn [app js_string_loop length].
  rewrite (proj2 (N.eqb_neq c (ch "\"))) by exact C. rewrite (proj2 (N.eqb_neq c q)) by (destruct Hq as [-> | ->]; assumption). rewrite (proj2 (N.eqb_neq c 10)) by exact D. rewrite IH. f_equal. lia.
Qed.

Lemma loop_advance q n : forall s k b t, js_string_loop s q false 0 = mk_enclosed (k + b) t -> n <= k -> (t = true -> b = 1) -> ~ In 92%N (firstn n s) ->
  n <= length s /\ js_string_loop (skipn n s) q false 0 = mk_enclosed (k - n + b) t.
Proof.
  induction n as [|n IH]; intros s k b t E Lk Hb N; [rewrite Nat.sub_0_r; split; [lia|exact E]|].
  destruct s as [|c s]; cbn [js_string_loop] in E; [inversion E; lia|]. cbn [firstn] in N. rewrite (proj2 (N.eqb_neq c (ch "\"))) in E by (intros ->; apply N; left; reflexivity).
  destruct (c =? q)%N; [inversion E; subst; specialize (Hb eq_refl); lia|]. destruct (c =? 10)%N; [inversion E; lia|].
  rewrite loop_from in E. destruct (IH s (k - 1) b t) as [L' E'].
  - destruct (js_string_loop s q false 0) as [l t']. cbn [en_length en_terminated] in E. inversion E. f_equal. lia.
  - lia.
  - exact Hb.
  - intros I. apply N. right. exact I.
  - cbn [length skipn]. split; [lia|]. rewrite E'. f_equal. lia.
Qed.
Lemma escapes_skip n s : escapes_inside s -> escapes_inside (skipn n s).
Proof. intros H a b E. apply (H (firstn n s ++ a) b). rewrite <- app_assoc, <- E. symmetry. apply firstn_skipn. Qed.
Lemma find0 c s : match find_ch s c 0 with Some n => n < length s /\ ~ In c (firstn n s) /\ (starts_with_ch s c = false -> 0 < n) | None => ~ In c s end.
Proof.
  assert (G : match find_if (fun x => (x =? c)%N) s with Some n => n < length s /\ ~ In c (firstn n s) | None => ~ In c s end).
  { induction s as [|x s IH]; [intros []|]. cbn [find_if]. destruct (N.eqb_spec x c) as [->|Nx]; [split; [cbn; lia|intros []]|].
    destruct (find_if _ s) as [n|]; cbn [firstn length]; [split; [lia|]|]; intros [I|I]; try congruence; tauto. }
  unfold find_ch, find_if_from. cbn [skipn]. destruct (find_if _ s) as [n|] eqn:E; [|exact G]. cbn [Nat.add]. destruct G as [L N]. split; [exact L|]. split; [exact N|].
  intros Sw. destruct n; [|lia]. destruct s as [|x s]; [discriminate|]. cbn [find_if] in E. unfold starts_with_ch in Sw. destruct (N.eqb_spec x c) as [->|Nx]; [discriminate|]. destruct (find_if _ s); discriminate.
Qed.
Lemma firstn_le_not {A} (c : A) n m s : n <= m -> ~ In c (firstn m s) -> ~ In c (firstn n s).
Proof.
  intros L N I. apply N. clear N. revert n m L I. induction s as [|x s IH]; intros n m L; [rewrite !firstn_nil; auto|]. destruct n; [intros []|]. destruct m; [lia|]. cbn [firstn].
  intros [->|I]; [left; reflexivity|right]. apply (IH n m); [lia|exact I].
Qed.
Lemma in_firstn_ {A} (c : A) n s : In c (firstn n s) -> In c s.
Proof. intros I. rewrite <- (firstn_skipn n s). apply in_or_app. left. exact I. Qed.

Definition string_inv (q : N) (t : bool) (st : hst js_input) (a : nat * option nat) (st1 : hst js_input) : Prop :=
  exists K k, snd a = Some k /\ trails K (fst a) st st1
  /\ js_string_loop (rem st1) q false 0 = mk_enclosed (k + (if t then 1 else 0)) t /\ escapes_inside (rem st1).
Lemma starts_92 s : starts_with_ch s (ch "\") = true -> exists u, s = 92%N :: u.
Proof. destruct s as [|c u]; [discriminate|]. cbn. intros H. apply N.eqb_eq in H as ->. eauto. Qed.
Lemma string_round q t st a st1 : q = 39%N \/ q = 34%N -> string_inv q t st a st1 ->
  wp (js_string_round a) (fun r st2 => match r with
    | inl a' => string_inv q t st a' st2 /\ length (rem st2) < length (rem st1)
    | inr c => exists K, trails K c st st2 /\ (t = true -> 1 <= length (rem st2)) end) st1.
Proof.
  intros Hq (K & k & Ek & T & E & X). destruct a as [chars o]. cbn [fst snd] in *. subst o. unfold js_string_round.
  destruct k as [|k].
  { apply wp_ret. exists K. split; [exact T|]. intros ->. pose proof (loop_le q (rem st1) false) as L. rewrite E in L. cbn [en_length] in L. lia. }
  set (k1 := S k) in *. assert (K1 : 0 < k1) by (subst k1; lia). clearbody k1.
  destruct (match Some k1 with Some 0 => true | _ => false end) eqn:Z; [destruct k1; [lia|discriminate]|]. clear Z.
  apply wp_bind, wp_get_rem. destruct (starts_with_ch (rem st1) (ch "\")) eqn:Sw.
  - apply starts_92 in Sw as [u Eu]. destruct u as [|c v].
    + rewrite Eu in *. cbn in E. inversion E as [[E1 E2]]. subst t. rewrite Nat.add_0_r in E1. subst k1.
      apply wp_bind. eapply wp_lift; [reflexivity|]. cbn [es_length Nat.eqb negb]. apply wp_bind. eapply trail_advance; [exact T|rewrite Eu; cbn; lia|]. intros st2 T2 _ R2. rewrite Eu in R2. cbn [skipn] in R2.
      apply wp_ret. split; [|rewrite R2; cbn; lia]. exists (K + 1), 0. split; [reflexivity|]. split; [exact T2|]. rewrite R2. split; [reflexivity|]. intros a b Eb. destruct a; discriminate.
    + assert (Xi : escape_inside (c :: v)) by (apply (X [] (c :: v)); exact Eu). destruct (escape_within c v Xi) as (w & r & e & Ev & Em & Le & Fw).
      rewrite Eu. apply wp_bind. eapply wp_lift; [exact Em|]. rewrite Le. cbn [Nat.add Nat.eqb negb]. apply wp_bind. eapply trail_flush; [exact T|]. intros st2 S2 R2 _ _.
      assert (Rn : skipn (S (S (length w))) (rem st2) = r). { rewrite R2, Eu, Ev. cbn [skipn]. apply skipn_app_exact. }
      assert (Ln : S (S (length w)) <= length (rem st2)). { rewrite R2, Eu, Ev. cbn [length]. rewrite app_length. lia. }
      assert (Ek : js_string_loop r q false 0 = mk_enclosed (k1 - S (S (length w)) + (if t then 1 else 0)) t /\ S (S (length w)) <= k1).
      { rewrite Eu, Ev in E. cbn [js_string_loop] in E. change (92 =? ch "\")%N with true in E. cbn iota in E. rewrite (loop_inside q w r _ Hq Fw), loop_from in E.
        pose proof (loop_terminated q r false 0) as Lt. destruct (js_string_loop r q false 0) as [l t']. cbn [en_length en_terminated] in *. inversion E as [[E1 E2]]. subst t'. destruct t; [specialize (Lt eq_refl)|]; split; try (f_equal; lia); lia. }
      destruct Ek as [Er Lk]. apply wp_bind. apply (wp_emit_adv anyj); [lia|]. intros st3 S3 _. apply wp_ret. rewrite (proj2 (Nat.leb_le _ _) Lk).
      pose proof (steps_rem _ _ _ _ S3) as R3. rewrite Rn in R3. split; [|rewrite R3, ?Eu, ?Ev; cbn [length]; rewrite app_length; lia].
      exists (K + S (S (length w))), (k1 - S (S (length w))). split; [reflexivity|]. split; [apply steps_trails; eapply steps_trans; eassumption|]. rewrite R3. split; [exact Er|]. rewrite <- Rn, R2. apply escapes_skip. exact X.
  - pose proof (find0 (ch "\") (rem st1)) as F. cbv zeta.
    assert (B : exists n, 0 < n <= k1 /\ ~ In 92%N (firstn n (rem st1)) /\ match find_ch (rem st1) (ch "\") 0 with Some f => Some (Nat.min k1 f) | None => Some k1 end = Some n).
    { destruct (find_ch (rem st1) (ch "\") 0) as [f|]; [|exists k1; split; [lia|]; split; [|reflexivity]; intros I; apply F; eapply in_firstn_; exact I].
      destruct F as (Lf & Nf & Pf). specialize (Pf Sw). exists (Nat.min k1 f). split; [lia|]. split; [|reflexivity]. eapply firstn_le_not; [|exact Nf]. lia. }
    destruct B as (n & Ln & Nn & En).
    destruct (loop_advance q n (rem st1) k1 (if t then 1 else 0) t E) as [Lr Er]; [lia|intros ->; reflexivity|exact Nn|].
    assert (G : wp (advance n ;; ret (inl (chars + n, if n <=? k1 then Some (k1 - n) else None))) (fun (r : (nat * option nat) + nat) st2 => match r with
      | inl a' => string_inv q t st a' st2 /\ length (rem st2) < length (rem st1)
      | inr c => exists K, trails K c st st2 /\ (t = true -> 1 <= length (rem st2)) end) st1).
    { apply wp_bind; eapply trail_advance; [exact T|exact Lr|]; intros st2 T2 _ R2; apply wp_ret; rewrite (proj2 (Nat.leb_le n k1)) by lia;
       split; [|rewrite R2, skipn_length; lia]; exists (K + n), (k1 - n); split; [reflexivity|]; split; [exact T2|]; rewrite R2; split; [exact Er|apply escapes_skip; exact X]. }
    destruct n as [|n]; [lia|]. destruct (find_ch (rem st1) (ch "\") 0) as [f|]; injection En as En.
    + rewrite En. exact G.
    + rewrite En in *. exact G.
Qed.
Lemma js_string st : escapes_inside (rem st) -> wp js_expect_string (attempt anyj st) st.
Proof.
  intros X. begin_steps anyj st. unfold js_expect_string. hl1. hl1. cbv zeta. destruct (rem st) as [|q s] eqn:Er; [cbn [js_match_string en_length Nat.eqb]; apply wp_ret; reflexivity|].
  cbn [js_match_string]. destruct ((q =? 39) || (q =? 34))%N eqn:Eq; [|cbn [en_length Nat.eqb]; apply wp_ret; reflexivity].
  assert (Hq : q = 39%N \/ q = 34%N) by (apply orb_prop in Eq as [Eq|Eq]; apply N.eqb_eq in Eq; auto).
  rewrite loop_from. pose proof (loop_le q s false) as Ll. pose proof (loop_terminated q s false 0) as Lt. destruct (js_string_loop s q false 0) as [l t] eqn:El. cbn [en_length en_terminated] in *. cbn [Nat.add Nat.eqb].
  apply wp_bind. unfold js_highlight_string. cbn [en_length en_terminated]. apply wp_bind, wp_check; [reflexivity|]. apply wp_bind, (wp_emit_adv anyj); [rewrite Er; cbn [length]; lia|]. intros st1 S1 _.
  pose proof (steps_rem _ _ _ _ S1) as R1. rewrite Er in R1. cbn [skipn] in R1.
  apply wp_bind. eapply wp_mono with (P := fun c st2 => exists K, trails K c st1 st2 /\ (t = true -> 1 <= length (rem st2))).
  { eapply wp_hloop with (Inv := string_inv q t st1) (mu := fun _ st2 => length (rem st2)); [|lia|].
    - exists 0, (S l - (if t then 2 else 1)). cbn [fst snd]. split; [reflexivity|]. split; [apply steps_trails, steps_refl|]. rewrite R1, El. split; [destruct t; [specialize (Lt eq_refl)|]; f_equal; lia|].
      change s with (skipn 1 (q :: s)). apply escapes_skip. exact X.
    - intros a st2 I. eapply wp_mono; [apply (string_round q t st1 a st2 Hq I)|]. intros [a'|c] st3; auto. }
  intros c st2 (K & T & Ht). apply wp_bind. eapply trail_flush; [exact T|]. intros st3 S3 R3 _ _. pose proof (steps_trans _ _ _ _ _ _ S1 S3) as S13. rewrite <- R3 in Ht.
  clear - S13 Ht H. apply wp_bind. destruct t; cbn [when].
  - specialize (Ht eq_refl). apply (wp_emit_adv anyj); [lia|]. intros st4 S4 _. pose proof (steps_trans _ _ _ _ _ _ S13 S4) as S14. clear S13 S4 H. go. fin.
  - apply wp_ret. clear H. go. fin.
Qed.

(** ** The tokens *)
Lemma js_whitespace st : wp js_expect_whitespace (attempt anyj st) st.
Proof.
  unfold js_expect_whitespace. apply wp_bind, wp_get_rem. destruct (whitespace_ok (rem st)) as (n & E & L). apply wp_bind. eapply wp_lift; [exact E|]. apply wp_bind.
  destruct n as [|n].
  - unfold wp, advance. cbn [Nat.leb]. destruct st as [r i o l]. cbn [rem idx rops loc skipn]. rewrite Nat.add_0_r. reflexivity.
  - apply (wp_advance anyj); [exact L|apply Forall_anything|]. intros st' H _. apply wp_ret. exists (S n). split; [exact H|lia].
Qed.
Lemma js_hashbang st : wp js_expect_hashbang (attempt anyj st) st.
Proof. begin_steps anyj st. unfold js_expect_hashbang. pose proof (hashbang_len (rem st)) as L. go; fin. Qed.
Lemma js_line st : wp js_expect_line_comment (attempt anyj st) st.
Proof. begin_steps anyj st. unfold js_expect_line_comment, js_highlight_line_comment. pose proof (line_len (rem st)) as L. go; fin. Qed.
Lemma js_block st : wp js_expect_block_comment (attempt anyj st) st.
Proof.
  begin_steps anyj st. unfold js_expect_block_comment. hl1. hl1. cbv zeta. hl1; [apply wp_ret; reflexivity|]. bool_hyps. pose proof (match_block_comment_le (rem st)) as L.
  match goal with E : en_length _ <> 0 |- _ => destruct (block_prefix _ E) as [L2 L4] end.
  set (e := match_block_comment (rem st)) in *. apply wp_bind. unfold js_highlight_block_comment. apply wp_bind, wp_check; [bool_goal; assumption|]. apply wp_bind, wp_get_idx. apply wp_bind.
  eapply ahead_emit; [apply ahead_refl|lia|lia|lia|]. intros st1 A1. cbv zeta.
  assert (F : forall p st2, ahead anyj p st st2 -> p = en_length e -> wp (advance (en_length e) ;; set_loc regex_goal) (fun _ st' => exists k, steps anyj k st st' /\ 0 < k) st2).
  { intros p st2 A Ep. apply wp_bind. eapply ahead_advance; [exact A|lia|]. intros st4 S4 _. clear - S4 L2. go. fin. }
  apply wp_mono with (P := fun _ st' => exists k, steps anyj k st st' /\ 0 < k); [|intros _ st' H'; apply wp_ret; exact H'].
  apply wp_bind. apply wp_when; intros Hn; bool_hyps.
  - eapply ahead_emit; [exact A1|lia|lia|destruct (en_terminated e); lia|]. intros st2 A2. apply wp_bind. destruct (en_terminated e) eqn:Et; cbn [when].
    + specialize (L4 eq_refl). eapply ahead_emit; [exact A2|lia|lia|lia|]. intros st3 A3. eapply F; [exact A3|lia].
    + apply wp_ret. eapply F; [exact A2|lia].
  - apply wp_bind. destruct (en_terminated e) eqn:Et; cbn [when].
    + specialize (L4 eq_refl). eapply ahead_emit; [exact A1|lia|lia|lia|]. intros st3 A3. eapply F; [exact A3|lia].
    + apply wp_ret. eapply F; [exact A1|lia].
Qed.
Lemma js_number st : wp js_expect_number (attempt anyj st) st.
Proof.
  begin_steps anyj st. unfold js_expect_number, js_match_number. hl1. hl1. apply wp_bind.
  destruct (match_common_number_ok (rem st) js_number_options js_options) as (r & E & E1 & E2). eapply wp_lift; [rewrite E; cbn [bind]; reflexivity|]. cbn [nr_length].
  hl1; [apply wp_ret; reflexivity|]. apply wp_bind, (wp_highlight_number_sep anyj); [discriminate|exact E1|cbn [nr_length]; bool_hyps; lia|]. cbn [nr_length]. intros st1 S1 _. clear H. bool_hyps. go. fin.
Qed.
Lemma regex_end_len s : forall e n m, js_regex_end s e n = Some m -> n <= m /\ m + 1 <= n + length s.
Proof.
  induction s as [|c s IH]; intros e n m; [discriminate|]. cbn [js_regex_end length].
  assert (I : forall e, js_regex_end s e (S n) = Some m -> n <= m /\ m + 1 <= n + S (length s)) by (intros e' H; specialize (IH _ _ _ H); lia).
  destruct e; [apply I|]. destruct (c =? ch "\")%N; [apply I|]. destruct (c =? ch "/")%N; [intros [= <-]; lia|]. destruct (starts_with_line_terminator (c :: s)); [discriminate|apply I].
Qed.
Lemma regex_end_pos s m : js_regex_end s false 0 = Some m -> starts_with_ch s (ch "/") = false -> 0 < m.
Proof.
  destruct s as [|c s]; [discriminate|]. cbn [js_regex_end]. intros H E. unfold starts_with_ch in E. rewrite E in H.
  destruct (c =? ch "\")%N; [apply regex_end_len in H; lia|]. destruct (starts_with_line_terminator (c :: s)); [discriminate|apply regex_end_len in H; lia].
Qed.
Lemma js_regex st : wp js_expect_regex (attempt anyj st) st.
Proof.
  begin_steps anyj st. unfold js_expect_regex. hl1. hl1. hl1; [apply wp_ret; reflexivity|]. hl1. hl1. hl1; [apply wp_ret; reflexivity|].
  destruct (js_regex_end (skipn 1 (rem st)) false 0) as [size|] eqn:Es; [|apply wp_ret; reflexivity].
  match goal with E : (_ || _)%bool = false |- _ => apply orb_false_iff in E as [E E2]; apply orb_false_iff in E as [E _]; apply negb_false_iff in E; rename E into Sl end.
  destruct (rem st) as [|c s] eqn:Er; [discriminate|]. unfold starts_with_ch in Sl. apply N.eqb_eq in Sl as ->. cbn [skipn] in *.
  assert (Ns : starts_with_ch s (ch "/") = false). { destruct s as [|c s]; [reflexivity|]. cbn in E2. unfold starts_with_ch. destruct (c =? ch "/")%N eqn:Ec; [|reflexivity]. apply N.eqb_eq in Ec as ->. discriminate E2. }
  pose proof (regex_end_pos _ _ Es Ns) as P. apply regex_end_len in Es.
  assert (Lr : length (rem st) = S (length s)) by (rewrite Er; reflexivity).
  clear H0 E2 Ns. rewrite Er in Lr. rewrite <- Er in Lr. do 3 (hl1; apply (wp_emit_adv anyj); [hlia|intros ? ? ?; try fuse]).
  apply wp_bind, wp_substr_from; [lia|]. apply wp_bind.
  match goal with |- wp (lift (js_match_regex_flags ?x)) _ _ => destruct (utf8_length_if_any x is_js_identifier_part) as (f & Ef & Lf) end. rewrite skipn_length in Lf.
  eapply wp_lift; [exact Ef|]. go. fin.
Qed.
Lemma name_ok extra s : exists n, js_match_name extra s = Ok n /\ n <= length s.
Proof.
  unfold js_match_name. destruct s as [|c s]; [exists 0; auto|]. destruct (replacement_any (c :: s)) as (d & n & E & Ln & _); [discriminate|]. rewrite E. cbn [bind fst snd].
  destruct (is_js_identifier_start d); cbn [negb]; [|exists 0; split; [reflexivity|lia]]. rewrite (proj2 (Nat.leb_le n (length (c :: s)))) by lia. cbn [check bind].
  destruct (utf8_length_if_any (skipn n (c :: s)) (js_name_part extra)) as (m & Em & Lm). rewrite Em. cbn [bind]. rewrite skipn_length in Lm. exists (n + m). split; [reflexivity|lia].
Qed.
Lemma private_ok s : exists n, js_match_private_identifier s = Ok n /\ n <= length s.
Proof.
  unfold js_match_private_identifier. destruct s as [|c s]; [exists 0; auto|]. destruct (c =? ch "#")%N; cbn [negb]; [|exists 0; split; [reflexivity|lia]].
  destruct (name_ok [] s) as (n & E & L). unfold js_match_identifier. rewrite E. cbn [bind]. exists (if n =? 0 then 0 else 1 + n). split; [reflexivity|]. destruct (n =? 0); cbn [length]; lia.
Qed.
Lemma js_private st : wp js_expect_private_identifier (attempt anyj st) st.
Proof.
  begin_steps anyj st. unfold js_expect_private_identifier. hl1. hl1. destruct (private_ok (rem st)) as (n & E & L). apply wp_bind. eapply wp_lift; [exact E|]. go; fin.
Qed.
Lemma js_identifier mode st : wp (js_expect_identifier mode) (attempt anyj st) st.
Proof.
  begin_steps anyj st. unfold js_expect_identifier. hl1. hl1. destruct (name_ok [] (rem st)) as (n & E & L). apply wp_bind. eapply wp_lift; [exact E|]. cbv zeta. hl1; [go; fin|].
  destruct (js_token_by_code mode (firstn n (rem st))); go; fin.
Qed.
Lemma operator_len s code : js_match_operator s = Some code -> 0 < length code <= length s.
Proof.
  unfold js_match_operator. destruct s as [|c s]; [discriminate|].
  repeat (match goal with |- context [if ?b then _ else _] => destruct b end;
    [first [intros [= <-]; cbn; lia
           |intros H; apply first_of_some in H; destruct H as [[I S]|I]; [apply starts_with_len in S; split; [|exact S]; clear S|injection I as <-; cbn; lia];
            repeat (destruct I as [<-|I]; [cbn; lia|]); destruct I]|]).
  discriminate.
Qed.
Lemma js_operator mode st : wp (js_expect_operator mode) (attempt anyj st) st.
Proof.
  begin_steps anyj st. unfold js_expect_operator. hl1. hl1. destruct (js_match_operator (rem st)) as [code|] eqn:E; [|go; fin]. apply operator_len in E.
  destruct (js_token_by_code mode code); go; fin.
Qed.

(** ** No JSX *)
Lemma no_tag_head s : no_tag s -> s = [] \/ exists c t, s = c :: t /\ (name_or_blank c /\ no_tag t \/ ends_tag c).
Proof.
  intros (w & rest & -> & F & R). destruct F as [|c w Hc F].
  - destruct R as [->|(c & t & -> & E)]; [left; reflexivity|right; exists c, t; auto].
  - right. exists c, (w ++ rest). split; [reflexivity|]. left. split; [exact Hc|]. exists w, rest. auto.
Qed.
Lemma no_tag_ch s x : no_tag s -> In x (34%N :: 39%N :: bs ">/{") -> starts_with_ch s x = false.
Proof.
  intros H I. apply no_tag_head in H as [->|(c & t & -> & H)]; [reflexivity|]. unfold starts_with_ch. apply N.eqb_neq. intros ->. destruct H as [[H _]|(_ & _ & H)]; [|auto].
  unfold name_or_blank in H. cbn in I, H. lia.
Qed.
Lemma no_tag_pre s p x : no_tag s -> hd_error p = Some x -> In x (34%N :: 39%N :: bs ">/{") -> starts_with s p = false.
Proof.
  intros H P I. pose proof (no_tag_ch s x H I) as E. destruct p as [|y p]; [discriminate|]. injection P as ->. destruct s as [|c s]; [reflexivity|]. unfold starts_with_ch in E. cbn [starts_with].
  first [rewrite E | rewrite N.eqb_sym, E]. reflexivity.
Qed.
Lemma nb_ascii c : name_or_blank c -> (c < 128)%N.
Proof. unfold name_or_blank. cbn. lia. Qed.
Lemma no_tag_skip s p : no_tag s -> (forall c, ends_tag c -> p c = false) -> exists n, utf8_length_if s p = Ok n /\ n <= length s /\ no_tag (skipn n s).
Proof.
  intros (w & rest & -> & F & R) Hp. destruct (length_ascii_le p w rest) as (n & E & L).
  - eapply Forall_impl; [|exact F]. intros c. apply nb_ascii.
  - destruct R as [->|(c & t & -> & A)]; [left; reflexivity|right]. exists c, t. split; [reflexivity|]. split; [apply A|apply Hp; exact A].
  - exists n. split; [exact E|]. split; [rewrite app_length; lia|]. exists (skipn n w), rest. split; [rewrite skipn_app; replace (n - length w) with 0 by lia; reflexivity|]. split; [|exact R].
    rewrite <- (firstn_skipn n w) in F. apply Forall_app in F. apply F.
Qed.
Lemma ends_ws c : ends_tag c -> is_js_whitespace c = false.
Proof.
  intros (L & N & _). unfold is_js_whitespace. apply orb_false_iff. split; [apply orb_false_iff; split|].
  - destruct (mem c _) eqn:M; [|reflexivity]. apply mem_In in M. elim N. unfold name_or_blank. cbn in M. lia.
  - apply andb_false_iff. left. apply N.leb_gt. lia.
  - apply andb_false_iff. left. apply N.leb_gt. lia.
Qed.
Lemma within_ascii c l : (c < 128)%N -> Forall (fun r => (128 <= fst r)%N) l -> within c l = false.
Proof. intros L F. unfold within. induction F as [|r l Hr F IH]; [reflexivity|]. cbn [existsb]. rewrite IH. rewrite (proj2 (N.leb_gt (fst r) c)) by lia. reflexivity. Qed.
Lemma ends_start c : ends_tag c -> is_js_identifier_start c = false.
Proof.
  intros (L & N & _). unfold is_js_identifier_start. rewrite within_ascii by (first [exact L|repeat (apply Forall_cons; [cbn [fst]; lia|]); apply Forall_nil]). rewrite orb_false_r. apply not_true_is_false. intros H. apply N. unfold name_or_blank. cbn [bs In].
  apply orb_prop in H as [H|H]; [apply orb_prop in H as [H|H]; apply N.eqb_eq in H as ->; cbn; lia|].
  unfold is_ascii_alpha, is_ascii_upper_alpha, is_ascii_lower_alpha, between in H. repeat match goal with H : (_ || _)%bool = true |- _ => apply orb_prop in H as [H|H] | H : (_ && _)%bool = true |- _ => apply andb_prop in H as [? ?] | H : (_ <=? _)%N = true |- _ => apply N.leb_le in H end; lia.
Qed.
Lemma ends_part extra c : (forall x, In x extra -> In x (bs "-:.")) -> ends_tag c -> js_name_part extra c = false.
Proof.
  intros Hx H. pose proof (ends_start c H) as Es. destruct H as (L & N & _). unfold js_name_part, is_js_identifier_part. rewrite Es. rewrite within_ascii by (first [exact L|repeat (apply Forall_cons; [cbn [fst]; lia|]); apply Forall_nil]). cbn [orb]. rewrite orb_false_r. apply orb_false_iff. split.
  - apply not_true_is_false. intros H. apply N. unfold is_ascii_digit, between in H. apply andb_prop in H as [A B]. apply N.leb_le in A, B. unfold name_or_blank. lia.
  - destruct (mem c extra) eqn:M; [|reflexivity]. apply mem_In, Hx in M. elim N. unfold name_or_blank. cbn in M |- *. lia.
Qed.
Lemma name_no_tag extra s : (forall x, In x extra -> In x (bs "-:.")) -> no_tag s -> exists n, js_match_name extra s = Ok n /\ n <= length s /\ no_tag (skipn n s).
Proof.
  intros Hx H. pose proof (no_tag_head s H) as D. destruct D as [->|(c & t & -> & D)]; [exists 0; auto|]. unfold js_match_name.
  rewrite repl_ascii by (destruct D as [[D _]|(D & _)]; [apply nb_ascii|]; exact D). cbn [bind fst snd]. destruct (is_js_identifier_start c) eqn:Es; cbn [negb]; [|exists 0; split; [reflexivity|]; split; [lia|exact H]].
  destruct D as [[_ D]|D]; [|rewrite (ends_start c D) in Es; discriminate]. cbn [length Nat.leb check bind skipn].
  destruct (no_tag_skip t (js_name_part extra) D) as (n & E & L & R); [intros x; apply ends_part; exact Hx|]. rewrite E. cbn [bind]. exists (1 + n). split; [reflexivity|]. split; [cbn [length]; lia|exact R].
Qed.
Lemma wsc_no_tag : forall fuel s, length s <= fuel -> no_tag s -> exists l s', js_wsc fuel s = Ok (l, s') /\ no_tag s' /\ length s' <= length s.
Proof.
  induction fuel as [|fuel IH]; intros s L H; [destruct s; [|cbn in L; lia]; exists [], []; auto|]. destruct s as [|c t] eqn:Es; [exists [], []; auto|]. rewrite <- Es in *. assert (P : 0 < length s) by (rewrite Es; cbn; lia).
  assert (E : js_wsc (S fuel) s = (let* w := js_match_whitespace s in
      if negb (w =? 0) then let* s' := M_Utf8.remove_prefix s w in let* r := js_wsc fuel s' in Ok (JWhitespace w :: fst r, snd r) else Ok ([], s))).
  { rewrite Es at 1. cbn [js_wsc]. rewrite <- Es. destruct (js_match_whitespace s) as [w|]; [|reflexivity]. cbn [bind]. destruct (w =? 0); cbn [negb]; [|reflexivity].
    unfold match_block_comment. rewrite (no_tag_pre s (bs _) (ch "/") H) by (cbn; tauto). cbn [negb en_length Nat.eqb]. unfold match_line_comment. rewrite (no_tag_pre s (bs _) (ch "/") H) by (cbn; tauto). reflexivity. }
  rewrite E. destruct (no_tag_skip s is_js_whitespace H ends_ws) as (n & En & Ln & Hn). unfold js_match_whitespace. rewrite En. cbn [bind]. destruct (Nat.eqb_spec n 0) as [->|N]; cbn [negb]; [exists [], s; auto|].
  rewrite remove_prefix_any by exact Ln. cbn [bind]. destruct (IH (skipn n s)) as (l & s' & E' & H' & L'); [rewrite skipn_length; lia|exact Hn|]. rewrite E'. cbn [bind fst snd]. exists (JWhitespace n :: l), s'. split; [reflexivity|]. split; [exact H'|]. rewrite skipn_length in L'. lia.
Qed.
Lemma comments_no_tag s : no_tag s -> exists l s', js_whitespace_comments s = Ok (l, s') /\ no_tag s' /\ length s' <= length s.
Proof. apply wsc_no_tag. lia. Qed.
Lemma braced_no_tag s : no_tag s -> jsx_match_braced s = Ok (mk_enclosed 0 false).
Proof. intros H. pose proof (no_tag_ch s (ch "{") H) as E. destruct s as [|c s]; [reflexivity|]. unfold starts_with_ch in E. unfold jsx_match_braced. rewrite E by (cbn; tauto). reflexivity. Qed.
Lemma string_no_tag s : no_tag s -> js_match_string s = mk_enclosed 0 false.
Proof.
  intros H. pose proof (no_tag_ch s 34 H) as E. pose proof (no_tag_ch s 39 H) as E2. destruct s as [|c s]; [reflexivity|]. unfold starts_with_ch in E, E2. unfold js_match_string. rewrite E, E2 by (cbn; tauto). reflexivity.
Qed.
Lemma no_tag_eq s : no_tag s -> starts_with_ch s (ch "=") = true -> no_tag (skipn 1 s) /\ length (skipn 1 s) < length s.
Proof.
  intros H E. apply no_tag_head in H as [->|(c & t & -> & H)]; [discriminate|]. unfold starts_with_ch in E. apply N.eqb_eq in E as ->. cbn [skipn length]. split; [|lia].
  destruct H as [[_ H]|(_ & H & _)]; [exact H|]. elim H. unfold name_or_blank. cbn. tauto.
Qed.
Lemma tag_loop_none : forall fuel s, length s <= fuel -> no_tag s -> exists l, jsx_tag_loop fuel false s = Ok (l, None).
Proof.
  induction fuel as [|fuel IH]; intros s L H; [destruct s; [|cbn in L; lia]; exists []; reflexivity|]. destruct s as [|c t] eqn:Es; [exists []; reflexivity|]. cbn [jsx_tag_loop]. rewrite <- Es in *. clear c t Es.
  destruct (comments_no_tag s H) as (l1 & s1 & E1 & H1 & L1). rewrite E1. cbn [bind fst snd].
  rewrite (no_tag_ch s1 (ch ">") H1) by (cbn; tauto). rewrite (no_tag_pre s1 (bs _) (ch "/") H1) by (cbn; tauto). rewrite (braced_no_tag s1 H1). cbn [bind en_length Nat.eqb negb].
  unfold jsx_match_attribute_name. destruct (name_no_tag (bs "-:") s1) as (a & Ea & La & Ha); [cbn; tauto|exact H1|]. rewrite Ea. cbn [bind]. unfold jsx_then at 1.
  destruct (Nat.eqb_spec a 0) as [->|N]; cbn [negb]; [cbn [bind fst snd]; eexists; reflexivity|]. rewrite remove_prefix_any by exact La. cbn [bind].
  destruct (comments_no_tag _ Ha) as (l2 & s2 & E2 & H2 & L2). rewrite E2. cbn [bind fst snd]. rewrite skipn_length in L2. unfold jsx_then at 1.
  destruct (starts_with_ch s2 (ch "=")) eqn:Eq; cbn [negb].
  - destruct (no_tag_eq s2 H2 Eq) as [H3 L3]. destruct (comments_no_tag _ H3) as (l4 & s4 & E4 & H4 & L4). rewrite E4. cbn [bind fst snd]. rewrite (string_no_tag s4 H4), (braced_no_tag s4 H4). cbn [en_length Nat.eqb negb bind jsx_then fst snd]. eexists. reflexivity.
  - destruct (IH s2) as (l & E); [lia|exact H2|]. rewrite E. cbn [bind fst snd]. eexists. reflexivity.
Qed.
Lemma no_jsx s : no_tags s -> jsx_match_tag false s = Ok None.
Proof.
  intros H. unfold jsx_match_tag, jsx_match_tag_impl. destruct s as [|c s]; [reflexivity|]. unfold starts_with_ch at 1. destruct (N.eqb_spec c (ch "<")) as [->|N]; cbn [negb]; [|reflexivity].
  assert (H0 : no_tag s) by (apply (H [] s); reflexivity). cbn [skipn]. destruct (comments_no_tag s H0) as (l1 & s1 & E1 & H1 & L1). rewrite E1. cbn [bind fst snd].
  rewrite (no_tag_ch s1 (ch ">") H1) by (cbn; tauto). rewrite (no_tag_ch s1 (ch "/") H1) by (cbn; tauto). unfold jsx_tag_name, jsx_match_element_name.
  destruct (name_no_tag (bs "-:.") s1) as (a & Ea & La & Ha); [auto|exact H1|]. rewrite Ea. cbn [bind]. destruct (a =? 0); cbn [negb].
  - destruct (tag_loop_none (length s1) s1 (le_n _) H1) as (l & E). rewrite E. reflexivity.
  - rewrite remove_prefix_any by exact La. cbn [bind]. destruct (tag_loop_none (length (skipn a s1)) (skipn a s1) (le_n _) Ha) as (l & E). rewrite E. reflexivity.
Qed.

(** ** Templates and braces *)
Definition clean (mode : js_mode) (s : str) : Prop := escapes_inside s /\ (mode = javascript -> no_tags s).
Lemma tags_skip n s : no_tags s -> no_tags (skipn n s).
Proof. intros H a b E. apply (H (firstn n s ++ a) b). rewrite <- app_assoc, <- E. symmetry. apply firstn_skipn. Qed.
Lemma clean_skip mode n s : clean mode s -> clean mode (skipn n s).
Proof. intros [A B]. split; [apply escapes_skip; exact A|]. intros M. apply tags_skip, B, M. Qed.
Definition brace_safe (mode : js_mode) (bound : nat) (m : M js_input unit) : Prop := forall st, length (rem st) < bound -> clean mode (rem st) ->
  wp m (fun _ st' => exists k, steps anyj k st st' /\ (rem st' = [] \/ exists t, rem st' = ch "}" :: t)) st.
Lemma continuation_len s : js_line_continuation s = 0 \/ 2 <= js_line_continuation s <= length s.
Proof.
  unfold js_line_continuation. destruct (starts_with_ch s (ch "\")) eqn:E; cbn [negb]; [|left; reflexivity]. destruct s as [|c s]; [discriminate|]. cbn [skipn length]. unfold js_line_terminator_sequence.
  destruct (starts_with_ch s 10) eqn:E1; [destruct s; [discriminate|]; right; cbn; lia|]. 
  repeat match goal with |- context [if starts_with s ?p then _ else _] => let H := fresh in destruct (starts_with s p) eqn:H; [apply starts_with_len in H; cbn [length Nat.eqb Nat.add] in *; right; lia|] end. left. reflexivity.
Qed.

Section braces.
Variable mode : js_mode.
Variable bound : nat.
Variable before_brace : M js_input unit.
Hypothesis Hb : brace_safe mode bound before_brace.

Lemma template_round st chars st1 : length (rem st) <= bound -> clean mode (rem st) -> (exists K, trails K chars st st1) ->
  wp (js_template_round before_brace chars) (fun r st2 => match r with
    | inl c => (exists K, trails K c st st2) /\ length (rem st2) < length (rem st1)
    | inr _ => exists K, steps anyj K st st2 end) st1.
Proof.
  intros Lb Cl (K & T). unfold js_template_round. apply wp_bind, wp_get_rem. pose proof (trails_len _ _ _ _ T) as Len. pose proof (trails_rem _ _ _ _ T) as R1.
  assert (Adv : forall n, 0 < n <= length (rem st1) -> wp (advance n ;; ret (inl (chars + n))) (fun (r : nat + unit) st2 => match r with
    | inl c => (exists K, trails K c st st2) /\ length (rem st2) < length (rem st1)
    | inr _ => exists K, steps anyj K st st2 end) st1).
  { intros n Ln. apply wp_bind. eapply trail_advance; [exact T|lia|]. intros st2 T2 _ R2. apply wp_ret. split; [eauto|]. rewrite R2, skipn_length. lia. }
  destruct (rem st1) as [|c s] eqn:Er; [apply wp_bind; eapply trail_flush; [exact T|]; intros st2 S2 _ _ _; apply wp_ret; eauto|].
  assert (L1 : length (rem st1) = S (length s)) by (rewrite Er; reflexivity).
  destruct (c =? 96)%N eqn:E96.
  { apply wp_bind. eapply trail_flush; [exact T|]. intros st2 S2 R2 _ _. rewrite <- R2 in L1. clear - S2 L1. go. fin. }
  destruct (c =? ch "$")%N eqn:Ed.
  { destruct (starts_with (c :: s) (bs "${")) eqn:Es; [|apply (Adv 1); cbn; lia]. apply starts_with_len in Es. change (length (bs "${")) with 2 in Es. cbn [length] in Es.
    apply wp_bind. eapply trail_flush; [exact T|]. intros st2 S2 R2 _ _. rewrite <- R2 in L1. apply wp_bind, (wp_emit_adv anyj); [lia|]. intros st3 S3 _. pose proof (steps_trans _ _ _ _ _ _ S2 S3) as S13. pose proof (steps_len _ _ _ _ S13) as Len3.
    apply wp_bind. eapply wp_mono; [apply Hb|].
    - lia.
    - rewrite (steps_rem _ _ _ _ S13). apply clean_skip. exact Cl.
    - cbn beta. intros _ st4 (j & S4 & D). pose proof (steps_trans _ _ _ _ _ _ S13 S4) as S14. pose proof (steps_len _ _ _ _ S14) as Len4. apply wp_bind, wp_get_rem. destruct D as [D|(t & D)]; rewrite D.
      + apply wp_ret. split; [exists (K + 2 + j); apply steps_trails; exact S14|]. cbn [length] in *. lia.
      + apply wp_bind, wp_check; [reflexivity|]. apply wp_bind, (wp_emit_adv anyj); [rewrite D; cbn; lia|]. intros st5 S5 _. apply wp_ret. pose proof (steps_trans _ _ _ _ _ _ S14 S5) as S15. split; [exists (K + 2 + j + 1); apply steps_trails; exact S15|].
        apply steps_len in S15. cbn [length] in *. lia. }
  destruct (c =? ch "\")%N eqn:Eb; [|apply (Adv 1); cbn; lia].
  pose proof (continuation_len (c :: s)) as Lc. cbv zeta. set (n := js_line_continuation (c :: s)) in *. clearbody n. destruct (Nat.eqb_spec n 0) as [En|En]; cbn [negb].
  - destruct (escape_total (c :: s)) as (e & Ee & Le). apply wp_bind. eapply wp_lift; [exact Ee|]. destruct (Nat.eqb_spec (es_length e) 0) as [Ez|Ez]; cbn [negb]; [apply (Adv 1); cbn; lia|].
    apply wp_bind. eapply trail_flush; [exact T|]. intros st2 S2 R2 _ _. rewrite <- R2 in L1. cbn [length] in *. apply wp_bind, (wp_emit_adv anyj); [lia|]. intros st3 S3 _. pose proof (steps_trans _ _ _ _ _ _ S2 S3) as S13. apply wp_ret.
    split; [eexists; apply steps_trails; exact S13|]. apply steps_len in S13. lia.
  - destruct Lc as [Lc|Lc]; [lia|]. apply wp_bind, wp_check; [apply Nat.ltb_lt; lia|]. apply wp_bind. eapply trail_flush; [exact T|]. intros st2 S2 R2 _ _. rewrite <- R2 in L1. cbn [length] in *. apply wp_bind, (wp_emit_adv anyj); [lia|]. intros st3 S3 _. pose proof (steps_trans _ _ _ _ _ _ S2 S3) as S13.
    pose proof (steps_len _ _ _ _ S13) as Len3. apply wp_bind. eapply trail_advance; [apply steps_trails; exact S13|lia|]. intros st4 T4 _ R4. apply wp_ret. split; [exists (K + 1 + (n - 1)); exact T4|]. rewrite R4, skipn_length. lia.
Qed.
Lemma js_template st : length (rem st) <= bound -> clean mode (rem st) -> wp (js_expect_template before_brace) (attempt anyj st) st.
Proof.
  intros Lb Cl. begin_steps anyj st. unfold js_expect_template. hl1. hl1. hl1; [|apply wp_ret; reflexivity].
  apply wp_bind, (wp_emit_adv anyj); [hlia|]. intros st1 S1 _. apply wp_bind. pose proof (steps_len _ _ _ _ S1) as L1.
  eapply wp_mono with (P := fun _ st2 => exists k, steps anyj k st1 st2).
  - eapply wp_hloop with (Inv := fun c st2 => exists K, trails K c st1 st2) (mu := fun _ st2 => length (rem st2)); [exists 0; apply steps_trails, steps_refl|lia|].
    intros c st2 I. eapply wp_mono; [apply (template_round st1 c st2); [lia|rewrite (steps_rem _ _ _ _ S1); apply clean_skip; exact Cl|exact I]|]. intros [c'|[]] st3; auto.
  - intros [] st2 (k & S2). apply wp_ret. exists (1 + k). split; [eapply steps_trans; eassumption|lia].
Qed.
Lemma token_ok st : length (rem st) <= bound -> clean mode (rem st) -> rem st <> [] ->
  wp (js_token mode before_brace) (fun _ st' => exists k, steps anyj k st st' /\ 0 < k) st.
Proof.
  intros Lb Cl Ne. unfold js_token. apply wp_bind.
  assert (J : wp (match mode with javascript => js_expect_jsx before_brace | typescript => ret false end) (attempt anyj st) st).
  { destruct mode eqn:Em; [|apply wp_ret; reflexivity]. unfold js_expect_jsx. apply wp_bind, wp_get_rem. apply wp_bind. eapply wp_lift; [apply no_jsx; apply Cl; reflexivity|]. apply wp_ret. reflexivity. }
  assert (O : forall a b, wp a (attempt anyj st) st -> wp b (attempt anyj st) st -> wp (js_or a b) (attempt anyj st) st).
  { intros a b Ha Hb'. unfold js_or. apply wp_orelse with (P := anyj); [exact Ha| |exact Hb']. intros n st' S L. exists n. auto. }
  eapply wp_mono with (P := attempt anyj st).
  - repeat (apply O); auto using js_whitespace, js_hashbang, js_line, js_block, js_template, js_regex, js_number, js_private, js_identifier, js_operator. apply js_string. apply Cl.
  - intros [] st'; cbn [attempt]; [intros H; apply wp_ret; exact H|]. intros ->. unfold js_error. begin_steps anyj st. apply neq_nil_len in Ne. go. fin.
Qed.
Lemma brace_body_safe : brace_safe mode (S bound) (js_before_brace_body mode before_brace).
Proof.
  intros st L Cl. unfold js_before_brace_body. apply wp_bind. begin_steps anyj st. apply (wp_set_loc anyj). intros st1 S1 _ _. pose proof (steps_rem _ _ _ _ S1) as R1. cbn [skipn] in R1.
  eapply wp_mono with (P := fun _ st2 => exists k, steps anyj k st1 st2 /\ (rem st2 = [] \/ exists t, rem st2 = ch "}" :: t)).
  2:{ intros [] st2 (k & S2 & D). exists (0 + k). split; [eapply steps_trans; eassumption|exact D]. }
  eapply wp_hloop with (Inv := fun _ st2 => exists K, steps anyj K st1 st2) (mu := fun _ st2 => length (rem st2)); [exists 0; apply steps_refl|lia|].
  intros level st2 (K & S2). unfold js_brace_round. apply wp_bind, wp_get_rem. destruct (rem st2) as [|c s] eqn:Er; [apply wp_ret; exists K; auto|].
  assert (L2 : length (rem st2) = S (length s)) by (rewrite Er; reflexivity). pose proof (steps_len _ _ _ _ S2) as Len2. rewrite R1 in Len2.
  assert (Fin : forall l' g, wp (emit_and_advance 1 hl_symbol_brace ;; set_loc g ;; ret (inl l')) (fun (r : Z + unit) st3 => match r with inl _ => (exists K, steps anyj K st1 st3) /\ length (rem st3) < S (length s)
     | inr _ => exists k, steps anyj k st1 st3 /\ (rem st3 = [] \/ exists t, rem st3 = ch "}" :: t) end) st2).
  { intros l' g. apply wp_bind, (wp_emit_adv anyj); [lia|]. intros st3 S3 _. apply wp_bind, (wp_set_loc anyj). intros st4 S4 _ _. pose proof (steps_trans _ _ _ _ _ _ S3 S4) as S34. apply wp_ret. split; [eexists; eapply steps_trans; eassumption|]. apply steps_len in S34. lia. }
  destruct (N.eqb_spec c (ch "{")) as [Ec|Ec]; [apply Fin|]. destruct (N.eqb_spec c (ch "}")) as [Ec2|Ec2].
  { destruct (level - 1 <? 0)%Z; [|apply Fin]. apply wp_ret. exists K. split; [exact S2|]. right. exists s. rewrite Er, Ec2. reflexivity. }
  apply wp_bind. eapply wp_mono; [apply token_ok|].
  - lia.
  - rewrite (steps_rem _ _ _ _ S2), R1. apply clean_skip. exact Cl.
  - rewrite Er. discriminate.
  - cbn beta. intros _ st3 (k & S3 & P). apply wp_ret. split; [eexists; eapply steps_trans; eassumption|]. apply steps_len in S3. cbn [length]. lia.
Qed.
End braces.
Lemma before_brace_safe mode : forall fuel, brace_safe mode fuel (js_before_brace mode fuel).
Proof. induction fuel as [|fuel IH]; [intros st L; lia|]. cbn [js_before_brace]. apply brace_body_safe. exact IH. Qed.
Lemma js_in_order mode src : clean mode src -> in_order (js_highlight mode) src.
Proof.
  intros Cl strict. unfold js_highlight. apply (run_ok anyj). apply wp_bind. set (st0 := mk_hst src 0 [] hashbang_or_regex).
  eapply wp_mono with (P := fun _ st' => exists k, steps anyj k st0 st').
  - unfold while_rem. apply wp_hloop with (Inv := fun _ st' => exists k, steps anyj k st0 st') (mu := fun _ st' => length (rem st')); [exists 0; apply steps_refl|lia|].
    intros _ st1 (k & Hk). pose proof (steps_len _ _ _ _ Hk) as L1. cbn [rem st0] in L1. apply wp_bind. apply wp_eof; intros He; [apply wp_ret; eauto|].
    apply wp_bind. eapply wp_mono; [eapply token_ok; [apply before_brace_safe|lia|rewrite (steps_rem _ _ _ _ Hk); apply clean_skip; exact Cl|exact He]|].
    cbn beta. intros _ st2 (j & S2 & P). apply wp_ret. split; [exists (k + j); eapply steps_trans; eassumption|]. apply steps_len in S2. lia.
  - intros _ st' H. apply wp_ret. split; [reflexivity|exact H].
Qed.

(** ** C40 *)
Theorem C40_typescript_partial : forall src, escapes_inside src -> highlights highlight_typescript src.
Proof. intros src H. apply highlights_from_ops, js_in_order. split; [exact H|discriminate]. Qed.
Print Assumptions C40_typescript_partial.
Theorem C40_javascript_partial : forall src, escapes_inside src -> no_tags src -> highlights highlight_javascript src.
Proof. intros src H T. apply highlights_from_ops, js_in_order. split; auto. Qed.
Print Assumptions C40_javascript_partial.

(** ** Refutation: an escape sequence that takes the closing quote *)
Lemma flush_cases c st : js_flush c st = Fail FDebugAssert \/ exists st1, js_flush c st = Ok (tt, st1) /\ rem st1 = rem st.
Proof.
  unfold js_flush, bindM, get_idx, when. destruct (negb (c =? 0)); [|right; exists st; auto]. unfold emit_at. cbv zeta. destruct (_ && _); [right; eexists; split; reflexivity|left; reflexivity].
Qed.
Lemma advance_cases n (st : hst js_input) : advance n st = Fail FDebugAssert \/ exists st1, advance n st = Ok (tt, st1) /\ rem st1 = skipn n (rem st).
Proof. unfold advance. destruct (n <=? length (rem st)); [right; eexists; split; reflexivity|left; reflexivity]. Qed.
Lemma emit_cases n h (st : hst js_input) : emit_and_advance n h st = Fail FDebugAssert \/ exists st1, emit_and_advance n h st = Ok (tt, st1) /\ rem st1 = skipn n (rem st).
Proof.
  unfold emit_and_advance, emit_and_advance_c, bindM, get_idx, emit_at. cbv zeta. destruct (_ && _); [|left; reflexivity]. match goal with |- advance n ?s = _ \/ _ => apply (advance_cases n s) end.
Qed.
Lemma wrapped_fails : forall fuel chars st, length (rem st) < fuel -> iter fuel js_string_round (chars, None) st = Fail FDebugAssert.
Proof.
  induction fuel as [|fuel IH]; intros chars st L; [lia|]. cbn [iter]. unfold bindM at 1.
  assert (Adv : forall n, 0 < n -> match (advance n ;; ret (inl (chars + n, None))) st with Ok (a, st') => (match a with inl a' => iter fuel js_string_round a' | inr b => ret b end) st' | Fail f => Fail f end = Fail FDebugAssert).
  { intros n P. unfold bindM. unfold advance. destruct (Nat.leb_spec n (length (rem st))) as [Ln|Ln]; [|reflexivity]. cbn [ret]. apply IH. cbn [rem]. rewrite skipn_length. lia. }
  unfold js_string_round at 1. unfold bindM at 1. unfold get_rem at 1.
  destruct (starts_with_ch (rem st) (ch "\")) eqn:Sw.
  - destruct (escape_total (rem st)) as (e & Ee & Le). rewrite Ee. unfold bindM at 1. unfold lift at 1. destruct (Nat.eqb_spec (es_length e) 0) as [Ez|Ez]; cbn [negb]; [apply (Adv 1); lia|].
    unfold bindM at 1. destruct (flush_cases chars st) as [->|(st1 & -> & R1)]; [reflexivity|]. unfold bindM at 1.
    destruct (emit_cases (es_length e) (js_escape_type e) st1) as [->|(st2 & -> & R2)]; [reflexivity|]. cbn [ret]. apply IH. rewrite R2, R1, skipn_length. lia.
  - destruct (find_ch (rem st) (ch "\") 0) as [[|n]|] eqn:F; cbv zeta; [apply (Adv 1); lia|apply (Adv (S n)); lia|reflexivity].
Qed.
Lemma while_fails {S} (body : M S unit) st f : rem st <> [] -> body st = Fail f -> while_rem body st = Fail f.
Proof.
  intros Ne H. unfold while_rem, hloop. replace (1 * length (rem st) + 1) with (Datatypes.S (length (rem st))) by lia. cbn [iter]. unfold bindM, eof. destruct (rem st); [congruence|]. cbn. rewrite H. reflexivity.
Qed.
Theorem C40_refuted : forall mode q rest strict, q = 34%N \/ q = 39%N ->
  js_highlight mode (q :: bs "\x" ++ q :: rest) strict = Fail FDebugAssert.
Proof.
  intros mode q rest strict Hq. unfold js_highlight, run. unfold bindM at 1. set (src := q :: bs "\x" ++ q :: rest).
  set (bb := js_before_brace mode (length src + 1)). clearbody bb. set (st0 := mk_hst src 0 [] hashbang_or_regex).
  assert (T : js_token mode bb st0 = Fail FDebugAssert).
  { assert (A : (q < 128)%N) by (destruct Hq; subst; reflexivity).
    assert (W : js_expect_whitespace st0 = Ok (false, st0)).
    { unfold js_expect_whitespace, bindM, get_rem, lift, js_match_whitespace. cbn [rem st0]. subst src. rewrite length_ascii_none; [reflexivity|exact A|destruct Hq; subst; reflexivity]. }
    assert (H : js_expect_hashbang st0 = Ok (false, st0)) by (destruct Hq; subst; reflexivity).
    assert (C1 : js_expect_line_comment st0 = Ok (false, st0)) by (destruct Hq; subst; reflexivity).
    assert (C2 : js_expect_block_comment st0 = Ok (false, st0)) by (destruct Hq; subst; reflexivity).
    assert (J : (match mode with javascript => js_expect_jsx bb | typescript => ret false end) st0 = Ok (false, st0)) by (destruct mode; [destruct Hq; subst; reflexivity|reflexivity]).
    assert (S : js_expect_string st0 = Fail FDebugAssert).
    { unfold js_expect_string. unfold bindM at 1, get_rem at 1. cbn [rem st0].
      assert (M : js_match_string src = mk_enclosed 4 true) by (destruct Hq; subst; reflexivity). rewrite M. cbn [en_length Nat.eqb]. unfold bindM at 1, js_highlight_string at 1. cbn [en_length en_terminated Nat.eqb negb checkM Nat.sub].
      unfold bindM at 1. cbn [ret]. unfold bindM at 1.
      assert (E : emit_and_advance 1 hl_string_delim st0 = Ok (tt, mk_hst (skipn 1 src) 1 [OEmit 0 1 hl_string_delim false] hashbang_or_regex)) by reflexivity. rewrite E. unfold bindM at 1. unfold hloop at 1. cbn [rem].
      replace (1 * length (skipn 1 src) + 1) with (S (3 + length rest)) by (subst src; cbn; lia). cbn [iter]. unfold bindM at 1.
      assert (R : exists st2, js_string_round (0, Some 2) (mk_hst (skipn 1 src) 1 [OEmit 0 1 hl_string_delim false] hashbang_or_regex) = Ok (inl (0, None), st2) /\ length (rem st2) < 3 + length rest).
      { destruct rest as [|c r]; [exists (mk_hst [] 4 [OEmit 1 3 hl_error false; OEmit 0 1 hl_string_delim false] hashbang_or_regex); split; [destruct Hq; subst; reflexivity|cbn; lia]|].
        exists (mk_hst r 5 [OEmit 1 4 hl_error false; OEmit 0 1 hl_string_delim false] hashbang_or_regex). split; [destruct Hq; subst; reflexivity|cbn; lia]. }
      destruct R as (st2 & -> & L2). rewrite wrapped_fails by exact L2. reflexivity. }
    unfold js_token, bindM at 1. unfold js_or at 1, bindM at 1. rewrite W. unfold js_or at 1, bindM at 1. rewrite H. unfold js_or at 1, bindM at 1. rewrite C1. unfold js_or at 1, bindM at 1. rewrite C2. unfold js_or at 1, bindM at 1. rewrite J. unfold js_or at 1, bindM at 1. rewrite S. reflexivity. }
  rewrite (while_fails _ st0 FDebugAssert); [reflexivity|discriminate|exact T].
Qed.
Print Assumptions C40_refuted.
(** The hypotheses of the partial theorems are met by ordinary sources. *)
Lemma escapes_nil : escapes_inside [].
Proof. intros [|] b E; discriminate. Qed.
Lemma escapes_other c s : c <> 92%N -> escapes_inside s -> escapes_inside (c :: s).
Proof. intros N H a b E. destruct a as [|x a]; injection E; intros; subst; [congruence|]. eapply H. reflexivity. Qed.
Lemma escapes_escape s : escape_inside s -> escapes_inside s -> escapes_inside (92%N :: s).
Proof. intros X H a b E. destruct a as [|x a]; injection E; intros; subst; [exact X|]. eapply H. reflexivity. Qed.
Lemma tags_nil : no_tags [].
Proof. intros [|] b E; discriminate. Qed.
Lemma tags_other c s : c <> ch "<" -> no_tags s -> no_tags (c :: s).
Proof. intros N H a b E. destruct a as [|x a]; injection E; intros; subst; [congruence|]. eapply H. reflexivity. Qed.
Lemma tags_tag s : no_tag s -> no_tags s -> no_tags (ch "<" :: s).
Proof. intros X H a b E. destruct a as [|x a]; injection E; intros; subst; [exact X|]. eapply H. reflexivity. Qed.
Definition js_sample : str := bs "let s = 'a\x41\u{1F600}é\n' + `t${f({a: x<3})}`; /re\/g/u.test(s) // c".
Example C40_case : escapes_inside js_sample /\ no_tags js_sample
  /\ exists ops, highlight_javascript js_sample false = Ok (true, ops) /\ 30 < length ops.
Proof.
  assert (I : forall d r, length d = 2 -> Forall inside d -> escape_inside (ch "x" :: d ++ r)) by (intros d r L F; split; intros t E; [injection E as <-; exists d, r; auto|discriminate E]).
  assert (I4 : forall d r, length d = 4 -> Forall inside d -> hd 0%N d <> ch "{" -> escape_inside (ch "u" :: d ++ r)) by (intros d r L F B; split; intros t E; [discriminate E|injection E as <-; left; exists d, r; auto]).
  assert (Ib : forall d r, Forall inside d -> escape_inside (ch "u" :: ch "{" :: d ++ ch "}" :: r)) by (intros d r F; split; intros t E; [discriminate E|injection E as <-; right; exists d, r; auto]).
  assert (O : forall c s, c <> ch "x" -> c <> ch "u" -> escape_inside (c :: s)) by (intros c s A B; split; intros t E; injection E; intros; subst; contradiction).
  split; [|split].
  - unfold js_sample. cbn [bs]. 
    repeat first [apply escapes_nil | apply escapes_other; [discriminate|] | apply escapes_escape;
       [first [apply O; discriminate | apply (I (bs "41")); [reflexivity|repeat constructor; discriminate] | apply (Ib (bs "1F600")); repeat constructor; discriminate | apply (I4 (bs "00e9")); [reflexivity|repeat constructor; discriminate|discriminate]]|]].
  - unfold js_sample. cbn [bs].
    repeat first [apply tags_nil | apply tags_other; [discriminate|] | apply tags_tag; [exists (bs "3"); eexists; split; [reflexivity|]; split; [repeat constructor; unfold name_or_blank; cbn; lia|right; eexists _, _; split; [reflexivity|]; repeat split; [unfold name_or_blank; cbn; lia|cbn; intuition discriminate]]|]].
  - eexists. split; [vm_compute; reflexivity|]. cbn [length]. lia.
Qed.
(** ** Refutation: valid JSX with braces in a template literal *)
Theorem C40_jsx_refuted : forall strict, highlight_javascript (bs "<p>{`}}}}`}</p>") strict = Fail FDebugAssert.
Proof. intros strict. vm_compute. reflexivity. Qed.
Print Assumptions C40_jsx_refuted.
