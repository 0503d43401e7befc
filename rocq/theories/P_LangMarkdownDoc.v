(** * The exact tokens of Markdown documents: lines *)
From Coq Require Import List NArith ZArith Bool Arith Lia.
From Verif Require Import M_Base L_Base S_Tokens M_Utf8 L_Utf8 L_Any P_Utf8 M_Emit S_Ops L_Emit M_Types M_Chars S_Chars P_Chars M_Parse S_Parse L_Parse P_Parse
  M_Api M_Highlighter S_Highlight L_Highlighter L_Auto M_LangHtml M_LangMarkdown S_LangHtml S_Lexemes L_Lexemes L_Number L_Escapes L_Comments L_Does S_LangMarkdown L_MarkdownMatch P_LangMarkdownExact S_LangNasm.
From Verif Require P_LangNasmLexemes P_LangCowelExact.
Import ListNotations.

(** ** Runs and leading spaces *)
Lemma run_firstn x m k r : k <= m -> k = m \/ not_before (is_char x) r -> prefix_len (N.eqb x) (firstn m (repeat x k ++ r)) = k.
Proof.
  intros K H. assert (E : firstn m (repeat x k ++ r) = repeat x k ++ firstn (m - k) r) by (rewrite firstn_app, repeat_length; f_equal; apply firstn_all2; rewrite repeat_length; lia).
  rewrite E. apply run_len. destruct (m - k) as [|j] eqn:J; [apply not_before_nil|]. destruct r as [|y r]; [apply not_before_nil|]. apply not_before_cons. destruct H as [H|H]; [lia|]. exact (H y eq_refl).
Qed.
Lemma run_split x (s : str) : exists r, s = repeat x (prefix_len (N.eqb x) s) ++ r /\ not_before (is_char x) r.
Proof.
  induction s as [|c s (r & E & R)]; [exists []; split; [reflexivity|apply not_before_nil]|]. cbn [prefix_len]. destruct (N.eqb_spec x c) as [<-|N].
  - exists r. split; [cbn [repeat app]; congruence|exact R].
  - exists (c :: s). split; [reflexivity|]. apply not_before_cons. intros E'. apply N. symmetry. exact E'.
Qed.
Lemma run_firstn_split x m (s : str) : exists k r, s = repeat x k ++ r /\ k <= m /\ (k = m \/ not_before (is_char x) r) /\ prefix_len (N.eqb x) (firstn m s) = k.
Proof.
  destruct (run_split x s) as (r & E & R). set (n := prefix_len (N.eqb x) s) in *. destruct (le_lt_dec n m) as [L|L].
  - exists n, r. rewrite E. split; [reflexivity|]. split; [exact L|]. split; [right; exact R|]. apply run_firstn; auto.
  - exists m, (repeat x (n - m) ++ r). assert (E' : s = repeat x m ++ repeat x (n - m) ++ r) by (rewrite app_assoc, <- repeat_app, Nat.add_comm, Nat.sub_add by lia; exact E).
    split; [exact E'|]. split; [lia|]. split; [left; reflexivity|]. rewrite E'. apply run_firstn; auto.
Qed.
Lemma lead_exact i r : i <= 3 -> not_before (is_char (ch " ")) r -> match_lead_spaces (spaces i ++ r) = i.
Proof. intros L R. apply run_firstn; auto. Qed.
Lemma lead_split s : exists i r, s = spaces i ++ r /\ i <= 3 /\ (i = 3 \/ not_before (is_char (ch " ")) r) /\ match_lead_spaces s = i.
Proof. apply run_firstn_split. Qed.
Lemma skip_spaces i r : skipn i (spaces i ++ r) = r.
Proof. apply skipn_repeat. Qed.
Lemma starts_yes (s : str) c : starts_with_ch s c = true -> exists r, s = c :: r.
Proof. destruct s as [|x s]; [discriminate|]. cbn. rewrite N.eqb_eq. intros ->. eauto. Qed.
Lemma not_before_dec (p : N -> bool) (q : N -> Prop) (r : str) : (forall c, p c = true <-> q c) -> match r with x :: _ => negb (p x) | [] => false end = false <-> not_before (fun c => ~ q c) r.
Proof.
  intros H. destruct r as [|c r]; [split; [intros _; apply not_before_nil|reflexivity]|]. rewrite negb_false_iff, H. split; [intros X; apply not_before_cons; tauto|]. intros X.
  destruct (p c) eqn:E; [apply H; exact E|]. exfalso. apply (X c eq_refl). rewrite <- H, E. discriminate.
Qed.

(** ** Lines that are not of a kind *)
Section no.
Variables (s : md_state) (t o : str).
Local Ltac region := apply does_region; [reflexivity|]; change (text [] ++ t) with t; cbv zeta.
Lemma heading_no : ~ heading_line t -> does (md_expect_heading (length t)) s [] (t ++ o) false s.
Proof.
  intros H. unfold md_expect_heading. region. destruct (lead_split t) as (i & r & E & Li & _ & M). rewrite M. rewrite E, skip_spaces.
  destruct (starts_with_ch r (ch "#")) eqn:S; [|apply does_ret]. cbn [negb]. destruct (run_firstn_split (ch "#") 6 r) as (k & v & Ev & Lk & _ & K). rewrite K. rewrite <- skipn_skipn, skip_spaces. rewrite Ev, skipn_repeat.
  destruct (match v with [] => false | x :: _ => negb (is_md_space x) end) eqn:B; [apply does_ret|]. exfalso. apply H. exists i, k, v. split; [exact Li|].
  split; [|split; [rewrite <- Ev; exact E|apply (not_before_dec is_md_space); [apply space_iff|exact B]]]. split; [|exact Lk].
  destruct k; [|lia]. exfalso. apply starts_yes in S as [w ->]. cbn in K. discriminate.
Qed.
Lemma count_split c l : 0 < length (filter (fun x => (x =? c)%N) l) -> exists a d, l = a ++ c :: d /\ length (filter (fun x => (x =? c)%N) l) = S (length (filter (fun x => (x =? c)%N) d)).
Proof.
  induction l as [|x l IH]; cbn [filter length]; [lia|]. destruct (N.eqb_spec x c) as [->|]; cbn [length]; intros H.
  - exists [], l. split; reflexivity.
  - destruct (IH H) as (a & d & -> & E). exists (x :: a), d. split; [reflexivity|exact E].
Qed.
Lemma break_no : ~ thematic_line t -> does (md_expect_break (length t)) s [] (t ++ o) false s.
Proof.
  intros H. unfold md_expect_break. region. destruct (lead_split t) as (i & r & E & Li & _ & M). rewrite M. rewrite E, skip_spaces. destruct r as [|c r]; [apply does_ret|].
  destruct (mem c (bs "*-_=")) eqn:Mc; [|apply does_ret]. cbn [negb]. destruct (forallb _ _) eqn:F; [|apply does_ret]. cbn [negb].
  destruct (Nat.ltb_spec (length (filter (fun x => (x =? c)%N) (c :: r))) 3) as [L|L]; [apply does_ret|]. exfalso. apply H. exists i, (c :: r). split; [exact Li|]. split; [exact E|].
  exists c, r. split; [reflexivity|]. split; [apply mem_In; exact Mc|]. split.
  - apply Forall_forall. intros x Hx. rewrite forallb_forall in F. specialize (F x Hx). apply orb_true_iff in F as [F|F]; [left; apply N.eqb_eq; exact F|right; apply space_iff; exact F].
  - cbn [filter] in L. rewrite N.eqb_refl in L. cbn [length] in L. destruct (count_split c r) as (a & d & -> & E1); [lia|]. destruct (count_split c d) as (b & d' & -> & E2); [lia|]. eauto.
Qed.
Lemma fence_no : ~ fence_line t -> does (md_expect_fence (length t)) s [] (t ++ o) false s.
Proof.
  intros H. unfold md_expect_fence. region. destruct (lead_split t) as (i & r & E & Li & _ & M). rewrite M. rewrite E, skip_spaces. destruct r as [|c r]; [apply does_ret|].
  destruct (mem c (bs "`~")) eqn:Mc; [|apply does_ret]. cbn [negb]. destruct (run_split c (c :: r)) as (v & Ev & Rv). set (k := prefix_len (N.eqb c) (c :: r)) in *.
  destruct (Nat.ltb_spec k 3) as [L|L]; [apply does_ret|]. rewrite <- skipn_skipn, skip_spaces. rewrite Ev, skipn_repeat.
  destruct (_ && _) eqn:B; [apply does_ret|]. exfalso. apply H. exists i, c, k, v. split; [exact Li|]. split; [rewrite <- Ev; exact E|]. split; [apply mem_In; exact Mc|]. split; [exact L|]. split; [exact Rv|].
  intros Ec Hin. apply andb_false_iff in B as [B|B]; [apply N.eqb_neq in B; exact (B Ec)|]. apply not_true_iff_false in B. apply B. apply existsb_exists. exists tick. split; [exact Hin|reflexivity].
Qed.
Lemma marker_split r : md_marker r <> 0 -> exists m v, r = m ++ v /\ list_marker m /\ length m = md_marker r.
Proof.
  unfold md_marker. destruct r as [|c r]; [congruence|]. destruct (mem c (bs "-+*")) eqn:M.
  - intros _. exists [c], r. split; [reflexivity|]. split; [|reflexivity]. left. exists c. split; [reflexivity|apply mem_In; exact M].
  - destruct (is_ascii_digit c) eqn:D; [|congruence]. set (u := c :: r) in *. set (d := prefix_len is_ascii_digit (firstn 9 u)).
    assert (Ld : d <= 9) by (unfold d; etransitivity; [apply prefix_len_le|]; rewrite firstn_length; lia).
    destruct (skipn d u) as [|x v] eqn:S; [congruence|]. destruct (mem x (bs ".)")) eqn:Mx; [|congruence]. intros _. exists (firstn d u ++ [x]), v.
    assert (Lu : length (firstn d u) = d). { rewrite firstn_length. assert (d < length u); [|lia]. destruct (Nat.lt_ge_cases d (length u)) as [X|X]; [exact X|]. rewrite skipn_all2 in S by exact X. discriminate. }
    split; [rewrite <- app_assoc; cbn [app]; rewrite <- S; symmetry; apply firstn_skipn|]. split; [|rewrite app_length, Lu; reflexivity].
    right. exists (firstn d u), x. split; [reflexivity|]. split; [rewrite Lu; split; [|exact Ld]|split; [|apply mem_In; exact Mx]].
    + unfold d, u. cbn [firstn prefix_len]. rewrite D. lia.
    + assert (F : firstn d u = firstn d (firstn 9 u)) by (rewrite firstn_firstn; f_equal; lia). rewrite F. apply Forall_forall. intros y Hy. apply digit_iff.
      clear - Hy. unfold d in Hy. set (w := firstn 9 u) in *. clearbody w. induction w as [|z w IH]; [destruct Hy|]. cbn [prefix_len] in Hy. destruct (is_ascii_digit z) eqn:Z; [|destruct Hy]. cbn [firstn] in Hy. destruct Hy as [<-|Hy]; [exact Z|exact (IH Hy)].
Qed.
Lemma list_no : ~ list_line t -> does (md_expect_list (length t)) s [] (t ++ o) false s.
Proof.
  intros H. unfold md_expect_list. region. destruct (run_split (ch " ") t) as (r & E & _). set (i := prefix_len (N.eqb (ch " ")) t) in *. rewrite <- (skipn_skipn (md_marker _)). rewrite E, skipn_repeat.
  destruct (Nat.eqb_spec (md_marker r) 0) as [Z|Z]; [apply does_ret|]. destruct (marker_split r Z) as (m & v & Ev & Hm & Lm). rewrite <- Lm. rewrite Ev at 1. rewrite skipn_app_exact. destruct v as [|x v]; [apply does_ret|].
  destruct (is_md_space x) eqn:B; [|apply does_ret]. exfalso. apply H. exists i, m, x, v. split; [rewrite <- Ev; exact E|]. split; [exact Hm|apply space_iff; exact B].
Qed.
Lemma quote_no fuel : ~ quote_line t -> does (md_expect_quote (S fuel) (length t)) s [] (t ++ o) false s.
Proof.
  intros H. cbn [md_expect_quote]. region. destruct (lead_split t) as (i & r & E & Li & _ & M). rewrite M. rewrite E, skip_spaces. destruct (starts_with_ch r (ch ">")) eqn:S; [|apply does_ret].
  exfalso. apply starts_yes in S as [v ->]. apply H. exists i, v. auto.
Qed.
Lemma indented_no : ~ indented_line t -> does (md_expect_indented (length t)) s [] (t ++ o) false s.
Proof.
  intros H. unfold md_expect_indented. region. destruct t as [|c t'] eqn:Et; [apply does_ret|]. rewrite <- Et in *. destruct (N.eqb_spec c 9) as [->|N].
  - exfalso. apply H. exists [9%N], t'. split; [exact Et|right; reflexivity].
  - cbn [negb andb]. destruct (run_firstn_split (ch " ") 4 t) as (k & v & Ev & Lk & _ & K). rewrite K. destruct (Nat.ltb_spec k 4) as [L|L]; [apply does_ret|]. exfalso. apply H. exists (spaces 4), v. replace k with 4 in Ev by lia. split; [exact Ev|left; reflexivity].
Qed.
End no.

(** ** Lines that are of a kind *)
Lemma blank_not c x : ~ blank_char c -> blank_char x -> x <> c.
Proof. intros A B ->. contradiction. Qed.
Section yes.
Variables (s : md_state) (o : str).
Lemma heading_does open i n c l e : i <= 3 -> 1 <= n <= 6 -> blank_char c -> md_inlines (Some hl_text_heading) open 0 l -> heading_end (text l) e ->
  forall k, k = length (spaces i ++ repeat (ch "#") n ++ c :: text l ++ e) ->
  does (md_expect_heading k) s ((spaces i, None) :: formatting (repeat (ch "#") n) :: ([c], None) :: l ++ [(e, None)]) o true (opened open s).
Proof.
  intros Li Ln Hc Hl He k ->. set (p := (spaces i, None) :: formatting (repeat (ch "#") n) :: ([c], None) :: l ++ [(e, None)]).
  assert (X : text p = spaces i ++ repeat (ch "#") n ++ c :: text l ++ e) by (unfold p, formatting; rewrite !text_cons, text_app, text_one; reflexivity).
  unfold md_expect_heading. apply does_region_all; [rewrite X; reflexivity|]. rewrite X. cbv zeta.
  rewrite lead_exact; [|exact Li|destruct n; [lia|]; apply not_before_cons; discriminate]. rewrite skip_spaces.
  replace (starts_with_ch (repeat (ch "#") n ++ c :: text l ++ e) (ch "#")) with true by (destruct n; [lia|reflexivity]). cbn [negb].
  rewrite run_firstn; [|lia|right; apply not_before_cons; intros Y; unfold is_char in Y; subst c; destruct Hc; discriminate].
  rewrite <- skipn_skipn, skip_spaces, skipn_repeat. apply space_iff in Hc. rewrite Hc. cbn [negb].
  unfold p. eapply does_cons; [apply does_advance; unfold spaces; rewrite repeat_length; reflexivity|]. eapply does_cons; [apply does_emit; [rewrite repeat_length; reflexivity|apply repeat_ne; lia]|].
  eapply does_cons; [apply does_advance; reflexivity|].
  assert (Lk : length (spaces i ++ repeat (ch "#") n ++ c :: text l ++ e) - (i + n + 1) = length (text l ++ e)) by (unfold spaces; rewrite !app_length; cbn [length]; rewrite !app_length, !repeat_length; lia).
  rewrite Lk. eapply does_last with (x := tt); [|apply does_ret]. destruct (length (text l ++ e) =? 0) eqn:Z.
  - apply Nat.eqb_eq in Z. apply length_zero_iff_nil in Z. apply app_eq_nil in Z as [Z ->]. destruct (inlines_nil _ _ _ _ Hl Z) as [-> ->]. cbn [negb when app].
    intros j w. cbn. rewrite Nat.add_0_r. split; reflexivity.
  - cbn [negb when]. apply does_region_all; [rewrite text_app, text_one; reflexivity|]. rewrite text_app, text_one. cbv zeta. rewrite (strip_exact _ _ He).
    eapply does_bind; [apply (inline_does _ open); [exact Hl|reflexivity]|]. apply does_advance. rewrite app_length. lia.
Qed.
Lemma heading_empty_does i n : i <= 3 -> 1 <= n <= 6 -> forall k, k = length (spaces i ++ repeat (ch "#") n) ->
  does (md_expect_heading k) s [(spaces i, None); formatting (repeat (ch "#") n)] o true s.
Proof.
  intros Li Ln k ->. set (p := [(spaces i, None); formatting (repeat (ch "#") n)]).
  assert (X : text p = spaces i ++ repeat (ch "#") n) by (unfold p, formatting; rewrite text_cons, text_one; reflexivity).
  unfold md_expect_heading. apply does_region_all; [rewrite X; reflexivity|]. rewrite X. cbv zeta.
  rewrite lead_exact; [|exact Li|destruct n; [lia|]; apply not_before_cons; discriminate]. rewrite skip_spaces.
  replace (starts_with_ch (repeat (ch "#") n) (ch "#")) with true by (destruct n; [lia|reflexivity]). cbn [negb].
  rewrite <- (app_nil_r (repeat (ch "#") n)). rewrite run_firstn; [|lia|right; apply not_before_nil]. rewrite <- skipn_skipn, skip_spaces, skipn_repeat. cbv iota.
  unfold p. eapply does_cons; [apply does_advance; unfold spaces; rewrite repeat_length; reflexivity|]. eapply does_cons; [apply does_emit; [rewrite repeat_length; reflexivity|apply repeat_ne; lia]|].
  replace (length (spaces i ++ repeat (ch "#") n ++ []) - (i + n + 0)) with 0 by (unfold spaces; rewrite !app_length, !repeat_length; cbn; lia). cbn [Nat.eqb negb when].
  intros j w. cbn [text map concat app tokens rev length]. apply wp_bind, wp_advance_exact; [lia|]. cbn [skipn]. apply wp_bind, wp_ret, wp_ret. rewrite !Nat.add_0_r. split; reflexivity.
Qed.
Lemma break_does i w : i <= 3 -> thematic w -> forall k, k = length (spaces i ++ w) -> does (md_expect_break k) s [(spaces i, None); formatting w] o true s.
Proof.
  intros Li (c & t & E & Hc & F & a & b & d & E2) k ->. set (p := [(spaces i, None); formatting w]).
  assert (X : text p = spaces i ++ w) by (unfold p, formatting; rewrite text_cons, text_one; reflexivity).
  unfold md_expect_break. apply does_region_all; [rewrite X; reflexivity|]. rewrite X. cbv zeta.
  assert (Nc : c <> ch " "). { cbn in Hc. intros ->. cbn in Hc. intuition discriminate. }
  rewrite lead_exact; [|exact Li|rewrite E; apply not_before_cons; exact Nc]. rewrite skip_spaces. rewrite E at 1.
  apply mem_In in Hc. rewrite Hc. cbn [negb]. replace (forallb (fun x => (x =? c)%N || is_md_space x) w) with true.
  2:{ symmetry. apply forallb_forall. rewrite Forall_forall in F. intros x Hx. apply orb_true_iff. destruct (F x Hx) as [->|Y]; [left; apply N.eqb_refl|right; apply space_iff; exact Y]. }
  cbn [negb]. replace (length (filter (fun x => (x =? c)%N) w) <? 3) with false.
  2:{ symmetry. apply Nat.ltb_ge. rewrite E2. cbn [filter]. rewrite N.eqb_refl, filter_app. cbn [filter]. rewrite N.eqb_refl. cbn [length]. rewrite app_length. cbn [length]. rewrite filter_app. cbn [filter]. rewrite N.eqb_refl, app_length. cbn [length]. lia. }
  unfold p. eapply does_cons; [apply does_advance; unfold spaces; rewrite repeat_length; reflexivity|]. eapply does_cons; [apply does_emit; [unfold spaces; rewrite app_length, repeat_length; lia|rewrite E; discriminate]|]. apply does_ret.
Qed.
Lemma fence_does i c n info : i <= 3 -> fence c n info -> forall k, k = length (spaces i ++ repeat c n ++ info) ->
  does (md_expect_fence k) s [(spaces i, None); (repeat c n, Some hl_string_delim); (info, None)] o true (mk_md true c n (md_comment s)).
Proof.
  intros Li (Hc & Hn & Hi & Ht) k ->. set (p := [(spaces i, None); (repeat c n, Some hl_string_delim); (info, None)]).
  assert (X : text p = spaces i ++ repeat c n ++ info) by (unfold p; rewrite !text_cons, text_one || rewrite !text_cons; cbn [text map concat]; rewrite ?app_nil_r; reflexivity).
  unfold md_expect_fence. apply does_region_all; [rewrite X; reflexivity|]. rewrite X. cbv zeta.
  assert (Nc : c <> ch " "). { cbn in Hc. intros ->. cbn in Hc. intuition discriminate. }
  assert (Nn : n = S (n - 1)) by lia.
  rewrite lead_exact; [|exact Li|rewrite Nn; apply not_before_cons; exact Nc]. rewrite skip_spaces.
  assert (E : exists r, repeat c n ++ info = c :: r) by (rewrite Nn; eexists; reflexivity). destruct E as [r E]. rewrite E at 1.
  rewrite run_len by exact Hi. rewrite <- skipn_skipn, skip_spaces, skipn_repeat. apply mem_In in Hc. rewrite Hc. cbn [negb]. destruct (Nat.ltb_spec n 3) as [L|_]; [lia|].
  replace ((c =? ch "`")%N && existsb (N.eqb (ch "`")) info) with false.
  2:{ symmetry. apply andb_false_iff. destruct (N.eqb_spec c (ch "`")) as [Y|Y]; [right|left; reflexivity]. apply not_true_iff_false. intros Z. apply existsb_exists in Z as (y & Hy & Z). apply N.eqb_eq in Z. subst y. exact (Ht Y Hy). }
  apply does_get_loc, does_set_loc. unfold p. eapply does_cons; [apply does_advance; unfold spaces; rewrite repeat_length; reflexivity|]. eapply does_cons; [apply does_emit; [rewrite repeat_length; reflexivity|apply repeat_ne; lia]|].
  eapply does_cons; [apply does_advance; unfold spaces; rewrite !app_length, !repeat_length; lia|]. apply does_ret.
Qed.
Lemma marker_exact m v : list_marker m -> not_before digit v -> md_marker (m ++ v) = length m.
Proof.
  intros [(c & -> & Hc)|(d & c & -> & Ld & F & Hc)] V.
  - cbn [app md_marker]. apply mem_In in Hc. rewrite Hc. reflexivity.
  - destruct d as [|y d]; [cbn in Ld; lia|]. set (u := y :: d) in *. assert (Dy : digit y) by (apply Forall_inv in F; exact F).
    assert (My : mem y (bs "-+*") = false) by (apply not_true_iff_false; rewrite mem_In; cbn; unfold digit in Dy; lia).
    assert (Ey : is_ascii_digit y = true) by (apply digit_iff; exact Dy). rewrite <- app_assoc.
    assert (E : md_marker (u ++ [c] ++ v) = if mem y (bs "-+*") then 1 else if is_ascii_digit y then
      (let d := prefix_len is_ascii_digit (firstn 9 (u ++ [c] ++ v)) in match skipn d (u ++ [c] ++ v) with x :: _ => if mem x (bs ".)") then d + 1 else 0 | [] => 0 end) else 0) by reflexivity.
    rewrite E, My, Ey. cbv zeta.
    assert (P : prefix_len is_ascii_digit (firstn 9 (u ++ [c] ++ v)) = length u).
    { assert (E1 : firstn 9 (u ++ [c] ++ v) = u ++ firstn (9 - length u) ([c] ++ v)) by (rewrite firstn_app; f_equal; apply firstn_all2; lia). rewrite E1. apply prefix_len_exact.
      - eapply Forall_impl; [|exact F]. intros x Hx. apply digit_iff. exact Hx.
      - destruct (9 - length u); [apply not_before_nil|]. apply not_before_cons. rewrite digit_iff. cbn in Hc. unfold digit. destruct Hc as [<-|[<-|[]]]; cbn; lia. }
    rewrite P, skipn_app_exact. cbn [app]. apply mem_In in Hc. rewrite Hc, app_length. reflexivity.
Qed.
Lemma marker_first m : list_marker m -> exists c v, m = c :: v /\ (In c (bs "-+*") \/ digit c).
Proof.
  intros [(c & -> & Hc)|(d & c & -> & Ld & F & Hc)]; [exists c, []; auto|]. destruct d as [|y d]; [cbn in Ld; lia|]. exists y, (d ++ [c]). split; [reflexivity|]. right. apply Forall_inv in F. exact F.
Qed.
Lemma list_does open i m c l : list_marker m -> blank_char c -> md_inlines None open 0 l -> forall k, k = length (spaces i ++ m ++ c :: text l) ->
  does (md_expect_list k) s ((spaces i, None) :: formatting m :: ([c], None) :: l) o true (opened open s).
Proof.
  intros Hm Hc Hl k ->. set (p := (spaces i, None) :: formatting m :: ([c], None) :: l).
  assert (X : text p = spaces i ++ m ++ c :: text l) by (unfold p, formatting; rewrite !text_cons; reflexivity).
  destruct (marker_first m Hm) as (y & v & Em & Hy). assert (Ny : y <> ch " "). { cbn in Hy. unfold digit in Hy. intros ->. cbn in Hy. lia. }
  unfold md_expect_list. apply does_region_all; [rewrite X; reflexivity|]. rewrite X. cbv zeta. rewrite run_len by (rewrite Em; apply not_before_cons; exact Ny).
  rewrite <- (skipn_skipn (md_marker _)). rewrite skip_spaces. rewrite marker_exact; [|exact Hm|apply not_before_cons; unfold digit; destruct Hc; lia].
  destruct (Nat.eqb_spec (length m) 0) as [Z|_]; [rewrite Em in Z; discriminate|]. rewrite skipn_app_exact. apply space_iff in Hc. rewrite Hc. cbn [negb].
  unfold p. eapply does_cons; [apply does_advance; unfold spaces; rewrite repeat_length; reflexivity|]. eapply does_cons; [apply does_emit; [reflexivity|rewrite Em; discriminate]|]. eapply does_cons; [apply does_advance; reflexivity|].
  eapply does_last; [apply (inline_does _ open); [exact Hl|unfold spaces; rewrite !app_length, repeat_length; cbn [length]; lia]|apply does_ret].
Qed.
Lemma indented_does i t : indentation i -> forall k, k = length (i ++ t) -> does (md_expect_indented k) s ((i, None) :: opt_piece t hl_text_code) o true s.
Proof.
  intros Hi k ->. unfold md_expect_indented. assert (X : text ((i, None) :: opt_piece t hl_text_code) = i ++ t) by (rewrite text_cons, opt_piece_text; reflexivity).
  apply does_region_all; [rewrite X; reflexivity|]. rewrite X.
  assert (E : exists c r, i ++ t = c :: r /\ (if (c =? 9)%N then 1 else prefix_len (N.eqb (ch " ")) (firstn 4 (i ++ t))) = length i /\ (negb (c =? 9)%N && (length i <? 4)) = false).
  { destruct Hi as [->| ->]; do 2 eexists; (split; [reflexivity|]); split; reflexivity. }
  destruct E as (c & r & E & A & B). rewrite E at 1. cbv zeta. rewrite A, B. eapply does_cons; [apply does_advance; reflexivity|]. eapply does_last with (x := tt); [|apply does_ret]. rewrite app_length, Nat.add_comm, Nat.add_sub.
  destruct t as [|x t]; [cbn [length Nat.add opt_piece]; rewrite Nat.ltb_irrefl; apply does_ret|]. replace (length i <? length (x :: t) + length i) with true by (symmetry; apply Nat.ltb_lt; cbn; lia). apply does_emit; [reflexivity|discriminate].
Qed.
End yes.

(** ** The first characters of lines *)
Lemma spaces_eq c d : c <> ch " " -> d <> ch " " -> forall i r j v, spaces i ++ c :: r = spaces j ++ d :: v -> i = j /\ c = d /\ r = v.
Proof.
  intros Hc Hd. induction i as [|i IH]; intros r [|j] v E; cbn [spaces repeat app] in E.
  - injection E as -> ->. auto.
  - injection E as -> _. contradiction.
  - injection E as <- _. contradiction.
  - injection E as E. destruct (IH r j v E) as (-> & -> & ->). auto.
Qed.
Lemma spaces_deep t i d v : i <= 3 -> spaces 4 ++ t = spaces i ++ d :: v -> d = ch " ".
Proof. intros L E. destruct i as [|[|[|[|i]]]]; [| | | |lia]; injection E as <-; reflexivity. Qed.
Definition first_of (P : N -> Prop) (t : str) : Prop := exists i c r, t = spaces i ++ c :: r /\ P c /\ c <> ch " " /\ i <= 3.
Lemma heading_first t : heading_line t -> first_of (is_char (ch "#")) t.
Proof. intros (i & n & r & Li & Ln & -> & _). destruct n as [|n]; [lia|]. exists i, (ch "#"), (repeat (ch "#") n ++ r). repeat split; [discriminate|exact Li]. Qed.
Lemma thematic_first t : thematic_line t -> first_of (fun c => In c (bs "*-_=")) t.
Proof. intros (i & w & Li & -> & c & r & -> & Hc & _). exists i, c, r. split; [reflexivity|]. split; [exact Hc|]. split; [|exact Li]. intros ->. cbn in Hc. intuition discriminate. Qed.
Lemma fence_first t : fence_line t -> first_of (fun c => In c (bs "`~")) t.
Proof. intros (i & c & n & r & Li & -> & Hc & Ln & _). destruct n as [|n]; [lia|]. exists i, c, (repeat c n ++ r). split; [reflexivity|]. split; [exact Hc|]. split; [|exact Li]. intros ->. cbn in Hc. intuition discriminate. Qed.
Lemma quote_first t : quote_line t -> first_of (is_char (ch ">")) t.
Proof. intros (i & r & Li & ->). exists i, (ch ">"), r. repeat split; [discriminate|exact Li]. Qed.
Lemma list_first t : list_line t -> exists i c r, t = spaces i ++ c :: r /\ (In c (bs "-+*") \/ digit c) /\ c <> ch " ".
Proof.
  intros (i & m & x & r & -> & Hm & _). destruct (marker_first m Hm) as (c & v & -> & Hc). exists i, c, (v ++ x :: r). split; [reflexivity|]. split; [exact Hc|]. intros ->. cbn in Hc. unfold digit in Hc. lia.
Qed.
Lemma first_no (P : str -> Prop) (Q : N -> Prop) t i c r : (forall t, P t -> first_of Q t) -> t = spaces i ++ c :: r -> c <> ch " " -> ~ Q c -> ~ P t.
Proof. intros H -> Nc NQ HP. destruct (H _ HP) as (j & d & v & E & Hd & Nd & _). apply spaces_eq in E; [|assumption..]. destruct E as (_ & <- & _). contradiction. Qed.
Lemma list_line_no t i c r : t = spaces i ++ c :: r -> c <> ch " " -> ~ In c (bs "-+*") -> ~ digit c -> ~ list_line t.
Proof. intros -> Nc N1 N2 HP. destruct (list_first _ HP) as (j & d & v & E & Hd & Nd). apply spaces_eq in E; [|assumption..]. destruct E as (_ & <- & _). tauto. Qed.
Lemma deep_no (P : str -> Prop) (Q : N -> Prop) i t : (forall t, P t -> first_of Q t) -> ~ Q 9%N -> indentation i -> ~ P (i ++ t).
Proof.
  intros H N9 [->| ->] HP.
  - destruct (H _ HP) as (j & d & v & E & _ & Nd & L). apply spaces_deep in E; [contradiction|exact L].
  - destruct (H _ HP) as (j & d & v & E & Hd & Nd & L). apply (spaces_eq 9%N d ltac:(discriminate) Nd 0) in E. destruct E as (_ & <- & _). contradiction.
Qed.
Lemma indented_first t i c r : t = spaces i ++ c :: r -> i <= 3 -> c <> ch " " -> c <> 9%N -> ~ indented_line t.
Proof.
  intros -> L Nc N9 (j & v & E & [->| ->]).
  - symmetry in E. apply spaces_deep in E; [contradiction|exact L].
  - apply (spaces_eq c 9%N Nc ltac:(discriminate) i r 0) in E. destruct E as (_ & -> & _). contradiction.
Qed.

(** ** Blocks *)
Local Ltac no_first := first [discriminate | cbn; unfold is_char, digit; cbn; (lia || intuition discriminate)].
Definition chain_tail (fuel n : nat) : MD bool :=
  let! b := md_expect_list n in if b then ret true else
  let! b := md_expect_quote fuel n in if b then ret true else
  let! b := md_expect_indented n in if b then ret true else
  md_inline n 0%N None ;; ret true.
Definition chain (quoted : bool) (fuel n : nat) : MD bool :=
  let! b := md_expect_heading n in if b then ret true else
  let! b := md_expect_break n in if b then ret true else
  if quoted then chain_tail fuel n else let! b := md_expect_fence n in if b then ret true else chain_tail fuel n.
Lemma to_tail quoted t fuel s p o s' : text p = t -> ~ heading_line t -> ~ thematic_line t -> (quoted = false -> ~ fence_line t) ->
  does (chain_tail fuel (length t)) s p o true s' -> does (chain quoted fuel (length t)) s p o true s'.
Proof.
  intros E H1 H2 H3 D. unfold chain. eapply does_nil; [rewrite E; apply heading_no; exact H1|cbv iota]. eapply does_nil; [rewrite E; apply break_no; exact H2|cbv iota].
  destruct quoted; [exact D|]. eapply does_nil; [rewrite E; apply fence_no; apply H3; reflexivity|exact D].
Qed.
Lemma quote_does fuel i c l open s o : i <= 3 -> c = [] /\ not_before blank_char (text l) \/ c = [32]%N \/ c = [9]%N ->
  (text l = [] -> l = [] /\ open = false) -> (text l <> [] -> does (chain true fuel (length (text l))) s l o true (opened open s)) ->
  forall k, k = length (spaces i ++ ch ">" :: c ++ text l) ->
  does (md_expect_quote (S fuel) k) s ((spaces i, None) :: formatting (bs ">") :: (c, None) :: l) o true (opened open s).
Proof.
  intros Li Hc He Hl k ->. set (p := (spaces i, None) :: formatting (bs ">") :: (c, None) :: l).
  assert (X : text p = spaces i ++ ch ">" :: c ++ text l) by (unfold p, formatting; rewrite !text_cons; reflexivity).
  cbn [md_expect_quote]. apply does_region_all; [rewrite X; reflexivity|]. rewrite X. cbv zeta. rewrite lead_exact by (exact Li || (apply not_before_cons; discriminate)). rewrite skip_spaces.
  change (starts_with_ch (ch ">" :: c ++ text l) (ch ">")) with true. cbn [negb]. rewrite <- skipn_skipn, skip_spaces. change (skipn 1 (ch ">" :: c ++ text l)) with (c ++ text l).
  replace (match c ++ text l with [] => 0 | x :: _ => if is_md_space x then 1 else 0 end) with (length c).
  2:{ destruct Hc as [[-> Hc]|[->| ->]]; [|reflexivity..]. cbn [app length]. destruct (text l) as [|x t]; [reflexivity|]. replace (is_md_space x) with false; [reflexivity|]. symmetry. apply space_no. exact (Hc x eq_refl). }
  unfold p. eapply does_cons; [apply does_advance; unfold spaces; rewrite repeat_length; reflexivity|]. eapply does_cons; [apply does_emit; [reflexivity|discriminate]|]. eapply does_cons; [apply does_advance; reflexivity|].
  replace (length (spaces i ++ ch ">" :: c ++ text l) - (i + 1 + length c)) with (length (text l)) by (unfold spaces; rewrite !app_length; cbn [length]; rewrite app_length, repeat_length; lia).
  destruct (Nat.eqb_spec (length (text l)) 0) as [Z|Z]; [apply length_zero_iff_nil in Z; destruct (He Z) as [-> ->]; apply does_ret|]. apply Hl. intros Y. rewrite Y in Z. apply Z. reflexivity.
Qed.
Lemma block_does quoted open l : md_block quoted open l -> forall fuel s o n, length (text l) < fuel -> n = length (text l) -> does (chain quoted fuel n) s l o true (opened open s).
Proof.
  intros G. induction G as [quoted i n Li Ln|quoted open i n c l e Li Ln Hc Hl He|quoted i w Li Hw|quoted open i m c l Hm Hc Ht Hl|quoted i c Li Hc|quoted open i c l Li Hc Hne G IH|quoted i t Hi Hl Hb|quoted open l Hl Hne N1 N2 N3 N4 N5 N6];
    intros fuel s o k Lf ->.
  - unfold chain. eapply does_last; [apply heading_empty_does; [exact Li|exact Ln|]|apply does_ret]. unfold formatting. rewrite text_cons, text_one. reflexivity.
  - unfold chain. eapply does_last; [apply heading_does; [exact Li|exact Ln|exact Hc|exact Hl|exact He|]|apply does_ret]. unfold formatting. rewrite !text_cons, text_app, text_one. reflexivity.
  - set (p := [(spaces i, None); formatting w]). assert (X : text p = spaces i ++ w) by (unfold p, formatting; rewrite text_cons, text_one; reflexivity).
    pose proof (thematic_first (spaces i ++ w) ltac:(exists i, w; auto)) as (j & c & r & E & Hc & Nc & _).
    unfold chain. eapply does_nil; [rewrite X; apply heading_no; eapply first_no; [apply heading_first|exact E|exact Nc|]|cbv iota]. { cbn in Hc. unfold is_char. intros ->. cbn in Hc. intuition discriminate. }
    eapply does_last; [apply break_does; [exact Li|exact Hw|rewrite X; reflexivity]|apply does_ret].
  - set (p := (spaces i, None) :: formatting m :: ([c], None) :: l). assert (X : text p = spaces i ++ m ++ c :: text l) by (unfold p, formatting; rewrite !text_cons; reflexivity).
    pose proof (list_first (spaces i ++ m ++ c :: text l) ltac:(exists i, m, c, (text l); auto)) as (j & x & r & E & Hx & Nx).
    assert (Nf : x <> ch "#" /\ ~ In x (bs "`~")). { cbn in Hx. unfold digit in Hx. cbn. lia. }
    rewrite X. apply to_tail; [exact X|eapply first_no; [apply heading_first|exact E|exact Nx|apply Nf]|exact Ht|intros _; eapply first_no; [apply fence_first|exact E|exact Nx|apply Nf]|].
    eapply does_last; [apply list_does; [exact Hm|exact Hc|exact Hl|reflexivity]|apply does_ret].
  - set (p := [(spaces i, None); formatting (bs ">"); (c, None)]). assert (X : text p = spaces i ++ ch ">" :: c ++ text []) by (unfold p, formatting; rewrite !text_cons; reflexivity).
    destruct fuel as [|fuel]; [lia|]. rewrite X.
    apply to_tail; [exact X|eapply first_no; [apply heading_first|reflexivity|no_first..]|eapply first_no; [apply thematic_first|reflexivity|no_first..]|intros _; eapply first_no; [apply fence_first|reflexivity|no_first..]|].
    unfold chain_tail. eapply does_nil; [rewrite X; apply list_no; eapply list_line_no; [reflexivity|no_first..]|cbv iota].
    eapply does_last; [apply (quote_does fuel i c [] false); [exact Li| |auto|intros Y; elim Y; reflexivity|reflexivity]|apply does_ret]. destruct Hc as [Hc|Hc]; [left; split; [exact Hc|apply not_before_nil]|right; exact Hc].
  - set (p := (spaces i, None) :: formatting (bs ">") :: (c, None) :: l). fold p in Lf. assert (X : text p = spaces i ++ ch ">" :: c ++ text l) by (unfold p, formatting; rewrite !text_cons; reflexivity).
    destruct fuel as [|fuel]; [lia|]. rewrite X in *. rewrite !app_length in Lf. cbn [length] in Lf. rewrite app_length in Lf.
    apply to_tail; [exact X|eapply first_no; [apply heading_first|reflexivity|no_first..]|eapply first_no; [apply thematic_first|reflexivity|no_first..]|intros _; eapply first_no; [apply fence_first|reflexivity|no_first..]|].
    unfold chain_tail. eapply does_nil; [rewrite X; apply list_no; eapply list_line_no; [reflexivity|no_first..]|cbv iota].
    eapply does_last; [apply (quote_does fuel i c l open); [exact Li|exact Hc|intros Y; elim (Hne Y)|intros _; apply IH; [lia|reflexivity]|reflexivity]|apply does_ret].
  - set (p := (i, None) :: opt_piece t hl_text_code). fold p in Lf. assert (X : text p = i ++ t) by (unfold p; rewrite text_cons, opt_piece_text; reflexivity). destruct fuel as [|fuel]; [lia|]. rewrite X.
    apply to_tail; [exact X|eapply deep_no; [apply heading_first|no_first|exact Hi]|eapply deep_no; [apply thematic_first|no_first|exact Hi]|intros _; eapply deep_no; [apply fence_first|no_first|exact Hi]|].
    unfold chain_tail. eapply does_nil; [rewrite X; apply list_no; exact Hl|cbv iota]. eapply does_nil; [rewrite X; apply quote_no; eapply deep_no; [apply quote_first|no_first|exact Hi]|cbv iota].
    eapply does_last; [apply indented_does; [exact Hi|reflexivity]|apply does_ret].
  - destruct fuel as [|fuel]; [lia|]. apply to_tail; [reflexivity|exact N1|exact N2|intros Q; apply (N6 Q)|].
    unfold chain_tail. eapply does_nil; [apply list_no; exact N3|cbv iota]. eapply does_nil; [apply quote_no; exact N4|cbv iota]. eapply does_nil; [apply indented_no; exact N5|cbv iota].
    eapply does_last; [apply (inline_does _ open); [exact Hl|reflexivity]|apply does_ret].
Qed.

(** ** Lines *)
Lemma does_region_at {B} (k : str -> MD B) n t u s p rest y s' : text p ++ rest = t ++ u -> n = length t -> does (k t) s p rest y s' -> does (bindM (md_region n) k) s p rest y s'.
Proof.
  intros E -> H i o. apply wp_bind. unfold md_region. apply wp_bind, wp_get_rem. cbn [rem]. rewrite E. apply wp_bind, wp_check; [apply Nat.leb_le; rewrite app_length; lia|]. apply wp_ret. rewrite firstn_app_exact, <- E. apply H.
Qed.
Lemma does_ext {A} (m m' : MD A) s p rest y s' : (forall st, m' st = m st) -> does m s p rest y s' -> does m' s p rest y s'.
Proof. intros E H i o. unfold wp. rewrite E. apply H. Qed.
Lemma not_white_in (c : N) (a b : str) : ~ md_white c -> ~ blank (a ++ c :: b).
Proof. intros H F. apply Forall_app in F as [_ F]. apply Forall_inv in F. contradiction. Qed.
Local Ltac dark := unfold md_white, blank_char, digit in *; cbn in *; lia.
Lemma block_not_blank open l : md_block false open l -> ~ blank (text l).
Proof.
  intros G. remember false as quoted eqn:Q. destruct G as [i n Li Ln|open i n c l e Li Ln Hc Hl He|i w Li Hw|open i m c l Hm Hc Ht Hl|i c Li Hc|open i c l Li Hc Hne G|i t Hi Hl Hb|open l Hl Hne N1 N2 N3 N4 N5 N6]; unfold formatting; rewrite ?text_cons.
  - destruct n as [|n]; [lia|]. apply not_white_in. dark.
  - destruct n as [|n]; [lia|]. apply not_white_in. dark.
  - destruct Hw as (c & t & -> & Hc & _). apply not_white_in. dark.
  - destruct (marker_first m Hm) as (y & v & -> & Hy). apply not_white_in. dark.
  - apply not_white_in. dark.
  - apply not_white_in. dark.
  - rewrite opt_piece_text. intros F. apply Forall_app in F as [_ F]. exact (Hb Q F).
  - apply (N6 Q).
Qed.
Lemma find_end t r : ~ contains (t ++ bs "--") (bs "-->") -> find_sub (t ++ bs "-->" ++ r) (bs "-->") = Some (length t).
Proof.
  intros H. induction t as [|c t IH]; [reflexivity|]. cbn [app find_sub length]. replace (starts_with (c :: t ++ bs "-->" ++ r) (bs "-->")) with false.
  - rewrite IH; [reflexivity|]. intros (a & b & E). apply H. exists (c :: a), b. cbn [app]. rewrite E. reflexivity.
  - symmetry. apply not_true_iff_false. intros E. apply starts_with_app in E as [u E]. change (bs "-->" ++ u) with (45 :: 45 :: 62 :: u)%N in E. change (bs "-->" ++ r) with (45 :: 45 :: 62 :: r)%N in E. injection E as -> E. destruct t as [|d [|e t]]; cbn [app] in E; [discriminate|discriminate|]. injection E as -> -> E. apply H. exists [], (t ++ bs "--"). reflexivity.
Qed.
Definition agrees (m : md_mode) (s : md_state) : Prop :=
  match m with
  | md_text => md_fenced s = false /\ md_comment s = false
  | md_fence c n => md_fenced s = true /\ md_fence_char s = c /\ md_fence_length s = n /\ md_comment s = false /\ In c (bs "`~") /\ 3 <= n
  | md_in_comment => md_fenced s = false /\ md_comment s = true
  end.
Lemma agrees_opened (open : bool) s : md_fenced s = false -> md_comment s = false -> agrees (if open then md_in_comment else md_text) (opened open s).
Proof. intros A B. destruct open; cbn; auto. Qed.
Lemma text_snoc (l : list piece) (w : str) : text (l ++ [(w, None)]) = text l ++ w.
Proof. rewrite text_app, text_one. reflexivity. Qed.
Lemma block_line_chain len term st :
  (let! b := md_expect_heading len in if b then advance term else
   let! b := md_expect_break len in if b then advance term else
   let! b := md_expect_fence len in if b then advance term else
   let! b := md_expect_list len in if b then advance term else
   let! b := md_expect_quote (len + 1) len in if b then advance term else
   let! b := md_expect_indented len in if b then advance term else
   md_inline len 0%N None ;; advance term) st = (chain false (len + 1) len ;; advance term) st.
Proof.
  unfold chain, chain_tail, bindM, ret. destruct (md_expect_heading len st) as [[[] st1]|]; [reflexivity| |reflexivity]. destruct (md_expect_break len st1) as [[[] st2]|]; [reflexivity| |reflexivity].
  destruct (md_expect_fence len st2) as [[[] st3]|]; [reflexivity| |reflexivity]. destruct (md_expect_list len st3) as [[[] st4]|]; [reflexivity| |reflexivity].
  destruct (md_expect_quote (len + 1) len st4) as [[[] st5]|]; [reflexivity| |reflexivity]. destruct (md_expect_indented len st5) as [[[] st6]|]; [reflexivity| |reflexivity].
  destruct (md_inline len 0%N None st6) as [[[] st7]|]; reflexivity.
Qed.
Lemma block_line_does l w rest s s' : one_line l -> ~ blank (text l) -> nasm_line_end w rest ->
  (forall o, does (chain false (length (text l) + 1) (length (text l))) s l o true s') -> does md_block_line s (l ++ [(w, None)]) rest tt s'.
Proof.
  intros L B E D. unfold md_block_line. apply does_get. rewrite text_snoc, <- app_assoc. rewrite P_LangNasmLexemes.crlf_line_exact by assumption. eapply does_region_at; [rewrite text_snoc, <- app_assoc; reflexivity|reflexivity|].
  replace (md_is_blank (text l)) with false. 2:{ symmetry. apply not_true_iff_false. intros F. apply B. apply Forall_forall. intros c Hc. apply white_iff. unfold md_is_blank in F. rewrite forallb_forall in F. exact (F c Hc). }
  eapply does_ext; [intros st; apply block_line_chain|]. eapply does_bind; [apply D|]. apply does_advance. reflexivity.
Qed.
Lemma line_does m l m' s w : md_line_of m l m' -> one_line l -> agrees m s -> exists s', agrees m' s' /\ forall rest, nasm_line_end w rest -> does md_line s (l ++ [(w, None)]) rest tt s'.
Proof.
  intros G L A. destruct G as [b Hb|open l G|i c n info Li Hf|c n t Hn|c n i k sp Li Hk Hs|t Ht|open t l Ht Hl]; cbn [agrees] in A.
  - exists s. split; [exact A|]. intros rest E. destruct A as [A1 A2]. unfold md_line. apply does_get_loc. rewrite A1, A2. unfold md_block_line. apply does_get. rewrite text_snoc, <- app_assoc.
    rewrite P_LangNasmLexemes.crlf_line_exact by assumption. eapply does_region_at; [rewrite text_snoc, <- app_assoc; reflexivity|reflexivity|]. rewrite text_one.
    replace (md_is_blank b) with true. 2:{ symmetry. apply forallb_forall. rewrite Forall_forall in Hb. intros c Hc. apply white_iff. left. exact (Hb c Hc). }
    cbn [app]. apply does_join. apply does_advance. rewrite app_length. reflexivity.
  - exists (opened open s). destruct A as [A1 A2]. split; [apply agrees_opened; assumption|]. intros rest E. unfold md_line. apply does_get_loc. rewrite A1, A2.
    apply block_line_does; [exact L|exact (block_not_blank _ _ G)|exact E|]. intros o. apply (block_does _ _ _ G); lia.
  - exists (mk_md true c n false). destruct A as [A1 A2]. pose proof Hf as (Hc & Hn & Hi & Ht). split; [cbn; auto 6|]. intros rest E. unfold md_line. apply does_get_loc. rewrite A1, A2.
    set (p := [(spaces i, None); (repeat c n, Some hl_string_delim); (info, None)]). assert (X : text p = spaces i ++ repeat c n ++ info) by (unfold p; rewrite !text_cons; change (text []) with (@nil N); rewrite app_nil_r; reflexivity).
    destruct n as [|n]; [lia|]. assert (Nc : c <> ch " "). { cbn in Hc. intros ->. cbn in Hc. intuition discriminate. }
    apply block_line_does; [exact L| |exact E|]. { rewrite X. apply not_white_in. cbn in Hc. dark. }
    intros o. rewrite X. assert (F : forall (P : str -> Prop) (Q : N -> Prop), (forall t, P t -> first_of Q t) -> ~ Q c -> ~ P (spaces i ++ repeat c (S n) ++ info)) by (intros P Q HP HQ; eapply first_no; [exact HP|reflexivity|exact Nc|exact HQ]).
    unfold chain. eapply does_nil; [rewrite X; apply heading_no; eapply F; [apply heading_first|unfold is_char; cbn in Hc; cbn; lia]|cbv iota].
    eapply does_nil; [rewrite X; apply break_no; eapply F; [apply thematic_first|cbn in Hc; cbn; lia]|cbv iota].
    assert (D : does (md_expect_fence (length (spaces i ++ repeat c (S n) ++ info))) s p o true (mk_md true c (S n) (md_comment s))) by (apply fence_does; [exact Li|exact Hf|reflexivity]). rewrite A2 in D. eapply does_last; [exact D|apply does_ret].
  - exists s. split; [exact A|]. intros rest E. destruct A as (A1 & A2 & A3 & A4 & Hc & Hl). unfold md_line. apply does_get_loc. rewrite A1. unfold md_fenced_line. apply does_get. rewrite text_snoc, <- app_assoc.
    rewrite P_LangNasmLexemes.crlf_line_exact by assumption. rewrite opt_piece_text in *. eapply does_region_at; [rewrite text_snoc, opt_piece_text, <- app_assoc; reflexivity|reflexivity|]. apply does_get_loc. rewrite A2, A3. cbv zeta.
    destruct (lead_split t) as (i & r & Et & Li & _ & M). rewrite M. rewrite <- skipn_skipn. rewrite Et at 1 2 3. rewrite skip_spaces.
    destruct (run_split c r) as (v & Ev & Rv). set (k := prefix_len (N.eqb c) r) in *. replace (skipn k r) with v by (rewrite Ev at 1; rewrite skipn_repeat; reflexivity).
    destruct ((n <=? k) && forallb is_md_space v) eqn:B.
    + exfalso. apply andb_true_iff in B as [B1 B2]. apply Nat.leb_le in B1. apply Hn. exists i, k, v. split; [exact Li|]. split; [exact B1|]. split; [|rewrite <- Ev; exact Et]. apply Forall_forall. rewrite forallb_forall in B2. intros x Hx. apply space_iff. exact (B2 x Hx).
    + eapply does_bind; [apply does_opt; reflexivity|]. apply does_advance. reflexivity.
  - exists (mk_md false c n false). split; [cbn; auto|]. intros rest E. destruct A as (A1 & A2 & A3 & A4 & Hc & Hl). unfold md_line. apply does_get_loc. rewrite A1. unfold md_fenced_line. apply does_get. rewrite text_snoc, <- app_assoc.
    set (p := [(spaces i, None); (repeat c k, Some hl_string_delim); (sp, None)]) in *. assert (X : text p = spaces i ++ repeat c k ++ sp) by (unfold p; rewrite !text_cons; change (text []) with (@nil N); rewrite app_nil_r; reflexivity).
    rewrite P_LangNasmLexemes.crlf_line_exact by assumption. eapply does_region_at; [rewrite text_snoc, <- app_assoc; reflexivity|reflexivity|]. rewrite X in *. apply does_get_loc. rewrite A2, A3, A4. cbv zeta.
    assert (Nc : c <> ch " "). { cbn in Hc. intros ->. cbn in Hc. intuition discriminate. }
    rewrite lead_exact; [|exact Li|destruct k; [lia|]; apply not_before_cons; exact Nc]. rewrite <- skipn_skipn, skip_spaces.
    rewrite run_len. 2:{ destruct Hs as [|x sp Hx _]; [apply not_before_nil|]. apply not_before_cons. unfold is_char. intros ->. cbn in Hc. dark. }
    rewrite skipn_repeat. replace (n <=? k) with true by (symmetry; apply Nat.leb_le; exact Hk). replace (forallb is_md_space sp) with true.
    2:{ symmetry. apply forallb_forall. rewrite Forall_forall in Hs. intros x Hx. apply space_iff. exact (Hs x Hx). }
    cbn [andb]. apply does_set_loc. unfold p. cbn [app]. eapply does_cons; [apply does_advance; unfold spaces; rewrite repeat_length; reflexivity|]. eapply does_cons; [apply does_emit; [rewrite repeat_length; reflexivity|apply repeat_ne; lia]|].
    eapply does_cons; [apply does_advance; unfold spaces; rewrite !app_length, !repeat_length; lia|]. apply does_advance. reflexivity.
  - exists s. split; [exact A|]. intros rest E. destruct A as [A1 A2]. unfold md_line. apply does_get_loc. rewrite A1, A2. unfold md_comment_line. apply does_get. rewrite text_snoc, <- app_assoc.
    rewrite P_LangNasmLexemes.crlf_line_exact by assumption. rewrite opt_piece_text in *. eapply does_region_at; [rewrite text_snoc, opt_piece_text, <- app_assoc; reflexivity|reflexivity|].
    rewrite find_sub_none by exact Ht. eapply does_bind; [apply does_opt; reflexivity|]. apply does_advance. reflexivity.
  - exists (opened open (mk_md false (md_fence_char s) (md_fence_length s) false)). destruct A as [A1 A2]. split; [apply agrees_opened; reflexivity|]. intros rest E. unfold md_line. apply does_get_loc. rewrite A1, A2. unfold md_comment_line. apply does_get. rewrite text_snoc, <- app_assoc.
    set (p := opt_piece t hl_comment ++ (bs "-->", Some hl_comment_delim) :: l) in *. assert (X : text p = t ++ bs "-->" ++ text l) by (unfold p; rewrite text_app, opt_piece_text, text_cons; reflexivity).
    rewrite P_LangNasmLexemes.crlf_line_exact by assumption. eapply does_region_at; [rewrite text_snoc, <- app_assoc; reflexivity|reflexivity|]. rewrite X in *.
    replace (find_sub (t ++ bs "-->" ++ text l) (bs "-->")) with (Some (length t)) by (symmetry; apply find_end; exact Ht).
    unfold p. rewrite <- app_assoc. cbn [app]. eapply does_bind; [apply does_opt; reflexivity|]. eapply does_cons; [apply does_emit; [reflexivity|discriminate]|]. apply does_get_loc, does_set_loc. rewrite A1.
    eapply does_bind; [apply (inline_does _ open); [exact Hl|rewrite !app_length; cbn; lia]|]. apply does_advance. reflexivity.
Qed.

Lemma nasm_end w rest : newline w rest -> nasm_line_end w rest.
Proof. intros H. left. exact H. Qed.
Lemma newline_ne w rest : newline w rest -> w <> [].
Proof. unfold newline. intros H ->. intuition discriminate. Qed.
Lemma lines_iterate m l : md_lines m l -> forall s, agrees m s -> exists s', iterates (fun _ : unit => let! e := eof in if e then ret (inr tt) else md_line ;; ret (inl tt)) tt [] s' tt s l.
Proof.
  induction 1 as [m|m l m' G L Ne|m l m' w rest G L W R IH]; intros s A.
  - exists s. apply iterates_end. apply does_eof_end, does_ret.
  - destruct (line_does _ _ _ _ [] G L A) as (s' & A' & D). exists s'. rewrite <- (app_nil_r l). apply iterates_more with (a1 := tt) (s1 := s').
    + apply does_eof; [rewrite app_nil_r; exact Ne|]. eapply does_last; [|apply does_ret]. eapply does_same; [| |apply D; right; split; reflexivity].
      * rewrite text_snoc. apply app_nil_r.
      * intros i. rewrite tokens_app. cbn [tokens]. rewrite app_nil_r. reflexivity.
    + exact Ne.
    + apply iterates_end. apply does_eof_end, does_ret.
  - destruct (line_does _ _ _ _ w G L A) as (s1 & A1 & D). destruct (IH _ A1) as [s' It]. exists s'. change ((w, None) :: rest) with ([(w, None)] ++ rest). rewrite app_assoc. pose proof (newline_ne _ _ W) as Nw.
    apply iterates_more with (a1 := tt) (s1 := s1); [| |exact It].
    + apply does_eof. { rewrite text_snoc. intros E. apply app_eq_nil in E as [E _]. apply app_eq_nil in E as [_ E]. contradiction. } eapply does_last; [|apply does_ret]. apply D. left. rewrite app_nil_r. exact W.
    + rewrite text_snoc. intros E. apply app_eq_nil in E as [_ E]. contradiction.
Qed.

(** ** C133: the tokens of a Markdown document *)
Theorem C133_markdown_document : forall l, md_document l -> tokenizes highlight_markdown l.
Proof.
  intros l H strict. destruct (lines_iterate _ _ H (mk_md false (ch "`") 0 false)) as [s' It]; [split; reflexivity|].
  assert (D : does (while_rem md_line ;; ret true) (mk_md false (ch "`") 0 false) l [] true s') by (eapply does_last; [apply does_loop; exact It|apply does_ret]).
  apply P_LangCowelExact.does_run in D. unfold highlight_markdown, run. rewrite D. cbn [rops]. rewrite rev_involutive. reflexivity.
Qed.
Print Assumptions C133_markdown_document.
Local Ltac all_not := repeat (apply Forall_cons; [try (intros K; unfold md_special in K; cbn in K; intuition discriminate); try (cbn; lia)|]); try apply Forall_nil.
Definition C133_line1 : list piece := [(spaces 0, None); formatting (bs "##"); (bs " ", None); (bs "Hi ", Some hl_text_heading); formatting (bs "*"); (bs "you", None); formatting (bs "*"); ([], None)].
Definition C133_line2 : list piece := [(spaces 2, None); formatting (bs "-"); (bs " ", None); formatting (bs "["); (bs "x", None); formatting (bs "]("); (bs "/y", Some hl_text_link); ([], None); formatting (bs ")")].
Definition C133_line3 : list piece := [(spaces 0, None); (bs "~~~", Some hl_string_delim); (bs "c", None)].
Definition C133_line4 : list piece := [(bs "x~~~", Some hl_text_code)].
Definition C133_line5 : list piece := [(spaces 1, None); (bs "~~~~", Some hl_string_delim); (bs " ", None)].
Definition C133_line6 : list piece := [(bs "a ", None); (bs "<!--", Some hl_comment_delim); (bs " b", Some hl_comment)].
Definition C133_line7 : list piece := [(bs "c ", Some hl_comment); (bs "-->", Some hl_comment_delim); (bs " ", None); (bs "`", Some hl_string_delim); (bs "d", Some hl_text_code); (bs "`", Some hl_string_delim)].
Definition C133_nl : piece := ([10]%N, None).
Example C133_case : md_document (C133_line1 ++ C133_nl :: C133_line2 ++ C133_nl :: C133_line3 ++ C133_nl :: C133_line4 ++ C133_nl :: C133_line5 ++ C133_nl :: C133_line6 ++ C133_nl :: C133_line7).
Proof.
  assert (P : forall h o p w c l, Forall (fun c => ~ md_special c) (w ++ [c]) -> not_before (fun c => ~ md_special c) (text l) -> md_inlines h o c l -> md_inlines h o p ((w ++ [c], h) :: l)) by (intros; apply inlines_plain; assumption).
  assert (Nl : forall r, newline [10%N] r) by (intros r; unfold newline; auto).
  apply lines_more with (m' := md_text); [|repeat (apply Forall_cons; [cbn; lia|]); apply Forall_nil|apply Nl|].
  { apply (line_block false). apply (block_heading false false 0 2 (ch " ") [(bs "Hi ", Some hl_text_heading); formatting (bs "*"); (bs "you", None); formatting (bs "*")] []); [lia|lia|left; reflexivity| |].
    - apply (P _ _ _ (bs "Hi") (ch " ")); [all_not|apply not_before_cons; intros K; apply K; cbn; tauto|].
      apply (inlines_emphasis _ false (ch " ") (ch "*") 1 [(bs "you", None)] []); [left; reflexivity|lia|discriminate| |discriminate| | |apply not_before_nil|discriminate|apply inlines_end].
      + apply (P _ _ _ (bs "yo") (ch "u")); [all_not|apply not_before_nil|apply inlines_end].
      + apply not_before_cons. unfold md_white, blank_char. cbn. lia.
      + do 3 (apply emphasis_char; [discriminate|discriminate|]). apply emphasis_end. unfold md_white, blank_char. cbn. lia.
    - left. exists 0. split; [reflexivity|]. left. exists (bs "Hi *you"), (ch "*"). repeat split; discriminate. }
  apply lines_more with (m' := md_text); [|repeat (apply Forall_cons; [cbn; lia|]); apply Forall_nil|apply Nl|].
  { apply (line_block false). apply (block_item false false 2 (bs "-") (ch " ") [formatting (bs "["); (bs "x", None); formatting (bs "]("); (bs "/y", Some hl_text_link); ([], None); formatting (bs ")")]).
    - left. exists (ch "-"). split; [reflexivity|left; reflexivity].
    - left. reflexivity.
    - intros (i & w & Li & E & c & t & -> & Hc & F & _). assert (I : In (ch "[") (spaces i ++ c :: t)) by (rewrite <- E; cbn; tauto). apply in_app_iff in I as [I|I]; [apply repeat_spec in I; discriminate|]. rewrite Forall_forall in F. destruct (F _ I) as [<-|[K|K]]; [|discriminate|discriminate]. cbn in Hc. intuition discriminate.
    - apply (inlines_link _ false 0 [(bs "x", None)] (bs "/y") [] []).
      + apply (P _ _ _ [] (ch "x")); [all_not|apply not_before_nil|apply inlines_end].
      + apply balanced_char; [cbn; intuition discriminate|apply balanced_end].
      + left. split; [|apply not_before_cons; discriminate]. do 2 (apply url_char; [discriminate|discriminate|unfold md_white, blank_char; cbn; lia|]). apply url_end.
      + split; [intros []|apply not_before_nil].
      + apply inlines_end. }
  apply lines_more with (m' := md_fence (ch "~") 3); [|repeat (apply Forall_cons; [cbn; lia|]); apply Forall_nil|apply Nl|].
  { apply (line_fence 0 (ch "~") 3 (bs "c")); [lia|]. repeat split; [right; left; reflexivity|lia|apply not_before_cons; discriminate|discriminate]. }
  apply lines_more with (m' := md_fence (ch "~") 3); [|repeat (apply Forall_cons; [cbn; lia|]); apply Forall_nil|apply Nl|].
  { apply (line_code _ _ (bs "x~~~")). intros (i & k & sp & Li & Hk & _ & E). destruct i as [|i]; [|discriminate]. destruct k as [|k]; [lia|discriminate]. }
  apply lines_more with (m' := md_text); [|repeat (apply Forall_cons; [cbn; lia|]); apply Forall_nil|apply Nl|].
  { apply (line_fence_end (ch "~") 3 1 4 (bs " ")); [lia|lia|]. apply Forall_cons; [left; reflexivity|apply Forall_nil]. }
  apply lines_more with (m' := md_in_comment); [|repeat (apply Forall_cons; [cbn; lia|]); apply Forall_nil|apply Nl|].
  { assert (Nf : forall (Q : str -> Prop) (R : N -> Prop), (forall t, Q t -> first_of R t) -> ~ R (ch "a") -> ~ Q (text C133_line6)) by (intros Q R HQ HR; apply (first_no Q R _ 0 (ch "a") (bs " <!-- b")); [exact HQ|reflexivity|discriminate|exact HR]).
    apply (line_block true). apply block_paragraph; [|discriminate| | | | | |].
    - apply (P _ _ _ (bs "a") (ch " ")); [all_not|apply not_before_cons; intros K; apply K; cbn; tauto|]. apply inlines_open. repeat split; try discriminate.
      + intros [b K]. discriminate.
      + intros [b K]. discriminate.
      + intros (a & b & K). apply (f_equal (fun s => existsb (N.eqb 60) s)) in K. rewrite !existsb_app in K. cbn in K. rewrite orb_true_r in K. discriminate.
      + intros (a & b & K). apply (f_equal (fun s => existsb (N.eqb 62) s)) in K. rewrite !existsb_app in K. cbn in K. rewrite orb_true_r in K. discriminate.
      + intros (a & b & K). apply (f_equal (fun s => existsb (N.eqb 62) s)) in K. rewrite !existsb_app in K. cbn in K. rewrite orb_true_r in K. discriminate.
    - eapply Nf; [apply heading_first|discriminate].
    - eapply Nf; [apply thematic_first|cbn; intuition discriminate].
    - intros (i & m & c & r & E & M & _). destruct i as [|i]; [|discriminate]. destruct (marker_first m M) as (y & v & -> & Hy). injection E as <- _. unfold digit in Hy. cbn in Hy. lia.
    - intros (i & r & Li & E). destruct i as [|i]; discriminate.
    - intros (i & r & E & [->| ->]); discriminate.
    - intros _. split; [apply (not_white_in (ch "a") []); unfold md_white, blank_char; cbn; lia|]. intros (i & c & n & info & Li & E & Hc & Hn & _). destruct i as [|i]; [|discriminate]. destruct n as [|n]; [lia|]. injection E as <- _. cbn in Hc. intuition discriminate. }
  apply lines_last with (m' := md_text); [|repeat (apply Forall_cons; [cbn; lia|]); apply Forall_nil|discriminate].
  apply (line_comment_end false (bs "c ") [(bs " ", None); (bs "`", Some hl_string_delim); (bs "d", Some hl_text_code); (bs "`", Some hl_string_delim)]).
  - intros (a & b & K). apply (f_equal (fun s => existsb (N.eqb 62) s)) in K. rewrite !existsb_app in K. cbn in K. rewrite orb_true_r in K. discriminate.
  - apply (P _ _ _ [] (ch " ")); [all_not|apply not_before_cons; intros K; apply K; cbn; tauto|]. apply (inlines_atom _ false _ [(bs "`", Some hl_string_delim); (bs "d", Some hl_text_code); (bs "`", Some hl_string_delim)] tick []); [|apply inlines_end].
    apply (atom_code _ 1 (bs "d")); [lia|apply span_last; discriminate|apply not_before_nil].
Qed.
