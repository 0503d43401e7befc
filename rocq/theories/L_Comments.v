(** * Exact tokens of comments in the style of C++ *)
From Coq Require Import List NArith ZArith Bool Arith Lia.
From Verif Require Import M_Base L_Base M_Chars M_Types M_Emit S_Ops M_Parse L_Parse M_Api M_Highlighter S_Highlight L_Highlighter L_Auto
  S_Json M_Json L_JsonText P_Json S_Lexemes L_Lexemes L_Number S_Comments.
Import ListNotations.

Lemma wp_emit_at_exact {S} b n ty (Q : unit -> hst S -> Prop) r i o l : 0 < n -> i <= b -> b + n <= i + length r ->
  Q tt (mk_hst r i (OEmit b n ty false :: o) l) -> wp (emit_at false b n ty) Q (mk_hst r i o l).
Proof.
  intros L1 L2 L3 H. unfold emit_at, wp. cbn [rem idx rops loc]. rewrite (proj2 (Nat.eqb_neq n 0)), (proj2 (Nat.ltb_lt b _)), (proj2 (Nat.leb_le (b + n) _)) by lia. exact H.
Qed.
Lemma opt_emit {S} h h' w r i o (s : S) (Q : unit -> hst S -> Prop) : (w = [] \/ h' = h) ->
  Q tt (mk_hst r (i + length w) (rev (tokens i (opt_piece w h)) ++ o) s) ->
  wp (when (negb (length w =? 0)) (emit_and_advance (length w) h')) Q (mk_hst (w ++ r) i o s).
Proof.
  intros Hw HQ. destruct w as [|a w].
  - apply wp_ret. cbn [length opt_piece tokens rev app] in HQ. rewrite Nat.add_0_r in HQ. exact HQ.
  - destruct Hw as [Hw|Hw]; [discriminate|]. subst h'. cbn [length Nat.eqb negb when]. apply wp_emit_exact; [cbn [length app]; rewrite app_length; lia|]. change (Datatypes.S (length w)) with (length (a :: w)). rewrite skipn_app_exact. exact HQ.
Qed.
(** Flushing the plain text of a literal *)
Lemma flush_run {S B} h run r i o (s : S) (k : unit -> M S B) Q : wp (k tt) Q (mk_hst r (i + length run) (rev (tokens i (opt_piece run h)) ++ o) s) ->
  wp (bindM (when (negb (length run =? 0)) (emit_and_advance (length run) h)) k) Q (mk_hst (run ++ r) i o s).
Proof. intros H. apply wp_bind. apply (opt_emit h h); auto. Qed.

Lemma line_stop rest : not_before (fun c => c <> 10 /\ c <> 13)%N rest -> rest = [] \/ exists c w, rest = c :: w /\ In c [10; 13]%N.
Proof. intros R. destruct rest as [|c w]; [auto|right]. exists c, w. split; [reflexivity|]. specialize (R c eq_refl). cbn [In]. cbn beta in R. destruct (N.eq_dec c 10) as [E|]; [rewrite E; tauto|]. destruct (N.eq_dec c 13) as [E|]; [rewrite E; tauto|tauto]. Qed.
Lemma no_line_comment c s : c <> 47%N \/ not_before (fun x => x = 47%N) s -> match_line_comment (c :: s) = 0.
Proof.
  intros H. unfold match_line_comment. assert (E : starts_with (c :: s) (bs "//") = false); [|rewrite E; reflexivity].
  change (bs "//") with [47; 47]%N. cbn [starts_with]. destruct (N.eqb_spec c 47) as [->|]; [|reflexivity]. destruct H as [H|H]; [congruence|]. destruct s as [|x t]; [reflexivity|]. cbn [starts_with]. specialize (H x eq_refl). cbn beta in H. rewrite (proj2 (N.eqb_neq x 47) H). reflexivity.
Qed.
Lemma no_block_comment c s : c <> 47%N \/ not_before (fun x => x = 42%N) s -> en_length (match_block_comment (c :: s)) = 0.
Proof.
  intros H. unfold match_block_comment. assert (E : starts_with (c :: s) (bs "/*") = false); [|rewrite E; reflexivity].
  change (bs "/*") with [47; 42]%N. cbn [starts_with]. destruct (N.eqb_spec c 47) as [->|]; [|reflexivity]. destruct H as [H|H]; [congruence|]. destruct s as [|x t]; [reflexivity|]. cbn [starts_with]. specialize (H x eq_refl). cbn beta in H. rewrite (proj2 (N.eqb_neq x 42) H). reflexivity.
Qed.
Lemma line_comment_no c s (Q : bool -> hst unit -> Prop) i o : c <> 47%N \/ not_before (fun x => x = 47%N) s -> Q false (mk_hst (c :: s) i o tt) -> wp json_expect_line_comment Q (mk_hst (c :: s) i o tt).
Proof. intros H HQ. unfold json_expect_line_comment. apply wp_bind, wp_get_rem. cbn [rem]. cbv zeta. rewrite no_line_comment by exact H. apply wp_ret. exact HQ. Qed.
Lemma block_comment_no c s (Q : bool -> hst unit -> Prop) i o : c <> 47%N \/ not_before (fun x => x = 42%N) s -> Q false (mk_hst (c :: s) i o tt) -> wp json_expect_block_comment Q (mk_hst (c :: s) i o tt).
Proof. intros H HQ. unfold json_expect_block_comment. apply wp_bind, wp_get_rem. cbn [rem]. cbv zeta. rewrite no_block_comment by exact H. apply wp_ret. exact HQ. Qed.

Definition comment_done (p : list piece) (r : str) (i : nat) (o : list out_op) (b : bool) (st' : hst unit) : Prop :=
  b = true /\ st' = mk_hst r (i + length (text p)) (rev (tokens i p) ++ o) tt.
Lemma line_comment_exact t rest i o : js_line t -> not_before (fun c => c <> 10 /\ c <> 13)%N rest ->
  let p := slash_comment :: opt_piece t hl_comment in wp json_expect_line_comment (comment_done p rest i o) (mk_hst (text p ++ rest) i o tt).
Proof.
  intros H R p. unfold p, slash_comment. rewrite text_cons, opt_piece_text. unfold json_expect_line_comment. apply wp_bind, wp_get_rem. cbn [rem].
  rewrite match_line_comment_complete by (try (exists t; split; [reflexivity|exact H]); apply line_stop; exact R). rewrite app_length. change (length (bs "//")) with 2. cbn [Nat.add Nat.eqb].
  apply wp_bind. apply wp_emit_exact; [rewrite !app_length; cbn; lia|]. change (skipn 2 ((bs "//" ++ t) ++ rest)) with (t ++ rest). apply wp_bind.
  replace (S (S (length t)) - 2) with (length t) by lia. replace (2 <? S (S (length t))) with (negb (length t =? 0)) by (destruct t; reflexivity).
  apply (opt_emit hl_comment); [auto|]. apply wp_ret. split; [reflexivity|]. cbn [tokens rev]. rewrite <- app_assoc, text_cons, opt_piece_text, app_length. change (length (bs "//")) with 2. rewrite Nat.add_assoc. reflexivity.
Qed.
Lemma find_sub_none nd s : ~ contains s nd -> find_sub s nd = None.
Proof. intros H. destruct (find_sub s nd) as [i|] eqn:E; [|reflexivity]. destruct (find_sub_split _ _ _ E) as (a & b & -> & _). elim H. exists a, b. reflexivity. Qed.
Lemma match_block_comment_open t : ~ contains t (bs "*/") -> match_block_comment (bs "/*" ++ t) = mk_enclosed (2 + length t) false.
Proof.
  intros H. unfold match_block_comment. rewrite (proj2 (starts_with_app _ _)) by eauto. cbn [negb]. unfold find_str. rewrite (proj2 (Nat.ltb_ge (length (bs "/*" ++ t)) 2)) by (rewrite app_length; cbn; lia).
  change (skipn 2 (bs "/*" ++ t)) with t. rewrite find_sub_none by exact H. cbn [option_map]. rewrite app_length. reflexivity.
Qed.
Lemma block_comment_exact t (closed : bool) rest i o : (if closed then ~ contains (t ++ bs "*") (bs "*/") else ~ contains t (bs "*/") /\ rest = []) ->
  let p := (bs "/*", Some hl_comment_delim) :: opt_piece t hl_comment ++ (if closed then [(bs "*/", Some hl_comment_delim)] else []) in
  wp json_expect_block_comment (comment_done p rest i o) (mk_hst (text p ++ rest) i o tt).
Proof.
  intros H p. set (c := if closed then bs "*/" else []).
  assert (Et : text p = bs "/*" ++ t ++ c) by (unfold p, c; rewrite text_cons, text_app, opt_piece_text; destruct closed; [rewrite text_one|]; reflexivity).
  assert (Em : match_block_comment (text p ++ rest) = mk_enclosed (2 + length t + length c) closed).
  { rewrite Et. unfold c. destruct closed.
    - rewrite match_block_comment_complete by (exists t; split; [reflexivity|exact H]). f_equal. rewrite !app_length. cbn; lia.
    - destruct H as [H ->]. rewrite !app_nil_r. rewrite match_block_comment_open by exact H. rewrite Nat.add_0_r. reflexivity. }
  unfold json_expect_block_comment. apply wp_bind, wp_get_rem. cbn [rem]. rewrite Em. cbn [en_length en_terminated Nat.add Nat.eqb].
  assert (Lc : length c = if closed then 2 else 0) by (unfold c; destruct closed; reflexivity).
  assert (Lp : length (text p) = 2 + length t + length c) by (rewrite Et, !app_length; cbn; lia).
  apply wp_bind, wp_get_idx. cbn [idx]. apply wp_bind. apply wp_emit_at_exact; [lia|lia|rewrite app_length; lia|]. cbv zeta.
  replace (S (S (length t + length c)) - 2 - (if closed then 2 else 0)) with (length t) by (rewrite <- Lc; lia). apply wp_bind.
  assert (Fin : forall o', wp (when closed (emit_at false (i + S (S (length t + length c)) - 2) 2 hl_comment_delim) ;; advance (S (S (length t + length c))) ;; ret true)
     (fun b st' => b = true /\ st' = mk_hst rest (i + length (text p)) ((if closed then [OEmit (i + 2 + length t) 2 hl_comment_delim false] else []) ++ o') tt) (mk_hst (text p ++ rest) i o' tt)).
  { intros o'. apply wp_bind. destruct closed; cbn [when].
    - apply wp_emit_at_exact; [lia|lia|rewrite app_length; lia|]. apply wp_bind. apply wp_advance_exact; [rewrite app_length; lia|]. apply wp_ret. split; [reflexivity|]. replace (S (S (length t + length c))) with (length (text p)) by lia. rewrite skipn_app_exact. cbn [app]. replace (i + length (text p) - 2) with (i + 2 + length t) by lia. reflexivity.
    - apply wp_ret. apply wp_bind. apply wp_advance_exact; [rewrite app_length; lia|]. apply wp_ret. split; [reflexivity|]. replace (S (S (length t + length c))) with (length (text p)) by lia. rewrite skipn_app_exact. reflexivity. }
  assert (Ft : forall P (m : M unit bool) st, wp m (fun b st' => b = true /\ st' = P) st -> P = mk_hst rest (i + length (text p)) (rev (tokens i p) ++ o) tt -> wp m (comment_done p rest i o) st).
  { intros P m st Hm ->. exact Hm. }
  destruct t as [|x t].
  - cbn [length Nat.eqb negb when]. apply wp_ret. eapply Ft; [apply Fin|]. f_equal. unfold p. cbn [opt_piece app tokens]. change (length (bs "/*")) with 2. destruct closed; cbn [tokens rev app length]; rewrite ?Nat.add_0_r; reflexivity.
  - cbn [length Nat.eqb negb when]. apply wp_emit_at_exact; [lia|lia|rewrite app_length; cbn [length] in Lp; lia|]. eapply Ft; [apply Fin|]. f_equal. unfold p. cbn [opt_piece app tokens]. change (length (bs "/*")) with 2. cbn [tokens]. destruct closed; cbn [tokens rev app length]; reflexivity.
Qed.
Lemma c_comment_exact p rest i o : c_comment js_line p rest ->
  wp (let! b := json_expect_line_comment in if b then ret true else json_expect_block_comment) (comment_done p rest i o) (mk_hst (text p ++ rest) i o tt).
Proof.
  intros [t r H R|t r H|t H].
  - apply wp_bind. eapply wp_mono; [apply line_comment_exact; assumption|]. intros b st' [-> ->]. apply wp_ret. split; reflexivity.
  - apply wp_bind. rewrite text_cons. cbn [app bs]. change (bs "/*") with [47; 42]%N. cbn [app]. apply line_comment_no; [right; apply not_before_cons; discriminate|]. exact (block_comment_exact t true r i o H).
  - apply wp_bind. rewrite text_cons. change (bs "/*") with [47; 42]%N. cbn [app]. apply line_comment_no; [right; apply not_before_cons; discriminate|]. pose proof (block_comment_exact t false [] i o (conj H eq_refl)) as K. cbv zeta in K. rewrite app_nil_r in K. exact K.
Qed.
(** The same at the front of a chain of attempts *)
Lemma c_comment_token p rest i o (k : M unit unit) : c_comment js_line p rest ->
  wp (let! b := json_expect_line_comment in if b then ret tt else let! b := json_expect_block_comment in if b then ret tt else k)
    (fun _ st' => st' = mk_hst rest (i + length (text p)) (rev (tokens i p) ++ o) tt) (mk_hst (text p ++ rest) i o tt).
Proof.
  intros [t r H R|t r H|t H].
  - apply wp_bind. eapply wp_mono; [apply line_comment_exact; assumption|]. intros b st' [-> ->]. apply wp_ret. reflexivity.
  - apply wp_bind. match goal with |- wp _ ?Q _ => set (Post := Q) end. rewrite text_cons. change (bs "/*") with [47; 42]%N. cbn [app]. apply line_comment_no; [right; apply not_before_cons; discriminate|]. unfold Post. cbn iota. apply wp_bind. eapply wp_mono; [exact (block_comment_exact t true r i o H)|]. intros b st' [-> ->]. apply wp_ret. reflexivity.
  - apply wp_bind. match goal with |- wp _ ?Q _ => set (Post := Q) end. rewrite text_cons. change (bs "/*") with [47; 42]%N. cbn [app]. apply line_comment_no; [right; apply not_before_cons; discriminate|]. unfold Post. cbn iota. apply wp_bind. pose proof (block_comment_exact t false [] i o (conj H eq_refl)) as K. cbv zeta in K. rewrite app_nil_r in K.
    eapply wp_mono; [exact K|]. intros b st' [-> ->]. apply wp_ret. reflexivity.
Qed.
Lemma c_comment_head line p rest : c_comment line p rest -> exists t, text p = 47%N :: t.
Proof. intros [t r H R|t r H|t H]; unfold slash_comment; rewrite text_cons; eexists; reflexivity. Qed.

(** Safety *)
Lemma line_comment_ok P st : wp json_expect_line_comment (attempt P st) st.
Proof.
  begin_steps P st. unfold json_expect_line_comment. go1. go1. go1; [go; fin|].
  bool_hyps. destruct (match_line_comment_spec _ H0) as (t & r & E & L & (b & Et & _) & _).
  assert (2 <= match_line_comment (rem st) <= length (rem st)).
  { rewrite <- L. split; [rewrite Et; cbn; lia|]. rewrite E, app_length. lia. }
  go; fin.
Qed.
Lemma block_comment_ok P st : wp json_expect_block_comment (attempt P st) st.
Proof.
  begin_steps P st. unfold json_expect_block_comment. go1. go1. go1; [go; fin|].
  bool_hyps. pose proof (match_block_comment_le (rem st)) as L. destruct (block_prefix _ H0) as [L2 L4].
  set (e := match_block_comment (rem st)) in *. cbv zeta.
  hl1. hl1. hl1. eapply ahead_emit; [apply ahead_refl|lia|lia|lia|]. intros st1 A1.
  hl1. apply wp_when; intros Hn; bool_hyps.
  - eapply ahead_emit; [exact A1|lia|lia|destruct (en_terminated e); lia|]. intros st2 A2. hl1. hl1.
    + rewrite H1 in *. specialize (L4 eq_refl). eapply ahead_emit; [exact A2|lia|lia|lia|]. intros st3 A3. hl1.
      eapply ahead_advance; [exact A3|lia|]. intros st4 S4 _. hl1. exists (en_length e). split; [exact S4|lia].
    + rewrite H1 in *. hl1. eapply ahead_advance; [exact A2|lia|]. intros st4 S4 _. hl1. exists (en_length e). split; [exact S4|lia].
  - hl1. hl1.
    + rewrite H1 in *. specialize (L4 eq_refl). eapply ahead_emit; [exact A1|lia|lia|lia|]. intros st3 A3. hl1.
      eapply ahead_advance; [exact A3|lia|]. intros st4 S4 _. hl1. exists (en_length e). split; [exact S4|lia].
    + rewrite H1 in *. hl1. eapply ahead_advance; [exact A1|lia|]. intros st4 S4 _. hl1. exists (en_length e). split; [exact S4|lia].
Qed.
