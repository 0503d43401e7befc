(** * Properties of the Java highlighter *)
From Coq Require Import List NArith ZArith Bool Arith Lia.
From Verif Require Import M_Base L_Base S_Tokens M_Emit S_Ops L_Emit M_Types M_Chars M_Parse S_Parse L_Parse P_Parse M_Utf8 S_Utf8 L_Any
  M_Api M_Table L_Table M_LangCpp M_Highlighter S_Highlight L_Highlighter P_LangCpp L_Auto M_TokenLoop M_Json S_Json L_WfSteps
  S_Lexemes L_Lexemes L_Number L_Number2 L_Scan L_Symbols L_Escapes S_Comments L_Comments M_LangJava S_LangJava.
Import ListNotations.

(** ** Safety *)
Lemma java_options : good_options java_number_options.
Proof. split; [right; reflexivity|]. split; [repeat constructor; discriminate|]. discriminate. Qed.
#[local] Hint Resolve java_options : good_opts.
Lemma java_symbol_good s t : java_match_symbol s = Some t -> good_symbol java_tokens s t.
Proof. destruct s as [|c s]; [discriminate|]. unfold java_match_symbol. intros H. symbol_cases H. Qed.

Lemma java_identifier_ok st : wp java_expect_identifier (attempt java_space st) st.
Proof.
  begin_steps java_space st. unfold java_expect_identifier. go. destruct (cpp_identifier_ok (rem st)) as (n & E & L). eapply wp_lift; [exact E|]. go; fin.
Qed.
Lemma java_number_ok st : wp java_expect_number (attempt java_space st) st.
Proof. begin_steps java_space st. unfold java_expect_number. go; fin. Qed.
Lemma java_symbol_ok st : wp java_expect_symbol (attempt java_space st) st.
Proof.
  begin_steps java_space st. unfold java_expect_symbol. go1. go1. destruct (java_match_symbol (rem st)) as [t|] eqn:E; [|go; fin].
  apply java_symbol_good in E. destruct (good_symbol_find _ _ _ E) as [h F]. apply good_symbol_len in E. unfold java_token_by_code. rewrite F. go; fin.
Qed.
Lemma java_escape_ok s : s <> [] -> exists e, java_match_escape_sequence s = Ok e /\ 0 < es_length e <= length s.
Proof.
  intros Hs. assert (A : forall k n, 0 < n <= length s -> exists e, match_common_escape_at k s n = Ok e /\ 0 < es_length e <= length s).
  { intros k n L. destruct (common_escape_at_ok k s n ltac:(lia)) as (e & E & B). exists e. split; [exact E|lia]. }
  destruct s as [|b [|c s]]; [congruence|eexists; split; [reflexivity|cbn; lia]|]. unfold java_match_escape_sequence.
  destruct (negb _); [eexists; split; [reflexivity|cbn; lia]|].
  repeat match goal with |- context [if ?b then _ else _] => destruct b end;
  match goal with
  | |- context [match_common_escape_at ?k _ ?n] => destruct (A k n) as (e & E & B); [cbn; lia|]; rewrite ?E; cbn [bind]; eexists; split; [reflexivity|exact B]
  | _ => eexists; split; [reflexivity|cbn; lia]
  end.
Qed.
Lemma java_emit_escape_ok st : rem st <> [] -> wp java_emit_escape (fun _ st' => exists k, steps java_space k st st' /\ 0 < k) st.
Proof.
  intros H. begin_steps java_space st. unfold java_emit_escape. go1. go1. go1. destruct (java_escape_ok (rem st) H) as (e & E & B). eapply wp_lift; [exact E|]. go; fin.
Qed.
Lemma java_char_ok st : starts_with_ch (rem st) 39 = true -> wp java_expect_character_literal (attempt java_space st) st.
Proof.
  intros Hc. begin_steps java_space st. unfold java_expect_character_literal. go1. go1. go1. go1. go1. go1. go1. go1.
  destruct (rem st') as [|c r] eqn:Er; [go; fin|]. go1.
  assert (K : wp (if (c =? 92)%N then java_emit_escape else if negb (mem c [39; 13; 10]%N) then emit_and_advance 1 hl_string else emit_and_advance 1 hl_error)
    (fun _ st2 => exists k, steps java_space k st' st2 /\ 0 < k) st').
  { clear H0. begin_steps java_space st'. go1; [|go; try fin]. eapply wp_mono; [apply java_emit_escape_ok; rewrite Er; discriminate|]. cbn beta. intros ? ? (k2 & ? & ?). eauto. }
  eapply wp_mono; [exact K|]. cbn beta. intros _ st2 (k2 & S2 & L2). fuse. go; fin.
Qed.
Lemma java_string_ok st : starts_with_ch (rem st) 34 = true -> wp java_expect_string_literal (attempt java_space st) st.
Proof.
  intros Hc. begin_steps java_space st. unfold java_expect_string_literal. go1. go1. go1. go1. go1. go1. go1.
  eapply wp_mono; [apply (wp_scan java_space 1 java_string_body 0 (fun _ _ _ => True)); [lia|lia|]|].
  2:{ cbn beta. intros _ st2 (k & ? & _). fuse. go. fin. }
  intros a k st1 Hs La _. unfold java_string_body.
  repeat lazymatch goal with
  | |- wp (bindM java_emit_escape _) _ ?st => apply wp_bind; eapply wp_mono; [apply java_emit_escape_ok|cbn beta; intros ? ? (? & ? & ?); fuse]
  | _ => go1
  end; try fin.
  intros E. apply (f_equal (@length N)) in E. cbn [length] in E. hlia.
Qed.
Lemma java_block_scan_ok st : wp (hloop 1 java_block_body 0) (fun _ st' => exists k, steps java_space k st st') st.
Proof.
  eapply wp_mono; [apply (wp_scan java_space 1 java_block_body 0 (fun _ _ _ => True)); [lia|lia|]|].
  2:{ cbn beta. intros _ st2 (k & ? & _). eauto. }
  intros a k st1 Hs La _. unfold java_block_body.
  repeat lazymatch goal with
  | |- wp (bindM java_emit_escape _) _ ?st => apply wp_bind; eapply wp_mono; [apply java_emit_escape_ok|cbn beta; intros ? ? (? & ? & ?); fuse]
  | _ => go1
  end; try fin.
  - pose proof (starts_with_length _ _ H0) as X. change (length triple_quote) with 3 in X. hlia.
  - intros E. apply (f_equal (@length N)) in E. cbn [length] in E. hlia.
Qed.
Lemma java_text_block_ok st : starts_with (rem st) triple_quote = true -> wp java_expect_text_block (attempt java_space st) st.
Proof.
  intros Hc. pose proof (starts_with_length _ _ Hc) as Lq. change (length triple_quote) with 3 in Lq.
  begin_steps java_space st. unfold java_expect_text_block. go1. go1. go1. go1. go1. go1. go1. go1. go1.
  apply (wp_advance java_space); [apply length_if_le| |].
  { rewrite length_if_eq. apply Forall_prefix_len. intros c E. apply andb_true_iff in E as [_ E]. apply mem_In in E. unfold java_space. cbn [In] in *. tauto. }
  intros st2 S2 _. fuse. go1. go1. go1.
  assert (K : wp (if starts_with (rem st2) [13; 10]%N then advance 2 else if starts_with_ch (rem st2) 13 || starts_with_ch (rem st2) 10 then advance 1 else ret tt)
    (fun _ st3 => exists k, steps java_space k st2 st3) st2).
  { destruct (starts_with (rem st2) [13; 10]%N) eqn:E1.
    - apply starts_with_app in E1 as [v E1]. apply (wp_advance java_space); [rewrite E1; cbn; lia|rewrite E1; cbn; unfold java_space; repeat constructor; cbn; tauto|]. eauto.
    - destruct (starts_with_ch (rem st2) 13 || starts_with_ch (rem st2) 10) eqn:E2; [|apply wp_ret; exists 0; apply steps_refl].
      destruct (rem st2) as [|c r] eqn:Er; [discriminate E2|]. cbn [starts_with_ch] in E2. rewrite orb_true_iff, !N.eqb_eq in E2. apply (wp_advance java_space); [rewrite Er; cbn; lia|rewrite Er; cbn [firstn]; constructor; [unfold java_space; cbn [In]; destruct E2; subst; tauto|constructor]|]. eauto. }
  eapply wp_mono; [exact K|]. cbn beta. intros _ st3 (k3 & S3). fuse. apply wp_bind. eapply wp_mono; [apply java_block_scan_ok|]. cbn beta. intros _ st4 (k4 & S4). fuse. go. fin.
Qed.
Lemma java_strings_ok st : wp java_expect_string (attempt java_space st) st.
Proof.
  unfold java_expect_string. apply wp_bind, wp_get_rem. cbn beta. apply wp_if; intros E1; [apply java_char_ok; exact E1|]. apply wp_if; intros E2; [apply java_text_block_ok; exact E2|].
  apply wp_if; intros E3; [apply java_string_ok; exact E3|]. apply wp_ret. reflexivity.
Qed.
Lemma java_annotation_ok st : wp java_expect_annotation (attempt java_space st) st.
Proof.
  begin_steps java_space st. unfold java_expect_annotation. go1. go1. go1; [go; fin|]. go1. destruct (cpp_identifier_ok (skipn 1 (rem st))) as (n & E & L). eapply wp_lift; [exact E|]. go1; [go; fin|]. go1. go1.
  go1. eapply wp_mono; [apply (wp_rounds java_space 1 java_annotation_body (fun _ _ _ => True)); [lia|]|].
  2:{ cbn beta. intros _ st2 (k & ? & _). fuse. go. fin. }
  intros k st1 Hs. unfold java_annotation_body. go1. go1. go1. destruct (cpp_identifier_ok (rem st1)) as (m & E1 & L1). eapply wp_lift; [exact E1|].
  go; try fin.
Qed.
Lemma java_token_ok st : rem st <> [] -> wp java_token (fun _ st' => exists k, steps java_space k st st' /\ 0 < k) st.
Proof.
  intros Hne. begin_steps java_space st. unfold java_token, java_expect_line_comment, java_expect_block_comment.
  repeat match goal with
  | |- wp (bindM json_expect_line_comment _) _ _ => apply wp_bind; attempt_ (line_comment_ok java_space); cbn beta iota
  | |- wp (bindM json_expect_block_comment _) _ _ => apply wp_bind; attempt_ (block_comment_ok java_space); cbn beta iota
  | |- wp (bindM java_expect_string _) _ _ => apply wp_bind; attempt_ java_strings_ok; cbn beta iota
  | |- wp (bindM java_expect_identifier _) _ _ => apply wp_bind; attempt_ java_identifier_ok; cbn beta iota
  | |- wp (bindM java_expect_number _) _ _ => apply wp_bind; attempt_ java_number_ok; cbn beta iota
  | |- wp (bindM java_expect_symbol _) _ _ => apply wp_bind; attempt_ java_symbol_ok; cbn beta iota
  | |- wp (bindM java_expect_annotation _) _ _ => apply wp_bind; attempt_ java_annotation_ok; cbn beta iota
  end; try (go; fin).
  apply (wp_error_code_point java_space); [exact Hne|]. intros. fin.
Qed.

(** ** C87 *)
Theorem C87_java : always_highlights_except (fun c => In c [32; 9; 10; 12; 13]%N) highlight_java.
Proof.
  apply always_except_from_ops. intros src strict. apply (run_ok_all java_space). apply wp_bind.
  eapply wp_mono; [apply (token_loop_all java_space is_java_whitespace java_token)|].
  - intros c H. apply mem_In in H. unfold java_space. cbn [In] in *. tauto.
  - exact java_token_ok.
  - cbn beta. intros [] st' H. apply wp_ret. split; [reflexivity|exact H].
Qed.
Print Assumptions C87_java.
Example C87_case : exists ops, highlight_java (bs "@A.b int x = 0x1_0L + 'a'; // c") false = Ok (true, ops) /\ 8 < length ops.
Proof. eexists. split; [vm_compute; reflexivity|]. cbn [length]. lia. Qed.

(** ** Exact tokens *)
Ltac tryno lem := apply wp_bind; apply lem; [..|cbn beta iota].
Definition java_does (p : list piece) (r : str) : Prop :=
  forall i o, wp java_token (fun _ st' => st' = mk_hst r (i + length (text p)) (rev (tokens i p) ++ o) tt) (mk_hst (text p ++ r) i o tt).
Lemma java_string_no c s (Q : bool -> hst unit -> Prop) i o : c <> 39%N -> c <> 34%N -> Q false (mk_hst (c :: s) i o tt) -> wp java_expect_string Q (mk_hst (c :: s) i o tt).
Proof.
  intros H1 H2 HQ. unfold java_expect_string. apply wp_bind, wp_get_rem. cbn [rem]. unfold triple_quote. cbn [starts_with starts_with_ch]. rewrite (proj2 (N.eqb_neq c 39) H1), (proj2 (N.eqb_neq c 34) H2). apply wp_ret. exact HQ.
Qed.
Lemma java_number_no c s (Q : bool -> hst unit -> Prop) i o : ~ digit c -> c <> 95%N -> (c = 46%N -> not_before digit s) -> Q false (mk_hst (c :: s) i o tt) ->
  wp java_expect_number Q (mk_hst (c :: s) i o tt).
Proof.
  intros Hd Hs H HQ. unfold java_expect_number. apply wp_bind, wp_get_rem. cbn [rem]. apply wp_bind. eapply wp_lift.
  - apply no_number_match; try reflexivity; try discriminate; try assumption.
    + intros p Hp. cbn in Hp. repeat (destruct Hp as [<-|Hp]; [eexists _, _; split; [reflexivity|]; unfold digit in Hd; lia|]). contradiction.
    + destruct (is_ascii_digit_base c (no_base java_number_options)) eqn:E; [|reflexivity]. apply digit_10 in E. contradiction.
    + unfold digit in Hd. lia.
  - apply wp_ret. exact HQ.
Qed.
Lemma no_identifier_here s : not_before (fun c => ident_start c \/ (128 <= c)%N) s -> cpp_match_identifier s = Ok 0.
Proof.
  intros H. destruct s as [|c s]; [reflexivity|]. specialize (H c eq_refl). cbn beta in H. apply not_identifier; [lia|tauto].
Qed.
Lemma java_annotation_no c s (Q : bool -> hst unit -> Prop) i o : c <> 64%N \/ not_before (fun c => ident_start c \/ (128 <= c)%N) s -> Q false (mk_hst (c :: s) i o tt) ->
  wp java_expect_annotation Q (mk_hst (c :: s) i o tt).
Proof.
  intros H HQ. unfold java_expect_annotation. apply wp_bind, wp_get_rem. cbn [rem starts_with_ch]. change (ch "@") with 64%N. destruct (N.eqb_spec c 64) as [->|N]; cbn [negb]; [|apply wp_ret; exact HQ].
  destruct H as [H|H]; [congruence|]. apply wp_bind. eapply wp_lift; [cbn [skipn]; apply no_identifier_here; exact H|]. apply wp_ret. exact HQ.
Qed.
Lemma java_no_symbol c s : ident_char c -> java_match_symbol (c :: s) = None.
Proof.
  intros H. unfold java_match_symbol. 
  repeat match goal with |- (if (c =? ?x)%N then _ else _) = _ => destruct (N.eqb_spec c x) as [E|_]; [exfalso; subst c; vm_compute in H; intuition discriminate|] end.
  destruct (mem c (bs "(),;?@[]{}~")) eqn:E; [|reflexivity]. apply mem_In in E. exfalso. cbn in E. repeat (destruct E as [E|E]; [subst c; vm_compute in H; intuition discriminate|]). exact E.
Qed.
Lemma java_symbol_no c s (Q : bool -> hst unit -> Prop) i o : ident_char c -> Q false (mk_hst (c :: s) i o tt) -> wp java_expect_symbol Q (mk_hst (c :: s) i o tt).
Proof. intros H HQ. unfold java_expect_symbol. apply wp_bind, wp_get_rem. cbn [rem]. rewrite java_no_symbol by exact H. apply wp_ret. exact HQ. Qed.

Lemma java_symbol_longest c t rest : longest java_symbols (c :: t) rest -> c <> 34%N -> java_match_symbol ((c :: t) ++ rest) = java_match_symbol (c :: t).
Proof. intros H N. apply N.eqb_neq in N. unfold java_match_symbol. symbol_longest java_symbols H. congruence. Qed.
Lemma java_symbols_ok : symbols_ok java_match_symbol java_token_by_code java_symbols = true.
Proof. vm_compute. reflexivity. Qed.
Lemma java_words_ok : words_ok java_tokens java_words = true.
Proof. vm_compute. reflexivity. Qed.

Lemma java_do_symbol t h rest : In (t, h) java_symbols -> longest java_symbols t rest -> (t = bs "." -> not_before digit rest) ->
  (t = bs "@" -> not_before (fun c => ident_start c \/ (128 <= c)%N) rest) -> (t = bs "/" -> not_before (fun c => c = ch "/" \/ c = ch "*") rest) -> java_does [(t, Some h)] rest.
Proof.
  intros Hi Hl Hdot Hat Hsl i o. rewrite text_one. destruct (symbols_ok_In _ _ _ java_symbols_ok t h Hi) as (E1 & E2 & c & u & -> & Hc).
  assert (Hh : forallb (fun e => let c := hd 0%N (fst e) in negb (mem c [34; 39]%N) && negb (is_cpp_ascii_identifier_continue c)
     && (negb (c =? 46)%N || str_eqb (fst e) (bs ".") || str_eqb (fst e) (bs "...")) && (negb (c =? 64)%N || str_eqb (fst e) (bs "@")) && (negb (c =? 47)%N || str_eqb (fst e) (bs "/") || str_eqb (fst e) (bs "/="))) java_symbols = true) by (vm_compute; reflexivity).
  rewrite forallb_forall in Hh. specialize (Hh _ Hi). cbn [fst hd] in Hh. rewrite !andb_true_iff, !orb_true_iff, !negb_true_iff in Hh. destruct Hh as [[[[H1 H2] H3] H4] H5].
  assert (Nid : ~ ident_char c) by (rewrite <- ident_char_iff; congruence).
  assert (Nq : ~ In c [34; 39]%N) by (rewrite <- mem_In; congruence). cbn [In] in Nq.
  assert (Dot : c = 46%N -> not_before digit (u ++ rest)).
  { intros ->. destruct H3 as [[H3|H3]|H3]; [discriminate| |]; apply str_eqb_eq in H3; injection H3 as ->; [apply Hdot; reflexivity|]. apply not_before_cons. unfold digit. lia. }
  assert (At : c <> 64%N \/ not_before (fun c => ident_start c \/ (128 <= c)%N) (u ++ rest)).
  { destruct H4 as [H4|H4]; [left; apply N.eqb_neq; exact H4|right]. apply str_eqb_eq in H4. injection H4 as -> ->. apply Hat. reflexivity. }
  assert (Sl : c <> 47%N \/ not_before (fun c => c = 47 \/ c = 42)%N (u ++ rest)).
  { destruct H5 as [[H5|H5]|H5]; [left; apply N.eqb_neq; exact H5|right|right]; apply str_eqb_eq in H5; injection H5 as -> ->; [apply Hsl; reflexivity|]. apply not_before_cons. lia. }
  unfold java_token, java_expect_line_comment, java_expect_block_comment. cbn [app].
  tryno line_comment_no. { destruct Sl as [Sl|Sl]; [tauto|right]. eapply not_before_impl; [|exact Sl]. cbn beta. tauto. }
  tryno block_comment_no. { destruct Sl as [Sl|Sl]; [tauto|right]. eapply not_before_impl; [|exact Sl]. cbn beta. tauto. }
  tryno java_string_no; [intuition congruence|intuition congruence|]. tryno java_number_no; [unfold ident_char in Nid; tauto|unfold ident_char in Nid; tauto|exact Dot|]. tryno java_annotation_no; [exact At|].
  apply wp_bind. unfold java_expect_symbol. apply wp_bind, wp_get_rem. cbn [rem]. change (c :: u ++ rest) with ((c :: u) ++ rest). rewrite java_symbol_longest, E1, E2 by (assumption || intuition congruence).
  apply wp_bind. apply wp_emit_exact; [rewrite app_length; cbn; lia|]. rewrite skipn_app_exact. apply wp_ret. cbn iota. apply wp_ret. reflexivity.
Qed.
Lemma java_do_word w h rest : identifier w -> no_underscore w -> match java_token_by_code w with Some h => h | None => hl_name end = h -> not_before ident_or_non_ascii rest -> java_does [(w, Some h)] rest.
Proof.
  intros Hw Hu Hh R i o. rewrite text_one. pose proof (identifier_exact w rest Hw R) as HI. pose proof Hw as (c & t & E & Hc & _). subst w. specialize (Hu c eq_refl). cbn beta in Hu. change (ch "_") with 95%N in Hu.
  assert (Nd : ~ digit c /\ c <> 47%N /\ c <> 39%N /\ c <> 34%N /\ c <> 46%N /\ c <> 64%N /\ ident_char c) by (unfold ident_start, letter, ident_char, letter, digit in *; lia). destruct Nd as (N1 & N2 & N3 & N4 & N5 & N6 & N7).
  unfold java_token, java_expect_line_comment, java_expect_block_comment. cbn [app].
  tryno line_comment_no; [tauto|]. tryno block_comment_no; [tauto|]. tryno java_string_no; [assumption|assumption|]. tryno java_number_no; [assumption|assumption|congruence|]. tryno java_annotation_no; [tauto|]. tryno java_symbol_no; [assumption|].
  apply wp_bind. unfold java_expect_identifier. apply wp_bind, wp_get_rem. cbn [rem]. apply wp_bind. eapply wp_lift; [exact HI|].
  change (length (c :: t) =? 0) with false. cbn iota. change (c :: t ++ rest) with ((c :: t) ++ rest). rewrite firstn_app_exact, Hh. apply wp_bind. apply wp_emit_exact; [rewrite app_length; cbn; lia|]. rewrite skipn_app_exact. apply wp_ret. cbn iota. apply wp_ret. reflexivity.
Qed.
Lemma java_do_comment p rest : c_comment js_line p rest -> java_does p rest.
Proof. intros H i o. unfold java_token, java_expect_line_comment, java_expect_block_comment. apply c_comment_token. exact H. Qed.

(** Numbers *)
Lemma java_do_number_pieces (d : N -> Prop) p I f e x rest : let n := number_pieces p I f e x in
  (exists c t, text n = c :: t /\ (digit c \/ c = 46%N)) -> ~ d 95%N -> grouped d 95 I \/ I = [] /\ f <> None -> (forall f', f = Some f' -> f' = [] \/ grouped d 95 f') ->
  match e with Some (es, ed) => es <> [] /\ ed <> [] /\ Forall digit ed | None => True end ->
  match_common_number (text n ++ rest) java_number_options = Ok (mk_number (length p + length (text I) + length (frac_text f) + length (exp_text e) + length x)
    0 (length p) (length (text I)) (match f with None => 0 | Some _ => 1 end) (match f with None => 0 | Some f => length (text f) end)
    (match e with None => 0 | Some (e, _) => length e end) (match e with None => 0 | Some (_, d) => length d end) (length x) false) ->
  java_does n rest.
Proof.
  intros n (c & t & En & Hc) Hd GI GF GE HM i o. assert (LI : 0 < length (text I) + length (frac_text f)).
  { destruct GI as [GI|[-> GI]]; [apply grouped_ne in GI; destruct (text I); [congruence|cbn; lia]|]. destruct f; [cbn; lia|congruence]. }
  unfold java_token, java_expect_line_comment, java_expect_block_comment. rewrite En. cbn [app]. unfold digit in Hc.
  tryno line_comment_no; [left; lia|]. tryno block_comment_no; [left; lia|]. tryno java_string_no; [lia|lia|].
  change (c :: t ++ rest) with ((c :: t) ++ rest). rewrite <- En in *. apply wp_bind. unfold java_expect_number. apply wp_bind, wp_get_rem. cbn [rem]. apply wp_bind. eapply wp_lift; [exact HM|]. cbn [nr_length].
  match goal with |- context [?a =? 0] => rewrite (proj2 (Nat.eqb_neq a 0)) by lia end. apply wp_bind. unfold n. apply (highlight_sep_exact d); try assumption; try discriminate.
  - unfold digit. lia.
  - destruct GI as [GI|[GI _]]; auto.
  - apply wp_ret. cbn iota. apply wp_ret. reflexivity.
Qed.
Lemma java_exp_good (d : N -> Prop) letters e : java_exp letters e -> (letters = [bs "e"; bs "E"] /\ d = digit \/ letters = [bs "p"; bs "P"] /\ d = hex_digit) ->
  match e with
  | Some (es, ed) => true = true /\ In es (map fst (no_exponents java_number_options)) /\ fst (fst (number_exponent es (no_exponents java_number_options))) = length es /\ ed <> [] /\ Forall digit ed
                     /\ not_before (fun c => d c \/ c = no_separator java_number_options) es
  | None => True
  end.
Proof.
  intros H HL. destruct e as [[es ed]|]; [|exact Logic.I]. destruct (H es ed eq_refl) as ((l & s & Hl & Hs & ->) & H2 & H3). split; [reflexivity|].
  destruct HL as [[-> ->]|[-> ->]]; cbn [In] in Hl, Hs; destruct Hl as [<-|[<-|[]]]; destruct Hs as [<-|[<-|[<-|[]]]]; (split; [vm_compute; tauto|]; split; [vm_compute; reflexivity|]; split; [exact H2|]; split; [exact H3|]; nb).
Qed.
Lemma java_suffix_ok x rest : In x [[]; bs "l"; bs "L"; bs "f"; bs "F"; bs "d"; bs "D"] -> not_before ident_char rest -> x ++ rest <> [] -> suffix_match java_number_options (x ++ rest) = length x.
Proof.
  intros Hx R _. change (number_suffix (x ++ rest) [bs "D"; bs "F"; bs "L"; bs "d"; bs "f"; bs "l"] = length x). rewrite number_suffix_exact by (exact R || (vm_compute; reflexivity)).
  cbn [In] in Hx. repeat (destruct Hx as [<-|Hx]; [vm_compute; reflexivity|]). contradiction.
Qed.
Definition java_suffixes : list str := [[]; bs "l"; bs "L"; bs "f"; bs "F"; bs "d"; bs "D"].
Lemma java_literal p (d : N -> Prop) allow base I f e x rest :
  (forall c, is_ascii_digit_base c base = true <-> d c) -> (forall c, d c -> hex_digit c) ->
  number_base java_number_options (p ++ text I ++ frac_text f ++ exp_text e ++ x ++ rest) (no_prefixes java_number_options) = Ok (length p, allow, base) ->
  (p = [] \/ exists b, p = [48; b]%N) ->
  grouped d 95 I \/ p = [] /\ d = digit /\ I = [] /\ f <> None ->
  (forall f', f = Some f' -> allow = true /\ grouped d 95 f') ->
  match e with
  | Some (es, ed) => allow = true /\ In es (map fst (no_exponents java_number_options)) /\ fst (fst (number_exponent es (no_exponents java_number_options))) = length es /\ ed <> [] /\ Forall digit ed
                     /\ not_before (fun c => d c \/ c = no_separator java_number_options) es
  | None => True
  end ->
  In x java_suffixes -> (e = None -> not_before d x) -> not_before (fun c => ident_char c \/ c = ch ".") rest ->
  java_does (number_pieces p I f e x) rest.
Proof.
  intros Hd Hhex HB HP GI GF GE GX HX R.
  assert (D95 : ~ d 95%N) by (intros D; apply Hhex in D; unfold hex_digit in D; lia).
  assert (D46 : ~ d 46%N) by (intros D; apply Hhex in D; unfold hex_digit in D; lia).
  assert (Ri : not_before ident_char rest) by (eapply not_before_impl; [|exact R]; cbn beta; tauto).
  assert (HR : forall q : N -> Prop, not_before q x -> (forall c, q c -> ident_char c \/ c = 46%N) -> not_before q (x ++ rest)).
  { intros q Q1 Q2. destruct x as [|y x]; [|intros c Ec; apply (Q1 c); exact Ec]. cbn [app]. eapply not_before_impl; [|exact R]. cbn beta. exact Q2. }
  assert (Hhexid : forall c, d c -> ident_char c) by (intros c D; apply Hhex in D; unfold hex_digit in D; unfold ident_char, letter, digit; lia).
  apply (java_do_number_pieces d).
  - rewrite number_pieces_text. destruct HP as [->|[b ->]]; [|exists 48%N; eexists; split; [reflexivity|unfold digit; lia]]. cbn [app]. destruct GI as [GI|(_ & _ & -> & Hf)].
    + destruct (grouped_second _ _ _ GI) as (c & t & -> & Hc & _). exists c. eexists. split; [reflexivity|]. left. apply digit_iff. 
      assert (E : base = 10%Z). { pose proof (number_base_prefix _ _ _ _ HB) as (_ & _ & K). cbn [fst snd] in K. destruct (K eq_refl) as [_ ->]. destruct (starts_with_ch _ _); reflexivity. }
      subst base. apply Hd in Hc. apply digit_iff, digit_10. exact Hc.
    + destruct f as [f|]; [|congruence]. exists 46%N. eexists. split; [reflexivity|]. auto.
  - exact D95.
  - tauto.
  - intros f' E. right. apply GF. exact E.
  - destruct e as [[es ed]|]; [|exact Logic.I]. destruct GE as (_ & GE & GE2 & GE3 & GE4 & _). split; [|auto]. intros ->. cbn in GE. intuition discriminate.
  - rewrite number_pieces_text, <- !app_assoc. apply (literal_exact java_number_options p d allow base I f e x rest); try reflexivity; try discriminate; try assumption.
    + destruct GI as [GI|(-> & -> & -> & Hf)]; [left; exact GI|right]. split; [reflexivity|]. split; [reflexivity|]. destruct f as [f|]; [|congruence]. exists f. split; [reflexivity|]. apply GF. reflexivity.
    + intros f' E. destruct (GF f' E) as [-> G]. split; [reflexivity|]. right. exact G.
    + destruct e as [[es ed]|]; [exact GE|]. intros _. apply no_exponent; [reflexivity|]. apply HR.
      * unfold java_suffixes in GX. cbn [In] in GX. repeat (destruct GX as [<-|GX]; [nb|]). contradiction.
      * intros c Hc. cbn in Hc. left. repeat (destruct Hc as [<-|Hc]; [vm_compute; intuition discriminate|]). contradiction.
    + apply java_suffix_ok; [exact GX|exact Ri].
    + apply HR.
      * destruct e as [[es ed]|].
        -- unfold java_suffixes in GX. cbn [In] in GX. repeat (destruct GX as [<-|GX]; [nb|]). contradiction.
        -- specialize (HX eq_refl). intros c Ec [D|D]; [exact (HX c Ec D)|]. unfold java_suffixes in GX. cbn [In] in GX. repeat (destruct GX as [<-|GX]; [destruct D as [-> | ->]; vm_compute in Ec; discriminate Ec|]). contradiction.
      * intros c. destruct e as [[es ed]|]; [unfold ident_char; tauto|]. cbn. intros [D|[D|D]]; [left; auto| |auto]. left. unfold ident_char. auto.
Qed.
Lemma java_do_number n rest : java_number n -> not_before (fun c => ident_char c \/ c = ch ".") rest -> java_does n rest.
Proof.
  intros Hn R.
  assert (B10 : forall c, digit c -> hex_digit c) by (unfold digit, hex_digit; lia). assert (B2 : forall c, binary_digit c -> hex_digit c) by (unfold binary_digit, hex_digit; lia).
  assert (S1 : forall x, In x [[]; bs "l"; bs "L"] -> In x java_suffixes /\ not_before hex_digit x /\ not_before digit x /\ not_before binary_digit x).
  { intros x Hx. cbn [In] in Hx. repeat (destruct Hx as [<-|Hx]; [split; [vm_compute; tauto|]; repeat split; nb|]). contradiction. }
  assert (S2 : forall x, In x [[]; bs "f"; bs "F"; bs "d"; bs "D"] -> In x java_suffixes /\ not_before digit x).
  { intros x Hx. cbn [In] in Hx. repeat (destruct Hx as [<-|Hx]; [split; [vm_compute; tauto|]; repeat split; nb|]). contradiction. }
  assert (Dec : forall I f e x, grouped digit 95 I -> java_exp [bs "e"; bs "E"] e -> In x java_suffixes -> not_before digit x ->
     number_base java_number_options ([] ++ text I ++ frac_text f ++ exp_text e ++ x ++ rest) (no_prefixes java_number_options) = Ok (length (@nil N), true, 10%Z)).
  { intros I f e x G GE GX _. destruct (grouped_second _ _ _ G) as (c & t & -> & Hc & Ht). cbn [app length]. apply decimal_base; try reflexivity.
    intros y Hy Iy. cbn in Iy. destruct t as [|z t]; cbn [app] in Hy.
    2:{ injection Hy as ->. specialize (Ht y eq_refl). unfold digit in Ht. lia. }
    destruct f as [f|]; [cbn in Hy; injection Hy as <-; lia|]. cbn [frac_text app] in Hy. destruct e as [[es ed]|].
    - destruct (GE es ed eq_refl) as ((l & s & Hl & Hs & ->) & _). cbn [In] in Hl. destruct Hl as [<-|[<-|[]]]; cbn in Hy; injection Hy as <-; lia.
    - cbn [exp_text app] in Hy. unfold java_suffixes in GX. cbn [In] in GX.
      destruct GX as [<-|GX]; [cbn in Hy; apply (R y Hy); left; unfold ident_char, letter; lia|]. repeat (destruct GX as [<-|GX]; [cbn in Hy; injection Hy as <-; lia|]). contradiction. }
  destruct Hn as [base I x Hb G HX|base I x Hb G HX|base I f e x Hb G GF He GE HX|I x G HX|I f e x G GF GE HX|f e x G GE HX].
  - destruct (S1 x HX) as (X1 & X2 & X3 & X4). apply (java_literal base binary_digit false 2); auto; try discriminate.
    + exact digit_2.
    + cbn [In] in Hb. destruct Hb as [<-|[<-|[]]]; reflexivity.
    + right. cbn [In] in Hb. destruct Hb as [<-|[<-|[]]]; eexists; reflexivity.
  - destruct (S1 x HX) as (X1 & X2 & X3 & X4). apply (java_literal base hex_digit true 16); auto; try discriminate.
    + exact digit_16.
    + cbn [In] in Hb. destruct Hb as [<-|[<-|[]]]; reflexivity.
    + right. cbn [In] in Hb. destruct Hb as [<-|[<-|[]]]; eexists; reflexivity.
  - destruct (S2 x HX) as (X1 & X2). apply (java_literal base hex_digit true 16); auto; try congruence.
    + exact digit_16.
    + cbn [In] in Hb. destruct Hb as [<-|[<-|[]]]; reflexivity.
    + right. cbn [In] in Hb. destruct Hb as [<-|[<-|[]]]; eexists; reflexivity.
    + apply (java_exp_good hex_digit _ e GE). auto.
  - destruct (S1 x HX) as (X1 & X2 & X3 & X4). apply (java_literal [] digit true 10); auto; try discriminate.
    + exact digit_10.
    + apply Dec; auto. discriminate.
  - destruct (S2 x HX) as (X1 & X2). apply (java_literal [] digit true 10); auto; try discriminate.
    + exact digit_10.
    + apply (java_exp_good digit _ e GE). auto.
  - destruct (S2 x HX) as (X1 & X2). apply (java_literal [] digit true 10); auto; try discriminate.
    + exact digit_10.
    + right. repeat split. discriminate.
    + intros f' [= <-]. auto.
    + apply (java_exp_good digit _ e GE). auto.
Qed.

(** Annotations *)
Lemma java_name_scan n rest i o : java_annotation_name n -> not_before (fun c => ident_or_non_ascii c \/ c = ch ".") rest ->
  wp (hloop 1 java_annotation_body tt) (fun _ st' => st' = mk_hst rest (i + length (text n)) (rev (tokens i n) ++ o) tt) (mk_hst (text n ++ rest) i o tt).
Proof.
  intros H R. revert i o. induction H as [w Hw|w l Hw Hl IH]; intros i o; apply wp_unroll; unfold java_annotation_body; apply wp_bind, wp_get_rem; cbn [rem]; apply wp_bind.
  - rewrite text_one. eapply wp_lift; [apply identifier_exact; [exact Hw|]; eapply not_before_impl; [|exact R]; cbn beta; tauto|]. assert (Lw : 0 < length w) by (destruct Hw as (c & t & -> & _); cbn; lia).
    rewrite (proj2 (Nat.eqb_neq (length w) 0)) by lia. apply wp_bind. apply wp_emit_exact; [rewrite app_length; lia|]. rewrite skipn_app_exact. apply wp_bind, wp_get_rem. cbn [rem].
    assert (E : starts_with_ch rest (ch ".") = false). { destruct rest as [|c t]; [reflexivity|]. specialize (R c eq_refl). cbn beta in R. cbn [starts_with_ch]. apply N.eqb_neq. tauto. }
    rewrite E. cbn [negb]. apply wp_ret. reflexivity.
  - rewrite !text_cons, <- !app_assoc. eapply wp_lift; [apply identifier_exact; [exact Hw|]|].
    { change (bs ".") with [46%N]. apply not_before_cons. unfold ident_or_non_ascii, ident_char, letter, digit. lia. }
    assert (Lw : 0 < length w) by (destruct Hw as (c & t & -> & _); cbn; lia). rewrite (proj2 (Nat.eqb_neq (length w) 0)) by lia. apply wp_bind. apply wp_emit_exact; [rewrite app_length; lia|]. rewrite skipn_app_exact. apply wp_bind, wp_get_rem. cbn [rem].
    change (bs ".") with [46%N]. cbn [app]. change (negb (starts_with_ch (46%N :: text l ++ rest) (ch "."))) with false. cbn iota. apply wp_bind. apply wp_emit_exact; [cbn; lia|]. cbn [skipn]. apply wp_ret.
    split; [cbn [rem]; rewrite !app_length; cbn [length]; rewrite app_length; lia|].
    eapply wp_mono; [apply IH|]. cbn beta. intros _ st' ->. cbn [tokens rev length]. rewrite !app_length. cbn [length]. rewrite <- !app_assoc. cbn [app]. f_equal. lia.
Qed.
Lemma java_name_head n : java_annotation_name n -> exists c t, text n = c :: t /\ ident_start c.
Proof. intros [w Hw|w l Hw _]; rewrite text_cons; destruct Hw as (c & t & -> & Hc & _); cbn [app]; eauto. Qed.
Lemma java_do_annotation n rest : java_annotation_name n -> not_before (fun c => ident_or_non_ascii c \/ c = ch ".") rest ->
  java_does ((bs "@", Some hl_name_attr_delim) :: n) rest.
Proof.
  intros H R i o. rewrite text_cons. change (bs "@") with [64%N]. unfold java_token, java_expect_line_comment, java_expect_block_comment. cbn [app].
  tryno line_comment_no; [left; discriminate|]. tryno block_comment_no; [left; discriminate|]. tryno java_string_no; [discriminate|discriminate|]. tryno java_number_no; [unfold digit; lia|discriminate|discriminate|].
  apply wp_bind. unfold java_expect_annotation. apply wp_bind, wp_get_rem. cbn [rem]. change (negb (starts_with_ch (64%N :: text n ++ rest) (ch "@"))) with false. cbn iota. cbn [skipn].
  destruct (cpp_identifier_ok (text n ++ rest)) as (m & E & L). apply wp_bind. eapply wp_lift; [exact E|].
  assert (Hm : m <> 0).
  { destruct H as [w Hw|w l Hw Hl]; rewrite text_cons, <- app_assoc, identifier_exact in E; try exact Hw.
    - injection E as <-. destruct Hw as (c & t & -> & _). discriminate.
    - eapply not_before_impl; [|exact R]. cbn beta. tauto.
    - injection E as <-. destruct Hw as (c & t & -> & _). discriminate.
    - rewrite text_cons. change (bs ".") with [46%N]. apply not_before_cons. unfold ident_or_non_ascii, ident_char, letter, digit. lia. }
  rewrite (proj2 (Nat.eqb_neq m 0) Hm). apply wp_bind. apply wp_emit_exact; [cbn; lia|]. cbn [skipn]. apply wp_bind. eapply wp_mono; [apply java_name_scan; assumption|]. cbn beta. intros _ st' ->. apply wp_ret. cbn iota. apply wp_ret.
  cbn [tokens rev length]. rewrite <- app_assoc. cbn [app]. f_equal. lia.
Qed.

(** Escape sequences *)
Lemma java_escape_exact b e rest : java_escape b e rest -> java_match_escape_sequence (e ++ rest) = Ok (mk_escape (length e) false) /\ exists t, e = 92%N :: t.
Proof.
  assert (P2 : forall c d r, java_match_escape_sequence (92%N :: c :: d ++ r) = java_match_escape_sequence ([92; c]%N ++ d ++ r)) by reflexivity.
  intros [c r Hc|d r Hd|d r Hd Ld Fd R|d e' r Hd He|d e' f r Hd He Hf|nl r Hb Hn]; (split; [|eexists; reflexivity]).
  - change (34%N :: bs "bstnfr'\") with [34; 98; 115; 116; 110; 102; 114; 39; 92]%N in Hc. cbn [In] in Hc. repeat (destruct Hc as [<-|Hc]; [reflexivity|]). contradiction.
  - change (bs "\u") with [92; 117]%N. rewrite <- app_assoc. change (match_common_escape_at hex_4 ([92; 117]%N ++ d ++ r) (length [92; 117]%N) = Ok (mk_escape (length ([92; 117]%N ++ d)) false)).
    rewrite escape_at by (apply (escape_hex hex_4 4); [tauto|exact Hd]). f_equal. f_equal. rewrite app_length. cbn. lia.
  - assert (U : forall k, k = octal_1_to_2 \/ k = octal_1_to_3 -> match_common_escape k (d ++ r) = mk_escape (length d) false).
    { intros k [->| ->]; [apply (escape_octal_1_to octal_1_to_2 2)|apply (escape_octal_1_to octal_1_to_3 3)]; try tauto; (split; [exact Hd|]; split; [lia|]; split; [exact Fd|]; right; exact R). }
    destruct d as [|c d]; [congruence|]. pose proof (Forall_inv Fd) as Hc. unfold octal_digit in Hc. cbn [app java_match_escape_sequence]. change (92 =? 92)%N with true. cbn [negb].
    rewrite (proj2 (N.eqb_neq c (ch "u"))) by (change (ch "u") with 117%N; lia).
    assert (E : forall k, k = octal_1_to_2 \/ k = octal_1_to_3 -> match_common_escape_at k (92%N :: c :: d ++ r) 1 = Ok (mk_escape (length (92%N :: c :: d)) false)).
    { intros k Hk. change (92%N :: c :: d ++ r) with ([92%N] ++ (c :: d) ++ r). change 1 with (length [92%N]). rewrite escape_at by (apply U; exact Hk). f_equal. f_equal. cbn. lia. }
    destruct (between 48 51 c) eqn:B1; [apply E; tauto|]. destruct (between 52 55 c) eqn:B2; [apply E; tauto|]. unfold between in B1, B2. rewrite andb_false_iff, !N.leb_gt in B1, B2. lia.
  - cbn [app java_match_escape_sequence]. change (92 =? 92)%N with true. cbn [negb]. rewrite (proj2 (N.eqb_neq d (ch "u"))) by (change (ch "u") with 117%N; lia).
    assert (B1 : between 48 51 d = false) by (unfold between; rewrite andb_false_iff, !N.leb_gt; lia). assert (B2 : between 52 55 d = true) by (unfold between; rewrite andb_true_iff, !N.leb_le; lia). rewrite B1, B2.
    change (92%N :: d :: e' :: r) with ([92%N] ++ [d; e'] ++ r). change 1 with (length [92%N]). rewrite escape_at; [reflexivity|]. apply (escape_octal_1_to octal_1_to_2 2); [tauto|]. split; [discriminate|]. split; [cbn; lia|]. split; [repeat constructor; unfold octal_digit in *; lia|]. left. reflexivity.
  - cbn [app java_match_escape_sequence]. change (92 =? 92)%N with true. cbn [negb]. rewrite (proj2 (N.eqb_neq d (ch "u"))) by (change (ch "u") with 117%N; lia).
    assert (B1 : between 48 51 d = true) by (unfold between; rewrite andb_true_iff, !N.leb_le; lia). rewrite B1.
    change (92%N :: d :: e' :: f :: r) with ([92%N] ++ [d; e'; f] ++ r). change 1 with (length [92%N]). rewrite escape_at; [reflexivity|]. apply (escape_octal_1_to octal_1_to_3 3); [tauto|]. split; [discriminate|]. split; [cbn; lia|]. split; [repeat constructor; unfold octal_digit in *; lia|]. left. reflexivity.
  - assert (E : match_common_escape_at lf_cr_crlf (92%N :: nl ++ r) 1 = Ok (mk_escape (length (92%N :: nl)) false)).
    { change (92%N :: nl ++ r) with ([92%N] ++ nl ++ r). change 1 with (length [92%N]). rewrite escape_at by (apply escape_newline; exact Hn). f_equal. f_equal. cbn. lia. }
    destruct Hn as [->|[->|[-> _]]]; exact E.
Qed.
Lemma java_emit_escape_exact b e rest i o (Q : unit -> hst unit -> Prop) : java_escape b e rest -> Q tt (mk_hst rest (i + length e) (OEmit i (length e) hl_string_escape false :: o) tt) ->
  wp java_emit_escape Q (mk_hst (e ++ rest) i o tt).
Proof.
  intros H HQ. destruct (java_escape_exact _ _ _ H) as [E [t Et]]. unfold java_emit_escape. apply wp_bind, wp_get_rem. cbn [rem]. apply wp_bind. eapply wp_lift; [exact E|]. cbn [es_length es_erroneous].
  apply wp_bind, wp_check; [rewrite Et; reflexivity|]. apply wp_emit_exact; [rewrite app_length, Et; cbn; lia|]. rewrite skipn_app_exact. exact HQ.
Qed.
Lemma java_quote_token src c t X i o : src = c :: t -> c = 39%N \/ c = 34%N -> wp java_expect_string (fun b st' => b = true /\ st' = X) (mk_hst src i o tt) ->
  wp java_token (fun _ st' => st' = X) (mk_hst src i o tt).
Proof.
  intros -> Hc H. unfold java_token, java_expect_line_comment, java_expect_block_comment. tryno line_comment_no; [left; lia|]. tryno block_comment_no; [left; lia|].
  apply wp_bind. eapply wp_mono; [exact H|]. cbn beta. intros b st' [-> ->]. apply wp_ret. reflexivity.
Qed.
Lemma java_do_char p rest : java_char p -> java_does p rest.
Proof.
  intros [c Hc Hn|e He] i o.
  - apply (java_quote_token _ 39%N (c :: 39%N :: rest)); [reflexivity|auto|]. change (text [(bs "'", Some hl_string_delim); ([c], Some hl_string); (bs "'", Some hl_string_delim)] ++ rest) with (39%N :: c :: 39%N :: rest).
    unfold java_expect_string. apply wp_bind, wp_get_rem. cbn [rem]. change (starts_with_ch (39%N :: c :: 39%N :: rest) 39) with true. cbn iota.
    unfold java_expect_character_literal. apply wp_bind, wp_get_rem. cbn [rem]. apply wp_bind, wp_check; [reflexivity|]. apply wp_bind. apply wp_emit_exact; [cbn; lia|]. cbn [skipn].
    apply wp_bind, wp_get_rem. cbn [rem]. apply wp_bind. cbn [In] in Hn. rewrite (proj2 (N.eqb_neq c 92)) by (intros ->; tauto).
    assert (M : mem c [39; 13; 10]%N = false) by (destruct (mem c [39; 13; 10]%N) eqn:E; [apply mem_In in E; cbn [In] in E; tauto|reflexivity]). rewrite M. cbn [negb]. apply wp_emit_exact; [cbn; lia|]. cbn [skipn].
    apply wp_bind, wp_get_rem. cbn [rem]. apply wp_bind. change (starts_with_ch (39%N :: rest) 39) with true. cbn [when]. apply wp_emit_exact; [cbn; lia|]. cbn [skipn]. apply wp_ret. split; [reflexivity|]. cbn. rewrite <- !Nat.add_assoc. reflexivity.
  - set (q := [(bs "'", Some hl_string_delim); (e, Some hl_string_escape); (bs "'", Some hl_string_delim)]).
    assert (Ep : text q = 39%N :: e ++ [39%N]) by reflexivity. 
    assert (Es : text q ++ rest = 39%N :: e ++ 39%N :: rest) by (rewrite Ep; cbn [app]; rewrite <- app_assoc; reflexivity).
    assert (El : length (text q) = 1 + length e + 1) by (rewrite Ep; cbn [length]; rewrite app_length; cbn; lia).
    rewrite Es, El. apply (java_quote_token _ 39%N (e ++ 39%N :: rest)); [reflexivity|auto|]. unfold java_expect_string. apply wp_bind, wp_get_rem. cbn [rem]. change (starts_with_ch (39%N :: e ++ 39%N :: rest) 39) with true. cbn iota.
    unfold java_expect_character_literal. apply wp_bind, wp_get_rem. cbn [rem]. apply wp_bind, wp_check; [reflexivity|]. apply wp_bind. apply wp_emit_exact; [cbn; lia|]. cbn [skipn].
    apply wp_bind, wp_get_rem. cbn [rem]. destruct (java_escape_exact _ _ _ He) as [_ [t Et]]. assert (Eh : e ++ 39%N :: rest = 92%N :: t ++ 39%N :: rest) by (rewrite Et; reflexivity). rewrite Eh at 1. change (92 =? 92)%N with true. cbn iota. apply wp_bind.
    assert (He' : java_escape false e (39%N :: rest)).
    { inversion He; subst; try (constructor; assumption). }
    eapply java_emit_escape_exact; [exact He'|]. apply wp_bind, wp_get_rem. cbn [rem]. apply wp_bind. change (starts_with_ch (39%N :: rest) 39) with true. cbn [when]. apply wp_emit_exact; [cbn; lia|]. cbn [skipn]. apply wp_ret. split; [reflexivity|].
    unfold q. cbn [tokens rev app length bs]. change (length (bs "'")) with 1. rewrite !Nat.add_assoc. reflexivity.
Qed.

(** String literals *)
Section strings.
Variable close : list piece.
Variable rest : str.
Definition java_end (i : nat) (o : list out_op) (_ : unit) (st' : hst unit) : Prop :=
  st' = mk_hst rest (i + length (text close)) (rev (tokens i close) ++ o) tt.
Lemma java_string_scan (Hclose : java_closing close rest) l i o : string_body hl_string java_plain (java_item false) (text close ++ rest) true l ->
  wp (hloop 1 java_string_body 0) (fun b st' => java_end (i + length (text l)) (rev (tokens i l) ++ o) b st') (mk_hst (text l ++ text close ++ rest) i o tt).
Proof.
  assert (Hitem : forall p r, java_item false p r -> exists e t, p = [(e, Some hl_string_escape)] /\ e = 92%N :: t /\ java_escape false e r).
  { intros p r [e r' He]. destruct (java_escape_exact _ _ _ He) as [_ [t ->]]. eauto 10. }
  apply (scan_body tt java_string_body hl_string java_plain (java_item false) (text close ++ rest) java_end).
  - intros p r Hp. destruct (Hitem p r Hp) as (e & t & -> & -> & _). discriminate.
  - intros run r len j o1 P L. unfold java_string_body. apply wp_bind, wp_get_rem. cbn [rem]. rewrite (proj2 (Nat.ltb_lt len (length (run ++ r)))) by (rewrite app_length; lia). cbn [negb].
    destruct (nth_error run len) as [c|] eqn:Ec; [|apply nth_error_None in Ec; lia]. apply wp_bind. apply (wp_at_is _ _ c); [rewrite nth_error_app1 by lia; exact Ec|].
    unfold java_plain in P. rewrite Forall_forall in P. specialize (P c (nth_error_In _ _ Ec)). cbn [In] in P. rewrite (proj2 (N.eqb_neq c 34)), (proj2 (N.eqb_neq c 92)) by (intros ->; tauto).
    assert (M : mem c [13; 10]%N = false) by (destruct (mem c [13; 10]%N) eqn:E; [apply mem_In in E; cbn [In] in E; tauto|reflexivity]). rewrite M. apply wp_ret. auto.
  - intros run p r j o1 Hrun Hp. destruct (Hitem p r Hp) as (e & t & -> & Ee & He). rewrite text_one. unfold java_string_body. apply wp_bind, wp_get_rem. cbn [rem].
    rewrite (proj2 (Nat.ltb_lt (length run) _)) by (rewrite !app_length, Ee; cbn; lia). cbn [negb]. apply wp_bind. apply (wp_at_is _ _ 92%N).
    { rewrite Ee. rewrite nth_error_app2, Nat.sub_diag by lia. reflexivity. }
    change (92 =? 34)%N with false. change (mem 92%N [13; 10]%N) with false. change (92 =? 92)%N with true. cbn iota. apply flush_run. apply wp_bind. eapply java_emit_escape_exact; [exact He|]. apply wp_ret. split; [reflexivity|].
    rewrite tokens_app, rev_app_distr, <- app_assoc, opt_piece_text. cbn [tokens rev app]. reflexivity.
  - intros run j o1 Hrun. unfold java_string_body. apply wp_bind, wp_get_rem. cbn [rem]. unfold java_end. clear Hitem. destruct Hclose as [rest'| |c rest' Hc].
    + change (text [java_quote]) with [34%N]. cbn [app]. rewrite (proj2 (Nat.ltb_lt (length run) _)) by (rewrite !app_length; cbn; lia). cbn [negb]. apply wp_bind. apply (wp_at_is _ _ 34%N).
      { rewrite nth_error_app2, Nat.sub_diag by lia. reflexivity. }
      change (34 =? 34)%N with true. cbn iota. apply flush_run. apply wp_bind. apply wp_emit_exact; [cbn; lia|]. cbn [skipn]. apply wp_ret. reflexivity.
    + change (text []) with (@nil N). cbn [app]. rewrite (proj2 (Nat.ltb_ge (length run) _)) by (rewrite app_length; cbn; lia). cbn [negb]. apply flush_run. apply wp_ret. cbn [length tokens rev app]. rewrite Nat.add_0_r. reflexivity.
    + change (text []) with (@nil N). cbn [app]. rewrite (proj2 (Nat.ltb_lt (length run) _)) by (rewrite !app_length; cbn; lia). cbn [negb]. apply wp_bind. apply (wp_at_is _ _ c).
      { rewrite nth_error_app2, Nat.sub_diag by lia. reflexivity. }
      rewrite (proj2 (N.eqb_neq c 34)) by lia. assert (E : mem c [13; 10]%N = true) by (destruct Hc as [->| ->]; reflexivity). rewrite E. apply flush_run. apply wp_ret. cbn [length tokens rev app]. rewrite Nat.add_0_r. reflexivity.
Qed.
Lemma java_block_scan (Hclose : java_block_closing close rest) l i o : string_body hl_string java_block_plain (java_item true) (text close ++ rest) true l ->
  wp (hloop 1 java_block_body 0) (fun b st' => java_end (i + length (text l)) (rev (tokens i l) ++ o) b st') (mk_hst (text l ++ text close ++ rest) i o tt).
Proof.
  assert (Hitem : forall p r, java_item true p r -> exists e t, p = [(e, Some hl_string_escape)] /\ e = 92%N :: t /\ java_escape true e r).
  { intros p r [e r' He]. destruct (java_escape_exact _ _ _ He) as [_ [t ->]]. eauto 10. }
  apply (scan_body tt java_block_body hl_string java_block_plain (java_item true) (text close ++ rest) java_end).
  - intros p r Hp. destruct (Hitem p r Hp) as (e & t & -> & -> & _). discriminate.
  - intros run r len j o1 [P1 P2] L. unfold java_block_body. apply wp_bind, wp_get_rem. cbn [rem]. rewrite (proj2 (Nat.ltb_lt len (length (run ++ r)))) by (rewrite app_length; lia). cbn [negb].
    apply wp_bind. apply wp_substr_from; [rewrite app_length; lia|].
    destruct (skipn len run) as [|c t] eqn:Es; [apply (f_equal (@length N)) in Es; rewrite skipn_length in Es; cbn in Es; lia|].
    assert (Er : run = firstn len run ++ c :: t) by (rewrite <- Es; symmetry; apply firstn_skipn).
    assert (E0 : skipn len (run ++ r) = c :: t ++ r) by (rewrite skipn_app, Es; replace (len - length run) with 0 by lia; reflexivity).
    assert (E1 : starts_with (skipn len (run ++ r)) triple_quote = false).
    { rewrite E0. destruct (starts_with (c :: t ++ r) triple_quote) eqn:E; [|reflexivity]. apply starts_with_app in E as [v E]. exfalso. apply (P2 (firstn len run) (c :: t) v); [exact Er|discriminate|exact E]. }
    rewrite E1. apply wp_bind. apply (wp_at_is _ _ c).
    { rewrite <- (Nat.add_0_r len), <- nth_error_skipn, E0. reflexivity. }
    assert (Nc : c <> 92%N) by (intros ->; apply P1; rewrite Er; apply in_or_app; right; left; reflexivity). rewrite (proj2 (N.eqb_neq c 92) Nc). apply wp_ret. auto.
  - intros run p r j o1 Hrun Hp. destruct (Hitem p r Hp) as (e & t & -> & Ee & He). rewrite text_one. unfold java_block_body. apply wp_bind, wp_get_rem. cbn [rem].
    rewrite (proj2 (Nat.ltb_lt (length run) _)) by (rewrite !app_length, Ee; cbn; lia). cbn [negb]. apply wp_bind. apply wp_substr_from; [rewrite app_length; lia|]. rewrite skipn_app_exact.
    assert (E1 : starts_with (e ++ r) triple_quote = false) by (rewrite Ee; reflexivity). rewrite E1. apply wp_bind. apply (wp_at_is _ _ 92%N).
    { rewrite Ee. rewrite nth_error_app2, Nat.sub_diag by lia. reflexivity. }
    change (92 =? 92)%N with true. cbn iota. apply flush_run. apply wp_bind. eapply java_emit_escape_exact; [exact He|]. apply wp_ret. split; [reflexivity|].
    rewrite tokens_app, rev_app_distr, <- app_assoc, opt_piece_text. cbn [tokens rev app]. reflexivity.
  - intros run j o1 Hrun. unfold java_block_body. apply wp_bind, wp_get_rem. cbn [rem]. unfold java_end. clear Hitem. destruct Hclose as [rest'|].
    + change (text [java_block_quotes]) with triple_quote. assert (Ld : length triple_quote = 3) by reflexivity. rewrite (proj2 (Nat.ltb_lt (length run) _)) by (rewrite !app_length; lia). cbn [negb]. apply wp_bind. apply wp_substr_from; [rewrite app_length; lia|]. rewrite skipn_app_exact.
      rewrite (proj2 (starts_with_app _ _)) by eauto. apply flush_run. apply wp_bind. apply wp_emit_exact; [rewrite app_length; lia|]. change 3 with (length triple_quote). rewrite skipn_app_exact. apply wp_ret. reflexivity.
    + change (text []) with (@nil N). cbn [app]. rewrite (proj2 (Nat.ltb_ge (length run) _)) by (rewrite app_length; cbn; lia). cbn [negb]. apply flush_run. apply wp_ret. cbn [length tokens rev app]. rewrite Nat.add_0_r. reflexivity.
Qed.
End strings.
Lemma java_do_string p rest : java_string p rest -> java_does p rest.
Proof.
  intros [body close r Hclose Hbody Hq] i o. assert (Et : text (java_quote :: body ++ close) = 34%N :: text body ++ text close) by (unfold java_quote; rewrite text_cons, text_app; reflexivity).
  rewrite Et. cbn [app length]. rewrite <- app_assoc. set (tl := text body ++ text close ++ r).
  apply (java_quote_token _ 34%N tl); [reflexivity|auto|]. unfold java_expect_string. apply wp_bind, wp_get_rem. cbn [rem]. change (starts_with_ch (34%N :: tl) 39) with false. cbn iota.
  assert (E : starts_with (34%N :: tl) triple_quote = false).
  { destruct (starts_with (34%N :: tl) triple_quote) eqn:E; [|reflexivity]. apply starts_with_app in E as [v E]. unfold triple_quote in E. cbn [app] in E. injection E as E. exfalso. unfold tl in E.
    destruct Hbody as [fl|run l Hr Hp Hb|fl q l Hp Hb].
    - cbn [app text map concat] in E. destruct Hclose as [r'| |c r' Hc].
      + cbn in E. injection E as E. apply (Hq eq_refl eq_refl 34%N); [rewrite E; reflexivity|reflexivity].
      + discriminate E.
      + cbn in E. injection E as E. lia.
    - rewrite text_cons in E. destruct run as [|c run]; [congruence|]. cbn [app] in E. injection E as E _. unfold java_plain in Hp. apply Forall_inv in Hp. cbn [In] in Hp. subst c. tauto.
    - destruct Hp as [e r' He]. destruct (java_escape_exact _ _ _ He) as [_ [t ->]]. discriminate E. }
  rewrite E. change (starts_with_ch (34%N :: tl) 34) with true. cbn iota. unfold java_expect_string_literal. apply wp_bind, wp_get_rem. cbn [rem]. apply wp_bind, wp_check; [reflexivity|]. apply wp_bind. apply wp_emit_exact; [cbn; lia|]. cbn [skipn]. apply wp_bind.
  eapply wp_mono; [apply (java_string_scan close r Hclose body); exact Hbody|]. cbn beta. unfold java_end. intros [] st' ->. apply wp_ret. split; [reflexivity|].
  change (java_quote :: body ++ close) with ([java_quote] ++ body ++ close). rewrite !tokens_app, !rev_app_distr. cbn [tokens app rev length java_quote]. rewrite <- !app_assoc, !app_length. cbn [app length]. change (text [java_quote]) with [34%N]. cbn [length]. f_equal. lia.
Qed.
Lemma java_do_block p rest : java_text_block p rest -> java_does p rest.
Proof.
  intros [ws nl body close r Hws Hnl Hclose Hbody] i o. assert (Et : text (java_block_quotes :: (ws ++ nl, None) :: body ++ close) = triple_quote ++ ws ++ nl ++ text body ++ text close) by (unfold java_block_quotes; rewrite !text_cons, text_app, <- !app_assoc; reflexivity).
  rewrite Et, <- !app_assoc. set (tl := text body ++ text close ++ r) in *.
  apply (java_quote_token _ 34%N (34 :: 34 :: ws ++ nl ++ tl)%N); [reflexivity|auto|]. unfold java_expect_string. apply wp_bind, wp_get_rem. cbn [rem]. change (starts_with_ch (triple_quote ++ ws ++ nl ++ tl) 39) with false. cbn iota.
  assert (E : starts_with (triple_quote ++ ws ++ nl ++ tl) triple_quote = true) by (apply starts_with_app; eauto). rewrite E.
  unfold java_expect_text_block. apply wp_bind, wp_get_rem. cbn [rem]. apply wp_bind, wp_check; [exact E|]. apply wp_bind. apply wp_emit_exact; [cbn; lia|]. change (skipn 3 (triple_quote ++ ws ++ nl ++ tl)) with (ws ++ nl ++ tl).
  apply wp_bind, wp_get_rem. cbn [rem].
  assert (W : length_if (ws ++ nl ++ tl) (fun c => negb (mem c [13; 10]%N) && is_java_whitespace c) = length ws).
  { rewrite length_if_eq. apply prefix_len_exact.
    - eapply Forall_impl; [|exact Hws]. cbn [In]. intros c [<-|[<-|[<-|[]]]]; reflexivity.
    - assert (Hnl' : exists c t, nl ++ tl = c :: t /\ (c = 10%N \/ c = 13%N)) by (destruct Hnl as [->|[->|[-> _]]]; cbn [app]; eauto). destruct Hnl' as (c & t & -> & [->| ->]); apply not_before_cons; discriminate. }
  rewrite W. apply wp_bind. apply wp_advance_exact; [rewrite app_length; lia|]. rewrite skipn_app_exact. apply wp_bind, wp_get_rem. cbn [rem].
  assert (K : wp (if starts_with (nl ++ tl) [13; 10]%N then advance 2 else if starts_with_ch (nl ++ tl) 13 || starts_with_ch (nl ++ tl) 10 then advance 1 else ret tt)
    (fun _ st' => st' = mk_hst tl (i + 3 + length ws + length nl) (OEmit i 3 hl_string_delim false :: o) tt) (mk_hst (nl ++ tl) (i + 3 + length ws) (OEmit i 3 hl_string_delim false :: o) tt)).
  { destruct Hnl as [->|[->|[-> Hn]]].
    - cbn [app]. change (starts_with (10%N :: tl) [13; 10]%N) with false. change (starts_with_ch (10%N :: tl) 13 || starts_with_ch (10%N :: tl) 10) with true. cbn iota. apply wp_advance_exact; [cbn; lia|]. reflexivity.
    - rewrite (proj2 (starts_with_app _ _)) by eauto. apply wp_advance_exact; [cbn; lia|]. reflexivity.
    - cbn [app]. assert (E2 : starts_with (13%N :: tl) [13; 10]%N = false). { cbn [starts_with]. change (13 =? 13)%N with true. destruct tl as [|c t]; [reflexivity|]. specialize (Hn c eq_refl). cbn beta in Hn. cbn [starts_with]. rewrite (proj2 (N.eqb_neq c 10) Hn). reflexivity. }
      rewrite E2. change (starts_with_ch (13%N :: tl) 13) with true. cbn [orb]. apply wp_advance_exact; [cbn; lia|]. reflexivity. }
  apply wp_bind. eapply wp_mono; [exact K|]. cbn beta. intros _ st' ->. apply wp_bind.
  eapply wp_mono; [apply (java_block_scan close r Hclose body); exact Hbody|]. cbn beta. unfold java_end. intros [] st' ->. apply wp_ret. split; [reflexivity|].
  change (java_block_quotes :: (ws ++ nl, None) :: body ++ close) with ([java_block_quotes; (ws ++ nl, None)] ++ body ++ close). rewrite !tokens_app, !rev_app_distr. cbn [tokens app rev length java_block_quotes]. rewrite <- !app_assoc. cbn [app].
  assert (L : length (text [java_block_quotes; (ws ++ nl, None)]) = 3 + length ws + length nl) by (unfold java_block_quotes; rewrite text_cons, text_one, !app_length; cbn; lia). rewrite L. rewrite !app_length. change (length triple_quote) with 3.
  replace (i + 3 + length ws + length nl) with (i + (3 + length ws + length nl)) by lia. f_equal. lia.
Qed.

(** ** C88 *)
Lemma java_lexeme_does p r : java_lexeme p r -> java_does p r.
Proof.
  intros [p' rest H|w h rest H1 H2 H3|w rest H1 H2 H3 H4|t h rest H1 H2 H3 H4 H5|n rest H1 H2|n rest H1 H2 H3|p' rest H|p' rest H|p' rest H].
  - apply java_do_comment. exact H.
  - destruct (word_hit _ _ _ _ java_words_ok H1) as [E Hw]. apply java_do_word; [exact Hw|exact H2|unfold java_token_by_code; rewrite E; reflexivity|exact H3].
  - apply java_do_word; [exact H1|exact H2| |exact H4]. unfold java_token_by_code. rewrite (word_miss _ _ _ java_words_ok H1 H3). reflexivity.
  - apply java_do_symbol; assumption.
  - apply java_do_number; assumption.
  - apply java_do_annotation; assumption.
  - apply java_do_char. exact H.
  - apply java_do_string. exact H.
  - apply java_do_block. exact H.
Qed.
Lemma above_space c : (32 < c)%N -> ~ java_space c.
Proof. unfold java_space. cbn [In]. lia. Qed.
Lemma java_lexeme_head p r : java_lexeme p r -> exists c t, text p = c :: t /\ ~ java_space c.
Proof.
  intros H. enough (K : exists c t, text p = c :: t /\ (32 < c)%N) by (destruct K as (c & t & E & L); exists c, t; split; [exact E|apply above_space; exact L]).
  assert (Id : forall w, identifier w -> exists c t, w = c :: t /\ (32 < c)%N) by (intros w (c & t & -> & Hc & _); exists c, t; split; [reflexivity|unfold ident_start, letter in Hc; lia]).
  destruct H as [p' rest H|w h rest H1 H2 H3|w rest H1 H2 H3 H4|t h rest H1 H2 H3 H4 H5|n rest H1 H2|n rest H1 H2 H3|p' rest H|p' rest H|p' rest H].
  - destruct (c_comment_head _ _ _ H) as [t ->]. exists 47%N, t. split; [reflexivity|lia].
  - rewrite text_one. apply Id. apply (word_hit _ _ _ _ java_words_ok H1).
  - rewrite text_one. apply Id. exact H1.
  - rewrite text_one. assert (F : forallb (fun e => match fst e with [] => false | c :: _ => (32 <? c)%N end) java_symbols = true) by (vm_compute; reflexivity).
    rewrite forallb_forall in F. specialize (F _ H1). cbn [fst] in F. destruct t as [|c t]; [discriminate|]. apply N.ltb_lt in F. eauto.
  - assert (G : forall (d : N -> Prop) I, (forall c, d c -> (32 < c)%N) -> grouped d 95 I -> forall t, exists c u, text I ++ t = c :: u /\ (32 < c)%N).
    { intros d I Hd G t. destruct (grouped_second _ _ _ G) as (c & u & -> & Hc & _). cbn [app]. eauto. }
    destruct H1 as [base I x Hb GI HX|base I x Hb GI HX|base I f e x Hb GI GF He GE HX|I x GI HX|I f e x GI GF GE HX|f e x GI GE HX]; rewrite number_pieces_text.
    1-3: cbn [In] in Hb; destruct Hb as [<-|[<-|[]]]; exists 48%N; (eexists; split; [reflexivity|lia]).
    1-2: cbn [app]; apply (G digit); [unfold digit; lia|exact GI].
    exists 46%N. eexists. split; [reflexivity|lia].
  - rewrite text_cons. exists 64%N. eexists. split; [reflexivity|lia].
  - destruct H as [c _ _|e _]; rewrite text_cons; exists 39%N; (eexists; split; [reflexivity|lia]).
  - destruct H as [body close rest _ _ _]. unfold java_quote. rewrite text_cons. exists 34%N. eexists. split; [reflexivity|lia].
  - destruct H as [ws nl body close rest _ _ _ _]. unfold java_block_quotes. rewrite text_cons. exists 34%N. eexists. split; [reflexivity|lia].
Qed.
Theorem C88_java_lexemes l : program java_space java_lexeme l -> tokenizes highlight_java l.
Proof.
  intros H strict. unfold highlight_java. apply (token_loop_exact tt is_java_whitespace java_space java_lexeme java_token).
  - intros c. unfold is_java_whitespace. rewrite mem_In. unfold java_space. cbn [In]. tauto.
  - exact java_lexeme_head.
  - intros p r i o Hp. apply java_lexeme_does. exact Hp.
  - exact H.
Qed.
Print Assumptions C88_java_lexemes.
(** Some of everything *)
Example C88_case : exists l, program java_space java_lexeme l /\ 20 < length l
  /\ text l = bs "@A.b int x=0x1p3f+.5; char c='\7';// x".
Proof.
  pose (l9 := (slash_comment :: opt_piece (bs " x") hl_comment) ++ []).
  pose (l8 := [(bs "'", Some hl_string_delim); (bs "\7", Some hl_string_escape); (bs "'", Some hl_string_delim)] ++ [(bs ";", Some hl_symbol_punc)] ++ l9).
  pose (l7 := (bs " ", None) :: [(bs "char", Some hl_keyword_type)] ++ (bs " ", None) :: [(bs "c", Some hl_name)] ++ [(bs "=", Some hl_symbol_punc)] ++ l8).
  pose (l6 := number_pieces [] [] (Some [(bs "5", Some hl_number)]) None [] ++ [(bs ";", Some hl_symbol_punc)] ++ l7).
  pose (l5 := number_pieces (bs "0x") [(bs "1", Some hl_number)] None (Some (bs "p", bs "3")) (bs "f") ++ [(bs "+", Some hl_symbol_op)] ++ l6).
  pose (l4 := (bs " ", None) :: [(bs "int", Some hl_keyword_type)] ++ (bs " ", None) :: [(bs "x", Some hl_name)] ++ [(bs "=", Some hl_symbol_punc)] ++ l5).
  exists (((bs "@", Some hl_name_attr_delim) :: [(bs "A", Some hl_name_attr); (bs ".", Some hl_name_attr_delim); (bs "b", Some hl_name_attr)]) ++ l4).
  split; [|split; [cbn; lia|reflexivity]].
  assert (Sym : forall t h l, In (t, h) java_symbols -> longest java_symbols t (text l) -> t <> bs "." -> t <> bs "@" -> t <> bs "/" -> program java_space java_lexeme l -> program java_space java_lexeme ([(t, Some h)] ++ l)).
  { intros t h l H1 H2 H3 H4 H5 H6. apply program_lexeme; [|exact H6]. apply java_symbol; try assumption; congruence. }
  assert (Word : forall w h l, In (w, h) java_words -> no_underscore w -> not_before ident_or_non_ascii (text l) -> program java_space java_lexeme l -> program java_space java_lexeme ([(w, Some h)] ++ l)).
  { intros w h l H1 H2 H3 H4. apply program_lexeme; [|exact H4]. apply java_word; assumption. }
  assert (Name : forall w l, identb w = true -> no_underscore w -> table_find java_tokens w = None -> not_before ident_or_non_ascii (text l) -> program java_space java_lexeme l -> program java_space java_lexeme ([(w, Some hl_name)] ++ l)).
  { intros w l H1 H2 H3 H4 H5. apply program_lexeme; [|exact H5]. apply java_name; try assumption; [apply identb_iff; exact H1|]. intros h H. apply (word_hit _ _ _ _ java_words_ok) in H as [H _]. congruence. }
  assert (Sp : forall l, program java_space java_lexeme l -> program java_space java_lexeme ((bs " ", None) :: l)).
  { intros l H. apply program_space; [|exact H]. repeat constructor. }
  apply program_lexeme.
  { apply java_annotation; [|discriminate|nb]. apply java_name_more; [apply identb_iff; reflexivity|]. apply java_name_one. apply identb_iff. reflexivity. }
  unfold l4. apply Sp. apply Word; [vm_compute; tauto|nb|nb|]. apply Sp. apply Name; [reflexivity|nb|vm_compute; reflexivity|nb|]. apply Sym; [vm_compute; tauto|sym_longest|discriminate|discriminate|discriminate|].
  unfold l5. apply program_lexeme.
  { apply java_num; [|nb]. apply java_hex_float; [cbn; tauto|apply grouped_one; [discriminate|fa]|discriminate|discriminate| |cbn; tauto]. intros e d [= <- <-]. split; [exists (bs "p"), []; cbn; tauto|]. split; [discriminate|fa]. }
  apply Sym; [vm_compute; tauto|sym_longest|discriminate|discriminate|discriminate|].
  unfold l6. apply program_lexeme.
  { apply java_num; [|nb]. apply java_point; [apply grouped_one; [discriminate|fa]|discriminate|cbn; tauto]. }
  apply Sym; [vm_compute; tauto|sym_longest|discriminate|discriminate|discriminate|].
  unfold l7. apply Sp. apply Word; [vm_compute; tauto|nb|nb|]. apply Sp. apply Name; [reflexivity|nb|vm_compute; reflexivity|nb|]. apply Sym; [vm_compute; tauto|sym_longest|discriminate|discriminate|discriminate|].
  unfold l8. apply program_lexeme.
  { apply java_character. apply java_char_escape. apply (java_esc_octal false (bs "7")); [discriminate|cbn; lia|fa|nb]. }
  apply Sym; [vm_compute; tauto|sym_longest|discriminate|discriminate|discriminate|].
  unfold l9. apply program_lexeme; [|apply program_end]. apply java_comment. apply (c_line js_line (bs " x")); [|apply not_before_nil].
  intros t Ht (a & b & E). apply (f_equal (@length N)) in E as L. rewrite !app_length in L. cbn in Ht. change (length (bs " x")) with 2 in L.
  assert (Hc : forall c, In c (bs " x") -> ~ In c [10; 13; 226]%N) by (intros c Hc; cbn in Hc; destruct Hc as [<-|[<-|[]]]; cbn; lia).
  repeat (destruct Ht as [<-|Ht]; [match type of E with _ = _ ++ (?x :: _) ++ _ => apply (Hc x); [rewrite E; apply in_or_app; right; left; reflexivity|cbn; tauto] end|]). contradiction.
Qed.
(** A string and a text block *)
Example C88_case2 : exists l, program java_space java_lexeme l /\ text l = bs "x" ++ [34; 97; 92; 110; 34; 32; 34; 34; 34; 10; 97; 34; 98; 34; 34; 34]%N.
Proof.
  exists ([(bs "x", Some hl_name)] ++ (java_quote :: [(bs "a", Some hl_string); ([92; 110]%N, Some hl_string_escape)] ++ [java_quote]) ++ (bs " ", None) :: (java_block_quotes :: ([] ++ [10]%N, None) :: [([97; 34; 98]%N, Some hl_string)] ++ [java_block_quotes]) ++ []).
  split; [|reflexivity].
  apply program_lexeme.
  { apply java_name; [apply identb_iff; reflexivity|nb| |nb]. intros h H. apply (word_hit _ _ _ _ java_words_ok) in H as [H _]. vm_compute in H. discriminate. }
  apply program_lexeme.
  { apply java_str. apply java_string_literal; [apply java_closed| |discriminate]. apply (string_text hl_string _ _ _ (bs "a") [([92; 110]%N, Some hl_string_escape)]); [discriminate|fa|].
    apply (string_item hl_string _ _ _ _ [([92; 110]%N, Some hl_string_escape)] []); [|apply string_end]. constructor. apply java_esc_simple. cbn. tauto. }
  apply program_space; [repeat constructor|]. apply program_lexeme; [|apply program_end].
  apply java_block. apply java_text_block_literal; [constructor|left; reflexivity|apply java_block_closed|].
  apply (string_text hl_string _ _ _ [97; 34; 98]%N []); [discriminate| |apply string_end]. split; [cbn; lia|].
  intros a b t E Hb. destruct a as [|a1 [|a2 [|a3 [|a4 a]]]]; cbn in E; try discriminate E.
  - subst b. discriminate.
  - injection E as _ E. subst b. discriminate.
  - injection E as _ _ E. subst b. discriminate.
  - injection E as _ _ _ E. subst b. congruence.
Qed.

(** ** C89: identifiers. Those that begin with an underscore or contain a dollar sign are not highlighted as names. *)
Theorem C89_identifiers_refuted : ~ (forall w, java_identifier w -> (forall h, ~ In (w, h) java_words) -> tokenizes highlight_java [(w, Some hl_name)])
  /\ ~ (forall w, identifier w -> (forall h, ~ In (w, h) java_words) -> tokenizes highlight_java [(w, Some hl_name)])
  /\ ~ (forall w h, In (w, h) java_words -> tokenizes highlight_java [(w, Some h)]).
Proof.
  assert (W : forall w h, table_find java_tokens w = None -> ~ In (w, h) java_words) by (intros w h E H; apply (word_hit _ _ _ _ java_words_ok) in H as [H _]; congruence).
  repeat split; intros H.
  - specialize (H (bs "a$b")). enough (K : tokenizes highlight_java [(bs "a$b", Some hl_name)]) by (specialize (K false); vm_compute in K; discriminate K).
    apply H; [|intros h; apply W; vm_compute; reflexivity]. exists 97%N, (bs "$b"). split; [reflexivity|]. split; [left; vm_compute; intuition discriminate|]. constructor; [right; reflexivity|]. constructor; [left; vm_compute; intuition discriminate|constructor].
  - specialize (H (bs "_x")). enough (K : tokenizes highlight_java [(bs "_x", Some hl_name)]) by (specialize (K false); vm_compute in K; discriminate K).
    apply H; [apply identb_iff; reflexivity|intros h; apply W; vm_compute; reflexivity].
  - specialize (H (bs "_") hl_keyword ltac:(vm_compute; tauto) false). vm_compute in H. discriminate H.
Qed.
Theorem C89_identifiers_partial w : identifier w -> no_underscore w ->
  ((forall h, ~ In (w, h) java_words) -> tokenizes highlight_java [(w, Some hl_name)]) /\ (forall h, In (w, h) java_words -> tokenizes highlight_java [(w, Some h)]).
Proof.
  intros H1 H2. split; [intros H3|intros h H3]; apply C88_java_lexemes; [change [(w, Some hl_name)] with ([(w, Some hl_name)] ++ [])|change [(w, Some h)] with ([(w, Some h)] ++ [])]; (apply program_lexeme; [|apply program_end]).
  - apply java_name; [exact H1|exact H2|exact H3|apply not_before_nil].
  - apply java_word; [exact H3|exact H2|apply not_before_nil].
Qed.
Print Assumptions C89_identifiers_refuted.
Print Assumptions C89_identifiers_partial.
Example C89_case : identifier (bs "a_1") /\ no_underscore (bs "a_1").
Proof. split; [apply identb_iff; reflexivity|nb]. Qed.

(** ** C90: character literals of any code point. Those outside ASCII are split. *)
Theorem C90_characters_refuted : ~ (forall c, scalar_value c -> (32 <= c)%N -> ~ In c [39; 92]%N ->
  tokenizes highlight_java [(bs "'", Some hl_string_delim); (utf8_encoding c, Some hl_string); (bs "'", Some hl_string_delim)]).
Proof.
  intros H. specialize (H 233%N). enough (K : tokenizes highlight_java [(bs "'", Some hl_string_delim); (utf8_encoding 233, Some hl_string); (bs "'", Some hl_string_delim)]) by (specialize (K false); vm_compute in K; discriminate K).
  apply H; [unfold scalar_value; lia|lia|cbn; lia].
Qed.
Theorem C90_characters_partial p : java_char p -> tokenizes highlight_java p.
Proof. intros H. apply C88_java_lexemes. rewrite <- (app_nil_r p). apply program_lexeme; [|apply program_end]. apply java_character. exact H. Qed.
Print Assumptions C90_characters_refuted.
Print Assumptions C90_characters_partial.
Example C90_case : java_char [(bs "'", Some hl_string_delim); (bs "\u00e9", Some hl_string_escape); (bs "'", Some hl_string_delim)].
Proof. apply java_char_escape. apply (java_esc_unicode false (bs "00e9")). split; [reflexivity|fa]. Qed.

(** ** C91: numbers. A fraction without digits and separators in the exponent are not accepted. *)
Theorem C91_numbers_refuted : ~ (forall n, java_any_number n -> tokenizes highlight_java n).
Proof.
  intros H. enough (K : tokenizes highlight_java java_no_fraction) by (specialize (K false); vm_compute in K; discriminate K). apply H. apply java_any_no_fraction; [|cbn; tauto]. apply grouped_one; [discriminate|fa].
Qed.
Theorem C91_numbers_partial n : java_number n -> tokenizes highlight_java n.
Proof. intros H. apply C88_java_lexemes. rewrite <- (app_nil_r n). apply program_lexeme; [|apply program_end]. apply java_num; [exact H|apply not_before_nil]. Qed.
Print Assumptions C91_numbers_refuted.
Print Assumptions C91_numbers_partial.
Example C91_case : java_number (number_pieces (bs "0B") [(bs "1", Some hl_number); (bs "_", Some hl_number_delim); (bs "0", Some hl_number)] None None (bs "L")).
Proof. apply java_binary; [cbn; tauto| |cbn; tauto]. apply grouped_more; [discriminate|fa|]. apply grouped_one; [discriminate|fa]. Qed.

(** ** C92: annotation types are declared with "@ interface"; written together they are highlighted as an annotation. *)
Theorem C92_interface_refuted : ~ tokenizes highlight_java [(bs "@", Some hl_symbol_punc); (bs "interface", Some hl_keyword)]
  /\ tokenizes highlight_java [(bs "@", Some hl_symbol_punc); (bs " ", None); (bs "interface", Some hl_keyword)].
Proof. split; [intros K; specialize (K false); vm_compute in K; discriminate K|intros strict; vm_compute; reflexivity]. Qed.
Theorem C92_interface_partial n : java_annotation_name n -> text n <> bs "interface" -> tokenizes highlight_java ((bs "@", Some hl_name_attr_delim) :: n).
Proof.
  intros H1 H2. apply C88_java_lexemes. rewrite <- (app_nil_r (_ :: n)). apply program_lexeme; [|apply program_end]. apply java_annotation; [exact H1|exact H2|apply not_before_nil].
Qed.
Print Assumptions C92_interface_refuted.
Print Assumptions C92_interface_partial.
Example C92_case : java_annotation_name [(bs "java", Some hl_name_attr); (bs ".", Some hl_name_attr_delim); (bs "X", Some hl_name_attr)].
Proof. apply java_name_more; [apply identb_iff; reflexivity|]. apply java_name_one. apply identb_iff. reflexivity. Qed.
