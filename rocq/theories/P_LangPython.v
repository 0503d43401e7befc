(** * Properties of the Python highlighter *)
From Coq Require Import List NArith ZArith Bool Arith Lia.
From Verif Require Import M_Base L_Base S_Tokens M_Emit S_Ops L_Emit M_Types M_Chars M_Parse S_Parse L_Parse P_Parse M_Utf8 L_Any
  M_Api M_Table L_Table M_LangBash M_LangCpp M_Highlighter S_Highlight L_Highlighter P_LangCpp L_Auto M_TokenLoop
  S_Lexemes L_Lexemes L_Number L_Scan L_Symbols L_Escapes M_LangPython S_LangPython.
Import ListNotations.

(** ** Safety *)
Lemma python_options : good_options python_number_options.
Proof. split; [right; reflexivity|]. split; [repeat constructor; discriminate|]. discriminate. Qed.
#[local] Hint Resolve python_options : good_opts.

Lemma python_sorted : table_sorted python_tokens = true.
Proof. vm_compute. reflexivity. Qed.
Lemma python_symbol_good s t : python_match_symbol s = Some t -> good_symbol python_tokens s t.
Proof.
  destruct s as [|c s]; [discriminate|]. unfold python_match_symbol. intros H. symbol_cases H.
Qed.

Lemma py_comment_ok st : wp py_expect_comment (attempt py_space st) st.
Proof.
  begin_steps py_space st. unfold py_expect_comment. go; try fin. apply length_if_not_le.
Qed.
Lemma py_identifier_ok st : wp py_expect_identifier (attempt py_space st) st.
Proof.
  begin_steps py_space st. unfold py_expect_identifier. go. destruct (cpp_identifier_ok (rem st)) as (n & E & L). eapply wp_lift; [exact E|]. go; fin.
Qed.
Lemma py_number_ok st : wp py_expect_number (attempt py_space st) st.
Proof. begin_steps py_space st. unfold py_expect_number. go; fin. Qed.
Lemma py_symbol_ok st : wp py_expect_symbol (attempt py_space st) st.
Proof.
  begin_steps py_space st. unfold py_expect_symbol. go1. go1. destruct (python_match_symbol (rem st)) as [t|] eqn:E; [|go; fin].
  apply python_symbol_good in E. destruct (good_symbol_find _ _ _ E) as [h F]. apply good_symbol_len in E. unfold python_token_by_code. rewrite F. go; fin.
Qed.
Lemma py_escape_ok s p : exists e, py_match_escape_sequence s p = Ok e /\ es_length e <= length s.
Proof.
  assert (A : forall k n, n <= length s -> exists e, match_common_escape_at k s n = Ok e /\ es_length e <= length s).
  { intros k n L. destruct (common_escape_at_ok k s n L) as (e & E & [_ B]). eauto. }
  unfold py_match_escape_sequence. destruct s as [|b [|c s]]; try (eexists; split; [reflexivity|cbn; lia]).
  destruct (negb _); [eexists; split; [reflexivity|cbn; lia]|].
  repeat match goal with |- context [if ?b then _ else _] => destruct b end;
  match goal with
  | |- context [match_common_escape_at ?k _ ?n] => destruct (A k n) as (e & E & B); [cbn; lia|]; rewrite ?E; cbn [bind]; eexists; split; [reflexivity|exact B]
  | _ => eexists; split; [reflexivity|cbn; lia]
  end.
Qed.
Lemma py_string_ok p st : starts_with_ch (rem st) 39 = true \/ starts_with_ch (rem st) 34 = true ->
  wp (py_consume_string p) (fun _ st' => exists k, steps py_space k st st' /\ 0 < k) st.
Proof.
  intros Hc. begin_steps py_space st. unfold py_consume_string. go1. go1. go1. go1.
  1:{ destruct Hc as [->| ->]; [reflexivity|apply orb_true_r]. }
  set (q := if starts_with_ch (rem st) 39 then 39%N else 34%N).
  assert (Hq : starts_with_ch (rem st) q = true) by (unfold q; destruct (starts_with_ch (rem st) 39) eqn:E; [exact E|destruct Hc; congruence]).
  clearbody q. set (l := starts_with (rem st) [q; q; q]). set (t := if l then [q; q; q] else [q]).
  assert (Ht : starts_with (rem st) t = true).
  { unfold t. destruct l eqn:E; [exact E|]. destruct (rem st) as [|x r]; [discriminate Hq|]. cbn in *. apply N.eqb_eq in Hq. subst x. rewrite N.eqb_refl. destruct r; reflexivity. }
  assert (Lt : 0 < length t <= length (rem st)) by (split; [unfold t; destruct l; cbn; lia|apply starts_with_length; exact Ht]).
  cbv zeta. go1. go1. go1. go1. clearbody t l.
  eapply wp_mono; [apply (wp_scan py_space 1 (py_string_body p t l) 0 (fun _ _ _ => True)); [lia|lia|]|].
  2:{ cbn beta. intros _ st2 (k & ? & _). fuse. fin. }
  intros a k st1 Hs La _. clear H H0. unfold py_string_body.
  repeat lazymatch goal with
  | |- wp (lift (decode_and_length_or_replacement ?r)) _ _ => apply wp_decode; intros ? ? ? ?; cbn [snd]
  | |- wp (lift (py_match_escape_sequence ?r ?p)) _ _ => let e := fresh "e" in let E := fresh "E" in let B := fresh "B" in destruct (py_escape_ok r p) as (e & E & B); eapply wp_lift; [exact E|]
  | _ => go1
  end; try fin.
Qed.
Lemma py_literal_ok st : wp py_expect_string_literal (attempt py_space st) st.
Proof.
  begin_steps py_space st. unfold py_expect_string_literal. pose proof (length_if_head_tail_le (rem st) is_bash_identifier_start is_bash_identifier) as L.
  fold (bash_match_identifier (rem st)) in L.
  go; try fin.
  assert (Hq : starts_with_ch (rem st') 39 = true \/ starts_with_ch (rem st') 34 = true).
  { rems. apply andb_false_iff in H1. rewrite !negb_false_iff in H1. exact H1. }
  calls (py_string_ok (match (if bash_match_identifier (rem st) =? 0 then Some py_unicode else classify_string_prefix (firstn (bash_match_identifier (rem st)) (rem st))) with None => py_unicode | Some p => p end) st' Hq).
  go. fin.
Qed.
Lemma py_token_ok st : rem st <> [] -> wp py_token (fun _ st' => exists k, steps py_space k st st' /\ 0 < k) st.
Proof.
  intros Hne. begin_steps py_space st. unfold py_token.
  repeat match goal with
  | |- wp (bindM py_expect_comment _) _ _ => apply wp_bind; attempt_ py_comment_ok; cbn beta iota
  | |- wp (bindM py_expect_string_literal _) _ _ => apply wp_bind; attempt_ py_literal_ok; cbn beta iota
  | |- wp (bindM py_expect_identifier _) _ _ => apply wp_bind; attempt_ py_identifier_ok; cbn beta iota
  | |- wp (bindM py_expect_number _) _ _ => apply wp_bind; attempt_ py_number_ok; cbn beta iota
  | |- wp (bindM py_expect_symbol _) _ _ => apply wp_bind; attempt_ py_symbol_ok; cbn beta iota
  end; try (go; fin).
  apply (wp_error_code_point py_space); [exact Hne|]. intros. fin.
Qed.

(** ** C82 *)
Theorem C82_python : always_highlights_except (fun c => In c [32; 9; 10; 12; 13]%N) highlight_python.
Proof.
  apply always_except_from_ops. intros src strict. apply (run_ok_all py_space). apply wp_bind.
  eapply wp_mono; [apply (token_loop_all py_space is_python_whitespace py_token)|].
  - intros c H. apply mem_In in H. unfold py_space. cbn [In] in *. tauto.
  - exact py_token_ok.
  - cbn beta. intros [] st' H. apply wp_ret. split; [reflexivity|exact H].
Qed.
Print Assumptions C82_python.
Example C82_case : exists ops, highlight_python (bs "def f(x): return rb'a\'b' + 1.5e3j # c") false = Ok (true, ops) /\ 8 < length ops.
Proof. eexists. split; [vm_compute; reflexivity|]. cbn [length]. lia. Qed.

(** ** Exact tokens *)
Lemma py_comment_no c s (Q : bool -> hst unit -> Prop) i o : c <> 35%N -> Q false (mk_hst (c :: s) i o tt) -> wp py_expect_comment Q (mk_hst (c :: s) i o tt).
Proof. intros H HQ. unfold py_expect_comment. apply wp_bind, wp_get_rem. cbn [rem starts_with_ch]. change (ch "#") with 35%N. rewrite (proj2 (N.eqb_neq c 35) H). apply wp_ret. exact HQ. Qed.
Lemma bash_ident_start_iff c : is_bash_identifier_start c = true <-> ident_start c.
Proof.
  unfold is_bash_identifier_start, is_ascii_alpha, is_ascii_upper_alpha, is_ascii_lower_alpha, between, ident_start, letter.
  rewrite !orb_true_iff, !andb_true_iff, !N.leb_le, N.eqb_eq. change (ch "_") with 95%N. lia.
Qed.
Lemma bash_ident_iff c : is_bash_identifier c = true <-> ident_char c.
Proof.
  unfold is_bash_identifier, is_ascii_alphanumeric, is_ascii_alpha, is_ascii_upper_alpha, is_ascii_lower_alpha, is_ascii_digit, between, ident_char, letter, digit.
  rewrite !orb_true_iff, !andb_true_iff, !N.leb_le, N.eqb_eq. change (ch "_") with 95%N. lia.
Qed.
Lemma bash_identifier_exact w rest : identifier w -> not_before ident_char rest -> bash_match_identifier (w ++ rest) = length w.
Proof.
  intros (c & t & -> & Hc & F) R. unfold bash_match_identifier. rewrite length_if_head_tail_eq. cbn [app]. rewrite (proj2 (bash_ident_start_iff c) Hc). cbn [length]. f_equal. apply prefix_len_exact.
  - eapply Forall_impl; [|exact F]. intros x. apply bash_ident_iff.
  - eapply not_before_impl; [|exact R]. intros x. apply bash_ident_iff.
Qed.
Lemma bash_no_identifier c s : ~ ident_start c -> bash_match_identifier (c :: s) = 0.
Proof. intros H. unfold bash_match_identifier. rewrite length_if_head_tail_eq. destruct (is_bash_identifier_start c) eqn:E; [apply bash_ident_start_iff in E; contradiction|reflexivity]. Qed.
Lemma py_literal_no c s (Q : bool -> hst unit -> Prop) i o : not_before py_quote (skipn (bash_match_identifier (c :: s)) (c :: s)) -> Q false (mk_hst (c :: s) i o tt) ->
  wp py_expect_string_literal Q (mk_hst (c :: s) i o tt).
Proof.
  intros H HQ. pose proof (length_if_head_tail_le (c :: s) is_bash_identifier_start is_bash_identifier) as L. fold (bash_match_identifier (c :: s)) in L. unfold py_expect_string_literal.
  apply wp_bind, wp_get_rem. cbn [rem]. apply wp_bind. apply wp_eof; cbn [rem]; intros E; [discriminate|]. apply wp_bind. apply wp_substr_from; [exact L|].
  assert (E1 : negb (starts_with_ch (skipn (bash_match_identifier (c :: s)) (c :: s)) 39) && negb (starts_with_ch (skipn (bash_match_identifier (c :: s)) (c :: s)) 34) = true).
  { destruct (skipn _ _) as [|x t]; [reflexivity|]. specialize (H x eq_refl). unfold py_quote in H. cbn [starts_with_ch]. rewrite (proj2 (N.eqb_neq x 39)), (proj2 (N.eqb_neq x 34)) by tauto. reflexivity. }
  cbv zeta. rewrite E1. apply wp_ret. exact HQ.
Qed.
Lemma py_identifier_no c s (Q : bool -> hst unit -> Prop) i o : (c < 128)%N -> ~ ident_start c -> Q false (mk_hst (c :: s) i o tt) ->
  wp py_expect_identifier Q (mk_hst (c :: s) i o tt).
Proof.
  intros L H HQ. unfold py_expect_identifier. apply wp_bind, wp_get_rem. cbn [rem]. apply wp_bind. eapply wp_lift; [apply not_identifier; assumption|]. apply wp_ret. exact HQ.
Qed.
Lemma py_number_no c s (Q : bool -> hst unit -> Prop) i o : ~ digit c -> c <> 95%N -> (c = 46%N -> not_before digit s) -> Q false (mk_hst (c :: s) i o tt) ->
  wp py_expect_number Q (mk_hst (c :: s) i o tt).
Proof.
  intros Hd Hs H HQ. unfold py_expect_number. apply wp_bind, wp_get_rem. cbn [rem]. apply wp_bind. eapply wp_lift.
  - apply no_number_match; try reflexivity; try discriminate; try assumption.
    + intros p Hp. cbn in Hp. repeat (destruct Hp as [<-|Hp]; [eexists _, _; split; [reflexivity|]; unfold digit in Hd; lia|]). contradiction.
    + destruct (is_ascii_digit_base c (no_base python_number_options)) eqn:E; [|reflexivity]. apply digit_10 in E. contradiction.
    + unfold digit in Hd. lia.
  - apply wp_ret. exact HQ.
Qed.

Lemma py_symbol_longest c t rest : longest py_symbols (c :: t) rest -> python_match_symbol ((c :: t) ++ rest) = python_match_symbol (c :: t).
Proof. intros H. unfold python_match_symbol. symbol_longest py_symbols H. Qed.
Lemma py_symbols_ok : symbols_ok python_match_symbol python_token_by_code py_symbols = true.
Proof. vm_compute. reflexivity. Qed.
Lemma py_words_ok : words_ok python_tokens py_words = true.
Proof. vm_compute. reflexivity. Qed.

(** The result of a lexeme *)
Definition py_does (p : list piece) (r : str) : Prop :=
  forall i o, wp py_token (fun _ st' => st' = mk_hst r (i + length (text p)) (rev (tokens i p) ++ o) tt) (mk_hst (text p ++ r) i o tt).

Ltac tryno lem := apply wp_bind; apply lem; [..|cbn beta iota].
Lemma py_do_symbol t h rest : In (t, h) py_symbols -> longest py_symbols t rest -> (t = bs "." -> not_before digit rest) -> py_does [(t, Some h)] rest.
Proof.
  intros Hi Hl Hdot i o. rewrite text_one. destruct (symbols_ok_In _ _ _ py_symbols_ok t h Hi) as (E1 & E2 & c & u & -> & Hc).
  assert (Hh : forallb (fun e => let c := hd 0%N (fst e) in negb (mem c (34 :: 39 :: bs "#")%N) && negb (is_cpp_ascii_identifier_continue c) && (negb (c =? 46)%N || str_eqb (fst e) (bs ".") || str_eqb (fst e) (bs "..."))) py_symbols = true) by (vm_compute; reflexivity).
  rewrite forallb_forall in Hh. specialize (Hh _ Hi). cbn [fst hd] in Hh. apply andb_true_iff in Hh as [Hh H3]. apply andb_true_iff in Hh as [H1 H2]. rewrite negb_true_iff in H1, H2.
  assert (Nid : ~ ident_char c) by (rewrite <- ident_char_iff; congruence).
  assert (Nst : ~ ident_start c) by (unfold ident_char, ident_start in *; tauto).
  assert (Nq : ~ In c [34; 39; 35]%N) by (rewrite <- mem_In; change (34 :: 39 :: bs "#")%N with [34; 39; 35]%N in H1; congruence). cbn [In] in Nq.
  assert (Dot : c = 46%N -> not_before digit (u ++ rest)).
  { intros ->. apply orb_true_iff in H3 as [H3|H3]; [apply orb_true_iff in H3 as [H3|H3]; [discriminate H3|]|]; apply str_eqb_eq in H3.
    - injection H3 as ->. apply Hdot. reflexivity.
    - injection H3 as ->. apply not_before_cons. unfold digit. lia. }
  unfold py_token. cbn [app].
  tryno py_comment_no; [intuition congruence|]. tryno py_literal_no. { rewrite bash_no_identifier by assumption. cbn [skipn]. apply not_before_cons. unfold py_quote. intuition congruence. }
  tryno py_identifier_no; [assumption|assumption|]. tryno py_number_no; [unfold ident_char in Nid; tauto|unfold ident_char in Nid; tauto|exact Dot|].
  apply wp_bind. unfold py_expect_symbol. apply wp_bind, wp_get_rem. cbn [rem]. change (c :: u ++ rest) with ((c :: u) ++ rest). rewrite py_symbol_longest, E1, E2 by assumption.
  apply wp_bind. apply wp_emit_exact; [rewrite app_length; cbn; lia|]. rewrite skipn_app_exact. apply wp_ret. cbn iota. apply wp_ret. reflexivity.
Qed.
Lemma ident_or_quote w rest : identifier w -> not_before (fun c => ident_or_non_ascii c \/ py_quote c) rest -> exists c t, w = c :: t /\ c <> 35%N
  /\ not_before py_quote (skipn (bash_match_identifier (w ++ rest)) (w ++ rest)) /\ cpp_match_identifier (w ++ rest) = Ok (length w) /\ 0 < length w.
Proof.
  intros Hw R. pose proof Hw as (c & t & -> & Hc & _). exists c, t. split; [reflexivity|]. split; [unfold ident_start, letter in Hc; lia|]. split; [|split].
  - rewrite bash_identifier_exact; [|exact Hw|eapply not_before_impl; [|exact R]; cbn beta; unfold ident_or_non_ascii; tauto]. rewrite skipn_app_exact. eapply not_before_impl; [|exact R]. cbn beta. tauto.
  - apply identifier_exact; [exact Hw|]. eapply not_before_impl; [|exact R]. cbn beta. tauto.
  - cbn. lia.
Qed.
Lemma py_do_word w h rest : identifier w -> match python_token_by_code w with Some h => h | None => hl_name end = h -> not_before (fun c => ident_or_non_ascii c \/ py_quote c) rest -> py_does [(w, Some h)] rest.
Proof.
  intros Hw Hh R i o. rewrite text_one. destruct (ident_or_quote w rest Hw R) as (c & t & E & H1 & H2 & H3 & H4). unfold py_token. rewrite E in *. cbn [app] in *.
  tryno py_comment_no; [exact H1|]. tryno py_literal_no; [exact H2|]. apply wp_bind. unfold py_expect_identifier. apply wp_bind, wp_get_rem. cbn [rem]. apply wp_bind. eapply wp_lift; [exact H3|].
  rewrite (proj2 (Nat.eqb_neq (length (c :: t)) 0)) by lia. change (c :: t ++ rest) with ((c :: t) ++ rest). rewrite firstn_app_exact, Hh. apply wp_bind. apply wp_emit_exact; [rewrite app_length; lia|]. rewrite skipn_app_exact. apply wp_ret. cbn iota. apply wp_ret. reflexivity.
Qed.
Lemma py_do_comment t rest : Forall (fun c => c <> 10 /\ c <> 13)%N t -> not_before (fun c => c <> 10 /\ c <> 13)%N rest ->
  py_does ((bs "#", Some hl_comment_delim) :: opt_piece t hl_comment) rest.
Proof.
  intros F R i o. rewrite text_cons, opt_piece_text. change (bs "#") with [35%N]. unfold py_token. apply wp_bind. unfold py_expect_comment. apply wp_bind, wp_get_rem. cbn [rem app]. change (starts_with_ch (35%N :: t ++ rest) (ch "#")) with true. cbn [negb].
  apply wp_bind. apply wp_emit_exact; [cbn; lia|]. cbn [skipn]. apply wp_bind, wp_get_rem. cbn [rem].
  assert (E : length_if_not (t ++ rest) is_python_newline = length t).
  { rewrite length_if_not_eq. apply prefix_len_exact.
    - eapply Forall_impl; [|exact F]. intros c [H1 H2]. apply negb_true_iff. unfold is_python_newline. destruct (mem c [10; 13]%N) eqn:M; [|reflexivity]. apply mem_In in M. cbn [In] in M. lia.
    - eapply not_before_impl; [|exact R]. cbn beta. intros c H. apply negb_true_iff in H. unfold is_python_newline in H. split; intros ->; discriminate H. }
  cbv zeta. rewrite E. apply wp_bind. destruct t as [|c t].
  - apply wp_ret. apply wp_ret. cbn iota. apply wp_ret. cbn [app length Nat.add tokens opt_piece rev]. reflexivity.
  - cbn [length Nat.eqb negb when]. apply wp_emit_exact; [cbn; rewrite app_length; lia|]. change (S (length t)) with (length (c :: t)). rewrite skipn_app_exact. apply wp_ret. cbn iota. apply wp_ret.
    cbn [opt_piece tokens rev app length]. f_equal; lia.
Qed.

Lemma py_digit_no p c s (Q : bool -> hst unit -> Prop) : (p = py_expect_comment \/ p = py_expect_string_literal \/ p = py_expect_identifier) -> digit c ->
  forall i o, Q false (mk_hst (c :: s) i o tt) -> wp p Q (mk_hst (c :: s) i o tt).
Proof.
  unfold digit. intros [->|[->| ->]] Hd i o H.
  - apply py_comment_no; [lia|exact H].
  - apply py_literal_no; [|exact H]. rewrite bash_no_identifier by (unfold ident_start, letter; lia). apply not_before_cons. unfold py_quote. lia.
  - apply py_identifier_no; [lia|unfold ident_start, letter; lia|exact H].
Qed.
Lemma py_do_number_pieces (d : N -> Prop) p I f e x rest : let n := number_pieces p I f e x in
  (exists c t, text n = c :: t /\ digit c) -> ~ d 95%N -> grouped d 95 I -> (forall f', f = Some f' -> f' = [] \/ grouped d 95 f') ->
  match e with Some (es, ed) => es <> [] /\ ed <> [] /\ Forall digit ed | None => True end ->
  match_common_number (text n ++ rest) python_number_options = Ok (mk_number (length p + length (text I) + length (frac_text f) + length (exp_text e) + length x)
    0 (length p) (length (text I)) (match f with None => 0 | Some _ => 1 end) (match f with None => 0 | Some f => length (text f) end)
    (match e with None => 0 | Some (e, _) => length e end) (match e with None => 0 | Some (_, d) => length d end) (length x) false) ->
  py_does n rest.
Proof.
  intros n (c & t & En & Hc) Hd GI GF GE HM i o. assert (LI : 0 < length (text I)) by (apply grouped_ne in GI; destruct (text I); [congruence|cbn; lia]).
  unfold py_token. rewrite En. cbn [app]. do 3 (apply wp_bind; apply py_digit_no; [tauto|exact Hc|]; cbn beta iota).
  change (c :: t ++ rest) with ((c :: t) ++ rest). rewrite <- En in *. apply wp_bind. unfold py_expect_number. apply wp_bind, wp_get_rem. cbn [rem]. apply wp_bind. eapply wp_lift; [exact HM|]. cbn [nr_length].
  match goal with |- context [?a =? 0] => rewrite (proj2 (Nat.eqb_neq a 0)) by lia end. apply wp_bind. unfold n. apply (highlight_sep_exact d); try assumption; try discriminate.
  2:{ right. exact GI. }
  - unfold digit. lia.
  - apply wp_ret. cbn iota. apply wp_ret. reflexivity.
Qed.
Lemma py_do_number n rest : py_number n -> not_before (fun c => ident_char c \/ c = ch ".") rest -> (rest = [] -> ~ exists a, text n = a ++ bs ".") -> py_does n rest.
Proof.
  intros Hn R Hend. assert (RS : not_before (number_stop python_number_options) rest).
  { eapply not_before_impl; [|exact R]. cbn beta. unfold number_stop. change (no_separator python_number_options) with 95%N. change (ch ".") with 46%N. unfold ident_char. tauto. }
  destruct Hn as [base I Hb G|I f e x G GF GE GX].
  - assert (HB : exists c t, text (number_pieces base I None None []) = c :: t /\ digit c).
    { rewrite number_pieces_text. cbn [In] in Hb. repeat (destruct Hb as [<-|Hb]; [exists 48%N; eexists; split; [reflexivity|unfold digit; lia]|]). contradiction. }
    assert (K : exists b, (forall c, is_ascii_digit_base c b = true <-> py_digits base c) /\ (forall c, py_digits base c -> ident_char c) /\ ~ py_digits base 95%N
      /\ forall t, number_base python_number_options (base ++ t) (no_prefixes python_number_options) = Ok (length base, false, b)).
    { cbn [In] in Hb. destruct Hb as [<-|[<-|[<-|[<-|[<-|[<-|[]]]]]]]; [exists 2%Z|exists 2%Z|exists 8%Z|exists 8%Z|exists 16%Z|exists 16%Z];
      (split; [first [exact digit_2|exact digit_8|exact digit_16]|]; split; [intros c; cbv beta iota delta [py_digits binary_digit octal_digit hex_digit bs]; cbn; unfold ident_char, letter, digit, binary_digit, octal_digit, hex_digit; lia|]; split; [cbn; unfold binary_digit, octal_digit, hex_digit; lia|]; intros t; reflexivity). }
    destruct K as (b & K1 & K2 & K3 & K4).
    apply (py_do_number_pieces (py_digits base)); try assumption; try discriminate; try exact I.
    + exact Logic.I.
    + rewrite number_pieces_text. cbn [frac_text exp_text app]. rewrite app_nil_r, <- app_assoc. cbn [length]. change (text I ++ rest) with (text I ++ [] ++ rest).
      apply (based_exact python_number_options base (py_digits base) false b I [] rest); try assumption; try reflexivity; try discriminate.
      * apply K4.
      * left. reflexivity.
  - destruct (grouped_second _ _ _ G) as (c & t & Ec & Hc & _).
    assert (GX' : good_suffix python_number_options x).
    { cbn [In] in GX. destruct GX as [<-|[<-|[<-|[]]]]; [left; reflexivity|right|right]; (split; [cbn; tauto|]; repeat split; try reflexivity; discriminate). }
    assert (GE' : forall es ed, e = Some (es, ed) -> In es (map fst (no_exponents python_number_options)) /\ fst (fst (number_exponent es (no_exponents python_number_options))) = length es /\ ed <> [] /\ Forall digit ed /\ es <> []).
    { intros es ed E. destruct (GE es ed E) as (H1 & H2 & H3). cbn [In] in H1. destruct H1 as [<-|[<-|[<-|[<-|[<-|[<-|[]]]]]]]; (split; [cbn; tauto|]; split; [vm_compute; reflexivity|]; split; [exact H2|]; split; [exact H3|discriminate]). }
    apply (py_do_number_pieces digit); try assumption.
    + exists c. rewrite number_pieces_text, Ec. cbn [app]. eauto.
    + unfold digit. lia.
    + destruct e as [[es ed]|]; [|exact Logic.I]. destruct (GE' es ed eq_refl) as (_ & _ & H1 & H2 & H3). auto.
    + rewrite number_pieces_text. cbn [app]. rewrite <- !app_assoc. apply decimal_exact; try assumption; try reflexivity; try discriminate.
      * unfold digit. cbn. lia.
      * intros f' ->. destruct (GF f' eq_refl) as [->|K]; [|right; exact K]. left. split; [reflexivity|]. split; [|reflexivity]. intros E. apply app_eq_nil in E as [E1 E2]. apply app_eq_nil in E2 as [E2 E3]. apply Hend; [exact E3|]. exists (text I). rewrite number_pieces_text. cbn [frac_text app]. rewrite E1, E2. reflexivity.
      * destruct e as [[es ed]|]; [|exact Logic.I]. destruct (GE' es ed eq_refl) as (H0 & H1 & H2 & H3 & _). split; auto.
      * intros (es & Hi & Hs). cbn in Hi. repeat (destruct Hi as [<-|Hi]; [discriminate Hs|]). contradiction.
Qed.

(** *** String literals *)
Definition py_kind (w : str) : py_prefix :=
  match (if length w =? 0 then Some py_unicode else classify_string_prefix w) with Some p => p | None => py_unicode end.
Definition py_case (c : N) : str := [c; c - 32]%N.
Definition py_cases (w : str) : list str := match w with [a] => map (fun a => [a]) (py_case a) | [a; b] => flat_map (fun a => map (fun b => [a; b]) (py_case b)) (py_case a) | _ => [w] end.
Lemma py_lower_case x c : py_lower x = c -> (97 <= c)%N -> In x (py_case c).
Proof. unfold py_lower, py_case. cbn [In]. destruct (_ && _) eqn:E; [|intros -> _; auto]. apply andb_true_iff in E. rewrite !N.leb_le in E. lia. Qed.
Lemma py_has_cases l w : py_has l w -> forallb (forallb (fun c => 97 <=? c)%N) l = true -> forallb (fun v => length v <=? 2) l = true -> In w (flat_map py_cases l).
Proof.
  unfold py_has. intros H F1 F2. rewrite forallb_forall in F1, F2. specialize (F1 _ H). specialize (F2 _ H). apply Nat.leb_le in F2. apply in_flat_map. exists (map py_lower w). split; [exact H|].
  destruct w as [|a [|b [|c w]]]; cbn [map py_cases forallb length] in *; try lia.
  - left. reflexivity.
  - apply andb_true_iff in F1 as [A _]. apply N.leb_le in A. apply (in_map (fun a => [a])). apply py_lower_case; auto.
  - apply andb_true_iff in F1 as [A B]. apply andb_true_iff in B as [B _]. apply N.leb_le in A, B. apply in_flat_map. exists a. split; [apply py_lower_case; auto|]. apply (in_map (fun b => [a; b])). apply py_lower_case; auto.
Qed.
Definition py_hasb (l : list str) (w : str) : bool := existsb (str_eqb (map py_lower w)) l.
Lemma py_hasb_iff l w : py_hasb l w = true <-> py_has l w.
Proof.
  unfold py_hasb, py_has. rewrite existsb_exists. split.
  - intros (x & H & E). apply str_eqb_eq in E. rewrite E. exact H.
  - intros H. exists (map py_lower w). split; [exact H|apply str_eqb_refl].
Qed.
(** What the prefix table says *)
Definition py_prefix_good (w : str) : bool :=
  existsb (str_eqb w) py_unknown_prefixes
  || ((str_eqb w [] || in_table py_prefixes w) && eqb (py_is_raw (py_kind w)) (py_hasb py_raw_prefixes w)
      && eqb (py_is_byte (py_kind w)) (py_hasb py_byte_prefixes w) && (str_eqb w [] || identb w)).
Lemma py_prefixes_good : forallb py_prefix_good (flat_map py_cases py_all_prefixes) = true.
Proof. vm_compute. reflexivity. Qed.
Lemma py_classified w : in_table py_prefixes w = true -> classify_string_prefix w <> None.
Proof. exact (in_table_some py_prefixes w). Qed.
Lemma py_prefix_good_spec w : py_prefix_good w = true -> ~ In w py_unknown_prefixes -> (w = [] \/ classify_string_prefix w <> None) /\ py_is_raw (py_kind w) = py_hasb py_raw_prefixes w
  /\ py_is_byte (py_kind w) = py_hasb py_byte_prefixes w /\ (w = [] \/ identifier w).
Proof.
  unfold py_prefix_good. intros F Hu. apply orb_true_iff in F as [F|F].
  { apply existsb_exists in F as (v & F1 & F2). apply str_eqb_eq in F2. subst v. elim Hu. exact F1. }
  apply andb_true_iff in F as [F FD]. apply andb_true_iff in F as [F FC]. apply andb_true_iff in F as [F FB]. split; [|split; [|split]].
  - apply orb_true_iff in F as [F|F]; [left; apply str_eqb_eq; exact F|right]. exact (py_classified w F).
  - apply eqb_prop. exact FB.
  - apply eqb_prop. exact FC.
  - apply orb_true_iff in FD as [F1|F1]; [left; apply str_eqb_eq; exact F1|right; apply identb_iff; exact F1].
Qed.
Lemma py_prefixes_lower : forallb (forallb (fun c => 97 <=? c)%N) py_all_prefixes = true /\ forallb (fun v => length v <=? 2) py_all_prefixes = true.
Proof. split; vm_compute; reflexivity. Qed.
Lemma py_prefix_ok w : py_has py_all_prefixes w -> ~ In w py_unknown_prefixes -> (w = [] \/ classify_string_prefix w <> None) /\ py_is_raw (py_kind w) = py_hasb py_raw_prefixes w
  /\ py_is_byte (py_kind w) = py_hasb py_byte_prefixes w /\ (w = [] \/ identifier w).
Proof.
  intros H Hu. apply py_prefix_good_spec; [|exact Hu]. pose proof py_prefixes_good as F. rewrite forallb_forall in F. apply F. destruct py_prefixes_lower as [A B]. apply py_has_cases; assumption.
Qed.

Lemma py_escape_exact w e rest : py_escape w e rest -> py_is_byte (py_kind w) = py_hasb py_byte_prefixes w -> py_match_escape_sequence (e ++ rest) (py_kind w) = Ok (mk_escape (length e) false) /\ exists t, e = 92%N :: t.
Proof.
  intros H HB.
  assert (NB : ~ py_has py_byte_prefixes w -> py_is_byte (py_kind w) = false) by (intros K; rewrite HB; destruct (py_hasb py_byte_prefixes w) eqn:E; [apply py_hasb_iff in E; contradiction|reflexivity]).
  destruct H as [nl rest Hn|c rest Hc|d rest Hd|d rest Hd|d rest Hp Hd|d rest Hp Hd|d rest Hp Hd]; (split; [|eexists; reflexivity]).
  - pose proof (escape_at lf_cr_crlf [92%N] nl rest (escape_newline nl rest Hn)) as E. cbn [app length] in *.
    assert (Hh : exists c t, nl ++ rest = c :: t /\ mem c [13; 10]%N = true) by (destruct Hn as [->|[->|[-> _]]]; eexists _, _; (split; [reflexivity|reflexivity])).
    destruct Hh as (c & t & Eh & Hc). rewrite Eh in *. unfold py_match_escape_sequence. change (negb (92 =? 92)%N) with false. rewrite Hc. cbv iota. rewrite E. f_equal. f_equal. lia.
  - change (34%N :: bs "\'abfnrtv") with [34; 92; 39; 97; 98; 102; 110; 114; 116; 118]%N in Hc. cbn [In] in Hc. cbn [app]. repeat (destruct Hc as [<-|Hc]; [reflexivity|]). contradiction.
  - pose proof (escape_at octal_3 [92%N] d rest (escape_octal_3 d rest Hd)) as E. destruct Hd as [L F]. destruct d as [|c d]; [discriminate L|]. apply Forall_cons_iff in F as [Fc F]. unfold octal_digit in Fc. cbn [app length] in *. unfold py_match_escape_sequence. change (negb (92 =? 92)%N) with false.
    assert (M : mem c [13; 10]%N = false) by (destruct (mem c [13; 10]%N) eqn:M; [apply mem_In in M; cbn [In] in M; lia|reflexivity]). rewrite M. unfold between. rewrite (proj2 (N.leb_le 48 c)), (proj2 (N.leb_le c 55)) by lia. cbn [andb]. cbv iota. rewrite E. f_equal. f_equal. lia.
  - pose proof (escape_at hex_2 (bs "\x") d rest (escape_hex hex_2 2 d rest ltac:(auto) Hd)) as E. rewrite app_length. change (bs "\x") with [92; 120]%N in *. cbn [app length] in *. unfold py_match_escape_sequence. change (mem 120 [13; 10]%N) with false. change (between 48 55 120) with false. change (120 =? ch "x")%N with true. change (negb (92 =? 92)%N) with false. cbv iota. rewrite E. f_equal. f_equal. lia.
  - pose proof (escape_at hex_4 (bs "\u") d rest (escape_hex hex_4 4 d rest ltac:(auto) Hd)) as E. rewrite app_length. change (bs "\u") with [92; 117]%N in *. cbn [app length] in *. unfold py_match_escape_sequence. change (mem 117 [13; 10]%N) with false. change (between 48 55 117) with false. change (117 =? ch "x")%N with false. change (117 =? ch "N")%N with false. change (117 =? ch "u")%N with true. change (negb (92 =? 92)%N) with false. cbv iota zeta. rewrite E. cbn [bind es_length es_erroneous]. rewrite NB by assumption. f_equal. f_equal. lia.
  - pose proof (escape_at hex_8 (bs "\U") d rest (escape_hex hex_8 8 d rest ltac:(auto) Hd)) as E. rewrite app_length. change (bs "\U") with [92; 85]%N in *. cbn [app length] in *. unfold py_match_escape_sequence. change (mem 85 [13; 10]%N) with false. change (between 48 55 85) with false. change (85 =? ch "x")%N with false. change (85 =? ch "N")%N with false. change (85 =? ch "u")%N with false. change (85 =? ch "U")%N with true. change (negb (92 =? 92)%N) with false. cbv iota zeta. rewrite E. cbn [bind es_length es_erroneous]. rewrite NB by assumption. f_equal. f_equal. lia.
  - pose proof (escape_at nonempty_braced (bs "\N") (123%N :: d ++ [125%N]) rest (escape_named d rest Hd)) as E. change (bs "\N{" ++ d ++ bs "}") with (bs "\N" ++ (123%N :: d ++ [125%N])). rewrite app_length, <- app_assoc. change (bs "\N") with [92; 78]%N in *. cbn [app length] in *. unfold py_match_escape_sequence. change (mem 78 [13; 10]%N) with false. change (between 48 55 78) with false. change (78 =? ch "x")%N with false. change (78 =? ch "N")%N with true. change (negb (92 =? 92)%N) with false. cbv iota zeta. rewrite E. cbn [bind es_length es_erroneous]. rewrite NB by assumption. f_equal. f_equal. lia.
Qed.

Section body.
Variables (w delim : str) (q : N) (close : list piece) (rest : str).
Hypothesis Hq : q = 34%N \/ q = 39%N.
Hypothesis Hdelim : delim = [q] \/ delim = [q; q; q].
Hypothesis Hraw : py_is_raw (py_kind w) = py_hasb py_raw_prefixes w.
Hypothesis Hbyte : py_is_byte (py_kind w) = py_hasb py_byte_prefixes w.
Hypothesis Hclose : py_closing delim close rest.
Let long := negb (length delim =? 1).

Lemma delim_head : exists t, delim = q :: t.
Proof. destruct Hdelim as [->| ->]; eauto. Qed.
Lemma no_delim_other c t : c <> q -> starts_with (c :: t) delim = false.
Proof. intros H. destruct delim_head as [d ->]. cbn [starts_with]. rewrite (proj2 (N.eqb_neq c q) H). reflexivity. Qed.
Definition py_end (i : nat) (o : list out_op) (_ : unit) (st' : hst unit) : Prop :=
  st' = mk_hst rest (i + length (text close)) (rev (tokens i close) ++ o) tt.
Lemma flush_exact {B} run r i o (k : unit -> M unit B) Q : wp (k tt) Q (mk_hst r (i + length run) (rev (tokens i (opt_piece run hl_string)) ++ o) tt) ->
  wp (bindM (when (negb (length run =? 0)) (emit_and_advance (length run) hl_string)) k) Q (mk_hst (run ++ r) i o tt).
Proof.
  intros H. apply wp_bind. destruct run as [|c run]; cbn [length Nat.eqb negb when].
  - apply wp_ret. cbn in H. rewrite Nat.add_0_r in H. exact H.
  - apply wp_emit_exact; [cbn; rewrite app_length; lia|]. change (S (length run)) with (length (c :: run)). rewrite skipn_app_exact. exact H.
Qed.
Lemma py_string_scan l i o : string_body hl_string (py_plain delim) (py_item w) (text close ++ rest) true l ->
  wp (hloop 1 (py_string_body (py_kind w) delim long) 0) (fun b st' => py_end (i + length (text l)) (rev (tokens i l) ++ o) b st') (mk_hst (text l ++ text close ++ rest) i o tt).
Proof.
  assert (Hitem : forall p r, py_item w p r -> exists t, text p = 92%N :: t).
  { intros p r [c r' _ _|e r' _ He]; rewrite text_one; [eauto|]. destruct (py_escape_exact _ _ _ He Hbyte) as [_ [t ->]]. eauto. }
  apply (scan_body tt (py_string_body (py_kind w) delim long) hl_string (py_plain delim) (py_item w) (text close ++ rest) py_end).
  - intros p r Hp. destruct (Hitem p r Hp) as [t ->]. discriminate.
  - intros run r len j o1 (P1 & P2 & P3) L. unfold py_string_body. apply wp_bind, wp_get_rem. cbn [rem]. rewrite (proj2 (Nat.ltb_lt len (length (run ++ r)))) by (rewrite app_length; lia). cbn [negb].
    apply wp_bind. apply wp_substr_from; [rewrite app_length; lia|].
    destruct (skipn len run) as [|c t] eqn:Es; [apply (f_equal (@length N)) in Es; rewrite skipn_length in Es; cbn in Es; lia|].
    assert (Er : run = firstn len run ++ c :: t) by (rewrite <- Es; symmetry; apply firstn_skipn).
    assert (E0 : skipn len (run ++ r) = c :: t ++ r) by (rewrite skipn_app, Es; replace (len - length run) with 0 by lia; reflexivity).
    assert (E1 : starts_with (skipn len (run ++ r)) delim = false).
    { rewrite E0. destruct (starts_with (c :: t ++ r) delim) eqn:E; [|reflexivity]. apply starts_with_app in E as [v E]. exfalso. apply (P3 (firstn len run) (c :: t) v); [exact Er|discriminate|exact E]. }
    rewrite E1. apply wp_bind. apply (wp_at_is _ _ c).
    { rewrite <- (Nat.add_0_r len), <- nth_error_skipn, E0. reflexivity. }
    assert (Nc : c <> 92%N) by (intros ->; apply P1; rewrite Er; apply in_or_app; right; left; reflexivity). rewrite (proj2 (N.eqb_neq c 92) Nc).
    assert (Nl : negb long && mem c [10; 13]%N = false).
    { unfold long. destruct (Nat.eqb_spec (length delim) 1) as [E|]; [|reflexivity]. cbn [negb andb]. specialize (P2 E). rewrite Er in P2. apply Forall_app in P2 as [_ P2]. apply Forall_cons_iff in P2 as [[P2 P2'] _].
      destruct (mem c [10; 13]%N) eqn:M; [apply mem_In in M; cbn [In] in M; lia|reflexivity]. }
    rewrite Nl. apply wp_ret. auto.
  - intros run p r j o1 Hrun Hp. destruct (Hitem p r Hp) as [tp Etp]. unfold py_string_body. apply wp_bind, wp_get_rem. cbn [rem].
    rewrite (proj2 (Nat.ltb_lt (length run) _)) by (rewrite !app_length, Etp; cbn; lia). cbn [negb]. apply wp_bind. apply wp_substr_from; [rewrite app_length; lia|]. rewrite skipn_app_exact.
    assert (E1 : starts_with (text p ++ r) delim = false) by (rewrite Etp; apply no_delim_other; lia). rewrite E1. apply wp_bind. apply (wp_at_is _ _ 92%N).
    { rewrite Etp. rewrite nth_error_app2, Nat.sub_diag by lia. reflexivity. }
    cbn [N.eqb Pos.eqb]. apply flush_exact. apply wp_bind, wp_get_rem. cbn [rem]. apply wp_bind.
    destruct Hp as [c r Hr Hc|e r Hr He]; rewrite text_one in *; rewrite Hraw.
    + apply py_hasb_iff in Hr. rewrite Hr. apply wp_bind. apply wp_substr_from; [cbn; lia|]. cbn [skipn app]. apply wp_bind. eapply wp_lift; [apply decode_ascii; exact Hc|]. cbn [snd Nat.add Nat.eqb negb]. rewrite andb_false_r.
      apply wp_emit_exact; [cbn; lia|]. cbn [skipn]. apply wp_ret. split; [reflexivity|]. rewrite tokens_app, rev_app_distr, <- app_assoc, opt_piece_text. cbn [tokens rev app length]. reflexivity.
    + assert (Hr' : py_hasb py_raw_prefixes w = false) by (destruct (py_hasb py_raw_prefixes w) eqn:E; [apply py_hasb_iff in E; contradiction|reflexivity]). rewrite Hr'.
      destruct (py_escape_exact _ _ _ He Hbyte) as [EE [te ->]]. apply wp_bind. eapply wp_lift; [exact EE|]. cbn [es_length es_erroneous length Nat.eqb negb]. apply wp_emit_exact; [cbn; rewrite app_length; lia|].
      change (S (length te)) with (length (92%N :: te)). rewrite skipn_app_exact. apply wp_ret. split; [reflexivity|]. rewrite tokens_app, rev_app_distr, <- app_assoc, opt_piece_text. cbn [tokens rev app]. reflexivity.
  - intros run j o1 Hrun. unfold py_string_body. apply wp_bind, wp_get_rem. cbn [rem]. unfold py_end. pose proof delim_head as DH. pose proof no_delim_other as NO. destruct Hclose as [rest'| |c rest' Hd Hc].
    + rewrite text_one. assert (Ld : 0 < length delim) by (destruct DH as [d ->]; cbn; lia). rewrite (proj2 (Nat.ltb_lt (length run) _)) by (rewrite !app_length; lia). cbn [negb]. apply wp_bind. apply wp_substr_from; [rewrite app_length; lia|]. rewrite skipn_app_exact.
      rewrite (proj2 (starts_with_app _ _)) by eauto. apply flush_exact. apply wp_bind. apply wp_emit_exact; [rewrite app_length; lia|]. rewrite skipn_app_exact. apply wp_ret. reflexivity.
    + change (text []) with (@nil N). cbn [app]. rewrite (proj2 (Nat.ltb_ge (length run) _)) by (rewrite app_length; cbn; lia). cbn [negb]. apply flush_exact. apply wp_ret. cbn [length tokens rev app]. rewrite Nat.add_0_r. reflexivity.
    + change (text []) with (@nil N). cbn [app]. rewrite (proj2 (Nat.ltb_lt (length run) _)) by (rewrite !app_length; cbn; lia). cbn [negb]. apply wp_bind. apply wp_substr_from; [rewrite app_length; lia|]. rewrite skipn_app_exact.
      rewrite NO by (destruct Hq; lia). apply wp_bind. apply (wp_at_is _ _ c).
      { rewrite nth_error_app2, Nat.sub_diag by lia. reflexivity. }
      rewrite (proj2 (N.eqb_neq c 92)) by lia. assert (E : negb long && mem c [10; 13]%N = true) by (unfold long; rewrite Hd; destruct Hc as [->| ->]; reflexivity). rewrite E.
      apply flush_exact. apply wp_ret. cbn [length tokens rev app]. rewrite Nat.add_0_r. reflexivity.
Qed.
End body.

Lemma opt_emit_exact h h' w r i o (Q : unit -> hst unit -> Prop) : (w = [] \/ h' = h) ->
  Q tt (mk_hst r (i + length w) (rev (tokens i (opt_piece w h)) ++ o) tt) ->
  wp (when (negb (length w =? 0)) (emit_and_advance (length w) h')) Q (mk_hst (w ++ r) i o tt).
Proof.
  intros Hw HQ. destruct w as [|a w].
  - apply wp_ret. cbn [length opt_piece tokens rev app] in HQ. rewrite Nat.add_0_r in HQ. exact HQ.
  - destruct Hw as [Hw|Hw]; [discriminate|]. subst h'. cbn [length Nat.eqb negb when]. apply wp_emit_exact; [cbn [length app]; rewrite app_length; lia|]. change (S (length w)) with (length (a :: w)). rewrite skipn_app_exact. exact HQ.
Qed.
Lemma py_decor w r i o (Q : unit -> hst unit -> Prop) : (w = [] \/ classify_string_prefix w <> None) ->
  Q tt (mk_hst r (i + length w) (rev (tokens i (opt_piece w hl_string_decor)) ++ o) tt) ->
  wp (when (negb (length w =? 0)) (emit_and_advance (length w) (match (if length w =? 0 then Some py_unicode else classify_string_prefix w) with None => hl_error | Some _ => hl_string_decor end))) Q (mk_hst (w ++ r) i o tt).
Proof.
  generalize (classify_string_prefix w) as p. intros p Hp HQ. apply (opt_emit_exact hl_string_decor); [|exact HQ]. destruct Hp as [->|Hp]; [left; reflexivity|right].
  destruct (length w =? 0); [reflexivity|]. destruct p; [reflexivity|congruence].
Qed.
Lemma py_do_string w p rest : py_has py_all_prefixes w -> ~ In w py_unknown_prefixes -> py_string w p rest -> py_does p rest.
Proof.
  intros Hw Hu [delim body close rest' Hdelim Hclose Hbody Hlong] i o. destruct (py_prefix_ok w Hw Hu) as (P1 & P2 & P3 & P4). rename rest' into r.
  assert (HD : exists q, (q = 34%N \/ q = 39%N) /\ (delim = [q] \/ delim = [q; q; q])).
  { unfold py_delims in Hdelim. cbn [In] in Hdelim. destruct Hdelim as [<-|[<-|[<-|[<-|[]]]]]; [exists 34%N|exists 39%N|exists 34%N|exists 39%N]; auto. }
  destruct HD as (q & Hq & Hd). assert (Edt : exists dt, delim = q :: dt) by (destruct Hd as [->| ->]; eauto). destruct Edt as [dt Edt].
  rewrite !text_app, opt_piece_text, text_one, <- !app_assoc. set (tl := text body ++ text close ++ r).
  assert (Hws : exists c t, w ++ delim ++ tl = c :: t /\ c <> 35%N).
  { destruct P4 as [->|(c & t & -> & Hc & _)]; [rewrite Edt; cbn [app]; eexists _, _; split; [reflexivity|]; lia|]. cbn [app]. eexists _, _. split; [reflexivity|]. unfold ident_start, letter in Hc. lia. }
  destruct Hws as (c & t & Ews & Hc). unfold py_token. rewrite Ews. apply wp_bind. apply py_comment_no; [exact Hc|]. cbn beta iota. rewrite <- Ews.
  assert (Nid : not_before ident_char (delim ++ tl)) by (rewrite Edt; apply not_before_cons; unfold ident_char, letter, digit; lia).
  assert (Bid : bash_match_identifier (w ++ delim ++ tl) = length w).
  { destruct P4 as [->|P4]; [|apply bash_identifier_exact; assumption]. cbn [app length]. rewrite Edt. cbn [app]. apply bash_no_identifier. unfold ident_start, letter. lia. }
  apply wp_bind. unfold py_expect_string_literal. apply wp_bind, wp_get_rem. cbn [rem]. apply wp_bind. apply wp_eof; cbn [rem]; intros Ee; [rewrite Ews in Ee; discriminate|]. rewrite Bid. apply wp_bind. apply wp_substr_from; [rewrite app_length; lia|]. rewrite skipn_app_exact, firstn_app_exact.
  assert (Eq : negb (starts_with_ch (delim ++ tl) 39) && negb (starts_with_ch (delim ++ tl) 34) = false) by (rewrite Edt; destruct Hq as [->| ->]; reflexivity). cbv zeta. rewrite Eq.
  fold (py_kind w). apply wp_bind. apply py_decor; [exact P1|].
  apply wp_bind. unfold py_consume_string. apply wp_bind, wp_get_rem. cbn [rem].
  assert (Q1 : starts_with_ch (delim ++ tl) 39 || starts_with_ch (delim ++ tl) 34 = true) by (rewrite Edt; destruct Hq as [->| ->]; reflexivity). apply wp_bind, wp_check; [exact Q1|].
  assert (Q2 : (if starts_with_ch (delim ++ tl) 39 then 39%N else 34%N) = q) by (rewrite Edt; destruct Hq as [->| ->]; reflexivity). rewrite Q2.
  assert (Q3 : starts_with (delim ++ tl) [q; q; q] = negb (length delim =? 1)).
  { destruct Hd as [->| ->].
    - cbn [length Nat.eqb negb]. destruct (starts_with ([q] ++ tl) [q; q; q]) eqn:E; [|reflexivity]. apply starts_with_app in E as [v E]. cbn [app] in E. injection E as E. exfalso. apply (Hlong eq_refl v). exact E.
    - apply starts_with_app. eauto. }
  cbv zeta. rewrite Q3. assert (Q4 : (if negb (length delim =? 1) then [q; q; q] else [q]) = delim) by (destruct Hd as [->| ->]; reflexivity). rewrite Q4.
  apply wp_bind, wp_check; [apply starts_with_app; eauto|]. apply wp_bind. apply wp_emit_exact; [rewrite app_length, Edt; cbn; lia|]. rewrite skipn_app_exact.
  eapply wp_mono; [apply (py_string_scan w delim q close r Hq Hd P2 P3 Hclose body); exact Hbody|]. cbn beta. unfold py_end. intros [] st' ->. apply wp_ret. cbn iota. apply wp_ret.
  rewrite !tokens_app, !rev_app_distr, opt_piece_text, text_one. cbn [tokens app rev length]. rewrite <- !app_assoc, !app_length. cbn [app length]. rewrite !Nat.add_assoc. reflexivity.
Qed.

(** ** C83 *)
Lemma py_lexeme_does p r : py_lexeme p r -> py_does p r.
Proof.
  intros [t rest H1 H2|w h rest H1 H2|w rest H1 H2 H3|t h rest H1 H2 H3|n rest H1 H2 H3|w p' rest H1 H2 H3].
  - apply py_do_comment; assumption.
  - destruct (word_hit _ _ _ _ py_words_ok H1) as [E Hw]. apply py_do_word; [exact Hw|unfold python_token_by_code; rewrite E; reflexivity|exact H2].
  - apply py_do_word; [exact H1| |exact H3]. unfold python_token_by_code. rewrite (word_miss _ _ _ py_words_ok H1 H2). reflexivity.
  - apply py_do_symbol; assumption.
  - apply py_do_number; assumption.
  - eapply py_do_string; eassumption.
Qed.
Lemma py_ident_head w : identifier w -> exists c t, w = c :: t /\ ~ py_space c.
Proof. intros (c & t & -> & Hc & _). exists c, t. split; [reflexivity|]. unfold ident_start, letter in Hc. unfold py_space. cbn [In]. lia. Qed.
Lemma py_lexeme_head p r : py_lexeme p r -> exists c t, text p = c :: t /\ ~ py_space c.
Proof.
  intros [t rest H1 H2|w h rest H1 H2|w rest H1 H2 H3|t h rest H1 H2 H3|n rest H1 H2 H3|w p' rest H1 H2 H3].
  - rewrite text_cons. exists 35%N. eexists. split; [reflexivity|]. unfold py_space. cbn [In]. lia.
  - rewrite text_one. apply py_ident_head. apply (word_hit _ _ _ _ py_words_ok H1).
  - rewrite text_one. apply py_ident_head. exact H1.
  - rewrite text_one. assert (F : forallb (fun e => match fst e with [] => false | c :: _ => (32 <? c)%N end) py_symbols = true) by (vm_compute; reflexivity).
    rewrite forallb_forall in F. specialize (F _ H1). cbn [fst] in F. destruct t as [|c t]; [discriminate|]. apply N.ltb_lt in F. exists c, t. split; [reflexivity|]. unfold py_space. cbn [In]. lia.
  - destruct H1 as [base I Hb G|I f e x G GF GE GX]; rewrite number_pieces_text.
    + exists 48%N. cbn [In] in Hb. repeat (destruct Hb as [<-|Hb]; [eexists; split; [reflexivity|unfold py_space; cbn [In]; lia]|]). contradiction.
    + destruct (grouped_second _ _ _ G) as (c & t & -> & Hc & _). exists c. eexists. split; [reflexivity|]. unfold digit in Hc. unfold py_space. cbn [In]. lia.
  - destruct (py_prefix_ok w H1 H2) as (_ & _ & _ & P4). destruct H3 as [delim body close r0 Hd _ _ _]. rewrite !text_app, opt_piece_text, text_one. destruct P4 as [->|P4].
    + cbn [app]. unfold py_delims in Hd. cbn [In] in Hd. destruct Hd as [<-|[<-|[<-|[<-|[]]]]]; eexists _, _; (split; [reflexivity|]; unfold py_space; cbn [In]; lia).
    + destruct (py_ident_head w P4) as (c & t & -> & Hc). cbn [app]. eauto.
Qed.
Theorem C83_python_lexemes l : program py_space py_lexeme l -> tokenizes highlight_python l.
Proof.
  intros H strict. unfold highlight_python. apply (token_loop_exact tt is_python_whitespace py_space py_lexeme py_token).
  - intros c. unfold is_python_whitespace. rewrite mem_In. unfold py_space. cbn [In]. tauto.
  - exact py_lexeme_head.
  - intros p r i o Hp. apply py_lexeme_does. exact Hp.
  - exact H.
Qed.
Print Assumptions C83_python_lexemes.
(** Some of everything *)
Example C83_case : exists l, program py_space py_lexeme l /\ 15 < length l
  /\ text l = bs "x1=0xf_F if rb'a\'' else (1_0.5e-3j)#c".
Proof.
  pose (l9 := [(bs "#", Some hl_comment_delim); (bs "c", Some hl_comment)] ++ []).
  pose (l8 := [(bs ")", Some hl_symbol_parens)] ++ l9).
  pose (l7 := number_pieces [] [(bs "1", Some hl_number); (bs "_", Some hl_number_delim); (bs "0", Some hl_number)] (Some [(bs "5", Some hl_number)]) (Some (bs "e-", bs "3")) (bs "j") ++ l8).
  pose (l6 := (bs " ", None) :: [(bs "(", Some hl_symbol_parens)] ++ l7).
  pose (l5 := (bs " ", None) :: [(bs "else", Some hl_keyword_control)] ++ l6).
  pose (l4 := (bs " ", None) :: (opt_piece (bs "rb") hl_string_decor ++ [(bs "'", Some hl_string_delim)] ++ [(bs "a", Some hl_string); (bs "\'", Some hl_string)] ++ [(bs "'", Some hl_string_delim)]) ++ l5).
  pose (l3 := (bs " ", None) :: [(bs "if", Some hl_keyword_control)] ++ l4).
  pose (l2 := number_pieces (bs "0x") [(bs "f", Some hl_number); (bs "_", Some hl_number_delim); (bs "F", Some hl_number)] None None [] ++ l3).
  exists ([(bs "x1", Some hl_name)] ++ [(bs "=", Some hl_symbol_punc)] ++ l2).
  split; [|split; [cbn; lia|reflexivity]].
  apply program_lexeme.
  { apply py_name.
    - apply identb_iff. reflexivity.
    - intros h H. apply (word_hit _ _ _ _ py_words_ok) in H as [H _]. vm_compute in H. discriminate.
    - nb. }
  apply program_lexeme.
  { apply py_symbol; [vm_compute; tauto| |discriminate]. sym_longest. }
  unfold l2. apply program_lexeme.
  { apply py_num.
    - apply py_based; [cbn; tauto|]. change (py_digits (bs "0x")) with hex_digit. apply grouped_more; [discriminate|fa|]. apply grouped_one; [discriminate|fa].
    - nb.
    - discriminate. }
  unfold l3. apply program_space; [repeat constructor|]. apply program_lexeme.
  { apply py_word; [vm_compute; tauto|]. nb. }
  unfold l4. apply program_space; [repeat constructor|]. apply program_lexeme.
  { apply (py_str (bs "rb")); [vm_compute; tauto|cbn; intuition discriminate|]. apply py_string_literal; [cbn; tauto|apply py_closed| |].
    - apply (string_text hl_string _ _ _ (bs "a") [(bs "\'", Some hl_string)]).
      + discriminate.
      + split; [cbn; intuition discriminate|]. split; [intros _; fa|]. intros a b t E Hb E2. destruct a as [|? [|? ?]]; cbn in E; [subst b; discriminate E2| |discriminate E]. injection E as _ E. subst b. congruence.
      + apply (string_item hl_string _ _ _ _ [(bs "\'", Some hl_string)] []); [|apply string_end]. apply py_item_raw; [vm_compute; tauto|]. cbn. lia.
    - intros _ t. cbn. discriminate. }
  unfold l5. apply program_space; [repeat constructor|]. apply program_lexeme.
  { apply py_word; [vm_compute; tauto|]. nb. }
  unfold l6. apply program_space; [repeat constructor|]. apply program_lexeme.
  { apply py_symbol; [vm_compute; tauto| |discriminate]. sym_longest. }
  unfold l7. apply program_lexeme.
  { apply py_num.
    - apply py_decimal.
      + apply grouped_more; [discriminate|fa|]. apply grouped_one; [discriminate|fa].
      + intros f [= <-]. right. apply grouped_one; [discriminate|fa].
      + intros e d [= <- <-]. split; [cbn; tauto|]. split; [discriminate|fa].
      + cbn. tauto.
    - nb.
    - discriminate. }
  unfold l8. apply program_lexeme.
  { apply py_symbol; [vm_compute; tauto| |discriminate]. sym_longest. }
  unfold l9. apply program_lexeme; [|apply program_end]. apply (py_comment (bs "c")); [fa|apply not_before_nil].
Qed.

(** ** C84: every string prefix of Python is accepted. It is not: u is missing. *)
Theorem C84_prefixes_refuted : ~ (forall w p, py_has py_all_prefixes w -> py_string w p [] -> tokenizes highlight_python p).
Proof.
  intros H. specialize (H (bs "u") [(bs "u", Some hl_string_decor); (bs "'", Some hl_string_delim); (bs "'", Some hl_string_delim)]).
  enough (K : tokenizes highlight_python [(bs "u", Some hl_string_decor); (bs "'", Some hl_string_delim); (bs "'", Some hl_string_delim)]) by (specialize (K false); vm_compute in K; discriminate K).
  apply H; [vm_compute; tauto|]. apply (py_string_literal (bs "u") (bs "'") [] [(bs "'", Some hl_string_delim)] []); [cbn; tauto|apply py_closed|apply string_end|]. intros _ t. discriminate.
Qed.
Theorem C84_prefixes_partial w p : py_has py_all_prefixes w -> ~ In w py_unknown_prefixes -> py_string w p [] -> tokenizes highlight_python p.
Proof.
  intros H1 H2 H3. apply C83_python_lexemes. rewrite <- (app_nil_r p). apply program_lexeme; [|apply program_end]. apply (py_str w); assumption.
Qed.
Print Assumptions C84_prefixes_refuted.
Print Assumptions C84_prefixes_partial.
Example C84_case : py_has py_all_prefixes (bs "Br") /\ ~ In (bs "Br") py_unknown_prefixes.
Proof. split; [vm_compute; tauto|]. cbn. intuition discriminate. Qed.

(** ** C85: numbers *)
Theorem C85_numbers_refuted : ~ (forall n, py_any_number n -> tokenizes highlight_python n).
Proof.
  intros H. enough (K : tokenizes highlight_python (number_pieces [] [] (Some [(bs "5", Some hl_number)]) None [])) by (specialize (K false); vm_compute in K; discriminate K).
  apply H. apply py_point; [|discriminate|cbn; tauto]. apply grouped_one; [discriminate|fa].
Qed.
(** The same number is highlighted differently at the end of the text. *)
Theorem C85_end_refuted : ~ (forall n, py_number n -> tokenizes highlight_python n)
  /\ py_number (number_pieces [] [(bs "1", Some hl_number)] (Some []) None []) /\ tokenizes highlight_python (number_pieces [] [(bs "1", Some hl_number)] (Some []) None [] ++ [(bs " ", None)])
  /\ ~ tokenizes highlight_python (number_pieces [] [(bs "1", Some hl_number)] (Some []) None []).
Proof.
  assert (P : py_number (number_pieces [] [(bs "1", Some hl_number)] (Some []) None [])).
  { apply py_decimal; [apply grouped_one; [discriminate|fa]|intros f [= <-]; auto|discriminate|cbn; tauto]. }
  assert (K : ~ tokenizes highlight_python (number_pieces [] [(bs "1", Some hl_number)] (Some []) None [])) by (intros K; specialize (K false); vm_compute in K; discriminate K).
  split; [auto|]. split; [exact P|]. split; [intros strict; vm_compute; reflexivity|exact K].
Qed.
Theorem C85_numbers_partial n : py_number n -> ~ (exists a, text n = a ++ bs ".") -> tokenizes highlight_python n.
Proof.
  intros H1 H2. apply C83_python_lexemes. rewrite <- (app_nil_r n). apply program_lexeme; [|apply program_end]. apply py_num; [exact H1|apply not_before_nil|intros _; exact H2].
Qed.
Print Assumptions C85_numbers_refuted.
Print Assumptions C85_end_refuted.
Print Assumptions C85_numbers_partial.

(** ** C86: octal escapes *)
Theorem C86_octal_refuted : ~ (forall d, d <> [] -> length d <= 3 -> Forall octal_digit d -> tokenizes highlight_python (py_octal_literal d)).
Proof.
  intros H. specialize (H (bs "0") ltac:(discriminate) ltac:(cbn; lia) ltac:(fa) false). vm_compute in H. discriminate H.
Qed.
Theorem C86_octal_partial d : length d = 3 -> Forall octal_digit d -> tokenizes highlight_python (py_octal_literal d).
Proof.
  intros L F. apply C83_python_lexemes. rewrite <- (app_nil_r (py_octal_literal d)). apply program_lexeme; [|apply program_end]. apply (py_str []); [vm_compute; tauto|cbn; intuition discriminate|].
  apply (py_string_literal [] (bs "'") [(92%N :: d, Some hl_string_escape)] [(bs "'", Some hl_string_delim)] []); [cbn; tauto|apply py_closed| |].
  - apply (string_item hl_string _ _ _ _ [(92%N :: d, Some hl_string_escape)] []); [|apply string_end]. apply py_item_escape; [|apply py_esc_octal; split; assumption]. vm_compute. intuition discriminate.
  - intros _ t. cbn. discriminate.
Qed.
Print Assumptions C86_octal_refuted.
Print Assumptions C86_octal_partial.
Example C86_case : length (bs "101") = 3 /\ Forall octal_digit (bs "101").
Proof. split; [reflexivity|fa]. Qed.
Example C85_case : exists n, py_number n /\ text n = bs "0b1" /\ ~ (exists a, text n = a ++ bs ".").
Proof.
  exists (number_pieces (bs "0b") [(bs "1", Some hl_number)] None None []). split; [|split; [reflexivity|]].
  - apply py_based; [cbn; tauto|]. apply grouped_one; [discriminate|fa].
  - intros [a E]. apply (f_equal (@rev N)) in E. rewrite rev_app_distr in E. discriminate E.
Qed.
