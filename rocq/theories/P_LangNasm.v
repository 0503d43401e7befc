(** * Properties of the NASM highlighter *)
From Coq Require Import List NArith ZArith Bool Arith Lia.
From Verif Require Import M_Base L_Base S_Tokens M_Emit S_Ops L_Emit M_Types M_Chars S_Chars P_Chars M_Parse S_Parse L_Parse P_Parse M_Lang L_Lang
  M_Api M_Highlighter S_Highlight L_Highlighter P_LangCpp L_Auto S_Lexemes L_Lexemes L_Number L_Number2 L_Symbols L_Escapes L_Scan L_Comments S_States L_States M_LangNasm S_LangNasm.
Import ListNotations.

Definition nasm_gap (c : N) : Prop := In c [32; 9; 13; 10]%N.
Lemma nasm_options : good_options nasm_number_options.
Proof. split; [left; reflexivity|]. split; [repeat constructor; discriminate|]. discriminate. Qed.
#[local] Hint Resolve nasm_options : good_opts.

(** ** The matchers *)
Lemma nasm_suffix_number_sizes s n : match_suffix_number s nasm_determine_suffix 95 = n -> sn_digits n <> 0 -> sn_suffix n = 1 /\ sn_digits n + 1 <= length s.
Proof.
  intros <-. unfold match_suffix_number. pose proof (length_if_le s (fun c => (95 =? 0)%N || (c =? 95)%N || is_ascii_alphanumeric c)) as L.
  set (len := length_if s _) in *. clearbody len. destruct (Nat.leb_spec len 1) as [|H1]; [cbn; congruence|]. destruct (nasm_determine_suffix _) as [k base] eqn:E.
  assert (K : k = 0 \/ k = 1).
  { unfold nasm_determine_suffix in E. destruct (rev (firstn len s)) as [|c t]; [injection E; auto|]. destruct (nasm_base_of_suffix c <=? 0)%Z; injection E; auto. }
  destruct ((k =? 0) || (len =? k)) eqn:E2; [cbn; congruence|]. rewrite orb_false_iff, !Nat.eqb_neq in E2. destruct (_ && _); [cbn; congruence|]. cbn [sn_digits sn_suffix]. intros _. lia.
Qed.
Lemma nasm_escape_ok s : exists e, nasm_match_escape s = Ok e /\ es_length e <= length s.
Proof.
  unfold nasm_match_escape. destruct (Nat.ltb_spec (length s) 2) as [|L]; cbn [orb]; [eexists; split; [reflexivity|cbn; lia]|]. destruct (negb _); [eexists; split; [reflexivity|cbn; lia]|].
  repeat match goal with |- context [if ?b then _ else _] => destruct b end; try (eexists; split; [reflexivity|cbn; lia]);
    match goal with |- exists e, match_common_escape_at ?k s 2 = _ /\ _ => destruct (common_escape_at_ok k s 2 L) as (e & E & B); exists e; split; [exact E|lia] end.
Qed.
Lemma nasm_operator_le s : nasm_match_operator s <= length s.
Proof.
  unfold nasm_match_operator. destruct s as [|c s]; [cbn; lia|].
  repeat match goal with |- context [if ?b then _ else _] => let E := fresh "E" in destruct b eqn:E end; try (cbn; lia);
    match goal with E : starts_with (c :: s) ?w = true |- ?n <= _ => apply starts_with_len in E; exact E end.
Qed.
Lemma nasm_identifier_pos c s : is_nasm_identifier_start c = true -> 0 < nasm_match_identifier (c :: s).
Proof. intros H. unfold nasm_match_identifier. rewrite length_if_head_tail_eq, H. lia. Qed.

(** ** C110 *)
Lemma nasm_comment_ok st : starts_with_ch (rem st) (ch ";") = true -> wp nasm_consume_comment (fun _ st' => exists k, steps nasm_gap k st st' /\ 0 < k) st.
Proof.
  intros Hc. begin_steps nasm_gap st. unfold nasm_consume_comment. go1. go1. go1. go1. go1. go1. go1. go1.
  pose proof (match_crlf_line_le (rem st')) as L. pose proof (crlf_line_term (rem st') nasm_gap) as T. cbv zeta. go1. go1. go1.
  go1; [match goal with E : rem ?s = skipn _ _ |- context [rem ?s] => rewrite E end; apply T; cbn; auto|]. go. fin.
Qed.
Lemma nasm_macro_ok st : starts_with_ch (rem st) (ch "%") = true -> wp nasm_consume_macro (fun _ st' => exists k, steps nasm_gap k st st' /\ 0 < k) st.
Proof.
  intros Hc. begin_steps nasm_gap st. unfold nasm_consume_macro. go1. go1. go1. go1. go1. go1.
  pose proof (match_crlf_line_le (skipn 1 (rem st))) as L. pose proof (crlf_line_term (skipn 1 (rem st)) nasm_gap) as T. rewrite skipn_length in L. cbv zeta. go1. go1. go1.
  go1; [match goal with Hs : steps _ (S _) st ?s |- context [rem ?s] => rewrite (steps_rem _ _ _ _ Hs) | Hs : steps _ (_ + 1) st ?s |- context [rem ?s] => rewrite (steps_rem _ _ _ _ Hs) end; rewrite skipn_skipn in T; rewrite Nat.add_comm; apply T; cbn; auto|]. go. fin.
Qed.
Lemma nasm_ident_ok st c : nth_error (rem st) 0 = Some c -> is_nasm_identifier_start c = true -> wp nasm_consume_identifier (fun _ st' => exists k, steps nasm_gap k st st' /\ 0 < k) st.
Proof.
  intros Hc Hi. begin_steps nasm_gap st. unfold nasm_consume_identifier. destruct (at_0 _ _ Hc) as [t Et].
  pose proof (length_if_head_tail_le (rem st) is_nasm_identifier_start is_nasm_identifier) as L. fold (nasm_match_identifier (rem st)) in L.
  assert (L0 : 0 < nasm_match_identifier (rem st)) by (rewrite Et; apply nasm_identifier_pos; exact Hi).
  go; fin.
Qed.
Lemma nasm_common_ok st : wp nasm_expect_common_number (attempt nasm_gap st) st.
Proof. begin_steps nasm_gap st. unfold nasm_expect_common_number. go; fin. Qed.
Lemma nasm_suffixed_ok st : wp nasm_expect_suffixed_number (attempt nasm_gap st) st.
Proof.
  begin_steps nasm_gap st. unfold nasm_expect_suffixed_number. go1. go1. cbv beta zeta.
  pose proof (nasm_suffix_number_sizes (rem st) _ eq_refl) as Z. set (n := match_suffix_number _ _ _) in *. clearbody n. apply wp_if; intros E0; [apply wp_ret; fin|].
  rewrite Nat.eqb_neq in E0. specialize (Z E0). destruct Z as [Z1 Z2]. rewrite Z1. assert (L : length (firstn (sn_digits n + 1) (rem st)) = sn_digits n + 1) by (rewrite firstn_length; lia). rewrite L.
  assert (L2 : length (firstn (sn_digits n) (rem st)) = sn_digits n) by (rewrite firstn_length; lia).
  go1; [go; fin|]. go1; [go; fin|]. go1; [go; fin|]. go1. apply (wp_highlight_digits nasm_gap); [discriminate|lia|]. intros st1 S1 _. try fuse. go; fin.
Qed.
Lemma nasm_number_ok st : wp nasm_expect_number (attempt nasm_gap st) st.
Proof.
  begin_steps nasm_gap st. unfold nasm_expect_number. go1. go1. go1; [go; fin|]. go1. attempt_ nasm_suffixed_ok; go; [fin|]. apply nasm_common_ok.
Qed.
Lemma nasm_common_digit st c : nth_error (rem st) 0 = Some c -> is_ascii_digit c = true ->
  wp nasm_expect_common_number (fun b st' => b = true /\ exists k, steps nasm_gap k st st' /\ 0 < k) st.
Proof.
  intros Hc D. begin_steps nasm_gap st. unfold nasm_expect_common_number. go.
  - exfalso. eapply (at_0_number _ _ nasm_number_options); try eassumption; try (cbn; lia). hlia.
  - split; [reflexivity|]. fin.
Qed.
Lemma nasm_number_digit st c : nth_error (rem st) 0 = Some c -> is_ascii_digit c = true ->
  wp nasm_expect_number (fun b st' => b = true /\ exists k, steps nasm_gap k st st' /\ 0 < k) st.
Proof.
  intros Hc D. begin_steps nasm_gap st. unfold nasm_expect_number. go1. go1. destruct (at_0 _ _ Hc) as [t Et].
  go1; [exfalso; rewrite Et in *; cbn [starts_with_ch] in *; match goal with E : (c =? 95)%N = true |- _ => apply N.eqb_eq in E; subst c end; discriminate D|].
  go1. attempt_ nasm_suffixed_ok; go; [split; [reflexivity|fin]|]. eapply nasm_common_digit; eassumption.
Qed.
Lemma nasm_expect_escape_ok st : wp nasm_expect_escape (attempt nasm_gap st) st.
Proof.
  begin_steps nasm_gap st. unfold nasm_expect_escape. go1. go1. go1. destruct (nasm_escape_ok (rem st)) as (e & E & B). eapply wp_lift; [exact E|]. go; fin.
Qed.
Lemma nasm_string_ok st q : starts_with_ch (rem st) q = true -> wp (nasm_consume_string q) (fun _ st' => exists k, steps nasm_gap k st st' /\ 0 < k) st.
Proof.
  intros Hc. begin_steps nasm_gap st. unfold nasm_consume_string. go1. go1. go1. go1. go1. go1. apply wp_if; intros Hq.
  - unfold nasm_verbatim_content. go1. go1. go1. pose proof (length_if_not_le (rem st') (fun c => (c =? 10)%N || (c =? 13)%N || (c =? q)%N)) as L. cbv zeta. go; fin.
  - unfold nasm_backquote_content. eapply wp_mono; [apply (wp_scan nasm_gap 1 nasm_backquote_body 0 (fun _ _ _ => True)); [lia|lia|]|].
    2:{ cbn beta. intros _ st2 (k & ? & _). fuse. fin. }
    intros a k st1 Hs La _. clear H H0 Hc Hq. unfold nasm_backquote_body. go1. go1. cbv zeta. go1; [go; fin|]. go1. go1. go1; [go; fin|]. go1; [go; fin|]. go1; [|go; fin].
    go1. go1. go1. attempt_ nasm_expect_escape_ok; go; fin.
Qed.

Lemma nasm_anything_ok st : rem st <> [] -> wp nasm_consume_anything (fun _ st' => exists k, steps nasm_gap k st st' /\ 0 < k) st.
Proof.
  intros Hne. begin_steps nasm_gap st. unfold nasm_consume_anything. go1. go1. go1. go1.
  go1. { go1; [eapply gap_one; [eassumption|]; match goal with M : mem _ _ = true |- _ => apply mem_In in M; cbn in *; tauto end|]. fin. }
  go1. { go1. go1. go1; [match goal with E : rem _ = rem st |- _ => rewrite E end; eapply gap_one; [eassumption|]; match goal with M : mem _ _ = true |- _ => apply mem_In in M; cbn in *; tauto end|]. fin. }
  go1. { go1. eapply wp_mono; [eapply nasm_number_digit; eassumption|]. cbn beta. intros b st' (-> & k & Hk & K). go. fin. }
  go1. { apply nasm_string_ok. eapply at_0_is; [eassumption|]. apply N.eqb_refl. }
  go1. { go. fin. }
  go1. { go. fin. }
  go1. { go. fin. }
  go1. { go. fin. }
  go1. { apply nasm_comment_ok. eapply at_0_is; eassumption. }
  go1. { apply nasm_macro_ok. eapply at_0_is; eassumption. }
  cbv zeta. pose proof (nasm_operator_le (rem st)) as L. go1; [go; fin|]. go1. attempt_ nasm_number_ok; go; try fin. eapply nasm_ident_ok; eassumption.
Qed.

Theorem C110_nasm : always_highlights_except (fun c => In c [32; 9; 13; 10]%N) highlight_nasm.
Proof.
  apply always_except_from_ops. intros src strict. apply (run_ok_all (fun c => In c [32; 9; 13; 10]%N)).
  apply wp_bind. eapply wp_mono; [apply (while_rem_all nasm_gap); apply nasm_anything_ok|]. cbn beta. intros [] st' H. apply wp_ret. split; [reflexivity|]. exact H.
Qed.
Print Assumptions C110_nasm.
Example C110_case : exists ops, highlight_nasm (bs "go: mov rax, [rbx+8] ; copy") false = Ok (true, ops) /\ 8 < length ops.
Proof. eexists. split; [vm_compute; reflexivity|]. cbn [length]. lia. Qed.
