(** * Properties of whole calls with the real table of highlighters (C138). *)
From Coq Require Import List NArith ZArith Bool Arith Lia.
From Verif Require Import M_Base L_Base M_Buffer L_Buffer M_Chars S_Chars P_Chars S_Tokens M_Emit L_Emit M_Types S_Html M_Html L_Html M_Lang M_Api S_Api L_Api
  S_Ops S_Utf8 L_Wf8 S_Highlight M_LangSmall M_Json M_LangHtml S_LangHtml P_LangHtml M_LangCpp P_LangCpp M_LangCss P_LangCss M_LangLlvm P_LangLlvm
  M_LangBash P_LangBash M_LangPython P_LangPython M_LangJava P_LangJava M_LangKotlin P_LangKotlin M_LangRust P_LangRust
  M_LangNasm P_LangNasm M_LangXml P_LangXml M_LangCowel P_LangCowel M_LangMarkdown S_LangMarkdown P_LangMarkdown
  M_LangYaml S_LangYaml P_LangYaml M_LangJs S_LangJs P_LangJs P_LangSmall P_Json M_Languages S_Languages M_Utf8 M_Highlighter L_Highlighter.
Import ListNotations.

Lemma wf8_before s : wf8 s -> forall p c r, s = p ++ c :: r -> (c < 128)%N -> wf8 p.
Proof.
  induction 1 as [|x t r H1 H2 H3 IH]; intros p c u E Hc; [destruct p; discriminate|].
  destruct p as [|y p]; [constructor|]. cbn in E. injection E as -> E.
  destruct (Nat.lt_ge_cases (length p) (length t)) as [L|L].
  - exfalso. assert (X : nth_error (p ++ c :: u) (length p) = Some c) by (rewrite nth_error_app2, Nat.sub_diag by lia; reflexivity).
    rewrite <- E, nth_error_app1 in X by exact L. apply nth_error_In in X. rewrite Forall_forall in H2. specialize (H2 _ X). cbn beta in H2. lia.
  - assert (Ep : exists q, p = t ++ q /\ r = q ++ c :: u).
    { exists (skipn (length t) p). assert (Ef : firstn (length t) p = t).
      { apply (f_equal (firstn (length t))) in E. rewrite firstn_app_exact, firstn_app in E.
        replace (length t - length p) with 0 in E by lia. rewrite app_nil_r in E. symmetry. exact E. }
      split; [rewrite <- Ef at 1; symmetry; apply firstn_skipn|].
      apply (f_equal (skipn (length t))) in E. rewrite skipn_app_exact, skipn_app in E.
      replace (length t - length p) with 0 in E by lia. exact E. }
    destruct Ep as (q & -> & Eq). constructor; [exact H1|exact H2|]. eapply IH; eassumption.
Qed.

(** A document with no script: the style sheets are all in UTF-8. *)
Lemma html_ok src : html_document src -> highlights (highlight_html highlight_javascript highlight_css) src.
Proof.
  intros (G & V & N1 & N2). apply C39_html_partial; [exact G| |].
  - intros piece (x & n & y & b & E & En & _). exfalso. apply N2. exists x, n, (y ++ bs ">" ++ piece ++ b). split; [exact E|]. rewrite En. reflexivity.
  - intros piece (x & n & y & b & E & En & Hb). apply css_in_order. apply valid_wf8 in V.
    assert (W : wf8 (piece ++ b)).
    { rewrite E in V. rewrite !app_assoc in V. rewrite <- !app_assoc in V.
      replace (x ++ bs "<" ++ n ++ y ++ bs ">" ++ piece ++ b) with ((x ++ bs "<" ++ n ++ y) ++ ch ">" :: piece ++ b) in V
        by (rewrite <- !app_assoc; reflexivity).
      set (p := x ++ bs "<" ++ n ++ y) in *. pose proof (wf8_after _ (length p) (ch ">") V) as X.
      replace (length p + 1) with (length (p ++ [ch ">"])) in X by (rewrite app_length; reflexivity).
      replace (p ++ ch ">" :: piece ++ b) with ((p ++ [ch ">"]) ++ piece ++ b) in X by (rewrite <- app_assoc; reflexivity).
      rewrite skipn_app_exact in X. apply X; [|reflexivity].
      rewrite <- app_assoc. rewrite nth_error_app2, Nat.sub_diag by lia. reflexivity. }
    destruct Hb as [->|[(b' & ->)|Hb]].
    + rewrite app_nil_r in W. exact W.
    + eapply wf8_before; [exact W|reflexivity|reflexivity].
    + exfalso. apply N1. rewrite E. replace (x ++ bs "<" ++ n ++ y ++ bs ">" ++ piece ++ b) with ((x ++ bs "<" ++ n ++ y ++ bs ">") ++ piece ++ b)
        by (rewrite <- !app_assoc; reflexivity). apply longer_close_app. exact Hb.
Qed.

Lemma always_one h src : always_highlights h -> highlights h src.
Proof. intros H strict coal cap. apply H. Qed.
Lemma except_one gap h src : always_highlights_except gap h -> highlights h src.
Proof. intros H strict coal cap Hc. destruct (H src strict coal cap Hc) as (ops & ch & A & B & C & _). eauto. Qed.
Lemma diff_one src : highlights highlight_diff src.
Proof.
  apply highlights_from_ops. intros strict. unfold highlight_diff, run.
  destruct (diff_run_lines src (1 * length src + 1) 0 [] ltac:(lia)) as (lines & D & E).
  destruct (diff_lines_ops _ _ _ D) as (_ & D2 & _). exists (flat_map line_op lines). split; [|exact D2].
  unfold bindM at 1. unfold while_rem, hloop. cbn [rem]. rewrite E. cbn [ret rops].
  rewrite app_nil_r, rev_involutive. reflexivity.
Qed.

Lemma accepted_highlights debug lang src : accepted debug lang src ->
  exists h, highlight_functions debug lang = Some h /\ highlights h src.
Proof.
  intros H. unfold accepted in H.
  repeat match type of H with _ \/ _ => destruct H as [H|H] end.
  - unfold total_languages in H. cbn [In] in H. repeat (destruct H as [<-|H]; [eexists; split; [reflexivity|]|]); [..|destruct H].
    + eapply except_one, C78_bash. + apply always_one, C127_cowel. + apply diff_one. + eapply except_one, C38_ebnf.
    + eapply except_one, C87_java. + apply always_one, C35_json_highlight. + apply always_one, C35_jsonc_highlight. + eapply except_one, C93_kotlin.
    + apply always_one, C36_tex. + eapply except_one, C75_llvm. + eapply except_one, C110_nasm. + eapply except_one, C82_python.
    + apply always_one, C36_tex. + apply always_one, C36_txt. + apply always_one, C120_xml.
  - destruct H as [[<-|[<-|[<-|[]]]] V]; (eexists; split; [reflexivity|]).
    + apply (C61_cpp_utf8_partial false). exact V. + apply (C61_cpp_utf8_partial true). exact V. + apply C67_css_partial. exact V.
  - destruct H as (-> & A & B). eexists; split; [reflexivity|]. apply C40_javascript_partial; assumption.
  - destruct H as (-> & A). eexists; split; [reflexivity|]. apply C40_typescript_partial; assumption.
  - destruct H as (-> & A). eexists; split; [reflexivity|]. apply C132_markdown_partial; assumption.
  - destruct H as (-> & -> & A). eexists; split; [reflexivity|]. intros strict coal cap Hc.
    destruct (C99_rust_partial src strict coal cap A Hc) as (ops & ch & X & Y & Z & _). eauto.
  - destruct H as (-> & A). eexists; split; [reflexivity|]. apply C137_yaml_partial; assumption.
  - destruct H as (-> & A). eexists; split; [reflexivity|]. apply html_ok; assumption.
Qed.

Lemma accepted_lang debug lang src : accepted debug lang src -> (1 <= lang < LANG_COUNT)%N.
Proof.
  intros H. unfold accepted in H. repeat match type of H with _ \/ _ => destruct H as [H|H] end.
  - unfold total_languages in H. cbn [In] in H. repeat (destruct H as [<-|H]; [split; vm_compute; congruence|]). destruct H.
  - destruct H as [[<-|[<-|[<-|[]]]] V]; split; vm_compute; congruence.
  - destruct H as (-> & _). split; vm_compute; congruence.
  - destruct H as (-> & _). split; vm_compute; congruence.
  - destruct H as (-> & _). split; vm_compute; congruence.
  - destruct H as (-> & _). split; vm_compute; congruence.
  - destruct H as (-> & _). split; vm_compute; congruence.
  - destruct H as (-> & _). split; vm_compute; congruence.
Qed.

(** ** C138 *)
Theorem C138_source_to_tokens_partial : forall bld st src,
  tokens_ready st -> has_source st src -> accepted (debug bld) (u_lang st) src ->
  exists cs, source_to_tokens bld (highlight_functions (debug bld)) st = Ok (STATUS_OK, st, Some cs)
    /\ well_formed (length src) (concat cs)
    /\ Forall (fun c => 0 < length c <= u_token_buffer_length st) cs.
Proof.
  intros bld st src R S A. destruct (accepted_highlights _ _ _ A) as (h & Eh & H).
  assert (Hc : 0 < u_token_buffer_length st) by (destruct R as (_ & _ & R & _); lia).
  destruct (H (opt_strict (u_flags st)) (opt_coalescing (u_flags st)) _ Hc) as (ops & chunks & E & O & W).
  destruct (token_output_Ok _ _ _ _ _ O) as [_ B]. rewrite (token_output_tokens _ _ _ _ _ O) in W.
  destruct (tokens_run_gen bld (highlight_functions (debug bld)) st src h true ops R S (accepted_lang _ _ _ A) Eh E B W) as (cs & X1 & _ & _ & X2 & X3).
  exists cs. auto.
Qed.
Print Assumptions C138_source_to_tokens_partial.

Theorem C138_source_to_html_partial : forall bld st src tag attr,
  html_ready st -> u_token_buffer st <> None -> u_token_buffer_length st <> 0 -> has_source st src ->
  has_text (u_html_tag_name st) (u_html_tag_name_length st) tag ->
  has_text (u_html_attr_name st) (u_html_attr_name_length st) attr ->
  ~ In (ch ">") tag -> ~ In (ch ">") attr -> accepted (debug bld) (u_lang st) src ->
  exists st' out, source_to_html bld (highlight_functions (debug bld)) st = Ok (STATUS_OK, st', Some out)
    /\ html_text false (concat out) = Some src
    /\ html_doc tag attr (fun id => exists t, id = short_string t) (concat out)
    /\ Forall (fun c => 0 < length c <= u_text_buffer_length st) out.
Proof.
  intros bld st src tag attr R T1 T2 S N1 N2 G1 G2 A. destruct (accepted_highlights _ _ _ A) as (h & Eh & H).
  assert (Hc : 0 < u_token_buffer_length st) by lia.
  destruct (H (opt_strict (u_flags st)) (opt_coalescing (u_flags st)) _ Hc) as (ops & chunks & E & O & W).
  destruct (token_output_Ok _ _ _ _ _ O) as [_ B]. rewrite (token_output_tokens _ _ _ _ _ O) in W.
  destruct (html_run_gen bld (highlight_functions (debug bld)) st src tag attr h ops R T1 T2 S N1 N2 (accepted_lang _ _ _ A) Eh E B W) as (st' & out & X1 & X2 & X3).
  exists st', out. split; [exact X1|]. rewrite X2. split; [apply page_text; assumption|].
  split; [|exact X3]. eapply html_doc_mono; [|apply page_doc]. intros id (t & _ & ->). eauto.
Qed.
Print Assumptions C138_source_to_html_partial.

(** Concrete states: a style sheet in an HTML document, with a buffer for two tokens *)
Definition page_source : str := bs "<p class=a>x<b></p><style>b{c:1}</style>".
Definition page_state : ustate :=
  set_lang (on_flush_text (set_text_buffer (on_flush_tokens (set_token_buffer
    (set_source ulight_init page_source) (Some 1) 2) None (Some 3)) (Some 4) 5) None (Some 6)) LANG_HTML.
Lemma page_text_ascii : valid_utf8 page_source.
Proof. exists page_source. split; [unfold page_source; repeat constructor; unfold scalar_value; cbn; lia|vm_compute; reflexivity]. Qed.
Lemma suffixes_checked (p : str -> bool) (s : str) : forallb p (map (fun k => skipn k s) (seq 0 (S (length s)))) = true ->
  forall a b, s = a ++ b -> p b = true.
Proof.
  intros H a b E. rewrite forallb_forall in H. apply H. apply in_map_iff. exists (length a). split.
  - rewrite E. apply skipn_app_exact.
  - apply in_seq. rewrite E, app_length. lia.
Qed.
Example C138_case : tokens_ready page_state /\ html_ready page_state /\ has_source page_state page_source
  /\ accepted true (u_lang page_state) page_source
  /\ exists cs st' out, source_to_tokens (mk_build true true) (highlight_functions true) page_state = Ok (STATUS_OK, page_state, Some cs)
       /\ length cs = 12
       /\ source_to_html (mk_build true true) (highlight_functions true) page_state = Ok (STATUS_OK, st', Some out).
Proof.
  split; [|split; [|split; [|split]]].
  - repeat split; discriminate.
  - repeat split; discriminate.
  - right. exists page_source. split; [reflexivity|]. split; [vm_compute; lia|]. vm_compute. reflexivity.
  - do 7 right. split; [reflexivity|]. split; [|split; [apply page_text_ascii|split]].
    + right. exists (removelast page_source), (ch ">"). split; [vm_compute; reflexivity|]. split; [discriminate|]. left. right. left. reflexivity.
    + intros (a & m & x & r & E & Em & Hx).
      pose proof (suffixes_checked (fun b => negb (starts_with_ignore_case b (bs "</style")) || mem (nth 7 b 0%N) (bs ">")) page_source ltac:(vm_compute; reflexivity) a _ E) as X.
      apply orb_true_iff in X as [X|X].
      * apply negb_true_iff in X. assert (Y : starts_with_ignore_case (bs "</" ++ m ++ x :: r) (bs "</style") = true); [|congruence].
        apply starts_with_ignore_case_spec. exists (bs "</" ++ m), (x :: r). split; [now rewrite <- app_assoc|]. rewrite map_app, Em. reflexivity.
      * assert (L : length m = 5) by (apply (f_equal (@length _)) in Em; rewrite !map_length in Em; exact Em).
        do 6 (destruct m as [|? m]; try discriminate L). change (mem x [ch ">"] = true) in X. apply mem_In in X as [X|[]]. apply Hx. auto.
    + intros (a & m & b & E & Em).
      pose proof (suffixes_checked (fun b => negb (starts_with_ignore_case b (bs "<script"))) page_source ltac:(vm_compute; reflexivity) a _ E) as X.
      apply negb_true_iff in X. assert (Y : starts_with_ignore_case (bs "<" ++ m ++ b) (bs "<script") = true); [|congruence].
      apply starts_with_ignore_case_spec. exists (bs "<" ++ m), b. split; [now rewrite <- app_assoc|]. rewrite map_app, Em. reflexivity.
  - eexists _, _, _. split; [vm_compute; reflexivity|]. split; vm_compute; reflexivity.
Qed.

(** Not every source is highlighted: with debug assertions there is an internal error, without them the behavior is undefined. *)
Theorem C138_refuted : forall st, tokens_ready st -> has_source st (bs "'\x'") -> u_lang st = LANG_TYPESCRIPT ->
  (exists st', source_to_tokens (mk_build true true) (highlight_functions true) st = Ok (STATUS_INTERNAL_ERROR, st', None))
  /\ source_to_tokens (mk_build true false) (highlight_functions false) st = Fail FUB.
Proof.
  intros st R S L. unfold source_to_tokens. rewrite (precheck_lang st R), L.
  change ((LANG_TYPESCRIPT =? LANG_NONE)%N || (Z.of_N LANG_COUNT <? to_int LANG_TYPESCRIPT)%Z) with false. cbv iota.
  unfold tokens_body. rewrite (has_source_view _ _ S), L. cbn [bind].
  destruct (u_token_buffer_length st) as [|n] eqn:E; [destruct R as (_ & _ & R & _); congruence|]. cbn [new_buffer Nat.eqb bind].
  assert (X : forall d strict, highlight (highlight_functions d) (LANG_TYPESCRIPT mod 256)%N (bs "'\x'") strict = Fail FDebugAssert).
  { intros d strict. change (bs "'\x'") with (39%N :: bs "\x" ++ 39%N :: []). 
    pose proof (C40_refuted typescript 39%N [] strict (or_intror eq_refl)) as Y. set (s := 39%N :: bs "\x" ++ [39%N]) in *. clearbody s.
    change (highlight (highlight_functions d) (LANG_TYPESCRIPT mod 256)%N s strict) with
      (let* r := js_highlight typescript s strict in Ok (if fst r then STATUS_OK else STATUS_BAD_CODE, snd r)).
    rewrite Y. reflexivity. }
  split.
  - destruct (new_buffer (Datatypes.S n)) as [bf|] eqn:Eb; [|discriminate Eb]. cbn [bind]. rewrite X. cbn. eauto.
  - destruct (new_buffer (Datatypes.S n)) as [bf|] eqn:Eb; [|discriminate Eb]. cbn [bind]. rewrite X. reflexivity.
Qed.
Print Assumptions C138_refuted.
