(** * Statuses and error texts over histories *)
From Coq Require Import List NArith ZArith Bool Arith Lia.
From Verif Require Import M_Base L_Base S_Utf8 L_Wf8 M_Buffer S_Tokens M_Highlighter M_Emit M_Types M_Html M_Lang M_Api S_Api M_LangSmall M_Languages M_Session S_Session S_ErrorText.
From Verif Require Import M_Json M_LangHtml M_LangCpp M_LangCss M_LangLlvm M_LangBash M_LangPython M_LangJava M_LangKotlin M_LangRust M_LangNasm M_LangXml M_LangCowel M_LangMarkdown M_LangYaml M_LangJs.
Import ListNotations.

Lemma ret_true_post {S A} (m : M S A) st b st' : (m ;; ret true)%hl st = Ok (b, st') -> b = true.
Proof. unfold bindM, ret. destruct (m st) as [[x s]|]; [|discriminate]. intros [= <- _]. reflexivity. Qed.
Lemma bind_post {S A} (m : M S A) (k : A -> M S bool) : (forall x st b st', k x st = Ok (b, st') -> b = true) -> forall st b st', bindM m k st = Ok (b, st') -> b = true.
Proof. intros H st b st'. unfold bindM. destruct (m st) as [[x s]|]; [apply H|discriminate]. Qed.
Lemma run_post {S} (init : S) (m : M S bool) : (forall st b st', m st = Ok (b, st') -> b = true) -> forall src b ops, run init m src = Ok (b, ops) -> b = true.
Proof. intros H src b ops. unfold run. destruct (m _) as [[x s]|] eqn:E; [|discriminate]. intros [= <- _]. exact (H _ _ _ E). Qed.
Lemma iter_post {S A} (body : A -> M S (A + bool)) : (forall a st b st', body a st = Ok (inr b, st') -> b = true) ->
  forall n a st b st', iter n body a st = Ok (b, st') -> b = true.
Proof.
  intros H n. induction n as [|n IH]; intros a st b st'; cbn [iter]; [discriminate|]. unfold bindM.
  destruct (body a st) as [[[x|x] s]|] eqn:E; [apply IH| |discriminate]. intros [= <- _]. exact (H _ _ _ _ E).
Qed.
Lemma tex_post a st b st' : tex_body a st = Ok (inr b, st') -> b = true.
Proof.
  unfold tex_body, bindM, ret, get_rem. repeat match goal with
  | |- context [if ?c then _ else _] => destruct c
  | |- match ?x with Ok _ => _ | Fail _ => _ end = _ -> _ => destruct x as [[? ?]|]; try discriminate
  end; cbn; try discriminate; try (intros [= <- _]; reflexivity).
Qed.
(** Every highlighter of the table reports success, whatever the text. *)
Lemma table_succeeds dbg l h src strict ok ops : highlight_functions dbg l = Some h -> h src strict = Ok (ok, ops) -> ok = true.
Proof.
  unfold highlight_functions. repeat match goal with |- context [if ?c then _ else _] => destruct c end; try discriminate;
  intros [= <-]; unfold highlight_bash, highlight_c, highlight_cowel, highlight_cpp, highlight_c_or_cpp, highlight_css, highlight_diff, highlight_ebnf, highlight_html,
    highlight_java, highlight_javascript, highlight_typescript, js_highlight, highlight_json, highlight_jsonc, json_main, highlight_kotlin, highlight_latex, highlight_tex,
    highlight_llvm, highlight_markdown, highlight_nasm, highlight_python, highlight_rust, highlight_txt, highlight_xml, highlight_yaml;
  try (apply run_post; repeat (apply bind_post; intros ?); unfold ret; intros ? ? ? [= <- _]; reflexivity).
  - apply run_post. unfold hloop. intros st b st'. apply iter_post, tex_post.
  - apply run_post. unfold hloop. intros st b st'. apply iter_post, tex_post.
  - intros [= <- _]. reflexivity.
Qed.

Definition succeeds (table : N -> option highlighter) : Prop := forall l h src strict ok ops, table l = Some h -> h src strict = Ok (ok, ops) -> ok = true.
Definition reported (status : N) (st st' : ustate) : Prop :=
  (status = STATUS_OK /\ u_error st' = u_error st /\ u_error_length st' = u_error_length st)
  \/ (status <> STATUS_OK /\ exists text, u_error st' = Some text /\ u_error_length st' = length text /\ text_fits status text).
Lemma precheck_fits st s t : tokens_precheck st = Some (s, t) -> s <> STATUS_OK /\ text_fits s t.
Proof.
  unfold tokens_precheck, text_fits.
  repeat match goal with |- (if ?c then _ else _) = _ -> _ => destruct c; [intros [= <- <-]; split; [discriminate|cbn [In]; tauto]|] end. discriminate.
Qed.
Lemma html_precheck_fits st s t : html_precheck st = Some (s, t) -> s <> STATUS_OK /\ text_fits s t.
Proof.
  unfold html_precheck, text_fits.
  repeat match goal with |- (if ?c then _ else _) = _ -> _ => destruct c; [intros [= <- <-]; split; [discriminate|cbn [In]; tauto]|] end. discriminate.
Qed.
Lemma caught_fits bld st0 st f s st' : caught bld st f = Ok (s, st') -> reported s st0 st'.
Proof.
  unfold caught. destruct f, (with_exceptions bld), (debug bld); cbn; intros [= <- <-]; right; (split; [discriminate|]); eexists; (split; [reflexivity|]); (split; [reflexivity|]);
    unfold text_fits; tauto.
Qed.
Lemma tokens_reported bld table st status st' o : succeeds table -> source_to_tokens bld table st = Ok (status, st', o) -> reported status st st'.
Proof.
  intros Hs. unfold source_to_tokens. destruct (tokens_precheck st) as [[s t]|] eqn:P.
  - intros [= <- <- _]. destruct (precheck_fits _ _ _ P) as [N F]. right. split; [exact N|]. exists t. auto.
  - destruct (tokens_body table st) as [[s cs]|f] eqn:B.
    + intros [= <- <- _]. left. split; [|auto]. revert B. unfold tokens_body. cbn.
      destruct (view _ _) as [src|]; [|discriminate]. cbn. destruct (new_buffer _) as [b|]; [|discriminate]. cbn. unfold highlight.
      destruct (_ <=? _)%N; cbn.
      * discriminate.
      * destruct (table _) as [h|] eqn:T; cbn; [|discriminate].
        destruct (h src _) as [[ok ops]|] eqn:H; cbn; [|discriminate]. rewrite (Hs _ _ _ _ _ _ T H). destruct (replay _ _ _ _); cbn; [|discriminate].
        intros [= <- _]. reflexivity.
    + destruct (caught bld st f) as [[s a]|] eqn:C; [|discriminate]. cbn. intros [= <- <- _]. eapply caught_fits, C.
Qed.
Lemma html_reported bld table st status st' o : succeeds table -> source_to_html bld table st = Ok (status, st', o) -> reported status st st'.
Proof.
  intros Hs. unfold source_to_html. destruct (html_precheck st) as [[s t]|] eqn:P.
  - intros [= <- <- _]. destruct (html_precheck_fits _ _ _ P) as [N F]. right. split; [exact N|]. exists t. auto.
  - destruct (source_to_tokens bld table _) as [[[s a] [cs|]]|] eqn:T; [| |discriminate].
    + apply (tokens_reported bld table _ _ _ _ Hs) in T. cbn beta iota zeta. unfold bind.
      destruct (view _ _) as [src|]; [|discriminate]. cbn.
      destruct (match cs with [] => _ | _ => _ end) as [tag|]; [|discriminate].
      destruct (match cs with [] => _ | _ => _ end) as [attr|]; [|discriminate].
      destruct (new_buffer _) as [out|]; [|discriminate].
      destruct (render_chunks _ _ _ _ _) as [x|f].
      * destruct (s =? STATUS_OK)%N eqn:E; cbn [negb].
        -- destruct (render_tail _ _) as [y|f].
           ++ intros [= <- <- _]. apply N.eqb_eq in E. subst s. destruct T as [T|[T _]]; [left; exact T|congruence].
           ++ destruct (caught bld a f) as [[s' a']|] eqn:C; [|discriminate]. intros [= <- <- _]. eapply caught_fits, C.
        -- intros [= <- <- _]. exact T.
      * destruct (caught bld _ f) as [[s' a']|] eqn:C; [|discriminate]. intros [= <- <- _]. eapply caught_fits, C.
    + apply (tokens_reported bld table _ _ _ _ Hs) in T. cbn. intros [= <- <- _]. exact T.
Qed.

Lemma act_reported bld table s a s' e : succeeds table -> act bld table s a = Ok (s', e) ->
  match status_of e with Some status => reported status (fst s) (fst s') | None => u_error (fst s') = u_error (fst s) /\ u_error_length (fst s') = u_error_length (fst s) end.
Proof.
  intros Hs. destruct s as [st stale]. unfold act. destruct a; try (intros [= <- <-]; cbn; auto; fail).
  - destruct (source_to_tokens bld table st) as [[[s1 a] o]|] eqn:T; [|discriminate]. cbn. destruct (negb _); [|discriminate]. cbn. intros [= <- <-]. cbn.
    eapply tokens_reported; eassumption.
  - destruct (source_to_html bld table st) as [[[s1 a] o]|] eqn:T; [|discriminate]. cbn. intros [= <- <-]. cbn. eapply html_reported; eassumption.
Qed.
Lemma last_failure_app a b : last_failure (a ++ b) = match last_failure b with Some s => Some s | None => last_failure a end.
Proof. induction a as [|e a IH]; cbn [app last_failure]; [destruct (last_failure b); reflexivity|]. rewrite IH. destruct (last_failure b); reflexivity. Qed.
Lemma session_shown bld table : succeeds table -> forall h s before s' evs, error_shown before (fst s) -> session bld table s h = Ok (s', evs) -> error_shown (before ++ evs) (fst s').
Proof.
  intros Hs h. induction h as [|a h IH]; intros s before s' evs H; cbn [session].
  - intros [= <- <-]. rewrite app_nil_r. exact H.
  - destruct (act bld table s a) as [[s1 e]|] eqn:A; [|discriminate]. cbn. destruct (session bld table s1 h) as [[s2 evs2]|] eqn:E; [|discriminate]. cbn. intros [= <- <-].
    change (e :: evs2) with ([e] ++ evs2). rewrite app_assoc. eapply IH; [|exact E]. apply act_reported in A; [|exact Hs].
    unfold error_shown in *. rewrite last_failure_app. cbn [last_failure]. destruct (status_of e) as [status|].
    + destruct A as [(-> & A & B)|(N & A)].
      * cbn. rewrite A, B. exact H.
      * destruct (status =? STATUS_OK)%N eqn:Q; [apply N.eqb_eq in Q; contradiction|]. exact A.
    + destruct A as [A B]. rewrite A, B. exact H.
Qed.

(** After every history of a new state, the state shows no error if no conversion failed, and otherwise the text of the last failure. *)
Theorem C210_error_text : forall bld dbg h s evs, session bld (highlight_functions dbg) (ulight_init, false) h = Ok (s, evs) -> error_shown evs (fst s).
Proof. intros bld dbg h s evs H. refine (session_shown bld _ (table_succeeds dbg) h _ [] s evs _ H). split; reflexivity. Qed.
Print Assumptions C210_error_text.

(** No conversion reports that the code is bad, and no other status than these five is ever reported. *)
Theorem C209_statuses_partial : forall bld dbg st,
  (forall status st' o, source_to_tokens bld (highlight_functions dbg) st = Ok (status, st', o) ->
     In status [STATUS_OK; STATUS_BAD_BUFFER; STATUS_BAD_LANG; STATUS_BAD_STATE; STATUS_INTERNAL_ERROR])
  /\ (forall status st' o, source_to_html bld (highlight_functions dbg) st = Ok (status, st', o) ->
     In status [STATUS_OK; STATUS_BAD_BUFFER; STATUS_BAD_LANG; STATUS_BAD_STATE; STATUS_INTERNAL_ERROR]).
Proof.
  assert (K : forall status st st', reported status st st' -> In status [STATUS_OK; STATUS_BAD_BUFFER; STATUS_BAD_LANG; STATUS_BAD_STATE; STATUS_INTERNAL_ERROR]).
  { intros status st st' [(-> & _)|(_ & t & _ & _ & F)]; [left; reflexivity|]. unfold text_fits in F. cbn [In]. intuition. }
  intros bld dbg st. split; intros status st' o H; eapply K; [eapply tokens_reported|eapply html_reported]; try exact H; exact (table_succeeds dbg).
Qed.
Print Assumptions C209_statuses_partial.

Definition txt_state : ustate := on_flush_tokens (set_token_buffer (set_lang (set_source ulight_init [255%N]) LANG_TXT) (Some 1) 8) (Some 1) (Some 2).
Lemma not_utf8 : ~ wf8 [255%N].
Proof. intros H. inversion H as [|c t r E F G X]. subst c. vm_compute in E. discriminate E. Qed.
(** The status for source code that is not UTF-8 is not reported either (ulight.h:184-185). *)
Theorem C209_bad_text_refuted : ~ (forall bld dbg st src status st' o, has_source st src -> ~ wf8 src -> tokens_precheck st = None ->
  source_to_tokens bld (highlight_functions dbg) st = Ok (status, st', o) -> status = STATUS_BAD_TEXT).
Proof.
  intros H. refine (_ (H (mk_build true true) true txt_state [255%N] STATUS_OK txt_state (Some []) _ not_utf8 eq_refl _)).
  - discriminate.
  - right. exists [255%N]. repeat split. cbn. auto.
  - vm_compute. reflexivity.
Qed.
Print Assumptions C209_bad_text_refuted.

Example C209_case : source_to_tokens (mk_build true true) (highlight_functions true) txt_state = Ok (STATUS_OK, txt_state, Some []).
Proof. vm_compute. reflexivity. Qed.
Definition noisy : list action :=
  [call_tokens; do_set_token_buffer (Some 1) 8; do_on_flush_tokens (Some 1) (Some 2); call_tokens; do_set_lang LANG_JSON; do_set_source (bs "[1]"); call_tokens; call_html].
Example C210_case : exists s evs, session (mk_build true true) (highlight_functions true) (ulight_init, false) noisy = Ok (s, evs)
  /\ map status_of evs = [Some STATUS_BAD_BUFFER; None; None; Some STATUS_BAD_LANG; None; None; Some STATUS_OK; Some STATUS_BAD_BUFFER]
  /\ u_error (fst s) = Some (bs "text_buffer must not be null.").
Proof. do 2 eexists. split; [vm_compute; reflexivity|]. split; reflexivity. Qed.
