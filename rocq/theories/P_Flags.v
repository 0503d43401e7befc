(** * Flags *)
From Coq Require Import List NArith Bool Arith Lia.
From Verif Require Import M_Base L_Base M_Buffer S_Tokens M_Highlighter M_Emit M_Types M_Html M_Lang M_Api S_Api M_LangSmall M_Languages S_Flags.
From Verif Require Import M_Json M_LangHtml M_LangCpp M_LangCss M_LangLlvm M_LangBash M_LangPython M_LangJava M_LangKotlin M_LangRust M_LangNasm M_LangXml M_LangCowel M_LangMarkdown M_LangYaml M_LangJs.
Import ListNotations.

Lemma html_strict src a b : highlight_html highlight_javascript highlight_css src a = highlight_html highlight_javascript highlight_css src b.
Proof. reflexivity. Qed.

(** States that differ in the flags only *)
Lemma body_flags table st f g : same_coalesce f g ->
  (forall src h, table (u_lang st mod 256)%N = Some h -> h src (opt_strict f) = h src (opt_strict g)) ->
  tokens_body table (set_flags st f) = tokens_body table (set_flags st g).
Proof.
  intros C S. unfold tokens_body, highlight. cbn [set_flags u_source u_source_length u_token_buffer_length u_lang u_flags].
  destruct (view _ _) as [src|]; [|reflexivity]. cbn [bind]. destruct (new_buffer _) as [b|]; [|reflexivity]. cbn [bind].
  unfold opt_coalescing. rewrite C. destruct (_ <=? _)%N; [reflexivity|]. destruct (table _) as [h|] eqn:T; [|reflexivity]. now rewrite (S src h).
Qed.
Lemma caught_flags bld f st1 st2 : match caught bld st1 f, caught bld st2 f with Ok (s1, _), Ok (s2, _) => s1 = s2 | Fail a, Fail b => a = b | _, _ => False end.
Proof. unfold caught. destruct f, (with_exceptions bld), (debug bld); reflexivity. Qed.
Lemma tokens_flags bld table st f g : tokens_body table (set_flags st f) = tokens_body table (set_flags st g) ->
  seen (source_to_tokens bld table (set_flags st f)) = seen (source_to_tokens bld table (set_flags st g)).
Proof.
  intros B. unfold source_to_tokens. rewrite B. change (tokens_precheck (set_flags st g)) with (tokens_precheck (set_flags st f)).
  destruct (tokens_precheck _) as [[s t]|]; [reflexivity|]. destruct (tokens_body table (set_flags st g)) as [[s cs]|x]; [reflexivity|].
  pose proof (caught_flags bld x (set_flags st f) (set_flags st g)) as K.
  destruct (caught bld (set_flags st f) x) as [[s a]|], (caught bld (set_flags st g) x) as [[s' a']|]; cbn; try contradiction; congruence.
Qed.
Lemma html_flags bld table st f g : tokens_body table (set_flags (set_flush_tokens st (Some internal_flush) (Some internal_flush)) f)
    = tokens_body table (set_flags (set_flush_tokens st (Some internal_flush) (Some internal_flush)) g) ->
  seen (source_to_html bld table (set_flags st f)) = seen (source_to_html bld table (set_flags st g)).
Proof.
  intros B. apply (tokens_flags bld) in B. unfold source_to_html. change (html_precheck (set_flags st g)) with (html_precheck (set_flags st f)).
  destruct (html_precheck _) as [[s t]|]; [reflexivity|]. cbv zeta.
  change (set_flush_tokens (set_flags st f) (Some internal_flush) (Some internal_flush)) with (set_flags (set_flush_tokens st (Some internal_flush) (Some internal_flush)) f).
  change (set_flush_tokens (set_flags st g) (Some internal_flush) (Some internal_flush)) with (set_flags (set_flush_tokens st (Some internal_flush) (Some internal_flush)) g).
  set (st1 := set_flush_tokens st _ _) in *.
  destruct (source_to_tokens bld table (set_flags st1 f)) as [[[s1 a1] o1]|x1], (source_to_tokens bld table (set_flags st1 g)) as [[[s2 a2] o2]|x2]; cbn in B; try discriminate B; [injection B as <- <-|injection B as <-; reflexivity].
  cbn [bind]. destruct o1 as [cs|]; [|reflexivity]. cbn [set_flags u_source u_source_length u_html_tag_name u_html_tag_name_length u_html_attr_name u_html_attr_name_length u_text_buffer_length].
  destruct (view (u_source st1) _) as [src|]; [|reflexivity]. cbn [bind].
  destruct (match cs with [] => _ | _ => _ end) as [tag|]; [|reflexivity]. cbn [bind].
  destruct (match cs with [] => _ | _ => _ end) as [attr|]; [|reflexivity]. cbn [bind].
  destruct (new_buffer _) as [out|]; [|reflexivity]. cbn [bind]. destruct (render_chunks _ _ _ _ _) as [y|x].
  - destruct (negb _); [reflexivity|]. destruct (render_tail _ _) as [z|x]; [reflexivity|].
    pose proof (caught_flags bld x a1 a2) as K. destruct (caught bld a1 x) as [[? ?]|], (caught bld a2 x) as [[? ?]|]; cbn; try contradiction; congruence.
  - pose proof (caught_flags bld x (set_flags st1 f) (set_flags st1 g)) as K.
    destruct (caught bld (set_flags st1 f) x) as [[? ?]|], (caught bld (set_flags st1 g) x) as [[? ?]|]; cbn; try contradiction; congruence.
Qed.

(** Only the two documented flags have an effect, whatever the highlighters. *)
Theorem C213_unknown_flags : forall bld table st f g, same_coalesce f g -> same_strict f g ->
  seen (source_to_tokens bld table (set_flags st f)) = seen (source_to_tokens bld table (set_flags st g))
  /\ seen (source_to_html bld table (set_flags st f)) = seen (source_to_html bld table (set_flags st g)).
Proof.
  intros bld table st f g C S. split; [apply tokens_flags|apply html_flags]; apply body_flags; try exact C; intros src h _; unfold opt_strict; now rewrite S.
Qed.
Print Assumptions C213_unknown_flags.

(** The strict flag has no effect on languages other than C, C++ and JSON. *)
Theorem C213_strict : forall bld dbg st f g, same_coalesce f g -> ~ In (u_lang st mod 256)%N [LANG_C; LANG_CPP; LANG_JSON] ->
  seen (source_to_tokens bld (highlight_functions dbg) (set_flags st f)) = seen (source_to_tokens bld (highlight_functions dbg) (set_flags st g))
  /\ seen (source_to_html bld (highlight_functions dbg) (set_flags st f)) = seen (source_to_html bld (highlight_functions dbg) (set_flags st g)).
Proof.
  intros bld dbg st f g C L.
  assert (K : forall src h, highlight_functions dbg (u_lang st mod 256)%N = Some h -> h src (opt_strict f) = h src (opt_strict g)).
  { intros src h. unfold highlight_functions. cbn [In] in L.
    repeat match goal with
    | |- (if (?x =? ?y)%N then _ else _) = _ -> _ => destruct (N.eqb_spec x y);
        [try (exfalso; apply L; subst; now auto); intros [= <-]; first [exact (html_strict _ _ _)|reflexivity]|]
    end. discriminate. }
  split; [apply tokens_flags|apply html_flags]; apply body_flags; try exact C; exact K.
Qed.
Print Assumptions C213_strict.

(** It has an effect on each of these three: some text gets other tokens. *)
Definition flag_state (l : N) (s : str) : ustate := on_flush_tokens (set_token_buffer (set_lang (set_source ulight_init s) l) (Some 1) 8) (Some 1) (Some 2).
Theorem C213_strict_matters : forall bld dbg l, In l [LANG_C; LANG_CPP; LANG_JSON] -> exists s,
  seen (source_to_tokens bld (highlight_functions dbg) (set_flags (flag_state l s) 0)) <> seen (source_to_tokens bld (highlight_functions dbg) (set_flags (flag_state l s) 2)).
Proof.
  intros bld dbg l [<-|[<-|[<-|[]]]]; [exists (bs "__restrict")|exists (bs "restrict")|exists (bs "/**/0")]; vm_compute; discriminate.
Qed.
Print Assumptions C213_strict_matters.

Example C213_case : same_coalesce 5 13 /\ same_strict 5 13 /\ same_coalesce 0 2 /\ ~ In (LANG_PYTHON mod 256)%N [LANG_C; LANG_CPP; LANG_JSON]
  /\ exists cs, seen (source_to_tokens (mk_build true true) (highlight_functions true) (set_flags (flag_state LANG_PYTHON (bs "x = 1")) 2)) = Ok (STATUS_OK, Some cs) /\ cs <> [].
Proof. repeat split; try (cbn; intros [H|[H|[H|[]]]]; discriminate H). eexists. split; [vm_compute; reflexivity|discriminate]. Qed.
