(** * Lemmas about the API entry points. *)
From Coq Require Import List NArith ZArith Bool Arith Lia.
From Verif Require Import M_Base L_Base M_Buffer L_Buffer S_Tokens M_Emit L_Emit M_Types
  S_Html M_Html L_Html M_Lang M_Api S_Api S_Ops.
Import ListNotations.

Lemma precheck_lang st : tokens_ready st ->
  tokens_precheck st =
  if (u_lang st =? LANG_NONE)%N || (Z.of_N LANG_COUNT <? to_int (u_lang st))%Z
  then Some (STATUS_BAD_LANG, bs "The given language (numeric value) is invalid.") else None.
Proof.
  intros (H1 & H2 & H3 & H4). unfold tokens_precheck.
  destruct (u_source st) eqn:Es.
  - cbn [andb]. destruct (u_token_buffer st); [|congruence].
    apply Nat.eqb_neq in H3. rewrite H3. destruct (u_flush_tokens st); [|congruence].
    reflexivity.
  - rewrite (H1 eq_refl). cbn [andb Nat.eqb negb]. destruct (u_token_buffer st); [|congruence].
    apply Nat.eqb_neq in H3. rewrite H3. destruct (u_flush_tokens st); [|congruence].
    reflexivity.
Qed.

Lemma bad_lang_range v : v = LANG_NONE \/ (LANG_COUNT < v < 2147483648)%N ->
  (v =? LANG_NONE)%N || (Z.of_N LANG_COUNT <? to_int v)%Z = true.
Proof.
  intros [->|[H1 H2]]; [reflexivity|]. apply orb_true_iff. right. unfold to_int.
  destruct (v <? 2147483648)%N eqn:E; [|apply N.ltb_ge in E; lia].
  apply Z.ltb_lt. lia.
Qed.

Lemma good_lang_range v : (1 <= v <= LANG_COUNT)%N ->
  (v =? LANG_NONE)%N || (Z.of_N LANG_COUNT <? to_int v)%Z = false.
Proof.
  unfold LANG_COUNT, LANG_NONE. intros H. apply orb_false_iff. split.
  - apply N.eqb_neq. lia.
  - unfold to_int. destruct (v <? 2147483648)%N eqn:E; [|apply N.ltb_ge in E; lia].
    apply Z.ltb_ge. lia.
Qed.

Lemma tokens_bad_lang bld table st : tokens_ready st ->
  u_lang st = LANG_NONE \/ (LANG_COUNT < u_lang st < 2147483648)%N ->
  source_to_tokens bld table st
  = Ok (STATUS_BAD_LANG, set_error st (bs "The given language (numeric value) is invalid."),
        Some []).
Proof.
  intros H1 H2. unfold source_to_tokens. rewrite (precheck_lang st H1).
  rewrite (bad_lang_range _ H2). reflexivity.
Qed.

Lemma has_source_view st src : has_source st src ->
  view (u_source st) (u_source_length st) = Ok src.
Proof.
  intros [(E1 & E2 & ->)|(m & E1 & E2 & ->)]; unfold view; rewrite E1.
  - now rewrite E2.
  - apply Nat.leb_le in E2. now rewrite E2.
Qed.

Lemma tokens_run_gen bld table st src h ok ops :
  tokens_ready st -> has_source st src ->
  (1 <= u_lang st < LANG_COUNT)%N -> table (u_lang st) = Some h ->
  h src (opt_strict (u_flags st)) = Ok (ok, ops) -> Forall (op_bounds (length src)) ops ->
  well_formed (length src) (tokens_of (opt_coalescing (u_flags st)) ops) ->
  exists cs, source_to_tokens bld table st
      = Ok (if ok then STATUS_OK else STATUS_BAD_CODE, st, Some cs)
    /\ token_output (opt_coalescing (u_flags st)) (u_token_buffer_length st) (length src) ops = Ok cs
    /\ concat cs = tokens_of (opt_coalescing (u_flags st)) ops
    /\ well_formed (length src) (concat cs)
    /\ Forall (fun c => 0 < length c <= u_token_buffer_length st) cs.
Proof.
  intros Hr Hs Hl Ht Hh Ho Hw. unfold source_to_tokens.
  rewrite (precheck_lang st Hr), good_lang_range by lia.
  unfold tokens_body. rewrite (has_source_view _ _ Hs). cbn [bind].
  destruct Hr as (_ & _ & Hcap & _).
  destruct (token_output_spec (opt_coalescing (u_flags st)) (u_token_buffer_length st)
    (length src) ops) as (cs & E & Hc & Hf); [lia|exact Ho|].
  exists cs. rewrite E. unfold token_output in E.
  destruct (new_buffer (u_token_buffer_length st)) as [b|] eqn:Eb; [|discriminate].
  cbn [bind] in *. unfold highlight.
  assert (Hm : (u_lang st mod 256 = u_lang st)%N).
  { apply N.mod_small. unfold LANG_COUNT in Hl. lia. }
  rewrite Hm. destruct (LANG_COUNT <=? u_lang st)%N eqn:El; [apply N.leb_le in El; lia|].
  rewrite Ht, Hh. cbn [bind fst snd].
  destruct (replay (opt_coalescing (u_flags st)) (length src) b ops) as [b'|] eqn:Er;
    [|discriminate].
  cbn [bind] in *. injection E as <-.
  split; [destruct ok; reflexivity|]. split; [reflexivity|]. split; [exact Hc|].
  split; [|exact Hf]. rewrite Hc. exact Hw.
Qed.

Lemma tokens_run bld table st src h ok ops :
  tokens_ready st -> has_source st src ->
  (1 <= u_lang st < LANG_COUNT)%N -> table (u_lang st) = Some h ->
  h src (opt_strict (u_flags st)) = Ok (ok, ops) -> ops_in 0 (length src) ops ->
  exists cs, source_to_tokens bld table st
      = Ok (if ok then STATUS_OK else STATUS_BAD_CODE, st, Some cs)
    /\ token_output (opt_coalescing (u_flags st)) (u_token_buffer_length st) (length src) ops = Ok cs
    /\ concat cs = tokens_of (opt_coalescing (u_flags st)) ops
    /\ well_formed (length src) (concat cs)
    /\ Forall (fun c => 0 < length c <= u_token_buffer_length st) cs.
Proof.
  intros Hr Hs Hl Ht Hh Ho. apply tokens_run_gen with (h := h); try assumption.
  - eapply ops_in_bounds. exact Ho.
  - now apply tokens_of_wf.
Qed.

Lemma html_precheck_ready st : html_ready st -> html_precheck st = None.
Proof.
  intros (H1 & H2 & H3 & H4 & H5 & H6 & H7 & H8). unfold html_precheck.
  destruct (u_token_buffer st) eqn:Et.
  - cbn [andb]. destruct (u_text_buffer st); [|congruence].
    apply Nat.eqb_neq in H2, H5, H7. rewrite H2, H5, H7.
    destruct (u_flush_text st), (u_html_tag_name st), (u_html_attr_name st); congruence.
  - rewrite (H8 eq_refl). cbn [andb Nat.eqb negb]. destruct (u_text_buffer st); [|congruence].
    apply Nat.eqb_neq in H2, H5, H7. rewrite H2, H5, H7.
    destruct (u_flush_text st), (u_html_tag_name st), (u_html_attr_name st); congruence.
Qed.

Lemma has_text_view p n s : has_text p n s -> view p n = Ok s.
Proof.
  intros (m & -> & H & ->). unfold view. apply Nat.leb_le in H. now rewrite H.
Qed.

Lemma html_run_gen bld table st src tag attr h ops :
  html_ready st -> u_token_buffer st <> None -> u_token_buffer_length st <> 0 ->
  has_source st src ->
  has_text (u_html_tag_name st) (u_html_tag_name_length st) tag ->
  has_text (u_html_attr_name st) (u_html_attr_name_length st) attr ->
  (1 <= u_lang st < LANG_COUNT)%N -> table (u_lang st) = Some h ->
  h src (opt_strict (u_flags st)) = Ok (true, ops) -> Forall (op_bounds (length src)) ops ->
  well_formed (length src) (tokens_of (opt_coalescing (u_flags st)) ops) ->
  exists st' out, source_to_html bld table st = Ok (STATUS_OK, st', Some out)
    /\ concat out = page tag attr src (tokens_of (opt_coalescing (u_flags st)) ops)
    /\ Forall (fun c => 0 < length c <= u_text_buffer_length st) out.
Proof.
  intros Hh Htb Htl Hs Htag Hattr Hl Ht Hhl Ho Hwf.
  unfold source_to_html. rewrite (html_precheck_ready _ Hh).
  set (st2 := set_flush_tokens st (Some internal_flush) (Some internal_flush)).
  assert (Hr : tokens_ready st2).
  { split; [|split; [|split]]; try assumption.
    - intros En. destruct Hs as [(_ & E & _)|(m & E & _)]; [exact E|].
      simpl in En. congruence.
    - discriminate. }
  destruct (tokens_run_gen bld table st2 src h true ops Hr Hs Hl Ht Hhl Ho Hwf)
    as (cs & E & Hto & Hc & Hw & Hf).
  cbv zeta. rewrite E. cbn [bind].
  change (u_source st2) with (u_source st). change (u_source_length st2) with (u_source_length st).
  rewrite (has_source_view _ _ Hs). cbn [bind].
  change (u_html_tag_name st2) with (u_html_tag_name st).
  change (u_html_tag_name_length st2) with (u_html_tag_name_length st).
  change (u_html_attr_name st2) with (u_html_attr_name st).
  change (u_html_attr_name_length st2) with (u_html_attr_name_length st).
  change (u_text_buffer_length st2) with (u_text_buffer_length st).
  rewrite (has_text_view _ _ _ Htag), (has_text_view _ _ _ Hattr).
  change (u_flags st2) with (u_flags st) in *.
  assert (Htcap : 0 < u_text_buffer_length st) by (destruct Hh as (_ & H & _); lia).
  assert (G : exists tag' attr', (match cs with [] => Ok [] | _ => Ok tag end) = Ok tag'
      /\ (match cs with [] => Ok [] | _ => Ok attr end) = Ok attr'
      /\ page tag' attr' src (concat cs) = page tag attr src (concat cs)).
  { destruct cs; [exists [], []|exists tag, attr]; auto. }
  destruct G as (tag' & attr' & -> & -> & Hp). cbn [bind].
  destruct (html_output_spec (u_text_buffer_length st) tag' attr' src cs Htcap Hw)
    as (out & Eo & Hout & Hfo).
  unfold html_output in Eo.
  destruct (new_buffer (u_text_buffer_length st)) as [b|]; [|discriminate]. cbn [bind] in *.
  destruct (render_chunks tag' attr' src (b, 0) cs) as [s|]; [|discriminate]. cbn [bind] in Eo.
  cbn [N.eqb STATUS_OK negb].
  destruct (render_tail src s) as [b'|]; [|discriminate]. cbn [bind] in Eo.
  injection Eo as <-. exists st2, (calls b'). split; [reflexivity|].
  split; [|exact Hfo]. now rewrite Hout, Hp, Hc.
Qed.

Lemma html_run bld table st src tag attr h ops :
  html_ready st -> u_token_buffer st <> None -> u_token_buffer_length st <> 0 ->
  has_source st src ->
  has_text (u_html_tag_name st) (u_html_tag_name_length st) tag ->
  has_text (u_html_attr_name st) (u_html_attr_name_length st) attr ->
  (1 <= u_lang st < LANG_COUNT)%N -> table (u_lang st) = Some h ->
  h src (opt_strict (u_flags st)) = Ok (true, ops) -> ops_in 0 (length src) ops ->
  exists st' out, source_to_html bld table st = Ok (STATUS_OK, st', Some out)
    /\ concat out = page tag attr src (tokens_of (opt_coalescing (u_flags st)) ops)
    /\ Forall (fun c => 0 < length c <= u_text_buffer_length st) out.
Proof.
  intros Hh Htb Htl Hs Htag Hattr Hl Ht Hhl Ho. apply html_run_gen with (h := h); try assumption.
  - eapply ops_in_bounds. exact Ho.
  - now apply tokens_of_wf.
Qed.

Lemma html_text_only_if_ready bld table st status st' out :
  source_to_html bld table st = Ok (status, st', Some out) -> out <> [] ->
  html_ready st /\ (u_source st = None -> u_source_length st = 0)
  /\ u_token_buffer st <> None /\ u_token_buffer_length st <> 0.
Proof.
  unfold source_to_html. destruct (html_precheck st) as [[s t]|] eqn:Ep.
  { intros [= <- <- <-]. congruence. }
  cbv zeta. set (st2 := set_flush_tokens st (Some internal_flush) (Some internal_flush)).
  destruct (source_to_tokens bld table st2) as [[[s2 st3] o]|] eqn:Et; [|discriminate].
  cbn [bind]. destruct o as [cs|]; [|intros [= ]].
  intros E Hne.
  assert (Hh : html_ready st).
  { clear -Ep. unfold html_precheck in Ep. unfold html_ready.
    destruct (u_text_buffer st); [|destruct (_ && _) in Ep; discriminate].
    destruct (u_text_buffer_length st); [destruct (_ && _) in Ep; discriminate|].
    destruct (u_flush_text st); [|destruct (_ && _) in Ep; discriminate].
    destruct (u_html_tag_name st); [|destruct (_ && _) in Ep; discriminate].
    destruct (u_html_tag_name_length st); [destruct (_ && _) in Ep; discriminate|].
    destruct (u_html_attr_name st); [|destruct (_ && _) in Ep; discriminate].
    destruct (u_html_attr_name_length st); [destruct (_ && _) in Ep; discriminate|].
    repeat split; try discriminate. intros E. rewrite E in Ep.
    destruct (u_token_buffer_length st); [reflexivity|discriminate]. }
  split; [exact Hh|].
  unfold source_to_tokens in Et. destruct (tokens_precheck st2) as [[s3 t3]|] eqn:Ep2.
  - exfalso. injection Et as <- <- <-.
    destruct (view (u_source st2) (u_source_length st2)); [|discriminate]. cbn [bind] in E.
    destruct (new_buffer (u_text_buffer_length st2)) as [b|] eqn:Eb; [|discriminate].
    cbn [bind render_chunks] in E.
    assert (Hs3 : (s3 =? STATUS_OK)%N = false).
    { unfold tokens_precheck in Ep2.
      repeat match type of Ep2 with (if ?c then _ else _) = _ =>
        destruct c; [injection Ep2 as <- _; reflexivity|] end. discriminate. }
    rewrite Hs3 in E. cbn [negb fst] in E. injection E as _ _ <-.
    unfold new_buffer in Eb. destruct (u_text_buffer_length st2); [discriminate|].
    injection Eb as <-. apply Hne. reflexivity.
  - unfold tokens_precheck in Ep2.
    change (u_source st2) with (u_source st) in Ep2.
    change (u_source_length st2) with (u_source_length st) in Ep2.
    change (u_token_buffer st2) with (u_token_buffer st) in Ep2.
    change (u_token_buffer_length st2) with (u_token_buffer_length st) in Ep2.
    destruct (u_source st), (u_source_length st), (u_token_buffer st),
      (u_token_buffer_length st); cbn in Ep2; try discriminate; repeat split; congruence.
Qed.

Lemma token_first_ok st : (u_token_buffer st = None -> u_token_buffer_length st = 0) ->
  (match u_token_buffer st with None => true | _ => false end)
     && negb (u_token_buffer_length st =? 0) = false.
Proof. destruct (u_token_buffer st); [reflexivity|]. intros H. now rewrite (H eq_refl). Qed.
