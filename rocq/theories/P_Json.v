(** * Properties of the JSON highlighter and parser (C30-C35, C57). *)
From Coq Require Import List NArith ZArith Bool Arith Lia.
From Verif Require Import M_Base L_Base S_Tokens M_Emit S_Ops L_Emit M_Types M_Chars M_Parse L_Parse S_Utf8 M_Utf8 M_Api
  M_Highlighter S_Highlight L_Highlighter M_Json S_Json L_JsonNum L_JsonText L_JsonParse L_JsonSound L_JsonComplete.
Import ListNotations.

(** ** C35: highlighting *)
Notation blk := lenient_blank.

Lemma firstn_app_Forall (P : N -> Prop) s w r : s = w ++ r -> Forall P w -> Forall P (firstn (length w) s).
Proof. intros -> H. rewrite firstn_app_exact. exact H. Qed.

Lemma hj_line : consumes blk json_expect_line_comment.
Proof.
  intros st. begin_steps blk st. unfold json_expect_line_comment. hl1. hl1. hl1.
  { hl. done_steps. }
  bool_hyps. destruct (match_line_comment_spec _ H0) as (t & r & E & L & (b & Et & _) & _).
  assert (2 <= match_line_comment (rem st) <= length (rem st)).
  { rewrite <- L. split; [rewrite Et; cbn; lia|]. rewrite E, app_length. lia. }
  hl; done_steps.
Qed.

Lemma block_prefix s : en_length (match_block_comment s) <> 0 -> 2 <= en_length (match_block_comment s)
  /\ (en_terminated (match_block_comment s) = true -> 4 <= en_length (match_block_comment s)).
Proof.
  unfold match_block_comment. destruct (starts_with s (bs "/*")) eqn:E; cbn [negb]; [|cbn; congruence].
  destruct (find_str s (bs "*/") 2) as [i|] eqn:Ef; cbn [en_length en_terminated]; intros H.
  - apply find_str_bound in Ef. change (length (bs "*/")) with 2 in Ef. split; lia.
  - apply starts_with_len in E. change (length (bs "/*")) with 2 in E. split; [lia|discriminate].
Qed.

Lemma hj_block : consumes blk json_expect_block_comment.
Proof.
  intros st. begin_steps blk st. unfold json_expect_block_comment. hl1. hl1. hl1.
  { hl. done_steps. }
  bool_hyps. pose proof (match_block_comment_le (rem st)) as L. destruct (block_prefix _ H0) as [L2 L4].
  set (e := match_block_comment (rem st)) in *. cbv zeta.
  hl1. hl1. hl1. eapply ahead_emit; [apply ahead_refl|lia|lia|lia|]. intros st1 A1.
  hl1. apply wp_when; intros Hn; bool_hyps.
  - eapply ahead_emit; [exact A1|lia|lia|destruct (en_terminated e); lia|]. intros st2 A2. hl1. hl1.
    + rewrite H1 in *. specialize (L4 eq_refl). eapply ahead_emit; [exact A2|lia|lia|lia|]. intros st3 A3. hl1.
      eapply ahead_advance; [exact A3|lia|]. intros st4 S4 _. hl1. exists (en_length e). split; [exact S4|lia].
    + rewrite H1 in *. hl1. eapply ahead_advance; [exact A2|lia|]. intros st4 S4 _. hl1. exists (en_length e). split; [exact S4|lia].
  - hl1. hl1.
    + rewrite H1 in *. specialize (L4 eq_refl). eapply ahead_emit; [exact A1|lia|lia|lia|]. intros st3 A3. hl1.
      eapply ahead_advance; [exact A3|lia|]. intros st4 S4 _. hl1. exists (en_length e). split; [exact S4|lia].
    + rewrite H1 in *. hl1. eapply ahead_advance; [exact A1|lia|]. intros st4 S4 _. hl1. exists (en_length e). split; [exact S4|lia].
Qed.

Lemma hj_ws hc : safe blk (json_consume_ws hc).
Proof.
  intros st. unfold json_consume_ws.
  apply wp_hloop with (Inv := fun _ st1 => exists k, steps blk k st st1) (mu := fun _ st1 => length (rem st1)).
  - exists 0. apply steps_refl.
  - lia.
  - intros _ st1 (k & H). hl1. hl1.
    destruct (match_whitespace_spec (rem st1)) as (w & r & E & L & B & _).
    hl1. apply (wp_advance blk).
    { rewrite <- L, E, app_length. lia. }
    { rewrite <- L. eapply firstn_app_Forall; eassumption. }
    intros st2 H2 _. fuse. hl1; [|hl; done_steps].
    hl1. call hj_line. hl1.
    { hl. subst. split; [done_steps|]. match goal with H : true = true -> _ |- _ => specialize (H eq_refl) end. hlia. }
    hl1. call hj_block. hl1.
    { hl. subst. split; [done_steps|]. match goal with H : true = true -> _ |- _ => specialize (H eq_refl) end. hlia. }
    hl. done_steps.
Qed.

Lemma escape_len_ok s : exists n v, json_match_escape s false = Ok (n, v) /\ n <= length s.
Proof.
  destruct (match_escape_spec s false) as [(t & r & v & E & _ & H)|(n & H & L)].
  - exists (length t), (Some 0%N). split; [exact H|]. rewrite E, app_length. lia.
  - exists n, None. auto.
Qed.

Lemma hj_flush len ty (Q : unit -> hst unit -> Prop) st : len <= length (rem st) ->
  (forall st', steps blk len st st' -> Q tt st') -> wp (json_flush len ty) Q st.
Proof.
  intros L H. begin_steps blk st. unfold json_flush. hl1; bool_hyps.
  - hl1. apply H. assumption.
  - apply H. subst len. assumption.
Qed.

Lemma hj_string_loop property : forall len st, len <= length (rem st) ->
  wp (hloop 1 (json_string_body property) len)
     (fun _ st' => exists k, steps blk k st st' /\ len <= k) st.
Proof.
  intros len st L.
  apply wp_hloop with (Inv := fun a st1 => a <= length (rem st1) /\ exists k, steps blk k st st1 /\ len <= k + a)
    (mu := fun a st1 => length (rem st1) - a).
  - split; [exact L|]. exists 0. split; [apply steps_refl|lia].
  - lia.
  - intros a st1 (La & k & H & Hk). unfold json_string_body. cbv zeta. hl1. hl1. hl1; bool_hyps.
    { hl1. apply hj_flush; [lia|]. intros st2 HS2. fuse. hl1. exists (k + a). split; [assumption|lia]. }
    hl1. hl1. hl1.
    { hl1. destruct property.
      - apply hj_flush; [hlia|]. intros st2 HS2. fuse. hl1. exists (k + (a + 1)). split; [assumption|lia].
      - hl1. apply hj_flush; [lia|]. intros st2 HS2. fuse. hl1. hl1. exists (k + a + 1). split; [assumption|lia]. }
    hl1.
    { hl1. apply hj_flush; [lia|]. intros st2 HS2. fuse. hl1. exists (k + a). split; [assumption|lia]. }
    hl1.
    { hl1. apply hj_flush; [lia|]. intros st2 HS2. fuse. hl1. hl1. hl1.
      destruct (escape_len_ok (rem st2)) as (n & v & E & Ln). eapply wp_lift; [exact E|]. cbn [fst snd]. hl1.
      - hl. split; [split; [lia|]|hlia]. exists (k + a + n). split; [assumption|lia].
      - hl. split; [split; [lia|]|hlia]. exists (k + a + 1). split; [assumption|lia]. }
    hl1.
    { hl1. apply hj_flush; [lia|]. intros st2 HS2. fuse. hl. split; [split; [lia|]|hlia]. exists (k + a + 1). split; [assumption|lia]. }
    hl. split; [|lia]. split; [lia|]. exists k. split; [assumption|lia].
Qed.

Lemma hj_string property : consumes blk (json_expect_string property).
Proof.
  intros st. begin_steps blk st. unfold json_expect_string. hl1. hl1. hl1.
  { hl. done_steps. }
  bool_hyps. hl1.
  - eapply wp_mono; [apply hj_string_loop; hlia|]. cbn. intros b st' (k & G & L). exists k. split; [assumption|lia].
  - hl1. hl1. eapply wp_mono; [apply hj_string_loop; hlia|]. cbn. intros b st2 (k & G & L). fuse.
    eexists. split; [eassumption|lia].
Qed.

Lemma hj_number : consumes blk json_expect_number.
Proof.
  intros st. begin_steps blk st. unfold json_expect_number. hl1. hl1. hl1.
  destruct (match_number_spec (rem st)) as (n & E & _ & L & _). eapply wp_lift; [exact E|]. hl1; bool_hyps; hl; done_steps.
Qed.

Lemma identifier_le s : fst (json_match_identifier s) <= length s.
Proof.
  destruct s as [|c s]; cbn [json_match_identifier]; [cbn; lia|].
  destruct (negb (is_ascii_alpha c)); cbn [fst length]; [lia|]. pose proof (length_if_le s is_ascii_alphanumeric). lia.
Qed.

Lemma hj_keyword : consumes blk json_expect_true_false_null.
Proof.
  intros st. begin_steps blk st. unfold json_expect_true_false_null. hl1. hl1. pose proof (identifier_le (rem st)) as L.
  destruct (json_match_identifier (rem st)) as [len id]. cbn [fst] in L. hl1. hl1; bool_hyps.
  - destruct id; hl; done_steps.
  - hl. done_steps.
Qed.

Lemma hj_at_end hc (Q : bool -> hst unit -> Prop) st :
  (forall b k st', steps blk k st st' -> (b = false -> rem st' <> []) -> Q b st') -> wp (json_at_end hc) Q st.
Proof.
  intros H. begin_steps blk st. unfold json_at_end. hl1. call (hj_ws hc). hl. eapply H; [eassumption|].
  intros E. bool_hyps. intros E. rewrite E in *. cbn in *. congruence.
Qed.

(** A value parser that is safe on shorter input. *)
Definition hj_value_ok (v : M unit bool) (bound : nat) : Prop := forall st, length (rem st) < bound ->
  wp v (fun b st' => exists k, steps blk k st st' /\ (b = true -> 0 < k)) st.

Lemma hj_member hc v n : hj_value_ok v n -> forall st, length (rem st) < n ->
  wp (json_consume_member hc v) (fun _ st' => exists k, steps blk k st st') st.
Proof.
  intros Hv st Hn. begin_steps blk st. unfold json_consume_member. hl1.
  apply hj_at_end. intros b k st1 H1 E1. try fuse. hl1; [hl; done_steps|]. hl1.
  call (hj_string true). hl1. apply hj_at_end. intros b2 k2 st2 HS2 E2. repeat fuse. hl1; [hl; done_steps|].
  hl1. hl1. hl1; [|hl; done_steps]. hl1. hl1. repeat fuse. hl1.
  apply hj_at_end. intros b3 k3 st4 HS7 E3. repeat fuse. hl1; [hl; done_steps|]. hl1.
  eapply wp_mono; [apply Hv; hlia|]. cbn beta. intros b4 st5 (k5 & HS5 & _). repeat fuse.
  call (hj_ws hc). done_steps.
Qed.

Lemma hj_object hc v n : hj_value_ok v n -> forall st, length (rem st) < S n ->
  wp (json_expect_object hc v) (fun b st' => exists k, steps blk k st st' /\ (b = true -> 0 < k)) st.
Proof.
  intros Hv st Hn. begin_steps blk st. unfold json_expect_object. hl1. hl1. hl1; [hl; done_steps|]. bool_hyps.
  hl1. hl1.
  apply wp_hloop with (Inv := fun _ st1 => length (rem st1) < n /\ exists k, steps blk k st st1 /\ 0 < k)
    (mu := fun _ st1 => length (rem st1)).
  - split; [hlia|]. done_steps.
  - lia.
  - intros [] st1 (L1 & k & S1 & K1). unfold json_object_body. hl1. hl1; [hl; done_steps|].
    hl1. eapply wp_mono; [apply (hj_member hc v n Hv); exact L1|]. cbn beta. intros _ st2 (k2 & S2). fuse.
    hl1. hl1. hl1; [hl; done_steps|]. hl1; [hl; split; [split; [hlia|done_steps]|hlia]|].
    hl1. hl1; hl; bool_hyps; (split; [split; [hlia|done_steps]|hlia]).
Qed.

Lemma hj_array hc v n : hj_value_ok v n -> forall st, length (rem st) < S n ->
  wp (json_expect_array hc v) (fun b st' => exists k, steps blk k st st' /\ (b = true -> 0 < k)) st.
Proof.
  intros Hv st Hn. begin_steps blk st. unfold json_expect_array. hl1. hl1. hl1; [hl; done_steps|]. bool_hyps.
  hl1. hl1.
  apply wp_hloop with (Inv := fun _ st1 => length (rem st1) < n /\ exists k, steps blk k st st1 /\ 0 < k)
    (mu := fun _ st1 => length (rem st1)).
  - split; [hlia|]. done_steps.
  - lia.
  - intros [] st1 (L1 & k & S1 & K1). unfold json_array_body. hl1. hl1; [hl; done_steps|].
    hl1. call (hj_ws hc).
    hl1. hl1. hl1; [hl; done_steps|]. hl1; [hl; split; [split; [hlia|done_steps]|hlia]|].
    hl1. eapply wp_mono; [apply Hv; hlia|]. cbn beta. intros b st3 (k3 & S3 & K3). fuse.
    hl1; [hl; split; [split; [hlia|done_steps]|]|].
    { match goal with H : true = true -> _ |- _ => specialize (H eq_refl) | E : ?b = true, H : ?b = true -> _ |- _ => specialize (H E) end. hlia. }
    hl1. hl1. hl1. hl1; hl; bool_hyps; (split; [split; [hlia|done_steps]|hlia]).
Qed.

Lemma hj_value hc : forall fuel, hj_value_ok (json_expect_value fuel hc) fuel.
Proof.
  induction fuel as [|n IH]; intros st Hn; [lia|]. begin_steps blk st. cbn [json_expect_value].
  hl1. call (hj_string false). hl1; [hl; done_steps|].
  hl1. call hj_number. hl1; [hl; done_steps|].
  hl1. eapply wp_mono; [apply (hj_object hc _ n IH); hlia|]. cbn beta. intros b2 st2 (k2 & S2 & K2). try fuse. hl1; [hl; done_steps|].
  hl1. eapply wp_mono; [apply (hj_array hc _ n IH); hlia|]. cbn beta. intros b3 st3 (k3 & S3 & K3). try fuse. hl1; [hl; done_steps|].
  eapply wp_mono; [apply hj_keyword|]. cbn beta. intros b4 st4 (k4 & S4 & K4). try fuse. done_steps.
Qed.

Lemma hj_main hc src : exists ops, json_main hc src = Ok (true, ops) /\ ops_in 0 (length src) ops.
Proof.
  unfold json_main. apply (run_ok blk). set (st := mk_hst src 0 [] tt). begin_steps blk st.
  hl1. call (hj_ws hc). hl1. eapply wp_mono; [apply hj_value|].
  { subst st. hlia. }
  cbn beta. intros b st2 (k2 & S2 & _). try fuse. hl1. call (hj_ws hc). hl. split; [reflexivity|]. done_steps.
Qed.

Theorem C35_json_highlight : always_highlights highlight_json.
Proof. apply always_from_ops. intros src strict. apply hj_main. Qed.
Print Assumptions C35_json_highlight.
Theorem C35_jsonc_highlight : always_highlights highlight_jsonc.
Proof. apply always_from_ops. intros src strict. apply hj_main. Qed.
Print Assumptions C35_jsonc_highlight.
Example C35_case : exists ops, highlight_json (bs "{ ""a"": [1, ""\n""], /* c */ ""b"": t") false = Ok (true, ops)
  /\ length ops = 17.
Proof. eexists. vm_compute. split; reflexivity. Qed.

(** ** C30 *)
Theorem C30_json_number : forall s, exists n, json_match_number s = Ok n
  /\ jn_integer n + jn_fraction n + jn_exponent n = jn_length n
  /\ jn_length n <= length s
  /\ (0 < jn_length n -> (jn_erroneous n = false <-> json_number (firstn (jn_length n) s)))
  /\ (forall p t, s = p ++ t -> json_number p -> length p <= jn_length n).
Proof.
  intros s. destruct (match_number_spec s) as (n & E & A & B & C & _ & D). exists n. auto.
Qed.
Print Assumptions C30_json_number.
Example C30_case : json_match_number (bs "-10.25e+3,") = Ok (mk_json_number 9 3 3 3 false).
Proof. vm_compute. reflexivity. Qed.

(** ** C31 *)
Section Grammar.
Variables (blank : N -> Prop) (o : json_options) (pos : nat -> position).

(** The calls [evs] leave the open constructs [st] open, and are not errors. *)
Definition neutral (st : list open_construct) (evs : list event) : Prop :=
  nested st evs = Some st /\ Forall (fun e => ~ is_error e) evs.
Definition value_context (st : list open_construct) : Prop :=
  match st with in_string :: _ | in_property :: _ => False | _ => True end.

Lemma nested_app st a b : nested st (a ++ b) = match nested st a with Some st' => nested st' b | None => None end.
Proof. revert st. induction a as [|e a IH]; intros st; cbn; [reflexivity|]. destruct (event_stack e st); auto. Qed.

Lemma neutral_app st a b : neutral st a -> neutral st b -> neutral st (a ++ b).
Proof.
  intros [A1 A2] [B1 B2]. split; [rewrite nested_app, A1; exact B1|apply Forall_app; auto].
Qed.
Lemma neutral_nil st : neutral st [].
Proof. split; [reflexivity|constructor]. Qed.

Lemma neutral_wrap st x p e q : ~ is_error p -> ~ is_error q -> event_stack p st = Some (x :: st) ->
  event_stack q (x :: st) = Some st -> neutral (x :: st) e -> neutral st ([p] ++ e ++ [q]).
Proof.
  intros Np Nq Ep Eq [E1 E2]. split.
  - cbn [app nested]. rewrite Ep, nested_app, E1. cbn. rewrite Eq. reflexivity.
  - cbn [app]. constructor; [assumption|]. apply Forall_app. split; [assumption|]. constructor; [assumption|constructor].
Qed.

Lemma jws_neutral i w e : jws blank o pos i w e -> forall st, value_context st -> neutral st e.
Proof.
  induction 1; intros st V; auto using neutral_nil.
  - apply (neutral_app st [_]); [|auto]. split; [destruct st as [|[]]; cbn in *; tauto|]. repeat constructor. auto.
  - apply (neutral_app st [_]); [|auto]. split; [destruct st as [|[]]; cbn in *; tauto|]. repeat constructor. auto.
Qed.
Lemma jws_end_neutral i w e : jws_end blank o pos i w e -> forall st, value_context st -> neutral st e.
Proof.
  intros [i0 w0 e0 H|i0 w0 e0 t _ H _] st V; [eapply jws_neutral; eassumption|].
  apply neutral_app; [eapply jws_neutral; eassumption|].
  split; [destruct st as [|[]]; cbn in *; tauto|]. repeat constructor. auto.
Qed.
Lemma jchars_neutral i s e : jchars o pos i s e -> forall x st, In x [in_string; in_property] -> neutral (x :: st) e.
Proof.
  induction 1 as [i|i t v s e es J E H IH|i t s es Ht F Hs H IH]; intros x st Hx; [apply neutral_nil| |].
  - apply (neutral_app _ [_]); [|auto]. unfold escape_event in E.
    split; [destruct (jo_escapes o); subst e; destruct Hx as [<-|[<-|[]]]; reflexivity|].
    repeat constructor. destruct (jo_escapes o); subst e; auto.
  - apply (neutral_app _ [_]); [|auto]. split; [destruct Hx as [<-|[<-|[]]]; reflexivity|]. repeat constructor. auto.
Qed.

Lemma value_neutral : forall i s e, jvalue blank o pos i s e -> forall st, value_context st -> neutral st e.
Proof.
  apply (value_mut blank o pos (fun _ _ e => forall st, value_context st -> neutral st e)
    (fun _ _ e => forall st, value_context st -> neutral st e)
    (fun _ _ e => forall st, neutral (in_object :: st) e)
    (fun _ _ e => forall st, neutral (in_object :: st) e)).
  - intros i st C. split; [destruct st as [|[]]; cbn in *; tauto|repeat constructor; auto].
  - intros i st C. split; [destruct st as [|[]]; cbn in *; tauto|repeat constructor; auto].
  - intros i st C. split; [destruct st as [|[]]; cbn in *; tauto|repeat constructor; auto].
  - intros i t _ st C. unfold number_event. 
    split; [destruct (jo_numbers o), st as [|[]]; cbn in *; tauto|repeat constructor; destruct (jo_numbers o); auto].
  - intros i s es H st C. apply (neutral_wrap st in_string); auto. eapply jchars_neutral; [eassumption|cbn; auto].
  - intros i w e H st C. apply (neutral_wrap st in_array); auto. eapply jws_neutral; [eassumption|exact I].
  - intros i w e s es H _ IH st C. rewrite (app_assoc e). apply (neutral_wrap st in_array); auto.
    apply neutral_app; [eapply jws_neutral; [eassumption|exact I]|apply IH; exact I].
  - intros i w e H st C. apply (neutral_wrap st in_object); auto. eapply jws_neutral; [eassumption|exact I].
  - intros i w e s es H _ IH st C. rewrite (app_assoc e). apply (neutral_wrap st in_object); auto.
    apply neutral_app; [eapply jws_neutral; [eassumption|exact I]|apply IH].
  - intros i v ev w ew _ IH H st C. apply neutral_app; [auto|eapply jws_neutral; eassumption].
  - intros i v ev w ew w' ew' s es _ IH H H' _ IH' st C.
    repeat apply neutral_app; auto; eapply jws_neutral; eassumption.
  - intros i k ek w1 e1 w2 e2 v ev Hk H1 H2 _ IH st.
    rewrite (app_assoc ek), (app_assoc [_]). apply neutral_app.
    { apply (neutral_wrap (in_object :: st) in_property); auto. eapply jchars_neutral; [eassumption|cbn; auto]. }
    repeat apply neutral_app; [eapply jws_neutral; [eassumption|exact I]..|apply IH; exact I].
  - intros i m em w ew _ IH H st. apply neutral_app; [auto|eapply jws_neutral; [eassumption|exact I]].
  - intros i m em w ew w' ew' s es _ IH H H' _ IH' st.
    repeat apply neutral_app; auto; eapply jws_neutral; try eassumption; exact I.
Qed.
Lemma text_neutral s e : jtext blank o pos s e -> neutral [] e.
Proof.
  intros [w1 e1 v ev w2 e2 H1 Hv H2].
  repeat apply neutral_app; [eapply jws_neutral|eapply value_neutral|eapply jws_end_neutral]; try eassumption; exact I.
Qed.

Lemma text_blank (blank' : N -> Prop) : (forall c, blank c -> blank' c) ->
  forall s e, jtext blank o pos s e -> jtext blank' o pos s e.
Proof.
  intros B. 
  assert (W : forall i w e, jws blank o pos i w e -> jws blank' o pos i w e).
  { induction 1; [constructor|constructor; auto|apply ws_line; auto|apply ws_block; auto]. }
  assert (V : forall i s e, jvalue blank o pos i s e -> jvalue blank' o pos i s e).
  { apply (value_mut blank o pos (jvalue blank' o pos) (jelements blank' o pos) (jmember blank' o pos) (jmembers blank' o pos)); intros.
    - apply value_null. - apply value_true. - apply value_false. - apply value_number; auto. - apply value_string; auto.
    - apply value_array_empty; auto. - apply value_array; auto. - apply value_object_empty; auto. - apply value_object; auto.
    - apply elements_one; auto. - apply elements_more; auto. - apply member_intro; auto. - apply members_one; auto.
    - apply members_more; auto. }
  intros s e [w1 e1 v ev w2 e2 H1 Hv H2]. constructor; auto.
  destruct H2; [apply ws_end; auto|apply ws_end_line; auto].
Qed.
End Grammar.

Lemma reported_nested loose spec evs : Forall2 (reported loose) spec evs -> forall st, nested st evs = nested st spec.
Proof.
  induction 1 as [|a b spec evs R _ IH]; intros st; [reflexivity|]. cbn.
  replace (event_stack b st) with (event_stack a st).
  - destruct (event_stack a st); auto.
  - destruct R; reflexivity.
Qed.

(** An accepted source starts with a JSON text. Its calls are the ones made, up to the text and position of block
    comments and the text from which numbers are converted; they are balanced, and each one is
    at its place in the source. *)
Theorem C31_parse_sound : forall src o evs, parse_json src o = Ok (true, evs) ->
  balanced evs
  /\ Forall (fun e => ~ is_error e /\ (is_block_comment e \/ located src e)) evs
  /\ exists text rest spec, src = text ++ rest
     /\ jtext lenient_blank o (position_of src) text spec /\ Forall2 (reported true) spec evs.
Proof.
  intros src o evs E. pose proof (parse_sound src o) as H. rewrite E in H. cbn in H.
  destruct H as (text & rest & spec & Es & J & R & G). split; [|split].
  - unfold balanced. rewrite (reported_nested _ _ _ R). apply (text_neutral _ _ _ _ _ J).
  - eapply Forall_impl; [|exact G]. intros e [A B]. split; assumption.
  - exists text, rest, spec. auto.
Qed.
Print Assumptions C31_parse_sound.

(** Every JSON text is accepted, with its calls. *)
Theorem C31_parse_complete : forall src o evs, json_text rfc_blank o src evs ->
  exists evs', parse_json src o = Ok (true, evs') /\ Forall2 (reported false) evs evs'.
Proof.
  intros src o evs H. apply parse_complete. eapply text_blank; [|exact H]. intros c Hc. left. exact Hc.
Qed.
Print Assumptions C31_parse_complete.
Definition plain : json_options := mk_json_options false false esc_none.
Definition full : json_options := mk_json_options true true esc_parse_encode.
Example C31_case : json_text rfc_blank full (bs "[1] ")
    (let pos := position_of (bs "[1] ") in
     [EvPushArray (pos 0); EvNumberValue (pos 1) (bs "1") (bs "1"); EvPopArray (pos 2)])
  /\ (exists evs, parse_json (bs "{""a"": [1, /* c */ ""\näx""], ""b"": null} ]") full = Ok (true, evs) /\ length evs = 17).
Proof.
  split; [|eexists; vm_compute; split; reflexivity].
  unfold json_text. cbv zeta. set (pos := position_of (bs "[1] ")). clearbody pos.
  refine (text_intro rfc_blank full pos [] [] (bs "[1]")
    [EvPushArray (pos 0); EvNumberValue (pos 1) (bs "1") (bs "1"); EvPopArray (pos 2)] (bs " ") [] _ _ _).
  - constructor.
  - refine (value_array rfc_blank full pos 0 [] [] (bs "1") [EvNumberValue (pos 1) (bs "1") (bs "1")] _ _); [constructor|].
    refine (elements_one rfc_blank full pos 1 (bs "1") [EvNumberValue (pos 1) (bs "1") (bs "1")] [] [] _ _); [|constructor].
    refine (value_number rfc_blank full pos 1 (bs "1") _).
    apply (number_intro [] (bs "1") [] []); [cbn; auto|apply int_digit; cbn; lia|constructor|constructor].
  - apply ws_end, ws_blank; [cbn; auto|constructor].
Qed.

(** ** C32 *)
Lemma number_chars t : json_number t -> Forall (fun c => c <> 32%N /\ c <> 12%N) t.
Proof.
  assert (D : forall s, digits1 s -> Forall (fun c => c <> 32%N /\ c <> 12%N) s).
  { induction 1 as [c H|c s H Hs IH]; (constructor; [unfold digit in H; lia|]); auto. }
  intros H. destruct H as [m i f e Hm Hi Hf He]. repeat (apply Forall_app; split).
  - destruct Hm as [<-|[<-|[]]]; repeat constructor; discriminate.
  - destruct Hi as [|c Hc|c s Hc Hs]; repeat constructor; try discriminate; try lia. auto.
  - destruct Hf; [constructor|]. apply Forall_app. split; [|auto]. repeat constructor; discriminate.
  - destruct He as [|e sg s He Hs Hd]; [constructor|]. repeat (apply Forall_app; split); [| |auto].
    + destruct He as [<-|[<-|[]]]; repeat constructor; discriminate.
    + destruct Hs as [<-|[<-|[<-|[]]]]; repeat constructor; discriminate.
Qed.

Lemma plain_ws blank pos i w e : jws blank plain pos i w e -> Forall blank w.
Proof. induction 1; [constructor|constructor; auto|discriminate|discriminate]. Qed.
Lemma plain_ws_end blank pos i w e : jws_end blank plain pos i w e -> Forall blank w.
Proof. intros [? ? ? H|? ? ? ? H]; [eapply plain_ws; eassumption|discriminate]. Qed.

Lemma not_text_garbage (blank : N -> Prop) evs : (forall c, blank c -> lenient_blank c) -> ~ json_text blank plain (bs "1 2") evs.
Proof.
  intros B H. unfold json_text in H. remember (position_of (bs "1 2")) as pos eqn:Hpos. clear Hpos.
  remember (bs "1 2") as src eqn:E. destruct H as [w1 e1 v ev w2 e2 H1 Hv H2].
  apply plain_ws in H1. apply plain_ws_end in H2.
  destruct w1 as [|c w1].
  2:{ injection E as -> _. inversion H1 as [|? ? X]; subst. apply B in X. destruct X as [X|X]; [cbn in X|]; intuition discriminate. }
  cbn [app] in E.
  assert (w2 = []) as ->.
  { destruct w2 as [|c w2] using rev_ind; [reflexivity|]. rewrite app_assoc in E.
    change (bs "1 2") with (bs "1 " ++ bs "2") in E. apply app_inj_tail in E as [_ ->].
    apply Forall_app in H2 as [_ H2]. inversion H2 as [|? ? X]; subst. apply B in X.
    destruct X as [X|X]; [cbn in X|]; intuition discriminate. }
  rewrite app_nil_r in E. subst v. inversion Hv; subst; try discriminate.
  match goal with H : json_number _ |- _ => apply number_chars in H; rename H into X end.
  inversion X as [|? ? _ Y]; subst. inversion Y as [|? ? [Z _] _]; subst. apply Z. reflexivity.
Qed.

Lemma not_text_feed evs : ~ json_text rfc_blank plain (12%N :: bs "1") evs.
Proof.
  intros H. unfold json_text in H. remember (position_of (12%N :: bs "1")) as pos eqn:Hpos. clear Hpos.
  remember (12%N :: bs "1") as src eqn:E. destruct H as [w1 e1 v ev w2 e2 H1 Hv H2].
  apply plain_ws in H1. destruct w1 as [|c w1].
  - inversion Hv; subst; try discriminate.
    match goal with H : json_number _ |- _ => apply number_head in H as (c & r & -> & H) end.
    injection E as -> _. destruct H as [H|H]; [discriminate|unfold digit in H; lia].
  - injection E as -> _. inversion H1 as [|? ? X]; subst. cbn in X. intuition discriminate.
Qed.

Theorem C32_whole_source_refuted :
  ~ (forall src o evs, parse_json src o = Ok (true, evs) -> exists spec, json_text lenient_blank o src spec).
Proof.
  intros H. destruct (H (bs "1 2") plain [EvNumber (mk_position 0 0 0) (bs "1")]) as (spec & J); [vm_compute; reflexivity|].
  eapply not_text_garbage; [|exact J]. auto.
Qed.
Print Assumptions C32_whole_source_refuted.
Theorem C32_form_feed_refuted :
  ~ (forall src o evs, parse_json src o = Ok (true, evs) ->
     exists text rest spec, src = text ++ rest /\ jtext rfc_blank o (position_of src) text spec).
Proof.
  intros H. destruct (H (12%N :: bs "1") plain [EvNumber (mk_position 1 0 1) (bs "1")]) as (text & rest & spec & E & J); [vm_compute; reflexivity|].
  destruct text as [|a text].
  { remember [] as s. destruct J as [w1 e1 v ev w2 e2 H1 Hv H2]. destruct w1; [|discriminate]. destruct v; [|discriminate].
    inversion Hv; subst; try discriminate.
    match goal with H : json_number _ |- _ => apply number_head in H as (c & r & X & _); discriminate end. }
  injection E as <- E. remember (12%N :: text) as s. destruct J as [w1 e1 v ev w2 e2 H1 Hv H2].
  apply plain_ws in H1. destruct w1 as [|c w1].
  - inversion Hv; subst; try discriminate.
    match goal with H : json_number _ |- _ => apply number_head in H as (c & r & -> & H) end.
    match goal with H : _ = 12%N :: _ |- _ => injection H as -> _ end. destruct H0 as [X|X]; [discriminate|unfold digit in X; lia].
  - injection Heqs as -> _. inversion H1 as [|? ? X]; subst. cbn in X. intuition discriminate.
Qed.
Print Assumptions C32_form_feed_refuted.
(** What holds: the source starts with a JSON text (whose blanks may include form feeds). *)
Theorem C32_accepts_json_prefix_partial : forall src o evs, parse_json src o = Ok (true, evs) ->
  exists text rest spec, src = text ++ rest /\ jtext lenient_blank o (position_of src) text spec.
Proof.
  intros src o evs E. destruct (C31_parse_sound _ _ _ E) as (_ & _ & text & rest & spec & A & B & _).
  exists text, rest, spec. auto.
Qed.
Print Assumptions C32_accepts_json_prefix_partial.
Example C32_case : exists evs, parse_json (bs "{""a"": [1.5e3]}") plain = Ok (true, evs) /\ length evs = 8.
Proof. eexists. vm_compute. split; reflexivity. Qed.

(** ** C33 *)
Theorem C33_silent_failure_refuted :
  ~ (forall src o evs, parse_json src o = Ok (false, evs) -> Exists is_error evs).
Proof.
  intros H. specialize (H (bs "[1, t]") plain [EvPushArray (mk_position 0 0 0); EvNumber (mk_position 1 0 1) (bs "1")]).
  assert (X : Exists is_error [EvPushArray (mk_position 0 0 0); EvNumber (mk_position 1 0 1) (bs "1")]) by (apply H; vm_compute; reflexivity).
  inversion X as [? ? Y|? ? Y]; subst; [exact Y|]. inversion Y as [? ? Z|? ? Z]; subst; [exact Z|inversion Z].
Qed.
Print Assumptions C33_silent_failure_refuted.
Theorem C33_unreachable_refuted : ~ (forall src o, exists b evs, parse_json src o = Ok (b, evs)).
Proof. intros H. destruct (H (bs "{1:2}") plain) as (b & evs & E). vm_compute in E. discriminate. Qed.
Print Assumptions C33_unreachable_refuted.

(** What holds: errors are reported only by failed parses, one at the end at a position of the
    source; a parse that fails without one stops where a value is missing; the only other outcome
    is the failed assertion, where a key is missing. *)
Theorem C33_failed_parse_partial : forall src o,
  match parse_json src o with
  | Ok (true, evs) => Forall (fun e => ~ is_error e) evs
  | Ok (false, evs) => exists calls last, evs = calls ++ last
      /\ Forall (fun e => ~ is_error e /\ (is_block_comment e \/ located src e)) calls
      /\ ((exists i e, i <= length src /\ last = [EvError (position_of src i) e])
          \/ last = [] /\ exists i, i <= length src /\ value_missing (skipn i src))
  | Fail f => f = FDebugAssert /\ key_missing o src
  end.
Proof.
  intros src o. pose proof (parse_sound src o) as H. destruct (parse_json src o) as [[[|] evs]|f]; [| |exact H].
  - destruct H as (text & rest & spec & _ & _ & _ & G). eapply Forall_impl; [|exact G]. intros e [_ B]. exact B.
  - destruct H as (calls & last & E & G & T). exists calls, last. split; [exact E|]. split.
    + eapply Forall_impl; [|exact G]. intros e [A B]. split; assumption.
    + destruct T as [[A B]|A]; auto.
Qed.
Print Assumptions C33_failed_parse_partial.
Example C33_case : parse_json (bs "[1 2]") plain = Ok (false,
  [EvPushArray (mk_position 0 0 0); EvNumber (mk_position 1 0 1) (bs "1"); EvError (mk_position 3 0 3) err_illegal_character]).
Proof. vm_compute. reflexivity. Qed.

(** ** C34 *)
Theorem C34_block_comments_refuted :
  ~ (forall src o evs p t, parse_json src o = Ok (true, evs) -> In (EvBlockComment p t) evs -> block_comment t).
Proof.
  intros H. destruct (H (bs "/*a*/1") full [EvBlockComment (mk_position 5 0 5) (bs "1");
    EvNumberValue (mk_position 5 0 5) (bs "1") (bs "1")] (mk_position 5 0 5) (bs "1")) as (body & E & _).
  - vm_compute. reflexivity.
  - left. reflexivity.
  - discriminate.
Qed.
Print Assumptions C34_block_comments_refuted.

Lemma line_in_ws blank o pos i w e p t : jws blank o pos i w e -> In (EvLineComment p t) e -> line_comment t.
Proof.
  induction 1; intros Hi; [destruct Hi|auto| |].
  - destruct Hi as [E|Hi]; [injection E as _ ->; assumption|auto].
  - destruct Hi as [E|Hi]; [discriminate|auto].
Qed.
Lemma line_in_chars o pos i s e p t : jchars o pos i s e -> In (EvLineComment p t) e -> False.
Proof.
  induction 1 as [i|i u v s e es J E H IH|i u s es Ht F Hs H IH]; intros Hi; [destruct Hi| |].
  - destruct Hi as [->|Hi]; [|auto]. unfold escape_event in E. destruct (jo_escapes o); discriminate.
  - destruct Hi as [E|Hi]; [discriminate|auto].
Qed.
Ltac ins := repeat match goal with
  | H : In _ (_ ++ _) |- _ => apply in_app_or in H as [H|H]
  | H : In _ [_] |- _ => destruct H as [H|[]]; try discriminate
  end.
Lemma line_in_text blank o pos s e p t : jtext blank o pos s e -> In (EvLineComment p t) e -> line_comment t.
Proof.
  assert (V : forall i s e, jvalue blank o pos i s e -> In (EvLineComment p t) e -> line_comment t).
  { apply (value_mut blank o pos (fun _ _ e => In (EvLineComment p t) e -> line_comment t)
      (fun _ _ e => In (EvLineComment p t) e -> line_comment t)
      (fun _ _ e => In (EvLineComment p t) e -> line_comment t)
      (fun _ _ e => In (EvLineComment p t) e -> line_comment t)); intros; unfold number_event in *; ins;
      try solve [auto | exfalso; eapply line_in_chars; eassumption
        | match goal with Hi : In _ ?e, H : jws _ _ _ _ _ ?e |- _ => exact (line_in_ws _ _ _ _ _ _ _ _ H Hi) end].
    destruct (jo_numbers o); discriminate. }
  intros [w1 e1 v ev w2 e2 H1 Hv H2] Hi. ins; [eapply line_in_ws; eassumption|eapply V; eassumption|].
  destruct H2 as [? ? ? H|? ? ? u _ H U]; ins; [eapply line_in_ws; eassumption|eapply line_in_ws; eassumption|].
  injection Hi as _ ->. exact U.
Qed.

(** What holds: line comments, whether or not the source is accepted, and the order of all comments. *)
Definition is_comment (e : event) : bool :=
  match e with EvLineComment _ _ | EvBlockComment _ _ => true | _ => false end.
Theorem C34_line_comments_partial : forall src o b evs p t,
  parse_json src o = Ok (b, evs) -> In (EvLineComment p t) evs ->
  (exists l r, src = l ++ t ++ r /\ p = position_of src (length l))
  /\ (b = true -> line_comment t).
Proof.
  intros src o b evs p t E Hi. split.
  - assert (G : good src (EvLineComment p t)).
    { pose proof (parse_sound src o) as H. rewrite E in H. cbn in H. destruct b.
      - destruct H as (_ & _ & _ & _ & _ & _ & G). rewrite Forall_forall in G. auto.
      - destruct H as (calls & last & -> & G & T). rewrite Forall_forall in G. apply in_app_or in Hi as [Hi|Hi]; [auto|].
        destruct T as [[-> _]|(j & e & _ & ->)]; [destruct Hi|]. destruct Hi as [Hi|[]]. discriminate. }
    destruct G as [[[]|(l & r & A & B)] _]. exists l, r. auto.
  - intros ->. destruct (C31_parse_sound _ _ _ E) as (_ & _ & text & rest & spec & _ & J & R).
    eapply line_in_text; [exact J|]. instantiate (1 := p). clear -R Hi.
    induction R as [|x y spec evs X _ IH]; [destruct Hi|]. destruct Hi as [->|Hi]; [left|right; auto].
    inversion X; subst; reflexivity.
Qed.
Print Assumptions C34_line_comments_partial.
Theorem C34_comment_calls_partial : forall src o evs, json_text rfc_blank o src evs ->
  exists evs', parse_json src o = Ok (true, evs') /\ map is_comment evs' = map is_comment evs.
Proof.
  intros src o evs H. destruct (C31_parse_complete _ _ _ H) as (evs' & E & R). exists evs'. split; [exact E|].
  clear -R. induction R as [|x y l l' X _ IH]; [reflexivity|]. cbn. f_equal; [inversion X; reflexivity|exact IH].
Qed.
Print Assumptions C34_comment_calls_partial.
Example C34_case : parse_json (bs "1 //x") full = Ok (true,
  [EvNumberValue (mk_position 0 0 0) (bs "1") (bs "1"); EvLineComment (mk_position 2 0 2) (bs "//x")]).
Proof. vm_compute. reflexivity. Qed.

(** ** C57: numbers are converted from their own text *)
Definition own_text (e : event) : Prop := match e with EvNumberValue _ t c => c = t | _ => True end.
Theorem C57_number_value_refuted :
  ~ (forall src o evs, parse_json src o = Ok (true, evs) -> Forall own_text evs).
Proof.
  intros H. specialize (H (bs "0x1") full [EvNumberValue (mk_position 0 0 0) (bs "0") (bs "0x1")]).
  assert (X : Forall own_text [EvNumberValue (mk_position 0 0 0) (bs "0") (bs "0x1")]) by (apply H; vm_compute; reflexivity).
  inversion X as [|? ? Y]; subst. discriminate.
Qed.
Print Assumptions C57_number_value_refuted.
Lemma text_own blank o pos s e : jtext blank o pos s e -> Forall own_text e.
Proof.
  assert (W : forall i w e, jws blank o pos i w e -> Forall own_text e).
  { induction 1; auto; constructor; auto; exact I. }
  assert (C : forall i w e, jchars o pos i w e -> Forall own_text e).
  { induction 1 as [i|i u v s0 e0 es J E H IH|i u s0 es Ht F Hs H IH]; constructor; auto; [|exact I].
    unfold escape_event in E. destruct (jo_escapes o); subst; exact I. }
  assert (V : forall i s e, jvalue blank o pos i s e -> Forall own_text e).
  { apply (value_mut blank o pos (fun _ _ e => Forall own_text e) (fun _ _ e => Forall own_text e)
      (fun _ _ e => Forall own_text e) (fun _ _ e => Forall own_text e)); intros;
      repeat (apply Forall_app; split); eauto; try (constructor; [exact I|constructor]).
    constructor; [|constructor]. unfold number_event. destruct (jo_numbers o); reflexivity || exact I. }
  intros [w1 e1 v ev w2 e2 H1 Hv H2]. repeat (apply Forall_app; split); eauto.
  destruct H2; [eauto|]. apply Forall_app. split; [eauto|]. constructor; [exact I|constructor].
Qed.
(** What holds: in a JSON text every number is converted from its own text. *)
Theorem C57_number_value_partial : forall src o spec, json_text rfc_blank o src spec ->
  exists evs, parse_json src o = Ok (true, evs) /\ Forall own_text evs.
Proof.
  intros src o spec H. destruct (C31_parse_complete _ _ _ H) as (evs & E & R). exists evs. split; [exact E|].
  apply text_own in H. clear -R H. induction R as [|x y l l' X _ IH]; [constructor|]. inversion H; subst. constructor; [|auto].
  inversion X; subst; first [assumption | exact I | discriminate].
Qed.
Print Assumptions C57_number_value_partial.
