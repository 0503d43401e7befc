(** * Histories of a state *)
From Coq Require Import List NArith Bool Arith Lia.
From Verif Require Import M_Base L_Base M_Buffer S_Tokens M_Emit M_Types M_Html M_Lang M_Api S_Api M_LangSmall M_Languages M_Session S_Session.
Import ListNotations.

(** States that differ in the callback for tokens and in the error only *)
Definition same (a b : ustate) : Prop :=
  b = mk_ustate (u_source a) (u_source_length a) (u_lang a) (u_flags a) (u_token_buffer a) (u_token_buffer_length a)
        (u_flush_tokens_data b) (u_flush_tokens b) (u_html_tag_name a) (u_html_tag_name_length a) (u_html_attr_name a) (u_html_attr_name_length a)
        (u_text_buffer a) (u_text_buffer_length a) (u_flush_text_data a) (u_flush_text a) (u_error b) (u_error_length b).
Definition same_callback (a b : ustate) : Prop := u_flush_tokens_data a = u_flush_tokens_data b /\ u_flush_tokens a = u_flush_tokens b.

Lemma same_refl a : same a a. Proof. destruct a. reflexivity. Qed.
Lemma same_error a b t u : same a b -> same (set_error a t) (set_error b u).
Proof. intros H. destruct a, b. unfold same in *. cbn in *. injection H as <- <- <- <- <- <- <- <- <- <- <- <- <- <-. reflexivity. Qed.
Lemma same_error_r a b t : same a b -> same a (set_error b t).
Proof. intros H. destruct a, b. unfold same in *. cbn in *. injection H as <- <- <- <- <- <- <- <- <- <- <- <- <- <-. reflexivity. Qed.
Lemma same_flush a b d f d' f' : same a b -> same (set_flush_tokens a d f) (set_flush_tokens b d' f').
Proof. intros H. destruct a, b. unfold same in *. cbn in *. injection H as <- <- <- <- <- <- <- <- <- <- <- <- <- <-. reflexivity. Qed.

Definition outcome {A} (x y : res (api_result A)) : Prop :=
  match x, y with
  | Ok (s1, a, o1), Ok (s2, b, o2) => s1 = s2 /\ o1 = o2 /\ same a b
  | Fail f, Fail g => f = g
  | _, _ => False
  end.
Lemma caught_same bld a b f : same a b -> match caught bld a f, caught bld b f with Ok (s1, a'), Ok (s2, b') => s1 = s2 /\ same a' b' | Fail f, Fail g => f = g | _, _ => False end.
Proof. intros H. unfold caught. destruct f, (with_exceptions bld), (debug bld); cbn; auto using same_error. Qed.
Lemma caught_callback bld a f s a' : caught bld a f = Ok (s, a') -> same_callback a a'.
Proof. unfold caught. destruct f, (with_exceptions bld), (debug bld); cbn; intros [= <- <-]; split; reflexivity. Qed.
Lemma caught_self bld a f s a' : caught bld a f = Ok (s, a') -> same a a'.
Proof. unfold caught. destruct f, (with_exceptions bld), (debug bld); cbn; intros [= <- <-]; apply same_error_r, same_refl. Qed.

Lemma tokens_same bld table a b : same a b -> same_callback a b -> outcome (source_to_tokens bld table a) (source_to_tokens bld table b).
Proof.
  intros H [C1 C2]. unfold source_to_tokens.
  assert (P : tokens_precheck a = tokens_precheck b) by (destruct a, b; unfold same in H; cbn in *; injection H as <- <- <- <- <- <- <- <- <- <- <- <- <- <-; subst; reflexivity).
  assert (B : tokens_body table a = tokens_body table b) by (destruct a, b; unfold same in H; cbn in *; injection H as <- <- <- <- <- <- <- <- <- <- <- <- <- <-; subst; reflexivity).
  rewrite P, B. destruct (tokens_precheck b) as [[s t]|]; [cbn; auto using same_error|]. destruct (tokens_body table b) as [[s cs]|f]; [cbn; auto|].
  pose proof (caught_same bld a b f H) as X. destruct (caught bld a f) as [[s1 a']|], (caught bld b f) as [[s2 b']|]; cbn; intuition.
Qed.
Lemma tokens_self bld table a s a' o : source_to_tokens bld table a = Ok (s, a', o) -> same a a' /\ same_callback a a'.
Proof.
  unfold source_to_tokens. destruct (tokens_precheck a) as [[t u]|]; [intros [= <- <- <-]; split; [apply same_error_r, same_refl|split; reflexivity]|].
  destruct (tokens_body table a) as [[t cs]|f]; [intros [= <- <- <-]; split; [apply same_refl|split; reflexivity]|].
  destruct (caught bld a f) as [[t a2]|] eqn:E; [|discriminate]. cbn. intros [= <- <- <-]. split; [eapply caught_self|eapply caught_callback]; exact E.
Qed.
Lemma same_trans a b c : same a b -> same b c -> same a c.
Proof.
  intros H K. destruct a, b, c. unfold same in *. cbn in *. injection H as <- <- <- <- <- <- <- <- <- <- <- <- <- <-. injection K as <- <- <- <- <- <- <- <- <- <- <- <- <- <-. reflexivity.
Qed.
Lemma same_sym a b : same a b -> same b a.
Proof. intros H. destruct a, b. unfold same in *. cbn in *. injection H as <- <- <- <- <- <- <- <- <- <- <- <- <- <-. reflexivity. Qed.
Lemma same_precheck a b : same a b -> html_precheck a = html_precheck b.
Proof. intros H. destruct a, b. unfold same in H. cbn in *. injection H as <- <- <- <- <- <- <- <- <- <- <- <- <- <-. reflexivity. Qed.

Definition rendered bld (st : ustate) (r : api_result token) : res (api_result N) :=
    match r with
    | (status, st', None) => Ok (status, st', None)
    | (status, st', Some cs) =>
      let* src := view (u_source st) (u_source_length st) in
      let* tag := match cs with [] => Ok [] | _ =>
                  view (u_html_tag_name st) (u_html_tag_name_length st) end in
      let* attr := match cs with [] => Ok [] | _ =>
                   view (u_html_attr_name st) (u_html_attr_name_length st) end in
      let* out := new_buffer (u_text_buffer_length st) in
      match render_chunks tag attr src (out, 0) cs with
      | Fail f => let* r := caught bld st f in Ok (r, None)
      | Ok s =>
        if negb (status =? STATUS_OK)%N then Ok (status, st', Some (calls (fst s)))
        else match render_tail src s with
             | Ok out => Ok (STATUS_OK, st', Some (calls out))
             | Fail f => let* r := caught bld st' f in Ok (r, None)
             end
      end
    end.
Lemma html_is bld table st : source_to_html bld table st =
  match html_precheck st with
  | Some (status, text) => Ok (status, set_error st text, Some [])
  | None => let* r := source_to_tokens bld table (set_flush_tokens st (Some internal_flush) (Some internal_flush)) in
            rendered bld (set_flush_tokens st (Some internal_flush) (Some internal_flush)) r
  end.
Proof. reflexivity. Qed.
Lemma rendered_same bld a b s a' b' o : same a b -> same a' b' -> outcome (rendered bld a (s, a', o)) (rendered bld b (s, b', o)).
Proof.
  intros H K. unfold rendered. destruct o as [cs|]; [|cbn; auto].
  assert (V : u_source a = u_source b /\ u_source_length a = u_source_length b /\ u_html_tag_name a = u_html_tag_name b /\ u_html_tag_name_length a = u_html_tag_name_length b
    /\ u_html_attr_name a = u_html_attr_name b /\ u_html_attr_name_length a = u_html_attr_name_length b /\ u_text_buffer_length a = u_text_buffer_length b).
  { clear K. destruct a, b. unfold same in H. cbn in *. injection H as <- <- <- <- <- <- <- <- <- <- <- <- <- <-. repeat split. }
  destruct V as (-> & -> & -> & -> & -> & -> & ->).
  destruct (view (u_source b) _) as [src|]; [|reflexivity]. cbn [bind].
  destruct (match cs with [] => Ok [] | _ => view (u_html_tag_name b) _ end) as [tag|]; [|reflexivity]. cbn [bind].
  destruct (match cs with [] => Ok [] | _ => view (u_html_attr_name b) _ end) as [attr|]; [|reflexivity]. cbn [bind].
  destruct (new_buffer _) as [out|]; [|reflexivity]. cbn [bind].
  destruct (render_chunks _ _ _ _ _) as [x|f].
  - destruct (negb _); [cbn; auto|]. destruct (render_tail src x) as [y|f]; [cbn; auto|].
    pose proof (caught_same bld a' b' f K) as X. destruct (caught bld a' f) as [[s1 a2]|], (caught bld b' f) as [[s2 b2]|]; cbn; intuition.
  - pose proof (caught_same bld a b f H) as X. destruct (caught bld a f) as [[s1 a2]|], (caught bld b f) as [[s2 b2]|]; cbn; intuition.
Qed.
Lemma html_same bld table a b : same a b -> outcome (source_to_html bld table a) (source_to_html bld table b).
Proof.
  intros H. rewrite !html_is, (same_precheck _ _ H). destruct (html_precheck b) as [[s t]|]; [cbn; auto using same_error|].
  pose proof (same_flush _ _ (Some internal_flush) (Some internal_flush) (Some internal_flush) (Some internal_flush) H) as H2.
  pose proof (tokens_same bld table _ _ H2 (conj eq_refl eq_refl)) as X.
  destruct (source_to_tokens bld table (set_flush_tokens a _ _)) as [[[s1 a1] o1]|], (source_to_tokens bld table (set_flush_tokens b _ _)) as [[[s2 b1] o2]|]; cbn [outcome] in X; try contradiction.
  - destruct X as (-> & -> & X). cbn [bind]. apply rendered_same; assumption.
  - cbn. exact X.
Qed.
Lemma html_self bld table a s a' o : source_to_html bld table a = Ok (s, a', o) -> same a a' /\ (sets_flush_tokens a = false -> same_callback a a').
Proof.
  rewrite html_is. unfold sets_flush_tokens. destruct (html_precheck a) as [[t u]|]; [intros [= <- <- <-]; split; [apply same_error_r, same_refl|split; reflexivity]|].
  intros E. split; [|discriminate]. pose proof (same_flush a a (u_flush_tokens_data a) (u_flush_tokens a) (Some internal_flush) (Some internal_flush) (same_refl a)) as H.
  assert (H1 : same a (set_flush_tokens a (Some internal_flush) (Some internal_flush))) by (eapply same_trans; [|exact H]; destruct a; reflexivity). clear H.
  destruct (source_to_tokens bld table (set_flush_tokens a _ _)) as [[[s1 a1] o1]|] eqn:T; [|discriminate]. cbn [bind] in E.
  apply tokens_self in T. destruct T as [T _]. pose proof (same_trans _ _ _ H1 T) as H2. unfold rendered in E. destruct o1 as [cs|]; [|injection E as <- <- <-; exact H2].
  destruct (view (u_source _) _) as [src|]; [|discriminate]. cbn [bind] in E.
  destruct (match cs with [] => Ok [] | _ => view (u_html_tag_name _) _ end) as [tag|]; [|discriminate]. cbn [bind] in E.
  destruct (match cs with [] => Ok [] | _ => view (u_html_attr_name _) _ end) as [attr|]; [|discriminate]. cbn [bind] in E.
  destruct (new_buffer _) as [out|]; [|discriminate]. cbn [bind] in E.
  destruct (render_chunks _ _ _ _ _) as [x|f].
  - destruct (negb _); [injection E as <- <- <-; exact H2|]. destruct (render_tail src x) as [y|f]; [injection E as <- <- <-; exact H2|].
    destruct (caught bld a1 f) as [[t a3]|] eqn:C; [|discriminate]. cbn in E. injection E as <- <- <-. eapply same_trans; [exact H2|eapply caught_self; exact C].
  - destruct (caught bld _ f) as [[t a3]|] eqn:C; [|discriminate]. cbn in E. injection E as <- <- <-. eapply same_trans; [exact H1|eapply caught_self; exact C].
Qed.

(** ** Histories *)
Definition related (x y : session_state) : Prop := same (fst x) (fst y) /\ snd y = false /\ (snd x = false -> same_callback (fst x) (fst y)).
Lemma setter_related bld table x y a : is_setter a = true -> related x y -> exists x' y', act bld table x a = Ok (x', ev_none) /\ act bld table y a = Ok (y', ev_none) /\ related x' y'.
Proof.
  intros S (H & F & C). destruct x as [a1 s1], y as [b1 s2]. cbn [fst snd] in *. subst s2.
  destruct a; try discriminate; cbn [act]; do 2 eexists; (split; [reflexivity|]); (split; [reflexivity|]); unfold related; cbn [fst snd];
    (split; [destruct a1, b1; unfold same in *; cbn in *; injection H as <- <- <- <- <- <- <- <- <- <- <- <- <- <-; reflexivity|]); (split; [reflexivity|]);
    [exact C|exact C|exact C|exact C|exact C|split; reflexivity|exact C|exact C|exact C].
Qed.
Lemma call_related bld table x y a x' e : is_setter a = false -> related x y -> act bld table x a = Ok (x', e) -> related x' y.
Proof.
  intros S (H & F & C) E. destruct x as [a1 s1], y as [b1 s2]. cbn [fst snd] in *. subst s2. destruct a; try discriminate; cbn [act] in E.
  - destruct (source_to_tokens bld table a1) as [[[t a2] o]|] eqn:T; [|discriminate]. cbn [bind] in E. destruct (check _ _); [|discriminate]. cbn [bind] in E. injection E as <- <-.
    apply tokens_self in T. destruct T as [T1 T2]. split; [cbn; eapply same_trans; [apply same_sym; exact T1|exact H]|]. split; [reflexivity|]. cbn. intros Z. specialize (C Z).
    destruct C, T2. split; congruence.
  - destruct (source_to_html bld table a1) as [[[t a2] o]|] eqn:T; [|discriminate]. cbn [bind] in E. injection E as <- <-.
    apply html_self in T. destruct T as [T1 T2]. split; [cbn; eapply same_trans; [apply same_sym; exact T1|exact H]|]. split; [reflexivity|]. cbn. intros Z.
    apply orb_false_iff in Z. destruct Z as [Z1 Z2]. specialize (C Z2). specialize (T2 Z1). destruct C, T2. split; congruence.
Qed.
Lemma session_related bld table h : forall x y x' evs, related x y -> session bld table x h = Ok (x', evs) ->
  exists y' evs2, session bld table y (setters h) = Ok (y', evs2) /\ related x' y'.
Proof.
  induction h as [|a h IH]; intros x y x' evs R; cbn [session setters filter]; [intros [= <- <-]; exists y, []; auto|].
  destruct (act bld table x a) as [[x1 e]|] eqn:E; [|discriminate]. cbn [bind fst snd]. destruct (session bld table x1 h) as [[x2 evs1]|] eqn:E2; [|discriminate].
  cbn [bind fst snd]. intros [= <- <-]. destruct (is_setter a) eqn:S.
  - destruct (setter_related bld table x y a S R) as (x3 & y1 & A1 & A2 & R2). rewrite A1 in E. injection E as <- <-. destruct (IH _ _ _ _ R2 E2) as (y' & evs2 & E3 & R3).
    cbn [session]. rewrite A2. cbn [bind fst snd]. unfold setters in E3. rewrite E3. cbn [bind fst snd]. eauto.
  - apply (IH _ _ _ _ (call_related _ _ _ _ _ _ _ S R E) E2).
Qed.
Lemma renewed_fresh bld table h : forall x x' evs, session bld table x h = Ok (x', evs) ->
  (snd x = false \/ exists data fn, In (do_on_flush_tokens data fn) h) -> callback_renewed h -> snd x' = false.
Proof.
  induction h as [|a h IH]; intros x x' evs; cbn [session]; [intros [= <- <-] [H|(d & f & [])] _; exact H|].
  destruct (act bld table x a) as [[x1 e]|] eqn:E; [|discriminate]. cbn [bind fst snd]. destruct (session bld table x1 h) as [[x2 evs1]|] eqn:E2; [|discriminate].
  cbn [bind fst snd]. intros [= <- <-] H N.
  assert (N' : callback_renewed h) by (intros before after ->; destruct (N (a :: before) after eq_refl) as (d & f & I); eauto).
  apply (IH _ _ _ E2); [|exact N']. destruct x as [st stale]. cbn [snd] in H.
  assert (K : (exists d f, a = do_on_flush_tokens d f) \/ (a = call_html) \/ snd x1 = stale).
  { destruct a; cbn [act] in E; try (injection E as <- <-; auto; fail); [|right; left; reflexivity|left; eauto].
    destruct (source_to_tokens bld table st) as [[[t a2] o]|]; [|discriminate]. cbn [bind] in E. destruct (check _ _); [|discriminate]. injection E as <- <-. auto. }
  destruct K as [(d & f & ->)|[->|K]].
  - cbn in E. injection E as <- <-. left. reflexivity.
  - right. apply (N [] h). reflexivity.
  - rewrite K. destruct H as [H|(d & f & [->|I])]; [left; exact H| |right; eauto]. cbn in E. injection E as <- <-. cbn in K. left. congruence.
Qed.

Definition event_of (r : res (session_state * event)) : res event := let* x := r in Ok (snd x).
(** ** C205: the conversions leave no trace. *)
Theorem C205_history_partial : forall bld table st h s evs c,
  session bld table (st, false) h = Ok (s, evs) -> c = call_html \/ c = call_tokens /\ callback_renewed h ->
  exists s2 evs2, session bld table (st, false) (setters h) = Ok (s2, evs2) /\ event_of (act bld table s c) = event_of (act bld table s2 c).
Proof.
  intros bld table st h s evs c E Hc. destruct (session_related bld table h (st, false) (st, false) s evs) as (s2 & evs2 & E2 & R); [split; [apply same_refl|split; [reflexivity|split; reflexivity]]|exact E|].
  exists s2, evs2. split; [exact E2|]. destruct R as (R1 & R2 & R3). destruct s as [a k], s2 as [b k2]. cbn [fst snd] in *. subst k2.
  destruct Hc as [->|[-> Hc]]; cbn [act].
  - pose proof (html_same bld table a b R1) as X. destruct (source_to_html bld table a) as [[[t1 a1] o1]|], (source_to_html bld table b) as [[[t2 b1] o2]|]; cbn in X; try contradiction; [|cbn; congruence].
    destruct X as (-> & -> & _). reflexivity.
  - assert (K : k = false) by (exact (renewed_fresh _ _ _ _ _ _ E (or_introl eq_refl) Hc)). subst k.
    pose proof (tokens_same bld table a b R1 (R3 eq_refl)) as X. destruct (source_to_tokens bld table a) as [[[t1 a1] o1]|], (source_to_tokens bld table b) as [[[t2 b1] o2]|]; cbn in X; try contradiction; [|cbn; congruence].
    destruct X as (-> & -> & _). reflexivity.
Qed.
Print Assumptions C205_history_partial.

(** After a conversion to HTML, the callback for tokens is gone. *)
Lemma html_leaves bld table a s a' o : html_precheck a = None -> source_to_html bld table a = Ok (s, a', o) -> same a a' /\ u_flush_tokens a' <> None.
Proof.
  intros P E. split; [eapply html_self; exact E|]. rewrite html_is, P in E.
  destruct (source_to_tokens bld table (set_flush_tokens a _ _)) as [[[s1 a1] o1]|] eqn:T; [|discriminate]. cbn [bind] in E.
  apply tokens_self in T. destruct T as [_ [_ T]]. cbn in T. unfold rendered in E.
  assert (K : forall x, same_callback (set_flush_tokens a (Some internal_flush) (Some internal_flush)) x -> u_flush_tokens x <> None) by (intros x [_ X]; rewrite <- X; discriminate).
  assert (K1 : u_flush_tokens a1 <> None) by (rewrite <- T; discriminate).
  destruct o1 as [cs|]; [|injection E as <- <- <-; exact K1].
  destruct (view (u_source _) _) as [src|]; [|discriminate]. cbn [bind] in E.
  destruct (match cs with [] => Ok [] | _ => view (u_html_tag_name _) _ end) as [tag|]; [|discriminate]. cbn [bind] in E.
  destruct (match cs with [] => Ok [] | _ => view (u_html_attr_name _) _ end) as [attr|]; [|discriminate]. cbn [bind] in E.
  destruct (new_buffer _) as [out|]; [|discriminate]. cbn [bind] in E.
  destruct (render_chunks _ _ _ _ _) as [x|f].
  - destruct (negb _); [injection E as <- <- <-; exact K1|]. destruct (render_tail src x) as [y|f]; [injection E as <- <- <-; exact K1|].
    destruct (caught bld a1 f) as [[t a3]|] eqn:C; [|discriminate]. cbn in E. injection E as <- <- <-. apply caught_callback in C. destruct C as [_ C]. congruence.
  - destruct (caught bld _ f) as [[t a3]|] eqn:C; [|discriminate]. cbn in E. injection E as <- <- <-. apply K. eapply caught_callback. exact C.
Qed.
Lemma tokens_of_same bld table a b cs : same a b -> u_flush_tokens b <> None -> source_to_tokens bld table a = Ok (STATUS_OK, a, Some cs) -> source_to_tokens bld table b = Ok (STATUS_OK, b, Some cs).
Proof.
  intros H F. unfold source_to_tokens.
  assert (B : tokens_body table a = tokens_body table b) by (destruct a, b; unfold same in H; cbn in *; injection H as <- <- <- <- <- <- <- <- <- <- <- <- <- <-; reflexivity).
  assert (P : tokens_precheck a = None -> tokens_precheck b = None).
  { clear B. destruct a, b. unfold same in H. cbn in *. injection H as <- <- <- <- <- <- <- <- <- <- <- <- <- <-. unfold tokens_precheck. cbn.
    repeat match goal with |- (if ?c then _ else _) = None -> _ => destruct c; [discriminate|] end.
    intros K. destruct u_flush_tokens0; [exact K|congruence]. }
  assert (Q : forall s t, tokens_precheck a = Some (s, t) -> s <> STATUS_OK).
  { clear. intros s t. unfold tokens_precheck. repeat match goal with |- context [if ?c then _ else _] => destruct c end; intros [= <- <-]; discriminate. }
  destruct (tokens_precheck a) as [[s t]|] eqn:E; [intros [= -> _ _]; exfalso; exact (Q _ _ eq_refl eq_refl)|]. rewrite (P eq_refl), <- B.
  destruct (tokens_body table a) as [[s c]|f]; [intros [= -> ->]; reflexivity|]. destruct (caught bld a f) as [[s2 a2]|]; discriminate.
Qed.
Theorem C205_dangling : forall bld table st st' out c cs,
  source_to_tokens bld table st = Ok (STATUS_OK, st, Some (c :: cs)) ->
  source_to_html bld table st = Ok (STATUS_OK, st', Some out) ->
  session bld table (st, false) [call_html; call_tokens] = Fail FUB.
Proof.
  intros bld table st st' out c cs T H. cbn [session act]. rewrite H. cbn [bind fst snd].
  assert (P : html_precheck st = None).
  { rewrite html_is in H. destruct (html_precheck st) as [[s t]|] eqn:E; [|reflexivity]. exfalso. injection H as -> _ _. revert E. unfold html_precheck.
    repeat match goal with |- context [if ?c then _ else _] => destruct c end; intros [= ]. }
  unfold sets_flush_tokens. rewrite P. destruct (html_leaves _ _ _ _ _ _ P H) as [S F]. cbn [act orb]. rewrite (tokens_of_same _ _ _ _ _ S F T). reflexivity.
Qed.
Print Assumptions C205_dangling.

Lemma leaves_trace bld table st st' out c cs : source_to_tokens bld table st = Ok (STATUS_OK, st, Some (c :: cs)) ->
  source_to_html bld table st = Ok (STATUS_OK, st', Some out) ->
  session bld table (st, false) [call_html] = Ok ((st', true), [ev_html STATUS_OK (Some out)]) /\ event_of (act bld table (st', true) call_tokens) = Fail FUB.
Proof.
  intros T H. pose proof (C205_dangling _ _ _ _ _ _ _ T H) as D. cbn [session act] in *. rewrite H in *. cbn [bind fst snd] in *.
  destruct (sets_flush_tokens st) eqn:K.
  - split; [reflexivity|]. cbn [orb act] in *. destruct (source_to_tokens bld table st') as [[[t a] o]|f]; cbn [bind] in *; [|injection D as ->; reflexivity].
    destruct (check (negb (true && calls_back o)) FUB) as [u|f]; cbn [bind] in *; [discriminate D|injection D as ->; reflexivity].
  - exfalso. unfold sets_flush_tokens in K. rewrite html_is in H. destruct (html_precheck st) as [[s t]|] eqn:E; [|discriminate K]. injection H as -> _ _. revert E. unfold html_precheck.
    repeat match goal with |- context [if ?c then _ else _] => destruct c end; intros [= ].
Qed.
(** A JSON document *)
Definition json_session : ustate := set_lang (on_flush_text (set_text_buffer (on_flush_tokens (set_token_buffer (set_source ulight_init (bs "[1, 2]")) (Some 1) 4) (Some 5) (Some 6)) (Some 2) 16) (Some 3) (Some 4)) LANG_JSON.
Example C205_case : exists cs st' out, source_to_tokens (mk_build true true) (highlight_functions true) json_session = Ok (STATUS_OK, json_session, Some cs) /\ length cs = 2
  /\ source_to_html (mk_build true true) (highlight_functions true) json_session = Ok (STATUS_OK, st', Some out)
  /\ exists s evs, session (mk_build true true) (highlight_functions true) (json_session, false)
       [call_tokens; call_html; do_set_source (bs "7"); call_html; do_on_flush_tokens (Some 5) (Some 6)] = Ok (s, evs)
     /\ callback_renewed [call_tokens; call_html; do_set_source (bs "7"); call_html; do_on_flush_tokens (Some 5) (Some 6)].
Proof.
  do 3 eexists. split; [vm_compute; reflexivity|]. split; [reflexivity|]. split; [vm_compute; reflexivity|]. do 2 eexists. split; [vm_compute; reflexivity|].
  intros before after E. exists (Some 5), (Some 6).
  repeat (destruct before as [|? before]; [try discriminate; injection E as <-; cbn; tauto|injection E as _ E]). destruct before; discriminate.
Qed.
Theorem C205_history_refuted : ~ (forall bld table st h s evs c,
  session bld table (st, false) h = Ok (s, evs) -> c = call_html \/ c = call_tokens ->
  exists s2 evs2, session bld table (st, false) (setters h) = Ok (s2, evs2) /\ event_of (act bld table s c) = event_of (act bld table s2 c)).
Proof.
  intros H. destruct C205_case as (cs & st' & out & T & L & E & _).
  destruct cs as [|c cs]; [discriminate L|]. clear L. pose proof (C205_dangling _ _ _ _ _ _ _ T E) as D.
  destruct (leaves_trace _ _ _ _ _ _ _ T E) as (X1 & X2).
  destruct (H (mk_build true true) (highlight_functions true) json_session [call_html] (st', true) [ev_html STATUS_OK (Some out)] call_tokens X1 (or_intror eq_refl)) as (s2 & evs2 & S & X).
  injection S as <- <-. rewrite X2 in X. unfold act in X. rewrite T in X. discriminate X.
Qed.
Print Assumptions C205_history_refuted.
