(** * Lua through the C API *)
From Coq Require Import List NArith Bool Arith Lia.
From Verif Require Import M_Base L_Base M_Buffer L_Buffer S_Tokens M_Emit S_Ops L_Emit M_Types S_Html M_Html L_Html M_Lang M_Api S_Api L_Api S_Json S_Lexemes L_Lexemes
  M_LangLua S_LangLua P_LangLua M_LuaApi.
Import ListNotations.

(** ** Tokens in sequence *)
Inductive seq_in : nat -> nat -> list token -> Prop :=
| seq_nil lo hi : lo <= hi -> seq_in lo hi []
| seq_cons lo hi t r : lo <= tk_begin t -> seq_in (tk_end t) hi r -> seq_in lo hi (t :: r).
Lemma seq_in_cons lo hi t r : seq_in lo hi (t :: r) -> lo <= tk_begin t /\ seq_in (tk_end t) hi r.
Proof. intros H. inversion H; subst. auto. Qed.
Lemma in_sequence_tail n t r : in_sequence n (t :: r) -> in_sequence n r.
Proof.
  intros [H1 H2]. split; [intros u Hu; apply H1; now right|]. intros i j u v L Hi Hj. apply (H2 (S i) (S j) u v); [lia|exact Hi|exact Hj].
Qed.
Lemma in_sequence_seq n ts : in_sequence n ts -> forall lo, lo <= n -> (forall t, In t ts -> lo <= tk_begin t) -> seq_in lo n ts.
Proof.
  induction ts as [|t r IH]; intros H lo L B; [constructor; exact L|]. constructor; [apply B; left; reflexivity|].
  apply IH; [eapply in_sequence_tail; exact H|apply H; left; reflexivity|]. intros u Hu. apply In_nth_error in Hu. destruct Hu as (j & Hj).
  apply (proj2 H 0 (S j) t u); [lia|reflexivity|exact Hj].
Qed.
Lemma seq_in_bounds lo hi ts : seq_in lo hi ts -> lo <= hi /\ last_end lo ts <= hi /\ lo <= last_end lo ts /\ forall t, In t ts -> tk_begin t <= hi.
Proof.
  induction 1 as [lo hi L|lo hi t r L H (I1 & I2 & I3 & I4)]; [cbn; repeat split; [lia|lia|lia|tauto]|]. rewrite last_end_cons. unfold tk_end in *.
  repeat split; [lia|exact I2|lia|]. intros u [<-|Hu]; [lia|exact (I4 u Hu)].
Qed.

Lemma seq_html_text tag attr src ts : ~ In (ch ">") tag -> ~ In (ch ">") attr ->
  forall pos rest, seq_in pos (length src) ts ->
  html_text false (tokens_html tag attr src pos ts ++ rest)
  = option_map (app (firstn (last_end pos ts - pos) (skipn pos src))) (html_text false rest).
Proof.
  intros Ht Ha. induction ts as [|t ts IH]; intros pos rest H.
  - cbn. rewrite Nat.sub_diag. simpl. now destruct (html_text false rest).
  - apply seq_in_cons in H. destruct H as (H1 & H3).
    cbn [tokens_html]. unfold token_html. rewrite <- !app_assoc, html_text_escape.
    rewrite html_text_start_tag by auto using short_string_no_gt.
    rewrite html_text_escape, html_text_end_tag by assumption. rewrite (IH _ _ H3).
    pose proof (seq_in_bounds _ _ _ H3) as (_ & H4 & H5 & _).
    rewrite last_end_cons. destruct (html_text false rest) as [x|]; [|reflexivity].
    cbn [option_map]. f_equal. rewrite !app_assoc. f_equal. unfold tk_end in *.
    set (e := last_end _ ts) in *. clearbody e.
    set (b := tk_begin t) in *. set (l := tk_len t) in *. clearbody b l.
    transitivity (firstn ((b - pos) + (l + (e - (b + l)))) (skipn pos src)).
    2:{ f_equal. lia. }
    assert (G : forall a n (s : str), firstn (a + n) s = firstn a s ++ firstn n (skipn a s)).
    { intros a n s. revert s. induction a as [|a IHa]; intros s; [reflexivity|].
      destruct s; simpl; [now rewrite firstn_nil|]. f_equal. apply IHa. }
    rewrite (G (b - pos)), (G l), <- app_assoc, !skipn_skipn.
    replace (b - pos + pos) with b by lia. replace (pos + (b - pos)) with b by lia.
    replace (l + b) with (b + l) by lia. reflexivity.
Qed.
Lemma seq_page_text tag attr src ts : ~ In (ch ">") tag -> ~ In (ch ">") attr ->
  seq_in 0 (length src) ts -> html_text false (page tag attr src ts) = Some src.
Proof.
  intros Ht Ha Hw. unfold page. rewrite seq_html_text by assumption. rewrite <- (app_nil_r (escape _)), html_text_escape.
  cbn. rewrite app_nil_r, Nat.sub_0_r. f_equal. apply firstn_skipn.
Qed.

(** ** Rendering *)
Definition checked (dbg : bool) (n : nat) (cs : list (list token)) : Prop :=
  dbg = true -> Forall (fun c => check_flush_validity n c = true) cs.
Lemma render_in dbg tag attr src cs : checked dbg (length src) cs -> forall b pos, buf_ok b -> (forall t, In t (concat cs) -> tk_begin t <= length src) ->
  exists b', render_chunks_in dbg tag attr src (b, pos) cs = Ok (b', last_end pos (concat cs))
    /\ buf_ok b' /\ contents b' = contents b ++ tokens_html tag attr src pos (concat cs)
    /\ capacity b' = capacity b.
Proof.
  induction cs as [|c cs IH]; intros C b pos Hb Ht.
  - exists b. simpl. rewrite app_nil_r. auto.
  - cbn [render_chunks_in concat] in *. unfold render_chunk_in.
    assert (Hc : negb dbg || check_flush_validity (length src) c = true).
    { destruct dbg; [|reflexivity]. specialize (C eq_refl). inversion C; subst. assumption. }
    rewrite Hc. cbn [check bind].
    destruct (render_tokens_spec tag attr src c b pos Hb) as (b1 & E1 & H1 & H2 & H3).
    { intros t Hi. apply Ht, in_or_app. now left. }
    rewrite E1. cbn [bind]. destruct (IH ltac:(intros D; specialize (C D); inversion C; subst; assumption) b1 (last_end pos c) H1) as (b' & E' & H4 & H5 & H6).
    { intros t Hi. apply Ht, in_or_app. now right. }
    exists b'. rewrite last_end_app. split; [exact E'|]. split; [exact H4|]. split; [|congruence].
    rewrite tokens_html_app, H5, H2, app_assoc. reflexivity.
Qed.
Lemma render_invalid tag attr src cs : forall b pos, buf_ok b -> (forall t, In t (concat cs) -> tk_begin t <= length src) ->
  Exists (fun c => check_flush_validity (length src) c = false) cs -> render_chunks_in true tag attr src (b, pos) cs = Fail FAssert.
Proof.
  induction cs as [|c cs IH]; intros b pos Hb Ht X; [inversion X|]. cbn [render_chunks_in concat] in *. unfold render_chunk_in. cbn [negb orb].
  destruct (check_flush_validity (length src) c) eqn:E; [|reflexivity]. cbn [check bind].
  destruct (render_tokens_spec tag attr src c b pos Hb) as (b1 & E1 & H1 & H2 & H3).
  { intros t Hi. apply Ht, in_or_app. now left. }
  rewrite E1. cbn [bind]. apply IH; [exact H1|intros t Hi; apply Ht, in_or_app; now right|]. inversion X; subst; [congruence|assumption].
Qed.
Lemma tail_in cap tag attr src ts b1 : 0 < cap -> last_end 0 ts <= length src -> buf_ok b1 -> capacity b1 = cap ->
  contents b1 = tokens_html tag attr src 0 ts ->
  exists b2, render_tail src (b1, last_end 0 ts) = Ok b2 /\ concat (calls b2) = page tag attr src ts /\ Forall (fun c => 0 < length c <= cap) (calls b2).
Proof.
  intros Hc Hle H1 H3 H2. unfold render_tail. rewrite (proj2 (Nat.leb_le _ _) Hle). cbn [check bind].
  assert (Hg : exists b2, (if negb (last_end 0 ts =? length src)
      then append_html_escaped b1 (skipn (last_end 0 ts) src) else Ok b1) = Ok b2
      /\ buf_ok b2 /\ contents b2 = contents b1 ++ escape (skipn (last_end 0 ts) src)
      /\ capacity b2 = capacity b1).
  { destruct (last_end 0 ts =? length src) eqn:Eq; cbn [negb].
    - apply Nat.eqb_eq in Eq. rewrite Eq, skipn_all. simpl. exists b1. rewrite app_nil_r. auto.
    - now apply append_html_escaped_spec. }
  destruct Hg as (b2 & E2 & H4 & H5 & H6). rewrite E2. cbn [bind].
  eexists. split; [reflexivity|]. split.
  - assert (Hf : contents (flush b2) = concat (calls (flush b2))).
    { unfold contents. now rewrite flush_cells, app_nil_r. }
    rewrite <- Hf, flush_contents, H5, H2. reflexivity.
  - apply flush_ok in H4. destruct H4 as (_ & _ & H4).
    rewrite flush_capacity, H6, H3 in H4. exact H4.
Qed.

(** ** Tokens *)
Lemma lua_replay_capacity coal ops : forall b acc b', tb_ok b acc -> Forall (fun o => match o with OEmit _ _ _ f => f = false | ONested _ _ _ _ => False end) ops ->
  lua_replay coal b ops = Ok b' -> capacity b' = capacity b.
Proof.
  induction ops as [|[begin len ty f|] ops IH]; intros b acc b' Hb F; cbn [lua_replay]; [intros [= <-]; reflexivity| |discriminate].
  inversion F as [|? ? Hf F']; subst. intros E. rewrite (IH _ _ _ (lua_emit_spec coal b acc begin len ty Hb) F' E). unfold lua_emit.
  assert (P : forall e, capacity (push_back b e) = capacity b) by (intros e; unfold push_back; simpl; destruct (full b); [apply flush_capacity|reflexivity]).
  destruct (rev (cells b)); [apply P|]. destruct (_ && _ && _); [reflexivity|apply P].
Qed.
Lemma lua_chunks coal cap n ops : 0 < cap -> rising 0 ops n ->
  exists cs, lua_output coal cap ops = Ok cs /\ concat cs = tokens_of coal ops /\ in_sequence n (concat cs) /\ Forall (fun c => 0 < length c <= cap) cs.
Proof.
  intros Hc R. destruct (lua_output_spec coal cap n ops Hc R) as (cs & E & T & Q & _). exists cs. split; [exact E|]. split; [exact T|]. split; [exact Q|].
  unfold lua_output in E. destruct (new_buffer_ok token cap Hc) as (b & Eb & Db & Hok). destruct (new_tb_ok cap Hc) as (b0 & Eb0 & Hb). rewrite Eb0 in E, Eb. injection Eb as ->.
  cbn [bind] in E. destruct (lua_replay_spec coal ops (rising_emits _ _ _ R) b [] Hb) as (b' & Er & Hb'). rewrite Er in E. cbn [bind] in E. injection E as <-.
  pose proof (lua_replay_capacity coal ops b [] b' Hb (rising_emits _ _ _ R) Er) as C. destruct Hb' as (H4 & _). apply flush_ok in H4. destruct H4 as (_ & _ & H4).
  rewrite flush_capacity, C, Db in H4. exact H4.
Qed.
Lemma lua_runs bld st src : tokens_ready st -> has_source st src -> u_lang st = LANG_LUA ->
  exists ops cs, highlight_lua src (opt_strict (u_flags st)) = Ok (true, ops) /\ lua_source_to_tokens bld st = Ok (STATUS_OK, st, Some cs)
    /\ concat cs = tokens_of (opt_coalescing (u_flags st)) ops
    /\ in_sequence (length src) (concat cs) /\ Forall (fun c => 0 < length c <= u_token_buffer_length st) cs.
Proof.
  intros R HS L. unfold lua_source_to_tokens. rewrite (precheck_lang st R), good_lang_range by (rewrite L; vm_compute; split; discriminate).
  unfold lua_tokens_body. rewrite (has_source_view _ _ HS). cbn [bind].
  assert (Hc : 0 < u_token_buffer_length st) by (destruct R as (_ & _ & R & _); lia).
  destruct (lua_loop_ok (S (length src)) 0 src) as (ops & E & G & _); [lia|]. cbn [Nat.add] in G.
  destruct (lua_chunks (opt_coalescing (u_flags st)) _ _ _ Hc G) as (cs & O & T & Q & F).
  assert (H : highlight_lua src (opt_strict (u_flags st)) = Ok (true, ops)) by (unfold highlight_lua; rewrite E; reflexivity).
  exists ops, cs. rewrite H. cbn [bind fst snd]. rewrite O. cbn [bind]. auto.
Qed.
(** ** C203 *)
Theorem C203_lua_tokens : forall bld st src, tokens_ready st -> has_source st src -> u_lang st = LANG_LUA ->
  exists cs, lua_source_to_tokens bld st = Ok (STATUS_OK, st, Some cs)
    /\ in_sequence (length src) (concat cs) /\ Forall (fun c => 0 < length c <= u_token_buffer_length st) cs.
Proof. intros bld st src R HS L. destruct (lua_runs bld st src R HS L) as (ops & cs & _ & E & _ & Q & F). exists cs. auto. Qed.
Print Assumptions C203_lua_tokens.

Lemma chunks_valid n cs : forall lo, toks_in lo n (concat cs) -> Forall (fun c => check_flush_validity n c = true) cs.
Proof.
  induction cs as [|c cs IH]; intros lo H; [constructor|]. cbn [concat] in H. apply toks_in_app_inv in H. destruct H as (mid & H1 & H2).
  constructor; [|exact (IH _ H2)]. eapply check_flush_validity_ok. eapply toks_in_weaken; [exact H1|reflexivity|]. now apply toks_in_le in H2.
Qed.

Lemma all_nonempty lo hi ts : seq_in lo hi ts -> (forall t, In t ts -> 0 < tk_len t) -> toks_in lo hi ts.
Proof.
  induction 1 as [lo hi L|lo hi t r L Q IH]; intros D; [now constructor|]. constructor; [exact L|apply D; now left|]. apply IH. intros u Hu. apply D. now right.
Qed.

Section Html.
Context (bld : build) (st : ustate) (src tag attr : str).
Context (R : html_ready st) (T1 : u_token_buffer st <> None) (T2 : u_token_buffer_length st <> 0) (HS : has_source st src).
Context (N1 : has_text (u_html_tag_name st) (u_html_tag_name_length st) tag) (N2 : has_text (u_html_attr_name st) (u_html_attr_name_length st) attr).
Context (L : u_lang st = LANG_LUA).
Lemma lua_html_start : exists ops cs st2 b tag' attr', highlight_lua src (opt_strict (u_flags st)) = Ok (true, ops)
  /\ lua_source_to_tokens bld (set_flush_tokens st (Some internal_flush) (Some internal_flush)) = Ok (STATUS_OK, st2, Some cs)
  /\ concat cs = tokens_of (opt_coalescing (u_flags st)) ops /\ seq_in 0 (length src) (concat cs)
  /\ buf_ok b /\ contents b = [] /\ capacity b = u_text_buffer_length st
  /\ page tag' attr' src (concat cs) = page tag attr src (concat cs)
  /\ lua_source_to_html bld st = match render_chunks_in (debug bld) tag' attr' src (b, 0) cs with
      | Fail f => let* r := caught bld st2 f in Ok (r, None)
      | Ok s => match render_tail src s with
             | Ok out => Ok (STATUS_OK, st2, Some (calls out))
             | Fail f => let* r := caught bld st2 f in Ok (r, None)
             end
      end.
Proof.
  unfold lua_source_to_html. rewrite (html_precheck_ready _ R). cbv zeta.
  set (st2 := set_flush_tokens st (Some internal_flush) (Some internal_flush)).
  assert (Hr : tokens_ready st2).
  { split; [|split; [|split]]; try assumption; [|discriminate].
    intros En. destruct HS as [(_ & E & _)|(m & E & _)]; [exact E|]. simpl in En. congruence. }
  destruct (lua_runs bld st2 src Hr HS L) as (ops & cs & H & E & T & Q & F). rewrite E. cbn [bind].
  change (u_source st2) with (u_source st). change (u_source_length st2) with (u_source_length st).
  rewrite (has_source_view _ _ HS). cbn [bind].
  change (u_html_tag_name st2) with (u_html_tag_name st).
  change (u_html_tag_name_length st2) with (u_html_tag_name_length st).
  change (u_html_attr_name st2) with (u_html_attr_name st).
  change (u_html_attr_name_length st2) with (u_html_attr_name_length st).
  change (u_text_buffer_length st2) with (u_text_buffer_length st).
  rewrite (has_text_view _ _ _ N1), (has_text_view _ _ _ N2).
  assert (Htcap : 0 < u_text_buffer_length st) by (destruct R as (_ & X & _); lia).
  assert (G : exists tag' attr', (match cs with [] => Ok [] | _ => Ok tag end) = Ok tag'
      /\ (match cs with [] => Ok [] | _ => Ok attr end) = Ok attr'
      /\ page tag' attr' src (concat cs) = page tag attr src (concat cs)).
  { destruct cs; [exists [], []|exists tag, attr]; auto. }
  destruct G as (tag' & attr' & -> & -> & Hp). cbn [bind].
  destruct (new_buffer_ok N _ Htcap) as (b & Eb & Db & Hok). rewrite Eb. cbn [bind].
  exists ops, cs, st2, b, tag', attr'. split; [exact H|]. split; [reflexivity|]. split; [exact T|]. split; [apply in_sequence_seq; [exact Q|lia|lia]|].
  split; [exact Hok|]. split; [rewrite Db; reflexivity|]. split; [rewrite Db; reflexivity|]. split; [exact Hp|]. reflexivity.
Qed.
Lemma lua_html_ok : ~ In (ch ">") tag -> ~ In (ch ">") attr ->
  (debug bld = false \/ forall d f status st' cs, lua_source_to_tokens bld (set_flush_tokens st (Some d) (Some f)) = Ok (status, st', Some cs) ->
    forall t, In t (concat cs) -> 0 < tk_len t) ->
  exists st' out, lua_source_to_html bld st = Ok (STATUS_OK, st', Some out)
    /\ html_text false (concat out) = Some src
    /\ html_doc tag attr (fun id => exists t, id = short_string t) (concat out)
    /\ Forall (fun c => 0 < length c <= u_text_buffer_length st) out.
Proof.
  intros G1 G2 D. destruct lua_html_start as (ops & cs & st2 & b & tag' & attr' & H & E & T & Q & B1 & B2 & B3 & P & X). rewrite X. clear X.
  pose proof (seq_in_bounds _ _ _ Q) as (_ & Q1 & _ & Q2).
  assert (C : checked (debug bld) (length src) cs).
  { intros Db. destruct D as [D|D]; [congruence|]. specialize (D _ _ _ _ _ E). apply (chunks_valid _ _ 0). apply all_nonempty; assumption. }
  destruct (render_in (debug bld) tag' attr' src cs C b 0 B1 Q2) as (b1 & E1 & H1 & H2 & H3). rewrite E1.
  assert (Htcap : 0 < u_text_buffer_length st) by (destruct R as (_ & Y & _); lia).
  rewrite B2 in H2. cbn [app] in H2. rewrite B3 in H3.
  destruct (tail_in (u_text_buffer_length st) tag' attr' src (concat cs) b1 Htcap Q1 H1 H3 H2) as (b2 & E2 & O & F). rewrite E2.
  exists st2, (calls b2). split; [reflexivity|]. rewrite O, P. split; [apply seq_page_text; assumption|]. split; [|exact F].
  eapply html_doc_mono; [|apply page_doc]. intros id (t & _ & ->). eauto.
Qed.
(** In debug builds, a comment without text at the end of the source is an internal error. *)
Lemma lua_html_debug ops' : debug bld = true -> (forall strict, highlight_lua src strict = Ok (true, ops')) ->
  (exists t, In t (tokens_of (opt_coalescing (u_flags st)) ops') /\ tk_begin t = length src) ->
  exists st2, lua_source_to_html bld st = let* r := caught bld st2 FAssert in Ok (r, None).
Proof.
  intros Db H' (t & Ht & Bt). destruct lua_html_start as (ops & cs & st2 & b & tag' & attr' & H & E & T & Q & B1 & B2 & B3 & P & X). exists st2. rewrite X. clear X.
  rewrite H' in H. injection H as <-. rewrite <- T in Ht. pose proof (seq_in_bounds _ _ _ Q) as (_ & _ & _ & Q2). rewrite Db.
  rewrite (render_invalid tag' attr' src cs b 0 B1 Q2); [reflexivity|]. apply in_concat in Ht. destruct Ht as (c & Hc & Ht). apply Exists_exists. exists c. split; [exact Hc|].
  clear -Ht Bt. induction c as [|u c IH]; [destruct Ht|]. cbn [check_flush_validity]. destruct Ht as [->|Ht].
  - rewrite Bt, Nat.ltb_irrefl. reflexivity.
  - rewrite (IH Ht). apply andb_false_r.
Qed.
End Html.

Theorem C203_lua_html_partial : forall bld st src tag attr,
  html_ready st -> u_token_buffer st <> None -> u_token_buffer_length st <> 0 -> has_source st src ->
  has_text (u_html_tag_name st) (u_html_tag_name_length st) tag ->
  has_text (u_html_attr_name st) (u_html_attr_name_length st) attr ->
  ~ In (ch ">") tag -> ~ In (ch ">") attr -> u_lang st = LANG_LUA ->
  (debug bld = false \/ forall d f status st' cs, lua_source_to_tokens bld (set_flush_tokens st (Some d) (Some f)) = Ok (status, st', Some cs) ->
    forall t, In t (concat cs) -> 0 < tk_len t) ->
  exists st' out, lua_source_to_html bld st = Ok (STATUS_OK, st', Some out)
    /\ html_text false (concat out) = Some src
    /\ html_doc tag attr (fun id => exists t, id = short_string t) (concat out)
    /\ Forall (fun c => 0 < length c <= u_text_buffer_length st) out.
Proof. intros. now apply lua_html_ok. Qed.
Print Assumptions C203_lua_html_partial.

Lemma empty_comment_last coal l : exists t, In t (tokens_of coal (tokens 0 (l ++ [(bs "--", Some hl_comment_delim); ([], Some hl_comment)])))
  /\ tk_begin t = length (text (l ++ [(bs "--", Some hl_comment_delim); ([], Some hl_comment)])).
Proof.
  set (n := length (text l)). exists (mk_token (n + 2) 0 hl_comment). split.
  - unfold tokens_of. apply -> in_rev. rewrite tokens_app. cbn [tokens]. fold n.
    assert (A : forall o1 acc o2, rtokens coal acc (o1 ++ o2) = rtokens coal (rtokens coal acc o1) o2) by (induction o1 as [|o o1 IH]; intros acc o2; [reflexivity|apply IH]).
    rewrite A. cbn [rtokens out_op_rtokens]. generalize (rtokens coal [] (tokens 0 l)) as acc. intros acc.
    change (length (bs "--")) with 2. change (length (@nil N)) with 0. change (0 + n) with n.
    unfold add_token at 1. destruct (add_token coal false acc n 2 hl_comment_delim) as [|u r] eqn:E; [left; reflexivity|].
    assert (U : tk_type u = hl_comment_delim).
    { unfold add_token in E. destruct acc as [|v acc]; [injection E as <- _; reflexivity|]. destruct (_ && _ && _) eqn:C; injection E as <- _; [|reflexivity].
      cbn [tk_type]. apply andb_true_iff in C. destruct C as [C _]. apply andb_true_iff in C. destruct C as [_ C]. now apply N.eqb_eq. }
    rewrite U. change (hl_comment_delim =? hl_comment)%N with false. rewrite andb_false_r. left. reflexivity.
  - cbn [tk_begin]. rewrite text_app, app_length. reflexivity.
Qed.
Theorem C203_lua_html_debug : forall bld st l tag attr,
  html_ready st -> u_token_buffer st <> None -> u_token_buffer_length st <> 0 ->
  program lua_space lua_lexeme (l ++ [(bs "--", Some hl_comment_delim); ([], Some hl_comment)]) ->
  has_source st (text l ++ bs "--") ->
  has_text (u_html_tag_name st) (u_html_tag_name_length st) tag ->
  has_text (u_html_attr_name st) (u_html_attr_name_length st) attr ->
  u_lang st = LANG_LUA -> debug bld = true ->
  if with_exceptions bld
  then exists st', lua_source_to_html bld st = Ok (STATUS_INTERNAL_ERROR, st', None) /\ has_text (u_error st') (u_error_length st') (bs "An internal error occurred.")
  else lua_source_to_html bld st = Fail FAssert.
Proof.
  intros bld st l tag attr R T1 T2 P HS N1 N2 L D. assert (E : text l ++ bs "--" = text (l ++ [(bs "--", Some hl_comment_delim); ([], Some hl_comment)])) by (rewrite text_app; reflexivity).
  rewrite E in HS. destruct (lua_html_debug bld st _ tag attr R T1 T2 HS N1 N2 L _ D (C107_lua_lexemes _ P) (empty_comment_last _ l)) as (st2 & X).
  rewrite X. unfold caught. destruct (with_exceptions bld); cbn [bind]; [eexists; split; [reflexivity|eexists; repeat split; vm_compute; lia]|reflexivity].
Qed.
Print Assumptions C203_lua_html_debug.
