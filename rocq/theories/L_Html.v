(** * Lemmas about HTML generation. *)
From Coq Require Import List NArith Bool Arith Lia.
From Verif Require Import M_Base L_Base M_Buffer L_Buffer S_Tokens M_Emit L_Emit M_Types L_Types
  S_Html M_Html.
Import ListNotations.

Definition entity (c : N) : str :=
  if (c =? ch "&")%N then bs "&amp;" else if (c =? ch "<")%N then bs "&lt;"
  else if (c =? ch ">")%N then bs "&gt;" else [c].

Definition escape (s : str) : str := flat_map entity s.

Lemma escape_app a b : escape (a ++ b) = escape a ++ escape b.
Proof. apply flat_map_app. Qed.

Definition special (c : N) : bool := mem c (bs "<>&").

Lemma entity_plain c : special c = false -> entity c = [c].
Proof.
  unfold special, entity. cbn [mem bs]. vm_compute (bs "<>&"). cbn [mem existsb].
  rewrite !orb_false_iff. intros (H1 & H2 & H3 & _).
  change (ch "&") with 38%N. change (ch "<") with 60%N. change (ch ">") with 62%N.
  rewrite N.eqb_sym in H1, H2, H3.
  rewrite ?H1, ?H2, ?H3. reflexivity.
Qed.

Lemma entity_special c : special c = true -> html_entity_of c = Ok (entity c).
Proof.
  unfold special. intros H. apply mem_In in H. vm_compute in H.
  destruct H as [<-|[<-|[<-|[]]]]; reflexivity.
Qed.

Lemma escape_plain a : (forall x, In x a -> special x = false) -> escape a = a.
Proof.
  induction a as [|x a IH]; intros H; [reflexivity|]. cbn [escape flat_map].
  rewrite entity_plain by (apply H; now left). simpl. f_equal. apply IH.
  intros y Hy. apply H. now right.
Qed.

(** ** What the buffer receives *)

Lemma append_html_escaped_loop_spec fuel : forall (b : buffer N) text, buf_ok b ->
  length text < fuel ->
  exists b', append_html_escaped_loop fuel b text = Ok b' /\ buf_ok b'
    /\ contents b' = contents b ++ escape text /\ capacity b' = capacity b.
Proof.
  induction fuel as [|fuel IH]; intros b text Hb Hl; [lia|].
  destruct text as [|x t].
  { simpl. exists b. rewrite app_nil_r. auto. }
  set (text := x :: t) in *.
  assert (E0 : append_html_escaped_loop (S fuel) b text =
    match find_first_of text (bs "<>&") 0 with
      | None => append b text
      | Some p =>
        let* out := append b (firstn p text) in
        match nth_error text p with
        | None => Fail FUB
        | Some c =>
          let* e := html_entity_of c in
          let* out := append out e in
          append_html_escaped_loop fuel out (skipn (p + 1) text)
        end
      end) by reflexivity.
  rewrite E0. clear E0. unfold find_first_of, find_if_from. cbn [skipn].
  change (fun c => mem c (bs "<>&")) with special.
  destruct (find_if special text) as [p|] eqn:F; cbn [option_map].
  - rewrite Nat.add_0_l in *. destruct (find_if_split _ _ _ F) as (a & c & r & Et & Hla & Hc & Ha).
    rewrite Et. subst p. rewrite firstn_app_exact.
    destruct (append_spec _ b a Hb) as (b1 & E1 & H1 & H2 & H3 & _). rewrite E1. cbn [bind].
    rewrite nth_error_app2, Nat.sub_diag by lia. cbn [nth_error].
    rewrite (entity_special c Hc). cbn [bind].
    destruct (append_spec _ b1 (entity c) H1) as (b2 & E2 & H4 & H5 & H6 & _). rewrite E2.
    cbn [bind]. rewrite skipn_app.
    replace (length a + 1 - length a) with 1 by lia. rewrite skipn_all2 by lia. cbn [skipn app].
    destruct (IH b2 r H4) as (b' & E' & H7 & H8 & H9).
    { rewrite Et, app_length in Hl. simpl in Hl. lia. }
    exists b'. split; [exact E'|]. split; [exact H7|]. split; [|lia].
    rewrite H8, H5, H2. rewrite escape_app. cbn [escape flat_map]. fold (escape r).
    rewrite (escape_plain a Ha). now rewrite <- !app_assoc.
  - destruct (append_spec _ b text Hb) as (b1 & E1 & H1 & H2 & H3 & _). exists b1.
    split; [exact E1|]. split; [exact H1|]. split; [|exact H3].
    rewrite H2. f_equal. symmetry. apply escape_plain. intros y. now apply find_if_None.
Qed.

Lemma append_html_escaped_spec (b : buffer N) text : buf_ok b ->
  exists b', append_html_escaped b text = Ok b' /\ buf_ok b'
    /\ contents b' = contents b ++ escape text /\ capacity b' = capacity b.
Proof. intros H. apply append_html_escaped_loop_spec; auto. Qed.

(** Text generated for a token list, starting at [pos]. *)
Definition start_tag (tag attr id : str) : str :=
  bs "<" ++ tag ++ bs " " ++ attr ++ bs "=" ++ id ++ bs ">".
Definition end_tag (tag : str) : str := bs "</" ++ tag ++ bs ">".

Definition token_html (tag attr src : str) (pos : nat) (t : token) : str :=
  escape (firstn (tk_begin t - pos) (skipn pos src))
  ++ start_tag tag attr (short_string (tk_type t))
  ++ escape (firstn (tk_len t) (skipn (tk_begin t) src))
  ++ end_tag tag.

Fixpoint tokens_html (tag attr src : str) (pos : nat) (ts : list token) : str :=
  match ts with
  | [] => []
  | t :: r => token_html tag attr src pos t ++ tokens_html tag attr src (tk_end t) r
  end.

Definition last_end (pos : nat) (ts : list token) : nat :=
  match rev ts with [] => pos | t :: _ => tk_end t end.

Lemma last_end_cons pos t r : last_end pos (t :: r) = last_end (tk_end t) r.
Proof.
  unfold last_end. cbn [rev]. destruct (rev r); reflexivity.
Qed.

Lemma last_end_app ts : forall pos us, last_end pos (ts ++ us) = last_end (last_end pos ts) us.
Proof.
  induction ts as [|t ts IH]; intros; simpl.
  - reflexivity.
  - now rewrite !last_end_cons, IH.
Qed.

Ltac buf_step :=
  match goal with
  | H : buf_ok ?b |- context [append ?b ?l] =>
    let b' := fresh "b" in let E := fresh "E" in let Ho := fresh "Hok" in
    let Hc := fresh "Hct" in let Hp := fresh "Hcap" in
    destruct (append_spec _ b l H) as (b' & E & Ho & Hc & Hp & _); rewrite E; cbn [bind]
  | H : buf_ok ?b |- context [append_html_escaped ?b ?l] =>
    let b' := fresh "b" in let E := fresh "E" in let Ho := fresh "Hok" in
    let Hc := fresh "Hct" in let Hp := fresh "Hcap" in
    destruct (append_html_escaped_spec b l H) as (b' & E & Ho & Hc & Hp); rewrite E; cbn [bind]
  | H : buf_ok ?b |- context [push_back ?b ?l] =>
    let b' := fresh "b" in let Ho := fresh "Hok" in
    let Hc := fresh "Hct" in let Hp := fresh "Hcap" in
    destruct (push_back_spec _ b l H) as (Ho & Hc & Hp & _);
    set (b' := push_back b l) in *; clearbody b'
  end.

Lemma render_token_spec tag attr src b pos t : buf_ok b -> tk_begin t <= length src ->
  exists b', render_token tag attr src (b, pos) t = Ok (b', tk_end t) /\ buf_ok b'
    /\ contents b' = contents b ++ token_html tag attr src pos t /\ capacity b' = capacity b.
Proof.
  intros Hb Ht. unfold render_token.
  assert (Hg : exists b0,
    (if pos <? tk_begin t
     then let* _ := check (tk_begin t <=? length src) FUB in
          append_html_escaped b (firstn (tk_begin t - pos) (skipn pos src))
     else Ok b) = Ok b0 /\ buf_ok b0
     /\ contents b0 = contents b ++ escape (firstn (tk_begin t - pos) (skipn pos src))
     /\ capacity b0 = capacity b).
  { destruct (pos <? tk_begin t) eqn:E.
    - apply Nat.leb_le in Ht. rewrite Ht. cbn [check bind]. now apply append_html_escaped_spec.
    - apply Nat.ltb_ge in E. replace (tk_begin t - pos) with 0 by lia. simpl.
      exists b. rewrite app_nil_r. auto. }
  destruct Hg as (b0 & E0 & Hok0 & Hct0 & Hcap0). rewrite E0. cbn [bind].
  apply Nat.leb_le in Ht. rewrite Ht. cbn [check bind]. cbv zeta.
  repeat buf_step.
  eexists. split; [reflexivity|]. split; [eassumption|]. split; [|congruence].
  repeat match goal with H : contents _ = _ |- _ => rewrite H; clear H end.
  unfold token_html, start_tag, end_tag.
  change (bs "<") with [ch "<"]. change (bs " ") with [ch " "]. change (bs "=") with [ch "="].
  change (bs ">") with [ch ">"].
  now rewrite <- !app_assoc.
Qed.

Lemma render_tokens_spec tag attr src ts : forall b pos, buf_ok b ->
  (forall t, In t ts -> tk_begin t <= length src) ->
  exists b', render_tokens tag attr src (b, pos) ts = Ok (b', last_end pos ts) /\ buf_ok b'
    /\ contents b' = contents b ++ tokens_html tag attr src pos ts /\ capacity b' = capacity b.
Proof.
  induction ts as [|t ts IH]; intros b pos Hb Ht.
  - exists b. simpl. rewrite app_nil_r. auto.
  - cbn [render_tokens].
    destruct (render_token_spec tag attr src b pos t Hb) as (b1 & E1 & H1 & H2 & H3).
    { apply Ht. now left. }
    rewrite E1. cbn [bind]. destruct (IH b1 (tk_end t) H1) as (b' & E' & H4 & H5 & H6).
    { intros u Hu. apply Ht. now right. }
    exists b'. rewrite last_end_cons. split; [exact E'|]. split; [exact H4|].
    split; [|congruence]. cbn [tokens_html]. now rewrite H5, H2, <- app_assoc.
Qed.

Lemma check_flush_validity_ok n ts : forall lo, toks_in lo n ts -> check_flush_validity n ts = true.
Proof.
  induction ts as [|t ts IH]; intros lo H; [reflexivity|].
  apply toks_in_cons_inv in H. destruct H as (H1 & H2 & H3).
  pose proof (toks_in_le _ _ _ H3) as H4. unfold tk_end in *. cbn [check_flush_validity].
  rewrite (IH _ H3), andb_true_r. rewrite !andb_true_iff. repeat split.
  - apply Nat.ltb_lt. lia.
  - apply Nat.leb_le. lia.
  - destruct ts as [|u r]; [reflexivity|]. apply toks_in_cons_inv in H3.
    destruct H3 as (H5 & H6 & H7). apply andb_true_iff. split.
    + apply Nat.ltb_lt. lia.
    + apply Nat.leb_le. lia.
Qed.

Lemma tokens_html_app tag attr src ts : forall pos us,
  tokens_html tag attr src pos (ts ++ us)
  = tokens_html tag attr src pos ts ++ tokens_html tag attr src (last_end pos ts) us.
Proof.
  induction ts as [|t ts IH]; intros pos us; simpl.
  - reflexivity.
  - rewrite last_end_cons, IH, app_assoc. reflexivity.
Qed.

Lemma render_chunks_spec tag attr src cs : forall b pos lo, buf_ok b ->
  toks_in lo (length src) (concat cs) ->
  exists b', render_chunks tag attr src (b, pos) cs = Ok (b', last_end pos (concat cs))
    /\ buf_ok b' /\ contents b' = contents b ++ tokens_html tag attr src pos (concat cs)
    /\ capacity b' = capacity b.
Proof.
  induction cs as [|c cs IH]; intros b pos lo Hb Ht.
  - exists b. simpl. rewrite app_nil_r. auto.
  - cbn [render_chunks concat] in *. apply toks_in_app_inv in Ht. destruct Ht as (mid & Hc & Hr).
    unfold render_chunk.
    assert (Hcl : toks_in lo (length src) c).
    { eapply toks_in_weaken; [exact Hc|lia|]. now apply toks_in_le in Hr. }
    rewrite (check_flush_validity_ok _ _ _ Hcl). cbn [check bind].
    destruct (render_tokens_spec tag attr src c b pos Hb) as (b1 & E1 & H1 & H2 & H3).
    { intros t Hi. destruct (toks_in_In _ _ _ _ Hcl Hi) as (?&?&?). unfold tk_end in *. lia. }
    rewrite E1. cbn [bind]. destruct (IH b1 (last_end pos c) mid H1 Hr) as (b' & E' & H4 & H5 & H6).
    exists b'. rewrite last_end_app. split; [exact E'|]. split; [exact H4|]. split; [|congruence].
    rewrite tokens_html_app, H5, H2, app_assoc. reflexivity.
Qed.

Definition page (tag attr src : str) (ts : list token) : str :=
  tokens_html tag attr src 0 ts ++ escape (skipn (last_end 0 ts) src).

Lemma last_end_le lo hi ts : toks_in lo hi ts -> last_end lo ts <= hi.
Proof.
  intros H. revert lo H. induction ts as [|t ts IH]; intros lo H.
  - now apply toks_in_le in H.
  - apply toks_in_cons_inv in H. rewrite last_end_cons. apply IH. apply H.
Qed.

Lemma html_output_spec cap tag attr src cs : 0 < cap -> well_formed (length src) (concat cs) ->
  exists out, html_output cap tag attr src cs = Ok out
    /\ concat out = page tag attr src (concat cs)
    /\ Forall (fun c => 0 < length c <= cap) out.
Proof.
  intros Hc Hw. apply well_formed_toks_in in Hw. unfold html_output.
  destruct (new_buffer_ok N cap Hc) as (b & E & -> & Hok). rewrite E. cbn [bind].
  destruct (render_chunks_spec tag attr src cs _ 0 0 Hok Hw) as (b1 & E1 & H1 & H2 & H3).
  rewrite E1. cbn [bind]. unfold render_tail.
  assert (Hle : last_end 0 (concat cs) <= length src) by now apply last_end_le.
  destruct (last_end 0 (concat cs) <=? length src) eqn:El; [|apply Nat.leb_gt in El; lia].
  cbn [check bind].
  assert (Hg : exists b2, (if negb (last_end 0 (concat cs) =? length src)
      then append_html_escaped b1 (skipn (last_end 0 (concat cs)) src) else Ok b1) = Ok b2
      /\ buf_ok b2 /\ contents b2 = contents b1 ++ escape (skipn (last_end 0 (concat cs)) src)
      /\ capacity b2 = capacity b1).
  { destruct (last_end 0 (concat cs) =? length src) eqn:Eq; cbn [negb].
    - apply Nat.eqb_eq in Eq. rewrite Eq, skipn_all. simpl. exists b1. rewrite app_nil_r. auto.
    - now apply append_html_escaped_spec. }
  destruct Hg as (b2 & E2 & H4 & H5 & H6). rewrite E2. cbn [bind].
  eexists. split; [reflexivity|]. split.
  - assert (Hf : contents (flush b2) = concat (calls (flush b2))).
    { unfold contents. now rewrite flush_cells, app_nil_r. }
    rewrite <- Hf, flush_contents, H5, H2. reflexivity.
  - apply flush_ok in H4. destruct H4 as (_ & _ & H4).
    rewrite flush_capacity, H6, H3 in H4. exact H4.
Qed.

(** ** Reading the page back *)

Lemma html_text_entity c rest :
  html_text false (entity c ++ rest) = option_map (cons c) (html_text false rest).
Proof.
  unfold entity.
  destruct (c =? ch "&")%N eqn:E1; [apply N.eqb_eq in E1; subst c; reflexivity|].
  destruct (c =? ch "<")%N eqn:E2; [apply N.eqb_eq in E2; subst c; reflexivity|].
  destruct (c =? ch ">")%N eqn:E3; [apply N.eqb_eq in E3; subst c; reflexivity|].
  cbn [app html_text]. now rewrite E2, E3, E1.
Qed.

Lemma html_text_escape s rest :
  html_text false (escape s ++ rest) = option_map (app s) (html_text false rest).
Proof.
  induction s as [|c s IH]; cbn [escape flat_map].
  - simpl. now destruct (html_text false rest).
  - fold (escape s). rewrite <- app_assoc, html_text_entity, IH.
    now destruct (html_text false rest).
Qed.

Lemma html_text_skip s rest : ~ In (ch ">") s ->
  html_text true (s ++ ch ">" :: rest) = html_text false rest.
Proof.
  induction s as [|c s IH]; intros H; cbn [app html_text].
  - reflexivity.
  - destruct (c =? ch ">")%N eqn:E.
    + apply N.eqb_eq in E. exfalso. apply H. now left.
    + cbn [negb]. apply IH. intros Hc. apply H. now right.
Qed.

Lemma html_text_start_tag tag attr id rest :
  ~ In (ch ">") tag -> ~ In (ch ">") attr -> ~ In (ch ">") id ->
  html_text false (start_tag tag attr id ++ rest) = html_text false rest.
Proof.
  intros H1 H2 H3. unfold start_tag.
  change (bs "<") with [ch "<"]. change (bs ">") with [ch ">"].
  change (bs " ") with [ch " "]. change (bs "=") with [ch "="].
  rewrite <- !app_assoc. cbn [app].
  change (html_text false (ch "<" :: ?x)) with (html_text true x).
  match goal with |- html_text true ?x = _ =>
    replace x with ((tag ++ [ch " "] ++ attr ++ [ch "="] ++ id) ++ ch ">" :: rest) end.
  2:{ now rewrite <- !app_assoc. }
  apply html_text_skip. rewrite !in_app_iff. intros [H|[H|[H|[H|H]]]]; auto.
  - destruct H as [H|[]]. discriminate.
  - destruct H as [H|[]]. discriminate.
Qed.

Lemma html_text_end_tag tag rest : ~ In (ch ">") tag ->
  html_text false (end_tag tag ++ rest) = html_text false rest.
Proof.
  intros H. unfold end_tag. change (bs "</") with [ch "<"; ch "/"].
  change (bs ">") with [ch ">"]. rewrite <- !app_assoc. cbn [app].
  change (html_text false (ch "<" :: ?x)) with (html_text true x).
  change (ch "/" :: tag ++ ch ">" :: rest) with ((ch "/" :: tag) ++ ch ">" :: rest).
  apply html_text_skip. intros [C|C]; [discriminate|auto].
Qed.

Lemma short_string_no_gt ty : ~ In (ch ">") (short_string ty).
Proof.
  intros H. apply short_string_chars in H. unfold name_char in H.
  change (ch ">") with 62%N in H. lia.
Qed.

Lemma tokens_html_text tag attr src ts : ~ In (ch ">") tag -> ~ In (ch ">") attr ->
  forall pos rest, toks_in pos (length src) ts ->
  html_text false (tokens_html tag attr src pos ts ++ rest)
  = option_map (app (firstn (last_end pos ts - pos) (skipn pos src))) (html_text false rest).
Proof.
  intros Ht Ha. induction ts as [|t ts IH]; intros pos rest H.
  - cbn. rewrite Nat.sub_diag. simpl. now destruct (html_text false rest).
  - apply toks_in_cons_inv in H. destruct H as (H1 & H2 & H3).
    cbn [tokens_html]. unfold token_html. rewrite <- !app_assoc, html_text_escape.
    rewrite html_text_start_tag by auto using short_string_no_gt.
    rewrite html_text_escape, html_text_end_tag by assumption. rewrite (IH _ _ H3).
    pose proof (last_end_le _ _ _ H3) as H4.
    assert (H5 : tk_end t <= last_end (tk_end t) ts).
    { clear -H3. revert H3. generalize (tk_end t) as lo. induction ts as [|u ts IH]; intros lo H.
      - reflexivity.
      - apply toks_in_cons_inv in H. rewrite last_end_cons. destruct H as (Ha & Hb & Hc).
        specialize (IH _ Hc). unfold tk_end in *. lia. }
    rewrite last_end_cons. destruct (html_text false rest) as [x|]; [|reflexivity].
    cbn [option_map]. f_equal. rewrite !app_assoc. f_equal. unfold tk_end in *.
    set (e := last_end _ ts) in *. clearbody e.
    set (b := tk_begin t) in *. set (l := tk_len t) in *. clearbody b l.
    transitivity (firstn ((b - pos) + (l + (e - (b + l)))) (skipn pos src)).
    2:{ f_equal. lia. }
    assert (G : forall a n (s : str), firstn (a + n) s = firstn a s ++ firstn n (skipn a s)).
    { intros a n s. revert s. induction a as [|a IHa]; intros s; [reflexivity|].
      destruct s; simpl; [now rewrite firstn_nil|]. f_equal. apply IHa. }
    rewrite (G (b - pos)), (G l), <- app_assoc, !skipn_skipn.
    replace (b - pos + pos) with b by lia. replace (pos + (b - pos)) with b by lia.
    replace (l + b) with (b + l) by lia. reflexivity.
Qed.

Lemma page_text tag attr src ts : ~ In (ch ">") tag -> ~ In (ch ">") attr ->
  well_formed (length src) ts -> html_text false (page tag attr src ts) = Some src.
Proof.
  intros Ht Ha Hw. apply well_formed_toks_in in Hw. unfold page.
  rewrite tokens_html_text by assumption. rewrite <- (app_nil_r (escape _)), html_text_escape.
  cbn. rewrite app_nil_r, Nat.sub_0_r. f_equal. apply firstn_skipn.
Qed.

Lemma escape_escaped s : escaped_text (escape s).
Proof.
  induction s as [|c s IH]; [constructor|]. cbn [escape flat_map]. fold (escape s).
  unfold entity.
  destruct (c =? ch "&")%N eqn:E1; [apply esc_entity; [simpl; tauto|exact IH]|].
  destruct (c =? ch "<")%N eqn:E2; [apply esc_entity; [simpl; tauto|exact IH]|].
  destruct (c =? ch ">")%N eqn:E3; [apply esc_entity; [simpl; tauto|exact IH]|].
  apply N.eqb_neq in E1, E2, E3. apply esc_char; assumption.
Qed.

Lemma page_doc tag attr src ts :
  html_doc tag attr (fun id => exists t, In t ts /\ id = short_string (tk_type t))
    (page tag attr src ts).
Proof.
  unfold page. generalize (escape_escaped (skipn (last_end 0 ts) src)).
  generalize (escape (skipn (last_end 0 ts) src)) as tail. intros tail Htail.
  assert (G : forall (names : str -> Prop) us pos,
    (forall t, In t us -> names (short_string (tk_type t))) ->
    html_doc tag attr names (tokens_html tag attr src pos us ++ tail)).
  { intros names. induction us as [|t us IH]; intros pos Hn.
    - simpl. now constructor.
    - cbn [tokens_html]. unfold token_html, start_tag, end_tag. rewrite <- !app_assoc.
      apply doc_elem; auto using escape_escaped.
      + apply Hn. now left.
      + apply IH. intros u Hu. apply Hn. now right. }
  apply G. eauto.
Qed.

Lemma html_doc_mono tag attr (n1 n2 : str -> Prop) s : (forall id, n1 id -> n2 id) ->
  html_doc tag attr n1 s -> html_doc tag attr n2 s.
Proof.
  intros H. induction 1; [now constructor|]. apply doc_elem; auto.
Qed.
