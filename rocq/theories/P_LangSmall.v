(** * Properties of the small highlighters (C36-C38). *)
From Coq Require Import List NArith ZArith Bool Arith Lia.
From Verif Require Import M_Base L_Base S_Tokens M_Emit S_Ops L_Emit M_Types M_Chars M_Parse L_Parse P_Parse
  M_Api M_Highlighter S_Highlight L_Highlighter M_LangSmall S_Diff.
Import ListNotations.

(** ** C36 *)
Theorem C36_txt : always_highlights highlight_txt
  /\ forall src strict, highlight_txt src strict = Ok (true, []).
Proof.
  split; [|reflexivity]. apply always_from_ops. intros src strict. exists []. split; [reflexivity|].
  constructor. lia.
Qed.
Print Assumptions C36_txt.

Lemma tex_all src : wp (hloop 1 tex_body 0)
  (fun b st' => b = true /\ steps anything (length src) (mk_hst src 0 [] tt) st')
  (mk_hst src 0 [] tt).
Proof.
  apply wp_hloop with
    (Inv := fun n st => n <= length (rem st) /\ exists k, steps anything k (mk_hst src 0 [] tt) st)
    (mu := fun n st => length (rem st) - n).
  - split; [lia|]. exists 0. apply steps_refl.
  - lia.
  - intros n st (Hn & k & Hk). unfold tex_body.
    assert (F : forall (m : M unit (nat + bool)), n < length (rem st) ->
      (forall st', k + n <= length src -> steps anything (k + n) (mk_hst src 0 [] tt) st' ->
                   length (rem st') = length (rem st) - n ->
         wp m (fun r st2 => match r with
               | inl a' => (a' <= length (rem st2) /\ exists k, steps anything k (mk_hst src 0 [] tt) st2)
                           /\ length (rem st2) - a' < length (rem st) - n
               | inr b => b = true /\ steps anything (length src) (mk_hst src 0 [] tt) st2 end) st') ->
      wp (tex_flush n ;; m) (fun r st2 => match r with
               | inl a' => (a' <= length (rem st2) /\ exists k, steps anything k (mk_hst src 0 [] tt) st2)
                           /\ length (rem st2) - a' < length (rem st) - n
               | inr b => b = true /\ steps anything (length src) (mk_hst src 0 [] tt) st2 end) st).
    { intros m Hlt Hm. apply wp_bind. unfold tex_flush. hl.
      - apply Hm; [hlia|assumption|hlia].
      - apply Hm; [hlia| |hlia]. eapply steps_eq; [eassumption|hlia]. }
    hl1. hl1. hl1.
    { hl1. unfold tex_flush. hl.
      - split; [reflexivity|]. eapply steps_eq; [eassumption|]. cbn [rem] in *. hlia.
      - split; [reflexivity|]. eapply steps_eq; [eassumption|].  hlia. }
    hl1. hl1. cbn beta.
    apply wp_if; intros E1; [apply F; [hlia|]; intros; hl; split; [split; [lia|done_steps]|hlia]|].
    apply wp_if; intros E2; [apply F; [hlia|]; intros; hl; split; [split; [lia|done_steps]|hlia]|].
    apply wp_if; intros E3.
    { apply F; [hlia|]. intros st' Hs Hst Hl. hl1. hl1. hl1. hl1. hl1.
      - hl. split; [split; [lia|done_steps]|hlia].
      - hl1. hl1. hl1.
        + hl. split; [split; [lia|done_steps]|hlia].
        + pose proof (length_if_le (skipn 1 (rem st')) is_ascii_alpha) as HL.
          rewrite skipn_length in HL. hl. split; [split; [lia|done_steps]|hlia]. }
    apply wp_if; intros E4; [apply F; [hlia|]; intros; hl; split; [split; [lia|done_steps]|hlia]|].
    hl. split; [split; [hlia|done_steps]|hlia].
Qed.

Theorem C36_tex : always_highlights highlight_tex /\ always_highlights highlight_latex.
Proof.
  assert (H : always_highlights highlight_tex).
  { apply always_from_ops. intros src strict. eapply run_ok with (P := anything).
    eapply wp_mono; [apply tex_all|]. cbn beta. intros b st' [H1 H2]. eauto. }
  split; exact H.
Qed.
Print Assumptions C36_tex.

Example C36_case : exists ops, highlight_tex (bs "\begin{a}\{$x\") false = Ok (true, ops)
  /\ length ops = 6.
Proof. eexists. vm_compute. split; reflexivity. Qed.

(** ** C37 *)

Lemma line_type_eq line : line <> [] -> choose_line_highlight line = Ok (line_type line).
Proof.
  destruct line as [|c l]; [congruence|]. intros _. unfold choose_line_highlight, line_type. f_equal.
  assert (A : forall x p, (x =? c)%N = false -> starts_with (c :: l) (x :: p) = false).
  { intros x p H. cbn [starts_with]. rewrite N.eqb_sym in H. rewrite H. reflexivity. }
  change (bs "--- ") with (45 :: bs "-- ")%N. change (bs "+++ ") with (43 :: bs "++ ")%N.
  change (bs "*** ") with (42 :: bs "** ")%N. change (bs "@@ ") with (64 :: bs "@ ")%N.
  change (ch "-") with 45%N. change (ch "+") with 43%N. change (ch "*") with 42%N.
  change (ch "!") with 33%N. change (ch "@") with 64%N.
  assert (B : (match find_first_not_of (c :: l) (bs "*") 0 with None => true | Some _ => false end)
              = forallb (N.eqb 42) (c :: l)).
  { unfold find_first_not_of, find_if_from. cbn [skipn]. generalize (c :: l) as s.
    induction s as [|x s IH]; [reflexivity|]. cbn [find_if forallb].
    change (mem x (bs "*")) with ((42 =? x)%N || false). rewrite orb_false_r.
    destruct (42 =? x)%N; cbn [negb andb]; [|reflexivity].
    rewrite <- IH. destruct (find_if (fun c0 : N => negb (mem c0 (bs "*"))) s); reflexivity. }
  rewrite B. clear B.
  Ltac kill A xs := lazymatch xs with
    | nil => idtac
    | ?x :: ?r => try rewrite (A x) by (apply N.eqb_neq; congruence); kill A r end.
  destruct (N.eqb_spec c 45) as [->|H45].
  { kill A [43; 42; 64]%N. cbn [forallb]. change (42 =? 45)%N with false. cbn [andb orb].
    rewrite !orb_false_r. destruct (starts_with _ _); reflexivity. }
  kill A [45]%N. cbn [orb].
  destruct (N.eqb_spec c 43) as [->|H43].
  { kill A [42; 64]%N. cbn [forallb]. change (42 =? 43)%N with false. cbn [andb orb].
    rewrite !orb_false_r. destruct (starts_with _ _); reflexivity. }
  kill A [43]%N. cbn [orb].
  destruct (N.eqb_spec c 42) as [->|H42].
  { kill A [64]%N. destruct (_ || _); reflexivity. }
  kill A [42]%N. cbn [forallb].
  destruct (N.eqb_spec 42 c) as [Hx|_]; [congruence|]. cbn [andb orb].
  destruct (N.eqb_spec c 33) as [->|H33]; [kill A [64]%N; reflexivity|].
  destruct (N.eqb_spec c 64) as [->|H64]; [destruct (starts_with _ _); reflexivity|].
  kill A [64]%N. reflexivity.
Qed.

Definition line_op (l : nat * str) : list out_op :=
  match snd l with [] => [] | _ => [OEmit (fst l) (length (snd l)) (line_type (snd l)) false] end.

(** One iteration on a text that starts with the line [content]. *)
Lemma diff_body_run content term rest i ro : match_crlf_line (content ++ term ++ rest) = (length content, length term) ->
  (content <> [] \/ term <> []) ->
  diff_body (mk_hst (content ++ term ++ rest) i ro tt)
  = Ok (tt, mk_hst rest (i + length content + length term) (rev (line_op (i, content)) ++ ro) tt).
Proof.
  intros E Hne. unfold diff_body, bindM at 1, get_rem. cbn [rem]. rewrite E. unfold checkM.
  assert (C : negb (length content =? 0) || negb (length term =? 0) = true).
  { destruct content; [|reflexivity]. destruct term; [destruct Hne; congruence|]. reflexivity. }
  rewrite C. unfold bindM at 1, ret. rewrite firstn_app_exact.
  unfold line_op. cbn [snd fst]. destruct content as [|c l].
  - cbn [diff_highlight_line bindM ret advance rem idx rops loc app length rev].
    unfold bindM, ret, advance. cbn [rem idx rops loc].
    replace (length term <=? length (term ++ rest)) with true
      by (symmetry; apply Nat.leb_le; rewrite app_length; lia).
    rewrite skipn_app_exact. do 3 f_equal. lia.
  - unfold bindM at 1. unfold diff_highlight_line. unfold bindM at 1, lift.
    rewrite line_type_eq by discriminate.
    unfold emit_and_advance, emit_and_advance_c, bindM, get_idx, emit_at. cbn [rem idx rops loc].
    set (w := c :: l) in *.
    assert (Hw : 0 < length w) by (subst w; cbn; lia). clearbody w.
    replace (length w =? 0) with false by (symmetry; apply Nat.eqb_neq; lia).
    assert (Hlen : length (w ++ term ++ rest) = length w + length term + length rest)
      by (rewrite !app_length; lia).
    replace (i <? i + length (w ++ term ++ rest)) with true by (symmetry; apply Nat.ltb_lt; lia).
    replace (i + length w <=? i + length (w ++ term ++ rest)) with true
      by (symmetry; apply Nat.leb_le; lia).
    cbn [negb andb]. unfold advance at 1. cbn [rem idx rops loc].
    replace (length w <=? length (w ++ term ++ rest)) with true
      by (symmetry; apply Nat.leb_le; lia).
    rewrite skipn_app_exact. unfold advance. cbn [rem idx rops loc].
    replace (length term <=? length (term ++ rest)) with true
      by (symmetry; apply Nat.leb_le; rewrite app_length; lia).
    rewrite skipn_app_exact. reflexivity.
Qed.

Lemma diff_lines_nil i lines : diff_lines i [] lines -> lines = [].
Proof.
  remember [] as s eqn:E. intros H. destruct H as [|? ? H|i content term rest lines _ Ht _].
  - reflexivity.
  - congruence.
  - destruct content; [|discriminate]. cbn [app] in E.
    destruct Ht as [->|[->|[-> _]]]; discriminate.
Qed.

Lemma diff_run_lines s : forall fuel i ro, length s < fuel -> exists lines, diff_lines i s lines
  /\ iter fuel (fun _ : unit =>
       let! e := eof in if e then ret (inr tt) else diff_body ;; ret (inl tt)) tt (mk_hst s i ro tt)
     = Ok (tt, mk_hst [] (i + length s) (rev (flat_map line_op lines) ++ ro) tt).
Proof.
  remember (length s) as n eqn:En. revert s En. induction n as [n IH] using lt_wf_ind.
  intros s En fuel i ro Hf. destruct fuel as [|fuel]; [lia|].
  destruct s as [|c0 s0].
  - exists []. split; [constructor|]. cbn in En. subst n. cbn. rewrite Nat.add_0_r. reflexivity.
  - remember (c0 :: s0) as s eqn:Es. assert (Hs : 0 < length s) by (subst s; cbn; lia).
    pose proof (C56_line s) as HL. destruct (match_crlf_line s) as [a b] eqn:EL.
    destruct HL as (content & term & rest & E & Ha & Hb & N10 & N13 & HT). subst a b.
    assert (Hne : content <> [] \/ term <> []).
    { destruct content; [|left; discriminate]. destruct term; [|right; discriminate].
      exfalso. destruct HT as [[H|[H|[H _]]]|[_ H]]; try discriminate. subst rest.
      rewrite E in Hs. cbn in Hs. lia. }
    cbn [iter]. unfold bindM at 1. unfold bindM at 1. unfold eof. cbn [rem].
    assert (R : exists lines, diff_lines (i + length content + length term) rest lines /\
      iter fuel (fun _ : unit =>
        let! e := eof in if e then ret (inr tt) else diff_body ;; ret (inl tt)) tt
        (mk_hst rest (i + length content + length term) (rev (line_op (i, content)) ++ ro) tt)
      = Ok (tt, mk_hst [] (i + length s)
             (rev (flat_map line_op lines) ++ rev (line_op (i, content)) ++ ro) tt)).
    { assert (Hr : length rest < length s).
      { rewrite E, !app_length. destruct Hne as [H|H]; [destruct content|destruct term]; cbn;
          try congruence; lia. }
      destruct (IH (length rest) ltac:(lia) rest eq_refl fuel
                 (i + length content + length term) (rev (line_op (i, content)) ++ ro)
                 ltac:(lia)) as (lines & D & Ei).
      exists lines. split; [assumption|]. rewrite Ei. do 2 f_equal. f_equal.
      rewrite E, !app_length. lia. }
    destruct R as (lines & D & Ei).
    exists ((i, content) :: lines). split.
    + rewrite E. destruct HT as [HT|[Ht Hr]].
      * apply dl_line; [split; assumption|exact HT|assumption].
      * subst term rest. rewrite !app_nil_r. rewrite (diff_lines_nil _ _ D).
        apply dl_last; [destruct Hne as [Hx|Hx]; [assumption|congruence]|split; assumption].
    + rewrite Es. cbn match. rewrite <- Es. unfold bindM at 1.
      rewrite E at 1. rewrite diff_body_run; [|rewrite <- E; exact EL|exact Hne].
      etransitivity; [exact Ei|]. cbn [flat_map]. rewrite rev_app_distr, <- app_assoc, En. reflexivity.
Qed.

(** Emitted spans that do not touch give one token each. *)
Definition op_token (o : out_op) : list token :=
  match o with OEmit b n t _ => [mk_token b n t] | _ => [] end.

Lemma apart_tokens coal ops : forall acc,
  (forall t, hd_error acc = Some t -> forall b n ty f r, ops = OEmit b n ty f :: r -> tk_end t < b) ->
  (forall i b n ty f b' n' ty' f', nth_error ops i = Some (OEmit b n ty f) ->
     nth_error ops (S i) = Some (OEmit b' n' ty' f') -> b + n < b') ->
  Forall is_emit ops ->
  rtokens coal acc ops = rev (flat_map op_token ops) ++ acc.
Proof.
  induction ops as [|o ops IH]; intros acc Ha Hn He; [reflexivity|].
  inversion He as [|? ? He1 He2]; subst. destruct o as [b n ty f|]; [|contradiction].
  cbn [rtokens out_op_rtokens flat_map op_token app rev].
  rewrite <- app_assoc. cbn [app].
  assert (E : add_token coal f acc b n ty = mk_token b n ty :: acc).
  { unfold add_token. destruct acc as [|t r]; [reflexivity|].
    specialize (Ha t eq_refl b n ty f ops eq_refl). unfold tk_end in Ha.
    replace (tk_begin t + tk_len t =? b) with false by (symmetry; apply Nat.eqb_neq; lia).
    rewrite andb_false_r. reflexivity. }
  rewrite E. apply IH; [| |assumption].
  - intros t Ht b' n' ty' f' r Er. cbn in Ht. injection Ht as <-. unfold tk_end. cbn.
    subst ops. apply (Hn 0 b n ty f b' n' ty' f'); reflexivity.
  - intros i. intros. eapply (Hn (S i)); eassumption.
Qed.

Lemma diff_lines_ops i s lines : diff_lines i s lines ->
  Forall is_emit (flat_map line_op lines)
  /\ ops_in i (i + length s) (flat_map line_op lines)
  /\ (forall b n ty f r, flat_map line_op lines = OEmit b n ty f :: r -> i <= b)
  /\ (forall k b n ty f b' n' ty' f', nth_error (flat_map line_op lines) k = Some (OEmit b n ty f) ->
     nth_error (flat_map line_op lines) (S k) = Some (OEmit b' n' ty' f') -> b + n < b').
Proof.
  induction 1 as [i|i content Hc Hn|i content term rest lines Hn Ht Hl (I1 & I2 & I3 & I4)].
  - cbn. repeat split; try constructor; [lia|discriminate|]. intros [|k]; discriminate.
  - destruct content as [|c l]; [congruence|]. cbn [flat_map line_op snd fst app]. repeat split.
    + repeat constructor.
    + constructor; [lia|cbn; lia|]. constructor. lia.
    + intros. match goal with H : _ = _ |- _ => injection H as <- end. lia.
    + intros [|[|k]] b n ty f b' n' ty' f' H1 H2; discriminate.
  - assert (0 < length term) by (destruct Ht as [->|[->|[-> _]]]; cbn; lia).
    rewrite !app_length. cbn [flat_map]. destruct content as [|c l].
    + cbn [line_op snd app length] in *. repeat split; [assumption| | |assumption].
      * eapply ops_in_weaken; [exact I2|lia|lia].
      * intros b n ty f r E. apply I3 in E. lia.
    + set (w := c :: l) in *. assert (0 < length w) by (subst w; cbn; lia).
      assert (El : line_op (@pair nat str i w) = [OEmit i (length w) (line_type w) false]) by reflexivity.
      rewrite El. clear El. clearbody w. cbn [app]. repeat split.
      * constructor; [exact I|assumption].
      * constructor; [lia|assumption|]. eapply ops_in_weaken; [exact I2|lia|lia].
      * intros b n ty f r E. injection E as <-. lia.
      * intros [|k] b n ty f b' n' ty' f' H1 H2; cbn [nth_error] in *.
        -- injection H1 as <- <-. destruct (flat_map line_op lines) as [|o r] eqn:Eo; [discriminate|].
           injection H2 as ->. specialize (I3 _ _ _ _ _ eq_refl). lia.
        -- eapply I4; eassumption.
Qed.

(** Every nonempty line gives exactly one token, covering its content without the terminator. *)
Theorem C37_diff : forall src strict coal cap, 0 < cap ->
  exists lines ops chunks,
    diff_lines 0 src lines
    /\ highlight_diff src strict = Ok (true, ops)
    /\ token_output coal cap (length src) ops = Ok chunks
    /\ concat chunks
       = map (fun l => mk_token (fst l) (length (snd l)) (line_type (snd l)))
           (filter (fun l => negb (length (snd l) =? 0)) lines).
Proof.
  intros src strict coal cap Hc. unfold highlight_diff, run.
  destruct (diff_run_lines src (1 * length src + 1) 0 [] ltac:(lia)) as (lines & D & E).
  destruct (diff_lines_ops _ _ _ D) as (D1 & D2 & D3 & D4).
  exists lines, (flat_map line_op lines).
  destruct (token_output_spec coal cap (length src) (flat_map line_op lines) Hc) as (cs & E2 & Ht & _).
  { now apply ops_in_bounds in D2. }
  exists cs. split; [assumption|]. split.
  { unfold bindM at 1. unfold while_rem, hloop. cbn [rem]. rewrite E. cbn [ret rops].
    rewrite app_nil_r, rev_involutive. reflexivity. }
  split; [assumption|]. rewrite Ht. unfold tokens_of. rewrite apart_tokens; [| |assumption|assumption].
  - rewrite app_nil_r, rev_involutive. clear. induction lines as [|[i [|c l]] lines IH];
      cbn [flat_map line_op snd fst app filter map length Nat.eqb negb op_token]; auto.
    f_equal. assumption.
  - discriminate.
Qed.
Print Assumptions C37_diff.

Example C37_case : exists ops, highlight_diff (bs "--- a
@@ 1
-x
 y") false = Ok (true, ops)
  /\ map (fun o => match o with OEmit b n t _ => (b, n, t) | _ => (0, 0, 0%N) end) ops
     = [(0, 5, hl_diff_heading); (6, 4, hl_diff_heading_hunk); (11, 2, hl_diff_deletion);
        (14, 2, hl_diff_common)].
Proof. eexists. vm_compute. split; reflexivity. Qed.

(** ** C38 *)

(** The bytes EBNF highlighting leaves alone. *)
Definition ebnf_space (c : N) : Prop := In c [32; 9; 13; 10; 11]%N.

Lemma ebnf_delimited_ok open close t1 t2 t3 st0 k st :
  steps ebnf_space k st0 st -> open <> [] -> close <> [] -> starts_with (rem st) open = true ->
  wp (ebnf_consume_delimited open close t1 t2 t3)
     (fun _ st' => loc st' = loc st /\ exists k', steps ebnf_space k' st0 st' /\ k < k') st.
Proof.
  intros Hk Ho Hc Hs. unfold ebnf_consume_delimited.
  assert (0 < length open) by (destruct open; cbn; [congruence|lia]).
  assert (0 < length close) by (destruct close; cbn; [congruence|lia]).
  hl1. hl1. hl1. hl1. hl1. hl1.
  destruct (find_str (rem st) close (length open)) as [p|] eqn:Ef.
  - apply find_str_bound in Ef. hl.
    + split; [congruence|]. eexists. split; [eassumption|hlia].
    + split; [congruence|]. eexists. split; [eassumption|hlia].
  - hl.
    + split; [congruence|]. eexists. split; [eassumption|hlia].
    + split; [congruence|]. eexists. split; [eassumption|hlia].
Qed.

Lemma ebnf_body_ok st : rem st <> [] ->
  wp ebnf_body (fun _ st' => exists k, steps ebnf_space k st st' /\ 0 < k) st.
Proof.
  intros Hne. begin_steps ebnf_space st. unfold ebnf_body, ebnf_minus, ebnf_set.
  hl1. hl1. hl1. hl1. hl1. hl1. cbn zeta. apply wp_bind.
  apply wp_mono with (P := fun _ st' => exists k, steps ebnf_space k st st' /\ 0 < k).
  2:{ intros _ st' (k & Hk & H0'). hl. eexists. split; [eassumption|lia]. }
  assert (Hsp : mem c [32; 9; 13; 10; 11]%N = true -> Forall ebnf_space (firstn 1 (rem st))).
  { intros Hm. apply mem_In in Hm. destruct (rem st); [congruence|]. cbn in H0. injection H0 as ->.
    constructor; [exact Hm|constructor]. }
  assert (D : forall o cl t1 t2 t3 k s, rem s = rem st -> o <> [] -> cl <> [] ->
     starts_with (rem st) o = true -> steps ebnf_space k st s ->
     wp (ebnf_consume_delimited o cl t1 t2 t3)
      (fun _ st' => exists k, steps ebnf_space k st st' /\ 0 < k) s).
  { intros o cl t1 t2 t3 k s Er Ho Hcl Hs Hst. eapply wp_mono.
    - eapply ebnf_delimited_ok; [exact Hst|assumption|assumption|rewrite Er; assumption].
    - cbn beta. intros _ st' (_ & k' & Hk' & Hlt). exists k'. split; [assumption|lia]. }
  repeat first [ solve [done_steps] 
    | match goal with |- wp (match fst ?l with _ => _ end) _ _ => destruct (fst l) end 
    | hl1 ].
  - unfold ebnf_consume_string. eapply D; try discriminate; try eassumption.
    destruct (rem st) as [|x r]; [discriminate|]. cbn in H0. injection H0 as ->.
    cbn. rewrite N.eqb_refl. reflexivity.
  - auto.
  - eapply D; try discriminate; try eassumption. reflexivity.
  - unfold ebnf_consume_special_sequence. hl1. hl1. hl1. hl1.
    { match goal with H : rem st' = rem st |- _ => rewrite H end.
      destruct (rem st) as [|x r]; [discriminate|]. cbn in H0. injection H0 as ->.
      match goal with H : (c =? ch "?")%N = true |- _ => exact H end. }
    pose proof (length_until_le (rem st') (ch "?") 1).
    assert (0 < length_until (rem st') (ch "?") 1) by (apply length_until_pos; right; hlia).
    hl1. eexists. split; [eassumption|lia].
Qed.

Theorem C38_ebnf : always_highlights_except ebnf_space highlight_ebnf.
Proof.
  apply always_except_from_ops. intros src strict. eapply run_ok_all.
  hl1. eapply wp_mono; [apply while_rem_all; apply ebnf_body_ok|].
  cbn beta. intros _ st' H. apply wp_ret. split; [reflexivity|exact H].
Qed.
Print Assumptions C38_ebnf.

Example C38_case : exists ops, highlight_ebnf (bs "a-1 = 'b' | (* c *) ? d") false = Ok (true, ops)
  /\ length ops = 12.
Proof. eexists. vm_compute. split; reflexivity. Qed.
