(** * Properties of the Bash highlighter (C78-C81) *)
From Coq Require Import List NArith ZArith Bool Arith Lia.
From Verif Require Import M_Base L_Base S_Tokens M_Emit S_Ops L_Emit M_Types M_Chars M_Parse S_Parse L_Parse P_Parse
  M_Api M_Table L_Table M_Highlighter S_Highlight L_Highlighter P_LangCpp L_Auto M_LangBash S_LangBash.
Import ListNotations.

Definition bash_gap (c : N) : Prop := In c [32; 9; 11; 13; 10]%N.

Lemma bash_word_le p s : bash_word_length p s <= length s.
Proof. induction s as [|c s IH]; cbn [bash_word_length length]; [lia|]. destruct (_ || _); lia. Qed.
Lemma bash_single_le s : starts_with_ch s 39 = true ->
  0 < en_length (bash_match_single_quoted_string s) <= length s /\ (en_terminated (bash_match_single_quoted_string s) = true -> 2 <= en_length (bash_match_single_quoted_string s)).
Proof.
  intros H. unfold bash_match_single_quoted_string. rewrite H. cbn [negb]. apply starts_with_ch_len in H. destruct (find_ch s 39 1) as [i|] eqn:E; cbn [en_length en_terminated].
  - unfold find_ch in E. apply find_if_from_Some in E. lia.
  - lia.
Qed.
Lemma bash_comment_le s : bash_match_comment s <= length s.
Proof.
  unfold bash_match_comment. destruct (negb _); [lia|]. destruct (find_ch s 10 1) as [i|] eqn:E; [|lia]. unfold find_ch in E. apply find_if_from_Some in E. lia.
Qed.
Lemma bash_operator_le s op : bash_match_operator s = Some op -> 0 < length op <= length s.
Proof.
  destruct s as [|c t]; [discriminate|]. unfold bash_match_operator. intros H.
  repeat match type of H with
  | (if ?b then _ else _) = _ => let E := fresh in destruct b eqn:E
  end; try discriminate; apply (f_equal (fun o => match o with Some x => x | None => op end)) in H; cbv beta iota in H; subst op;
  repeat match goal with |- context [if ?b then _ else _] => let E := fresh in destruct b eqn:E; [apply starts_with_len in E|] end; lit_len; cbn [length] in *; lia.
Qed.
Lemma bash_operator_some s c : nth_error s 0 = Some c -> mem c (bs "|&;<>") = true -> bash_match_operator s <> None.
Proof.
  intros H M. apply at_0 in H as [t ->]. apply mem_In in M. change (bs "|&;<>") with [124; 38; 59; 60; 62]%N in M. cbn [In] in M.
  repeat (destruct M as [<-|M]); try contradiction; discriminate.
Qed.

Lemma bash_word_ok ctx st c : nth_error (rem st) 0 = Some c -> is_bash_unquoted_terminator c = false -> bash_starts_with_substitution (rem st) = false ->
  is_parameter_sub ctx && (c =? ch "}")%N = false -> wp (bash_consume_word ctx) (fun _ st' => exists k, steps bash_gap k st st' /\ 0 < k) st.
Proof.
  intros A0 H1 H2 H3. begin_steps bash_gap st. pose proof (bash_word_le (is_parameter_sub ctx) (rem st)) as LW.
  assert (L : 0 < bash_word_length (is_parameter_sub ctx) (rem st)).
  { destruct (at_0 _ _ A0) as [r Er]. rewrite Er in *. cbn [bash_word_length]. rewrite H1, H2, H3. cbn. lia. }
  unfold bash_consume_word. go1. go1. go1. go1. go1. go1. destruct (loc st); go; fin.
Qed.

Section commands.
Variable fuel : nat.
Variable commands : bash_context -> M bash_state unit.
Hypothesis commands_ok : forall ctx st, length (rem st) < fuel -> wp (commands ctx) (fun _ st' => exists k, steps bash_gap k st st') st.

Ltac bgo1 :=
  lazymatch goal with
  | |- wp (match ?s with bs_before_command => _ | _ => _ end) _ _ => destruct s
  | |- wp (commands _) _ _ => eapply wp_mono; [apply commands_ok; hlia|cbn beta; intros ? ? (? & ?); try fuse]
  | _ => go1
  end.
Ltac bgo := repeat bgo1.

Lemma bash_substitution_ok st : bash_starts_with_substitution (rem st) = true -> length (rem st) <= fuel ->
  wp (bash_consume_substitution commands) (fun _ st' => exists k, steps bash_gap k st st' /\ 0 < k) st.
Proof.
  intros Hs Hf. begin_steps bash_gap st. unfold bash_consume_substitution, bash_update_state.
  unfold bash_starts_with_substitution in Hs. destruct (rem st) as [|c [|d t]] eqn:Er; try discriminate. apply andb_true_iff in Hs as [H1 H2]. apply N.eqb_eq in H1. subst c.
  assert (Hl : length (rem st) = S (S (length t))) by (rewrite Er; reflexivity).
  bgo1. bgo1. rewrite Er. bgo1. bgo1. bgo1. apply wp_at_is with (c := d); [reflexivity|].
  pose proof (length_if_head_tail_le (d :: t) is_bash_identifier_start is_bash_identifier) as L. cbn [length] in L.
  bgo; try fin; unfold bash_match_identifier in *; cbn [skipn] in *; [hlia|].
  exfalso. rewrite length_if_head_tail_eq in *. unfold is_bash_parameter_substitution_start in H2. destruct (is_bash_identifier_start d); [hlia|].
  rewrite orb_false_r in H2. apply orb_true_iff in H2 as [H2|H2]; [|congruence]. apply mem_In in H2. change (bs "({") with [ch "("; ch "{"] in H2.
  destruct H2 as [<-|[<-|[]]]; discriminate.
Qed.

Lemma bash_string_ok st : length (rem st) <= fuel -> wp (bash_consume_double_quoted commands) (fun _ st' => exists k, steps bash_gap k st st') st.
Proof.
  intros Hf. unfold bash_consume_double_quoted.
  eapply wp_mono; [apply (wp_scan bash_gap 1 (bash_string_body commands) 0 (fun _ _ _ => True)); [lia|lia|]|].
  2:{ cbn beta. intros _ st2 (k & ? & _). fin. }
  intros a k st1 Hs La _. unfold bash_string_body. bgo; try fin.
  - eapply wp_mono; [apply bash_substitution_ok|].
    + match goal with H : rem ?s = skipn _ _ |- context [rem ?s] => rewrite H end. assumption.
    + hlia.
    + cbn beta. intros ? ? (? & ? & ?). fuse. bgo. fin.
Qed.

Lemma bash_round_ok ctx st : length (rem st) <= fuel ->
  wp (bash_commands_body commands ctx tt) (round_post bash_gap st (length (rem st)) (fun _ _ st' => ctx = cx_file -> rem st' = [])) st.
Proof.
  intros Hf. begin_steps bash_gap st. unfold bash_commands_body. bgo1. bgo1. destruct (rem st) as [|c t] eqn:Er.
  { bgo. exists 0. split; [exact H|]. intros _. exact Er. }
  assert (A0 : nth_error (rem st) 0 = Some c) by (rewrite Er; reflexivity). rewrite <- Er in *. clear Er.
  assert (0 < length (rem st)) by (destruct (rem st); [discriminate|cbn; lia]).
  bgo1. { unfold bash_consume_escape. bgo; try fin.
    rems. match goal with H : starts_with _ _ = true |- _ => apply starts_with_app in H as [r ->] end. cbn [app skipn firstn]. constructor; [unfold bash_gap; cbn; auto 10|constructor]. }
  bgo1. { destruct (bash_single_le (rem st)) as [L1 L2]; [eapply at_0_is; eassumption|]. unfold bash_highlight_string. destruct (en_terminated _) eqn:ET; [specialize (L2 eq_refl)|clear L2]; bgo; fin. }
  bgo1. { bgo1. bgo1. bgo1. eapply wp_mono; [apply bash_string_ok; hlia|]. cbn beta. intros ? ? (? & ?). fuse. bgo. fin. }
  bgo1. { pose proof (bash_comment_le (rem st)). bgo; fin. }
  bgo1. { assert (L : 0 < bash_match_blank (rem st)).
    { unfold bash_match_blank. rewrite length_if_eq. destruct (at_0 _ _ A0) as [r ->]. cbn [prefix_len]. unfold is_bash_blank. match goal with H : mem c _ = true |- _ => rewrite H end. lia. }
    assert (L2 : bash_match_blank (rem st) <= length (rem st)) by apply length_if_le.
    assert (L3 : Forall bash_gap (firstn (bash_match_blank (rem st)) (rem st))).
    { unfold bash_match_blank. rewrite length_if_eq. eapply Forall_impl; [|apply prefix_len_all]. intros x Hx. apply mem_In in Hx. unfold bash_gap. cbn in *. tauto. }
    bgo; fin. }
  bgo1. { bgo1. bgo1. bgo1. { eapply gap_one; [eassumption|]. match goal with H : mem c _ = true |- _ => apply mem_In in H end. unfold bash_gap. cbn in *. tauto. } bgo. fin. }
  pose proof (bash_word_le (is_parameter_sub ctx) (rem st)) as LW.
  bgo1. { bgo1. bgo1.
    - eapply wp_mono; [apply bash_substitution_ok; [assumption|lia]|]. cbn beta. intros ? ? (? & ? & ?). try fuse. bgo. fin.
    - match goal with H : (c =? _)%N = true |- _ => apply N.eqb_eq in H; subst c end.
      eapply wp_mono; [eapply bash_word_ok; [eassumption|reflexivity|assumption|apply andb_false_r]|]. cbn beta. intros ? ? (? & ? & ?). try fuse. bgo. fin. }
  bgo1. { bgo. fin. }
  bgo1. { destruct ctx; bgo; fin. }
  bgo1. { pose proof (bash_operator_some _ _ A0) as O. destruct (bash_match_operator (rem st)) as [op|] eqn:EO; [|elim O; [assumption|reflexivity]]. pose proof (bash_operator_le _ _ EO). bgo. fin. }
  bgo1. { destruct ctx; bgo; fin. }
  bgo1. eapply wp_mono; [eapply bash_word_ok; [eassumption|..]|].
  - unfold is_bash_unquoted_terminator, is_bash_whitespace, is_bash_metacharacter, is_bash_blank.
    assert (M : forall l x, mem x l = existsb (N.eqb x) l).
    { clear. intros l x. induction l as [|y l IH]; [reflexivity|]. cbn. rewrite <- IH. unfold mem. cbn. rewrite (N.eqb_sym y x). reflexivity. }
    rewrite !M in *. change (bs "|&;()<>") with [ch "|"; ch "&"; ch ";"; ch "("; ch ")"; ch "<"; ch ">"]. change (bs "|&;<>") with [ch "|"; ch "&"; ch ";"; ch "<"; ch ">"] in *.
    cbn [existsb] in *. bool_hyps. repeat match goal with H : (c =? _)%N = false |- _ => rewrite H; clear H end. reflexivity.
  - destruct (at_0 _ _ A0) as [r ->]. unfold bash_starts_with_substitution. destruct r; [reflexivity|]. match goal with H : (c =? ch "$")%N = false |- _ => rewrite H end. reflexivity.
  - match goal with H : (c =? ch "}")%N = false |- _ => rewrite H end. apply andb_false_r.
  - cbn beta. intros ? ? (? & ? & ?). try fuse. bgo. fin.
Qed.
End commands.

Lemma bash_commands_all fuel : forall ctx st, length (rem st) < fuel -> wp (bash_commands fuel ctx) (fun _ st' => exists k, steps bash_gap k st st' /\ (ctx = cx_file -> rem st' = [])) st.
Proof.
  induction fuel as [|fuel IH]; intros ctx st Hl; [lia|]. cbn [bash_commands].
  apply (wp_rounds bash_gap 1 _ (fun _ _ st' => ctx = cx_file -> rem st' = [])); [lia|].
  intros k st1 Hs. eapply wp_mono; [apply (bash_round_ok fuel); [|hlia]|].
  - intros c s Hl2. eapply wp_mono; [apply IH; exact Hl2|]. cbn beta. intros _ s' (j & Hj & _). eauto.
  - unfold round_post. intros [[]|[]] st2 (k2 & H2 & H3); exists (k + k2); (split; [eapply steps_trans; eassumption|exact H3]).
Qed.

(** ** C78 *)
Theorem C78_bash : always_highlights_except (fun c => In c (bs " ") \/ In c [9; 10; 11; 13]%N) highlight_bash.
Proof.
  apply always_except_from_ops. intros src strict. apply (run_ok_all (fun c => In c (bs " ") \/ In c [9; 10; 11; 13]%N)).
  apply wp_bind. eapply wp_mono; [apply (bash_commands_all (S (length src)) cx_file); cbn [rem]; lia|]. cbn beta. intros [] st' (k & H & E). apply wp_ret. split; [reflexivity|].
  assert (k = length src). { apply steps_len in H as L. rewrite (E eq_refl) in L. cbn in L. lia. } subst k.
  eapply steps_weaken; [|exact H]. unfold bash_gap. cbn. tauto.
Qed.
Print Assumptions C78_bash.
Example C78_case : exists ops, highlight_bash (bs "x=$(echo ""${a}"" 'b') # c") false = Ok (true, ops) /\ 8 < length ops.
Proof. eexists. split; [vm_compute; reflexivity|]. cbn [length]. lia. Qed.

(** ** C79 *)
Lemma plain_not c x : plain_char c -> mem x (bs "\'$ |&;()<>" ++ [34; 9; 10; 11; 13]%N) = true -> (c =? x)%N = false.
Proof. intros [H1 H2] M. apply mem_In, in_app_iff in M. apply N.eqb_neq. intros ->. tauto. Qed.
Lemma plain_terminator c : plain_char c -> is_bash_unquoted_terminator c = false.
Proof.
  intros [H1 H2]. destruct (is_bash_unquoted_terminator c) eqn:E; [|reflexivity]. exfalso.
  unfold is_bash_unquoted_terminator, is_bash_whitespace, is_bash_metacharacter, is_bash_blank in E. rewrite !orb_true_iff, !mem_In in E.
  change (bs "\'$ |&;()<>") with [92; 39; 36; 32; 124; 38; 59; 40; 41; 60; 62]%N in H1. change (bs "|&;()<>") with [124; 38; 59; 40; 41; 60; 62]%N in E. cbn [In] in *. intuition congruence.
Qed.
Lemma word_length_plain w rest : Forall plain_char w -> (forall c, hd_error rest = Some c -> is_bash_unquoted_terminator c = true) ->
  bash_word_length false (w ++ rest) = length w.
Proof.
  intros F R. induction F as [|c w Hc F IH]; cbn [app length].
  - destruct rest as [|c t]; [reflexivity|]. cbn [bash_word_length]. rewrite (R c eq_refl). reflexivity.
  - cbn [bash_word_length]. rewrite (plain_terminator c Hc).
    assert (E : bash_starts_with_substitution (c :: w ++ rest) = false).
    { unfold bash_starts_with_substitution. destruct (w ++ rest); [reflexivity|]. rewrite (plain_not c) by (assumption || reflexivity). reflexivity. }
    rewrite E. cbn [orb andb]. rewrite IH. reflexivity.
Qed.

Definition follows (l : list item) (first : bool) (s : bash_state) : Prop :=
  if first then s = bs_before_command
  else s = bs_before_argument \/ (s = bs_in_command \/ s = bs_in_argument) /\ match l with Word _ :: _ => False | _ => True end.

Theorem C79_bash_lines : forall l, simple_lines l -> forall strict,
  highlight_bash (render l) strict = Ok (true, expected true 0 l).
Proof.
  intros l0 H0 strict. unfold highlight_bash, run. set (src := render l0). set (st0 := mk_hst src 0 [] bs_before_command).
  assert (W : wp (bash_commands (S (length src)) cx_file) (fun _ st' => rops st' = rev (expected true 0 l0)) st0).
  { cbn [bash_commands]. apply wp_hloop with (mu := fun _ st => length (rem st))
      (Inv := fun _ st => exists l first, simple_lines l /\ rem st = render l /\ rev (rops st) ++ expected first (idx st) l = expected true 0 l0 /\ follows l first (loc st)).
    - exists l0, true. repeat split; assumption.
    - lia.
    - intros [] [r i o s] (l & first & Hl & Er & Eo & Hf). cbn [rem idx rops loc] in *. subst r.
      unfold bash_commands_body. ex1. ex1. cbn [rem]. destruct l as [|[w|b|] l]; cbn [render].
      + ex1. cbn [expected] in Eo. rewrite app_nil_r in Eo. cbn [rops]. rewrite <- Eo, rev_involutive. reflexivity.
      + cbn [simple_lines] in Hl. destruct Hl as ((Hw & F & Hh) & Hn & Hl).
        assert (R : forall c, hd_error (render l) = Some c -> is_bash_unquoted_terminator c = true).
        { intros c Hc. destruct l as [|[w'|b|] l']; cbn [render] in Hc; [discriminate|contradiction| |injection Hc as <-; reflexivity].
          cbn [simple_lines] in Hl. destruct Hl as (Hb & Fb & _). destruct b as [|x b]; [congruence|]. injection Hc as <-. inversion Fb as [|? ? [->| ->]]; reflexivity. }
        assert (WL : bash_word_length false (w ++ render l) = length w) by (apply word_length_plain; assumption).
        assert (LW : 0 < length w) by (destruct w; cbn; [congruence|lia]). assert (LL : length (w ++ render l) = length w + length (render l)) by apply app_length.
        assert (Ew : exists c t, w ++ render l = c :: t /\ hd 0%N w = c /\ plain_char c).
        { destruct w as [|c w]; [congruence|]. exists c, (w ++ render l). split; [reflexivity|]. split; [reflexivity|]. inversion F; assumption. }
        destruct Ew as (c & t & Ew & Eh & Hc). rewrite Ew. rewrite Eh in Hh.
        pose proof (plain_not c) as NE. assert (N1 : (c =? ch "#")%N = false /\ (c =? ch "}")%N = false).
        { split; apply N.eqb_neq; intros ->; apply Hh; cbn; auto. }
        destruct N1 as [N1 N2]. cbv zeta.
        rewrite (NE 92%N), (NE 39%N), (NE 34%N), N1 by (assumption || reflexivity).
        assert (M1 : mem c [32; 9]%N = false /\ mem c [11; 13; 10]%N = false /\ mem c (bs "|&;<>") = false).
        { clear - Hc. destruct Hc as [A B]. change (bs "\'$ |&;()<>") with [92; 39; 36; 32; 124; 38; 59; 40; 41; 60; 62]%N in A.
          repeat split; match goal with |- mem c ?l = false => destruct (mem c l) eqn:E; [|reflexivity]; apply mem_In in E end; change (bs "|&;<>") with [124; 38; 59; 60; 62]%N in *; cbn [In] in *; intuition congruence. }
        destruct M1 as (M1 & M2 & M3). rewrite M1, M2, (NE (ch "$")), (NE (ch "(")), (NE (ch ")")), M3, N2 by (assumption || reflexivity).
        rewrite <- Ew in *. unfold bash_consume_word. cbn [is_parameter_sub].
        assert (HS : starts_with_ch (w ++ render l) (ch "-") = (hd 0 w =? ch "-")%N) by (rewrite Ew, Eh; reflexivity).
        assert (Fin : forall s', (s' = bs_in_command \/ s' = bs_in_argument) -> forall ty, ty = (if first then hl_name_shell_command else if (hd 0 w =? ch "-")%N then hl_name_shell_option else hl_string) ->
           (exists l1 first1, simple_lines l1 /\ render l = render l1 /\ rev (OEmit i (length w) ty false :: o) ++ expected first1 (i + length w) l1 = expected true 0 l0 /\ follows l1 first1 s') /\ length (render l) < length (w ++ render l)).
        { intros s' Hs ty ->. split; [|lia]. exists l, false. split; [exact Hl|]. split; [reflexivity|]. split.
          - rewrite <- Eo. cbn [rev expected]. rewrite <- app_assoc. reflexivity.
          - right. split; [exact Hs|]. exact Hn. }
        ex1. ex1. ex1. cbn [rem]. rewrite WL. ex1. ex1. ex1. ex1. cbn [loc]. unfold follows in Hf. destruct first.
        * subst s. ex1. ex1. rewrite skipn_app_exact. ex1. ex1. cbn [rem idx rops loc]. apply Fin; auto.
        * destruct Hf as [->|[[->| ->] []]]. ex1. ex1. rewrite skipn_app_exact, HS. ex1. ex1. cbn [rem idx rops loc]. apply Fin; auto.
      + cbn [simple_lines] in Hl. destruct Hl as (Hb & F & Hn & Hl).
        assert (BL : bash_match_blank (b ++ render l) = length b).
        { unfold bash_match_blank. rewrite length_if_eq, prefix_len_app_all by (eapply Forall_impl; [|exact F]; intros x [->| ->]; reflexivity).
          destruct l as [|[w|b'|] l']; cbn [render]; [cbn; lia| |contradiction|cbn; lia].
          cbn [simple_lines] in Hl. destruct Hl as ((Hw & Fw & _) & _). destruct w as [|c w]; [congruence|]. inversion Fw as [|? ? Hc]; subst. cbn [app prefix_len].
          apply plain_terminator in Hc. destruct (is_bash_blank c) eqn:EB; [|lia]. unfold is_bash_unquoted_terminator, is_bash_metacharacter in Hc. rewrite EB, !orb_true_r in Hc. discriminate. }
        assert (LL : length (b ++ render l) = length b + length (render l)) by apply app_length. assert (0 < length b) by (destruct b; cbn; [congruence|lia]).
        assert (Eb : exists c t, b ++ render l = c :: t /\ (c = 32 \/ c = 9)%N).
        { destruct b as [|c b]; [congruence|]. exists c, (b ++ render l). split; [reflexivity|]. inversion F; assumption. }
        destruct Eb as (c & t & Eb & Hc). rewrite Eb. 
        assert (X : wp ((advance (bash_match_blank (b ++ render l));; let! s0 := get_loc in match s0 with bs_in_command | bs_in_argument => set_loc bs_before_argument | _ => ret tt end) ;; ret (inl tt : unit + unit))
          (fun r st' => match r with inl _ => (exists l1 first1, simple_lines l1 /\ rem st' = render l1 /\ rev (rops st') ++ expected first1 (idx st') l1 = expected true 0 l0 /\ follows l1 first1 (loc st')) /\ length (rem st') < length (b ++ render l) | inr _ => rops st' = rev (expected true 0 l0) end) (mk_hst (b ++ render l) i o s)).
        { rewrite BL. ex1. ex1. ex1. rewrite skipn_app_exact. ex1. ex1. cbn [loc].
          assert (Fin : forall s', follows l first s' -> (exists l1 first1, simple_lines l1 /\ render l = render l1 /\ rev o ++ expected first1 (i + length b) l1 = expected true 0 l0 /\ follows l1 first1 s') /\ length (render l) < length (b ++ render l)).
          { intros s' Hs. split; [|lia]. exists l, first. repeat split; try assumption. }
          unfold follows in Hf. destruct first.
          - subst s. ex. apply Fin. reflexivity.
          - destruct Hf as [->|[[->| ->] _]]; ex; apply Fin; left; reflexivity. }
        rewrite Eb in X. destruct Hc as [->| ->]; exact X.
      + cbn [simple_lines] in Hl. cbv zeta. change (wp ((advance 1 ;; set_loc bs_before_command) ;; ret (inl tt : unit + unit)) (fun r st' => match r with inl _ => (exists l1 first1, simple_lines l1 /\ rem st' = render l1 /\ rev (rops st') ++ expected first1 (idx st') l1 = expected true 0 l0 /\ follows l1 first1 (loc st')) /\ length (rem st') < S (length (render l)) | inr _ => rops st' = rev (expected true 0 l0) end) (mk_hst (10%N :: render l) i o s)).
        ex1. ex1. ex1. ex1. ex1. cbn [rem idx rops loc]. split; [|cbn; lia]. exists l, true. repeat split; assumption. }
  unfold bindM. fold st0. unfold wp in W. destruct (bash_commands _ _ st0) as [[[] st']|]; [|contradiction]. unfold ret. rewrite W, rev_involutive. reflexivity.
Qed.
Print Assumptions C79_bash_lines.
Example C79_case : simple_lines [Word (bs "ls"); Blank (bs " "); Word (bs "-l"); Newline; Blank (bs "  "); Word (bs "cd")]
  /\ expected true 0 [Word (bs "ls"); Blank (bs " "); Word (bs "-l"); Newline; Blank (bs "  "); Word (bs "cd")]
     = [OEmit 0 2 hl_name_shell_command false; OEmit 3 2 hl_name_shell_option false; OEmit 8 2 hl_name_shell_command false].
Proof.
  split; [|reflexivity]. cbn [simple_lines].
  assert (W : forall w, w <> [] -> forallb (fun c => negb (mem c (bs "\'$ |&;()<>" ++ [34; 9; 10; 11; 13]%N))) w = true -> mem (hd 0%N w) (bs "#}") = false -> plain_word w).
  { intros w H1 H2 H3. split; [exact H1|]. split.
    - apply Forall_forall. intros c Hc. rewrite forallb_forall in H2. apply H2 in Hc. apply negb_true_iff in Hc. unfold plain_char. rewrite <- !mem_In.
      unfold mem in Hc at 1. split; intros E; assert (X : mem c (bs "\'$ |&;()<>" ++ [34; 9; 10; 11; 13]%N) = true) by (apply mem_In; apply in_app_iff; rewrite <- !mem_In; auto); unfold mem in X at 1; congruence.
    - rewrite <- mem_In. congruence. }
  repeat split; try (apply W; [discriminate|reflexivity|reflexivity]); try discriminate; repeat constructor.
Qed.

(** ** C80 *)
(** The full property: what follows a command separator (; & | && ||) and blanks is a command. *)
Definition separators : list str := [bs ";"; bs "&"; bs "|"; bs "&&"; bs "||"].
Theorem C80_bash_separator_refuted :
  ~ (forall w sep v, plain_word w -> plain_word v -> In sep separators ->
     exists ops, highlight_bash (w ++ sep ++ bs " " ++ v) false = Ok (true, ops)
       /\ In (OEmit (length (w ++ sep ++ bs " ")) (length v) hl_name_shell_command false) ops).
Proof.
  intros H. destruct (H (bs "ls") (bs ";") (bs "rm")) as (ops & E & I).
  - split; [discriminate|]. unfold plain_char. split; [repeat constructor|]; cbn; intuition discriminate.
  - split; [discriminate|]. unfold plain_char. split; [repeat constructor|]; cbn; intuition discriminate.
  - cbn; auto.
  - vm_compute in E. injection E as <-. cbn in I. intuition discriminate.
Qed.
Print Assumptions C80_bash_separator_refuted.

(** What holds: the same without blanks after the separator. *)
Lemma bash_word_round commands ctx w rest i o s (Q : unit + unit -> hst bash_state -> Prop) : plain_word w -> (forall c, hd_error rest = Some c -> is_bash_unquoted_terminator c = true) ->
  ctx = cx_file -> s = bs_before_command \/ s = bs_in_command ->
  Q (inl tt) (mk_hst rest (i + length w) (OEmit i (length w) hl_name_shell_command false :: o) bs_in_command) ->
  wp (bash_commands_body commands ctx tt) Q (mk_hst (w ++ rest) i o s).
Proof.
  intros (Hw & F & Hh) R -> Hs HQ.
  assert (WL : bash_word_length false (w ++ rest) = length w) by (apply word_length_plain; assumption).
  assert (LW : 0 < length w) by (destruct w; cbn; [congruence|lia]). assert (LL : length (w ++ rest) = length w + length rest) by apply app_length.
  assert (Ew : exists c t, w ++ rest = c :: t /\ hd 0%N w = c /\ plain_char c).
  { destruct w as [|c w]; [congruence|]. exists c, (w ++ rest). split; [reflexivity|]. split; [reflexivity|]. inversion F; assumption. }
  destruct Ew as (c & t & Ew & Eh & Hc). rewrite Eh in Hh.
  pose proof (plain_not c) as NE. assert (N1 : (c =? ch "#")%N = false /\ (c =? ch "}")%N = false).
  { split; apply N.eqb_neq; intros ->; apply Hh; cbn; auto. }
  destruct N1 as [N1 N2]. unfold bash_commands_body. ex1. ex1. cbn [rem]. rewrite Ew. cbv zeta.
  rewrite (NE 92%N), (NE 39%N), (NE 34%N), N1 by (assumption || reflexivity).
  assert (M1 : mem c [32; 9]%N = false /\ mem c [11; 13; 10]%N = false /\ mem c (bs "|&;<>") = false).
  { clear - Hc. destruct Hc as [A B]. change (bs "\'$ |&;()<>") with [92; 39; 36; 32; 124; 38; 59; 40; 41; 60; 62]%N in A.
    repeat split; match goal with |- mem c ?l = false => destruct (mem c l) eqn:E; [|reflexivity]; apply mem_In in E end; change (bs "|&;<>") with [124; 38; 59; 60; 62]%N in *; cbn [In] in *; intuition congruence. }
  destruct M1 as (M1 & M2 & M3). rewrite M1, M2, (NE (ch "$")), (NE (ch "(")), (NE (ch ")")), M3, N2 by (assumption || reflexivity).
  rewrite <- Ew in *. unfold bash_consume_word. cbn [is_parameter_sub].
  ex1. ex1. ex1. cbn [rem]. rewrite WL. ex1. ex1. ex1. ex1. cbn [loc]. destruct Hs as [->| ->]; ex1; ex1; rewrite skipn_app_exact; ex; exact HQ.
Qed.

Theorem C80_bash_separator_partial : forall w sep v strict, plain_word w -> plain_word v -> In sep separators ->
  highlight_bash (w ++ sep ++ v) strict = Ok (true,
    [OEmit 0 (length w) hl_name_shell_command false;
     OEmit (length w) (length sep) hl_symbol_op false;
     OEmit (length w + length sep) (length v) hl_name_shell_command false]).
Proof.
  intros w sep v strict Hw Hv Hsep. unfold highlight_bash, run. set (src := w ++ sep ++ v). set (st0 := mk_hst src 0 [] bs_before_command).
  set (ops := [OEmit 0 (length w) hl_name_shell_command false; OEmit (length w) (length sep) hl_symbol_op false; OEmit (length w + length sep) (length v) hl_name_shell_command false]).
  assert (W : wp (bash_commands (S (length src)) cx_file) (fun _ st' => rops st' = rev ops) st0).
  { cbn [bash_commands]. assert (LS : 0 < length sep) by (cbn [In separators] in Hsep; repeat (destruct Hsep as [<-|Hsep]); try contradiction; cbn; lia).
    assert (LW : 0 < length w) by (destruct Hw as [Hw _]; destruct w; cbn; [congruence|lia]). assert (LV : 0 < length v) by (destruct Hv as [Hv _]; destruct v; cbn; [congruence|lia]).
    apply wp_unroll. apply bash_word_round; auto.
    { intros c Hc. cbn [In separators] in Hsep. repeat (destruct Hsep as [<-|Hsep]); try contradiction; injection Hc as <-; reflexivity. }
    split; [unfold st0, src; cbn [rem]; rewrite !app_length; lia|]. cbn [Nat.add]. apply wp_unroll.
    assert (OP : forall r i o s (Q : unit + unit -> hst bash_state -> Prop) op, bash_match_operator r = Some op -> (exists c t, r = c :: t /\ mem c (bs "|&;<>") = true) ->
      Q (inl tt) (mk_hst (skipn (length op) r) (i + length op) (OEmit i (length op) hl_symbol_op false :: o) s) -> wp (bash_commands_body (bash_commands (length src)) cx_file tt) Q (mk_hst r i o s)).
    { clear. intros r i o s Q op EO (c & t & -> & M) HQ. pose proof (bash_operator_le _ _ EO) as L. unfold bash_commands_body. ex1. ex1. cbn [rem]. rewrite EO.
      assert (X : wp (emit_and_advance (length op) hl_symbol_op ;; ret (inl tt : unit + unit)) Q (mk_hst (c :: t) i o s)) by (ex; exact HQ).
      rewrite M. clear EO L HQ. apply mem_In in M. change (bs "|&;<>") with [124; 38; 59; 60; 62]%N in M. cbn [In] in M.
      repeat (destruct M as [<-|M]); try contradiction; exact X. }
    apply (OP _ _ _ _ _ sep).
    - cbn [In separators] in Hsep. destruct Hv as (Hv & Fv & Hhv). destruct v as [|c v]; [congruence|]. inversion Fv as [|? ? Hc]; subst.
      repeat (destruct Hsep as [<-|Hsep]); try contradiction; cbn; try rewrite (plain_not c 38%N) by (assumption || reflexivity); try rewrite (plain_not c 124%N) by (assumption || reflexivity); try rewrite (plain_not c 62%N) by (assumption || reflexivity); reflexivity.
    - cbn [In separators] in Hsep. repeat (destruct Hsep as [<-|Hsep]); try contradiction; cbn [app]; do 2 eexists; split; reflexivity.
    - split; [cbn [rem]; rewrite !skipn_length, !app_length; lia|]. rewrite skipn_app_exact. apply wp_unroll.
      rewrite <- (app_nil_r v) at 1. apply bash_word_round; [assumption|discriminate|reflexivity|auto|].
      split; [cbn [rem length]; lia|]. apply wp_unroll. unfold bash_commands_body. ex. reflexivity. }
  unfold bindM. fold st0. unfold wp in W. destruct (bash_commands _ _ st0) as [[[] st']|]; [|contradiction]. unfold ret. rewrite W, rev_involutive. reflexivity.
Qed.
Print Assumptions C80_bash_separator_partial.
Example C80_case : exists ops, highlight_bash (bs "ls;rm") true = Ok (true, ops) /\ ops = [OEmit 0 2 hl_name_shell_command false; OEmit 2 1 hl_symbol_op false; OEmit 3 2 hl_name_shell_command false].
Proof. eexists. split; vm_compute; reflexivity. Qed.

(** ** C81 *)
(** A name: a letter or underscore, then letters, digits and underscores. *)
Definition bash_name (n : str) : Prop :=
  n <> [] /\ Forall (fun c => 65 <= c <= 90 \/ 97 <= c <= 122 \/ 48 <= c <= 57 \/ c = 95)%N n /\ ~ (48 <= hd 0 n <= 57)%N.
(** The full property: in dollar, brace, an optional length operator, a name, closing brace, both
    delimiters and the name are highlighted as interpolation, and nothing as a comment. *)
Definition expansion (op n : str) : str := bs "${" ++ op ++ n ++ bs "}".
Theorem C81_bash_expansion_refuted :
  ~ (forall op n, (op = [] \/ op = bs "#") -> bash_name n -> exists ops, highlight_bash (expansion op n) false = Ok (true, ops)
      /\ forall b len ty f, In (OEmit b len ty f) ops -> In ty [hl_string_interpolation; hl_string_interpolation_delim]).
Proof.
  intros H. destruct (H (bs "#") (bs "x")) as (ops & E & I); [auto|split; [discriminate|]; split; [repeat constructor; cbn; lia|cbn; lia]|].
  vm_compute in E. injection E as <-. specialize (I 2 1 hl_comment_delim false). cbn in I. destruct I as [I|[I|[]]]; [auto|discriminate|discriminate].
Qed.
Print Assumptions C81_bash_expansion_refuted.

Theorem C81_bash_expansion_partial : forall n strict, bash_name n ->
  highlight_bash (expansion [] n) strict = Ok (true,
    [OEmit 0 2 hl_string_interpolation_delim false; OEmit 2 (length n) hl_string_interpolation false; OEmit (2 + length n) 1 hl_string_interpolation_delim false]).
Proof.
  intros n strict (Hn & F & Hd). unfold highlight_bash, run, expansion. cbn [app]. set (src := bs "${" ++ n ++ bs "}"). set (st0 := mk_hst src 0 [] bs_before_command).
  set (ops := [OEmit 0 2 hl_string_interpolation_delim false; OEmit 2 (length n) hl_string_interpolation false; OEmit (2 + length n) 1 hl_string_interpolation_delim false]).
  assert (LN : 0 < length n) by (destruct n; cbn; [congruence|lia]).
  assert (W : wp (bash_commands (S (length src)) cx_file) (fun _ st' => rops st' = rev ops) st0).
  { replace (length src) with (S (1 + (length n + 1))) by (unfold src; rewrite !app_length; change (length (bs "${")) with 2; change (length (bs "}")) with 1; lia). set (f := 1 + (length n + 1)).
    cbn [bash_commands]. apply wp_unroll. unfold bash_commands_body at 1. ex1. ex1.
    change (wp (bash_consume_substitution (bash_commands (S f)) ;; ret (inl tt : unit + unit)) (fun r st' => match r with inl a' => length (rem st') < length (rem st0) /\ wp (hloop 1 (bash_commands_body (bash_commands (S f)) cx_file) a') (fun _ st' => rops st' = rev ops) st' | inr b => rops st' = rev ops end) st0).
    ex1. unfold bash_consume_substitution. ex1. ex1. ex1. ex1. ex1. apply wp_at_is with (c := ch "{"); [reflexivity|]. change (ch "{" =? ch "{")%N with true. cbv iota. unfold st0, src. assert (LL2 : length (bs "${" ++ n ++ bs "}") = 3 + length n) by (rewrite !app_length; change (length (bs "${")) with 2; change (length (bs "}")) with 1; lia). ex.
    change (skipn 2 (bs "${" ++ n ++ bs "}")) with (n ++ bs "}"). cbn [bash_commands]. apply wp_unroll. cbn [Nat.add].
    assert (LL : length (n ++ bs "}") = length n + 1) by apply app_length.
    assert (NC : Forall (fun c => is_bash_identifier c = true) n).
    { eapply Forall_impl; [|exact F]. intros c Hc. cbn beta in Hc. unfold is_bash_identifier, is_ascii_alphanumeric, is_ascii_alpha, is_ascii_upper_alpha, is_ascii_lower_alpha, is_ascii_digit, between. rewrite !orb_true_iff, !andb_true_iff, !N.leb_le, N.eqb_eq. change (ch "_") with 95%N. lia. }
    assert (ID : forall c l, is_bash_identifier c = true -> forallb (fun x => negb (is_bash_identifier x)) l = true -> mem c l = false).
    { intros c l Hc Hl. destruct (mem c l) eqn:E; [|reflexivity]. apply mem_In in E. rewrite forallb_forall in Hl. apply Hl in E. rewrite Hc in E. discriminate. }
    assert (IE : forall c x, is_bash_identifier c = true -> is_bash_identifier x = false -> (c =? x)%N = false).
    { intros c x Hc Hx. apply N.eqb_neq. intros ->. congruence. }
    assert (WL : bash_word_length true (n ++ bs "}") = length n).
    { clear - NC ID IE. induction NC as [|c m Hc NC IH]; [reflexivity|]. cbn [app bash_word_length length].
      assert (T : is_bash_unquoted_terminator c = false). { unfold is_bash_unquoted_terminator, is_bash_whitespace, is_bash_metacharacter, is_bash_blank. rewrite !ID by (assumption || reflexivity). reflexivity. }
      assert (B : bash_starts_with_substitution (c :: m ++ bs "}") = false). { unfold bash_starts_with_substitution. destruct (m ++ bs "}"); [reflexivity|]. rewrite IE by (assumption || reflexivity). reflexivity. }
      rewrite T, B, (IE c (ch "}")) by (assumption || reflexivity). cbn [orb andb]. rewrite IH. reflexivity. }
    assert (En : exists c t, n ++ bs "}" = c :: t /\ is_bash_identifier c = true).
    { destruct n as [|c n]; [congruence|]. exists c, (n ++ bs "}"). split; [reflexivity|]. inversion NC; assumption. }
    destruct En as (c & t & En & Hc). unfold bash_commands_body at 1. ex1. ex1. cbn [rem]. rewrite En. cbv zeta. rewrite !IE, !ID by (assumption || reflexivity). rewrite <- En.
    unfold bash_consume_word. ex1. ex1. ex1. cbn [is_parameter_sub rem]. rewrite WL. ex1. ex1. ex1. ex1. cbn [loc]. ex1. rewrite skipn_app_exact. ex1.
    split; [cbn [rem]; rewrite LL; cbn; lia|]. apply wp_unroll. unfold bash_commands_body at 1. ex1. ex1. cbn [rem].
    change (wp (emit_and_advance 1 hl_string_interpolation_delim ;; ret (inr tt : unit + unit)) (fun r st' => match r with inl a' => length (rem st') < length (bs "}") /\ wp (hloop 1 (bash_commands_body (bash_commands f) cx_parameter_sub) a') (fun _ st'0 => wp (ret (inl tt)) (fun (r : unit + unit) st' => match r with inl a' => length (rem st') < length (bs "${" ++ n ++ bs "}") /\ wp (hloop 1 (bash_commands_body (bash_commands (S f)) cx_file) a') (fun _ st' => rops st' = rev ops) st' | inr b => rops st' = rev ops end) st'0) st' | inr b => wp (ret (inl tt)) (fun (r : unit + unit) st' => match r with inl a' => length (rem st') < length (bs "${" ++ n ++ bs "}") /\ wp (hloop 1 (bash_commands_body (bash_commands (S f)) cx_file) a') (fun _ st' => rops st' = rev ops) st' | inr b => rops st' = rev ops end) st' end)
      (mk_hst (bs "}") (2 + length n) [OEmit 2 (length n) hl_string_interpolation false; OEmit 0 2 hl_string_interpolation_delim false] bs_parameter_sub)).
    ex1. ex1. ex1. ex1. cbn [rem]. split; [rewrite !app_length; cbn; lia|]. apply wp_unroll. unfold bash_commands_body at 1. ex. reflexivity. }
  unfold bindM. fold st0. unfold wp in W. destruct (bash_commands _ _ st0) as [[[] st']|]; [|contradiction]. unfold ret. rewrite W, rev_involutive. reflexivity.
Qed.
Print Assumptions C81_bash_expansion_partial.
Example C81_case : bash_name (bs "PATH_1") /\ expansion [] (bs "PATH_1") = bs "${PATH_1}".
Proof. split; [|reflexivity]. split; [discriminate|]. split; [repeat constructor; cbn; lia|cbn; lia]. Qed.
