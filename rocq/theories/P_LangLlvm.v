(** * Properties of the LLVM highlighter (C75-C77) *)
From Coq Require Import List NArith ZArith Bool Arith Lia.
From Verif Require Import M_Base L_Base S_Tokens M_Emit S_Ops L_Emit M_Types M_Chars M_Parse S_Parse L_Parse P_Parse
  M_Api M_Table L_Table M_Highlighter S_Highlight L_Highlighter P_LangCpp L_Auto M_LangLlvm S_LangLlvm.
Import ListNotations.

Definition llvm_gap (c : N) : Prop := In c [32; 9; 13; 10]%N.

Lemma llvm_options : good_options llvm_number_options.
Proof. split; [left; reflexivity|]. split; [repeat constructor; discriminate|]. discriminate. Qed.

#[local] Hint Resolve llvm_options : good_opts.

Lemma llvm_number_ok st : wp llvm_expect_number (attempt llvm_gap st) st.
Proof.
  begin_steps llvm_gap st. unfold llvm_expect_number. go; fin.
Qed.
Lemma llvm_line_comment_ok st : starts_with_ch (rem st) (ch ";") = true -> wp llvm_consume_line_comment (fun _ st' => exists k, steps llvm_gap k st st' /\ 0 < k) st.
Proof.
  intros Hc. begin_steps llvm_gap st. unfold llvm_consume_line_comment. go1. go1. go1. go1. go1. go1. go1. go1.
  pose proof (match_crlf_line_le (rem st')) as L. pose proof (crlf_line_term (rem st') llvm_gap) as T. cbv zeta. go1. go1.
  go1; [match goal with E : rem ?s = skipn _ _ |- context [rem ?s] => rewrite E end; apply T; cbn; auto|]. fin.
Qed.

Lemma llvm_block_ok st : wp llvm_expect_block_comment (attempt llvm_gap st) st.
Proof.
  begin_steps llvm_gap st. unfold llvm_expect_block_comment, highlight_enclosed_comment, llvm_match_block_comment. go; [fin|].
  apply (wp_enclosed_match llvm_gap (bs "/*") (bs "*/")); [discriminate|discriminate|hlia|]. intros. try fuse. go. fin.
Qed.

Lemma llvm_identifier_ok st : starts_with_ch (rem st) (ch "%") = true \/ starts_with_ch (rem st) (ch "@") = true ->
  wp llvm_consume_identifier (fun _ st' => exists k, steps llvm_gap k st st' /\ 0 < k) st.
Proof.
  intros Hc. begin_steps llvm_gap st. unfold llvm_consume_identifier.
  assert (E : llvm_match_identifier (rem st) = 1 + length_if (skipn 1 (rem st)) is_llvm_identifier).
  { unfold llvm_match_identifier. destruct Hc as [->| ->]; [reflexivity|]. rewrite andb_false_r. reflexivity. }
  pose proof (length_if_le (skipn 1 (rem st)) is_llvm_identifier) as L. rewrite skipn_length in L.
  go; try fin. destruct Hc; congruence.
Qed.

Lemma llvm_classify_ok s : s <> [] -> exists h, llvm_classify_keyword s = Ok h.
Proof. destruct s as [|c s]; [congruence|]. intros _. unfold llvm_classify_keyword. destruct (_ && _); eauto. Qed.

Lemma llvm_keyword_ok st : wp llvm_expect_keyword_or_label (attempt llvm_gap st) st.
Proof.
  begin_steps llvm_gap st. unfold llvm_expect_keyword_or_label, llvm_match_keyword.
  pose proof (length_if_le (rem st) is_llvm_keyword) as L.
  go; try fin.
  destruct (llvm_classify_ok (firstn (length_if (rem st) is_llvm_keyword) (rem st))) as [h E].
  { intros E. apply (f_equal (@length N)) in E. hlia. }
  eapply wp_lift; [exact E|]. go. fin.
Qed.

Lemma llvm_string_ok st : starts_with_ch (rem st) 34 = true -> wp llvm_consume_string (fun _ st' => exists k, steps llvm_gap k st st' /\ 0 < k) st.
Proof.
  intros Hc. begin_steps llvm_gap st. unfold llvm_consume_string. go1. go1. go1. go1. go1. go1.
  eapply wp_mono; [apply (wp_scan llvm_gap 1 llvm_string_body 0 (fun _ _ _ => True)); [lia|lia|]|].
  2:{ cbn beta. intros _ st2 (k & ? & _). fuse. fin. }
  intros a k st1 Hs La _. clear H H0. unfold llvm_string_body. go; try fin.
Qed.

Lemma llvm_default_ok st : rem st <> [] -> wp llvm_default_case (fun _ st' => exists k, steps llvm_gap k st st' /\ 0 < k) st.
Proof.
  intros Hne. begin_steps llvm_gap st. unfold llvm_default_case. go1. attempt_ llvm_keyword_ok; go; fin.
Qed.

Lemma llvm_number_digit st c : nth_error (rem st) 0 = Some c -> is_ascii_digit c = true ->
  wp llvm_expect_number (fun b st' => b = true /\ exists k, steps llvm_gap k st st' /\ 0 < k) st.
Proof.
  intros Hc D. begin_steps llvm_gap st. unfold llvm_expect_number. go.
  - exfalso. eapply (at_0_number _ _ llvm_number_options); try eassumption; try (cbn; lia). hlia.
  - split; [reflexivity|]. fin.
Qed.

Lemma llvm_anything_ok st : rem st <> [] -> wp llvm_consume_anything (fun _ st' => exists k, steps llvm_gap k st st' /\ 0 < k) st.
Proof.
  intros Hne. begin_steps llvm_gap st. unfold llvm_consume_anything. go1. go1. go1. go1.
  go1. { go1; [eapply gap_one; [eassumption|]; apply mem_In; assumption|]. fin. }
  go1. { go1. eapply wp_mono; [eapply llvm_number_digit; eassumption|]. cbn beta. intros b st' (-> & k & Hk & K). go. fin. }
  go1. { apply llvm_string_ok. eapply at_0_is; eassumption. }
  go1. { go. fin. }
  go1. { go. fin. }
  go1. { go. fin. }
  go1. { go. fin. }
  go1. { apply llvm_line_comment_ok. eapply at_0_is; eassumption. }
  go1. { go1. attempt_ llvm_block_ok; go; fin. }
  go1. { apply llvm_identifier_ok. match goal with M : mem _ (bs "%@") = true, A : nth_error _ 0 = _ |- _ => apply mem_In in M; cbn in M; destruct (at_0 _ _ A) as [t E] end. rewrite E. cbn. rewrite !N.eqb_eq. intuition. }
  go1. { go1. attempt_ llvm_number_ok; go; [fin|]. apply llvm_default_ok; assumption. }
  apply llvm_default_ok; assumption.
Qed.

(** ** C75 *)
Theorem C75_llvm : always_highlights_except (fun c => In c (bs " ") \/ In c [9; 13; 10]%N) highlight_llvm.
Proof.
  apply always_except_from_ops. intros src strict. apply (run_ok_all (fun c => In c (bs " ") \/ In c [9; 13; 10]%N)).
  apply wp_bind. eapply wp_mono; [apply (while_rem_all llvm_gap); apply llvm_anything_ok|]. cbn beta. intros [] st' H. apply wp_ret. split; [reflexivity|].
  eapply steps_weaken; [|exact H]. cbn. tauto.
Qed.
Print Assumptions C75_llvm.
Example C75_case : exists ops, highlight_llvm (bs "define i32 @f() { ret i32 1 } ; c") false = Ok (true, ops) /\ 5 < length ops.
Proof. eexists. split; [vm_compute; reflexivity|]. cbn [length]. lia. Qed.

(** ** C76 *)
Lemma llvm_word_char_iff c : is_llvm_keyword c = true <-> llvm_word_char c.
Proof.
  unfold is_llvm_keyword, llvm_word_char, is_ascii_alphanumeric, is_ascii_alpha, is_ascii_upper_alpha, is_ascii_lower_alpha, is_ascii_digit, between.
  rewrite !orb_true_iff, !andb_true_iff, !N.leb_le, mem_In. change (bs "-_") with [45; 95]%N. cbn [In]. lia.
Qed.

Lemma digit_iff_llvm c : is_ascii_digit c = true <-> llvm_digit c.
Proof. unfold is_ascii_digit, llvm_digit, between. rewrite andb_true_iff, !N.leb_le. reflexivity. Qed.
Lemma no_nondigit s : (match find_if (fun c => negb (is_ascii_digit c)) s with None => true | Some _ => false end) = true <-> Forall llvm_digit s.
Proof.
  induction s as [|c s IH]; cbn [find_if]; [split; auto|]. destruct (is_ascii_digit c) eqn:E; cbn [negb].
  - apply digit_iff_llvm in E. rewrite Forall_cons_iff, <- IH. destruct (find_if _ s); intuition.
  - split; [discriminate|]. intros H. inversion H; subst. apply digit_iff_llvm in H2. congruence.
Qed.
Lemma llvm_sorted : table_sorted llvm_keywords = true. Proof. vm_compute. reflexivity. Qed.
Lemma In_test w l : existsb (str_eqb w) l = true -> In w l.
Proof. intros H. apply existsb_exists in H as (x & Hx & E). apply str_eqb_eq in E. subst. exact Hx. Qed.

Lemma llvm_classify_spec w : w <> [] -> exists h, llvm_classify_keyword w = Ok h /\ llvm_word w h.
Proof.
  destruct w as [|c t]; [congruence|]. intros _. unfold llvm_classify_keyword.
  destruct ((c =? ch "i")%N && (2 <=? length (c :: t)) && (match find_if (fun c => negb (is_ascii_digit c)) t with None => true | Some _ => false end)) eqn:E.
  - eexists. split; [reflexivity|]. apply lw_integer. rewrite !andb_true_iff in E. destruct E as ((E1 & E2) & E3). apply no_nondigit in E3. apply N.eqb_eq in E1. subst c.
    exists t. split; [reflexivity|]. split; [|exact E3]. intros ->. cbn in E2. discriminate.
  - assert (NI : ~ llvm_integer_type (c :: t)).
    { intros (d & H1 & H2 & H3). change (bs "i") with [ch "i"] in H1. injection H1 as -> ->. apply no_nondigit in H3. rewrite H3 in E. destruct d; [congruence|]. cbn in E. discriminate. }
    clear E. revert NI. generalize (c :: t). intros w NI. destruct (table_find llvm_keywords w) as [h|] eqn:T.
    + exists h. split; [reflexivity|]. apply (table_find_iff _ _ _ llvm_sorted) in T. cbn [llvm_keywords In] in T.
      repeat (destruct T as [T|T]); try contradiction; injection T as <- <-;
      first [ apply lw_type; apply In_test; reflexivity | apply lw_control; apply In_test; reflexivity | apply lw_null; apply In_test; reflexivity | apply lw_bool; auto; fail | apply lw_c | apply lw_x ].
    + exists hl_keyword. split; [reflexivity|]. apply lw_other; [exact NI|..]; intros H; cbn [In llvm_types llvm_terminators llvm_nulls] in H;
      repeat (destruct H as [H|H]); try contradiction; subst w; vm_compute in T; discriminate.
Qed.

(** The number matcher does not take words. *)
Lemma llvm_no_number s : (starts_with_ch s (ch "s") || starts_with_ch s (ch "u"))%bool = true -> starts_with s (bs "s0x") = false -> starts_with s (bs "u0x") = false ->
  exists r, match_common_number s llvm_number_options = Ok r /\ nr_length r = 0.
Proof.
  intros H1 H2 H3. unfold match_common_number. cbn [no_suffixes llvm_number_options check bind].
  assert (exists c t, s = c :: t /\ (c = 115 \/ c = 117)%N) as (c & t & -> & Hc).
  { destruct s as [|c t]; [discriminate|]. cbn in H1. exists c, t. split; [reflexivity|]. apply orb_true_iff in H1. rewrite !N.eqb_eq in H1. exact H1. }
  assert (HB : number_base llvm_number_options (c :: t) (no_prefixes llvm_number_options) = Ok (0, true, 10%Z)).
  { cbn [no_prefixes llvm_number_options map number_base np_str]. rewrite H2, H3. destruct Hc as [->| ->]; reflexivity. }
  assert (HS : (if no_plus llvm_number_options && starts_with_ch (c :: t) 43 || no_minus llvm_number_options && starts_with_ch (c :: t) 45 then 1 else 0) = 0) by (destruct Hc as [->| ->]; reflexivity).
  rewrite HS. cbn [skipn]. rewrite HB. cbn [bind Nat.add skipn].
  assert (HD : match_separated_digits (c :: t) 10 (no_separator llvm_number_options) = (0, false)) by (destruct Hc as [->| ->]; reflexivity).
  rewrite HD. cbn [Nat.add skipn]. assert (ND : starts_with_ch (c :: t) 46 = false) by (destruct Hc as [->| ->]; reflexivity). rewrite ND. cbn. eauto.
Qed.

Lemma starts_with_word w rest p : Forall llvm_word_char p -> (forall c, hd_error rest = Some c -> ~ llvm_word_char c) ->
  starts_with (w ++ rest) p = true -> starts_with w p = true.
Proof.
  intros F R. revert w. induction F as [|x p Hx F IH]; intros w; [destruct w; reflexivity|]. destruct w as [|y w]; cbn [app starts_with].
  - destruct rest as [|y r]; cbn [starts_with]; [discriminate|]. rewrite andb_true_iff, N.eqb_eq. intros [-> _]. exfalso. apply (R x eq_refl Hx).
  - rewrite !andb_true_iff. intros [H1 H2]. auto.
Qed.

Lemma llvm_word_run w rest i o : w <> [] -> Forall llvm_word_char w -> (forall c, hd_error rest = Some c -> ~ llvm_word_char c) ->
  (forall c, hd_error w = Some c -> ~ llvm_digit c) -> starts_with w (bs "s0x") = false -> starts_with w (bs "u0x") = false ->
  exists h, llvm_word w h /\
  wp llvm_consume_anything (fun _ st' => rops st' = rev (if starts_with_ch rest (ch ":") then [OEmit i (length w) hl_name_label_decl false; OEmit (i + length w) 1 hl_name_label_delim false] else [OEmit i (length w) h false]) ++ o)
    (mk_hst (w ++ rest) i o tt).
Proof.
  intros Hw F R D S1 S2. destruct (llvm_classify_spec w Hw) as (h & Eh & Hh). exists h. split; [exact Hh|].
  assert (L : length_if (w ++ rest) is_llvm_keyword = length w).
  { rewrite length_if_eq, prefix_len_app_all by (eapply Forall_impl; [|exact F]; intros; apply llvm_word_char_iff; assumption).
    destruct rest as [|c t]; cbn [prefix_len]; [lia|]. destruct (is_llvm_keyword c) eqn:E; [|lia]. apply llvm_word_char_iff in E. elim (R c eq_refl E). }
  assert (LW : 0 < length w) by (destruct w; cbn; [congruence|lia]).
  assert (K : wp llvm_default_case (fun _ st' => rops st' = rev (if starts_with_ch rest (ch ":") then [OEmit i (length w) hl_name_label_decl false; OEmit (i + length w) 1 hl_name_label_delim false] else [OEmit i (length w) h false]) ++ o) (mk_hst (w ++ rest) i o tt)).
  { assert (LA : length (w ++ rest) = length w + length rest) by apply app_length.
    unfold llvm_default_case, llvm_expect_keyword_or_label, llvm_match_keyword. ex1. ex1. ex1. cbn [rem]. rewrite L. ex1; [exfalso; hlia|]. ex1. ex1. rewrite skipn_app_exact, firstn_app_exact.
    destruct (starts_with_ch rest (ch ":")) eqn:ER.
    - ex1. ex1. ex1. rewrite skipn_app_exact. ex. reflexivity.
    - ex1. eapply wp_lift; [exact Eh|]. ex. reflexivity. }
  destruct w as [|c w]; [congruence|]. apply Forall_cons_iff in F as [Fc F]. unfold llvm_consume_anything. ex1. ex1. ex1. eapply wp_at_is; [reflexivity|]. cbn beta.
  assert (D' : is_ascii_digit c = false). { destruct (is_ascii_digit c) eqn:E; [|reflexivity]. apply digit_iff_llvm in E. elim (D c eq_refl E). }
  assert (NM : forall l, forallb (fun x => negb (is_llvm_keyword x)) l = true -> mem c l = false).
  { intros l Hl. destruct (mem c l) eqn:E; [|reflexivity]. apply mem_In in E. rewrite forallb_forall in Hl. apply Hl in E. apply llvm_word_char_iff in Fc. rewrite Fc in E. discriminate. }
  assert (NE : forall x, is_llvm_keyword x = false -> (c =? x)%N = false).
  { intros x Hx. apply N.eqb_neq. intros ->. apply llvm_word_char_iff in Fc. congruence. }
  rewrite (NM [32; 9; 13; 10]%N), D', (NE 34%N), (NM (bs "()")), (NM (bs "[]")), (NM (bs "{}")), (NM (bs ",:<=>")), (NE (ch ";")), (NE (ch "/")), (NM (bs "%@")) by reflexivity.
  destruct (mem c (bs "su")) eqn:M; [|exact K]. apply wp_bind. unfold llvm_expect_number. ex1. ex1. ex1.
  destruct (llvm_no_number ((c :: w) ++ rest)) as (r & Er & E0).
  - apply mem_In in M. change (bs "su") with [ch "s"; ch "u"] in M. cbn [app starts_with_ch]. destruct M as [<-|[<-|[]]]; reflexivity.
  - destruct (starts_with ((c :: w) ++ rest) (bs "s0x")) eqn:E; [|reflexivity]. rewrite <- S1. symmetry. eapply starts_with_word; [|exact R|exact E]. change (bs "s0x") with [115; 48; 120]%N. unfold llvm_word_char. repeat constructor; lia.
  - destruct (starts_with ((c :: w) ++ rest) (bs "u0x")) eqn:E; [|reflexivity]. rewrite <- S2. symmetry. eapply starts_with_word; [|exact R|exact E]. change (bs "u0x") with [117; 48; 120]%N. unfold llvm_word_char. repeat constructor; lia.
  - eapply wp_lift; [exact Er|]. rewrite E0. cbn [Nat.eqb]. ex1. exact K.
Qed.

(** A source that starts with a word which is not a number: the word is highlighted as a whole, as a label when
    a colon follows and otherwise by its kind. *)
Theorem C76_llvm_word : forall w rest strict, w <> [] -> Forall llvm_word_char w ->
  (forall c, hd_error rest = Some c -> ~ llvm_word_char c) ->
  (forall c, hd_error w = Some c -> ~ llvm_digit c) -> ~ (exists t, w = bs "s0x" ++ t \/ w = bs "u0x" ++ t) ->
  exists h more, llvm_word w h /\
    highlight_llvm (w ++ rest) strict = Ok (true,
      (if starts_with_ch rest (ch ":")
       then [OEmit 0 (length w) hl_name_label_decl false; OEmit (length w) 1 hl_name_label_delim false]
       else [OEmit 0 (length w) h false]) ++ more).
Proof.
  intros w rest strict Hw F R D NX.
  assert (X : forall p, In p [bs "s0x"; bs "u0x"] -> starts_with w p = false).
  { intros p Hp. destruct (starts_with w p) eqn:E; [|reflexivity]. elim NX. apply starts_with_firstn in E as E2. rewrite <- (firstn_skipn (length p) w), E2. eexists. cbn [In] in Hp. destruct Hp as [<-|[<-|[]]]; [left|right]; reflexivity. }
  destruct (llvm_word_run w rest 0 [] Hw F R D) as (h & Hh & W); [apply X; cbn; auto|apply X; cbn; auto|].
  edestruct (main_first llvm_gap tt llvm_consume_anything (w ++ rest)) as (more & E).
  - apply llvm_anything_ok.
  - destruct w; [congruence|discriminate].
  - eapply wp_mono; [exact W|]. cbn beta. intros _ st' ->. apply app_nil_r.
  - exists h, more. split; [exact Hh|]. exact E.
Qed.
Print Assumptions C76_llvm_word.

Example C76_case : exists more, highlight_llvm (bs "i32 %a") false = Ok (true, OEmit 0 3 hl_keyword_type false :: more) /\ llvm_word (bs "i32") hl_keyword_type
  /\ exists more, highlight_llvm (bs "entry:") false = Ok (true, OEmit 0 5 hl_name_label_decl false :: OEmit 5 1 hl_name_label_delim false :: more).
Proof.
  eexists. split; [vm_compute; reflexivity|]. split; [|eexists; vm_compute; reflexivity].
  apply lw_integer. exists (bs "32"). split; [reflexivity|]. split; [discriminate|]. change (bs "32") with [51; 50]%N. unfold llvm_digit. repeat constructor; lia.
Qed.

(** ** C77 *)
(** The full property: a constant [n] followed by something that cannot belong to a word is
    highlighted as a number, and nothing of it as an error or a keyword. *)
Definition number_highlights : list N := [hl_number; hl_number_decor; hl_number_delim].
Definition highlighted_as_number (n rest : str) : Prop := forall strict, exists ops,
  highlight_llvm (n ++ rest) strict = Ok (true, ops)
  /\ forall b len ty f, In (OEmit b len ty f) ops -> b < length n -> In ty number_highlights.
Theorem C77_llvm_number_refuted :
  ~ (forall n rest, llvm_number n -> (forall c, hd_error rest = Some c -> ~ llvm_word_char c /\ c <> 46%N /\ c <> 58%N) -> highlighted_as_number n rest).
Proof.
  intros H. specialize (H (bs "-5") []). destruct H with (strict := false) as (ops & E & F).
  - apply (ln_decimal (bs "-") (bs "5")); [auto|discriminate|]. change (bs "5") with [53]%N. unfold llvm_digit. repeat constructor; lia.
  - discriminate.
  - vm_compute in E. injection E as <-. destruct (F 0 2 hl_keyword false) as [A|[A|[A|[]]]]; [left; reflexivity|cbn; lia|discriminate..].
Qed.
Print Assumptions C77_llvm_number_refuted.
(** The same for hexadecimal constants with a kind letter. *)
Theorem C77_llvm_hex_refuted : llvm_number (bs "0xK4000") /\ ~ highlighted_as_number (bs "0xK4000") [].
Proof.
  split.
  - apply (ln_hex (bs "0xK") (bs "4000")); [cbn; auto|discriminate|]. change (bs "4000") with [52; 48; 48; 48]%N. unfold llvm_hex_digit. repeat constructor; lia.
  - intros H. destruct (H false) as (ops & E & F). vm_compute in E. injection E as <-. destruct (F 0 2 hl_error false) as [A|[A|[A|[]]]]; [left; reflexivity|cbn; lia|discriminate..].
Qed.
Print Assumptions C77_llvm_hex_refuted.

(** What holds: constants without a sign and without a kind letter. *)
Lemma llvm_number_run p d rest base allow : d <> [] -> number_base llvm_number_options (p ++ d ++ rest) (no_prefixes llvm_number_options) = Ok (length p, allow, base) ->
  Forall (fun c => is_ascii_digit_base c base = true) d ->
  (forall c, hd_error (p ++ d) = Some c -> llvm_digit c \/ c = 115%N \/ c = 117%N) ->
  (forall c, hd_error rest = Some c -> ~ llvm_word_char c /\ c <> 46%N) -> (base = 10 \/ base = 16)%Z ->
  wp llvm_consume_anything (fun _ st' => rops st' = rev (number_ops 0 (length p) (length d))) (mk_hst (p ++ d ++ rest) 0 [] tt).
Proof.
  intros Hd HB F Hh R Hbase.
  assert (E : match_common_number (p ++ d ++ rest) llvm_number_options = Ok (mk_number (length p + length d) 0 (length p) (length d) 0 0 0 0 0 false)).
  { apply plain_number with (allow := allow) (base := base); auto.
    - intros c Hc. destruct (Hh c Hc) as [G|[->| ->]]; [unfold llvm_digit in G; lia|lia|lia].
    - eapply Forall_impl; [|exact F]. auto.
    - intros c Hc. destruct (R c Hc) as [R1 R2]. split; [|split; [auto|auto]]. destruct (is_ascii_digit_base c base) eqn:B; [|reflexivity]. elim R1.
      unfold is_ascii_digit_base, is_ascii_digit, between in B. unfold llvm_word_char. destruct Hbase as [->| ->]; cbn in B; rewrite !orb_true_iff, !andb_true_iff, !N.leb_le in B; rewrite ?N.ltb_lt in B; lia.
    - intros _ Hr. destruct rest as [|c t]; [congruence|]. destruct (R c eq_refl) as [R1 _]. cbn [no_exponents llvm_number_options map].
      assert (N1 : forall p, (starts_with_ch p 101 || starts_with_ch p 69)%bool = true -> starts_with (c :: t) p = false).
      { intros q Hq. destruct q as [|x q]; [discriminate|]. cbn [starts_with starts_with_ch] in *. destruct (N.eqb_spec c x) as [->|]; [|reflexivity]. elim R1. unfold llvm_word_char. rewrite orb_true_iff, !N.eqb_eq in Hq. lia. }
      cbn [number_exponent fst]. rewrite !N1 by reflexivity. reflexivity. }
  assert (exists c t, p ++ d ++ rest = c :: t /\ (llvm_digit c \/ c = 115%N \/ c = 117%N)) as (c & t & E2 & Hc).
  { destruct p as [|c p]; [destruct d as [|c d]; [congruence|]|]; cbn [app] in *; do 2 eexists; (split; [reflexivity|]); apply Hh; reflexivity. }
  assert (K : wp llvm_expect_number (fun b st' => b = true /\ rops st' = rev (number_ops 0 (length p) (length d))) (mk_hst (p ++ d ++ rest) 0 [] tt)).
  { unfold llvm_expect_number. ex1. ex1. ex1. eapply wp_lift; [exact E|]. cbn [nr_length]. assert (0 < length d) by (destruct d; cbn; [congruence|lia]). ex1; [exfalso; hlia|]. ex1. unfold highlight_number. apply highlight_plain; [apply digits_plain|lia|rewrite !app_length; lia|]. ex1. split; [reflexivity|]. cbn [rops]. apply app_nil_r. }
  rewrite E2 in *. unfold llvm_consume_anything. ex1. ex1. ex1. eapply wp_at_is; [reflexivity|]. cbn beta.
  destruct (is_ascii_digit c) eqn:D.
  - assert (M : mem c [32; 9; 13; 10]%N = false). { destruct (mem c _) eqn:M; [|reflexivity]. apply mem_In in M. apply digit_iff_llvm in D. unfold llvm_digit in D. cbn in M. lia. }
    rewrite M. apply wp_bind. eapply wp_mono; [exact K|]. cbn beta. intros b st' [-> Hr]. apply wp_check; [reflexivity|]. exact Hr.
  - assert (c = 115 \/ c = 117)%N as Hc'. { destruct Hc as [G|G]; [apply digit_iff_llvm in G; congruence|exact G]. }
    assert (X : wp (let! b := llvm_expect_number in if b then ret tt else llvm_default_case) (fun (_ : unit) st' => rops st' = rev (number_ops 0 (length p) (length d))) (mk_hst (c :: t) 0 [] tt)).
    { apply wp_bind. eapply wp_mono; [exact K|]. cbn beta. intros b st' [-> Hr]. ex. exact Hr. }
    destruct Hc' as [->| ->]; exact X.
Qed.

Theorem C77_llvm_number_partial : forall n rest strict,
  (n <> [] /\ Forall llvm_digit n -> (forall c, hd_error rest = Some c -> ~ llvm_word_char c /\ c <> 46%N) ->
     exists more, highlight_llvm (n ++ rest) strict = Ok (true, OEmit 0 (length n) hl_number false :: more))
  /\ (forall p, In p [bs "0x"; bs "s0x"; bs "u0x"] -> n <> [] /\ Forall llvm_hex_digit n -> (forall c, hd_error rest = Some c -> ~ llvm_word_char c /\ c <> 46%N) ->
     exists more, highlight_llvm (p ++ n ++ rest) strict = Ok (true, OEmit 0 (length p) hl_number_decor false :: OEmit (length p) (length n) hl_number false :: more)).
Proof.
  intros n rest strict. split.
  - intros [Hn F] R. edestruct (main_first llvm_gap tt llvm_consume_anything (n ++ rest)) as (more & E).
    + apply llvm_anything_ok.
    + destruct n; [congruence|discriminate].
    + apply (llvm_number_run [] n rest 10 true); auto.
      * cbn [app length]. assert (N1 : forall p, In p [bs "0x"; bs "0xK"; bs "0xL"; bs "0xM"; bs "0xR"; bs "s0x"; bs "u0x"] -> starts_with (n ++ rest) p = false).
        { intros p Hp. destruct (starts_with (n ++ rest) p) eqn:E; [|reflexivity]. exfalso.
          assert (Hx : forall k, k < length n -> exists c, nth_error (n ++ rest) k = Some c /\ llvm_digit c).
          { intros k Hk. rewrite nth_error_app1 by lia. destruct (nth_error n k) eqn:Ek; [|apply nth_error_None in Ek; lia]. eexists. split; [reflexivity|]. rewrite Forall_forall in F. apply F. eapply nth_error_In; exact Ek. }
          destruct n as [|c n]; [congruence|]. destruct (Hx 0) as (c' & E0 & D0); [cbn; lia|]. cbn in E0. injection E0 as <-.
          destruct n as [|c2 n].
          - destruct rest as [|y r].
            + cbn [In] in Hp. repeat (destruct Hp as [<-|Hp]); try contradiction; cbn in E; rewrite ?andb_false_r in E; discriminate.
            + destruct (R y eq_refl) as [R1 _]. cbn [In] in Hp. repeat (destruct Hp as [<-|Hp]); try contradiction; cbn in E; rewrite ?andb_true_iff, ?N.eqb_eq in E;
              try (apply R1; unfold llvm_word_char; destruct E as (_ & E & _); rewrite E; lia); try (apply R1; unfold llvm_word_char; destruct E as (_ & E); rewrite E; lia); unfold llvm_digit in D0; destruct E as (E & _); rewrite E in D0; lia.
          - destruct (Hx 1) as (c' & E0 & D1); [cbn; lia|]. cbn in E0. injection E0 as <-. unfold llvm_digit in D0, D1. cbn [In] in Hp. repeat (destruct Hp as [<-|Hp]); try contradiction; cbn in E; rewrite ?andb_true_iff, ?N.eqb_eq in E; lia. }
        cbn [no_prefixes llvm_number_options map number_base np_str]. rewrite !N1 by (cbn; auto 10). cbn. destruct (starts_with_ch (n ++ rest) 48); reflexivity.
      * eapply Forall_impl; [|exact F]. intros c Hc. apply digit_base_10; [apply digit_iff_llvm; exact Hc|lia].
      * cbn [app]. intros c Hc. left. destruct n as [|x n]; [discriminate|]. injection Hc as <-. inversion F; assumption.
    + exists more. exact E.
  - intros p Hp [Hn F] R. edestruct (main_first llvm_gap tt llvm_consume_anything (p ++ n ++ rest)) as (more & E).
    + apply llvm_anything_ok.
    + destruct p; [destruct n; [congruence|discriminate]|discriminate].
    + apply (llvm_number_run p n rest 16 false); auto.
      * cbn [In] in Hp. destruct Hp as [<-|[<-|[<-|[]]]]; reflexivity.
      * eapply Forall_impl; [|exact F]. intros c Hc. unfold is_ascii_digit_base, is_ascii_digit, between, llvm_hex_digit in *. cbn. rewrite !orb_true_iff, !andb_true_iff, !N.leb_le, ?N.ltb_lt. lia.
      * intros c Hc. cbn [In] in Hp. unfold llvm_digit. destruct Hp as [<-|[<-|[<-|[]]]]; injection Hc as <-; lia.
    + exists more. assert (length p <> 0) by (cbn [In] in Hp; destruct Hp as [<-|[<-|[<-|[]]]]; discriminate). unfold highlight_llvm. rewrite E. unfold number_ops. destruct (Nat.eqb_spec (length p) 0); [lia|]. reflexivity.
Qed.
Print Assumptions C77_llvm_number_partial.
Example C77_case : exists more, highlight_llvm (bs "s0x1F,") false = Ok (true, OEmit 0 3 hl_number_decor false :: OEmit 3 2 hl_number false :: more).
Proof. eexists. vm_compute. reflexivity. Qed.
