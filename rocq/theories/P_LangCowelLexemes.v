(** * The COWEL highlighter: exact tokens *)
From Coq Require Import List NArith ZArith Bool Arith Lia.
From Verif Require Import M_Base L_Base S_Tokens M_Utf8 L_Utf8 L_Any P_Utf8 M_Emit S_Ops L_Emit M_Types M_Chars S_Chars P_Chars M_Parse S_Parse L_Parse P_Parse
  M_Api M_Highlighter S_Highlight L_Highlighter P_LangCpp L_Auto S_Json L_JsonText S_Lexemes L_Lexemes L_Number L_Number2 L_Scan L_Comments L_Does M_LangCowel S_LangCowel P_LangCowel.
Import ListNotations.

Ltac skip_ lem := eapply does_nil; [apply lem|cbn iota].
Ltac done_ lem := eapply does_last; [apply lem|apply does_ret].

(** ** Characters *)
Lemma horizontal_iff c : is_horizontal_whitespace c = true <-> cowel_horizontal c.
Proof. apply mem_In. Qed.
Lemma space_iff c : is_html_whitespace c = true <-> cowel_space c.
Proof. unfold is_html_whitespace. rewrite !orb_true_iff, !N.eqb_eq. unfold cowel_space, cowel_horizontal, cowel_newline. cbn [In]. lia. Qed.
Lemma start_iff c : is_cowel_identifier_start c = true <-> ident_start c.
Proof. unfold is_cowel_identifier_start, is_ascii_alpha, is_ascii_upper_alpha, is_ascii_lower_alpha, between, ident_start, letter. rewrite !orb_true_iff, !andb_true_iff, !N.leb_le, N.eqb_eq. change (ch "_") with 95%N. lia. Qed.
Lemma ident_iff c : is_cowel_identifier c = true <-> ident_char c.
Proof. unfold is_cowel_identifier. rewrite orb_true_iff, start_iff. unfold is_ascii_digit, between, ident_start, ident_char, digit. rewrite andb_true_iff, !N.leb_le. tauto. Qed.
Lemma starts_ch_app c t : starts_with_ch (c :: t) c = true. Proof. cbn. apply N.eqb_refl. Qed.
Lemma starts_ch_ne c d t : c <> d -> starts_with_ch (c :: t) d = false. Proof. intros. cbn. apply N.eqb_neq. assumption. Qed.
Lemma not_before_head (p : N -> Prop) c t : not_before p (c :: t) -> ~ p c. Proof. intros H. apply H. reflexivity. Qed.
Lemma length_if_exact (f : N -> bool) (d : N -> Prop) w rest : (forall c, f c = true <-> d c) -> Forall d w -> not_before d rest -> length_if (w ++ rest) f = length w.
Proof.
  intros F W R. rewrite length_if_eq. apply prefix_len_exact; [eapply Forall_impl; [|exact W]; intros; apply F; assumption|]. eapply not_before_impl; [|exact R]. intros; apply F; assumption.
Qed.
Lemma identifier_exact w rest : identifier w -> not_before ident_char rest -> cowel_match_identifier (w ++ rest) = length w.
Proof.
  intros (c & t & -> & Hc & Ht) R. unfold cowel_match_identifier. rewrite length_if_head_tail_eq. cbn [app]. rewrite (proj2 (start_iff c) Hc). cbn [length]. f_equal.
  apply prefix_len_exact; [eapply Forall_impl; [|exact Ht]; intros; apply ident_iff; assumption|]. eapply not_before_impl; [|exact R]. intros; apply ident_iff; assumption.
Qed.
Lemma no_identifier s : not_before ident_start s -> cowel_match_identifier s = 0.
Proof.
  intros R. unfold cowel_match_identifier. rewrite length_if_head_tail_eq. destruct s as [|c s]; [reflexivity|]. destruct (is_cowel_identifier_start c) eqn:E; [|reflexivity]. apply start_iff in E. elim (R c eq_refl). exact E.
Qed.

(** ** Comments *)
Lemma line_match t rest : Forall (fun c => ~ cowel_newline c) t -> rest = [] \/ begins cowel_newline rest -> cowel_match_line_comment (bs "\:" ++ t ++ rest) = 2 + length t.
Proof.
  intros H R. unfold cowel_match_line_comment. rewrite (proj2 (starts_with_app _ _)) by eauto. cbn [negb]. unfold ascii_find. rewrite or_length_from by (rewrite app_length; cbn; lia). f_equal.
  change (skipn 2 (bs "\:" ++ t ++ rest)) with (t ++ rest). apply prefix_len_exact.
  - eapply Forall_impl; [|exact H]. intros c Hc. cbn beta. destruct (mem c [13; 10]%N) eqn:E; [|reflexivity]. elim Hc. apply mem_In in E. unfold cowel_newline. cbn [In] in *. tauto.
  - destruct R as [->|(c & u & -> & Hc)]; [apply not_before_nil|]. apply not_before_cons. replace (mem c [13; 10]%N) with true; [discriminate|]. symmetry. apply mem_In. unfold cowel_newline in Hc. cbn [In] in *. tauto.
Qed.
Lemma find_close t rest : ~ contains t (bs "*\") -> find_sub (t ++ bs "*\" ++ rest) (bs "*\") = Some (length t).
Proof.
  change (bs "*\") with [42; 92]%N. induction t as [|c t IH]; intros H; [reflexivity|]. cbn [app find_sub starts_with].
  assert (X : (c =? 42)%N && starts_with (t ++ 42%N :: 92%N :: rest) [92%N] = false).
  { destruct (N.eqb_spec c 42) as [->|]; [|reflexivity]. destruct t as [|d t]; [reflexivity|]. cbn [app starts_with]. destruct (N.eqb_spec d 92) as [->|]; [|reflexivity]. elim H. exists [], t. reflexivity. }
  cbn [starts_with] in X. change (t ++ [42; 92]%N ++ rest) with (t ++ 42%N :: 92%N :: rest) in IH. rewrite X, IH; [reflexivity|]. intros (a & b & E). apply H. exists (c :: a), b. rewrite E. reflexivity.
Qed.
Lemma block_match t rest : ~ contains t (bs "*\") -> cowel_match_block_comment (bs "\*" ++ t ++ bs "*\" ++ rest) = mk_enclosed (4 + length t) true.
Proof.
  intros H. unfold cowel_match_block_comment. rewrite (proj2 (starts_with_app _ _)) by eauto. cbn [negb]. unfold find_str. rewrite (proj2 (Nat.ltb_ge _ 2)) by (rewrite app_length; cbn; lia).
  change (skipn 2 (bs "\*" ++ t ++ bs "*\" ++ rest)) with (t ++ bs "*\" ++ rest). rewrite find_close by exact H. cbn [option_map]. f_equal. lia.
Qed.
Definition no_comment (s : str) : Prop := forall c t, s = 92%N :: c :: t -> ~ In c (bs ":*").
Lemma no_line s : (forall c t, s = 92%N :: c :: t -> c <> 58%N) -> cowel_match_line_comment s = 0.
Proof.
  intros H. unfold cowel_match_line_comment. destruct (starts_with s (bs "\:")) eqn:E; [|reflexivity]. apply starts_with_app in E as [t ->]. elim (H 58%N t); reflexivity.
Qed.
Lemma no_block s : (forall c t, s = 92%N :: c :: t -> c <> 42%N) -> en_length (cowel_match_block_comment s) = 0.
Proof.
  intros H. unfold cowel_match_block_comment. destruct (starts_with s (bs "\*")) eqn:E; [|reflexivity]. apply starts_with_app in E as [t ->]. elim (H 42%N t); reflexivity.
Qed.
Lemma does_no_line rest : (forall c t, rest = 92%N :: c :: t -> c <> 58%N) -> does cowel_expect_line_comment tt [] rest false tt.
Proof. intros H. unfold cowel_expect_line_comment. apply does_get. cbv zeta. cbn [text map concat app]. rewrite no_line by exact H. apply does_ret. Qed.
Lemma does_no_block rest : (forall c t, rest = 92%N :: c :: t -> c <> 42%N) -> does cowel_expect_block_comment tt [] rest false tt.
Proof. intros H. unfold cowel_expect_block_comment. apply does_get. cbv zeta. cbn [text map concat app]. rewrite no_block by exact H. apply does_ret. Qed.
Lemma does_line t rest : Forall (fun c => ~ cowel_newline c) t -> rest = [] \/ begins cowel_newline rest ->
  does cowel_expect_line_comment tt ((bs "\:", Some hl_comment_delim) :: opt_piece t hl_comment) rest true tt.
Proof.
  intros H R. unfold cowel_expect_line_comment. apply does_get. cbv zeta. rewrite text_cons, opt_piece_text, <- app_assoc, line_match by assumption. cbn [Nat.add Nat.eqb]. apply does_check; [reflexivity|].
  eapply does_cons; [apply does_emit; [reflexivity|discriminate]|]. eapply does_last; [|apply does_ret]. replace (2 <? S (S (length t))) with (negb (length t =? 0)) by (destruct t; reflexivity). replace (S (S (length t)) - 2) with (length t) by lia. apply does_opt. reflexivity.
Qed.
Lemma does_block t rest : ~ contains t (bs "*\") ->
  does cowel_expect_block_comment tt ((bs "\*", Some hl_comment_delim) :: opt_piece t hl_comment ++ [(bs "*\", Some hl_comment_delim)]) rest true tt.
Proof.
  intros H. unfold cowel_expect_block_comment. apply does_get. cbv zeta. rewrite text_cons, text_app, opt_piece_text, text_one, <- !app_assoc, block_match by assumption. cbn [en_length en_terminated Nat.add Nat.eqb]. apply does_check; [reflexivity|].
  eapply does_cons; [apply does_emit; [reflexivity|discriminate]|]. eapply does_last; [|apply does_ret]. replace (4 <? S (S (S (S (length t))))) with (negb (length t =? 0)) by (destruct t; reflexivity). replace (S (S (S (S (length t)))) - 4) with (length t) by lia.
  eapply does_bind; [apply does_opt; reflexivity|]. apply does_emit; [reflexivity|discriminate].
Qed.
(** Both kinds of comments, as they appear in the code *)
Definition try_comments {A} (x y : M unit A) : M unit A :=
  let! b := cowel_expect_line_comment in if b then x else let! b := cowel_expect_block_comment in if b then x else y.
Lemma does_comments {A} (x y : M unit A) p rest v : cowel_comment p rest -> does x tt [] rest v tt -> does (try_comments x y) tt p rest v tt.
Proof.
  intros H X. unfold try_comments. destruct H as [t rest H R|t rest H].
  - eapply does_last; [apply does_line; assumption|]. exact X.
  - skip_ does_no_line; [rewrite text_cons; intros c u [= <- _]; discriminate|]. eapply does_last; [apply does_block; assumption|]. exact X.
Qed.
Lemma skip_comments {A} (x y : M unit A) p rest v : no_comment (text p ++ rest) -> does y tt p rest v tt -> does (try_comments x y) tt p rest v tt.
Proof.
  intros H Y. unfold try_comments. skip_ does_no_line; [intros c t E ->; apply (H _ _ E); left; reflexivity|]. skip_ does_no_block; [intros c t E ->; apply (H _ _ E); right; left; reflexivity|]. exact Y.
Qed.
Lemma comment_head p rest : cowel_comment p rest -> exists c t, text p = 92%N :: c :: t /\ In c (bs ":*").
Proof. intros [t r _ _|t r _]; rewrite text_cons; eexists _, _; (split; [reflexivity|cbn; auto]). Qed.

(** ** Blanks *)
Section blanks.
Variables (f : N -> bool) (d : N -> Prop).
Hypothesis Hf : forall c, f c = true <-> d c.
Hypothesis D92 : ~ d 92%N.
Definition stops (s : str) : Prop := not_before d s /\ no_comment s.
Lemma blanks_iterate l rest : cowel_blanks d l rest -> stops rest -> forall w, Forall d w ->
  exists q, iterates (cowel_blank_round f) tt rest tt tt tt q /\ text q = w ++ text l /\ forall i, tokens i q = tokens i ((w, None) :: l).
Proof.
  intros H [R1 R2]. induction H as [rest|v l rest Hv H IH|c l rest Hc H IH]; intros w Hw.
  - destruct (w ++ rest) as [|x y] eqn:E.
    + apply app_eq_nil in E as [-> ->]. exists []. split; [|split; [reflexivity|intros i; cbn [tokens length]; reflexivity]]. apply iterates_end. unfold cowel_blank_round. apply does_eof_end. apply does_ret.
    + exists [(w, None)]. split; [|split; [rewrite text_one, app_nil_r; reflexivity|reflexivity]]. apply iterates_end. unfold cowel_blank_round. apply does_eof; [rewrite text_one, E; discriminate|]. apply does_get. rewrite text_one. cbv zeta.
      rewrite (length_if_exact f d) by assumption. eapply does_last; [|].
      * instantiate (1 := tt). instantiate (1 := tt). destruct w as [|a w]; [eapply does_same; [| |apply does_ret]; [reflexivity|intros; reflexivity]|]. cbn [length Nat.eqb negb when]. apply does_advance. reflexivity.
      * apply (skip_comments (ret (inl tt)) (ret (inr tt))); [exact R2|]. apply does_ret.
  - destruct (IH R1 R2 (w ++ v)) as (q & Q1 & Q2 & Q3); [apply Forall_app; auto|]. exists q. split; [exact Q1|]. split; [rewrite Q2, text_cons, <- app_assoc; reflexivity|]. intros i. rewrite Q3. cbn [tokens]. rewrite app_length, Nat.add_assoc. reflexivity.
  - destruct (IH R1 R2 [] (Forall_nil _)) as (q & Q1 & Q2 & Q3). cbn [app] in Q2. exists (((w, None) :: c) ++ q). destruct (comment_head _ _ Hc) as (x & t & Et & _). split; [|split].
    + eapply iterates_more; [| |exact Q1].
      * unfold cowel_blank_round. rewrite Q2. apply does_eof; [rewrite text_cons, Et; destruct w; discriminate|]. apply does_get. cbv zeta. rewrite text_cons, <- app_assoc, (length_if_exact f d); [|exact Hf|exact Hw|rewrite Et; apply not_before_cons; exact D92].
        apply (does_bind _ _ tt [(w, None)] c _ tt tt).
        -- destruct w as [|a w]; [eapply does_same; [| |apply does_ret]; [reflexivity|intros; reflexivity]|]. cbn [length Nat.eqb negb when]. apply does_advance. reflexivity.
        -- apply (does_comments (ret (inl tt)) (ret (inr tt))); [exact Hc|]. apply does_ret.
      * rewrite text_cons, Et. destruct w; discriminate.
    + rewrite text_app, text_cons, text_app, Q2, app_assoc. reflexivity.
    + intros i. cbn [app tokens]. rewrite !tokens_app, Q3. cbn [tokens length]. rewrite Nat.add_0_r. reflexivity.
Qed.
Lemma does_blanks l rest : cowel_blanks d l rest -> stops rest -> does (hloop 1 (cowel_blank_round f) tt) tt l rest tt tt.
Proof.
  intros H R. destruct (blanks_iterate l rest H R [] (Forall_nil _)) as (q & Q1 & Q2 & Q3). eapply does_same; [exact Q2| |apply does_loop; exact Q1]. intros i. rewrite Q3. cbn [tokens length]. rewrite Nat.add_0_r. reflexivity.
Qed.
End blanks.
Lemma space_92 : ~ cowel_space 92. Proof. unfold cowel_space, cowel_horizontal, cowel_newline. cbn [In]. intuition discriminate. Qed.
Lemma does_blank l rest : cowel_blank l rest -> cowel_solid rest -> does cowel_consume_blank tt l rest tt tt.
Proof. intros H R. apply (does_blanks is_html_whitespace cowel_space); [exact space_iff|exact space_92|exact H|exact R]. Qed.
Lemma blank_match l rest : cowel_blank l rest -> cowel_solid rest -> cowel_match_blank (text l ++ rest) = Ok (length (text l)).
Proof.
  intros H R. pose proof (does_blank l rest H R 0 []) as D. pose proof (c_blank (mk_hst (text l ++ rest) 0 [] tt)) as C. unfold wp in *. destruct (cowel_consume_blank _) as [[[] st']|]; [|contradiction].
  destruct D as [_ ->]. destruct C as (n & E & S). cbn [rem] in E. rewrite E. f_equal. destruct S as (_ & _ & S & _). cbn [rem idx] in S. lia.
Qed.
Lemma blank_none rest : cowel_solid rest -> does cowel_consume_blank tt [] rest tt tt.
Proof. apply does_blank. constructor. Qed.

(** ** Escapes *)
Lemma no_escape s : not_before (fun c => c = 92%N) s -> cowel_match_escape s = Ok (mk_cowel_escape 0 false).
Proof. destruct s as [|c s]; [reflexivity|]. intros H. cbn [cowel_match_escape]. rewrite (proj2 (N.eqb_neq c 92)); [reflexivity|]. apply (H c eq_refl). Qed.
Lemma no_escape_after c s : is_cowel_escapeable c = false -> is_ascii c = true -> is_cowel_ascii_reserved_escapable c = false -> cowel_match_escape (92%N :: c :: s) = Ok (mk_cowel_escape 0 false).
Proof. intros H1 H2 H3. cbn [cowel_match_escape]. rewrite N.eqb_refl, H1, H2, H3. reflexivity. Qed.
Lemma does_no_escape rest : cowel_match_escape rest = Ok (mk_cowel_escape 0 false) -> does cowel_expect_escape tt [] rest false tt.
Proof. intros H. unfold cowel_expect_escape. apply does_get. eapply does_lift; [exact H|]. cbn [ce_length Nat.eqb]. apply does_ret. Qed.
Lemma match_chars_one_case (upper : bool) : forall d rest dec, Forall (fun c => digit c \/ if upper then 65 <= c <= 70 else 97 <= c <= 102)%N d -> (if upper then 0 <=? dec else dec <=? 0)%Z = true ->
  length d <= cowel_match_chars dec (d ++ rest).
Proof.
  intros d rest. induction d as [|c d IH]; intros dec H D; [cbn; lia|]. inversion H; subst. cbn [app cowel_match_chars length]. unfold cowel_match_char.
  destruct (is_ascii_digit c) eqn:E1; [specialize (IH dec H3 D); lia|]. destruct H2 as [H2|H2]; [unfold is_ascii_digit, between, digit in *; apply andb_false_iff in E1; rewrite !N.leb_gt in E1; lia|].
  destruct upper.
  - replace (is_ascii_upper_hex_digit c) with true; [rewrite D; cbn [andb]; specialize (IH 1%Z H3 eq_refl); lia|]. unfold is_ascii_upper_hex_digit, is_ascii_digit, between in *. symmetry. apply orb_true_iff; right. rewrite andb_true_iff, !N.leb_le. lia.
  - replace (is_ascii_upper_hex_digit c) with false. 2:{ unfold is_ascii_upper_hex_digit, is_ascii_digit, between in *. symmetry. rewrite E1. cbn [orb]. apply andb_false_iff. rewrite !N.leb_gt. lia. }
    replace (is_ascii_lower_hex_digit c) with true; [rewrite D; cbn [andb]; specialize (IH (-1)%Z H3 eq_refl); lia|]. unfold is_ascii_lower_hex_digit, is_ascii_digit, between in *. symmetry. apply orb_true_iff; right. rewrite andb_true_iff, !N.leb_le. lia.
Qed.
Lemma match_chars_stop d : forall w dec, not_before hex_digit d -> cowel_match_chars dec (w ++ d) <= length w.
Proof.
  induction w as [|c w IH]; intros dec H; cbn [app cowel_match_chars length].
  - destruct d as [|c d]; cbn; [lia|]. specialize (H c eq_refl). unfold cowel_match_char. unfold hex_digit in H. unfold is_ascii_upper_hex_digit, is_ascii_lower_hex_digit, is_ascii_digit, between.
    destruct (N.leb_spec 48 c), (N.leb_spec c 57), (N.leb_spec 65 c), (N.leb_spec c 70), (N.leb_spec 97 c), (N.leb_spec c 102); cbn [andb orb]; try lia; exfalso; apply H; lia.
  - destruct (cowel_match_char dec c) as [e|]; [specialize (IH e H)|]; lia.
Qed.
Lemma hex_exact d rest : Forall (fun c => digit c \/ 65 <= c <= 70)%N d \/ Forall (fun c => digit c \/ 97 <= c <= 102)%N d -> length d = 8 \/ length d = 4 /\ not_before hex_digit rest ->
  cowel_match_numeric_char_escape (bs "\+" ++ d ++ rest) = 2 + length d.
Proof.
  intros H L. assert (M : forall r, length d <= cowel_match_chars 0 (d ++ r)) by (intros r; destruct H as [H|H]; [apply (match_chars_one_case true)|apply (match_chars_one_case false)]; auto).
  unfold cowel_match_numeric_char_escape. rewrite (proj2 (starts_with_app _ _)) by eauto. cbn [negb]. rewrite orb_false_r. change (skipn 2 (bs "\+" ++ d ++ rest)) with (d ++ rest).
  assert (E : length (bs "\+" ++ d ++ rest) = 2 + length d + length rest) by (rewrite !app_length; reflexivity). rewrite E. rewrite (proj2 (Nat.ltb_ge _ 6)) by lia.
  destruct L as [L|[L R]].
  - rewrite (proj2 (Nat.ltb_ge _ 10)) by lia. rewrite firstn_app, L, Nat.sub_diag, firstn_O, firstn_all2 by lia. specialize (M []). pose proof (match_chars_le (d ++ []) 0) as U. rewrite app_nil_r in *. replace (cowel_match_chars 0 d) with 8 by lia. reflexivity.
  - assert (X : forall n, 4 <= n -> cowel_match_chars 0 (firstn n (d ++ rest)) = 4).
    { intros n Ln. rewrite firstn_app, firstn_all2 by lia. specialize (M (firstn (n - length d) rest)). pose proof (match_chars_stop (firstn (n - length d) rest) d 0) as U. enough (not_before hex_digit (firstn (n - length d) rest)) by (specialize (U H0); lia).
      destruct (n - length d), rest as [|c r]; cbn [firstn]; try apply not_before_nil. apply not_before_cons. apply R. reflexivity. }
    rewrite !X by lia. destruct (_ <? 10); cbn; lia.
Qed.
Lemma find_if_exact (f : N -> bool) w c rest : Forall (fun c => f c = false) w -> f c = true -> find_if f (w ++ c :: rest) = Some (length w).
Proof. intros F H. induction F as [|x w Hx _ IH]; cbn [app find_if length]; [rewrite H; reflexivity|]. rewrite Hx, IH. reflexivity. Qed.
Lemma name_char_iff c : is_character_name c = true <-> cowel_name_char c.
Proof. unfold is_character_name, is_ascii_upper_alpha, is_ascii_digit, between, cowel_name_char, digit. rewrite !orb_true_iff, mem_In, !andb_true_iff, !N.leb_le. tauto. Qed.
Lemma named_exact w rest : w <> [] -> Forall cowel_name_char w -> hd 0%N w <> 32%N -> last w 0%N <> 32%N -> cowel_match_named (bs "\'" ++ w ++ bs "'" ++ rest) = mk_cowel_escape (3 + length w) false.
Proof.
  intros N0 F H1 H2. unfold cowel_match_named. change (bs "'" ++ rest) with (39%N :: rest).
  assert (Q : forall c, cowel_name_char c -> mem c [39; 13; 10]%N = false).
  { intros c Hc. destruct (mem c [39; 13; 10]%N) eqn:E; [|reflexivity]. apply mem_In in E. unfold cowel_name_char, digit in Hc. change (bs " -") with [32; 45]%N in Hc. cbn [In] in *. lia. }
  assert (E : find_if_from (fun c => mem c [39; 13; 10]%N) (bs "\'" ++ w ++ 39%N :: rest) 2 = Some (2 + length w)).
  { unfold find_if_from. change (skipn 2 (bs "\'" ++ w ++ 39%N :: rest)) with (w ++ 39%N :: rest). rewrite find_if_exact; [reflexivity| |reflexivity]. eapply Forall_impl; [|exact F]. exact Q. }
  rewrite E. assert (X : nth (2 + length w) (bs "\'" ++ w ++ 39%N :: rest) 0%N = 39%N) by (change (nth (length w) (w ++ 39%N :: rest) 0%N = 39%N); rewrite app_nth2, Nat.sub_diag by lia; reflexivity).
  rewrite X. cbn [N.eqb Pos.eqb negb]. destruct (Nat.eqb_spec (2 + length w) 2) as [Z|_]; [destruct w; [congruence|cbn in Z; lia]|]. replace (2 + length w - 2) with (length w) by lia.
  change (skipn 2 (bs "\'" ++ w ++ 39%N :: rest)) with (w ++ 39%N :: rest). rewrite firstn_app_exact. f_equal; [lia|].
  replace (forallb is_character_name w) with true by (symmetry; apply forallb_forall; intros c Hc; apply name_char_iff; rewrite Forall_forall in F; apply F; exact Hc). rewrite orb_false_r. apply orb_false_iff. split.
  - destruct w as [|c w]; [congruence|]. cbn in *. apply N.eqb_neq. exact H1.
  - unfold ends_with_ch. rewrite (app_removelast_last 0%N N0), rev_app_distr. cbn. apply N.eqb_neq. exact H2.
Qed.
Lemma ends_last w c d : ends_with_ch (w ++ [c]) d = (c =? d)%N.
Proof. unfold ends_with_ch. rewrite rev_app_distr. reflexivity. Qed.
(** What match_escape says about an escape: its length includes the line terminator. *)
Lemma escape_match p rest : cowel_escape_sequence p rest ->
  exists n, cowel_match_escape (text p ++ rest) = Ok (mk_cowel_escape n false) /\ 0 < n /\
    (n = length (text p) /\ ends_with_ch (text p) 10 = false /\ ends_with_ch (text p) 13 = false /\ p = [(text p, Some hl_string_escape)]
     \/ p = [([92%N], Some hl_string_escape)] /\ exists c, ends_with_ch (firstn n (text p ++ rest)) c = true /\ cowel_newline c).
Proof.
  intros [c r Hc|r (c & t & -> & Hc)|d r Hd L|w r H0 H1 H2 H3]; rewrite !text_one.
  - exists 2. split; [|split; [lia|left]].
    + cbn [In] in Hc. destruct Hc as [<-|[<-|[<-|[<-|[]]]]]; reflexivity.
    + cbn [In] in Hc. destruct Hc as [<-|[<-|[<-|[<-|[]]]]]; repeat split.
  - destruct Hc as [<-|[<-|[]]].
    + exists 2. split; [reflexivity|]. split; [lia|right]. split; [reflexivity|]. exists 10%N. split; [reflexivity|left; reflexivity].
    + destruct t as [|x t]; [|destruct (N.eq_dec x 10) as [->|Nx]].
      * exists 2. split; [reflexivity|]. split; [lia|right]. split; [reflexivity|]. exists 13%N. split; [reflexivity|right; left; reflexivity].
      * exists 3. split; [reflexivity|]. split; [lia|right]. split; [reflexivity|]. exists 10%N. split; [reflexivity|left; reflexivity].
      * exists 2. split; [|split; [lia|right]; split; [reflexivity|]; exists 13%N; split; [reflexivity|right; left; reflexivity]].
        cbn [app cowel_match_escape]. replace (starts_with [92%N; 13%N; x] [92; 13; 10]%N) with false by (cbn; rewrite (proj2 (N.eqb_neq x 10)) by exact Nx; reflexivity).
        change (starts_with (92%N :: 13%N :: x :: t) [92; 13; 10]%N) with ((x =? 10)%N && starts_with t []). rewrite (proj2 (N.eqb_neq x 10)) by exact Nx. reflexivity.
  - exists (2 + length d). rewrite <- app_assoc. split; [|split; [lia|left]].
    + change (cowel_match_escape (bs "\+" ++ d ++ r)) with (let n := cowel_match_numeric_char_escape (bs "\+" ++ d ++ r) in if negb (n =? 0) then Ok (mk_cowel_escape n false) else Ok (mk_cowel_escape 2 true)).
      rewrite hex_exact by assumption. reflexivity.
    + split; [rewrite app_length; reflexivity|]. assert (X : d <> []) by (destruct d; [cbn in L; lia|discriminate]). rewrite (app_removelast_last 0%N X), app_assoc, !ends_last.
      assert (Y : In (last d 0%N) d) by (rewrite (app_removelast_last 0%N X) at 2; apply in_or_app; right; left; reflexivity).
      assert (Z : (48 <= last d 0)%N) by (destruct Hd as [Hd|Hd]; rewrite Forall_forall in Hd; specialize (Hd _ Y); unfold digit in Hd; lia).
      rewrite <- app_assoc, <- (app_removelast_last 0%N X). repeat split; apply N.eqb_neq; lia.
  - exists (3 + length w). rewrite <- !app_assoc. split; [|split; [lia|left]].
    + change (cowel_match_escape (bs "\'" ++ w ++ bs "'" ++ r)) with (Ok (cowel_match_named (bs "\'" ++ w ++ bs "'" ++ r))). rewrite named_exact by assumption. reflexivity.
    + split; [rewrite !app_length; cbn; lia|]. rewrite app_assoc. change (bs "'") with [39%N]. rewrite !ends_last. repeat split.
Qed.
Lemma does_escape p rest : cowel_escape_sequence p rest -> does cowel_expect_escape tt p rest true tt.
Proof.
  intros H. destruct (escape_match p rest H) as (n & E & L & K). unfold cowel_expect_escape. apply does_get. eapply does_lift; [exact E|]. cbn [ce_length ce_reserved]. rewrite (proj2 (Nat.eqb_neq n 0)) by lia.
  destruct K as [(-> & E1 & E2 & Ep)|(-> & c & E1 & Hc)].
  - cbv zeta. rewrite firstn_app_exact, E1, E2. cbn [orb]. rewrite Ep at 2. eapply does_last; [apply does_emit|apply does_ret]; [reflexivity|]. destruct (text p); [cbn in L; lia|discriminate].
  - cbv zeta. replace (ends_with_ch _ 10 || ends_with_ch _ 13) with true. 2:{ symmetry. apply orb_true_iff. destruct Hc as [<-|[<-|[]]]; [left|right]; exact E1. }
    eapply does_last; [apply does_emit|apply does_ret]; [reflexivity|discriminate].
Qed.
Lemma escape_head p rest : cowel_escape_sequence p rest -> exists t, text p = 92%N :: t.
Proof. intros [c r _|r _|d r _ _|w r _ _ _ _]; rewrite text_one; eexists; reflexivity. Qed.

(** ** Text *)
Definition kind_of (k : cowel_context) : cowel_kind := match k with in_document => cowel_document | in_braces => M_LangCowel.cowel_block | in_quotes => cowel_string | in_member_name => cowel_name end.
Definition level_after (k : cowel_context) (m : nat) (s : str) : Z := match k, s with in_braces, c :: _ => if (c =? ch "}")%N then (-1)%Z else Z.of_nat m | _, _ => Z.of_nat m end.
Lemma text_stop k m s : begins (fun c => c = 92%N) s \/ m = 0 /\ content_closed k s -> cowel_text (kind_of k) s (Z.of_nat m) = (0, level_after k m s).
Proof.
  intros [(c & t & -> & ->)|[-> H]]; [destruct k; reflexivity|]. destruct k; cbn [content_closed] in H; [rewrite H; reflexivity| | |]; destruct H as (c & t & -> & ->); reflexivity.
Qed.
Lemma text_exact k n w m s : cowel_plain k n w m -> begins (fun c => c = 92%N) s \/ m = 0 /\ content_closed k s ->
  cowel_text (kind_of k) (w ++ s) (Z.of_nat n) = (length w, level_after k m s).
Proof.
  intros H St. induction H as [k n|k n c w m H1 H2 H3 H IH|n w m H IH|n w m H IH].
  - apply text_stop. exact St.
  - cbn [app cowel_text length]. rewrite (proj2 (N.eqb_neq c 92)) by exact H1. specialize (IH St). destruct k; cbn [kind_of] in *.
    + rewrite IH. reflexivity.
    + specialize (H2 eq_refl). change (bs "{}") with [ch "{"; ch "}"] in H2. cbn [In] in H2. rewrite (proj2 (N.eqb_neq c (ch "{"))), (proj2 (N.eqb_neq c (ch "}"))) by intuition congruence. rewrite IH. reflexivity.
    + rewrite (proj2 (N.eqb_neq c 34)) by (apply H3; auto). rewrite IH. reflexivity.
    + rewrite (proj2 (N.eqb_neq c 34)) by (apply H3; auto). rewrite IH. reflexivity.
  - specialize (IH St). cbn [app cowel_text length kind_of] in *. change (ch "{" =? 92)%N with false. change (ch "{" =? ch "{")%N with true. cbv iota. replace (Z.of_nat n + 1)%Z with (Z.of_nat (S n)) by lia. rewrite IH. reflexivity.
  - specialize (IH St). cbn [app cowel_text length kind_of] in *. change (ch "}" =? 92)%N with false. change (ch "}" =? ch "{")%N with false. change (ch "}" =? ch "}")%N with true. cbv iota.
    rewrite (proj2 (Z.eqb_neq _ 0)) by lia. replace (Z.of_nat (S n) - 1)%Z with (Z.of_nat n) by lia. rewrite IH. reflexivity.
Qed.
Lemma plain_head k n c w m : cowel_plain k n (c :: w) m -> c <> 92%N.
Proof. intros H. remember (c :: w) as v eqn:Ev. destruct H; [discriminate| | |]; injection Ev as <- <-; [assumption|discriminate|discriminate]. Qed.
Lemma does_text k n w m s : w <> [] -> cowel_plain k n w m -> begins (fun c => c = 92%N) s \/ m = 0 /\ content_closed k s ->
  does (cowel_expect_text (kind_of k) (Z.of_nat n)) tt [(w, text_highlight k)] s (true, level_after k m s) tt.
Proof.
  intros N0 H St. unfold cowel_expect_text. apply does_check; [apply Z.leb_le; lia|]. apply does_get. rewrite text_one, (text_exact k n w m s) by assumption.
  destruct w as [|c w]; [congruence|]. cbn [length Nat.eqb]. set (l := level_after k m s). apply (does_last _ _ tt _ s tt tt (true, l) tt); [|apply does_ret].
  destruct k; cbn [kind_of text_highlight]; first [apply does_advance; reflexivity|apply does_emit; [reflexivity|discriminate]].
Qed.
Lemma does_text_end k m s : m = 0 -> content_closed k s -> does (cowel_expect_text (kind_of k) 0) tt [] s (false, level_after k m s) tt.
Proof.
  intros -> H. unfold cowel_expect_text. apply does_check; [reflexivity|]. apply does_get. cbn [text map concat app]. pose proof (text_stop k 0 s (or_intror (conj eq_refl H))) as E. cbn [Z.of_nat] in E. rewrite E. cbn [Nat.eqb]. apply does_ret.
Qed.

(** ** Operators *)
Lemma operator_match t h rest : In (t, h) cowel_operators -> longest cowel_operators t rest -> cowel_match_fixed_token (t ++ rest) = Some (t, h).
Proof.
  intros H L. cbn [cowel_operators map In] in H.
  assert (X : forall u h' v, In (u, h') cowel_operators -> t ++ rest = u ++ v -> length u <= length t) by exact L.
  assert (K : forall c r, rest = c :: r -> In ([hd 0%N t; c], hl_symbol_op) cowel_operators -> length t = 1 -> t = [hd 0%N t] -> False).
  { intros c r -> Hi Lt Et. specialize (X _ _ r Hi). rewrite Et in X at 1. cbn [app length] in X. specialize (X eq_refl). lia. }
  clear X L.
  repeat (destruct H as [H|H]; [injection H as <- <-|]); try contradiction; try reflexivity; unfold cowel_match_fixed_token; cbn [app bs]; cbn -[cowel_operators];
    (destruct rest as [|c r]; [reflexivity|]); (destruct (N.eqb_spec c 61) as [->|]; [|reflexivity]); exfalso; eapply K; try reflexivity; cbn; tauto.
Qed.
Lemma operator_member t h : In (t, h) cowel_operators -> cowel_is_group_member_token (t, h) = true.
Proof. intros H. cbn [cowel_operators map In] in H. repeat (destruct H as [H|H]; [injection H as <- <-; reflexivity|]). contradiction. Qed.
Lemma does_operator p rest : cowel_operator p rest -> does cowel_expect_member_token tt p rest true tt.
Proof.
  intros [t h r H L _]. unfold cowel_expect_member_token. apply does_get. rewrite text_one, (operator_match t h) by assumption. rewrite (operator_member t h H). cbn [fst snd]. eapply does_last; [apply does_emit; [reflexivity|]|apply does_ret].
  intros ->. cbn [cowel_operators map In] in H. repeat (destruct H as [H|H]; [discriminate H|]). contradiction.
Qed.
Definition operator_char (c : N) : Prop := In c (bs "=|&!<>+-*/%~").
Lemma operator_head p rest : cowel_operator p rest -> exists c t, text p = c :: t /\ operator_char c.
Proof. intros [t h r H _ _]. rewrite text_one. cbn [cowel_operators map In] in H. repeat (destruct H as [H|H]; [injection H as <- <-; eexists _, _; split; [reflexivity|vm_compute; tauto]|]). contradiction. Qed.

(** ** Numbers *)
Definition number_char (c : N) : Prop := letter c \/ digit c \/ c = ch ".".
Lemma number_char_iff c : is_ascii_alphanumeric c || (c =? ch ".")%N = true <-> number_char c.
Proof. unfold is_ascii_alphanumeric, is_ascii_alpha, is_ascii_upper_alpha, is_ascii_lower_alpha, is_ascii_digit, between, number_char, letter, digit. rewrite !orb_true_iff, !andb_true_iff, !N.leb_le, N.eqb_eq. tauto. Qed.
Lemma reserved_step c d u : cowel_reserved_loop (c :: d :: u) =
  if mem c (bs "eE") && mem d (bs "+-") then 2 + cowel_reserved_loop u else if is_ascii_alphanumeric c || (c =? ch ".")%N then 1 + cowel_reserved_loop (d :: u) else 0.
Proof. reflexivity. Qed.
Lemma reserved_one c : cowel_reserved_loop [c] = if is_ascii_alphanumeric c || (c =? ch ".")%N then 1 else 0.
Proof. reflexivity. Qed.
Lemma number_not_sign d : number_char d -> mem d (bs "+-") = false.
Proof. intros H. destruct (mem d (bs "+-")) eqn:E; [|reflexivity]. apply mem_In in E. change (bs "+-") with [43; 45]%N in E. unfold number_char, letter, digit in H. change (ch ".") with 46%N in H. cbn [In] in E. lia. Qed.
Lemma reserved_app a s : Forall number_char a -> (In (last a 0%N) (bs "eE") -> not_before (fun c => In c (bs "+-")) s) -> cowel_reserved_loop (a ++ s) = length a + cowel_reserved_loop s.
Proof.
  intros F. induction F as [|c a Hc F IH]; intros L; [reflexivity|]. cbn [app length Nat.add]. destruct a as [|d a].
  - cbn [app length Nat.add]. cbn [last] in L. destruct s as [|d s]; [rewrite reserved_one, (proj2 (number_char_iff c) Hc); reflexivity|]. rewrite reserved_step, (proj2 (number_char_iff c) Hc).
    replace (mem c (bs "eE") && mem d (bs "+-")) with false; [reflexivity|]. symmetry. apply andb_false_iff. destruct (mem c (bs "eE")) eqn:E; [right|left; reflexivity]. apply mem_In in E. specialize (L E d eq_refl). cbn beta in L. destruct (mem d (bs "+-")) eqn:E2; [|reflexivity]. apply mem_In in E2. contradiction.
  - cbn [app]. rewrite reserved_step, (proj2 (number_char_iff c) Hc), (number_not_sign d) by (inversion F; assumption). rewrite andb_false_r. cbn [app] in IH. rewrite IH; [reflexivity|]. exact L.
Qed.
Lemma reserved_stop s : not_before number_char s -> cowel_reserved_loop s = 0.
Proof.
  intros H. destruct s as [|c s]; [reflexivity|]. specialize (H c eq_refl). destruct (is_ascii_alphanumeric c || (c =? ch ".")%N) eqn:E; [apply number_char_iff in E; contradiction|].
  destruct s as [|d s]; [rewrite reserved_one, E; reflexivity|]. rewrite reserved_step, E. replace (mem c (bs "eE")) with false; [reflexivity|]. destruct (mem c (bs "eE")) eqn:E2; [|reflexivity]. elim H. apply mem_In in E2. cbn in E2. unfold number_char, letter. intuition (subst; lia).
Qed.
Lemma digit_number c : digit c -> number_char c. Proof. unfold number_char. tauto. Qed.
Lemma last_app_ne (a b : str) : b <> [] -> last (a ++ b) 0%N = last b 0%N.
Proof. intros H. rewrite (app_removelast_last 0%N H) at 1. rewrite app_assoc, last_last. reflexivity. Qed.
Lemma last_digit b : plain_digits digit b -> ~ In (last b 0%N) (bs "eE").
Proof.
  intros [H F] X. assert (Y : In (last b 0%N) b) by (rewrite (app_removelast_last 0%N H) at 2; apply in_or_app; right; left; reflexivity). rewrite Forall_forall in F. specialize (F _ Y). unfold digit in F. cbn in X. intuition lia.
Qed.
(** Mantissa and exponent *)
Lemma reserved_float a e rest : Forall number_char a -> a <> [] -> ~ In (last a 0%N) (bs "eE") -> cowel_exponent e -> not_before number_char rest ->
  cowel_reserved_loop (a ++ exp_text e ++ rest) = length a + length (exp_text e).
Proof.
  intros Fa Na La He R. destruct e as [[es ed]|]; cbn [exp_text app length].
  - destruct He as [He Hd]. assert (X : cowel_reserved_loop (ed ++ rest) = length ed) by (rewrite reserved_app, reserved_stop; [lia|exact R|eapply Forall_impl; [exact digit_number|apply Hd]|intros Y; elim (last_digit ed Hd Y)]).
    rewrite reserved_app; [|exact Fa|tauto]. f_equal. rewrite <- app_assoc, app_length.
    assert (E : In es [bs "e"; bs "E"] \/ In es [bs "e+"; bs "E+"; bs "e-"; bs "E-"]) by (cbn [In] in *; tauto). clear He. destruct E as [E|E].
    + rewrite reserved_app, X; [lia| |]; [destruct E as [<-|[<-|[]]]; (apply Forall_cons; [left; unfold letter; vm_compute; intuition congruence|apply Forall_nil])|]. intros _. destruct Hd as [Hd0 Hd]. destruct Hd as [|c ed Hc Hd]; [congruence|]. apply not_before_cons. unfold digit in Hc. intros Y. cbn in Y. intuition lia.
    + rewrite <- X. destruct E as [<-|[<-|[<-|[<-|[]]]]]; reflexivity.
  - rewrite reserved_app, reserved_stop; [lia|exact R|exact Fa|tauto].
Qed.

Lemma text_digits n : text [(n, Some hl_number)] = n. Proof. apply text_one. Qed.
Lemma cowel_based_match base b d n : In (base, b, d) [(bs "0b", 2%Z, binary_digit); (bs "0o", 8%Z, octal_digit); (bs "0x", 16%Z, hex_digit)] -> plain_digits d n ->
  cowel_match_number (base ++ n) = Ok (mk_number (length base + length n + 0 + 0 + 0) 0 (length base) (length n) 0 0 0 0 0 false).
Proof.
  intros Hb [N0 F]. assert (Hd : forall c, is_ascii_digit_base c b = true <-> d c) by (destruct Hb as [[= <- <- <-]|[[= <- <- <-]|[[= <- <- <-]|[]]]]; [exact digit_2|exact digit_8|exact digit_16]).
  pose proof (number_exact cowel_number_options base [(n, Some hl_number)] None None [] [] false b eq_refl) as X. cbn zeta in X. cbn [frac_text exp_text app length] in X. rewrite text_one, !app_nil_r in X. apply X; clear X; try discriminate.
  - left. exact N0.
  - intros _. destruct Hb as [[= <- <- <-]|[[= <- <- <-]|[[= <- <- <-]|[]]]]; reflexivity.
  - destruct Hb as [[= <- <- <-]|[[= <- <- <-]|[[= <- <- <-]|[]]]]; reflexivity.
  - pose proof (digits_exact d b n [] Hd F (not_before_nil _)) as E. rewrite app_nil_r in E. exact E.
  - intros E. elim E. reflexivity.
Qed.
Definition dec_frac (f : option str) : option (list piece) := option_map (fun f => [(f, Some hl_number)]) f.
Lemma cowel_decimal_match n f e : plain_digits digit n \/ n = [] /\ f <> None -> match f with None => True | Some f => plain_digits digit f end -> cowel_exponent e ->
  cowel_match_number (n ++ frac_text (dec_frac f) ++ exp_text e) = Ok (mk_number (0 + length n + length (frac_text (dec_frac f)) + length (exp_text e) + 0)
    0 0 (length n) (match f with None => 0 | Some _ => 1 end) (match f with None => 0 | Some f => length f end)
    (match e with None => 0 | Some (e, _) => length e end) (match e with None => 0 | Some (_, d) => length d end) 0 false).
Proof.
  intros Hn Hf He.
  pose proof (number_exact cowel_number_options [] (match n with [] => [] | _ => [(n, Some hl_number)] end) (dec_frac f) e [] [] true 10%Z eq_refl) as X. cbn zeta in X. cbn [app length] in X.
  assert (En : text (match n with [] => [] | _ => [(n, Some hl_number)] end) = n) by (destruct n; [reflexivity|apply text_one]). rewrite En, !app_nil_r in X.
  assert (Ef : match dec_frac f with Some f => length (text f) | None => 0 end = match f with Some f => length f | None => 0 end) by (destruct f; [cbn [dec_frac option_map]; rewrite text_one; reflexivity|reflexivity]). rewrite Ef in X.
  assert (Er : match dec_frac f with Some _ => 1 | None => 0 end = match f with Some _ => 1 | None => 0 end) by (destruct f; reflexivity). rewrite Er in X. cbn [Nat.add] in X |- *.
  assert (De : not_before digit (exp_text e)) by (destruct e as [[es ed]|]; [|apply not_before_nil]; destruct He as [He _]; cbn [In] in He; intros c; repeat (destruct He as [<-|He]; [cbn; intros [= <-]; unfold digit; lia|]); contradiction).
  assert (Dot : starts_with_ch (exp_text e) 46 = false) by (destruct e as [[es ed]|]; [|reflexivity]; destruct He as [He _]; cbn [In] in He; repeat (destruct He as [<-|He]; [reflexivity|]); contradiction).
  apply X; clear X; try discriminate.
  - destruct Hn as [[Hn _]|[-> Hn]]; [left; exact Hn|right]. split; [reflexivity|]. destruct f as [f|]; [|congruence]. destruct Hf as [Hf1 Hf2]. destruct f as [|y f]; [congruence|]. exists [(y :: f, Some hl_number)], y, f. split; [reflexivity|]. split; [apply text_one|]. inversion Hf2; subst. apply digit_iff. assumption.
  - intros _. destruct Hn as [[Hn1 Hn2]|[-> Hn]]; [destruct Hn2 as [|c n Hc _]; [congruence|]; cbn; apply N.eqb_neq; unfold digit in Hc; lia|]. destruct f; [reflexivity|congruence].
  - assert (K : exists c s, n ++ frac_text (dec_frac f) ++ exp_text e = c :: s /\ not_before (fun x => In x (bs "box")) s).
    { assert (Ke : not_before (fun x => In x (bs "box")) (exp_text e)) by (destruct e as [[es ed]|]; [|apply not_before_nil]; destruct He as [He _]; cbn [In] in He; intros c; repeat (destruct He as [<-|He]; [cbn; intros [= <-]; cbn; intuition discriminate|]); contradiction).
      assert (Kf : not_before (fun x => In x (bs "box")) (frac_text (dec_frac f) ++ exp_text e)) by (destruct f; [|exact Ke]; apply not_before_cons; cbn; intuition discriminate).
      destruct Hn as [[Hn1 Hn2]|[-> Hn]].
      - destruct Hn2 as [|c n Hc Hn2]; [congruence|]. eexists _, _. split; [reflexivity|]. destruct Hn2 as [|x n Hx _]; [exact Kf|]. apply not_before_cons. unfold digit in Hx. cbn. intuition lia.
      - destruct f as [f|]; [|congruence]. eexists _, _. split; [reflexivity|]. cbn [dec_frac option_map frac_text app]. rewrite text_one. destruct Hf as [Hf1 Hf2]. destruct Hf2 as [|x f Hx _]; [congruence|]. apply not_before_cons. unfold digit in Hx. cbn. intuition lia. }
    destruct K as (c & s & -> & K). apply (decimal_base cowel_number_options c s); [reflexivity|reflexivity|reflexivity|]. exact K.
  - change (no_separator cowel_number_options) with 0%N. apply (digits_exact digit); [exact digit_10|destruct Hn as [[_ Hn]|[-> _]]; [exact Hn|constructor]|]. destruct f; [apply not_before_cons; unfold digit; lia|exact De].
  - destruct f as [f|]; cbn [dec_frac option_map].
    + split; [reflexivity|]. rewrite text_one. split; [|intros _; apply Hf]. apply (digits_exact digit); [exact digit_10|apply Hf|exact De].
    + intros _. exact Dot.
  - destruct e as [[es ed]|].
    + destruct He as [He [Hd1 Hd2]]. split; [reflexivity|]. assert (E : es <> [] /\ fst (fst (number_exponent es (no_exponents cowel_number_options))) = length es) by (cbn [In] in He; repeat (destruct He as [<-|He]; [split; [discriminate|reflexivity]|]); contradiction).
      destruct E as [E1 E2]. split; [exact E1|]. pose proof (exponent_exact (no_exponents cowel_number_options) es ed [] eq_refl E1 E2 Hd1 Hd2 (not_before_nil _)) as Y. exact Y.
    + intros _ E. elim E. reflexivity.
  - intros E. elim E. reflexivity.
Qed.

Lemma does_highlight p n f e : n <> [] \/ f <> None -> match f with None => True | Some f => f <> [] end -> match e with Some (es, ed) => es <> [] /\ ed <> [] | None => True end -> forall rest,
  does (highlight_number (mk_number (length p + length n + length (frac_text (dec_frac f)) + length (exp_text e) + 0) 0 (length p) (length n) (match f with None => 0 | Some _ => 1 end) (match f with None => 0 | Some f => length f end)
    (match e with None => 0 | Some (e, _) => length e end) (match e with None => 0 | Some (_, d) => length d end) 0 false)) tt
    (number_pieces p (opt_piece n hl_number) (dec_frac f) e []) rest tt tt.
Proof.
  intros Hn Hf He rest i o. unfold highlight_number.
  pose proof (@highlight_exact unit p (opt_piece n hl_number) (dec_frac f) e [] (fun b st' => b = tt /\ st' = mk_hst rest (i + length (text (number_pieces p (opt_piece n hl_number) (dec_frac f) e []))) (rev (tokens i (number_pieces p (opt_piece n hl_number) (dec_frac f) e [])) ++ o) tt) rest i o tt highlight_digits_ignore_separator) as X.
  cbn zeta in X. rewrite opt_piece_text in X. cbn [length] in X.
  assert (Ef : match dec_frac f with Some f => length (text f) | None => 0 end = match f with Some f => length f | None => 0 end) by (destruct f; [cbn [dec_frac option_map]; rewrite text_one; reflexivity|reflexivity]). rewrite Ef in X.
  assert (Er : match dec_frac f with Some _ => 1 | None => 0 end = match f with Some _ => 1 | None => 0 end) by (destruct f; reflexivity). rewrite Er in X.
  apply X; clear X.
  - assert (K : forall w, w <> [] -> forall (Q : unit -> hst unit -> Prop) r i o, Q tt (mk_hst r (i + length (text [(w, Some hl_number)])) (rev (tokens i [(w, Some hl_number)]) ++ o) tt) -> wp (highlight_digits_ignore_separator (text [(w, Some hl_number)])) Q (mk_hst (text [(w, Some hl_number)] ++ r) i o tt)).
    { intros w Hw Q r j o1 HQ. rewrite text_one in *. unfold highlight_digits_ignore_separator. destruct w as [|a w]; [congruence|]. apply wp_emit_exact; [rewrite app_length; cbn [length]; lia|]. rewrite skipn_app_exact. exact HQ. }
    intros l Hl [->|[E|(es & ed & -> & ->)]].
    + destruct n as [|a n]; [elim Hl; reflexivity|]. apply K. discriminate.
    + destruct f as [f|]; [|discriminate E]. injection E as ->. apply K. exact Hf.
    + apply K. tauto.
  - destruct f as [f|]; [|exact I]. cbn [dec_frac option_map]. rewrite text_one. intros ->. congruence.
  - intros ->. reflexivity.
  - exact He.
  - split; reflexivity.
Qed.
Lemma does_number_of w p rest r : text p = w -> w <> [] -> cowel_match_reserved_number (w ++ rest) = length w -> cowel_match_number w = Ok r -> nr_length r = length w -> nr_erroneous r = false ->
  does (highlight_number r) tt p rest tt tt -> does cowel_expect_number tt p rest true tt.
Proof.
  intros E N0 R M L Er D. unfold cowel_expect_number. apply does_get. cbv zeta. rewrite E, R. destruct w as [|c w]; [congruence|]. cbn [length Nat.eqb]. change (S (length w)) with (length (c :: w)). eapply does_lift; [rewrite firstn_app_exact; exact M|].
  eapply does_last; [|apply does_ret]. rewrite L, Nat.eqb_refl, Er. cbn [negb orb]. exact D.
Qed.
Lemma exponent_ne e : cowel_exponent e -> match e with Some (es, ed) => es <> [] /\ ed <> [] | None => True end.
Proof. destruct e as [[es ed]|]; [|auto]. intros [H [H0 _]]. split; [|exact H0]. intros ->. cbn in H. intuition discriminate. Qed.
Lemma does_number n rest : cowel_number n -> not_before number_char rest -> (In (last (text n) 0%N) (bs "eE") -> not_before (fun c => In c (bs "+-")) rest) -> does cowel_expect_number tt n rest true tt.
Proof.
  intros H R L. destruct H as [base d n Hb [N0 F]|n f e Hn Hf He|f e Hf He].
  - assert (Hb' : exists b, In (base, b, d) [(bs "0b", 2%Z, binary_digit); (bs "0o", 8%Z, octal_digit); (bs "0x", 16%Z, hex_digit)]) by (destruct Hb as [[= <- <-]|[[= <- <-]|[[= <- <-]|[]]]]; eexists; cbn [In]; eauto).
    destruct Hb' as [b Hb']. assert (Et : text (number_pieces base [(n, Some hl_number)] None None []) = base ++ n) by (rewrite number_pieces_text, text_one; cbn; rewrite app_nil_r; reflexivity). rewrite Et in L.
    assert (Fn : Forall number_char (base ++ n)).
    { apply Forall_app. split; [destruct Hb as [[= <- <-]|[[= <- <-]|[[= <- <-]|[]]]]; (apply Forall_cons; [right; left; split; vm_compute; discriminate|apply Forall_cons; [left; unfold letter; vm_compute; intuition congruence|apply Forall_nil]])|].
      eapply Forall_impl; [|exact F]. intros c. unfold number_char, letter, digit. destruct Hb as [[= <- <-]|[[= <- <-]|[[= <- <-]|[]]]]; unfold binary_digit, octal_digit, hex_digit; lia. }
    eapply does_number_of; [exact Et|destruct n; [congruence|]; destruct base; discriminate| |eapply cowel_based_match; [exact Hb'|split; assumption]| |reflexivity|].
    + assert (X : cowel_reserved_loop ((base ++ n) ++ rest) = length (base ++ n)) by (rewrite reserved_app, reserved_stop; [lia|exact R|exact Fn|exact L]).
      destruct Hb as [[= <- <-]|[[= <- <-]|[[= <- <-]|[]]]]; exact X.
    + cbn [nr_length]. rewrite app_length. lia.
    + pose proof (does_highlight base n None None (or_introl N0) I I rest) as D. destruct n; [congruence|]. exact D.
  - assert (Et : text (number_pieces [] [(n, Some hl_number)] (dec_frac f) e []) = n ++ frac_text (dec_frac f) ++ exp_text e) by (rewrite number_pieces_text, text_one; cbn [app]; rewrite app_nil_r; reflexivity).
    eapply does_number_of; [exact Et|destruct Hn as [Hn _]; destruct n; [congruence|discriminate]| |apply cowel_decimal_match; [left; exact Hn|exact Hf|exact He]| |reflexivity|].
    + assert (X : cowel_reserved_loop ((n ++ frac_text (dec_frac f)) ++ exp_text e ++ rest) = length (n ++ frac_text (dec_frac f)) + length (exp_text e)).
      { apply reserved_float; [|destruct Hn as [Hn _]; destruct n; [congruence|discriminate]| |exact He|exact R].
        - apply Forall_app. split; [eapply Forall_impl; [exact digit_number|apply Hn]|]. destruct f as [f|]; [|constructor]. cbn [dec_frac option_map frac_text]. rewrite text_one. constructor; [right; right; reflexivity|eapply Forall_impl; [exact digit_number|apply Hf]].
        - destruct f as [f|]; cbn [dec_frac option_map frac_text]; [|rewrite app_nil_r; apply last_digit; exact Hn]. rewrite text_one. rewrite last_app_ne by discriminate. change (46%N :: f) with ([46%N] ++ f). rewrite last_app_ne by apply Hf. apply last_digit. exact Hf. }
      rewrite <- !app_assoc in *. rewrite !app_length in *. rewrite Nat.add_assoc. rewrite <- X. destruct Hn as [Hn Fn]. destruct Fn as [|c n Hc _]; [congruence|]. cbn [app cowel_match_reserved_number]. rewrite (proj2 (N.eqb_neq c (ch "."))); [reflexivity|]. change (ch ".") with 46%N. unfold digit in Hc. lia.
    + cbn [nr_length]. rewrite !app_length. lia.
    + pose proof (does_highlight [] n f e (or_introl (proj1 Hn))) as D. destruct Hn as [Hn _]. destruct n; [congruence|]. apply D; [destruct f; [apply Hf|exact I]|apply exponent_ne; exact He].
  - assert (Et : text (number_pieces [] [] (dec_frac (Some f)) e []) = 46%N :: f ++ exp_text e) by (rewrite number_pieces_text; cbn [app text map concat]; rewrite app_nil_r; cbn [dec_frac option_map frac_text app]; rewrite text_one; reflexivity).
    assert (Nf : @nil N = [] /\ Some f <> None) by (split; [reflexivity|discriminate]). pose proof (cowel_decimal_match [] (Some f) e (or_intror Nf) Hf He) as M. idtac. cbn [dec_frac option_map frac_text app length Nat.add] in M. rewrite text_one in M.
    eapply does_number_of; [exact Et|discriminate| |exact M| |reflexivity|].
    + cbn [app cowel_match_reserved_number length]. change (46 =? ch ".")%N with true. cbv iota. cbn [Nat.add]. f_equal. rewrite <- app_assoc, reserved_float; [rewrite app_length; reflexivity|eapply Forall_impl; [exact digit_number|apply Hf]|apply Hf|apply last_digit; exact Hf|exact He|exact R].
    + cbn [nr_length length]. rewrite !app_length. lia.
    + pose proof (does_highlight [] [] (Some f) e (or_intror (proj2 Nf)) (proj1 Hf) (exponent_ne e He) rest) as D. cbn [dec_frac option_map frac_text app length Nat.add opt_piece] in D. rewrite text_one in D. exact D.
Qed.
Lemma no_number s : not_before number_char s -> does cowel_expect_number tt [] s false tt.
Proof.
  intros H. unfold cowel_expect_number. apply does_get. cbv zeta. cbn [text map concat app]. replace (cowel_match_reserved_number s) with 0; [apply does_ret|]. symmetry. destruct s as [|c s]; [reflexivity|]. cbn [cowel_match_reserved_number].
  destruct (N.eqb_spec c (ch ".")) as [->|]; [elim (H _ eq_refl); right; right; reflexivity|]. apply reserved_stop. exact H.
Qed.
Lemma number_head n : cowel_number n -> exists c t, text n = c :: t /\ (digit c \/ c = ch ".").
Proof.
  intros [base d n' Hb _|n' f e [N0 F] _ _|f e _ _]; rewrite number_pieces_text, ?text_one; cbn [app].
  - destruct Hb as [[= <- <-]|[[= <- <-]|[[= <- <-]|[]]]]; eexists _, _; (split; [reflexivity|left; split; vm_compute; discriminate]).
  - destruct F as [|c n' Hc _]; [congruence|]. eexists _, _. split; [reflexivity|left; exact Hc].
  - eexists _, _. split; [reflexivity|right; reflexivity].
Qed.
