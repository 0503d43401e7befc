(** * Exact tokens of the lexemes of JavaScript and TypeScript *)
From Coq Require Import List NArith ZArith Bool Arith Lia.
From Verif Require Import M_Base L_Base S_Tokens M_Utf8 L_Utf8 L_Any P_Utf8 L_Wf8 L_Utf8Ascii M_Emit S_Ops L_Emit M_Types M_Chars S_Chars P_Chars M_Parse S_Parse L_Parse P_Parse
  M_Api M_Highlighter S_Highlight L_Highlighter P_LangCpp L_Auto M_Table L_Table M_TokenLoop S_Json M_Json L_JsonText P_Json M_LangHtml M_LangJs S_LangJs P_LangJs
  S_Lexemes L_Lexemes L_Number L_Number2 L_Symbols L_Escapes S_Comments L_Comments L_Does S_LangJsLexemes.
Import ListNotations.

Definition js_state (g : js_goal) : js_input :=
  match g with js_begin | js_blank => hashbang_or_regex | js_operand | js_remark => regex_goal | js_operator | js_block => div_goal end.

(** ** Attempts that fail *)
Definition no_at (m : M js_input bool) (s : js_input) (r : str) : Prop := forall i o, m (mk_hst r i o s) = Ok (false, mk_hst r i o s).
Lemma js_or_no a b s p rest s' : no_at a s (text p ++ rest) -> does b s p rest true s' -> does (js_or a b) s p rest true s'.
Proof. intros H1 H2 i o. unfold js_or, wp, bindM. rewrite H1. cbn iota. apply H2. Qed.
Lemma js_or_yes a b s p rest s' : does a s p rest true s' -> does (js_or a b) s p rest true s'.
Proof. intros H. unfold js_or. eapply does_last; [exact H|]. cbn iota. apply does_ret. Qed.

Lemma js_space_iff c : (c < 128)%N -> is_js_whitespace c = true <-> js_space c.
Proof.
  intros L. unfold is_js_whitespace, js_space. rewrite !orb_true_iff, mem_In, !andb_true_iff, !N.leb_le. cbn [In]. lia.
Qed.
Lemma js_alpha_iff c : is_ascii_alpha c = true <-> letter c.
Proof. unfold is_ascii_alpha, is_ascii_lower_alpha, is_ascii_upper_alpha, between, letter. rewrite orb_true_iff, !andb_true_iff, !N.leb_le. tauto. Qed.
Lemma js_start_iff c : (c < 128)%N -> is_js_identifier_start c = true <-> js_name_start c.
Proof.
  intros L. unfold is_js_identifier_start, js_name_start, ident_start. rewrite within_ascii by (exact L || (repeat constructor; cbn; lia)). rewrite orb_false_r, !orb_true_iff, !N.eqb_eq, js_alpha_iff.
  change (ch "_") with 95%N. tauto.
Qed.
Lemma js_part_iff c : (c < 128)%N -> is_js_identifier_part c = true <-> js_name_char c.
Proof.
  intros L. unfold is_js_identifier_part. rewrite within_ascii by (exact L || (repeat constructor; cbn; lia)). rewrite orb_false_r, orb_true_iff, (js_start_iff c L), digit_iff. unfold js_name_start, js_name_char, ident_start, ident_char. tauto.
Qed.
Lemma js_char_ascii c : js_name_char c -> (c < 128)%N.
Proof. unfold js_name_char, ident_char, letter, digit. change (ch "$") with 36%N. lia. Qed.
Lemma js_start_char c : js_name_start c -> js_name_char c.
Proof. unfold js_name_start, js_name_char, ident_start, ident_char. tauto. Qed.

Lemma white_no s c t : (c < 128)%N -> ~ js_space c -> no_at js_expect_whitespace s (c :: t).
Proof.
  intros L H i o. unfold js_expect_whitespace, bindM, get_rem, lift, js_match_whitespace. cbn [rem].
  rewrite length_ascii_none by (exact L || (apply not_true_iff_false; rewrite js_space_iff by exact L; exact H)). unfold advance, ret. cbn. rewrite Nat.add_0_r. reflexivity.
Qed.
Lemma hashbang_no g c t : c <> 35%N \/ not_before (fun x => x = 33%N) t \/ js_has_hashbang g = false -> no_at js_expect_hashbang g (c :: t).
Proof.
  intros H i o. unfold js_expect_hashbang, bindM, get_loc. cbn [loc]. destruct (js_has_hashbang g); [|reflexivity]. cbn [negb]. unfold get_rem. cbn [rem].
  assert (E : starts_with (c :: t) (bs "#!") = false).
  { change (bs "#!") with [35; 33]%N. cbn [starts_with]. destruct (N.eqb_spec c 35) as [->|]; [|reflexivity]. destruct H as [H|[H|H]]; [congruence| |discriminate]. destruct t as [|x t]; [reflexivity|]. specialize (H x eq_refl). cbn beta in H. cbn [starts_with]. rewrite (proj2 (N.eqb_neq x 33) H). reflexivity. }
  unfold js_match_hashbang. rewrite E. reflexivity.
Qed.
Lemma line_no g c t : c <> 47%N \/ not_before (fun x => x = 47%N) t -> no_at js_expect_line_comment g (c :: t).
Proof. intros H i o. unfold js_expect_line_comment, bindM, get_rem. cbn [rem]. cbv zeta. rewrite no_line_comment by exact H. reflexivity. Qed.
Lemma block_no g c t : c <> 47%N \/ not_before (fun x => x = 42%N) t -> no_at js_expect_block_comment g (c :: t).
Proof. intros H i o. unfold js_expect_block_comment, bindM, get_rem. cbn [rem]. cbv zeta. rewrite no_block_comment by exact H. reflexivity. Qed.
Lemma string_no g c t : c <> 34%N -> c <> 39%N -> no_at js_expect_string g (c :: t).
Proof. intros H1 H2 i o. unfold js_expect_string, bindM, get_rem, js_match_string. cbn [rem]. rewrite (proj2 (N.eqb_neq c 39) H2), (proj2 (N.eqb_neq c 34) H1). reflexivity. Qed.
Lemma template_no nested g c t : c <> 96%N -> no_at (js_expect_template nested) g (c :: t).
Proof. intros H i o. unfold js_expect_template, bindM, get_rem. cbn [rem starts_with_ch]. rewrite (proj2 (N.eqb_neq c 96) H). reflexivity. Qed.
Lemma regex_no g c t : c <> 47%N \/ js_has_regex g = false -> no_at js_expect_regex g (c :: t).
Proof.
  intros H i o. unfold js_expect_regex, bindM, get_loc. cbn [loc]. destruct (js_has_regex g); [|reflexivity]. destruct H as [H|H]; [|discriminate]. cbn [negb]. unfold get_rem. cbn [rem starts_with_ch].
  rewrite (proj2 (N.eqb_neq c (ch "/")) H). reflexivity.
Qed.
Lemma number_no g c t : ~ digit c -> c <> 95%N -> (c = 46%N -> not_before digit t) -> no_at js_expect_number g (c :: t).
Proof.
  intros Hd Hs H i o. unfold js_expect_number, bindM, get_rem, lift, js_match_number. cbn [rem]. rewrite no_number_match; try reflexivity; try discriminate; try assumption.
  - intros p Hp. cbn in Hp. repeat (destruct Hp as [<-|Hp]; [eexists _, _; split; [reflexivity|]; unfold digit in Hd; lia|]). contradiction.
  - cbn [js_number_options no_base]. destruct (is_ascii_digit_base c 10) eqn:E; [|reflexivity]. apply digit_10 in E. contradiction.
  - unfold digit in Hd. lia.
Qed.
Lemma private_no g c t : c <> 35%N -> no_at js_expect_private_identifier g (c :: t).
Proof. intros H i o. unfold js_expect_private_identifier, bindM, get_rem, lift, js_match_private_identifier. cbn [rem]. rewrite (proj2 (N.eqb_neq c (ch "#")) H). reflexivity. Qed.
Lemma identifier_no mode g c t : (c < 128)%N -> ~ js_name_start c -> no_at (js_expect_identifier mode) g (c :: t).
Proof.
  intros L H i o. unfold js_expect_identifier, bindM, get_rem, lift, js_match_identifier, js_match_name. cbn [rem]. rewrite (decode_ascii c t L). cbn [bind fst].
  destruct (is_js_identifier_start c) eqn:E; [apply (js_start_iff c L) in E; contradiction|reflexivity].
Qed.
(** JSX *)
Lemma no_jsx_at s : no_tag s -> jsx_match_tag false (60%N :: s) = Ok None.
Proof.
  intros H0. unfold jsx_match_tag, jsx_match_tag_impl. change (starts_with_ch (60%N :: s) (ch "<")) with true. cbn [negb skipn].
  destruct (comments_no_tag s H0) as (l1 & s1 & E1 & H1 & L1). rewrite E1. cbn [bind fst snd].
  rewrite (no_tag_ch s1 (ch ">") H1) by (cbn; tauto). rewrite (no_tag_ch s1 (ch "/") H1) by (cbn; tauto). unfold jsx_tag_name, jsx_match_element_name.
  destruct (name_no_tag (bs "-:.") s1) as (a & Ea & La & Ha); [auto|exact H1|]. rewrite Ea. cbn [bind]. destruct (a =? 0); cbn [negb].
  - destruct (tag_loop_none (length s1) s1 (le_n _) H1) as (l & E). rewrite E. reflexivity.
  - rewrite remove_prefix_any by exact La. cbn [bind]. destruct (tag_loop_none (length (skipn a s1)) (skipn a s1) (le_n _) Ha) as (l & E). rewrite E. reflexivity.
Qed.
Lemma no_jsx_symbol c s : (c = 60 \/ c = 61)%N -> jsx_match_tag false (60%N :: c :: s) = Ok None.
Proof.
  intros Hc. assert (L : (c < 128)%N) by lia. assert (W : js_match_whitespace (c :: s) = Ok 0) by (apply length_ascii_none; [exact L|]; destruct Hc as [->| ->]; reflexivity).
  assert (C : js_whitespace_comments (c :: s) = Ok ([], c :: s)).
  { unfold js_whitespace_comments. cbn [length js_wsc]. rewrite W. cbn [bind Nat.eqb negb]. rewrite no_block_comment, no_line_comment by lia. reflexivity. }
  assert (N : forall x, js_match_name x (c :: s) = Ok 0).
  { intros x. unfold js_match_name. rewrite (decode_ascii c s L). cbn [bind fst]. replace (is_js_identifier_start c) with false by (destruct Hc as [->| ->]; reflexivity). reflexivity. }
  unfold jsx_match_tag, jsx_match_tag_impl. change (starts_with_ch (60%N :: c :: s) (ch "<")) with true. cbn [negb skipn]. rewrite C. cbn [bind fst snd].
  replace (starts_with_ch (c :: s) (ch ">")) with false by (destruct Hc as [->| ->]; reflexivity). replace (starts_with_ch (c :: s) (ch "/")) with false by (destruct Hc as [->| ->]; reflexivity).
  unfold jsx_tag_name, jsx_match_element_name. rewrite N. cbn [bind Nat.eqb negb length jsx_tag_loop]. rewrite C. cbn [bind fst snd].
  replace (starts_with_ch (c :: s) (ch ">")) with false by (destruct Hc as [->| ->]; reflexivity).
  replace (starts_with (c :: s) (bs "/>")) with false by (destruct Hc as [->| ->]; reflexivity).
  replace (jsx_match_braced (c :: s)) with (Ok (mk_enclosed 0 false)) by (destruct Hc as [->| ->]; reflexivity). cbn [bind en_length Nat.eqb negb]. unfold jsx_match_attribute_name. rewrite N. reflexivity.
Qed.
Lemma jsx_no nested mode g c t : c <> 60%N \/ mode = typescript \/ jsx_match_tag false (c :: t) = Ok None ->
  no_at (match mode with javascript => js_expect_jsx nested | typescript => ret false end) g (c :: t).
Proof.
  intros H i o. destruct mode; [|reflexivity]. unfold js_expect_jsx, bindM, get_rem, lift. cbn [rem].
  assert (E : jsx_match_tag false (c :: t) = Ok None).
  { destruct H as [H|[H|H]]; [|discriminate|exact H]. unfold jsx_match_tag, jsx_match_tag_impl. cbn [starts_with_ch]. rewrite (proj2 (N.eqb_neq c (ch "<")) H). reflexivity. }
  rewrite E. reflexivity.
Qed.

(** ** Lexemes *)
Section token.
Variable mode : js_mode.
Variable nested : M js_input unit.
Notation token := (js_token mode nested).
Definition the_words : list (str * N) := match mode with javascript => javascript_words | typescript => typescript_words end.
Definition the_symbols : list (str * N) := match mode with javascript => javascript_symbols | typescript => typescript_symbols end.

Lemma token_does s p rest s' :
  does (js_or js_expect_whitespace
    (js_or js_expect_hashbang
    (js_or js_expect_line_comment
    (js_or js_expect_block_comment
    (js_or (match mode with javascript => js_expect_jsx nested | typescript => ret false end)
    (js_or js_expect_string
    (js_or (js_expect_template nested)
    (js_or js_expect_regex
    (js_or js_expect_number
    (js_or js_expect_private_identifier
    (js_or (js_expect_identifier mode)
           (js_expect_operator mode))))))))))))  s p rest true s' ->
  does token s p rest tt s'.
Proof. intros H. unfold js_token. eapply does_last; [exact H|]. cbn iota. apply does_ret. Qed.
Ltac no lem := apply js_or_no; [match goal with E : text _ ++ _ = _ :: _ |- _ => rewrite E end; apply lem|].

Lemma do_white g b rest : b <> [] -> Forall js_space b -> not_before (fun c => js_space c \/ (128 <= c)%N) rest -> does token (js_state g) [(b, None)] rest tt (js_state (after_space g)).
Proof.
  intros Nb F R. replace (js_state (after_space g)) with (js_state g) by (destruct g; reflexivity). apply token_does, js_or_yes. unfold js_expect_whitespace. apply does_get. rewrite text_one.
  eapply does_lift.
  - unfold js_match_whitespace. apply length_ascii.
    + eapply Forall_impl; [|exact F]. cbn beta. intros c Hc. assert (L : (c < 128)%N) by (unfold js_space in Hc; cbn [In] in Hc; lia). split; [exact L|apply js_space_iff; assumption].
    + destruct rest as [|c t]; [auto|right]. exists c, t. split; [reflexivity|]. specialize (R c eq_refl). cbn beta in R. assert (L : (c < 128)%N) by lia. split; [exact L|]. apply not_true_iff_false. rewrite (js_space_iff c L). tauto.
  - eapply does_last; [apply does_advance; reflexivity|]. replace (negb (length b =? 0)) with true by (destruct b; [congruence|reflexivity]). apply does_ret.
Qed.
(** Names *)
Lemma name_exact w rest : js_name w -> after_name rest -> js_match_identifier (w ++ rest) = Ok (length w).
Proof.
  intros (c & t & -> & Hc & Ht) R. unfold js_match_identifier, js_match_name. cbn [app].
  assert (L : (c < 128)%N) by (apply js_char_ascii, js_start_char; exact Hc). rewrite (decode_ascii c _ L). cbn [bind fst snd]. rewrite (proj2 (js_start_iff c L) Hc). cbn [negb]. cbn [length Nat.leb check bind skipn].
  rewrite length_ascii; [reflexivity| |].
  - eapply Forall_impl; [|exact Ht]. cbn beta. intros x Hx. split; [apply js_char_ascii; exact Hx|]. unfold js_name_part. rewrite (proj2 (js_part_iff x (js_char_ascii x Hx)) Hx). reflexivity.
  - destruct rest as [|x u]; [auto|right]. exists x, u. split; [reflexivity|]. specialize (R x eq_refl). cbn beta in R. assert (Lx : (x < 128)%N) by lia. split; [exact Lx|]. unfold js_name_part. cbn [mem existsb]. rewrite orb_false_r. apply not_true_iff_false. rewrite (js_part_iff x Lx). tauto.
Qed.
Lemma js_name_head w : js_name w -> not_before (fun c => c = ch "_") w -> exists c t, w = c :: t /\ (c < 128)%N /\ ~ js_space c /\ ~ digit c /\ ~ In c [34; 35; 39; 46; 47; 60; 95; 96; 123; 125]%N.
Proof.
  intros (c & t & -> & Hc & _) U. exists c, t. split; [reflexivity|]. specialize (U c eq_refl). cbn beta in U. change (ch "_") with 95%N in U.
  unfold js_name_start, ident_start, letter in Hc. change (ch "$") with 36%N in Hc. unfold js_space, digit. cbn [In]. lia.
Qed.
Lemma do_name s w h s' rest : js_name w -> not_before (fun c => c = ch "_") w -> after_name rest ->
  js_token_by_code mode w = None /\ h = hl_name /\ s' = div_goal \/ js_token_by_code mode w = Some h /\ s' = (if js_expr_keyword w then regex_goal else div_goal) ->
  does token s [(w, Some h)] rest tt s'.
Proof.
  intros Hw U R K. pose proof (name_exact w rest Hw R) as M. destruct (js_name_head w Hw U) as (c & t & Ew & L & Sp & Dg & Ns). cbn [In] in Ns.
  assert (E : text [(w, Some h)] ++ rest = c :: t ++ rest) by (rewrite text_one, Ew; reflexivity).
  apply token_does. no white_no; [exact L|exact Sp|]. no hashbang_no; [intuition congruence|]. no line_no; [intuition congruence|]. no block_no; [intuition congruence|]. no jsx_no; [intuition congruence|]. no string_no; [intuition congruence|intuition congruence|].
  no template_no; [intuition congruence|]. no regex_no; [intuition congruence|]. no number_no; [exact Dg|intuition congruence|intuition congruence|]. no private_no; [intuition congruence|]. apply js_or_yes.
  unfold js_expect_identifier. apply does_get. rewrite text_one. eapply does_lift; [exact M|]. replace (length w =? 0) with false by (rewrite Ew; reflexivity). rewrite firstn_app_exact. assert (Nw : w <> []) by (rewrite Ew; discriminate).
  destruct K as [(-> & -> & ->)|(-> & ->)]; (eapply does_last; [apply does_emit; [reflexivity|exact Nw]|]); apply does_set_loc, does_ret.
Qed.
Lemma codes_ok (f : str -> option N) l : forallb (fun e => match f (fst e) with Some h => (h =? snd e)%N | None => false end) l = true -> Forall (fun e => f (fst e) = Some (snd e)) l.
Proof. rewrite forallb_forall. intros H. apply Forall_forall. intros e He. specialize (H e He). destruct (f (fst e)); [|discriminate]. apply N.eqb_eq in H. rewrite H. reflexivity. Qed.
Lemma words_code : Forall (fun e => js_token_by_code mode (fst e) = Some (snd e)) the_words.
Proof. apply codes_ok. unfold the_words. destruct mode; vm_compute; reflexivity. Qed.
Lemma words_ident : Forall (fun e => identb (fst e) = true) the_words.
Proof. unfold the_words. destruct mode; vm_compute; repeat constructor. Qed.
Lemma words_head : Forall (fun e => (hd 0 (fst e) =? 95)%N = false) the_words.
Proof. unfold the_words. destruct mode; vm_compute; repeat constructor. Qed.
Lemma words_expr : Forall (fun e => js_expr_keyword (fst e) = existsb (str_eqb (fst e)) (bs "is" :: prefix_words)) the_words.
Proof. unfold the_words. destruct mode; vm_compute; repeat constructor. Qed.
Lemma existsb_str_In w l : existsb (str_eqb w) l = true <-> In w l.
Proof. rewrite existsb_exists. split; [intros (x & Hx & E); apply str_eqb_eq in E; subst x; exact Hx|intros H; exists w; split; [exact H|apply str_eqb_eq; reflexivity]]. Qed.
Lemma ident_js w : identifier w -> js_name w.
Proof. intros (c & t & -> & Hc & Ht). exists c, t. split; [reflexivity|]. split; [left; exact Hc|]. eapply Forall_impl; [|exact Ht]. intros x Hx. left. exact Hx. Qed.
Lemma word_facts w h : In (w, h) the_words -> js_token_by_code mode w = Some h /\ identifier w /\ hd 0%N w <> 95%N /\ js_expr_keyword w = existsb (str_eqb w) (bs "is" :: prefix_words).
Proof.
  intros Hi. repeat split.
  - exact (proj1 (Forall_forall _ _) words_code _ Hi).
  - apply identb_iff. exact (proj1 (Forall_forall _ _) words_ident _ Hi).
  - apply N.eqb_neq. exact (proj1 (Forall_forall _ _) words_head _ Hi).
  - exact (proj1 (Forall_forall _ _) words_expr _ Hi).
Qed.
Lemma goal_of w g' : after_word w g' -> (if existsb (str_eqb w) (bs "is" :: prefix_words) then regex_goal else div_goal) = js_state g'.
Proof.
  intros A. cbn [existsb]. destruct A as [A|A|A1 A2 A3|A].
  - rewrite (proj2 (existsb_str_In w prefix_words) A), orb_true_r. reflexivity.
  - unfold operand_words in A. cbn [In] in A. repeat (destruct A as [<-|A]; [vm_compute; reflexivity|]). contradiction.
  - assert (E1 : str_eqb w (bs "is") = false) by (apply not_true_iff_false; rewrite str_eqb_eq; exact A3). rewrite E1. assert (E2 : existsb (str_eqb w) prefix_words = false) by (apply not_true_iff_false; rewrite existsb_str_In; exact A1). rewrite E2. reflexivity.
  - rewrite A. vm_compute. reflexivity.
Qed.
Lemma do_word s w h rest g' : In (w, h) the_words -> after_name rest -> after_word w g' -> does token s [(w, Some h)] rest tt (js_state g').
Proof.
  intros Hi R A. destruct (word_facts w h Hi) as (G1 & G2 & G3 & G4).
  assert (U : not_before (fun c => c = ch "_") w) by (intros c Ec; destruct w as [|x w]; [discriminate|]; injection Ec as ->; exact G3).
  apply do_name; [exact (ident_js w G2)|exact U|exact R|]. right. split; [exact G1|]. rewrite G4. symmetry. exact (goal_of w g' A).
Qed.
Lemma js_words_all : forallb (fun e => negb (is_js_identifier_start (hd 0%N (fst e))) || negb (js_available mode (snd (snd e))) || existsb (fun x => str_eqb (fst e) (fst x)) the_words) js_tokens = true.
Proof. unfold the_words. destruct mode; vm_compute; reflexivity. Qed.
Lemma other_name w : js_name w -> (forall h, ~ In (w, h) the_words) -> js_token_by_code mode w = None.
Proof.
  intros (c & t & Ew & Hc & _) H. unfold js_token_by_code. destruct (table_find js_tokens w) as [[h both]|] eqn:E; [|reflexivity]. apply table_find_In in E. destruct (js_available mode both) eqn:A; [exfalso|reflexivity].
  pose proof js_words_all as G. rewrite forallb_forall in G. specialize (G _ E). cbn [fst snd] in G. rewrite A in G. cbn [negb] in G. rewrite orb_false_r in G. rewrite Ew in G at 1. cbn [hd] in G. rewrite (proj2 (js_start_iff c (js_char_ascii c (js_start_char c Hc))) Hc) in G. cbn [negb orb] in G.
  apply existsb_exists in G as ([w' h'] & Hi & G). cbn [fst] in G. apply str_eqb_eq in G. subst w'. exact (H _ Hi).
Qed.
Lemma do_identifier s w rest : js_name w -> not_before (fun c => c = ch "_") w -> (forall h, ~ In (w, h) the_words) -> after_name rest -> does token s [(w, Some hl_name)] rest tt div_goal.
Proof. intros Hw U N R. apply do_name; [exact Hw|exact U|exact R|]. left. split; [exact (other_name w Hw N)|auto]. Qed.
Lemma do_private s w rest : js_name w -> after_name rest -> does token s [(bs "#" ++ w, Some hl_name)] rest tt div_goal.
Proof.
  intros Hw R. pose proof (name_exact w rest Hw R) as M. assert (E : text [(bs "#" ++ w, Some hl_name)] ++ rest = 35%N :: w ++ rest) by (rewrite text_one; reflexivity).
  pose proof Hw as (c & t & Ew & Hc & _). assert (Nc : c <> 33%N) by (unfold js_name_start, ident_start, letter in Hc; change (ch "$") with 36%N in Hc; lia).
  apply token_does. no white_no; [lia|unfold js_space; cbn [In]; lia|]. no hashbang_no; [right; left; rewrite Ew; apply not_before_cons; exact Nc|]. no line_no; [lia|]. no block_no; [lia|]. no jsx_no; [left; lia|]. no string_no; [lia|lia|]. no template_no; [lia|]. no regex_no; [lia|]. no number_no; [unfold digit; lia|lia|lia|].
  apply js_or_yes. unfold js_expect_private_identifier. apply does_get. rewrite E. eapply does_lift.
  - unfold js_match_private_identifier. change (35 =? ch "#")%N with true. cbn [negb]. rewrite M. cbn [bind]. replace (length w =? 0) with false by (rewrite Ew; reflexivity). reflexivity.
  - cbn [Nat.add Nat.eqb]. eapply does_last; [apply does_emit; [reflexivity|discriminate]|]. apply does_set_loc, does_ret.
Qed.

(** Comments *)
Lemma js_js_line t rest : js_line t -> not_before (fun c => c <> 10 /\ c <> 13)%N rest -> before_line_terminator (t ++ rest) = length t.
Proof. intros H R. apply before_exact; [exact H|apply line_stop; exact R]. Qed.
Lemma do_hashbang t rest : js_line t -> not_before (fun c => c <> 10 /\ c <> 13)%N rest ->
  does token hashbang_or_regex ((bs "#!", Some hl_comment_delim) :: opt_piece t hl_comment) rest tt hashbang_or_regex.
Proof.
  intros H R. assert (E : text ((bs "#!", Some hl_comment_delim) :: opt_piece t hl_comment) ++ rest = 35%N :: 33%N :: t ++ rest) by (rewrite text_cons, opt_piece_text; reflexivity).
  apply token_does. no white_no; [lia|unfold js_space; cbn [In]; lia|]. apply js_or_yes. unfold js_expect_hashbang. apply does_get_loc. cbn [js_has_hashbang negb]. apply does_get. rewrite E.
  assert (M : js_match_hashbang (35%N :: 33%N :: t ++ rest) = S (S (length t))) by (unfold js_match_hashbang; change (starts_with (35%N :: 33%N :: t ++ rest) (bs "#!")) with true; cbn [negb skipn]; rewrite js_js_line by assumption; reflexivity).
  rewrite M. cbv zeta. cbn [Nat.eqb]. eapply does_cons; [apply does_emit; [reflexivity|discriminate]|]. replace (2 <? S (S (length t))) with (negb (length t =? 0)) by (destruct t; reflexivity). replace (S (S (length t)) - 2) with (length t) by lia.
  eapply does_last; [apply does_opt; reflexivity|]. apply does_ret.
Qed.
Lemma do_line s t rest : js_line t -> not_before (fun c => c <> 10 /\ c <> 13)%N rest -> does token s (slash_comment :: opt_piece t hl_comment) rest tt regex_goal.
Proof.
  intros H R. assert (E : text (slash_comment :: opt_piece t hl_comment) ++ rest = 47%N :: 47%N :: t ++ rest) by (unfold slash_comment; rewrite text_cons, opt_piece_text; reflexivity).
  apply token_does. no white_no; [lia|unfold js_space; cbn [In]; lia|]. no hashbang_no; [lia|]. apply js_or_yes. unfold js_expect_line_comment. apply does_get. rewrite E.
  assert (M : match_line_comment (47%N :: 47%N :: t ++ rest) = S (S (length t))) by (unfold match_line_comment; change (starts_with (47%N :: 47%N :: t ++ rest) (bs "//")) with true; cbn [negb skipn]; rewrite js_js_line by assumption; reflexivity).
  rewrite M. cbv zeta. cbn [Nat.eqb]. unfold js_highlight_line_comment. eapply does_last; [|apply does_ret]. eapply does_cons; [apply does_emit; [reflexivity|discriminate]|].
  replace (2 <? S (S (length t))) with (negb (length t =? 0)) by (destruct t; reflexivity). replace (S (S (length t)) - 2) with (length t) by lia.
  eapply does_last; [apply does_opt; reflexivity|]. intros i o. apply wp_set_loc_exact. cbn [text map concat length tokens rev app]. rewrite Nat.add_0_r. split; reflexivity.
Qed.
Lemma do_block s t (closed : bool) rest : (if closed then ~ contains (t ++ bs "*") (bs "*/") else ~ contains t (bs "*/") /\ rest = []) ->
  does token s ((bs "/*", Some hl_comment_delim) :: opt_piece t hl_comment ++ (if closed then [(bs "*/", Some hl_comment_delim)] else [])) rest tt regex_goal.
Proof.
  intros H. set (p := _ :: _). set (c := if closed then bs "*/" else []).
  assert (Et : text p = bs "/*" ++ t ++ c) by (unfold p, c; rewrite text_cons, text_app, opt_piece_text; destruct closed; [rewrite text_one|]; reflexivity).
  assert (Em : match_block_comment (text p ++ rest) = mk_enclosed (2 + length t + length c) closed).
  { rewrite Et. unfold c. destruct closed.
    - rewrite match_block_comment_complete by (exists t; split; [reflexivity|exact H]). f_equal. rewrite !app_length. cbn; lia.
    - destruct H as [H ->]. rewrite !app_nil_r. rewrite match_block_comment_open by exact H. rewrite Nat.add_0_r. reflexivity. }
  assert (E : text p ++ rest = 47%N :: 42%N :: t ++ c ++ rest) by (rewrite Et, <- !app_assoc; reflexivity).
  apply token_does. no white_no; [lia|unfold js_space; cbn [In]; lia|]. no hashbang_no; [lia|]. no line_no; [right; apply not_before_cons; discriminate|]. apply js_or_yes. clear E.
  unfold js_expect_block_comment. apply does_get. rewrite Em. cbn [en_length Nat.add Nat.eqb]. eapply does_last; [|apply does_ret]. unfold js_highlight_block_comment. apply does_check; [reflexivity|]. cbn [en_length en_terminated]. intros i o.
  assert (Lc : length c = if closed then 2 else 0) by (unfold c; destruct closed; reflexivity).
  assert (Lp : length (text p) = 2 + length t + length c) by (rewrite Et, !app_length; cbn; lia).
  apply wp_bind, wp_get_idx. cbn [idx]. apply wp_bind. apply wp_emit_at_exact; [lia|lia|rewrite app_length; lia|]. cbv zeta.
  replace (S (S (length t + length c)) - 2 - (if closed then 2 else 0)) with (length t) by (rewrite <- Lc; lia). apply wp_bind.
  assert (Fin : forall o', wp (when closed (emit_at false (i + S (S (length t + length c)) - 2) 2 hl_comment_delim) ;; advance (S (S (length t + length c))) ;; set_loc regex_goal)
     (fun b st' => b = tt /\ st' = mk_hst rest (i + length (text p)) ((if closed then [OEmit (i + 2 + length t) 2 hl_comment_delim false] else []) ++ o') regex_goal) (mk_hst (text p ++ rest) i o' s)).
  { intros o'. apply wp_bind. destruct closed; cbn [when].
    - apply wp_emit_at_exact; [lia|lia|rewrite app_length; lia|]. apply wp_bind. apply wp_advance_exact; [rewrite app_length; lia|]. apply wp_set_loc_exact. split; [reflexivity|]. replace (S (S (length t + length c))) with (length (text p)) by lia. rewrite skipn_app_exact. cbn [app]. replace (i + length (text p) - 2) with (i + 2 + length t) by lia. reflexivity.
    - apply wp_ret. apply wp_bind. apply wp_advance_exact; [rewrite app_length; lia|]. apply wp_set_loc_exact. split; [reflexivity|]. replace (S (S (length t + length c))) with (length (text p)) by lia. rewrite skipn_app_exact. reflexivity. }
  assert (Ft : forall P (m : M js_input unit) st, wp m (fun b st' => b = tt /\ st' = P) st -> P = mk_hst rest (i + length (text p)) (rev (tokens i p) ++ o) regex_goal -> wp m (fun b st' => b = tt /\ st' = mk_hst rest (i + length (text p)) (rev (tokens i p) ++ o) regex_goal) st).
  { intros P m st Hm ->. exact Hm. }
  destruct t as [|x t].
  - cbn [length Nat.eqb negb when]. apply wp_ret. eapply Ft; [apply Fin|]. f_equal. unfold p. cbn [opt_piece app tokens]. change (length (bs "/*")) with 2. destruct closed; cbn [tokens rev app length]; rewrite ?Nat.add_0_r; reflexivity.
  - cbn [length Nat.eqb negb when]. apply wp_emit_at_exact; [lia|lia|rewrite app_length; cbn [length] in Lp; lia|]. eapply Ft; [apply Fin|]. f_equal. unfold p. cbn [opt_piece app tokens]. change (length (bs "/*")) with 2. cbn [tokens]. destruct closed; cbn [tokens rev app length]; reflexivity.
Qed.
Lemma do_comment g p rest : c_comment js_line p rest -> does token (js_state g) p rest tt (js_state (after_comment g)).
Proof.
  replace (js_state (after_comment g)) with regex_goal by (destruct g; reflexivity). intros [t r H R|t r H|t H].
  - apply do_line; assumption.
  - exact (do_block (js_state g) t true r H).
  - pose proof (do_block (js_state g) t false [] (conj H eq_refl)) as K. cbv zeta in K. rewrite app_nil_r in K. exact K.
Qed.

(** Numbers *)
Lemma do_number_pieces s (d : N -> Prop) p I f e x rest :
  (exists c t, text (number_pieces p I f e x) = c :: t /\ (digit c \/ c = 46%N)) -> ~ d 95%N -> I = [] \/ grouped d 95 I -> (forall f', f = Some f' -> f' = [] \/ grouped d 95 f') ->
  match e with Some (es, ed) => es <> [] /\ ed <> [] /\ Forall digit ed | None => True end -> (x <> [] -> f = None /\ e = None) ->
  match_common_number (text (number_pieces p I f e x) ++ rest) js_number_options = Ok (mk_number (length p + length (text I) + length (frac_text f) + length (exp_text e) + length x)
    0 (length p) (length (text I)) (match f with None => 0 | Some _ => 1 end) (match f with None => 0 | Some f => length (text f) end)
    (match e with None => 0 | Some (e, _) => length e end) (match e with None => 0 | Some (_, d) => length d end) (length x) false) ->
  does token s (number_pieces p I f e x) rest tt div_goal.
Proof.
  intros (c & t & Ec & Hc) Hd GI GF GE GX HM. assert (E : text (number_pieces p I f e x) ++ rest = c :: t ++ rest) by (rewrite Ec; reflexivity). unfold digit in Hc.
  apply token_does. no white_no; [lia|unfold js_space; cbn [In]; lia|]. no hashbang_no; [lia|]. no line_no; [lia|]. no block_no; [lia|]. no jsx_no; [lia|]. no string_no; [lia|lia|]. no template_no; [lia|]. no regex_no; [lia|]. apply js_or_yes.
  unfold js_expect_number. apply does_get. eapply does_lift.
  { unfold js_match_number. rewrite HM. cbn [bind nr_length nr_sign nr_prefix nr_integer nr_radix_point nr_fractional nr_exponent_sep nr_exponent_digits nr_suffix nr_erroneous orb]. unfold nr_is_non_integer. cbn [nr_radix_point nr_exponent_sep nr_exponent_digits].
    match goal with |- context [mk_number _ _ _ _ _ _ _ _ _ ?b] => assert (b = false) as -> end; [|reflexivity].
    destruct x as [|y x]; [reflexivity|]. destruct GX as [-> ->]; [discriminate|]. reflexivity. }
  cbn [nr_length]. assert (L : length (text (number_pieces p I f e x)) <> 0) by (rewrite Ec; discriminate). pose proof L as L'. rewrite number_pieces_text, !app_length in L'.
  match goal with |- context [?a =? 0] => rewrite (proj2 (Nat.eqb_neq a 0)) by lia end.
  eapply does_last; [|apply does_set_loc, does_ret]. intros i o. apply (highlight_sep_exact d); try assumption; try discriminate.
  - unfold digit. lia.
  - split; reflexivity.
Qed.
Definition js_suffixes : list str := [[]; bs "n"].
Lemma js_suffix_ok x rest : In x js_suffixes -> not_before ident_char rest -> x ++ rest <> [] -> suffix_match js_number_options (x ++ rest) = length x.
Proof.
  intros Hx R _. change (number_suffix (x ++ rest) [bs "n"] = length x). rewrite number_suffix_exact by (exact R || (vm_compute; reflexivity)).
  unfold js_suffixes in Hx. cbn [In] in Hx. repeat (destruct Hx as [<-|Hx]; [vm_compute; reflexivity|]). contradiction.
Qed.
Lemma do_literal_number s p (d : N -> Prop) allow base I f e x rest :
  (forall c, is_ascii_digit_base c base = true <-> d c) -> (forall c, d c -> hex_digit c) ->
  number_base js_number_options (p ++ text I ++ frac_text f ++ exp_text e ++ x ++ rest) (no_prefixes js_number_options) = Ok (length p, allow, base) ->
  (p = [] \/ exists b, p = [48; b]%N) -> (p = [] -> forall c, d c -> digit c) ->
  grouped d 95 I \/ p = [] /\ d = digit /\ I = [] /\ f <> None ->
  (forall f', f = Some f' -> p = [] /\ allow = true /\ grouped d 95 f') ->
  match e with
  | Some (es, ed) => allow = true /\ In es (map fst (no_exponents js_number_options)) /\ fst (fst (number_exponent es (no_exponents js_number_options))) = length es /\ ed <> [] /\ Forall digit ed
                     /\ not_before (fun c => d c \/ c = no_separator js_number_options) es
  | None => True
  end -> (x <> [] -> f = None /\ e = None) ->
  In x js_suffixes -> (e = None -> not_before d x) -> not_before (fun c => ident_char c \/ c = ch ".") rest ->
  does token s (number_pieces p I f e x) rest tt div_goal.
Proof.
  intros Hd Hhex HB HP HP2 GI GF GE GX0 GX HX R.
  assert (D95 : ~ d 95%N) by (intros D; apply Hhex in D; unfold hex_digit in D; lia).
  assert (D46 : ~ d 46%N) by (intros D; apply Hhex in D; unfold hex_digit in D; lia).
  assert (Ri : not_before ident_char rest) by (eapply not_before_impl; [|exact R]; cbn beta; tauto).
  assert (HR : forall q : N -> Prop, not_before q x -> (forall c, q c -> ident_char c \/ c = 46%N) -> not_before q (x ++ rest)).
  { intros q Q1 Q2. destruct x as [|y x]; [|intros c Ec; apply (Q1 c); exact Ec]. cbn [app]. eapply not_before_impl; [|exact R]. cbn beta. exact Q2. }
  assert (Hhexid : forall c, d c -> ident_char c) by (intros c D; apply Hhex in D; unfold hex_digit in D; unfold ident_char, letter, digit; lia).
  apply (do_number_pieces s d).
  - rewrite number_pieces_text. destruct HP as [->|[b ->]]; [|exists 48%N; eexists; split; [reflexivity|unfold digit; lia]]. cbn [app]. destruct GI as [GI|(_ & _ & -> & Hf)].
    + destruct (grouped_second _ _ _ GI) as (c & t & -> & Hc & _). exists c. eexists. split; [reflexivity|]. left. apply HP2; auto.
    + destruct f as [f|]; [|congruence]. exists 46%N. eexists. split; [reflexivity|]. auto.
  - exact D95.
  - tauto.
  - intros f' E. destruct (GF f' E) as (H1 & _ & H2). auto.
  - destruct e as [[es ed]|]; [|exact Logic.I]. destruct GE as (_ & GE & GE2 & GE3 & GE4 & _). split; [|auto]. intros ->. cbn in GE. intuition discriminate.
  - exact GX0.
  - rewrite number_pieces_text, <- !app_assoc. apply (literal_exact js_number_options p d allow base I f e x rest); try reflexivity; try discriminate; try assumption.
    + destruct GI as [GI|(-> & -> & -> & Hf)]; [left; exact GI|right]. split; [reflexivity|]. split; [reflexivity|]. destruct f as [f|]; [|congruence]. exists f. split; [reflexivity|]. apply GF. reflexivity.
    + intros f' E. destruct (GF f' E) as (_ & -> & G). split; [reflexivity|]. right. exact G.
    + destruct e as [[es ed]|]; [exact GE|]. intros _. apply no_exponent; [reflexivity|]. apply HR.
      * unfold js_suffixes in GX. cbn [In] in GX. repeat (destruct GX as [<-|GX]; [nb|]). contradiction.
      * intros c Hc. cbn in Hc. left. repeat (destruct Hc as [<-|Hc]; [vm_compute; intuition discriminate|]). contradiction.
    + apply js_suffix_ok; [exact GX|exact Ri].
    + apply HR.
      * destruct e as [[es ed]|].
        -- unfold js_suffixes in GX. cbn [In] in GX. repeat (destruct GX as [<-|GX]; [nb|]). contradiction.
        -- specialize (HX eq_refl). intros c Ec [D|D]; [exact (HX c Ec D)|]. unfold js_suffixes in GX. cbn [In] in GX. repeat (destruct GX as [<-|GX]; [destruct D as [-> | ->]; vm_compute in Ec; discriminate Ec|]). contradiction.
      * intros c. destruct e as [[es ed]|]; [unfold ident_char; tauto|]. cbn. intros [D|[D|D]]; [left; auto| |auto]. left. unfold ident_char. auto.
Qed.
Lemma js_exp_good (d : N -> Prop) e : (forall c, d c -> digit c) -> js_exp e ->
  match e with
  | Some (es, ed) => true = true /\ In es (map fst (no_exponents js_number_options)) /\ fst (fst (number_exponent es (no_exponents js_number_options))) = length es /\ ed <> [] /\ Forall digit ed
                     /\ not_before (fun c => d c \/ c = no_separator js_number_options) es
  | None => True
  end.
Proof.
  intros Hd H. destruct e as [[es ed]|]; [|exact Logic.I]. destruct (H es ed eq_refl) as (H1 & H2 & H3). split; [reflexivity|].
  cbn [In] in H1. repeat (destruct H1 as [<-|H1]; [split; [vm_compute; tauto|]; split; [vm_compute; reflexivity|]; split; [exact H2|]; split; [exact H3|]; apply (not_before_impl (fun c => digit c \/ c = 95%N)); [cbn beta; intros c [K|K]; [left; apply Hd; exact K|right; exact K]|nb]|]). contradiction.
Qed.
Lemma js_base I f e x rest : js_decimal I -> js_exp e -> In x js_suffixes -> not_before (fun c => ident_char c \/ c = ch ".") rest ->
  number_base js_number_options ([] ++ text I ++ frac_text f ++ exp_text e ++ x ++ rest) (no_prefixes js_number_options)
  = Ok (length (@nil N), true, if str_eqb (text I) (bs "0") then 8%Z else 10%Z).
Proof.
  intros [G Z] GE GX R. destruct (grouped_second _ _ _ G) as (c & t & Et & Hc & Ht).
  assert (B : forall y, hd_error (t ++ frac_text f ++ exp_text e ++ x ++ rest) = Some y -> ~ In y (prefix_letters js_number_options)).
  { intros y Hy Iy. cbn in Iy. destruct t as [|z t]; cbn [app] in Hy.
    2:{ injection Hy as ->. specialize (Ht y eq_refl). unfold digit in Ht. lia. }
    destruct f as [f|]; [cbn in Hy; injection Hy as <-; lia|]. cbn [frac_text app] in Hy. destruct e as [[es ed]|].
    - destruct (GE es ed eq_refl) as (Hl & _). cbn [In] in Hl. repeat (destruct Hl as [<-|Hl]; [cbn in Hy; injection Hy as <-; lia|]). contradiction.
    - cbn [exp_text app] in Hy. unfold js_suffixes in GX. cbn [In] in GX.
      destruct GX as [<-|GX]; [cbn in Hy; apply (R y Hy); left; unfold ident_char, letter; lia|]. repeat (destruct GX as [<-|GX]; [cbn in Hy; injection Hy as <-; lia|]). contradiction. }
  cbn [app length]. rewrite number_base_none.
  - f_equal. f_equal. rewrite Et. cbn [app starts_with_ch]. rewrite Et in Z. destruct Z as [Z|Z].
    + injection Z as -> ->. reflexivity.
    + specialize (Z c eq_refl). cbn beta in Z. change (ch "0") with 48%N in Z. rewrite (proj2 (N.eqb_neq c 48) Z). change (bs "0") with [48]%N.
      destruct (str_eqb (c :: t) [48]%N) eqn:Q; [|reflexivity]. apply str_eqb_eq in Q. injection Q as Q _. contradiction.
  - rewrite Et. cbn [app]. apply Forall_forall. intros q Hq.
    assert (In (nth 1 (np_str q) 0%N) (prefix_letters js_number_options)) as IQ by (apply (in_map (fun p => nth 1 (np_str p) 0%N)); exact Hq).
    cbn in Hq. assert (X : exists a b, np_str q = [a; b]) by (repeat (destruct Hq as [<-|Hq]; [eexists _, _; reflexivity|]); contradiction). destruct X as (a & b & X). rewrite X in *. split; [discriminate|]. cbn [nth starts_with] in *. destruct (c =? a)%N; [|reflexivity].
    destruct (t ++ _) as [|y u]; [reflexivity|]. specialize (B y eq_refl). cbn [starts_with]. rewrite (proj2 (N.eqb_neq y b)) by congruence. reflexivity.
Qed.
Lemma grouped_zero n : grouped digit 95 n -> text n = bs "0" -> grouped octal_digit 95 n.
Proof.
  intros G E. destruct G as [g Hg F|g l Hg F G].
  - rewrite text_one in E. subst g. apply grouped_one; [discriminate|]. repeat constructor; unfold octal_digit; cbn; lia.
  - exfalso. rewrite !text_cons in E. destruct g as [|x [|y g]]; [congruence|cbn in E; discriminate E|cbn in E; discriminate E].
Qed.
Lemma do_number s n rest : js_number n -> not_before (fun c => ident_char c \/ c = ch ".") rest -> does token s n rest tt div_goal.
Proof.
  intros Hn R.
  assert (B10 : forall c, digit c -> hex_digit c) by (unfold digit, hex_digit; lia). assert (B2 : forall c, binary_digit c -> hex_digit c) by (unfold binary_digit, hex_digit; lia). assert (B8 : forall c, octal_digit c -> hex_digit c) by (unfold octal_digit, hex_digit; lia).
  assert (S1 : forall x, In x [[]; bs "n"] -> not_before hex_digit x).
  { intros x Hx. cbn [In] in Hx. repeat (destruct Hx as [<-|Hx]; [nb|]). contradiction. }
  assert (S2 : forall (d : N -> Prop) x, (forall c, d c -> hex_digit c) -> In x [[]; bs "n"] -> not_before d x) by (intros d x Hd Hx; eapply not_before_impl; [exact Hd|apply S1; exact Hx]).
  assert (Dec : forall I f e x, js_decimal I -> (forall f', f = Some f' -> grouped digit 95 f' /\ (text I = bs "0" -> grouped octal_digit 95 f')) -> js_exp e -> In x js_suffixes -> (x <> [] -> f = None /\ e = None) -> does token s (number_pieces [] I f e x) rest tt div_goal).
  { intros I f e x D GF GE GX GX0. pose proof (js_base I f e x rest D GE GX R) as HB. destruct D as [G Z]. destruct (str_eqb (text I) (bs "0")) eqn:Q.
    - apply str_eqb_eq in Q. apply (do_literal_number s [] octal_digit true 8); auto.
      + exact digit_8.
      + intros _ c. unfold octal_digit, digit. lia.
      + left. apply grouped_zero; assumption.
      + intros f' Ef. split; [reflexivity|]. split; [reflexivity|]. apply GF; assumption.
      + apply js_exp_good; [unfold octal_digit, digit; lia|exact GE].
    - apply (do_literal_number s [] digit true 10); auto.
      + exact digit_10.
      + intros f' Ef. split; [reflexivity|]. split; [reflexivity|]. apply GF; assumption.
      + apply js_exp_good; [auto|exact GE]. }
  destruct Hn as [base I x Hb G HX|base I x Hb G HX|base I x Hb G HX|I x G HX|I f e G GF GE|f e G GE].
  - apply (do_literal_number s base binary_digit false 2); auto; try discriminate.
    + exact digit_2.
    + cbn [In] in Hb. destruct Hb as [<-|[<-|[]]]; reflexivity.
    + right. cbn [In] in Hb. destruct Hb as [<-|[<-|[]]]; eexists; reflexivity.
    + intros ->. cbn [In] in Hb. destruct Hb as [Hb|[Hb|[]]]; discriminate Hb.
  - apply (do_literal_number s base octal_digit false 8); auto; try discriminate.
    + exact digit_8.
    + cbn [In] in Hb. destruct Hb as [<-|[<-|[]]]; reflexivity.
    + right. cbn [In] in Hb. destruct Hb as [<-|[<-|[]]]; eexists; reflexivity.
    + intros ->. cbn [In] in Hb. destruct Hb as [Hb|[Hb|[]]]; discriminate Hb.
  - apply (do_literal_number s base hex_digit false 16); auto; try discriminate.
    + exact digit_16.
    + cbn [In] in Hb. destruct Hb as [<-|[<-|[]]]; reflexivity.
    + right. cbn [In] in Hb. destruct Hb as [<-|[<-|[]]]; eexists; reflexivity.
    + intros ->. cbn [In] in Hb. destruct Hb as [Hb|[Hb|[]]]; discriminate Hb.
  - apply Dec; auto; discriminate.
  - apply Dec; auto; [left; reflexivity|congruence].
  - apply (do_literal_number s [] digit true 10); auto.
    + exact digit_10.
    + right. repeat split. discriminate.
    + intros f' [= <-]. auto.
    + apply js_exp_good; [auto|exact GE].
    + congruence.
    + left. reflexivity.
    + intros _. intros c [=].
Qed.

(** Symbols *)
Definition the_after_less : str -> Prop := match mode with javascript => no_tag | typescript => fun _ => True end.
Lemma the_symbols_ok : symbols_ok js_match_operator (js_token_by_code mode) the_symbols = true.
Proof. unfold the_symbols. destruct mode; vm_compute; reflexivity. Qed.
Lemma operator_longest c t rest : longest the_symbols (c :: t) rest -> js_match_operator ((c :: t) ++ rest) = js_match_operator (c :: t).
Proof.
  intros H. assert (H' : longest javascript_symbols (c :: t) rest) by (intros u h v Hu; apply (H u h v); unfold the_symbols; destruct mode; [exact Hu|right; exact Hu]). clear H.
  unfold js_match_operator. cbn [app]. change (c :: t ++ rest) with ((c :: t) ++ rest).
  assert (K : forall l d, known javascript_symbols l = true -> first_of ((c :: t) ++ rest) l d = first_of (c :: t) l d) by (intros l d Hl; apply (first_of_longest javascript_symbols); [exact H'|apply known_In; exact Hl]).
  repeat (rewrite K by (vm_compute; reflexivity)). reflexivity.
Qed.
Lemma symbols_slash : forallb (fun e => Bool.eqb (js_cannot_precede_regex (fst e)) (existsb (str_eqb (fst e)) closing_symbols)) the_symbols = true.
Proof. unfold the_symbols. destruct mode; vm_compute; reflexivity. Qed.
Definition head_good (e : str * N) : bool :=
  match fst e with
  | c :: t =>
    (c <? 128)%N && negb (mem c [32; 9; 10; 11; 12; 13; 34; 35; 36; 39; 95; 96; 123; 125]%N) && negb (is_ascii_alpha c) && negb (is_ascii_digit c)
    && (negb (c =? 47)%N || match t with [] => true | x :: _ => (x =? 61)%N end)
    && (negb (c =? 46)%N || match t with [] => true | x :: _ => (x =? 46)%N end)
    && (negb (c =? 60)%N || match t with [] => true | x :: _ => (x =? 60)%N || (x =? 61)%N end)
  | [] => false
  end.
Lemma symbols_head : forallb head_good the_symbols = true.
Proof. unfold the_symbols. destruct mode; vm_compute; reflexivity. Qed.
Lemma symbol_head_facts t h : In (t, h) the_symbols -> exists c u, t = c :: u /\ (c < 128)%N /\ ~ js_space c /\ ~ js_name_start c /\ ~ digit c /\ ~ In c [34; 35; 39; 95; 96; 123; 125]%N
  /\ (c = 47%N -> t = bs "/" \/ exists v, u = 61%N :: v) /\ (c = 46%N -> t = bs "." \/ exists v, u = 46%N :: v) /\ (c = 60%N -> t = bs "<" \/ exists x v, u = x :: v /\ (x = 60 \/ x = 61)%N).
Proof.
  intros Hi. pose proof (proj1 (forallb_forall _ _) symbols_head _ Hi) as G. unfold head_good in G. cbn [fst] in G. destruct t as [|c u]; [discriminate|]. rewrite !andb_true_iff, !negb_true_iff in G. destruct G as [[[[[[G1 G2] G3] G4] G5] G6] G7].
  apply N.ltb_lt in G1. apply not_true_iff_false in G2. rewrite mem_In in G2. cbn [In] in G2. apply not_true_iff_false in G3. rewrite js_alpha_iff in G3. apply not_true_iff_false in G4. rewrite digit_iff in G4.
  exists c, u. split; [reflexivity|]. split; [exact G1|]. split; [unfold js_space; cbn [In]; tauto|]. split; [unfold js_name_start, ident_start; change (ch "$") with 36%N; intuition congruence|]. split; [exact G4|]. split; [cbn [In]; tauto|].
  split; [|split]; intros ->; cbn [N.eqb Pos.eqb negb orb] in *; (destruct u as [|x v]; [left; reflexivity|right]).
  - apply N.eqb_eq in G5. subst x. eauto.
  - apply N.eqb_eq in G6. subst x. eauto.
  - apply orb_true_iff in G7. rewrite !N.eqb_eq in G7. eauto.
Qed.
Lemma do_symbol g t h rest g' : In (t, h) the_symbols -> longest the_symbols t rest -> after_symbol t g' ->
  (t = bs "." \/ t = bs "?." -> not_before digit rest) -> (t = bs "<" -> the_after_less rest) -> (t = bs "/" \/ t = bs "/=" -> g = js_operator) ->
  (t = bs "/" -> not_before (fun c => c = ch "/" \/ c = ch "*") rest) ->
  does token (js_state g) [(t, Some h)] rest tt (js_state g').
Proof.
  intros Hi HL A Dot Less Div Sl. destruct (symbol_head_facts t h Hi) as (c & u & Et & L & Sp & Ns & Dg & Nc & H47 & H46 & H60). cbn [In] in Nc.
  destruct (symbols_ok_In _ _ _ the_symbols_ok t h Hi) as (F1 & F2 & _).
  assert (F3 : js_cannot_precede_regex t = existsb (str_eqb t) closing_symbols) by (apply Bool.eqb_prop; exact (proj1 (forallb_forall _ _) symbols_slash _ Hi)).
  assert (E : text [(t, Some h)] ++ rest = c :: u ++ rest) by (rewrite text_one, Et; reflexivity).
  assert (N47 : c = 47%N -> not_before (fun x => x = 47%N \/ x = 42%N) (u ++ rest)).
  { intros Ec. destruct (H47 Ec) as [E1|[v E1]]; [|rewrite E1; apply not_before_cons; lia]. rewrite Et in E1. injection E1 as _ ->. cbn [app]. apply Sl. rewrite Et, Ec. reflexivity. }
  assert (G47 : c = 47%N -> js_has_regex (js_state g) = false).
  { intros Ec. rewrite Div; [reflexivity|]. destruct (H47 Ec) as [E1|[v E1]]; [left; exact E1|right].
    assert (B : forallb (fun e => match fst e with 47%N :: 61%N :: v => match v with [] => true | _ => false end | _ => true end) the_symbols = true) by (unfold the_symbols; destruct mode; vm_compute; reflexivity).
    rewrite forallb_forall in B. specialize (B _ Hi). cbn [fst] in B. rewrite Et, Ec, E1 in B. destruct v; [|discriminate]. rewrite Et, Ec, E1. reflexivity. }
  apply token_does. no white_no; [exact L|exact Sp|]. no hashbang_no; [intuition congruence|].
  no line_no; [destruct (N.eq_dec c 47) as [Ec|Ec]; [right; eapply not_before_impl; [|exact (N47 Ec)]; cbn beta; tauto|left; exact Ec]|].
  no block_no; [destruct (N.eq_dec c 47) as [Ec|Ec]; [right; eapply not_before_impl; [|exact (N47 Ec)]; cbn beta; tauto|left; exact Ec]|].
  no jsx_no.
  { destruct (N.eq_dec c 60) as [Ec|Ec]; [right|left; exact Ec]. unfold the_after_less in Less. destruct mode; [right|left; reflexivity]. rewrite Ec. destruct (H60 Ec) as [E1|(x & v & E1 & Hx)].
    - specialize (Less E1). rewrite Et in E1. injection E1 as _ ->. apply no_jsx_at. exact Less.
    - rewrite E1. cbn [app]. apply no_jsx_symbol. exact Hx. }
  no string_no; [intuition congruence|intuition congruence|]. no template_no; [intuition congruence|]. no regex_no; [destruct (N.eq_dec c 47) as [Ec|Ec]; [right; exact (G47 Ec)|left; exact Ec]|].
  no number_no; [exact Dg|intuition congruence| |].
  { intros Ec. destruct (H46 Ec) as [E1|[v E1]]; [|rewrite E1; apply not_before_cons; unfold digit; lia]. rewrite Et in E1. injection E1 as _ ->. cbn [app]. apply Dot. left. rewrite Et, Ec. reflexivity. }
  no private_no; [intuition congruence|]. no identifier_no; [exact L|exact Ns|].
  unfold js_expect_operator. apply does_get. rewrite text_one. rewrite Et in HL, F1. pose proof (operator_longest c u rest HL) as K. rewrite F1 in K. rewrite <- Et in K. rewrite K, F2.
  eapply does_last; [apply does_emit; [reflexivity|rewrite Et; discriminate]|]. rewrite F3.
  replace (if existsb (str_eqb t) closing_symbols then div_goal else regex_goal) with (js_state g'); [apply does_set_loc, does_ret|].
  destruct A as [A|A]; [rewrite (proj2 (existsb_str_In t closing_symbols) A); reflexivity|].
  assert (E2 : existsb (str_eqb t) closing_symbols = false) by (apply not_true_iff_false; rewrite existsb_str_In; exact A). rewrite E2. reflexivity.
Qed.
Lemma do_brace s c rest : In c [123; 125]%N -> does token s [([c], Some hl_symbol_brace)] rest tt (if (c =? 123)%N then regex_goal else div_goal).
Proof.
  intros Hc. assert (E : text [([c], Some hl_symbol_brace)] ++ rest = c :: rest) by reflexivity. cbn [In] in Hc.
  apply token_does. no white_no; [lia|unfold js_space; cbn [In]; lia|]. no hashbang_no; [lia|]. no line_no; [lia|]. no block_no; [lia|]. no jsx_no; [lia|]. no string_no; [lia|lia|]. no template_no; [lia|]. no regex_no; [lia|]. no number_no; [unfold digit; lia|lia|lia|]. no private_no; [lia|].
  no identifier_no; [lia|unfold js_name_start, ident_start, letter; change (ch "$") with 36%N; lia|].
  unfold js_expect_operator. apply does_get. rewrite E.
  assert (K : js_match_operator (c :: rest) = Some [c] /\ js_token_by_code mode [c] = Some hl_symbol_brace /\ (if js_cannot_precede_regex [c] then div_goal else regex_goal) = (if (c =? 123)%N then regex_goal else div_goal)).
  { destruct Hc as [<-|[<-|[]]]; (split; [reflexivity|split; [destruct mode; vm_compute; reflexivity|reflexivity]]). }
  destruct K as (K1 & K2 & K3). rewrite K1, K2, K3. eapply does_last; [apply does_emit; [reflexivity|discriminate]|]. apply does_set_loc, does_ret.
Qed.

(** Regular expressions *)
Lemma regex_end_exact t rest : js_regex_text t -> js_line t -> forall n, M_LangJs.js_regex_end (t ++ 47%N :: rest) false n = Some (n + length t).
Proof.
  intros H. induction H as [|c t Hc H IH|c t H IH]; intros HL n.
  - cbn [app M_LangJs.js_regex_end length]. rewrite Nat.add_0_r. reflexivity.
  - cbn [In] in Hc. cbn [app M_LangJs.js_regex_end]. rewrite (proj2 (N.eqb_neq c (ch "\"))), (proj2 (N.eqb_neq c (ch "/"))) by (change (ch "\") with 92%N; change (ch "/") with 47%N; lia).
    assert (T : starts_with_line_terminator (c :: t ++ 47%N :: rest) = false).
    { apply not_true_is_false. intros T. apply terminator_iff in T as (l & v & Hl & E). apply (HL l Hl).
      destruct (app_eq_app (c :: t) (47%N :: rest) l v) as [w [[E1 E2]|[E1 E2]]]; [exact E|exists [], w; exact E1|].
      destruct w as [|x w]; [exists [], []; rewrite app_nil_r in *; symmetry; exact E1|]. injection E2 as <- _.
      exfalso. assert (In 47%N l) as I47 by (rewrite E1; apply in_or_app; right; left; reflexivity). clear - Hl I47. repeat (destruct Hl as [<-|Hl]; [cbn in I47; intuition discriminate|]). contradiction. }
    rewrite T, IH; [f_equal; cbn [length]; lia|]. intros l Hl (a & b & ->). apply (HL l Hl). exists (c :: a), b. reflexivity.
  - cbn [app M_LangJs.js_regex_end]. change (92 =? ch "\")%N with true. cbn iota. rewrite IH; [f_equal; cbn [length]; lia|]. intros l Hl (a & b & ->). apply (HL l Hl). exists (92%N :: c :: a), b. reflexivity.
Qed.
Lemma do_regex g t flags rest : wants_operand g -> t <> [] -> not_before (fun c => c = ch "*") t -> js_regex_text t -> js_line t -> Forall js_name_char flags -> after_name rest ->
  does token (js_state g) ((bs "/", Some hl_string_delim) :: (t, Some hl_string) :: (bs "/", Some hl_string_delim) :: opt_piece flags hl_string_decor) rest tt div_goal.
Proof.
  intros Hg Nt St Ht HL Hf R. set (p := _ :: _).
  assert (E : text p ++ rest = 47%N :: t ++ 47%N :: flags ++ rest) by (unfold p; rewrite !text_cons, opt_piece_text, <- !app_assoc; reflexivity).
  assert (N1 : not_before (fun x => x = 47%N) (t ++ 47%N :: flags ++ rest)). { destruct Ht as [|c t Hc Ht|c t Ht]; [congruence| |]; apply not_before_cons; cbn [In] in *; [lia|discriminate]. }
  assert (N2 : not_before (fun x => x = 42%N) (t ++ 47%N :: flags ++ rest)). { destruct t as [|c t]; [congruence|]. apply not_before_cons. exact (St c eq_refl). }
  apply token_does. no white_no; [lia|unfold js_space; cbn [In]; lia|]. no hashbang_no; [lia|]. no line_no; [right; exact N1|]. no block_no; [right; exact N2|]. no jsx_no; [lia|]. no string_no; [lia|lia|]. no template_no; [lia|]. apply js_or_yes.
  unfold js_expect_regex. apply does_get_loc. assert (HR : js_has_regex (js_state g) = true) by (destruct Hg as [->|[->| ->]]; reflexivity). rewrite HR. cbn [negb]. apply does_get. rewrite E.
  assert (E2 : starts_with (47%N :: t ++ 47%N :: flags ++ rest) (bs "/*") = false).
  { change (bs "/*") with [47; 42]%N. cbn [starts_with N.eqb Pos.eqb]. destruct (t ++ _) as [|x w]; [reflexivity|]. specialize (N2 x eq_refl). cbn beta in N2. cbn [starts_with]. rewrite (proj2 (N.eqb_neq x 42) N2). reflexivity. }
  assert (E3 : starts_with (47%N :: t ++ 47%N :: flags ++ rest) (bs "//") = false).
  { change (bs "//") with [47; 47]%N. cbn [starts_with N.eqb Pos.eqb]. destruct (t ++ _) as [|x w]; [reflexivity|]. specialize (N1 x eq_refl). cbn beta in N1. cbn [starts_with]. rewrite (proj2 (N.eqb_neq x 47) N1). reflexivity. }
  rewrite E2, E3. change (starts_with_ch (47%N :: t ++ 47%N :: flags ++ rest) (ch "/")) with true. cbn [negb orb skipn]. rewrite regex_end_exact by assumption. cbn [Nat.add].
  unfold p. eapply does_cons; [apply does_emit; [reflexivity|discriminate]|]. eapply does_cons; [apply does_emit; [reflexivity|exact Nt]|]. eapply does_cons; [apply does_emit; [reflexivity|discriminate]|].
  apply does_substr; [rewrite app_length; cbn [length]; lia|].
  assert (Es : skipn (length t + 1) (t ++ 47%N :: flags ++ rest) = flags ++ rest) by (change (47%N :: flags ++ rest) with ([47%N] ++ flags ++ rest); rewrite app_assoc; replace (length t + 1) with (length (t ++ [47%N])) by (rewrite app_length; reflexivity); apply skipn_app_exact).
  rewrite Es. eapply does_lift.
  - unfold js_match_regex_flags. apply length_ascii.
    + eapply Forall_impl; [|exact Hf]. cbn beta. intros x Hx. split; [apply js_char_ascii; exact Hx|]. apply js_part_iff; [apply js_char_ascii; exact Hx|exact Hx].
    + destruct rest as [|x v]; [auto|right]. exists x, v. split; [reflexivity|]. specialize (R x eq_refl). cbn beta in R. assert (Lx : (x < 128)%N) by lia. split; [exact Lx|]. apply not_true_iff_false. rewrite (js_part_iff x Lx). tauto.
  - eapply does_last; [apply does_opt; reflexivity|]. apply does_set_loc, does_ret.
Qed.

(** Escape sequences *)
Lemma js_escape_exact e rest : js_escape e rest -> js_match_escape (e ++ rest) = Ok (mk_escape (length e) false) /\ exists c t, e = 92%N :: c :: t /\ c <> 13%N /\ c <> 226%N /\ Forall (fun x => ~ In x [34; 39; 92; 10]%N) t.
Proof.
  assert (H1 : forall x, hex_digit x -> ~ In x [34; 39; 92; 10]%N) by (intros x; unfold hex_digit; cbn [In]; lia).
  intros [c r L Hc|c r Hc R|d r H|d r H|d r Hd H].
  - split; [|exists c, []; cbn [In app bs] in Hc; repeat split; [intros ->; apply Hc; left; reflexivity|intros ->; lia|constructor]].
    cbn [app js_match_escape]. change (92 =? ch "\")%N with true. cbn [negb].
    assert (X : forall x, In x (bs "xu01234567") -> c <> x) by (intros x Hx ->; apply Hc; right; exact Hx).
    rewrite (proj2 (N.eqb_neq c (ch "x"))), (proj2 (N.eqb_neq c (ch "u"))) by (apply X; cbn; tauto).
    assert (M1 : mem c (bs "0123") = false) by (apply not_true_iff_false; rewrite mem_In; intros K; apply (X c); [|reflexivity]; cbn in K |- *; tauto).
    assert (M2 : mem c (bs "4567") = false) by (apply not_true_iff_false; rewrite mem_In; intros K; apply (X c); [|reflexivity]; cbn in K |- *; tauto).
    rewrite M1, M2. reflexivity.
  - unfold octal_digit in Hc. split; [|exists c, []; repeat split; [lia|lia|constructor]]. cbn [app js_match_escape]. change (92 =? ch "\")%N with true. cbn [negb].
    rewrite (proj2 (N.eqb_neq c (ch "x"))), (proj2 (N.eqb_neq c (ch "u"))) by (change (ch "x") with 120%N; change (ch "u") with 117%N; lia).
    assert (O : forall y v, r = y :: v -> is_ascii_octal_digit y = false) by (intros y v ->; apply not_true_iff_false; rewrite octal_digit_iff; exact (R y eq_refl)).
    destruct (mem c (bs "0123")); [destruct r as [|y v]; [reflexivity|]; rewrite (O y v eq_refl); reflexivity|]. destruct (mem c (bs "4567")); [destruct r as [|y v]; [reflexivity|]; rewrite (O y v eq_refl); reflexivity|]. reflexivity.
  - split; [|exists 120%N, d; repeat split; [discriminate|discriminate|]; destruct H as [_ H]; eapply Forall_impl; [|exact H]; exact H1]. rewrite <- app_assoc.
    change (js_match_escape (bs "\x" ++ d ++ r)) with (match_common_escape_at hex_2 (bs "\x" ++ d ++ r) (length (bs "\x"))). rewrite (escape_at hex_2 (bs "\x") d r) by (apply (escape_hex hex_2 2); [auto|exact H]). rewrite app_length, Nat.add_comm. reflexivity.
  - split; [|exists 117%N, d; repeat split; [discriminate|discriminate|]; destruct H as [_ H]; eapply Forall_impl; [|exact H]; exact H1]. rewrite <- app_assoc.
    assert (B : starts_with_ch (d ++ r) (ch "{") = false). { destruct H as [HL H]. destruct H as [|x d Hx H]; [discriminate HL|]. cbn [app starts_with_ch]. apply N.eqb_neq. unfold hex_digit in Hx. change (ch "{") with 123%N. lia. }
    assert (V : js_match_escape (bs "\u" ++ d ++ r) = if starts_with_ch (d ++ r) (ch "{") then match_common_escape_at hex_braced (bs "\u" ++ d ++ r) 2 else match_common_escape_at hex_4 (bs "\u" ++ d ++ r) (length (bs "\u"))) by reflexivity.
    rewrite V, B. rewrite (escape_at hex_4 (bs "\u") d r) by (apply (escape_hex hex_4 4); [auto|exact H]). rewrite app_length, Nat.add_comm. reflexivity.
  - split; [|exists 117%N, (bs "{" ++ d ++ bs "}"); repeat split; [discriminate|discriminate|]; change (bs "{") with [123%N]; change (bs "}") with [125%N]; apply Forall_app; split; [repeat constructor; cbn [In]; lia|]; apply Forall_app; split; [eapply Forall_impl; [|exact H]; exact H1|repeat constructor; cbn [In]; lia]].
    set (w := bs "{" ++ d ++ bs "}"). change (bs "\u{" ++ d ++ bs "}") with (bs "\u" ++ w). rewrite <- app_assoc.
    assert (V : js_match_escape (bs "\u" ++ w ++ r) = match_common_escape_at hex_braced (bs "\u" ++ w ++ r) (length (bs "\u"))) by reflexivity.
    rewrite V. rewrite (escape_at hex_braced (bs "\u") w r); [rewrite app_length, Nat.add_comm; reflexivity|].
    unfold w. change (bs "{") with [123%N]. change (bs "}") with [125%N]. cbn [match_common_escape]. unfold match_common_braced_escape. cbn [app starts_with_ch N.eqb Pos.eqb negb]. rewrite <- app_assoc. cbn [app].
    assert (Nd : ~ In 125%N d) by (intros K; rewrite Forall_forall in H; specialize (H _ K); unfold hex_digit in H; lia).
    assert (LB : length_before (123%N :: d ++ 125%N :: r) 125 1 = length d + 1) by (unfold length_before; rewrite find_close by exact Nd; reflexivity).
    rewrite LB. replace (length d + 1 - 1) with (length d) by lia.
    assert (Sb : substr (123%N :: d ++ 125%N :: r) 1 (length d) = d) by (unfold substr; cbn [skipn]; apply firstn_app_exact).
    rewrite Sb, forallb_all by (apply hex_all; exact H). assert (Ld : 0 < length d) by (destruct d; [congruence|cbn; lia]).
    rewrite (proj2 (Nat.leb_gt (length d + 1) 1)) by lia. cbn [negb orb].
    rewrite (proj2 (Nat.eqb_neq (length d + 1) _)) by (cbn [length]; rewrite app_length; cbn [length]; lia).
    assert (En : nth (length d + 1) (123%N :: d ++ 125%N :: r) 0%N = 125%N) by (rewrite Nat.add_comm; cbn [Nat.add nth]; apply nth_middle).
    rewrite En. cbn [N.eqb Pos.eqb negb orb]. f_equal. cbn [length]. rewrite app_length. cbn [length]. lia.
Qed.
End token.
