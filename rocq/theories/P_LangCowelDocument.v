(** * The COWEL highlighter: exact tokens of documents *)
From Coq Require Import List NArith ZArith Bool Arith Lia.
From Verif Require Import M_Base L_Base S_Tokens M_Utf8 L_Utf8 L_Any P_Utf8 M_Emit S_Ops L_Emit M_Types M_Chars S_Chars P_Chars M_Parse S_Parse L_Parse P_Parse
  M_Api M_Highlighter S_Highlight L_Highlighter P_LangCpp L_Auto S_Json L_JsonText S_Lexemes L_Lexemes L_Number L_Number2 L_Scan L_Comments L_Does M_LangCowel S_LangCowel P_LangCowel P_LangCowelLexemes.
Import ListNotations.

Lemma text_nil : text [] = []. Proof. reflexivity. Qed.
Ltac norm := repeat (rewrite text_app || rewrite text_cons); rewrite ?text_nil, ?app_nil_r, <- ?app_assoc.
Ltac norm_in H := repeat (rewrite text_app in H || rewrite text_cons in H); rewrite ?text_nil, ?app_nil_r, <- ?app_assoc in H.
(** ** First characters *)
Definition expression_char (c : N) : Prop := ident_start c \/ digit c \/ In c [46; 34; 123; 40; 45]%N.
Definition member_char (c : N) : Prop := expression_char c \/ operator_char c.
Lemma member_char_not c : member_char c -> ~ cowel_space c /\ c <> 92%N /\ ~ In c [41; 44; 125]%N.
Proof.
  unfold member_char, expression_char, operator_char, cowel_space, cowel_horizontal, cowel_newline, ident_start, letter, digit. change (bs "=|&!<>+-*/%~") with [61; 124; 38; 33; 60; 62; 43; 45; 42; 47; 37; 126]%N. cbn [In]. lia.
Qed.
Lemma solid_cons c t : ~ cowel_space c -> c <> 92%N -> cowel_solid (c :: t).
Proof. intros H1 H2. split; [apply not_before_cons; exact H1|]. intros x u [= E _]. congruence. Qed.
Lemma solid_member c t : member_char c -> cowel_solid (c :: t).
Proof. intros H. destruct (member_char_not c H) as (H1 & H2 & _). apply solid_cons; assumption. Qed.
Lemma identifier_head n : identifier n -> exists c t, n = c :: t /\ ident_start c.
Proof. intros (c & t & -> & H & _). eauto. Qed.
Lemma expression_head e rest : cowel_expression e rest -> exists c t, text e = c :: t /\ expression_char c.
Proof.
  intros H. destruct H as [n b1 a b2 b rest H _ _ _ _ _ _|w h rest H _ _ _|b n rest _ _ _ _|rest _|n rest H _ _|c rest _|b rest H|g rest H]; norm.
  - destruct (identifier_head n H) as (c & t & -> & Hc). eexists c, _. split; [reflexivity|left; exact Hc].
  - destruct (identifier_head w H) as (c & t & -> & Hc). eexists c, _. split; [reflexivity|left; exact Hc].
  - eexists _, _. split; [reflexivity|]. left. left. unfold letter. vm_compute. intuition congruence.
  - eexists _, _. split; [reflexivity|]. right. right. cbn. tauto.
  - destruct (number_head n H) as (c & t & -> & [Hc| ->]); eexists _, t; (split; [reflexivity|]); [right; left; exact Hc|right; right; cbn; tauto].
  - eexists _, _. split; [reflexivity|]. right. right. cbn. tauto.
  - destruct H as [c rest _]. norm. eexists _, _. split; [reflexivity|]. right. right. cbn. tauto.
  - destruct H as [b m rest _ _]. norm. eexists _, _. split; [reflexivity|]. right. right. cbn. tauto.
Qed.
Lemma member_head e rest : cowel_member e rest -> exists c t, text e = c :: t /\ member_char c.
Proof.
  intros H. destruct H as [n b1 b2 e rest H _ _ _|c b1 b2 e rest _ _ _ _|rest|e rest H _|p rest H]; norm.
  - destruct (identifier_head n H) as (c & t & -> & Hc). eexists c, _. split; [reflexivity|left; left; exact Hc].
  - eexists _, _. split; [reflexivity|]. left. right. right. cbn. tauto.
  - eexists _, _. split; [reflexivity|]. left. right. right. cbn. tauto.
  - destruct (expression_head e rest H) as (c & t & -> & Hc). eexists c, t. split; [reflexivity|left; exact Hc].
  - destruct (operator_head p rest H) as (c & t & -> & Hc). eexists c, t. split; [reflexivity|right; exact Hc].
Qed.
Lemma members_head m rest : cowel_members m rest -> exists c t, text m = c :: t /\ (member_char c \/ c = 41%N \/ c = 44%N).
Proof.
  intros H. destruct H as [rest|b m rest _ _|p b m rest H _ _]; norm.
  - eexists _, _. split; [reflexivity|]. auto.
  - eexists _, _. split; [reflexivity|]. auto.
  - destruct (member_head p _ H) as (c & t & -> & Hc). eexists c, _. split; [reflexivity|auto].
Qed.
Lemma operation_head p rest : cowel_operation p rest -> exists c t, text p = c :: t /\ (operator_char c \/ c = 41%N).
Proof.
  intros H. destruct H as [rest|p b s rest H _ _]; norm.
  - eexists _, _. split; [reflexivity|]. auto.
  - destruct (operator_head p _ H) as (c & t & -> & Hc). eexists c, _. split; [reflexivity|auto].
Qed.
Lemma operand_head p rest : cowel_operand p rest -> exists c t, text p = c :: t /\ (member_char c \/ c = 41%N).
Proof.
  intros H. destruct H as [p rest H|e b p rest H _ _]; norm.
  - destruct (operation_head p _ H) as (c & t & -> & [Hc|Hc]); eexists c, _; (split; [reflexivity|]); [left; right; exact Hc|right; exact Hc].
  - destruct (expression_head e _ H) as (c & t & -> & Hc). eexists c, _. split; [reflexivity|left; left; exact Hc].
Qed.
Lemma solid_close c t : member_char c \/ c = 41%N \/ c = 44%N -> cowel_solid (c :: t).
Proof. intros [H|[-> | ->]]; [apply solid_member; exact H| |]; (apply solid_cons; [unfold cowel_space, cowel_horizontal, cowel_newline; cbn; intuition discriminate|discriminate]). Qed.
Lemma members_solid m rest : cowel_members m rest -> cowel_solid (text m ++ rest).
Proof. intros H. destruct (members_head m rest H) as (c & t & -> & Hc). apply solid_close. exact Hc. Qed.
Lemma operand_solid m rest : cowel_operand m rest -> cowel_solid (text m ++ rest).
Proof. intros H. destruct (operand_head m rest H) as (c & t & -> & [Hc|Hc]); apply solid_close; auto. Qed.
Lemma operation_solid m rest : cowel_operation m rest -> cowel_solid (text m ++ rest).
Proof. intros H. destruct (operation_head m rest H) as (c & t & -> & [Hc|Hc]); apply solid_close; [left; right; exact Hc|auto]. Qed.
Lemma expression_solid m rest : cowel_expression m rest -> cowel_solid (text m ++ rest).
Proof. intros H. destruct (expression_head m rest H) as (c & t & -> & Hc). apply solid_member. left. exact Hc. Qed.
Lemma blanks_weaken (d d' : N -> Prop) l rest : (forall c, d c -> d' c) -> cowel_blanks d l rest -> cowel_blanks d' l rest.
Proof. intros W H. induction H; constructor; auto. eapply Forall_impl; [|eassumption]. exact W. Qed.
(** A blank does not begin with a character of an identifier. *)
Lemma blanks_before (d p : N -> Prop) l rest : ~ p 92%N -> (forall c, d c -> ~ p c) -> cowel_blanks d l rest -> not_before p rest -> not_before p (text l ++ rest).
Proof.
  intros P92 W H R. induction H as [rest|w l rest Hw H IH|c l rest Hc H IH]; [exact R| |].
  - norm. destruct Hw as [|x w Hx _]; [apply IH; exact R|]. apply not_before_cons. apply W. exact Hx.
  - destruct (comment_head _ _ Hc) as (x & t & Et & _). norm. rewrite Et. apply not_before_cons. exact P92.
Qed.
Lemma space_not_ident c : cowel_space c -> ~ ident_char c.
Proof. unfold cowel_space, cowel_horizontal, cowel_newline, ident_char, letter, digit. cbn [In]. lia. Qed.
Lemma blank_before l rest : cowel_blank l rest -> not_before ident_char rest -> not_before ident_char (text l ++ rest).
Proof. apply blanks_before; [unfold ident_char, letter, digit; lia|exact space_not_ident]. Qed.

(** ** Quoted member names *)
Definition quoted_content (k : cowel_context) : Prop := k = in_quotes \/ k = in_member_name.
Lemma quoted_plain k n w m : quoted_content k -> cowel_plain k n w m -> Forall no_quote w.
Proof.
  intros Q H. induction H as [k n|k n c w m H1 H2 H3 H IH|n w m H IH|n w m H IH]; [constructor| | |].
  - constructor; [split; [apply H3; exact Q|exact H1]|]. apply IH. exact Q.
  - destruct Q; discriminate.
  - destruct Q; discriminate.
Qed.
Lemma quoted_skip w : Forall no_quote w -> forall fuel s len, length (w ++ s) <= fuel -> exists fuel', length s <= fuel' /\ cowel_quoted_loop fuel (w ++ s) len = cowel_quoted_loop fuel' s (len + length w).
Proof.
  intros F. induction F as [|c w [H1 H2] F IH]; intros fuel s len L.
  - exists fuel. split; [exact L|]. cbn [app length]. rewrite Nat.add_0_r. reflexivity.
  - destruct fuel as [|fuel]; [cbn in L; lia|]. destruct (IH fuel s (len + 1)) as (f & Lf & E); [cbn [app length] in L; lia|]. exists f. split; [exact Lf|]. cbn [app]. rewrite (quoted_step fuel _ len c) by reflexivity. cbv zeta.
    rewrite (proj2 (N.eqb_neq c 34)), (proj2 (N.eqb_neq c 92)) by assumption. cbn [skipn]. rewrite E. cbn [length]. f_equal. lia.
Qed.
Lemma item_head p rest : cowel_item p rest -> exists c t, text p = 92%N :: c :: t /\ (ident_start c \/ c = 40%N \/ c = 32%N).
Proof.
  intros [n a b r H _ _ _|b s r _ _|l r _]; norm.
  - destruct (identifier_head n H) as (c & t & -> & Hc). eexists c, _. split; [reflexivity|auto].
  - eexists _, _. split; [reflexivity|auto].
  - eexists _, _. split; [reflexivity|auto].
Qed.
Lemma item_no_escape c t : ident_start c \/ c = 40%N \/ c = 32%N -> cowel_match_escape (92%N :: c :: t) = Ok (mk_cowel_escape 0 false).
Proof.
  intros H. apply no_escape_after.
  - unfold is_cowel_escapeable. destruct (mem c _) eqn:E; [|reflexivity]. apply mem_In in E. unfold ident_start, letter in H. cbn [In] in E. lia.
  - unfold is_ascii. unfold ident_start, letter in H. first [apply N.leb_le|apply N.ltb_lt]; lia.
  - unfold is_cowel_ascii_reserved_escapable. destruct H as [H|[-> | ->]]; [|reflexivity|reflexivity]. rewrite (proj2 (start_iff c) H). cbn [negb]. rewrite andb_false_r. reflexivity.
Qed.
Lemma item_no_comment c t : ident_start c \/ c = 40%N \/ c = 32%N -> no_comment (92%N :: c :: t).
Proof. intros H x u [= <- <-] X. change (bs ":*") with [58; 42]%N in X. unfold ident_start, letter in H. cbn [In] in X. lia. Qed.
Lemma comment_no_escape p rest : cowel_comment p rest -> cowel_match_escape (text p ++ rest) = Ok (mk_cowel_escape 0 false).
Proof. intros H. destruct (comment_head _ _ H) as (c & t & -> & Hc). cbn [app]. destruct Hc as [<-|[<-|[]]]; reflexivity. Qed.
Lemma split_newlines (w : str) : forall u v l : str, w ++ l = u ++ v -> (exists w', w = u ++ w' /\ v = w' ++ l) \/ (exists u', u = w ++ u' /\ l = u' ++ v).
Proof.
  induction w as [|c w IH]; intros u v l E.
  - right. exists u. auto.
  - destruct u as [|x u]; [left; exists (c :: w); auto|]. injection E as <- E. destruct (IH u v l E) as [(w' & -> & ->)|(u' & -> & ->)]; [left; exists w'; auto|right; exists u'; auto].
Qed.
(** An escaped line break *)
Lemma newline_escape s : begins cowel_newline s -> exists u v, s = u ++ v /\ Forall cowel_newline u /\ cowel_match_escape (92%N :: s) = Ok (mk_cowel_escape (1 + length u) false).
Proof.
  intros (c & t & -> & Hc). destruct Hc as [<-|[<-|[]]].
  - exists [10%N], t. split; [reflexivity|]. split; [repeat constructor|reflexivity].
  - destruct t as [|x t]; [exists [13%N], []; split; [reflexivity|]; split; [constructor; [right; left; reflexivity|constructor]|reflexivity]|].
    destruct (N.eq_dec x 10) as [->|Nx].
    + exists [13; 10]%N, t. split; [reflexivity|]. split; [constructor; [right; left; reflexivity|constructor; [left; reflexivity|constructor]]|reflexivity].
    + exists [13%N], (x :: t). split; [reflexivity|]. split; [constructor; [right; left; reflexivity|constructor]|]. cbn [cowel_match_escape]. change (starts_with (92%N :: 13%N :: x :: t) [92; 13; 10]%N) with ((x =? 10)%N && starts_with t []). rewrite (proj2 (N.eqb_neq x 10)) by exact Nx. reflexivity.
Qed.
Lemma newline_prefix u v w r : Forall cowel_newline u -> u ++ v = w ++ 34%N :: r -> exists w', w = u ++ w' /\ v = w' ++ 34%N :: r.
Proof.
  intros F E. destruct (split_newlines u w (34%N :: r) v E) as [(w' & -> & H)|(u' & -> & H)]; [|eauto]. destruct w' as [|x w']; [exists []; rewrite !app_nil_r; split; [reflexivity|]; symmetry; exact H|].
  exfalso. injection H as <- _. apply Forall_app in F as [_ F]. inversion F; subst. unfold cowel_newline in *. cbn in *. intuition discriminate.
Qed.
Lemma quoted_exact k n c r rest : cowel_content k n c r -> quoted_content k -> r = 34%N :: rest -> forall u v fuel len, text c = u ++ v -> Forall cowel_newline u -> length (v ++ 34%N :: rest) <= fuel ->
  cowel_quoted_loop fuel (v ++ 34%N :: rest) len = Ok (len + length v + 1) \/ k = in_quotes /\ cowel_quoted_loop fuel (v ++ 34%N :: rest) len = Ok 0.
Proof.
  intros H Q. induction H as [k r _|k n w m l r _ Hw Hl H IH|k n p l r Hp H IH|k n p l r Hp H IH|k n p l r Nk Hp H IH]; intros -> u v fuel len E F L.
  - symmetry in E. apply app_eq_nil in E as [-> ->]. left. destruct fuel; [cbn in L; lia|]. cbn. f_equal. lia.
  - rewrite text_cons in E. destruct (split_newlines w u v (text l) E) as [(w' & -> & ->)|(u' & -> & E')].
    + assert (Fw : Forall no_quote w') by (pose proof (quoted_plain k n _ m Q Hw) as X; apply Forall_app in X; apply X). rewrite <- app_assoc in *. destruct (quoted_skip w' Fw fuel _ len L) as (f & Lf & ->).
      destruct (IH Q eq_refl [] (text l) f (len + length w') eq_refl (Forall_nil _) Lf) as [X|[Ek X]]; [left|right; split; [exact Ek|exact X]]. rewrite X, app_length. f_equal. lia.
    + apply Forall_app in F as [_ F]. apply (IH Q eq_refl u' v fuel len E' F L).
  - destruct (escape_head p _ Hp) as (t & Et). assert (u = []) as ->. { destruct u as [|x u]; [reflexivity|]. rewrite text_app, Et in E. injection E as <- _. inversion F; subst. unfold cowel_newline in *. cbn in *. intuition discriminate. }
    cbn [app] in E. rewrite <- E in *. clear E v. rewrite text_app, <- app_assoc in *. destruct fuel as [|fuel]; [rewrite Et in L; cbn in L; lia|].
    rewrite (quoted_step fuel _ len 92%N) by (rewrite Et; reflexivity). cbv zeta. change (92 =? 34)%N with false. change (92 =? 92)%N with true. cbv iota.
    assert (K : exists a v, text p ++ text l ++ 34%N :: rest = text p ++ a ++ v ++ 34%N :: rest /\ text l = a ++ v /\ Forall cowel_newline a /\ cowel_match_escape (text p ++ text l ++ 34%N :: rest) = Ok (mk_cowel_escape (length (text p) + length a) false)).
    { remember (text l ++ 34%N :: rest) as r eqn:Er. destruct Hp as [c r Hc|r Hr|d r Hd Ld|w r H0 H1 H2 H3].
      - destruct (escape_match _ r (escape_char c r Hc)) as (j & E & _ & [(-> & _)|[X _]]); [|discriminate]. exists [], (text l). cbn [app length]. rewrite Nat.add_0_r, <- Er. repeat split; [constructor|exact E].
      - destruct (newline_escape r Hr) as (a & v & -> & Fa & E). destruct (newline_prefix a v (text l) rest Fa Er) as (v' & El & ->). exists a, v'. rewrite !text_one in *. repeat split; [exact El|exact Fa|]. exact E.
      - destruct (escape_match _ r (escape_hex d r Hd Ld)) as (j & E & _ & [(-> & _)|[X _]]); [|discriminate X]. exists [], (text l). cbn [app length]. rewrite Nat.add_0_r, <- Er. repeat split; [constructor|exact E].
      - destruct (escape_match _ r (escape_named w r H0 H1 H2 H3)) as (j & E & _ & [(-> & _)|[X _]]); [|discriminate X]. exists [], (text l). cbn [app length]. rewrite Nat.add_0_r, <- Er. repeat split; [constructor|exact E]. }
    destruct K as (a & v & Ea & El & Fa & Em). rewrite Em. cbn [bind ce_length]. assert (Lp : length (text p) <> 0) by (rewrite Et; discriminate). rewrite (proj2 (Nat.eqb_neq _ 0)) by lia. cbn [negb].
    rewrite Ea. rewrite app_assoc. rewrite <- app_length. rewrite skipn_app_exact.
    assert (Lv : length (v ++ 34%N :: rest) <= fuel). { rewrite Ea in L. rewrite !app_length in *. cbn [length] in *. lia. }
    destruct (IH Q eq_refl a v fuel (len + length (text p ++ a)) El Fa Lv) as [X|[Ek X]]; [left|right; split; [exact Ek|exact X]]. rewrite X. f_equal. rewrite El, !app_length. lia.
  - destruct (comment_head p _ Hp) as (x & t & Et & Hx). assert (u = []) as ->. { destruct u as [|y u]; [reflexivity|]. rewrite text_app, Et in E. injection E as <- _. inversion F; subst. unfold cowel_newline in *. cbn in *. intuition discriminate. }
    cbn [app] in E. rewrite <- E in *. clear E v. rewrite text_app, <- app_assoc in *. destruct fuel as [|fuel]; [rewrite Et in L; cbn in L; lia|].
    rewrite (quoted_step fuel _ len 92%N) by (rewrite Et; reflexivity). cbv zeta. change (92 =? 34)%N with false. change (92 =? 92)%N with true. cbv iota.
    rewrite (comment_no_escape p _ Hp). cbn [bind ce_length Nat.eqb negb].
    assert (Lv : length (text l ++ 34%N :: rest) <= fuel). { rewrite !app_length in *. rewrite Et in L. cbn [length] in *. lia. }
    assert (X : forall e, e = length (text p) -> cowel_quoted_loop fuel (skipn e (text p ++ text l ++ 34%N :: rest)) (len + e) = Ok (len + length (text p ++ text l) + 1) \/ k = in_quotes /\ cowel_quoted_loop fuel (skipn e (text p ++ text l ++ 34%N :: rest)) (len + e) = Ok 0).
    { intros e ->. rewrite skipn_app_exact. destruct (IH Q eq_refl [] (text l) fuel (len + length (text p)) eq_refl (Forall_nil _) Lv) as [X|[Ek X]]; [left|right; split; [exact Ek|exact X]]. rewrite X, app_length. f_equal. lia. }
    remember (text l ++ 34%N :: rest) as r eqn:Er. destruct Hp as [t' r Ht R|t' r Ht]; norm; norm_in X; rewrite ?opt_piece_text in *.
    + rewrite line_match by assumption. cbn [Nat.add Nat.eqb negb]. apply X. rewrite app_length. reflexivity.
    + rewrite no_line by (intros c0 t0 [= <- _]; discriminate). cbn [Nat.eqb negb]. rewrite block_match by assumption. cbn [en_length Nat.add Nat.eqb negb]. apply X. rewrite !app_length. cbn. lia.
  - destruct (item_head p _ Hp) as (x & t & Et & Hx). assert (u = []) as ->. { destruct u as [|y u]; [reflexivity|]. rewrite text_app, Et in E. injection E as <- _. inversion F; subst. unfold cowel_newline in *. cbn in *. intuition discriminate. }
    cbn [app] in E. rewrite <- E in *. clear E v. right. split; [destruct Q; [assumption|contradiction]|]. rewrite text_app, <- app_assoc in *. rewrite Et in *. cbn [app] in *. destruct fuel as [|fuel]; [cbn in L; lia|].
    rewrite (quoted_step fuel _ len 92%N) by reflexivity. cbv zeta. change (92 =? 34)%N with false. change (92 =? 92)%N with true. cbv iota. rewrite item_no_escape by exact Hx. cbn [bind ce_length Nat.eqb negb].
    pose proof (item_no_comment x (t ++ text l ++ 34%N :: rest) Hx) as NC. rewrite no_line, no_block; [reflexivity| |]; intros y z Ey ->; apply (NC _ _ Ey); [right; left; reflexivity|left; reflexivity].
Qed.

(** ** What does not match *)
Definition no_group (g : M unit bool) : Prop := forall s, not_before (fun c => c = 40%N) s -> does g tt [] s false tt.
Section steps.
Variable group : M unit bool.
Variable sequence : cowel_kind -> M unit unit.
Hypothesis NG : no_group group.
Lemma no_enclosed o c h k s : not_before (fun x => x = o) s -> does (cowel_expect_enclosed sequence o c h k) tt [] s false tt.
Proof.
  intros H. unfold cowel_expect_enclosed. apply does_get. cbn [text map concat app]. replace (starts_with_ch s o) with false; [apply does_ret|]. symmetry. destruct s as [|x s]; [reflexivity|]. apply starts_ch_ne. apply (H x eq_refl).
Qed.
Lemma no_call s : not_before ident_start s -> does (cowel_expect_directive_call group sequence) tt [] s false tt.
Proof. intros H. unfold cowel_expect_directive_call. apply does_get. cbv zeta. cbn [text map concat app]. rewrite no_identifier by exact H. apply does_ret. Qed.
Lemma no_word s : not_before ident_start s -> (forall r, s <> bs "-infinity" ++ r) -> does cowel_expect_identifier_like tt [] s false tt.
Proof.
  intros H HI. unfold cowel_expect_identifier_like. apply does_get. cbv zeta. cbn [text map concat app]. destruct (starts_with_ch s (ch "-")).
  - destruct (str_eqb _ _) eqn:E; [|apply does_ret]. apply str_eqb_eq in E. elim (HI (skipn (cowel_match_identifier (skipn 1 s) + 1) s)). rewrite <- E. symmetry. apply firstn_skipn.
  - rewrite no_identifier by exact H. apply does_ret.
Qed.
Definition free_char (c : N) : Prop := ~ (ident_start c \/ digit c \/ In c [46; 34; 123; 40]%N).
Lemma no_expression s : not_before (fun c => ~ free_char c) s -> (forall r, s <> bs "-infinity" ++ r) -> does (cowel_expect_expression group sequence) tt [] s false tt.
Proof.
  intros H HI. assert (K : forall p : N -> Prop, (forall c, p c -> ident_start c \/ digit c \/ In c [46; 34; 123; 40]%N) -> not_before p s).
  { intros p Hp. eapply not_before_impl; [|exact H]. intros c Hc X. apply X. apply Hp. exact Hc. }
  unfold cowel_expect_expression. skip_ no_call; [apply K; tauto|]. skip_ no_word; [apply K; tauto|exact HI|]. skip_ no_number; [apply K|].
  { intros c Hc. unfold number_char, letter, digit in Hc. unfold ident_start, letter, digit. change (ch ".") with 46%N in Hc. cbn [In]. lia. }
  skip_ no_enclosed; [apply K; cbn [In]; intuition congruence|]. skip_ no_enclosed; [apply K; change (ch "{") with 123%N; cbn [In]; intuition congruence|]. apply NG. apply K. cbn [In]. intuition congruence.
Qed.
Lemma no_ellipsis s : not_before (fun c => c = 46%N) s -> does cowel_expect_ellipsis tt [] s false tt.
Proof.
  intros H. unfold cowel_expect_ellipsis. apply does_get. cbv zeta. cbn [text map concat app]. unfold cowel_match_ellipsis. destruct (starts_with s (bs "...")) eqn:E; [|apply does_ret]. apply starts_with_app in E as [t ->]. elim (H 46%N eq_refl). reflexivity.
Qed.
(** Nothing that looks like a named member *)
Definition unnamed (s : str) : Prop := cowel_match_identifier s = 0 /\ cowel_match_quoted_member_name s = Ok 0
  \/ exists n b t, s = n ++ text b ++ t /\ n <> [] /\ (cowel_match_identifier s = length n \/ cowel_match_identifier s = 0 /\ cowel_match_quoted_member_name s = Ok (length n))
     /\ cowel_blank b t /\ cowel_solid t /\ (forall u, t = ch "=" :: u -> begins (fun c => c = ch "=") u).
Lemma does_unnamed p rest x : unnamed (text p ++ rest) -> does (cowel_expect_other_member group sequence) tt p rest x tt -> does (cowel_expect_group_member group sequence) tt p rest x tt.
Proof.
  intros U D. unfold cowel_expect_group_member. apply does_get. cbv zeta. destruct U as [[U1 U2]|(n & b & t & Es & N0 & U & B & So & E)].
  - rewrite U1. cbn [Nat.eqb negb]. eapply does_nil; [intros i o; eapply wp_lift; [exact U2|]; cbn [text map concat length tokens rev app]; rewrite Nat.add_0_r; split; reflexivity|]. cbn [Nat.eqb negb]. exact D.
  - assert (K : does (if negb (cowel_match_identifier (text p ++ rest) =? 0) then ret (cowel_match_identifier (text p ++ rest)) else lift (cowel_match_quoted_member_name (text p ++ rest))) tt [] (text p ++ rest) (length n) tt).
    { destruct U as [-> |[-> U2]].
      - destruct n; [congruence|]. cbn [length Nat.eqb negb]. apply does_ret.
      - cbn [Nat.eqb negb]. intros i o. eapply wp_lift; [exact U2|]. cbn [text map concat length tokens rev app]; rewrite Nat.add_0_r; split; reflexivity. }
    eapply does_nil; [exact K|]. clear K. destruct n as [|c n]; [congruence|]. cbn [length Nat.eqb negb]. change (S (length n)) with (length (c :: n)). rewrite Es at 1.
    apply does_substr; [rewrite !app_length; cbn [length]; lia|]. rewrite skipn_app_exact. eapply does_lift; [apply blank_match; assumption|]. apply does_substr; [rewrite Es, !app_length; cbn [length]; lia|].
    rewrite Es. rewrite app_assoc, <- app_length, skipn_app_exact. replace (starts_with_ch t (ch "=") && _) with false; [exact D|]. symmetry. destruct t as [|y t]; [reflexivity|]. cbn [starts_with_ch]. destruct (N.eqb_spec y (ch "=")) as [->|]; [|reflexivity].
    destruct (E t eq_refl) as (z & u & -> & ->). reflexivity.
Qed.
Lemma no_quoted_name s : not_before (fun c => c = 34%N) s -> cowel_match_quoted_member_name s = Ok 0.
Proof. intros H. unfold cowel_match_quoted_member_name. destruct s as [|c s]; [reflexivity|]. rewrite starts_ch_ne; [reflexivity|]. apply (H c eq_refl). Qed.
Lemma unnamed_char c t : ~ ident_start c -> c <> 34%N -> unnamed (c :: t).
Proof. intros H1 H2. left. split; [apply no_identifier, not_before_cons; exact H1|apply no_quoted_name, not_before_cons; exact H2]. Qed.
Lemma skip_space p rest {A} (k : unit -> M unit A) x : not_before cowel_space (text p ++ rest) -> does (k tt) tt p rest x tt ->
  does (let! r := get_rem in let n := cowel_match_whitespace r in bindM (when (negb (n =? 0)) (advance n)) k) tt p rest x tt.
Proof.
  intros H D. apply does_get. cbv zeta. replace (cowel_match_whitespace (text p ++ rest)) with 0; [|symmetry; apply (length_if_exact is_html_whitespace cowel_space []); [exact space_iff|constructor|exact H]]. cbn [Nat.eqb negb when]. eapply does_nil; [apply does_ret|exact D].
Qed.
Lemma does_other_expression p rest : cowel_expression p rest -> does (cowel_expect_expression group sequence) tt p rest true tt -> (forall t, text p ++ rest <> bs "..." ++ t) -> does (cowel_expect_other_member group sequence) tt p rest true tt.
Proof.
  intros H D E. unfold cowel_expect_other_member. apply (skip_space p rest (fun _ => _)); [apply (expression_solid p rest H)|]. assert (X : does cowel_expect_ellipsis tt [] (text p ++ rest) false tt).
  { unfold cowel_expect_ellipsis. apply does_get. cbv zeta. cbn [text map concat app]. unfold cowel_match_ellipsis. destruct (starts_with _ _) eqn:X; [|apply does_ret]. apply starts_with_app in X as [t X]. elim (E t X). }
  eapply does_nil; [exact X|]. cbv iota. eapply does_last; [exact D|apply does_ret].
Qed.
(** No member at a comma or parenthesis *)
Lemma no_member c t : c = 41%N \/ c = 44%N -> does (cowel_expect_group_member group sequence) tt [] (c :: t) false tt.
Proof.
  intros H. assert (F : free_char c) by (unfold free_char, ident_start, letter, digit; cbn [In]; lia).
  apply does_unnamed; [apply unnamed_char; [intros X; apply F; auto|lia]|]. unfold cowel_expect_other_member. apply (skip_space [] (c :: t) (fun _ => _)); [apply not_before_cons; unfold cowel_space, cowel_horizontal, cowel_newline; cbn [In]; lia|].
  skip_ no_ellipsis; [apply not_before_cons; lia|]. skip_ no_expression; [apply not_before_cons; tauto|intros r [= -> _]; destruct H; discriminate|]. unfold cowel_expect_member_token. apply does_get. cbn [text map concat app]. destruct H as [-> | ->]; apply does_ret.
Qed.
Lemma operator_free p rest : cowel_operator p rest -> not_before (fun c => ~ free_char c) (text p ++ rest) /\ (forall r, text p ++ rest <> bs "-infinity" ++ r).
Proof.
  intros H. split.
  - destruct (operator_head p rest H) as (c & t & -> & Hc). apply not_before_cons. intros X. apply X. unfold free_char, operator_char, ident_start, letter, digit in *. change (bs "=|&!<>+-*/%~") with [61; 124; 38; 33; 60; 62; 43; 45; 42; 47; 37; 126]%N in Hc. cbn [In] in *. lia.
  - intros r E. destruct H as [t h rest H _ L]. norm_in E. cbn [cowel_operators map In] in H. repeat (destruct H as [H|H]; [injection H as <- <-; try discriminate E|]); [|contradiction]. apply (L eq_refl r). injection E as E. exact E.
Qed.
Lemma does_operator_member p rest : cowel_operator p rest -> does (cowel_expect_group_member group sequence) tt p rest true tt.
Proof.
  intros H. destruct (operator_free p rest H) as [F FI]. destruct (operator_head p rest H) as (c & t & Et & Hc). assert (Fc : free_char c) by (rewrite Et in F; intros X; apply (F c eq_refl); intros Y; exact (Y X)).
  apply does_unnamed; [rewrite Et; apply unnamed_char; [intros X; apply Fc; auto|intros ->; apply Fc; cbn; auto]|]. unfold cowel_expect_other_member. apply (skip_space p rest (fun _ => _)); [rewrite Et; apply (proj1 (solid_member c (t ++ rest) (or_intror Hc)))|].
  skip_ no_ellipsis; [eapply not_before_impl; [|exact F]; intros x -> X; apply X; cbn; auto|]. skip_ no_expression; [exact F|exact FI|]. apply does_operator. exact H.
Qed.

(** ** Words and calls *)
Lemma word_rest w rest : identifier w -> not_before ident_char rest -> after_blank (not_before (fun c => In c (bs "({"))) rest -> does (cowel_expect_directive_call group sequence) tt [] (w ++ rest) false tt.
Proof.
  intros H R (b & t & -> & B & So & N1). unfold cowel_expect_directive_call. apply does_get. cbv zeta. cbn [text map concat app]. rewrite identifier_exact by assumption. destruct (identifier_head w H) as (c & u & Ew & _). rewrite Ew at 1. cbn [length Nat.eqb].
  rewrite skipn_app_exact. eapply does_lift; [apply blank_match; assumption|]. rewrite !app_length. destruct (Nat.leb_spec (length w + (length (text b) + length t)) (length w + length (text b))) as [|L]; [apply does_ret|].
  destruct t as [|y t]; [cbn in L; lia|]. eapply does_at; [rewrite app_assoc, <- app_length, nth_error_app2, Nat.sub_diag by lia; reflexivity|]. specialize (N1 y eq_refl). cbn beta in N1. change (bs "({") with [ch "("; ch "{"] in N1. cbn [In] in N1.
  rewrite (proj2 (N.eqb_neq y (ch "("))), (proj2 (N.eqb_neq y (ch "{"))) by intuition congruence. apply does_ret.
Qed.
Lemma str_eqb_refl' s : str_eqb s s = true. Proof. apply str_eqb_eq. reflexivity. Qed.
Lemma str_eqb_ne s t : s <> t -> str_eqb s t = false. Proof. intros H. destruct (str_eqb s t) eqn:E; [apply str_eqb_eq in E; contradiction|reflexivity]. Qed.
Lemma ident_start_facts c : ident_start c -> c <> ch "-" /\ is_ascii_digit c = false.
Proof. intros H. unfold ident_start, letter in H. change (ch "-") with 45%N. split; [lia|]. unfold is_ascii_digit, between. apply andb_false_iff. rewrite !N.leb_gt. lia. Qed.
Lemma does_word w h rest : identifier w -> cowel_word w h -> not_before ident_char rest -> does cowel_expect_identifier_like tt [(w, Some h)] rest true tt.
Proof.
  intros H W R. destruct (identifier_head w H) as (c & u & Ew & Hc). destruct (ident_start_facts c Hc) as [F1 F2]. unfold cowel_expect_identifier_like. apply does_get. cbv zeta. rewrite text_one, identifier_exact by assumption. rewrite Ew at 1. cbn [app]. rewrite starts_ch_ne by exact F1.
  rewrite Ew at 1. cbn [length Nat.eqb]. rewrite firstn_app_exact. eapply does_at; [rewrite Ew; reflexivity|]. apply does_check; [rewrite F2; reflexivity|]. eapply does_last; [|apply does_ret].
  destruct W as [W|(-> & W1 & W2)].
  - clear Ew F1 F2 Hc H R. cbn [cowel_words In] in W. repeat (destruct W as [W|W]; [injection W as <- <-|]); [..|contradiction];
      match goal with |- context [existsb ?f ?l] => let v := eval vm_compute in (existsb f l) in change (existsb f l) with v end; cbv iota;
      repeat match goal with |- context [str_eqb ?a ?b] => let v := eval vm_compute in (str_eqb a b) in change (str_eqb a b) with v end; cbv iota; cbn [when];
      first [apply does_emit; [reflexivity|discriminate]|eapply does_last; [apply does_emit; [reflexivity|discriminate]|apply does_ret]].
  - cbn [cowel_words map fst In] in W2. cbn [existsb]. rewrite !(str_eqb_ne w) by (intros ->; tauto). cbn [orb]. apply does_emit; [reflexivity|]. rewrite Ew. discriminate.
Qed.
Lemma does_fun b n rest : cowel_blanks cowel_horizontal b (n ++ rest) -> text b <> [] -> identifier n -> not_before ident_char rest ->
  does cowel_expect_identifier_like tt ((bs "fun", Some hl_keyword) :: b ++ [(n, Some hl_name_function_decl)]) rest true tt.
Proof.
  intros B N0 H R. destruct (identifier_head n H) as (c & u & En & Hc).
  assert (St : stops cowel_horizontal (n ++ rest)) by (rewrite En; split; [apply not_before_cons; unfold cowel_horizontal, ident_start, letter in *; cbn [In]; lia|intros x t [= E _]; unfold ident_start, letter in Hc; lia]).
  assert (Rb : not_before ident_char (text b ++ n ++ rest)).
  { assert (W : cowel_blank b (n ++ rest)) by (eapply blanks_weaken; [|exact B]; left; assumption). clear St. remember (n ++ rest) as r eqn:Er. clear Er. clear -W N0. induction W as [rest|w l rest Hw W IH|c l rest Hc W IH]; [elim N0; reflexivity| |].
    - norm. destruct Hw as [|x w Hx _]; [apply IH; exact N0|]. apply not_before_cons. apply space_not_ident. exact Hx.
    - destruct (comment_head _ _ Hc) as (x & t & Et & _). norm. rewrite Et. apply not_before_cons. unfold ident_char, letter, digit. lia. }
  unfold cowel_expect_identifier_like. apply does_get. cbv zeta. norm. change (starts_with_ch (bs "fun" ++ text b ++ n ++ rest) (ch "-")) with false. cbv iota.
  rewrite (identifier_exact (bs "fun") (text b ++ n ++ rest)); [|exists 102%N, (bs "un"); split; [reflexivity|]; split; [left; right; vm_compute; intuition congruence|repeat (apply Forall_cons; [left; right; vm_compute; intuition congruence|]); constructor]|exact Rb].
  change (length (bs "fun")) with 3. cbn [Nat.eqb]. change (firstn 3 (bs "fun" ++ text b ++ n ++ rest)) with (bs "fun"). eapply does_at; [reflexivity|]. apply does_check; [reflexivity|]. eapply does_last; [|apply does_ret].
  change (existsb (str_eqb (bs "fun")) _) with true. cbv iota. eapply does_cons; [apply does_emit; [reflexivity|discriminate]|]. change (str_eqb (bs "fun") (bs "fun")) with true. cbn [when].
  eapply does_bind; [norm; apply (does_blanks is_horizontal_whitespace cowel_horizontal); [exact horizontal_iff|unfold cowel_horizontal; cbn; intuition discriminate|exact B|exact St]|].
  apply does_get. cbv zeta. rewrite text_one, identifier_exact by assumption. rewrite En at 1. cbn [length Nat.eqb negb when]. apply does_emit; [reflexivity|]. rewrite En. discriminate.
Qed.
Lemma fun_uncalled b n rest : cowel_blanks cowel_horizontal b (n ++ rest) -> identifier n -> after_blank (not_before (fun c => In c (bs "({"))) (text b ++ n ++ rest).
Proof.
  intros B H. destruct (identifier_head n H) as (c & u & En & Hc). exists b, (n ++ rest). split; [reflexivity|]. split; [eapply blanks_weaken; [|exact B]; left; assumption|]. rewrite En. split; [apply solid_member; left; left; exact Hc|].
  apply not_before_cons. change (bs "({") with [40; 123]%N. unfold ident_start, letter in Hc. cbn [In]. lia.
Qed.
Lemma does_minus_infinity rest : not_before ident_char rest -> does cowel_expect_identifier_like tt [(bs "-", Some hl_value_delim); (bs "infinity", Some hl_value)] rest true tt.
Proof.
  intros R. unfold cowel_expect_identifier_like. apply does_get. cbv zeta. norm. change (starts_with_ch (bs "-" ++ bs "infinity" ++ rest) (ch "-")) with true. cbv iota. change (skipn 1 (bs "-" ++ bs "infinity" ++ rest)) with (bs "infinity" ++ rest).
  rewrite identifier_exact; [|exists 105%N, (bs "nfinity"); split; [reflexivity|]; split; [left; right; vm_compute; intuition congruence|repeat (apply Forall_cons; [left; right; vm_compute; intuition congruence|]); constructor]|exact R].
  change (firstn (length (bs "infinity") + 1) (bs "-" ++ bs "infinity" ++ rest)) with (bs "-infinity"). change (str_eqb (bs "-infinity") (bs "-infinity")) with true. cbv iota.
  eapply does_cons; [apply does_emit; [reflexivity|discriminate]|]. eapply does_last; [apply does_emit; [reflexivity|discriminate]|apply does_ret].
Qed.
End steps.
