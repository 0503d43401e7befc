(** * Exact tokens of anchors, aliases, tags and some scalars in YAML documents *)
From Coq Require Import List NArith ZArith Bool Arith Lia.
From Verif Require Import M_Base L_Base S_Tokens M_Utf8 L_Utf8 P_Utf8 M_Emit S_Ops L_Emit M_Types M_Chars S_Chars P_Chars M_Parse S_Parse L_Parse P_Parse
  M_Api M_Highlighter S_Highlight L_Highlighter P_LangCpp L_Auto M_Lang M_LangYaml P_LangYaml S_Lexemes L_Lexemes L_Does L_Number L_Escapes L_Scan L_Comments S_LangYamlLexemes S_LangYamlBlock P_LangYamlLexemes P_LangYamlClaims P_LangYamlBlock.
Import ListNotations.

(** ** Specification *)
Definition name_char (c : N) : Prop := ~ In c ([13; 10; 9; 32]%N ++ bs ",[]{}#&*!").
Definition name_word (w : str) : Prop := w <> [] /\ Forall name_char w.
Definition delimiter (w : str) : piece := (w, Some hl_name_attr_delim).
Definition tag_name (w : str) : piece := (w, Some hl_name_attr).

(** ** Values with properties *)
Lemma does_nil_inv {S A B} (m : M S A) (k : A -> M S B) s q rest x s1 y s2 : does m s [] (text q ++ rest) x s1 -> does (bindM m k) s q rest y s2 -> does (k x) s1 q rest y s2.
Proof.
  intros H1 H2 i o. specialize (H1 i o). specialize (H2 i o). unfold wp, bindM in *. cbn [text map concat app length tokens rev] in H1. rewrite Nat.add_0_r in H1. change (concat (map fst q)) with (text q) in *. destruct (m _) as [[a st]|f]; [|contradiction]. destruct H1 as [-> ->]. exact H2.
Qed.
Lemma no_props s q rest c t : text q ++ rest = c :: t -> node_char c -> does yaml_properties s [] (text q ++ rest) tt s.
Proof.
  intros E H. unfold yaml_properties. apply does_stop. unfold yaml_properties_body. apply does_get. rewrite E. cbn [text map concat app starts_with_ch]. apply node_char_cases in H as [H _].
  rewrite (proj2 (N.eqb_neq c (ch "!"))) by (cbn; lia). cbv zeta. cbn [when]. eapply does_nil; [apply does_ret|]. apply does_get. cbn [text map concat app starts_with_ch]. rewrite (proj2 (N.eqb_neq c (ch "&"))) by (cbn; lia). cbn [when]. eapply does_nil; [apply does_ret|]. apply does_ret.
Qed.
(** A property of a value *)
Lemma does_property i s a p rest c t x u : text a = c :: t -> In c (bs "!&") -> text p = x :: u -> node_char x -> does (yaml_properties_body tt) s a (text p ++ rest) (inl tt) s -> (forall fuel, length (text p) < fuel -> does (yaml_flow_node fuel i false) s p rest tt s) -> does (yaml_flow i false) s (a ++ p) rest tt s.
Proof.
  intros Ea Hc Ep Hx Ha Hp. unfold yaml_flow. apply does_get. set (r := text (a ++ p) ++ rest). assert (Er : r = c :: t ++ text p ++ rest) by (unfold r; rewrite text_app, Ea, <- app_assoc; reflexivity).
  specialize (Hp (S (length r))). rewrite Nat.add_1_r. assert (L : length (text p) < S (length r)) by (rewrite Er; cbn [length]; rewrite !app_length; lia). specialize (Hp L). set (fuel := length r) in *. clearbody fuel. cbn [yaml_flow_node] in *.
  assert (F : fresh r) by (rewrite Er; cbn in Hc; destruct Hc as [<-|[<-|[]]]; apply fresh_char; try discriminate; reflexivity).
  apply does_no_space; [exact F|]. apply does_get. fold r. assert (X : (length r =? 0) || yaml_at_break r = false) by (rewrite Er; cbn in Hc; destruct Hc as [<-|[<-|[]]]; reflexivity). rewrite X.
  assert (Fp : fresh (text p ++ rest)) by (rewrite Ep; apply node_fresh; exact Hx).
  apply does_nil_inv with (x := tt) (s1 := s) in Hp; [|apply does_add; apply does_gap; [constructor|exact Fp]]. apply does_nil_inv with (x := text p ++ rest) (s1 := s) in Hp.
  2: { intros j o. unfold get_rem, wp. cbn. rewrite Nat.add_0_r. split; reflexivity. }
  assert (Y : (length (text p ++ rest) =? 0) || yaml_at_break (text p ++ rest) = false) by (rewrite Ep; cbn [app length Nat.eqb orb]; apply value_break; exact Hx). rewrite Y in Hp. apply does_nil_inv with (x := tt) (s1 := s) in Hp; [|eapply no_props; [rewrite Ep; reflexivity|exact Hx]].
  eapply does_bind; [|exact Hp]. unfold yaml_properties. rewrite <- (app_nil_r a). eapply does_unroll; [exact Ha|rewrite Ea; discriminate|]. eapply no_props; [rewrite Ep; reflexivity|exact Hx].
Qed.
(** A document of one line with a key and a value that begins with a property or is an alias *)
Lemma property_line k q c t : block_key k -> text q = c :: t -> In c (bs "!&*") -> does (yaml_flow 0 false) [] q [] tt [] -> tokenizes highlight_yaml (key_of k :: punctuation 58 :: skipped [32%N] :: q).
Proof.
  intros Hk E Hc H. destruct (key_head_char k Hk) as (x & u & Ek & Hx). eapply key_line; [unfold key_of; rewrite text_cons, Ek; reflexivity|left; exact Hx|]. intros node. eapply key_exact; [apply colon_key; [exact Hk|reflexivity]|apply trim_key; exact Hk|apply block_key_ne; exact Hk|].
  unfold after_colon, skipped. apply does_get. rewrite text_cons. cbn [app starts_with_ch N.eqb Pos.eqb when].
  apply does_cons with (x := tt) (s1 := []); [apply does_advance; reflexivity|].
  assert (F : fresh (text q ++ [])). { rewrite E. cbn [app]. cbn in Hc. destruct Hc as [<-|[<-|[<-|[]]]]; apply fresh_char; try discriminate; reflexivity. }
  apply does_nil with (x := tt) (s1 := []). { apply does_add. unfold yaml_inline_space. apply does_get. rewrite text_one. rewrite (white_exact []); [apply does_advance; reflexivity|constructor|apply fresh_white; exact F]. }
  apply does_get. rewrite E. cbn [app]. rewrite app_nil_r. assert (S2 : starts_with (c :: t) (bs "- ") || starts_with (c :: t) (bs "? ") = false) by (cbn in Hc; destruct Hc as [<-|[<-|[<-|[]]]]; reflexivity). rewrite S2.
  assert (S3 : starts_with_ch (c :: t) (ch "|") || starts_with_ch (c :: t) (ch ">") = false) by (cbn in Hc; destruct Hc as [<-|[<-|[<-|[]]]]; reflexivity). rewrite S3. cbv zeta.
  assert (S4 : negb (yaml_at_break (c :: t)) && negb (c =? ch "#")%N = true) by (cbn in Hc; destruct Hc as [<-|[<-|[<-|[]]]]; reflexivity). rewrite S4. cbn [when].
  eapply does_last; [exact H|]. apply does_add. apply below_last. constructor.
Qed.
Lemma name_terminator c : is_yaml_word_terminator c = false <-> name_char c.
Proof.
  unfold is_yaml_word_terminator, name_char. split.
  - intros H I. assert (mem c ([13; 10]%N ++ bs ",[]{}# " ++ [9]%N ++ bs "&*!") = true) as X; [|rewrite X in H; discriminate]. apply mem_In. cbn in I |- *. tauto.
  - intros H. destruct (mem c _) eqn:M; [|reflexivity]. exfalso. apply H. apply mem_In in M. cbn in M |- *. tauto.
Qed.
Lemma name_exact w rest : Forall name_char w -> not_before name_char rest -> length_if_not (w ++ rest) is_yaml_word_terminator = length w.
Proof.
  intros F R. rewrite length_if_not_eq. apply prefix_len_exact; [eapply Forall_impl; [|exact F]; cbn beta; intros c Hc; rewrite (proj2 (name_terminator c) Hc); reflexivity|]. eapply not_before_impl; [|exact R]. cbn beta. intros c Hc. apply name_terminator. destruct (is_yaml_word_terminator c); [discriminate|reflexivity].
Qed.
Lemma does_named s c w rest : name_word w -> not_before name_char rest -> does (yaml_named c) s [delimiter [c]; (w, Some hl_name)] rest tt s.
Proof.
  intros [Nw F] R. unfold yaml_named, delimiter. apply does_get. rewrite text_cons, text_one. cbn [app]. assert (E : yaml_match_name c (c :: w ++ rest) = 1 + length w).
  { unfold yaml_match_name. cbn [starts_with_ch skipn]. rewrite N.eqb_refl. cbn [negb]. rewrite name_exact by assumption. destruct w; [congruence|reflexivity]. }
  rewrite E. cbv zeta. apply does_cons with (x := tt) (s1 := s); [apply does_emit; [reflexivity|discriminate]|]. cbn [Nat.add Nat.eqb negb when Nat.sub]. rewrite Nat.sub_0_r. apply does_emit; [reflexivity|exact Nw].
Qed.
Lemma does_blanks s b rest : spaces b -> fresh rest -> does yaml_inline_space s [(b, None)] rest tt s.
Proof. intros Hb F. unfold yaml_inline_space. apply does_get. rewrite text_one, white_exact; [apply does_advance; reflexivity|eapply Forall_impl; [|exact Hb]; cbn beta; auto|apply fresh_white; exact F]. Qed.
Lemma space_no_name b rest : not_before name_char (32%N :: b ++ rest).
Proof. apply not_before_cons. intros H. apply H. cbn. tauto. Qed.

(** ** C199: anchors and aliases. *)
Definition anchored (k w b : str) (p : list piece) : list piece := key_of k :: punctuation 58 :: skipped [32%N] :: delimiter (bs "&") :: (w, Some hl_name) :: skipped (32%N :: b) :: p.
Definition aliased (k w : str) : list piece := [key_of k; punctuation 58; skipped [32%N]; delimiter (bs "*"); (w, Some hl_name)].
Theorem C199_yaml_anchor : forall k w b p, block_key k -> name_word w -> spaces b -> yaml_value p -> tokenizes highlight_yaml (anchored k w b p).
Proof.
  intros k w b p Hk Hw Hb Hp. destruct (value_head p Hp) as (x & u & Ep & Hx). unfold anchored. eapply property_line; [exact Hk|unfold delimiter; rewrite text_cons; reflexivity|cbn; tauto|].
  change (delimiter (bs "&") :: (w, Some hl_name) :: skipped (32%N :: b) :: p) with ([delimiter (bs "&"); (w, Some hl_name); skipped (32%N :: b)] ++ p).
  eapply does_property; [unfold delimiter; rewrite text_cons; reflexivity|cbn; tauto|exact Ep|exact Hx| |intros fuel L; apply flow_does; [exact Hp|exact L|intros c; discriminate]].
  unfold yaml_properties_body, delimiter, skipped. change (bs "&") with [38%N]. apply does_get. rewrite text_cons. cbn [app]. cbv zeta. cbn [starts_with_ch N.eqb Pos.eqb when ch]. eapply does_nil; [apply does_ret|]. apply does_get. rewrite text_cons. cbn [app starts_with_ch N.eqb Pos.eqb when orb].
  eapply does_last; [|apply does_ret]. unfold yaml_anchor. 
  change [([38%N], Some hl_name_attr_delim); (w, Some hl_name); (32%N :: b, None)] with ([delimiter [38%N]; (w, Some hl_name)] ++ [(32%N :: b, None)]). eapply does_bind.
  - apply does_get. apply does_check; [reflexivity|]. apply does_named; [exact Hw|]. rewrite text_one. cbn [app]. apply space_no_name.
  - apply does_blanks; [constructor; [reflexivity|exact Hb]|]. rewrite Ep. apply node_fresh. exact Hx.
Qed.
Print Assumptions C199_yaml_anchor.
Theorem C199_yaml_alias : forall k w, block_key k -> name_word w -> tokenizes highlight_yaml (aliased k w).
Proof.
  intros k w Hk Hw. unfold aliased. eapply property_line; [exact Hk|unfold delimiter; rewrite text_cons; reflexivity|cbn; tauto|]. unfold yaml_flow. apply does_get. rewrite Nat.add_1_r. cbn [yaml_flow_node]. unfold delimiter. change (bs "*") with [42%N]. rewrite text_cons, text_one. cbn [app].
  apply does_no_space; [apply fresh_char; [reflexivity|discriminate..]|]. apply does_get. rewrite text_cons, text_one. cbn [app length Nat.eqb orb]. assert (B : forall t, yaml_at_break (42%N :: t) = false) by (intros; apply same_break; intros [E|E]; discriminate). rewrite B.
  eapply does_nil. { unfold yaml_properties. apply does_stop. unfold yaml_properties_body. apply does_get. rewrite text_cons. cbn [app text map concat starts_with_ch N.eqb Pos.eqb when ch orb]. cbv zeta. eapply does_nil; [apply does_ret|]. apply does_get. cbn [app text map concat starts_with_ch N.eqb Pos.eqb when ch orb]. eapply does_nil; [apply does_ret|]. apply does_ret. }
  apply does_get. rewrite text_cons. cbn [app starts_with_ch N.eqb Pos.eqb ch orb]. unfold yaml_flow_scalar. apply does_get. rewrite text_cons. cbn [app N.eqb Pos.eqb ch]. apply (does_named [] 42%N w []); [exact Hw|]. intros c; discriminate.
Qed.
Print Assumptions C199_yaml_alias.
Lemma letters_name w : Forall letter w -> w <> [] -> name_word w.
Proof. intros F N. split; [exact N|]. eapply Forall_impl; [|exact F]. unfold letter, name_char. intros c Hc I. cbn in I. lia. Qed.
Ltac letters_ := apply Forall_forall; let x := fresh in let Hx := fresh in intros x Hx; cbn in Hx; unfold letter; lia.
Example C199_case : name_word (bs "id") /\ yaml_value [(bs "b", Some hl_string)] /\ text (anchored (bs "a") (bs "id") [] [(bs "b", Some hl_string)]) = bs "a: &id b" /\ text (aliased (bs "a") (bs "id")) = bs "a: *id".
Proof. split; [apply letters_name; [letters_|discriminate]|]. split; [apply value_scalar, scalar_plain, plain_b|]. split; reflexivity. Qed.

(** ** C200: the name of a tag is one token. *)
(** Tags; [show] gives the tokens of a name. *)
Definition handle_char (c : N) : Prop := letter c \/ digit c \/ c = 45%N.
Inductive tag (show : str -> list piece) : list piece -> Prop :=
| tag_shorthand w : name_word w -> tag show (delimiter (bs "!!") :: show w)
| tag_local w : name_word w -> hd_error w <> Some 60%N -> tag show (delimiter (bs "!") :: show w)
| tag_handle h w : h <> [] -> Forall handle_char h -> name_word w -> tag show (delimiter (bs "!") :: tag_name h :: delimiter (bs "!") :: show w)
| tag_verbatim w : w <> [] -> same_line w -> ~ In 62%N w -> tag show (delimiter (bs "!<") :: show w ++ [delimiter (bs ">")]).
Definition whole (w : str) : list piece := [tag_name w].
Definition by_character (w : str) : list piece := map (fun c => tag_name [c]) w.
Definition tagged (k : str) (t : list piece) (b : str) (p : list piece) : list piece := key_of k :: punctuation 58 :: skipped [32%N] :: t ++ skipped (32%N :: b) :: p.
Theorem C200_yaml_tag_refuted : ~ (forall k t b p, block_key k -> tag whole t -> spaces b -> yaml_value p -> tokenizes highlight_yaml (tagged k t b p)).
Proof.
  intros H. specialize (H (bs "a") _ [] _ key_a (tag_shorthand whole (bs "int") ltac:(apply letters_name; [letters_|discriminate])) ltac:(constructor) (value_scalar _ (scalar_plain _ plain_b))). refute_ H.
Qed.
Print Assumptions C200_yaml_tag_refuted.
(** Every character of the name is a token. *)
Lemma text_by_character w : text (by_character w) = w.
Proof. induction w as [|c w IH]; [reflexivity|]. change (by_character (c :: w)) with (([c], Some hl_name_attr) :: by_character w). rewrite text_cons, IH. reflexivity. Qed.
Lemma does_each s stop w rest : Forall (fun c => stop c = false) w -> not_before (fun c => stop c = false) rest -> does (yaml_each stop hl_name_attr) s (by_character w) rest tt s.
Proof.
  intros F R. unfold yaml_each. induction F as [|c w Hc F IH].
  - apply does_stop. apply does_get. cbn [by_character map text concat app]. destruct rest as [|x t]; [apply does_ret|]. specialize (R x eq_refl). cbn beta in R. destruct (stop x); [apply does_ret|congruence].
  - change (by_character (c :: w)) with ([tag_name [c]] ++ by_character w). eapply does_unroll; [|unfold tag_name; rewrite text_one; discriminate|exact IH]. apply does_get. unfold tag_name. rewrite text_one. cbn [app]. rewrite Hc. eapply does_last; [apply does_emit; [reflexivity|discriminate]|]. apply does_ret.
Qed.
Lemma does_each_name s w b rest : name_word w -> does (yaml_each is_yaml_word_terminator hl_name_attr) s (by_character w) (32%N :: b ++ rest) tt s.
Proof. intros [_ F]. apply does_each; [eapply Forall_impl; [|exact F]; intros c; apply name_terminator|]. eapply not_before_impl; [|apply space_no_name]. intros c; apply name_terminator. Qed.
Lemma handle_word c : handle_char c -> negb (c =? ch "!")%N && is_yaml_word_char c = true.
Proof.
  intros H. apply andb_true_intro. split; [apply negb_true_iff, N.eqb_neq; unfold handle_char, letter, digit in H; cbn; lia|]. unfold is_yaml_word_char. apply orb_true_iff. destruct H as [H|[H|H]]; [left|left|right; subst c; reflexivity];
    unfold letter, digit in H; unfold is_ascii_alphanumeric, is_ascii_alpha, is_ascii_digit, is_ascii_upper_alpha, is_ascii_lower_alpha, between; rewrite !orb_true_iff, !andb_true_iff, !N.leb_le; cbn; lia.
Qed.
Lemma does_tag s t b rest : tag by_character t -> does yaml_tag s t (32%N :: b ++ rest) tt s.
Proof.
  set (r := 32%N :: b ++ rest). intros [w Hw|w Hw N60|h w Nh Fh Hw|w Nw Sw Gw]; unfold yaml_tag, delimiter; apply does_get; rewrite text_cons.
  - apply does_check; [reflexivity|]. change (bs "!!") with [33; 33]%N. cbn [app]. change (starts_with (33%N :: 33%N :: text (by_character w) ++ r) (bs "!<")) with false. assert (X : starts_with (33%N :: 33%N :: text (by_character w) ++ r) [33; 33]%N = true) by (cbn; destruct (text (by_character w) ++ r); reflexivity). rewrite X. cbv iota.
    apply does_cons with (x := tt) (s1 := s); [apply does_emit; [reflexivity|discriminate]|]. apply does_each_name. exact Hw.
  - apply does_check; [reflexivity|]. change (bs "!") with [33%N]. cbn [app]. rewrite text_by_character. destruct Hw as [Nw Fw]. destruct w as [|c w]; [congruence|]. cbn [hd_error] in N60. cbn [app]. inversion Fw as [|? ? Hc Fw']; subst.
    assert (X : starts_with (33%N :: c :: w ++ r) (bs "!<") = false) by (change (bs "!<") with [33; 60]%N; cbn [starts_with]; rewrite (proj2 (N.eqb_neq c 60)) by congruence; reflexivity). rewrite X.
    assert (N33 : forall y, name_char y -> y <> 33%N) by (intros y Hy ->; apply Hy; cbn; tauto).
    assert (Y : starts_with (33%N :: c :: w ++ r) (bs "!!") = false) by (change (bs "!!") with [33; 33]%N; cbn [starts_with]; rewrite (proj2 (N.eqb_neq c 33)) by (apply N33; exact Hc); reflexivity). rewrite Y.
    apply does_cons with (x := tt) (s1 := s); [apply does_emit; [reflexivity|discriminate]|]. apply does_get. rewrite text_by_character. cbv zeta.
    set (n := prefix_len _ ((c :: w) ++ r)). assert (Z : (nth n ((c :: w) ++ r) 0 =? ch "!")%N = false).
    { apply N.eqb_neq. unfold n. clear - Fw N33. generalize dependent (c :: w). intros v Fv. induction Fv as [|y v Hy Fv IH]; [discriminate|]. cbn [app prefix_len]. destruct (negb (y =? ch "!")%N && is_yaml_word_char y); cbn [nth]; [exact IH|apply N33; exact Hy]. }
    rewrite Z, andb_false_r. apply does_each_name. split; [exact Nw|exact Fw].
  - apply does_check; [reflexivity|]. unfold tag_name. change (bs "!") with [33%N]. cbn [app]. rewrite text_cons, text_cons, text_by_character, <- !app_assoc. destruct h as [|c h]; [congruence|]. cbn [app]. assert (Hc : (c <> 33 /\ c <> 60)%N) by (inversion Fh as [|? ? Hc _]; subst; unfold handle_char, letter, digit in Hc; lia).
    assert (X : starts_with (33%N :: c :: h ++ 33%N :: w ++ r) (bs "!<") = false) by (change (bs "!<") with [33; 60]%N; cbn [starts_with]; rewrite (proj2 (N.eqb_neq c 60)) by tauto; reflexivity). rewrite X.
    assert (Y : starts_with (33%N :: c :: h ++ 33%N :: w ++ r) (bs "!!") = false) by (change (bs "!!") with [33; 33]%N; cbn [starts_with]; rewrite (proj2 (N.eqb_neq c 33)) by tauto; reflexivity). rewrite Y.
    apply does_cons with (x := tt) (s1 := s); [apply does_emit; [reflexivity|discriminate]|]. apply does_get. rewrite text_cons, text_cons, text_by_character, <- !app_assoc. change ([33%N] ++ w ++ r) with (33%N :: w ++ r). cbv zeta.
    rewrite (prefix_len_exact _ (c :: h) (33%N :: w ++ r)); [|eapply Forall_impl; [|exact Fh]; apply handle_word|apply not_before_cons; discriminate].
    assert (Z : (0 <? length (c :: h)) && (length (c :: h) <? length ((c :: h) ++ 33%N :: w ++ r)) && (nth (length (c :: h)) ((c :: h) ++ 33%N :: w ++ r) 0 =? ch "!")%N = true) by (rewrite app_nth2, Nat.sub_diag by apply Nat.le_refl; rewrite (proj2 (Nat.ltb_lt (length (c :: h)) _)) by (rewrite app_length; cbn; lia); reflexivity). rewrite Z.
    apply does_cons with (x := tt) (s1 := s); [apply does_emit; [reflexivity|discriminate]|]. apply does_cons with (x := tt) (s1 := s); [apply does_emit; [reflexivity|discriminate]|]. apply does_each_name. exact Hw.
  - apply does_check; [reflexivity|]. change (bs "!<") with [33; 60]%N. cbn [app]. assert (X : forall u, starts_with (33%N :: 60%N :: u) [33; 60]%N = true) by (intros [|? ?]; reflexivity). rewrite X.
    apply does_cons with (x := tt) (s1 := s); [apply does_emit; [reflexivity|discriminate]|]. assert (M : forall c, mem c (bs ">" ++ [13; 10]%N) = false <-> ~ (c = 62 \/ c = 13 \/ c = 10)%N). { intros c. destruct (mem c (bs ">" ++ [13; 10]%N)) eqn:Mc. - apply mem_In in Mc. cbn in Mc. split; [discriminate|]. intros K. exfalso. apply K. intuition. - split; [|reflexivity]. intros _ K. assert (mem c (bs ">" ++ [13; 10]%N) = true) as Y; [|congruence]. apply mem_In. cbn. intuition. }
    eapply does_bind; [apply does_each|].
    + apply Forall_forall. intros c Ic. apply M. unfold same_line in Sw. rewrite Forall_forall in Sw. specialize (Sw c Ic). unfold line_break in Sw. intros [->|[->| ->]]; [apply Gw; exact Ic|tauto|tauto].
    + change (bs ">") with [62%N]. rewrite text_one. apply not_before_cons. discriminate.
    + apply does_get. rewrite text_one. change (bs ">") with [62%N]. cbn [app starts_with_ch ch N.eqb Pos.eqb when]. apply does_emit; [reflexivity|discriminate].
Qed.
Theorem C200_yaml_tag_tokens : forall k t b p, block_key k -> tag by_character t -> spaces b -> yaml_value p -> tokenizes highlight_yaml (tagged k t b p).
Proof.
  intros k t b p Hk Ht Hb Hp. destruct (value_head p Hp) as (x & u & Ep & Hx). unfold tagged. assert (H33 : exists v, text t = 33%N :: v) by (destruct Ht; unfold delimiter; rewrite text_cons; eexists; reflexivity). destruct H33 as (v & Et).
  eapply property_line; [exact Hk|rewrite text_app, Et; reflexivity|cbn; tauto|]. change (t ++ skipped (32%N :: b) :: p) with (t ++ [skipped (32%N :: b)] ++ p). rewrite app_assoc.
  eapply does_property; [rewrite text_app, Et; reflexivity|cbn; tauto|exact Ep|exact Hx| |intros fuel L; apply flow_does; [exact Hp|exact L|intros c; discriminate]].
  unfold yaml_properties_body. apply does_get. rewrite text_app, Et. cbn [app starts_with_ch ch N.eqb Pos.eqb when]. cbv zeta.
  eapply does_last.
  { eapply does_bind; [unfold skipped; rewrite text_one; cbn [app]; apply does_tag; exact Ht|]. apply does_blanks; [constructor; [reflexivity|exact Hb]|]. rewrite Ep. apply node_fresh. exact Hx. }
  apply does_get. rewrite Ep. cbn [text map concat app starts_with_ch]. apply node_char_cases in Hx as [Hx _]. rewrite (proj2 (N.eqb_neq x (ch "&"))) by (cbn; lia). eapply does_nil; [apply does_ret|]. apply does_ret.
Qed.
Print Assumptions C200_yaml_tag_tokens.
Example C200_case : tag by_character (delimiter (bs "!!") :: by_character (bs "int")) /\ text (tagged (bs "a") (delimiter (bs "!!") :: by_character (bs "int")) [] [(bs "b", Some hl_string)]) = bs "a: !!int b".
Proof. split; [apply tag_shorthand, letters_name; [letters_|discriminate]|reflexivity]. Qed.

(** ** C201: white space after a number does not change its token. *)
Definition after_number (k w b : str) : list piece := [key_of k; punctuation 58; skipped [32%N]; (w, Some hl_number); skipped b].
Theorem C201_yaml_number_refuted : ~ (forall k w b, block_key k -> decimal w -> spaces b -> tokenizes highlight_yaml (after_number k w b)).
Proof. intros H. specialize (H (bs "a") (bs "12") (bs " ") key_a ltac:(exists (bs "12"), []; split; [discriminate|split; [repeat constructor; cbn; lia|split; [left; reflexivity|reflexivity]]]) ltac:(repeat constructor)). refute_ H. Qed.
Print Assumptions C201_yaml_number_refuted.
(** Number and white space are one string. *)
Definition number_stop (rest : str) : Prop := not_before (fun c => ~ In c ([10; 13; 32]%N ++ bs ",]}")) rest.
Lemma stop_in x t : number_stop (x :: t) -> In x ([10; 13; 32]%N ++ bs ",]}").
Proof. intros R. specialize (R x eq_refl). cbn beta in R. destruct (in_dec N.eq_dec x ([10; 13; 32]%N ++ bs ",]}")); [assumption|contradiction]. Qed.
Lemma stop_no (p : N -> Prop) rest : number_stop rest -> (forall x, In x ([10; 13; 32]%N ++ bs ",]}") -> ~ p x) -> not_before p rest.
Proof. intros R H c E. destruct rest as [|x t]; [discriminate|]. injection E as <-. apply H. apply (stop_in _ t). exact R. Qed.
Lemma decimal_stop o n f rest : o = yaml_prefixed_options \/ o = yaml_decimal_options -> n <> [] -> Forall digit n -> (f = [] \/ exists d, f = 46%N :: d /\ d <> [] /\ Forall digit d) -> number_stop rest ->
  exists r, match_common_number (n ++ f ++ rest) o = Ok r /\ nr_length r = length (n ++ f) /\ nr_prefix r = 0 /\ nr_erroneous r = false.
Proof.
  intros Ho Hn Fn Hf R.
  assert (G : exists f', f = frac_text f' /\ match f' with None => True | Some l => exists d, l = [(d, None)] /\ d <> [] /\ Forall digit d end).
  { destruct Hf as [->|(d & -> & Nd & Fd)]; [exists None; auto|]. exists (Some [(d, None)]). cbn [frac_text]. rewrite text_one. eauto. } destruct G as (f' & -> & Hf').
  destruct n as [|c n]; [congruence|]. inversion Fn as [|? ? Hc Fn']; subst.
  assert (Rd : not_before digit rest) by (apply stop_no; [exact R|val_end]).
  assert (Hd : hd_error (n ++ frac_text f' ++ rest) <> Some 120%N /\ hd_error (n ++ frac_text f' ++ rest) <> Some 88%N /\ hd_error (n ++ frac_text f' ++ rest) <> Some 111%N /\ hd_error (n ++ frac_text f' ++ rest) <> Some 79%N /\ hd_error (n ++ frac_text f' ++ rest) <> Some 98%N /\ hd_error (n ++ frac_text f' ++ rest) <> Some 66%N).
  { assert (X : forall x, hd_error (n ++ frac_text f' ++ rest) = Some x -> (x < 64 \/ x = 93 \/ x = 125)%N).
    { intros x E. destruct n as [|y n]; [|inversion Fn' as [|? ? Hy _]; subst; injection E as <-; unfold digit in Hy; lia]. destruct f'; [injection E as <-; lia|]. destruct rest as [|y t]; [discriminate|]. injection E as <-. apply stop_in in R. cbn in R. repeat destruct R as [<-|R]; try contradiction; lia. }
    repeat split; intros E; apply X in E; lia. }
  pose proof (number_exact o [] [(c :: n, None)] f' None [] rest true 10%Z) as T. cbv zeta in T. rewrite text_one in T. cbn [app exp_text length] in T.
  assert (Sg : starts_with_ch (c :: n ++ frac_text f' ++ rest) 43 = false /\ starts_with_ch (c :: n ++ frac_text f' ++ rest) 45 = false) by (unfold digit in Hc; cbn [starts_with_ch]; split; apply N.eqb_neq; lia).
  cbn [app]. rewrite T.
  - eexists. split; [reflexivity|]. cbn [nr_length nr_prefix nr_erroneous]. cbn [length]. rewrite ?app_length. split; [lia|auto].
  - destruct Ho as [-> | ->]; reflexivity.
  - left. discriminate.
  - intros _. apply Sg.
  - intros _. apply Sg.
  - rewrite number_base_none.
    + destruct Ho as [-> | ->]; cbn [no_zero_base no_base]; destruct (starts_with_ch _ 48); reflexivity.
    + destruct Ho as [-> | ->]; [|constructor]. destruct Hd as (H1 & H2 & H3 & H4 & H5 & H6). repeat (apply Forall_cons; [split; [discriminate|]|]); try apply Forall_nil;
        (apply not_true_is_false; intros X; apply starts_with_app in X as (u & X); cbn in X; destruct (n ++ frac_text f' ++ rest) as [|y t]; [discriminate X|]; injection X as _ -> _; cbn [hd_error] in *; congruence).
  - destruct Ho as [-> | ->]; cbn [no_separator]; apply (digits_exact digit 10 (c :: n) (frac_text f' ++ rest)); try apply digit_10; try assumption; (destruct f'; [apply not_before_cons; unfold digit; lia|exact Rd]).
  - destruct f' as [l|].
    + destruct Hf' as (d & -> & Nd & Fd). rewrite text_one. split; [reflexivity|]. split; [destruct Ho as [-> | ->]; cbn [no_separator]; apply (digits_exact digit 10 d rest); try apply digit_10; assumption|]. intros _. exact Nd.
    + intros _. destruct rest as [|y t]; [reflexivity|]. apply stop_in in R. cbn [starts_with_ch]. apply N.eqb_neq. cbn in R. repeat destruct R as [<-|R]; try contradiction; lia.
  - intros _ _. apply exponent_none; [destruct Ho as [-> | ->]; reflexivity|]. intros u b x t I -> E. destruct rest as [|y r]; [discriminate|]. injection E as ->. apply stop_in in R.
    destruct Ho as [-> | ->]; cbn in I; repeat destruct I as [I|I]; try contradiction; injection I as <- _; cbn in R; repeat destruct R as [R|R]; try contradiction; try discriminate.
  - intros _. destruct Ho as [-> | ->]; reflexivity.
Qed.
Lemma does_number_spaces s w b : decimal w -> spaces b -> b <> [] -> does (yaml_plain false) s [(w ++ b, Some hl_string)] [] tt s.
Proof.
  intros (n & f & Nn & Fn & Hf & ->) Hb Nb. unfold yaml_plain. apply does_get. rewrite text_one, <- app_assoc, <- app_assoc. set (rest := b ++ []). cbv zeta.
  assert (R : number_stop rest) by (unfold rest; rewrite app_nil_r; destruct b as [|y b]; [congruence|]; inversion Hb; subst; apply not_before_cons; cbn; tauto).
  assert (H1 : exists c t, n = c :: t /\ digit c) by (destruct n as [|c t]; [congruence|]; inversion Fn; eauto). destruct H1 as (c & t & En & Hc).
  assert (E1 : starts_with_ch (n ++ f ++ rest) (ch "~") = false) by (rewrite En; cbn [app starts_with_ch]; apply N.eqb_neq; unfold digit in Hc; intros ->; cbn in Hc; lia). rewrite E1.
  assert (E2 : yaml_match_word (n ++ f ++ rest) = None).
  { destruct (yaml_match_word (n ++ f ++ rest)) as [[k ty]|] eqn:W; [|reflexivity]. apply word_in in W as [W1 W2]. destruct (words_letters _ _ W1) as ((x & u & ->) & F & _). rewrite En in W2. cbn [app starts_with] in W2. apply andb_prop in W2 as [W2 _]. apply N.eqb_eq in W2 as ->. inversion F. unfold letter, digit in *. lia. }
  rewrite E2. destruct (decimal_stop yaml_prefixed_options n f rest ltac:(auto) Nn Fn Hf R) as (r1 & M1 & L1 & P1 & X1). destruct (decimal_stop yaml_decimal_options n f rest ltac:(auto) Nn Fn Hf R) as (r2 & M2 & L2 & P2 & X2).
  assert (E3 : yaml_special (n ++ f ++ rest) yaml_specials = None).
  { rewrite En. unfold yaml_specials. cbn [app yaml_special starts_with_ch]. unfold digit in Hc. rewrite (proj2 (N.eqb_neq c 43)), (proj2 (N.eqb_neq c 45)) by lia. cbn. assert (N.eqb c 46 = false) as X by (apply N.eqb_neq; lia). rewrite ?X. reflexivity. }
  assert (E4 : yaml_sexagesimal (n ++ f ++ rest) = None).
  { unfold yaml_sexagesimal. rewrite En at 1. cbn [app]. rewrite (proj2 (digit_iff c) Hc). cbn [negb].
    assert (L : length_if (n ++ f ++ rest) is_ascii_digit = length n).
    { rewrite length_if_eq. apply prefix_len_exact; [eapply Forall_impl; [|exact Fn]; intros x; apply digit_iff|]. destruct Hf as [->|(d & -> & _)]; [eapply not_before_impl; [|apply (stop_no digit rest R); val_end]; intros x; apply digit_iff|apply not_before_cons; rewrite digit_iff; unfold digit; lia]. }
    rewrite L. cbv zeta. assert (X : (length n <? length (n ++ f ++ rest)) && (nth (length n) (n ++ f ++ rest) 0 =? ch ":")%N = false).
    { destruct (f ++ rest) as [|y u] eqn:Ey; [rewrite app_nil_r, Nat.ltb_irrefl; reflexivity|]. rewrite nth_middle. apply andb_false_intro2, N.eqb_neq. destruct Hf as [->|(d & -> & _)]; [|injection Ey as <- _; discriminate]. cbn [app] in Ey. rewrite Ey in R. apply stop_in in R. cbn in R. repeat destruct R as [<-|R]; try contradiction; discriminate. }
    rewrite <- andb_assoc, X, andb_false_r. reflexivity. }
  assert (E5 : yaml_match_number (n ++ f ++ rest) = Ok r2).
  { unfold yaml_match_number. rewrite E3, M1. cbn [bind]. rewrite P1. rewrite andb_false_r, E4. exact M2. }
  eapply does_lift; [exact E5|]. rewrite L2, X2.
  assert (E6 : yaml_number_ends (n ++ f ++ rest) (length (n ++ f)) = false).
  { unfold yaml_number_ends. rewrite app_assoc, skipn_app_exact. unfold rest. rewrite app_nil_r. destruct b as [|y b]; [congruence|]. inversion Hb as [|? ? Hy Hb']; subst. destruct Hb' as [|z b -> _]; reflexivity. }
  rewrite E6, andb_false_r. rewrite !app_assoc. unfold rest. rewrite !app_assoc. rewrite <- (app_assoc n f b), app_assoc.
  assert (Fw : Forall plain_char ((n ++ f) ++ b)).
  { apply Forall_app. split; [apply Forall_app; split|].
    - eapply Forall_impl; [|exact Fn]. unfold digit, plain_char. intros x Hx. split; [lia|]. intros I. cbn in I. lia.
    - destruct Hf as [->|(d & -> & _ & Fd)]; [constructor|]. constructor; [split; [lia|cbn; intuition discriminate]|]. eapply Forall_impl; [|exact Fd]. unfold digit, plain_char. intros x Hx. split; [lia|]. intros I. cbn in I. lia.
    - eapply Forall_impl; [|exact Hb]. cbn beta. intros x ->. split; [lia|]. cbn. intuition discriminate. }
  assert (N58 : ~ In 58%N ((n ++ f) ++ b)).
  { rewrite !in_app_iff. intros [[I|I]|I].
    - rewrite Forall_forall in Fn. specialize (Fn _ I). unfold digit in Fn. lia.
    - destruct Hf as [->|(d & -> & _ & Fd)]; [contradiction|]. destruct I as [I|I]; [discriminate|]. rewrite Forall_forall in Fd. specialize (Fd _ I). unfold digit in Fd. lia.
    - unfold spaces in Hb. rewrite Forall_forall in Hb. specialize (Hb _ I). discriminate. }
  rewrite plain_length; [| exact Fw | intros x y Exy; exfalso; apply N58; rewrite Exy; apply in_elt | left; intros z; discriminate | rewrite En; discriminate].
  assert (L : (0 <? length ((n ++ f) ++ b)) = true) by (rewrite En; reflexivity). rewrite L. cbn [when]. apply does_emit; [reflexivity|]. rewrite En. discriminate.
Qed.
Theorem C201_yaml_number_tokens : forall k w b, block_key k -> decimal w -> spaces b -> b <> [] -> tokenizes highlight_yaml [key_of k; punctuation 58; skipped [32%N]; (w ++ b, Some hl_string)].
Proof.
  intros k w b Hk Hw Hb Nb strict. assert (H1 : exists c t, w = c :: t /\ digit c) by (destruct Hw as (n & f & Nn & Fn & _ & ->); destruct n as [|c t]; [congruence|]; inversion Fn; subst; exists c, (t ++ f); auto). destruct H1 as (c & t & E & Hc). assert (Hn : node_char c) by (left; right; left; exact Hc).
  assert (T : tokenizes highlight_yaml (key_of k :: punctuation 58 :: skipped [32%N] :: [(w ++ b, Some hl_string)] ++ [skipped []])).
  { eapply value_line; [exact Hk|rewrite text_one, E; reflexivity|left; exact Hn|constructor|]. unfold yaml_flow. apply does_get. rewrite Nat.add_1_r. unfold digit in Hc. eapply does_leaf; [rewrite text_one, E; reflexivity|exact Hn|lia|lia|]. unfold yaml_flow_scalar. apply does_get. rewrite text_one, E. cbn [app]. rewrite (proj2 (N.eqb_neq c 34)), (proj2 (N.eqb_neq c 39)), (proj2 (N.eqb_neq c (ch "*"))) by (cbn; lia).
    change (c :: t ++ b) with ((c :: t) ++ b). rewrite <- E. apply does_number_spaces; assumption. }
  exact (T strict).
Qed.
Print Assumptions C201_yaml_number_tokens.
Example C201_case : decimal (bs "12") /\ text (after_number (bs "a") (bs "12") (bs " ")) = bs "a: 12 ".
Proof. split; [exists (bs "12"), []; split; [discriminate|split; [repeat constructor; cbn; lia|split; [left; reflexivity|reflexivity]]]|reflexivity]. Qed.

(** ** C202: a line of white space does not end the text of a block scalar. *)
Definition interrupted (k : str) (c : N) (w0 : str) (p : list piece) (sp w k2 v : str) (h : N) : list piece :=
  block_document k (quote c :: skipped w0 :: p) [skipped sp; skipped w; skipped k2; (v, Some h)].
Definition interrupts (n : nat) (sp w k2 v : str) : Prop := spaces sp /\ 0 < length sp < n /\ newline w (k2 ++ v) /\ spaces k2 /\ length k2 = n /\ decimal v.
Definition small_text : list piece := [skipped (bs "  "); (bs "x", Some hl_string); skipped [10]%N].
Lemma decimal_12 : decimal (bs "12").
Proof. exists (bs "12"), []; split; [discriminate|split; [repeat constructor; cbn; lia|split; [left; reflexivity|reflexivity]]]. Qed.
Lemma small_text_body rest : block_body 2 rest small_text.
Proof. exists (bs "  "), 120%N, [], [10]%N, []. split; [repeat constructor|]. split; [reflexivity|]. split; [discriminate|]. split; [apply same_line_check; reflexivity|]. split; [left; left; reflexivity|]. split; [constructor|reflexivity]. Qed.
Lemma small_interrupts : interrupts 2 (bs " ") [10]%N (bs "  ") (bs "12").
Proof. split; [repeat constructor|]. split; [cbn; lia|]. split; [left; reflexivity|]. split; [repeat constructor|]. split; [reflexivity|apply decimal_12]. Qed.
Theorem C202_yaml_white_line_refuted : ~ (forall k n c w0 p sp w k2 v, block_key k -> In c (bs "|>") -> newline w0 (text p) -> block_body n (sp ++ w ++ k2 ++ v) p -> interrupts n sp w k2 v ->
  tokenizes highlight_yaml (interrupted k c w0 p sp w k2 v hl_string)).
Proof.
  intros H. specialize (H (bs "a") 2 124%N [10]%N small_text (bs " ") [10]%N (bs "  ") (bs "12") key_a ltac:(cbn; tauto) ltac:(left; reflexivity) (small_text_body _) small_interrupts). refute_ H.
Qed.
Print Assumptions C202_yaml_white_line_refuted.
(** The lines after it are a document of their own. *)
Theorem C202_yaml_white_line_tokens : forall k n c w0 p sp w k2 v, block_key k -> In c (bs "|>") -> newline w0 (text p) -> block_body n (sp ++ w ++ k2 ++ v) p -> interrupts n sp w k2 v ->
  tokenizes highlight_yaml (interrupted k c w0 p sp w k2 v hl_number).
Proof.
  intros k n c w0 p sp w k2 v Hk Hc Hw0 Hp (Hsp & Lsp & Hw & Hk2 & Lk2 & Hv). destruct (key_head_char k Hk) as (x & u & Ek & Hx).
  set (tail := sp ++ w ++ k2 ++ v) in *. set (p1 := key_of k :: punctuation 58 :: skipped [32%N] :: quote c :: opt_piece [] hl_number_decor ++ opt_piece [] hl_number_decor ++ skipped [] :: skipped w0 :: p).
  assert (Hn : 0 < n) by lia. destruct (newline_head _ _ Hw) as (wc & wt & Ew & Hwc).
  assert (H1 : exists d t, v = d :: t /\ digit d) by (destruct Hv as (a & f & Na & Fa & _ & ->); destruct a as [|d t]; [congruence|]; inversion Fa; subst; exists d, (t ++ f); auto). destruct H1 as (d & t & Ev & Hd).
  assert (Nd : node_char d) by (left; right; left; exact Hd).
  destruct sp as [|y sp']; [cbn in Lsp; lia|]. assert (y = 32%N) as -> by (inversion Hsp; assumption). set (sp := 32%N :: sp') in *.
  assert (Nsp : not_before (fun c => c = 32%N) (w ++ k2 ++ v)) by (rewrite Ew; apply not_before_cons; destruct Hwc as [->| ->]; discriminate).
  assert (Itail : yaml_indent tail = length sp) by (apply indent_exact; assumption).
  assert (Btail : yaml_at_break tail = false) by (apply same_break; intros [E|E]; discriminate).
  assert (Hw0' : newline w0 (text p ++ tail)). { destruct Hp as (i & a & b & w2 & q & _ & _ & _ & _ & _ & _ & ->). rewrite text_cons, text_cons in *. destruct Hw0 as [H|[H|[H K]]]; [left; exact H|right; left; exact H|right; right; split; [exact H|]]. intros z E. apply K. rewrite <- E. destruct i; reflexivity. }
  assert (Keys : forall node, does (yaml_key node 0) [] p1 tail true []).
  { intros node. eapply does_block_value; [exact Hk|unfold quote; rewrite text_cons; reflexivity|exact Hc|]. assert (N : forall l, ~ In 10%N l -> ~ In 13%N l -> not_among l ([] ++ w0)) by (intros l; apply (newline_not_among l w0 _ Hw0)).
    eapply does_block_scalar; try eassumption; [left; reflexivity|left; reflexivity|intros _; apply N; cbn; intuition discriminate|intros _; apply N; cbn; intuition discriminate|apply N; cbn; intuition discriminate|constructor|]. right. split; [exact Btail|]. rewrite Itail. lia. }
  assert (E1 : text p1 = x :: u ++ text (punctuation 58 :: skipped [32%N] :: quote c :: opt_piece [] hl_number_decor ++ opt_piece [] hl_number_decor ++ skipped [] :: skipped w0 :: p)) by (unfold p1, key_of; rewrite text_cons, Ek; reflexivity).
  assert (Hx' : node_char x) by (left; exact Hx). assert (N45 : x <> 45%N) by (apply node_char_cases in Hx' as [H _]; lia).
  (* The white line ends the document. *)
  assert (White : forall node, does (yaml_block_body node 0 tt) [0] [skipped sp] (w ++ k2 ++ v) (inr tt) [0]).
  { intros node. assert (Bw : yaml_at_break (w ++ k2 ++ v) = true) by (apply newline_at; exact Hw). unfold yaml_block_body, skipped. apply does_eof; [discriminate|]. apply does_nil with (x := tt) (s1 := [0]).
    { rewrite text_one. fold tail. unfold yaml_blank_lines. apply does_stop. unfold yaml_blank_body. apply does_get. cbn [text map concat app]. rewrite Btail. rewrite Itail. cbv zeta. unfold tail. rewrite app_nth2, Nat.sub_diag by apply Nat.le_refl. rewrite Ew. cbn [app nth]. assert (X : (wc =? ch "#")%N = false) by (destruct Hwc as [->| ->]; reflexivity). rewrite X, andb_false_r. apply does_ret. }
    apply does_eof; [discriminate|]. apply does_get. rewrite text_one. fold tail. rewrite Itail. cbv zeta. change (length sp =? 0) with false. cbn [andb]. apply does_get_loc. change (length sp <? 0) with false. cbn [andb].
    apply does_cons with (x := tt) (s1 := [0]); [apply does_indent; [exact Hsp|exact Nsp|reflexivity]|]. apply does_get. cbn [text map concat app].
    assert (Q : forall z l, In z (bs "?|>-") -> starts_with (w ++ k2 ++ v) (z :: l) = false) by (intros z l Hz; rewrite Ew; cbn [app starts_with]; rewrite (proj2 (N.eqb_neq wc z)); [reflexivity|]; intros ->; cbn in Hz; destruct Hwc as [E|E]; subst; intuition discriminate).
    change (bs "? ") with [63; 32]%N. change (bs "?") with [63]%N. change (bs "| ") with [124; 32]%N. change (bs "> ") with [62; 32]%N. change (bs "|") with [124]%N. change (bs ">") with [62]%N. change (bs "- ") with [45; 32]%N.
    rewrite !(Q 63%N) by (cbn; tauto). cbn [orb andb]. rewrite (Q 45%N), !(Q 124%N), !(Q 62%N) by (cbn; tauto). cbn [orb andb].
    eapply does_nil with (x := false). { unfold yaml_key. apply does_get. cbn [text map concat app]. rewrite colon_end by (right; exists wc, (wt ++ k2 ++ v); split; [rewrite Ew; reflexivity|exact Hwc]). apply does_ret. }
    apply does_get. cbn [text map concat app]. unfold yaml_has_node. rewrite Bw. rewrite Ew. cbn [app negb andb]. apply does_ret. }
  assert (Fv : fresh v) by (rewrite Ev; apply node_fresh; exact Nd).
  assert (T : tokenizes highlight_yaml ((p1 ++ [skipped sp]) ++ [skipped (w ++ k2)] ++ [(v, Some hl_number)])).
  { eapply tokenizes_doc with (s' := []); [rewrite !text_app, E1; reflexivity|left; exact Hx'|]. unfold while_rem. rewrite app_assoc. eapply does_unroll with (s1 := [0]).
    - rewrite app_nil_r, text_one. apply does_eof; [rewrite !text_app, E1; discriminate|]. eapply does_last; [|apply does_ret]. eapply does_bind.
      + unfold skipped at 2. rewrite text_one. eapply does_doc with (s' := [0]).
        * rewrite text_app, E1. reflexivity.
        * left; exact Hx'.
        * change (bs "---") with [45; 45; 45]%N. rewrite text_app, E1. cbn [app starts_with]. rewrite (proj2 (N.eqb_neq x 45)) by exact N45. reflexivity.
        * cbn [yaml_block_node]. eapply does_unroll; [|rewrite E1; discriminate|apply does_stop; cbn [Nat.sub]; rewrite <- app_assoc; apply White].
          eapply key_body with (c := x); [rewrite E1; reflexivity|exact Hx'|]. unfold skipped at 2. rewrite text_one, <- app_assoc. apply Keys.
      + apply does_eof; [unfold skipped; rewrite text_one, Ew; discriminate|]. unfold yaml_suffix. apply does_stop. apply does_eof; [unfold skipped; rewrite text_one, Ew; discriminate|].
        eapply does_last. { apply does_gap; [|exact Fv]. apply Forall_app. split; [|eapply Forall_impl; [|exact Hk2]; cbn beta; auto]. destruct Hw as [->|[->|[-> _]]]; repeat constructor; tauto. }
        apply does_get. cbn [text map concat app]. rewrite Ev. unfold digit in Hd. assert (Q : forall z l, In z (bs ".-") -> starts_with (d :: t) (z :: l) = false) by (intros z l Hz; cbn [starts_with]; rewrite (proj2 (N.eqb_neq d z)); [reflexivity|]; intros ->; cbn in Hz; lia).
        change (bs "...") with [46; 46; 46]%N. change (bs "---") with [45; 45; 45]%N. rewrite !Q by (cbn; tauto). cbn [andb]. apply does_ret.
    - rewrite !text_app, E1. discriminate.
    - rewrite <- (app_nil_r [(v, Some hl_number)]). eapply does_unroll with (s1 := []); [|rewrite text_one, Ev; discriminate|apply does_stop; apply does_eof_end; apply does_ret].
      apply does_eof; [rewrite text_one, Ev; discriminate|]. eapply does_last; [|apply does_ret]. eapply does_last; [|apply does_eof_end; apply does_ret].
      eapply does_doc with (s' := []).
      + rewrite text_one, app_nil_r. exact Ev.
      + left; exact Nd.
      + rewrite text_one, app_nil_r, Ev. change (bs "---") with [45; 45; 45]%N. cbn [starts_with]. unfold digit in Hd. rewrite (proj2 (N.eqb_neq d 45)) by lia. reflexivity.
      + cbn [yaml_block_node]. rewrite <- (app_nil_r [(v, Some hl_number)]). eapply does_unroll with (s1 := []); [|rewrite text_one, Ev; discriminate|apply does_stop; apply does_eof_end; apply does_ret].
        eapply body_line; [rewrite text_one, app_nil_r; exact Ev|exact Nd|]. eapply does_nil with (x := false).
        { unfold yaml_key. apply does_get. cbn [text map concat app fst]. rewrite !app_nil_r. pose proof (colon_scalar _ [] (scalar_number v Hv) (or_introl eq_refl)) as C. rewrite text_one, app_nil_r in C. rewrite C. apply does_ret. }
        apply does_get. rewrite text_one, app_nil_r, Ev. rewrite has_node by (right; left; exact Hd). rewrite <- Ev. eapply does_last; [apply does_value; [apply value_scalar, scalar_number; exact Hv|intros z; discriminate]|]. eapply does_nil; [apply does_add; apply skip_last; constructor|]. apply does_ret. }
  intros strict. specialize (T strict). 
  assert (G : forall a b, text (a ++ skipped (w ++ k2) :: b) = text (a ++ skipped w :: skipped k2 :: b)) by (intros; unfold skipped; rewrite !text_app, !text_cons, <- !app_assoc; reflexivity).
  assert (G2 : forall i a b, tokens i (a ++ skipped (w ++ k2) :: b) = tokens i (a ++ skipped w :: skipped k2 :: b)) by (intros; unfold skipped; rewrite !tokens_app; cbn [tokens]; rewrite app_length, Nat.add_assoc; reflexivity).
  change ((p1 ++ [skipped sp]) ++ [skipped (w ++ k2)] ++ [(v, Some hl_number)]) with ((p1 ++ [skipped sp]) ++ skipped (w ++ k2) :: [(v, Some hl_number)]) in T. rewrite G, G2, <- app_assoc in T.
  set (q := [skipped sp] ++ [skipped w; skipped k2; (v, Some hl_number)]) in *. set (a := [key_of k; punctuation 58; skipped [32%N]; quote c]).
  assert (R : highlight_yaml (text (a ++ ([], None) :: (skipped w0 :: p) ++ q)) strict = Ok (true, tokens 0 (a ++ ([], None) :: (skipped w0 :: p) ++ q))) by exact T. rewrite text_gap, tokens_gap in R. exact R.
Qed.
Print Assumptions C202_yaml_white_line_tokens.
Example C202_case : block_body 2 [] small_text /\ interrupts 2 (bs " ") [10]%N (bs "  ") (bs "12") /\ text (interrupted (bs "a") 124 [10]%N small_text (bs " ") [10]%N (bs "  ") (bs "12") hl_number) = bs "a: |" ++ [10]%N ++ bs "  x" ++ [10]%N ++ bs " " ++ [10]%N ++ bs "  12".
Proof. split; [apply small_text_body|]. split; [apply small_interrupts|reflexivity]. Qed.
