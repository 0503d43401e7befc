(** * The CSS highlighter: properties a user may expect (C174-C181) *)
From Coq Require Import List NArith ZArith Bool Arith Lia.
From Verif Require Import M_Base L_Base M_Chars S_Parse M_Parse M_Types M_Emit S_Ops S_Utf8 M_Utf8 L_Utf8 P_Utf8 M_Api M_Highlighter L_Highlighter L_Auto M_LangHtml M_LangCpp S_LangCss M_LangCss
  S_Lexemes L_Lexemes S_LexemesForced L_FDoes S_LangCssLexemes P_LangCssLexemes.
Import ListNotations.

(** ** Tokens one by one *)
Definition at_ (n : nat) (c : css_context) : css_loc := mk_css_loc n c.
Lemma ident_plain w h : css_identifier w -> css_plain [joined w h].
Proof. intros (c & t & -> & S & _). exists c, t. cbn. rewrite app_nil_r. auto. Qed.
Lemma ident_chars w : css_identifier w -> Forall css_char w /\ w <> [].
Proof. intros (c & t & -> & S & F). split; [|discriminate]. constructor; [unfold css_start, css_char in *; tauto|exact F]. Qed.
Lemma ident_name h w rest : css_identifier w -> not_before css_more rest -> css_name h [joined w h] rest.
Proof. intros H R. destruct (ident_chars w H) as [F N]. destruct w as [|c w]; [congruence|]. apply (name_last h (c :: w) rest F R). Qed.
Lemma a_word n cx w h k : css_identifier w -> negb (unit_is more_b (ftext k) 0) = true -> h = like_type (contextual_highlight_type cx) (ftext k) -> rounds (at_ n cx) k -> rounds (at_ n cx) (joined w h :: k).
Proof. intros H R -> K. apply (rounds_tok _ [_] (at_ n cx)); [|exact K]. apply tok_name; [apply ident_plain; exact H|apply ident_name; [exact H|apply stop_by; exact R]]. Qed.
Lemma a_blank l k : not_before css_white (ftext k) -> rounds l k -> rounds l (bare (bs " ") :: k).
Proof. intros H K. apply (rounds_tok _ [_] l); [|exact K]. apply tok_white; [discriminate|apply white_by; reflexivity|exact H]. Qed.
Lemma ident_not_white w t : css_identifier w -> not_before css_white (w ++ t).
Proof. intros (c & u & -> & S & _). apply head_not. unfold css_start, letter in S. unfold css_white, css_newline. lia. Qed.
Lemma ident_not_word w t : css_identifier w -> exists c u, w ++ t = c :: u /\ css_start c.
Proof. intros (c & u & -> & S & _). exists c, (u ++ t). auto. Qed.
Lemma ident_by w : match w with c :: t => is_css_identifier_start c && forallb is_css_identifier t | [] => false end = true -> css_identifier w.
Proof. destruct w as [|c t]; [discriminate|]. intros H. apply andb_true_iff in H as [H1 H2]. exists c, t. split; [reflexivity|]. split; [apply start_iff; exact H1|apply chars_by; exact H2]. Qed.
Ltac ident_ := apply ident_by; reflexivity.
Ltac sym l := refine (rounds_tok _ [_] l _ _ _); [one_symbol|].
Ltac word := apply a_word; [assumption|reflexivity|reflexivity|].
Ltac done_ := apply rounds_end; constructor.
Ltac refute_ H := specialize (H false); vm_compute in H; discriminate H.

(** ** C174: the selectors of the rules in a conditional at-rule are highlighted as selectors. *)
Definition conditional (h1 h2 : N) (m x a p v b q w : str) : list fpiece :=
  [alone (bs "@") hl_name_macro_delim; joined m hl_name_macro; bare (bs " "); joined x hl_name_macro; alone (bs "{") hl_symbol_brace;
   joined a h1; alone (bs "{") hl_symbol_brace; joined p hl_markup_attr; alone (bs ":") hl_symbol_punc; joined v hl_name; alone (bs "}") hl_symbol_brace;
   joined b h2; alone (bs "{") hl_symbol_brace; joined q hl_markup_attr; alone (bs ":") hl_symbol_punc; joined w hl_name; alone (bs "}") hl_symbol_brace; alone (bs "}") hl_symbol_brace].
Theorem C174_css_conditional_refuted :
  ~ (forall m x a p v b q w, Forall css_identifier [m; x; a; p; v; b; q; w] -> ftokenizes highlight_css (conditional hl_markup_tag hl_markup_tag m x a p v b q w)).
Proof.
  intros H. specialize (H (bs "media") (bs "print") (bs "h1") (bs "color") (bs "red") (bs "h2") (bs "color") (bs "blue")).
  assert (F : Forall css_identifier [bs "media"; bs "print"; bs "h1"; bs "color"; bs "red"; bs "h2"; bs "color"; bs "blue"]) by (repeat (apply Forall_cons; [ident_|]); constructor).
  specialize (H F). refute_ H.
Qed.
Print Assumptions C174_css_conditional_refuted.
(** The first selector is highlighted as a property, those after it as values; the braces are still matched: a rule after the at-rule is highlighted well. *)
Theorem C174_css_conditional_tokens : forall m x a p v b q w s t, Forall css_identifier [m; x; a; p; v; b; q; w; s; t] ->
  ftokenizes highlight_css (conditional hl_markup_attr hl_name m x a p v b q w ++ [joined s hl_markup_tag; alone (bs "{") hl_symbol_brace; joined t hl_markup_attr]).
Proof.
  intros m x a p v b q w s t F. repeat match goal with H : Forall _ (_ :: _) |- _ => inversion H; subst; clear H end. apply rounds_exact. unfold conditional. cbn [app].
  refine (rounds_tok _ [_; _] (at_ 0 cx_at_prelude) _ _ _).
  { apply (lexeme_tok at_selector _ _ at_prelude). apply lex_at; [left; apply ident_plain; assumption|apply ident_name; [assumption|apply stop_by; reflexivity]]. }
  apply a_blank; [apply ident_not_white; assumption|]. word. sym (at_ 1 cx_block). word. sym (at_ 2 cx_block). word. sym (at_ 2 cx_value). word. sym (at_ 1 cx_value). word. sym (at_ 2 cx_block). word. sym (at_ 2 cx_value). word.
  sym (at_ 1 cx_value). sym (at_ 0 cx_top_level). word. sym (at_ 1 cx_block). word. done_.
Qed.
Print Assumptions C174_css_conditional_tokens.
Example C174_case : Forall css_identifier [bs "supports"; bs "not"; bs "nav"; bs "display"; bs "flex"; bs "main"; bs "margin"; bs "auto"; bs "body"; bs "color"].
Proof. repeat (apply Forall_cons; [ident_|]); constructor. Qed.

(** ** C175: the combinator of adjacent siblings is highlighted like the other combinators. *)
Definition siblings (plus : list fpiece) (a b p : str) : list fpiece :=
  joined a hl_markup_tag :: plus ++ [joined b hl_markup_tag; alone (bs "{") hl_symbol_brace; joined p hl_markup_attr].
Theorem C175_css_siblings_refuted :
  ~ (forall a b p, Forall css_identifier [a; b; p] -> ftokenizes highlight_css (siblings [joined (bs "+") hl_markup_tag] a b p)).
Proof. intros H. specialize (H (bs "h1") (bs "p") (bs "color") ltac:(repeat (apply Forall_cons; [ident_|]); constructor)). refute_ H. Qed.
Print Assumptions C175_css_siblings_refuted.
(** It is an error. *)
Lemma a_plus k : (exists c u, ftext k = c :: u /\ (css_start c \/ c = 32%N)) -> rounds (at_ 0 cx_top_level) k -> rounds (at_ 0 cx_top_level) (alone (bs "+") hl_error :: k).
Proof.
  intros (c & u & E & S) K. refine (rounds_tok _ [_] _ _ _ K). apply (tok_plain _ _ (ftext k) 43%N []); [reflexivity|discriminate|].
  change (css_switch 43 (43%N :: [] ++ ftext k) (at_ 0 cx_top_level)) with (if css_starts_with_number (43%N :: ftext k) then css_consume_numeric_token else emit_and_advance 1 hl_error).
  rewrite E. destruct (no_number_dash c u) as [_ X]; [unfold css_start, letter in S; unfold digit; lia|unfold css_start, letter in S; lia|]. rewrite X. apply fdoes_emit; [reflexivity|discriminate].
Qed.
Theorem C175_css_siblings_tokens : forall a b p, Forall css_identifier [a; b; p] ->
  ftokenizes highlight_css (siblings [alone (bs "+") hl_error] a b p)
  /\ ftokenizes highlight_css (siblings [bare (bs " "); alone (bs "+") hl_error; bare (bs " ")] a b p).
Proof.
  intros a b p F. repeat match goal with H : Forall _ (_ :: _) |- _ => inversion H; subst; clear H end. split; apply rounds_exact; unfold siblings; cbn [app]; word.
  - apply a_plus; [destruct (ident_not_word b (bs "{" ++ p)) as (c & u & E & S); [assumption|]; exists c, u; cbn [ftext map concat fst joined alone] in *; rewrite app_nil_r; auto|]. word. sym (at_ 1 cx_block). word. done_.
  - apply a_blank; [apply head_not; unfold css_white, css_newline; vm_compute; intuition discriminate|]. apply a_plus; [eexists; eexists; split; [reflexivity|right; reflexivity]|].
    apply a_blank; [apply ident_not_white; assumption|]. word. sym (at_ 1 cx_block). word. done_.
Qed.
Print Assumptions C175_css_siblings_tokens.
Example C175_case : Forall css_identifier [bs "h1"; bs "p"; bs "margin-top"].
Proof. repeat (apply Forall_cons; [ident_|]); constructor. Qed.

(** ** C176: the names of custom properties and of vendors' properties are highlighted like other names of properties. *)
Definition declaration (h : N) (a p v : str) : list fpiece :=
  [joined a hl_markup_tag; alone (bs "{") hl_symbol_brace; joined p h; alone (bs ":") hl_symbol_punc; joined v hl_name; alone (bs "}") hl_symbol_brace].
Definition dashed (p : str) : Prop := exists w, css_identifier w /\ (p = bs "-" ++ w \/ p = bs "--" ++ w).
Theorem C176_css_properties_refuted : ~ (forall a p v, css_identifier a -> dashed p -> css_identifier v -> ftokenizes highlight_css (declaration hl_markup_attr a p v)).
Proof.
  intros H. specialize (H (bs "a") (bs "--main-color") (bs "red") ltac:(ident_)). assert (D : dashed (bs "--main-color")) by (exists (bs "main-color"); split; [ident_|right; reflexivity]).
  specialize (H D ltac:(ident_)). refute_ H.
Qed.
Print Assumptions C176_css_properties_refuted.
(** They are highlighted as values. *)
Theorem C176_css_properties_tokens : forall a p v, css_identifier a -> dashed p -> css_identifier v -> ftokenizes highlight_css (declaration hl_name a p v).
Proof.
  intros a p v Ha (w & Hw & Hp) Hv. apply rounds_exact. unfold declaration. word. sym (at_ 1 cx_block). refine (rounds_tok _ [_] (at_ 1 cx_block) _ _ _).
  { destruct (ident_chars w Hw) as [Fw Nw]. assert (S : exists c t, w = c :: t /\ css_start c) by (destruct Hw as (c & t & -> & S & _); eauto). destruct S as (c & t & -> & S).
    assert (Fp : Forall css_char p) by (destruct Hp as [->| ->]; apply Forall_app; (split; [apply chars_by; reflexivity|exact Fw])).
    assert (Np : p <> []) by (destruct Hp as [->| ->]; discriminate). apply tok_dash.
    - destruct Hp as [->| ->]; [left; exists c, t|right; exists c, t]; (split; [cbn; rewrite app_nil_r; reflexivity|auto]).
    - destruct p as [|x p]; [congruence|]. apply (name_last _ (x :: p)); [exact Fp|apply stop_by; reflexivity]. }
  sym (at_ 1 cx_value). word. sym (at_ 0 cx_top_level). done_.
Qed.
Print Assumptions C176_css_properties_tokens.
Example C176_case : dashed (bs "-webkit-transform") /\ css_identifier (bs "none").
Proof. split; [exists (bs "webkit-transform"); split; [ident_|left; reflexivity]|ident_]. Qed.

(** ** C177: a declaration after an at-rule in a block is highlighted like other declarations. *)
Definition after_at_rule (hp hv : N) (colon : fpiece) (a m x p v : str) : list fpiece :=
  [joined a hl_markup_tag; alone (bs "{") hl_symbol_brace; alone (bs "@") hl_name_macro_delim; joined m hl_name_macro; bare (bs " "); joined x hl_name_macro; alone (bs ";") hl_symbol_punc;
   joined p hp; colon; joined v hv; alone (bs "}") hl_symbol_brace].
Theorem C177_css_at_rule_in_block_refuted :
  ~ (forall a m x p v, Forall css_identifier [a; m; x; p; v] -> ftokenizes highlight_css (after_at_rule hl_markup_attr hl_name (alone (bs ":") hl_symbol_punc) a m x p v)).
Proof. intros H. specialize (H (bs "a") (bs "apply") (bs "mixin") (bs "color") (bs "red") ltac:(repeat (apply Forall_cons; [ident_|]); constructor)). refute_ H. Qed.
Print Assumptions C177_css_at_rule_in_block_refuted.
(** It is highlighted as a selector. *)
Theorem C177_css_at_rule_in_block_tokens : forall a m x p v, Forall css_identifier [a; m; x; p; v] ->
  ftokenizes highlight_css (after_at_rule hl_markup_tag hl_markup_tag (joined (bs ":") hl_markup_tag) a m x p v).
Proof.
  intros a m x p v F. repeat match goal with H : Forall _ (_ :: _) |- _ => inversion H; subst; clear H end. apply rounds_exact. unfold after_at_rule. word. sym (at_ 1 cx_block).
  refine (rounds_tok _ [_; _] (at_ 1 cx_at_prelude) _ _ _).
  { assert (N : css_name hl_name_macro [joined m hl_name_macro] (bs " " ++ x ++ bs ";" ++ p ++ bs ":" ++ v ++ bs "}")) by (apply ident_name; [assumption|apply stop_by; reflexivity]).
    match goal with |- tok _ _ ?r _ => set (rest := r) end. assert (N2 : css_name hl_name_macro [joined m hl_name_macro] rest) by (apply ident_name; [assumption|apply stop_by; reflexivity]).
    apply (tok_plain _ _ rest 64%N (ftext [joined m hl_name_macro])); [reflexivity|discriminate|].
    change (css_switch 64 (64%N :: ftext [joined m hl_name_macro] ++ rest) (at_ 1 cx_block)) with
      (set_context cx_at_prelude ;; if starts_with_ident_sequence (ftext [joined m hl_name_macro] ++ rest) then emit_and_advance 1 hl_name_macro_delim ;; css_consume_ident_like_token hl_name_macro else emit_and_advance 1 hl_error).
    rewrite (starts_ident _ _ _ N2) by (left; apply ident_plain; assumption). eapply fdoes_nil; [apply fdoes_set_context|]. eapply fdoes_cons; [apply fdoes_emit; [reflexivity|discriminate]|]. apply ident_like; [|rewrite like_not_name by discriminate; exact N2].
    destruct (ident_plain m hl_name_macro ltac:(assumption)) as (c & t & -> & _). discriminate. }
  apply a_blank; [apply ident_not_white; assumption|]. word. sym (at_ 1 cx_top_level). word. sym (at_ 1 cx_top_level). word. sym (at_ 0 cx_top_level). done_.
Qed.
Print Assumptions C177_css_at_rule_in_block_tokens.
Example C177_case : Forall css_identifier [bs "a"; bs "include"; bs "button"; bs "width"; bs "auto"].
Proof. repeat (apply Forall_cons; [ident_|]); constructor. Qed.

(** ** C178: only the key word "important" is highlighted as a key word, not the start of a longer word. *)
Definition annotated (l : list fpiece) (a p v : str) : list fpiece :=
  [joined a hl_markup_tag; alone (bs "{") hl_symbol_brace; joined p hl_markup_attr; alone (bs ":") hl_symbol_punc; joined v hl_name] ++ l ++ [alone (bs "}") hl_symbol_brace].
Theorem C178_css_important_refuted : ~ (forall a p v x, Forall css_identifier [a; p; v; x] -> ftokenizes highlight_css (annotated [bare (bs "!"); joined (bs "important" ++ x) hl_name] a p v)).
Proof. intros H. specialize (H (bs "a") (bs "color") (bs "red") (bs "ish") ltac:(repeat (apply Forall_cons; [ident_|]); constructor)). refute_ H. Qed.
Print Assumptions C178_css_important_refuted.
(** The word is split. *)
Lemma a_important n cx w k rest : Forall css_white w -> Forall2 css_same_letter k (bs "important") -> (exists x t, rest = x ++ t /\ Forall css_char x /\ not_before css_more t) -> tok (at_ n cx) [alone (bs "!" ++ w ++ k) hl_keyword] rest (at_ n cx).
Proof.
  intros W K (x & t & -> & X & R). apply (tok_plain _ _ (x ++ t) 33%N (w ++ k)); [cbn; rewrite app_nil_r; reflexivity|discriminate|]. set (l := at_ n cx). set (r := (w ++ k) ++ x ++ t).
  destruct (important_eq k K x) as (E1 & E2 & E3).
  assert (Hw : html_match_whitespace r = length w).
  { unfold r. rewrite <- app_assoc. apply (len_if _ css_white); [exact white_iff|exact W|]. destruct k as [|c k]; [discriminate|]. apply head_not. inversion E2 as [|? ? Fc _]. unfold css_char, letter, digit in Fc. unfold css_white, css_newline. lia. }
  assert (Hs : skipn (length w) r = (k ++ x) ++ t) by (unfold r; rewrite <- !app_assoc; apply skipn_app_exact).
  assert (Hm : match_ident_sequence ((k ++ x) ++ t) = Ok (length (k ++ x))).
  { pose proof (name_match hl_name (fopt_joined (k ++ x) hl_name) t (name_last _ (k ++ x) t (proj2 (Forall_app _ _ _) (conj E2 X)) R)) as Y. rewrite fopt_joined_text in Y. exact Y. }
  change (css_switch 33 (33%N :: r) l) with
    (let white := html_match_whitespace r in
     let! s := substr_from (33%N :: r) (1 + white) in
     let! n := lift (match_ident_sequence s) in
     if negb (n =? 0) && starts_with_ignore_case (firstn n s) (bs "important")
     then emit_and_advance (1 + white + 9) hl_keyword else advance 1 : M css_loc unit). cbv zeta. rewrite Hw.
  apply fdoes_substr; [cbn [length Nat.add]; unfold r; rewrite !app_length; lia|]. cbn [Nat.add skipn]. rewrite Hs. eapply fdoes_lift; [exact Hm|]. rewrite firstn_app, Nat.sub_diag, firstn_all. cbn [firstn]. rewrite app_nil_r.
  unfold starts_with_ignore_case. rewrite E1, app_length, E3. cbn [Nat.add Nat.eqb negb andb]. change (length (bs "important")) with 9. assert (Z : (S (S (S (S (S (S (S (S (S (length x))))))))) <? 9) = false) by (apply Nat.ltb_ge; lia). rewrite Z. apply fdoes_emit; [rewrite !app_length; cbn; lia|discriminate].
Qed.
Theorem C178_css_important_tokens : forall a p v w x, Forall css_identifier [a; p; v; x] -> Forall css_white w ->
  ftokenizes highlight_css (annotated [alone (bs "!" ++ w ++ bs "important") hl_keyword; joined x hl_name] a p v).
Proof.
  intros a p v w x F W. repeat match goal with H : Forall _ (_ :: _) |- _ => inversion H; subst; clear H end. apply rounds_exact. unfold annotated. cbn [app]. word. sym (at_ 1 cx_block). word. sym (at_ 1 cx_value). word.
  refine (rounds_tok _ [_] (at_ 1 cx_value) _ _ _).
  { apply a_important; [exact W|repeat (apply Forall2_cons; [left; reflexivity|]); apply Forall2_nil|]. exists x, (bs "}"). split; [reflexivity|]. split; [apply ident_chars; assumption|apply stop_by; reflexivity]. }
  word. sym (at_ 0 cx_top_level). done_.
Qed.
Print Assumptions C178_css_important_tokens.
Example C178_case : Forall css_identifier [bs "a"; bs "color"; bs "red"; bs "ly"].
Proof. repeat (apply Forall_cons; [ident_|]); constructor. Qed.

(** ** C179: a semicolon in an unquoted URL does not end the declaration. *)
Definition url (h : N) (a p x y : str) : list fpiece :=
  [joined a hl_markup_tag; alone (bs "{") hl_symbol_brace; joined p hl_markup_attr; alone (bs ":") hl_symbol_punc; joined (bs "url") hl_name_function; alone (bs "(") hl_symbol_parens;
   joined x hl_name; alone (bs ";") hl_symbol_punc; joined y h; alone (bs ")") hl_symbol_parens; alone (bs "}") hl_symbol_brace].
Theorem C179_css_url_refuted : ~ (forall a p x y, Forall css_identifier [a; p; x; y] ->
  exists ops, highlight_css (ftext (url hl_name a p x y)) false = Ok (true, ops)
    /\ forall b n f, length a + length p + length x + 7 <= b -> ~ In (OEmit b n hl_markup_attr f) ops).
Proof.
  intros H. specialize (H (bs "a") (bs "src") (bs "data") (bs "base64") ltac:(repeat (apply Forall_cons; [ident_|]); constructor)). destruct H as (ops & E & H). vm_compute in E. injection E as <-.
  apply (H 15 6 true); [vm_compute; lia|]. cbn. tauto.
Qed.
Print Assumptions C179_css_url_refuted.
(** The rest of the URL is highlighted as a property. *)
Theorem C179_css_url_tokens : forall a p x y, Forall css_identifier [a; p; x; y] -> ftokenizes highlight_css (url hl_markup_attr a p x y).
Proof.
  intros a p x y F. repeat match goal with H : Forall _ (_ :: _) |- _ => inversion H; subst; clear H end. apply rounds_exact. unfold url. assert (U : css_identifier (bs "url")) by ident_.
  word. sym (at_ 1 cx_block). word. sym (at_ 1 cx_value). word. sym (at_ 1 cx_value). word. sym (at_ 1 cx_block). word. sym (at_ 1 cx_block). sym (at_ 0 cx_top_level). done_.
Qed.
Print Assumptions C179_css_url_tokens.
Example C179_case : Forall css_identifier [bs "a"; bs "background"; bs "data"; bs "base64"].
Proof. repeat (apply Forall_cons; [ident_|]); constructor. Qed.

(** ** C180: names with non-ASCII letters are highlighted. *)
Theorem C180_css_non_ascii_refuted : ~ (forall c, scalar_value c -> (128 <= c)%N -> exists ops, highlight_css (utf8_encoding c ++ bs "{}") false = Ok (true, OEmit 0 (length (utf8_encoding c)) hl_markup_tag true :: ops)).
Proof. intros H. destruct (H 233%N) as (ops & E); [split; [vm_compute; discriminate|vm_compute; intros [A B]; apply A; reflexivity]|vm_compute; discriminate|]. vm_compute in E. discriminate E. Qed.
Print Assumptions C180_css_non_ascii_refuted.
(** They get no highlight. *)
Lemma lead_byte c : scalar_value c -> (128 <= c)%N -> exists b t, utf8_encoding c = b :: t /\ (128 <= b)%N /\ sequence_length b = length (b :: t).
Proof.
  intros S H. destruct (C16_encode_decode c [] S (Forall_nil _)) as (E & B & _ & D). rewrite E, app_nil_r in *.
  assert (L : exists b t, utf8_encoding c = b :: t /\ (128 <= b)%N).
  { unfold utf8_encoding. assert (X : (c <? 0x80)%N = false) by (apply N.ltb_ge; exact H). rewrite X. destruct (c <? 0x800)%N; [|destruct (c <? 0x10000)%N]; (eexists; eexists; split; [reflexivity|]; lia). }
  destruct L as (b & t & L & Hb). exists b, t. split; [exact L|]. split; [exact Hb|]. rewrite L in D. unfold decode_and_length in D. destruct (sequence_length b =? 0); [discriminate|]. destruct (length (b :: t) <? sequence_length b); [discriminate|].
  destruct (decode_sequence _ _) as [[v|]|]; cbn [bind] in D; congruence.
Qed.
Lemma a_letter l c k : scalar_value c -> (128 <= c)%N -> rounds l k -> rounds l (bare (utf8_encoding c) :: k).
Proof.
  intros S H K. refine (rounds_tok _ [_] _ _ _ K). destruct (lead_byte c S H) as (b & t & E & Hb & L). rewrite E. apply (tok_plain _ _ (ftext k) b t); [cbn; rewrite app_nil_r; reflexivity|lia|].
  assert (X : css_switch b (b :: t ++ ftext k) l = advance (sequence_length b)).
  { skip_tests b. assert (D : is_ascii_digit b = false) by (unfold is_ascii_digit, between; apply andb_false_iff; rewrite !N.leb_gt; lia). rewrite D, (false_of _ _ (start_iff b)) by (unfold css_start, letter; lia). reflexivity. }
  rewrite X. apply fdoes_advance. exact L.
Qed.
Lemma letters l cs k : Forall (fun c => scalar_value c /\ 128 <= c)%N cs -> rounds l k -> rounds l (map (fun c => bare (utf8_encoding c)) cs ++ k).
Proof. intros F K. induction F as [|c cs [S H] _ IH]; [exact K|]. cbn [map app]. apply a_letter; assumption. Qed.
Theorem C180_css_non_ascii_tokens : forall a p v, Forall (fun c => scalar_value c /\ 128 <= c)%N (a ++ p ++ v) ->
  let name := map (fun c => bare (utf8_encoding c)) in
  ftokenizes highlight_css (name a ++ alone (bs "{") hl_symbol_brace :: name p ++ alone (bs ":") hl_symbol_punc :: name v ++ [alone (bs "}") hl_symbol_brace]).
Proof.
  intros a p v F. apply Forall_app in F as [Fa F]. apply Forall_app in F as [Fp Fv]. cbv zeta. apply rounds_exact. apply letters; [exact Fa|]. sym (at_ 1 cx_block). apply letters; [exact Fp|]. sym (at_ 1 cx_value). apply letters; [exact Fv|]. sym (at_ 0 cx_top_level). done_.
Qed.
Print Assumptions C180_css_non_ascii_tokens.
Example C180_case : Forall (fun c => scalar_value c /\ 128 <= c)%N [233; 0x4E2D; 0x1F600]%N.
Proof. repeat constructor; try (vm_compute; discriminate); intros [A B]; vm_compute in A, B; first [apply A; reflexivity | apply B; reflexivity]. Qed.

(** ** C181: a line break can be escaped in a string, also one of two characters. *)
Definition spliced (l : list fpiece) (a p x : str) : list fpiece :=
  [joined a hl_markup_tag; alone (bs "{") hl_symbol_brace; joined p hl_markup_attr; alone (bs ":") hl_symbol_punc; alone (34%N :: x) hl_string] ++ l.
Theorem C181_css_line_break_refuted : ~ (forall a p x y, Forall css_identifier [a; p; x; y] ->
  ftokenizes highlight_css (spliced [alone [92; 13; 10]%N hl_string_escape; alone (y ++ [34%N]) hl_string; alone (bs "}") hl_symbol_brace] a p x)).
Proof. intros H. specialize (H (bs "a") (bs "content") (bs "x") (bs "y") ltac:(repeat (apply Forall_cons; [ident_|]); constructor)). refute_ H. Qed.
Print Assumptions C181_css_line_break_refuted.
(** The string ends between the two, and its end starts another string. *)
Lemma string_cut l x k : Forall css_char x -> hd_error (ftext k) = Some 10%N -> rounds l k -> rounds l (alone (34%N :: x) hl_string :: alone [92; 13]%N hl_string_escape :: k).
Proof.
  intros F R K. refine (rounds_tok _ [_; _] _ _ _ K). set (rest := ftext k) in *. set (p1 := alone (34%N :: x) hl_string). set (p2 := alone [92; 13]%N hl_string_escape).
  assert (T : ftext [p1; p2] = [34%N] ++ x ++ [92; 13]%N) by reflexivity.
  apply (tok_plain _ _ rest 34%N (x ++ [92; 13]%N)); [exact T|discriminate|]. change (css_switch 34 (34%N :: (x ++ [92; 13]%N) ++ rest) l) with (css_consume_string_token 34%N). apply fdoes_scan.
  assert (G : Forall (fun c => c <> 34%N /\ c <> 92%N /\ ~ css_newline c) x) by (eapply Forall_impl; [|exact F]; cbn beta; intros c C; unfold css_char, letter, digit in C; unfold css_newline; lia).
  apply fscans_run with (m := length ([34%N] ++ x)); [cbn; lia|rewrite T, !app_length; cbn; lia| |].
  - intros j Hj. rewrite T, <- !app_assoc. apply (string_at 34%N l []); [exact G|exact Hj].
  - change [p1; p2] with ([p1; p2] ++ []). eapply fscans_more with (a1 := 0) (s1 := l).
    + unfold css_string_body. apply fdoes_get. rewrite T. change (ftext [] ++ rest) with rest. assert (B : (length ([34%N] ++ x) <? length (([34%N] ++ x ++ [92; 13]%N) ++ rest)) = true) by (apply Nat.ltb_lt; rewrite !app_length; cbn; lia). rewrite B.
      apply fdoes_at with (c := 92%N); [rewrite <- app_assoc, <- (app_assoc x), app_assoc, nth_error_app2, Nat.sub_diag by lia; reflexivity|]. change (92 =? 34)%N with false. change (is_css_newline 92) with false. change (92 =? ch "\")%N with true. cbv iota.
      apply (fdoes_cons _ _ _ p1 [p2] _ tt l); [apply fdoes_emit; [reflexivity|discriminate]|]. apply fdoes_get. change (ftext [p2] ++ rest) with (92%N :: 13%N :: rest).
      apply fdoes_substr; [cbn; lia|]. cbn [skipn]. rewrite escaped_ascii by (unfold hex_digit; lia). eapply fdoes_last; [apply fdoes_emit; [reflexivity|discriminate]|apply fdoes_ret].
    + rewrite T, !app_length. cbn. lia.
    + apply fscans_end. unfold css_string_body. apply fdoes_get. change (ftext [] ++ rest) with rest. destruct rest as [|c t] eqn:Er; [discriminate|]. injection R as ->. cbn [length Nat.ltb Nat.leb].
      apply fdoes_at with (c := 10%N); [reflexivity|]. change (10 =? 34)%N with false. change (is_css_newline 10) with true. cbv iota. eapply fdoes_nil; [apply fdoes_ret|apply fdoes_ret].
Qed.
Theorem C181_css_line_break_tokens : forall a p x y, Forall css_identifier [a; p; x; y] ->
  ftokenizes highlight_css (spliced [alone [92; 13]%N hl_string_escape; bare [10%N]; joined y hl_name; alone (34%N :: bs "}") hl_string] a p x).
Proof.
  intros a p x y F. repeat match goal with H : Forall _ (_ :: _) |- _ => inversion H; subst; clear H end. apply rounds_exact. unfold spliced. cbn [app]. word. sym (at_ 1 cx_block). word. sym (at_ 1 cx_value).
  apply string_cut; [apply ident_chars; assumption|reflexivity|]. refine (rounds_tok _ [_] (at_ 1 cx_value) _ _ _); [apply tok_white; [discriminate|apply white_by; reflexivity|apply ident_not_white; assumption]|]. word.
  refine (rounds_tok _ [_] (at_ 1 cx_value) _ _ _); [|done_]. apply (tok_string _ 34%N); [left; reflexivity|]. refine (string_open 34%N [34%N] (bs "}") [] _ _); [|discriminate].
  apply Forall_cons; [|constructor]. repeat split; try discriminate. intros [H|[H|H]]; discriminate H.
Qed.
Print Assumptions C181_css_line_break_tokens.
Example C181_case : Forall css_identifier [bs "a"; bs "content"; bs "first"; bs "second"].
Proof. repeat (apply Forall_cons; [ident_|]); constructor. Qed.
