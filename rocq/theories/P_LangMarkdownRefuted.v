(** * Markdown: where the tokens are not those that CommonMark prescribes *)
From Coq Require Import List NArith ZArith Bool Arith Lia.
From Verif Require Import M_Base L_Base S_Tokens M_Utf8 L_Utf8 M_Emit M_Types M_Chars M_Parse M_Api M_Highlighter S_Highlight M_LangHtml M_LangMarkdown S_LangHtml S_Lexemes L_Lexemes L_Number L_Escapes S_LangMarkdown L_MarkdownMatch P_LangMarkdownExact P_LangMarkdownDoc.
Import ListNotations.

Definition word (t : str) : Prop := t <> [] /\ Forall letter t.
Lemma letter_plain c : letter c -> ~ md_special c.
Proof. unfold letter, md_special. cbn. lia. Qed.
Lemma word_last t : word t -> exists u c, t = u ++ [c] /\ Forall letter u /\ letter c.
Proof. intros [Ne F]. destruct (exists_last Ne) as (u & c & ->). apply Forall_app in F as [A B]. apply Forall_inv in B. eauto 6. Qed.
Lemma word_first t : word t -> exists c u, t = c :: u /\ letter c /\ Forall letter u.
Proof. intros [Ne F]. destruct F as [|c u A B]; [contradiction|]. eauto 6. Qed.
Lemma word_inlines h prev t l : word t -> not_before (fun c => ~ md_special c) (text l) -> (forall c, letter c -> md_inlines h false c l) -> md_inlines h false prev ((t, h) :: l).
Proof.
  intros W N H. destruct (word_last t W) as (u & c & -> & Fu & Fc). apply inlines_plain; [|exact N|apply H; exact Fc]. apply Forall_app. split; [|apply Forall_cons; [apply letter_plain; exact Fc|apply Forall_nil]].
  eapply Forall_impl; [|exact Fu]. apply letter_plain.
Qed.
Lemma nospecial (c : N) r : md_special c -> not_before (fun c => ~ md_special c) (c :: r).
Proof. intros H. apply not_before_cons. tauto. Qed.
Lemma one_line_word t : Forall letter t -> Forall (fun c => c <> 10 /\ c <> 13)%N t.
Proof. apply Forall_impl. intros c K. unfold letter in K. lia. Qed.
Local Ltac lines := unfold one_line, formatting; repeat rewrite text_cons; cbn [text map concat fst]; repeat (apply Forall_app; split); try (apply one_line_word; match goal with H : word _ |- _ => exact (proj2 H) end); repeat (apply Forall_cons; [cbn; lia|]); try apply Forall_nil.
(** A line that begins with a letter is a paragraph. *)
Lemma paragraph_of open l t u : word t -> text l = t ++ u -> md_inlines None open 0 l -> md_block false open l.
Proof.
  intros W E H. destruct (word_first t W) as (c & t' & -> & Hc & _). cbn [app] in E. unfold letter in Hc. apply block_paragraph; [exact H|rewrite E; discriminate| | | | | |].
  - apply (first_no _ _ _ 0 c (t' ++ u) heading_first); [rewrite E; reflexivity|cbn; lia|unfold is_char; cbn; lia].
  - apply (first_no _ _ _ 0 c (t' ++ u) thematic_first); [rewrite E; reflexivity|cbn; lia|cbn; lia].
  - rewrite E. intros (i & m & x & r & F & M & _). destruct i as [|i]; [|injection F as -> _; cbn in Hc; lia]. destruct (marker_first m M) as (y & v & -> & Hy). injection F as <- _. unfold digit in *. cbn in Hy. lia.
  - rewrite E. intros (i & r & Li & F). destruct i as [|i]; injection F as -> _; cbn in Hc; lia.
  - rewrite E. intros (i & r & F & [-> | ->]); injection F as -> _; cbn in Hc; lia.
  - intros _. rewrite E. split.
    + apply (not_white_in c []). unfold md_white, blank_char. lia.
    + intros (i & x & n & info & Li & F & Hx & Hn & _). destruct i as [|i]; [|injection F as -> _; cbn in Hc; lia]. destruct n as [|n]; [lia|]. injection F as <- _. cbn in Hx. lia.
Qed.
Lemma line_tokens l open : md_block false open l -> one_line l -> text l <> [] -> tokenizes highlight_markdown l.
Proof. intros B L N. apply C133_markdown_document. eapply lines_last; [eapply line_block; exact B|exact L|exact N]. Qed.
Lemma tokenizes_same h l l' : text l = text l' -> tokens 0 l = tokens 0 l' -> tokenizes h l -> tokenizes h l'.
Proof. intros A B H strict. rewrite <- A, <- B. apply H. Qed.
Lemma heading_tokens l u c : md_inlines (Some hl_text_heading) false 0 l -> text l = u ++ [c] -> c <> ch " " -> c <> ch "#" -> one_line l -> tokenizes highlight_markdown ((bs "#", Some hl_symbol_formatting) :: (bs " ", None) :: l).
Proof.
  intros H E N1 N2 L. eapply tokenizes_same; [| |eapply line_tokens; [apply (block_heading false false 0 1 (ch " ") l []); [lia|lia|left; reflexivity|exact H|]| |]].
  - unfold formatting. rewrite !text_cons, text_app, text_one, app_nil_r. reflexivity.
  - unfold formatting. cbn [tokens spaces repeat length Nat.add]. rewrite tokens_app. cbn [tokens]. rewrite app_nil_r. reflexivity.
  - left. exists 0. split; [reflexivity|]. left. exists u, c. auto.
  - unfold one_line, formatting. rewrite !text_cons, text_app, text_one, app_nil_r. do 2 (apply Forall_cons; [cbn; lia|]). exact L.
  - discriminate.
Qed.

(** ** C134: the text of a heading *)
(** Emphasised text in a heading is not highlighted as a heading, nor as anything else; an ampersand is not either. *)
Theorem C134_markdown_heading_text_refuted : forall t u, word t -> word u ->
  tokenizes highlight_markdown [(bs "#", Some hl_symbol_formatting); (bs " ", None); (bs "*", Some hl_symbol_formatting); (t, None); (bs "*", Some hl_symbol_formatting)]
  /\ tokenizes highlight_markdown [(bs "#", Some hl_symbol_formatting); (bs " ", None); (t, Some hl_text_heading); (bs "&", None); (u, Some hl_text_heading)].
Proof.
  intros t u Wt Wu. split.
  - eapply (heading_tokens _ (bs "*" ++ t) (ch "*")); [|unfold formatting; rewrite !text_cons, <- app_assoc; reflexivity|discriminate|discriminate|lines].
    apply (inlines_emphasis _ false 0 (ch "*") 1 [(t, None)] []); [left; reflexivity|lia|discriminate| | | | |apply not_before_nil|discriminate|apply inlines_end].
    + apply word_inlines; [exact Wt|apply not_before_nil|intros; apply inlines_end].
    + rewrite text_one. exact (proj1 Wt).
    + rewrite text_one. destruct (word_first t Wt) as (c & v & -> & Hc & _). apply not_before_cons. unfold letter in Hc. unfold md_white, blank_char. cbn. lia.
    + rewrite text_one. destruct Wt as [_ F]. assert (K : forall v p, Forall letter v -> ~ md_white p -> emphasis_text (ch "*") 1 p v).
      { induction v as [|x v IH]; intros p G Np; [apply emphasis_end; exact Np|]. inversion G as [|? ? Gx Gv]; subst. unfold letter in Gx. apply emphasis_char; [unfold tick; cbn; lia|cbn; lia|]. apply IH; [exact Gv|unfold md_white, blank_char; lia]. }
      apply K; [exact F|unfold md_white, blank_char; cbn; lia].
  - destruct (word_last u Wu) as (v & c & Eu & _ & Hc). eapply (heading_tokens _ (t ++ bs "&" ++ v) c); [| | | |lines].
    + apply word_inlines; [exact Wt|apply nospecial; cbn; tauto|]. intros x Hx. apply (inlines_atom _ false x [(bs "&", None)] (ch "&") [(u, Some hl_text_heading)]).
      * apply atom_lone. apply (lone_ampersand _ _ u []); [rewrite text_one, app_nil_r; reflexivity| |apply not_before_nil]. eapply Forall_impl; [|exact (proj2 Wu)]. intros y Hy. left. exact Hy.
      * apply word_inlines; [exact Wu|apply not_before_nil|intros; apply inlines_end].
    + rewrite !text_cons, Eu, <- !app_assoc. reflexivity.
    + unfold letter in Hc. cbn. lia.
    + unfold letter in Hc. cbn. lia.
Qed.
(** Text without special characters is highlighted as a heading throughout. *)
Theorem C134_markdown_heading_text_partial : forall t c, Forall (fun x => ~ md_special x /\ x <> 10 /\ x <> 13)%N (t ++ [c]) -> c <> ch " " -> c <> ch "#" ->
  tokenizes highlight_markdown [(bs "#", Some hl_symbol_formatting); (bs " ", None); (t ++ [c], Some hl_text_heading)].
Proof.
  intros t c F N1 N2. apply (heading_tokens _ t c); [|apply text_one|exact N1|exact N2|].
  - apply inlines_plain; [|apply not_before_nil|apply inlines_end]. eapply Forall_impl; [|exact F]. intros x K. apply K.
  - unfold one_line. rewrite text_one. eapply Forall_impl; [|exact F]. intros x K. apply K.
Qed.
Example C134_case : word (bs "Faster") /\ word (bs "A").
Proof. split; (split; [discriminate|]); repeat (apply Forall_cons; [unfold letter; cbn; lia|]); apply Forall_nil. Qed.
Print Assumptions C134_markdown_heading_text_refuted.
Print Assumptions C134_markdown_heading_text_partial.

Lemma emphasis_word n v r : Forall letter v -> (forall p, emphasis_text (ch "*") n p r) -> forall p, emphasis_text (ch "*") n p (v ++ r).
Proof.
  intros F H. induction F as [|x v Fx Fv IH]; intros p; [apply H|]. unfold letter in Fx. cbn [app]. apply emphasis_char; [unfold tick; cbn; lia|cbn; lia|apply IH].
Qed.
(** ** C135: escaped delimiters *)
(** An escaped asterisk ends emphasis, and the asterisk that should end it is left over. *)
Theorem C135_markdown_escaped_delimiter_refuted : forall w a b, word w -> word a -> word b ->
  tokenizes highlight_markdown [(w, None); (bs "*", Some hl_symbol_formatting); (a, None); (bs "\", None); (bs "*", Some hl_symbol_formatting); (b, None); (bs "*", None)].
Proof.
  intros w a b Ww Wa Wb. eapply line_tokens; [eapply (paragraph_of false _ w _ Ww); [rewrite text_cons; reflexivity|]|lines|rewrite text_cons; intros E; apply app_eq_nil in E as [E _]; exact (proj1 Ww E)].
  apply word_inlines; [exact Ww|apply nospecial; cbn; tauto|]. intros x Hx.
  apply (inlines_emphasis _ false x (ch "*") 1 [(a, None); (bs "\", None)] [(b, None); (bs "*", None)]); [left; reflexivity|lia|discriminate| | | | | |discriminate|].
  - apply word_inlines; [exact Wa|apply nospecial; cbn; tauto|]. intros y Hy. apply (inlines_atom _ false y [(bs "\", None)] (ch "\") []); [|apply inlines_end]. apply atom_lone, lone_backslash, not_before_nil.
  - discriminate || (rewrite text_cons; intros E; apply app_eq_nil in E as [_ E]; discriminate).
  - rewrite text_cons. destruct (word_first a Wa) as (c & v & -> & Hc & _). apply not_before_cons. unfold letter in Hc. unfold md_white, blank_char. cbn. lia.
  - rewrite text_cons, text_one. apply emphasis_word; [exact (proj2 Wa)|]. intros p. apply emphasis_char; [discriminate|discriminate|]. apply emphasis_end. unfold md_white, blank_char. cbn. lia.
  - rewrite text_cons. destruct (word_first b Wb) as (c & v & -> & Hc & _). apply not_before_cons. unfold letter in Hc. unfold is_char. cbn. lia.
  - apply word_inlines; [exact Wb|apply nospecial; cbn; tauto|]. intros y Hy. apply (inlines_atom _ false y [(bs "*", None)] (ch "*") []); [|apply inlines_end].
    apply atom_lone, (lone_space _ _ _ 0 []); [left; reflexivity|lia|reflexivity|apply not_before_nil].
Qed.
(** Any other escape between the delimiters is left inside the emphasis. *)
Theorem C135_markdown_escaped_delimiter_partial : forall w a p b, word w -> word a -> word b -> md_punctuation p -> p <> ch "*" -> p <> tick ->
  tokenizes highlight_markdown [(w, None); (bs "*", Some hl_symbol_formatting); (a, None); ([ch "\"; p], Some hl_string_escape); (b, None); (bs "*", Some hl_symbol_formatting)].
Proof.
  intros w a p b Ww Wa Wb Hp N1 N2. eapply line_tokens; [eapply (paragraph_of false _ w _ Ww); [rewrite text_cons; reflexivity|]| |rewrite text_cons; intros E; apply app_eq_nil in E as [E _]; exact (proj1 Ww E)].
  2:{ unfold one_line. rewrite !text_cons. unfold md_punctuation in Hp. change (text []) with (@nil N). repeat (apply Forall_app; split); try (apply one_line_word; first [exact (proj2 Ww)|exact (proj2 Wa)|exact (proj2 Wb)]); repeat (apply Forall_cons; [cbn; lia|]); apply Forall_nil. }
  apply word_inlines; [exact Ww|apply nospecial; cbn; tauto|]. intros x Hx.
  apply (inlines_emphasis _ false x (ch "*") 1 [(a, None); ([ch "\"; p], Some hl_string_escape); (b, None)] []); [left; reflexivity|lia|discriminate| | | | |apply not_before_nil|discriminate|apply inlines_end].
  - apply word_inlines; [exact Wa|apply nospecial; cbn; tauto|]. intros y Hy. apply (inlines_atom _ false y [([ch "\"; p], Some hl_string_escape)] p [(b, None)]); [apply atom_escape; exact Hp|].
    apply word_inlines; [exact Wb|apply not_before_nil|intros; apply inlines_end].
  - rewrite text_cons. intros E; apply app_eq_nil in E as [_ E]; discriminate.
  - rewrite text_cons. destruct (word_first a Wa) as (c & v & -> & Hc & _). apply not_before_cons. unfold letter in Hc. unfold md_white, blank_char. cbn. lia.
  - rewrite text_cons. apply emphasis_word; [exact (proj2 Wa)|]. intros q. rewrite text_cons, text_one. apply emphasis_char; [discriminate|discriminate|]. apply emphasis_char; [exact N2|exact N1|].
    destruct (word_last b Wb) as (v & c & -> & Fv & Fc). apply emphasis_word; [exact Fv|]. intros r. unfold letter in Fc. apply emphasis_char; [unfold tick; cbn; lia|cbn; lia|]. apply emphasis_end. unfold md_white, blank_char. lia.
Qed.
Example C135_case : word (bs "w") /\ word (bs "a") /\ word (bs "b") /\ md_punctuation (ch "!").
Proof. repeat split; try discriminate; repeat (apply Forall_cons; [unfold letter; cbn; lia|]); try apply Forall_nil. unfold md_punctuation. cbn. lia. Qed.
Print Assumptions C135_markdown_escaped_delimiter_refuted.
Print Assumptions C135_markdown_escaped_delimiter_partial.

(** ** C136: parentheses in link destinations *)
(** The destination of [[t](u(v)x)] ends at the first closing parenthesis, although the parentheses in it are balanced. *)
Theorem C136_markdown_link_parentheses_refuted : forall w t u v, word w -> word t -> word u -> word v ->
  tokenizes highlight_markdown [(w, None); (bs "[", Some hl_symbol_formatting); (t, None); (bs "](", Some hl_symbol_formatting); (u ++ bs "(" ++ v, Some hl_text_link); (bs ")", Some hl_symbol_formatting); (bs ")", None)].
Proof.
  intros w t u v Ww Wt Wu Wv.
  assert (U : forall a r, Forall letter a -> plain_url r -> plain_url (a ++ r)).
  { intros a r F H. induction F as [|x a Fx Fa IH]; [exact H|]. unfold letter in Fx. apply url_char; [cbn; lia|cbn; lia|unfold md_white, blank_char; lia|exact IH]. }
  assert (B : forall a, Forall letter a -> balanced a).
  { intros a F. induction F as [|x a Fx Fa IH]; [apply balanced_end|]. unfold letter in Fx. apply balanced_char; [cbn; lia|exact IH]. }
  eapply tokenizes_same; [| |eapply line_tokens; [eapply (paragraph_of false ((w, None) :: formatting (bs "[") :: [(t, None)] ++ formatting (bs "](") :: opt_piece (u ++ bs "(" ++ v) hl_text_link ++ ([], None) :: formatting (bs ")") :: [(bs ")", None)]) w _ Ww); [rewrite text_cons; reflexivity|]| |]].
  - destruct u as [|c u]; [elim (proj1 Wu); reflexivity|]. unfold opt_piece, formatting. cbn [app]. rewrite !text_cons. reflexivity.
  - destruct u as [|c u]; [elim (proj1 Wu); reflexivity|]. unfold opt_piece, formatting. cbn [app tokens]. cbn [length]. rewrite !Nat.add_0_r. reflexivity.
  - apply word_inlines; [exact Ww|apply nospecial; cbn; tauto|]. intros x Hx. apply inlines_link.
    + apply word_inlines; [exact Wt|apply not_before_nil|intros; apply inlines_end].
    + rewrite text_one. apply B. exact (proj2 Wt).
    + left. split.
      * apply U; [exact (proj2 Wu)|]. apply url_char; [discriminate|discriminate|unfold md_white, blank_char; cbn; lia|]. rewrite <- (app_nil_r v). apply U; [exact (proj2 Wv)|apply url_end].
      * destruct (word_first u Wu) as (c & z & -> & Hc & _). apply not_before_cons. unfold letter in Hc. unfold is_char. cbn. lia.
    + split; [intros []|apply not_before_nil].
    + apply (inlines_plain _ false _ [] (ch ")")); [|apply not_before_nil|apply inlines_end]. apply Forall_cons; [unfold md_special; cbn; lia|apply Forall_nil].
  - unfold one_line, formatting. rewrite text_cons, text_cons, text_app, text_one, text_cons, text_app, opt_piece_text, !text_cons. change (text []) with (@nil N). repeat (apply Forall_app; split); try (apply one_line_word; first [exact (proj2 Ww)|exact (proj2 Wt)|exact (proj2 Wu)|exact (proj2 Wv)]); repeat (apply Forall_cons; [cbn; lia|]); apply Forall_nil.
  - rewrite text_cons. intros E; apply app_eq_nil in E as [E _]; exact (proj1 Ww E).
Qed.
(** Destinations without closing parentheses or in angle brackets are highlighted up to the parenthesis that ends the link. *)
Theorem C136_markdown_link_parentheses_partial : forall w t u, word w -> word t -> destination u -> u <> [] -> ~ In 10%N u -> ~ In 13%N u ->
  tokenizes highlight_markdown [(w, None); (bs "[", Some hl_symbol_formatting); (t, None); (bs "](", Some hl_symbol_formatting); (u, Some hl_text_link); (bs ")", Some hl_symbol_formatting)].
Proof.
  intros w t u Ww Wt Hu Nu L1 L2.
  assert (B : forall a, Forall letter a -> balanced a).
  { intros a F. induction F as [|x a Fx Fa IH]; [apply balanced_end|]. unfold letter in Fx. apply balanced_char; [cbn; lia|exact IH]. }
  eapply tokenizes_same; [| |eapply line_tokens; [eapply (paragraph_of false ((w, None) :: formatting (bs "[") :: [(t, None)] ++ formatting (bs "](") :: opt_piece u hl_text_link ++ ([], None) :: formatting (bs ")") :: []) w _ Ww); [rewrite text_cons; reflexivity|]| |]].
  - destruct u as [|c u]; [contradiction|]. unfold opt_piece, formatting. cbn [app]. rewrite !text_cons. reflexivity.
  - destruct u as [|c u]; [contradiction|]. unfold opt_piece, formatting. cbn [app tokens]. cbn [length]. rewrite !Nat.add_0_r. reflexivity.
  - apply word_inlines; [exact Ww|apply nospecial; cbn; tauto|]. intros x Hx. apply inlines_link.
    + apply word_inlines; [exact Wt|apply not_before_nil|intros; apply inlines_end].
    + rewrite text_one. apply B. exact (proj2 Wt).
    + exact Hu.
    + split; [intros []|apply not_before_nil].
    + apply inlines_end.
  - unfold one_line, formatting. rewrite text_cons, text_cons, text_app, text_one, text_cons, text_app, opt_piece_text, !text_cons. change (text []) with (@nil N). repeat (apply Forall_app; split); try (apply one_line_word; first [exact (proj2 Ww)|exact (proj2 Wt)]); try (apply Forall_forall; intros z Hz; split; intros ->; contradiction); repeat (apply Forall_cons; [cbn; lia|]); apply Forall_nil.
  - rewrite text_cons. intros E; apply app_eq_nil in E as [E _]; exact (proj1 Ww E).
Qed.
Example C136_case : word (bs "see") /\ word (bs "Set") /\ word (bs "Set") /\ word (bs "math").
Proof. repeat split; try discriminate; repeat (apply Forall_cons; [unfold letter; cbn; lia|]); apply Forall_nil. Qed.
Print Assumptions C136_markdown_link_parentheses_refuted.

Print Assumptions C136_markdown_link_parentheses_partial.
