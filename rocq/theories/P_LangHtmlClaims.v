(** * The HTML highlighter: a document, and where the highlights are wrong *)
From Coq Require Import List NArith ZArith Bool Arith Lia.
From Verif Require Import M_Base L_Base S_Tokens M_Emit S_Ops L_Emit M_Types M_Chars S_Chars P_Chars M_Parse S_Parse L_Parse P_Parse S_Utf8 M_Utf8 L_Utf8 P_Utf8 L_Any L_Utf8Ascii
  M_Api M_Highlighter S_Highlight L_Highlighter P_LangCpp L_Auto S_Json L_JsonText M_LangHtml S_LangHtml P_HtmlMatch S_Lexemes L_Lexemes L_Number L_Scan L_Comments S_States L_States L_Does S_LangHtmlLexemes P_LangHtmlLexemes.
Import ListNotations.

(** A page with a title, attributes of all kinds, references, a comment and a CDATA section *)
Notation punc s := (bs s, Some hl_symbol_punc).
Definition html_page : list (list piece) :=
  [ [(bs "<!DOCTYPE html>", Some hl_name_macro)];
    [(bs "<!--", Some hl_comment_delim); (bs " c ", Some hl_comment); (bs "-->", Some hl_comment_delim)];
    [punc "<"; (bs "TITLE", Some hl_markup_tag); punc ">"; (bs "A ", None); reference_piece (bs "amp"); (bs " B", None)];
    [punc "</"; (bs "title", Some hl_markup_tag); punc ">"];
    [punc "<"; (bs "a", Some hl_markup_tag); (bs " ", None); (bs "href", Some hl_markup_attr); punc "="; (34%N :: bs "x?a", Some hl_string); reference_piece (bs "#38"); (bs "b" ++ [34%N], Some hl_string);
     (bs " ", None); (bs "hidden", Some hl_markup_attr); (bs " ", None); (bs "id", Some hl_markup_attr); (bs " ", None); punc "="; (bs " ", None); (bs "x1", Some hl_string); punc ">"];
    [(bs "1 ", None); reference_piece (bs "lt"); (bs " 2", None)];
    [punc "<"; (bs "br", Some hl_markup_tag); punc "/>"];
    [(bs "<![CDATA[", Some hl_name_macro); (bs "x<y", None); (bs "]]>", Some hl_name_macro)];
    [punc "</"; (bs "a", Some hl_markup_tag); punc ">"] ].
Ltac no := let H := fresh in intros H; vm_compute in H; repeat (destruct H as [H|H]; try discriminate H); try discriminate H; try contradiction.
Ltac fall tac := apply Forall_forall; let c := fresh "c" in let H := fresh in intros c H; vm_compute in H; repeat (destruct H as [<-|H]; [tac|]); contradiction.
Ltac tagname := split; [discriminate|fall ltac:(unfold tag_char, letter, digit; change (bs "-._") with [45; 46; 95]%N; cbn [In]; lia)].
Ltac attrname := split; [discriminate|fall ltac:(split; [lia|no])].
Ltac textchars := fall ltac:(split; discriminate).
Ltac spaces := fall ltac:(cbn; tauto).
Ltac named := apply ref_named; [discriminate|fall lia].
Lemma not_contains s p : forallb (fun k => negb (starts_with (skipn k s) p)) (seq 0 (S (length s))) = true -> ~ contains s p.
Proof.
  intros H (a & b & E). rewrite forallb_forall in H. specialize (H (length a)). rewrite E, skipn_app_exact in H. rewrite (proj2 (starts_with_app _ _)) in H by eauto. discriminate H. apply in_seq. rewrite app_length. lia.
Qed.
Ltac nocontains := apply not_contains; reflexivity.
Example C139_case : html_lexemes (concat html_page) /\ starts_with (text (concat html_page)) [0xEF; 0xBB; 0xBF]%N <> true
  /\ text (concat html_page) = bs "<!DOCTYPE html><!-- c --><TITLE>A &amp; B</title><a href=" ++ [34%N] ++ bs "x?a&#38;b" ++ [34%N] ++ bs " hidden id = x1>1 &lt; 2<br/><![CDATA[x<y]]></a>".
Proof.
  split; [|split; [discriminate|reflexivity]]. unfold html_lexemes, html_page. cbn [concat].
  eapply sequence_lexeme; [apply (html_doctype (bs "<!DOCTYPE") (bs " html")); [reflexivity|no]|].
  eapply sequence_lexeme; [apply (html_comment (bs " c ")); repeat split; try nocontains; try (intros [b E]; discriminate E); intros [a E]; change (bs "<!-") with ([60; 33]%N ++ [45%N]) in E; rewrite app_assoc in E; apply (f_equal (fun l => last l 0%N)) in E; rewrite last_last in E; discriminate E|].
  eapply sequence_lexeme.
  { change [punc "<"; (bs "TITLE", Some hl_markup_tag); punc ">"; (bs "A ", None); reference_piece (bs "amp"); (bs " B", None)] with ([punc "<"; (bs "TITLE", Some hl_markup_tag); punc ">"] ++ [(bs "A ", None); reference_piece (bs "amp"); (bs " B", None)]).
    apply (html_escapable (bs "TITLE")); [cbn; tauto| | |].
    - apply (start_tag_ (bs "TITLE") _ [] [] (bs ">")); [tagname|constructor|auto|cbn; tauto|constructor].
    - apply (html_text_reference (bs "A ") (bs "amp")); [textchars|named|]. apply (html_text_end (bs " B")). textchars.
    - exists (bs "title"), (ch ">"). eexists. split; [reflexivity|]. split; [reflexivity|auto]. }
  eapply sequence_lexeme; [apply (html_end_tag (bs "title")); tagname|].
  eapply sequence_lexeme.
  { apply (html_start_tag (bs "a")); [no|]. apply (start_tag_ (bs "a") _ (bs " ") [(bs "href", Some hl_markup_attr); punc "="; (34%N :: bs "x?a", Some hl_string); reference_piece (bs "#38"); (bs "b" ++ [34%N], Some hl_string);
     (bs " ", None); (bs "hidden", Some hl_markup_attr); (bs " ", None); (bs "id", Some hl_markup_attr); (bs " ", None); punc "="; (bs " ", None); (bs "x1", Some hl_string)] (bs ">")); [tagname|spaces|right; discriminate|cbn; tauto|].
    apply (attributes_value _ (bs "href") [] [] [(34%N :: bs "x?a", Some hl_string); reference_piece (bs "#38"); (bs "b" ++ [34%N], Some hl_string)] (bs " ") [(bs "hidden", Some hl_markup_attr); (bs " ", None); (bs "id", Some hl_markup_attr); (bs " ", None); punc "="; (bs " ", None); (bs "x1", Some hl_string)]);
      [attrname|constructor|constructor|spaces|right; discriminate| |].
    { apply (value_quoted _ 34%N); [auto|]. apply (quoted_reference 34 [34%N] (bs "x?a") (bs "#38")); [discriminate|textchars|apply (ref_dec (bs "38")); [discriminate|fall lia]|]. apply (quoted_last 34 [] (bs "b")); [discriminate|textchars]. }
    apply (attributes_flag _ (bs "hidden") (bs " ")); [attrname|spaces|right; discriminate|].
    apply (attributes_value _ (bs "id") (bs " ") (bs " ") [(bs "x1", Some hl_string)] [] []); [attrname|spaces|spaces|constructor|auto| |constructor].
    apply value_unquoted; [discriminate|fall ltac:(split; no)|]. eexists _, _. split; [reflexivity|auto]. }
  eapply sequence_lexeme; [apply html_normal_text; [apply (html_text_reference (bs "1 ") (bs "lt")); [textchars|named|]; apply (html_text_end (bs " 2")); textchars|discriminate|right; eexists; reflexivity]|].
  eapply sequence_lexeme; [apply (html_start_tag (bs "br")); [no|]; apply (start_tag_ (bs "br") _ [] [] (bs "/>")); [tagname|constructor|auto|cbn; tauto|constructor]|].
  eapply sequence_lexeme; [apply (html_cdata (bs "x<y")); nocontains|].
  eapply sequence_lexeme; [apply (html_end_tag (bs "a")); tagname|]. apply sequence_end.
  Unshelve. all: exact tt.
Qed.

(** ** C140: references in attribute values *)
Definition ordinary (t : str) : Prop := tag_name t /\ ~ In (map lower t) (escapable_names ++ raw_names).
(** [<t a=] *)
Definition tag_before (t a : str) : list piece := [punc "<"; (t, Some hl_markup_tag); ([32%N], None); (a, Some hl_markup_attr); punc "="].
Lemma run_lexemes js css strict (L : list piece -> str -> Prop) l : (forall p r, L p r -> text p <> [] /\ does (html_body js css strict) tt p r tt tt) -> sequence (fun (_ : unit) p r (_ : unit) => L p r) tt l ->
  starts_with (text l) [0xEF; 0xBB; 0xBF]%N = false -> highlight_html js css (text l) strict = Ok (true, tokens 0 l).
Proof.
  intros D Hl Hb. unfold highlight_html, run.
  assert (W : wp (html_expect_bom ;; while_rem (html_body js css strict)) (fun _ st' => rops st' = rev (tokens 0 l)) (mk_hst (text l) 0 [] tt)).
  { apply wp_bind. unfold html_expect_bom. apply wp_bind, wp_get_rem. cbn [rem]. rewrite Hb. cbn [when]. apply wp_ret. eapply wp_mono.
    - apply (while_states_wp (fun _ => tt) (fun (_ : unit) q r (_ : unit) => L q r) (html_body js css strict)) with (s := tt); [| |exact Hl].
      + intros s q r s' H. apply (D q r H).
      + intros s q r s' i o H. destruct s. eapply wp_mono; [apply (D q r H)|]. cbn beta. intros ? ? [_ ->]. reflexivity.
    - cbn beta. intros _ st' ->. apply app_nil_r. }
  unfold wp in W. unfold bindM in *. destruct (html_expect_bom _) as [[[] st1]|]; [|contradiction]. destruct (while_rem _ st1) as [[[] st2]|]; [|contradiction]. unfold ret. rewrite W, rev_involutive. reflexivity.
Qed.
Lemma run_one js css strict p : does (html_body js css strict) tt p [] tt tt -> text p <> [] -> starts_with (text p) [0xEF; 0xBB; 0xBF]%N = false -> highlight_html js css (text p) strict = Ok (true, tokens 0 p).
Proof.
  intros D Np Hb. apply (run_lexemes js css strict (fun q r => q = p /\ r = [])); [intros q r [-> ->]; auto| |exact Hb].
  pose proof (sequence_lexeme (fun (_ : unit) q r (_ : unit) => q = p /\ r = []) tt p tt [] (conj eq_refl eq_refl) (sequence_end _ tt)) as S. rewrite app_nil_r in S. exact S.
Qed.
Lemma does_one_tag js css strict t a v tail rest : ordinary t -> attribute_name a -> (exists u, text v = 34%N :: u) -> does (html_expect_quoted 34) tt v (text tail ++ rest) true tt ->
  iterates html_tag_body true rest tt tt tt tail -> does (html_body js css strict) tt (tag_before t a ++ v ++ tail) rest tt tt.
Proof.
  intros [Ht Hn] Ha [uv Ev] Hv Hl. unfold html_body. pose proof Ht as [Nt Ft]. assert (X : exists b u, t = b :: u /\ b <> 33%N /\ b <> 47%N) by (destruct Ft as [|b t Hb Ft]; [congruence|]; apply tag_char_no in Hb as (_ & _ & C1 & C2); eauto). destruct X as (b & u & Eb & N1 & N2).
  assert (E : exists u', text (tag_before t a ++ v ++ tail) ++ rest = 60%N :: b :: u') by (unfold tag_before; rewrite Eb; cbn [app]; rewrite !text_cons; eexists; reflexivity). destruct E as [u' E].
  skip_ no_comment; [rewrite E; apply (not_prefix2 b); exact N1|]. skip_ no_doctype; [rewrite E; apply (not_doctype2 b); exact N1|]. skip_ no_cdata; [rewrite E; apply (not_prefix2 b); exact N1|]. skip_ no_end; [rewrite E; apply (not_prefix2 b); exact N2|].
  apply (does_last _ _ tt _ _ true tt _ tt); [|apply does_ret]. unfold html_expect_start_tag. apply does_get. unfold tag_before. cbn [app]. rewrite text_cons, <- !app_assoc. match goal with |- context [starts_with_ch ?x (ch "<")] => change (starts_with_ch x (ch "<")) with true end. cbn [negb].
  eapply does_cons; [apply does_emit; [reflexivity|discriminate]|]. apply does_get. rewrite text_cons, <- app_assoc.
  eapply does_lift; [apply length_ascii; [eapply Forall_impl; [|exact Ft]; intros d; apply tag_char_ok|]|].
  { right. rewrite text_cons. eexists _, _. split; [reflexivity|]. split; reflexivity. }
  rewrite (proj2 (Nat.eqb_neq _ _)) by (destruct t; [congruence|discriminate]). cbv zeta. rewrite firstn_app_exact. eapply does_cons; [apply does_emit; [reflexivity|exact Nt]|].
  apply (does_last _ _ tt _ _ true tt _ tt).
  2:{ cbn [negb]. rewrite !(name_not_ic t) by (first [exact Hn|cbn; tauto]). apply does_ret. }
  apply does_loop. change (([32%N], None) :: (a, Some hl_markup_attr) :: punc "=" :: v ++ tail) with ((blank [32%N] ++ (a, Some hl_markup_attr) :: blank [] ++ punc "=" :: blank [] ++ v) ++ tail).
  eapply iterates_more; [|cbn [blank app]; rewrite text_cons; discriminate|exact Hl].
  pose proof Ha as [Na Fa]. assert (Y : exists c x, a = c :: x /\ attribute_char c) by (destruct Fa as [|c x Hc Fa]; [congruence|eauto]). destruct Y as (c & x & Ec & Hc). apply attribute_char_space in Hc as (C1 & C2 & C3 & C4).
  unfold html_tag_body. apply does_eof; [cbn [blank app]; rewrite text_cons; discriminate|].
  eapply does_bind; [apply does_hspace; [repeat constructor|]; rewrite text_cons, Ec; cbn [app]; apply not_before_head; exact C1|]. apply does_get.
  match goal with |- context [starts_with ?r (bs "/>")] => assert (Er : exists y, r = c :: y) by (rewrite text_cons, Ec; eexists; reflexivity) end. destruct Er as [y Er]. rewrite Er.
  change (bs "/>") with [47; 62]%N. rewrite not_prefix1 by exact C4. cbn [starts_with_ch]. rewrite (proj2 (N.eqb_neq _ _)) by exact C3. cbv iota.
  apply (does_last _ _ tt _ _ true tt _ tt); [|apply does_ret]. unfold html_expect_attribute. apply does_attribute_name; [exact Ha| |].
  - cbn [blank app]. rewrite text_cons. eexists _, _. split; [reflexivity|]. right. left. reflexivity.
  - eapply does_bind; [apply does_hspace; [constructor|]; rewrite text_cons; nospace|]. apply does_get. rewrite text_cons. match goal with |- context [starts_with_ch ?x (ch "=")] => change (starts_with_ch x (ch "=")) with true end. cbn [negb].
    eapply does_cons; [apply does_emit; [reflexivity|discriminate]|]. eapply does_bind; [apply does_hspace; [constructor|]; rewrite Ev; nospace|]. eapply does_last; [exact Hv|apply does_ret].
Qed.
Lemma does_reference_then body l rest : reference_body body -> scans (html_quoted_body 34) true rest tt 1 tt l -> does (html_expect_quoted 34) tt (([34%N], Some hl_string) :: reference_piece body :: l) rest true tt.
Proof.
  intros Hb Hl. unfold html_expect_quoted. apply does_get. rewrite text_cons. cbn [app starts_with_ch]. change (34 =? 34)%N with true. cbn [negb]. apply does_scan.
  apply (scans_more _ _ _ _ 1 tt [([34%N], Some hl_string); reference_piece body] 1 tt l); [| |exact Hl].
  2:{ rewrite text_cons, reference_text, app_length. cbn [length]. lia. }
  unfold html_quoted_body. apply does_get. rewrite text_cons, reference_text. cbn [app length]. change (1 <? S (S ?n)) with true. cbn [negb]. eapply does_at; [reflexivity|]. change (ch "&" =? 34)%N with false. cbv iota. apply does_substr; [cbn [length]; lia|]. cbn [skipn]. cbv zeta.
  rewrite <- app_assoc. cbn [app]. rewrite reference_exact by exact Hb. rewrite (proj2 (Nat.eqb_neq (length body + 2) 0)) by lia. cbn [negb].
  eapply does_cons; [apply (does_emit [34%N]); [reflexivity|discriminate]|]. eapply does_last; [apply does_emit; [symmetry; apply reference_length|discriminate]|]. apply does_ret.
Qed.
Lemma tag_no_bom t a l : starts_with (text (tag_before t a ++ l)) [0xEF; 0xBB; 0xBF]%N = false.
Proof. unfold tag_before. cbn [app]. rewrite text_cons. reflexivity. Qed.

(** When the value ends with a reference, the closing quote is not seen: the string goes on to the next quote, here to the end of the document. *)
Theorem C140_html_reference_in_value_refuted : forall js css strict t a body rest, ordinary t -> attribute_name a -> reference_body body -> Forall (fun c => c <> 34%N /\ c <> ch "&") rest ->
  let before := tag_before t a ++ [([34%N], Some hl_string); reference_piece body] in
  highlight_html js css (text before ++ [34%N] ++ bs ">" ++ rest) strict = Ok (true, tokens 0 (before ++ [([34%N] ++ bs ">" ++ rest, Some hl_string)]))
  /\ forall l, text l = rest -> ~ tokenizes (highlight_html js css) (before ++ ([34%N], Some hl_string) :: punc ">" :: l).
Proof.
  intros js css strict t a body rest Ht Ha Hb Hr before.
  assert (R : forall strict, highlight_html js css (text before ++ [34%N] ++ bs ">" ++ rest) strict = Ok (true, tokens 0 (before ++ [([34%N] ++ bs ">" ++ rest, Some hl_string)]))).
  { clear strict. intros strict. rewrite <- (text_one ([34%N] ++ bs ">" ++ rest) (Some hl_string)) at 1. rewrite <- text_app. unfold before. rewrite <- app_assoc. apply run_one; [|unfold tag_before; cbn [app]; rewrite text_cons; discriminate|apply tag_no_bom].
    match goal with |- does _ _ ?v _ _ _ => change v with (tag_before t a ++ [([34%N], Some hl_string); reference_piece body; ([34%N] ++ bs ">" ++ rest, Some hl_string)] ++ []); apply (does_one_tag js css strict t a ([([34%N], Some hl_string); reference_piece body; ([34%N] ++ bs ">" ++ rest, Some hl_string)]) [] []) end; [exact Ht|exact Ha|cbn [app]; rewrite text_cons; eexists; reflexivity| |].
    - set (w := 34%N :: ch ">" :: rest). match goal with |- does _ _ ?p _ _ _ => change p with [([34%N], Some hl_string); reference_piece body; (w, Some hl_string)] end. apply does_reference_then; [exact Hb|]. change (text [] ++ []) with (@nil N). apply scans_run with (m := length w); [cbn; lia|rewrite text_one, app_nil_r; lia| |].
      + intros k Hk. rewrite text_one. destruct (nth_run (fun c => c <> 34%N /\ c <> ch "&") [34%N] (ch ">" :: rest) k) as (c & E & K1 & K2); [constructor; [split; discriminate|exact Hr]|exact Hk|]. apply (quoted_step 34 w k c []); assumption.
      + apply scans_end. unfold html_quoted_body. apply does_get. rewrite text_one, app_nil_r, Nat.ltb_irrefl. cbn [negb]. eapply does_last; [|apply does_ret]. unfold html_flush. cbn [length Nat.eqb negb when w]. apply does_emit; [reflexivity|discriminate].
    - apply iterates_end. unfold html_tag_body. apply does_eof_end. cbv iota. apply does_ret. }
  split; [apply R|]. intros l El K. specialize (K false). rewrite text_app, !text_cons, El in K. change ([34%N] ++ bs ">" ++ rest) with ([34%N] ++ bs ">" ++ rest) in R. rewrite R in K. injection K as K. discriminate K.
Qed.
Print Assumptions C140_html_reference_in_value_refuted.
(** Of two references in a row, the second is plain. *)
Theorem C140_html_adjacent_references_refuted : forall js css strict t a b1 b2 run, ordinary t -> attribute_name a -> reference_body b1 -> reference_body b2 -> Forall (fun c => c <> 34%N /\ c <> ch "&") run ->
  let before := tag_before t a ++ [([34%N], Some hl_string); reference_piece b1] in
  highlight_html js css (text before ++ bs "&" ++ b2 ++ bs ";" ++ run ++ [34%N] ++ bs ">") strict = Ok (true, tokens 0 (before ++ [(bs "&" ++ b2 ++ bs ";" ++ run ++ [34%N], Some hl_string); punc ">"]))
  /\ ~ tokenizes (highlight_html js css) (before ++ [reference_piece b2; (run ++ [34%N], Some hl_string); punc ">"]).
Proof.
  intros js css strict t a b1 b2 run Ht Ha Hb1 Hb2 Hr before. set (w := bs "&" ++ b2 ++ bs ";" ++ run).
  assert (Fb : Forall (fun c => c <> 34%N /\ c <> ch "&") b2).
  { destruct Hb2 as [d _ H|d _ H|d _ H].
    - repeat (constructor; [split; discriminate|]). eapply Forall_impl; [|exact H]. unfold hex. cbn beta. change (ch "&") with 38%N. intros c. lia.
    - repeat (constructor; [split; discriminate|]). eapply Forall_impl; [|exact H]. cbn beta. change (ch "&") with 38%N. intros c. lia.
    - eapply Forall_impl; [|exact H]. cbn beta. change (ch "&") with 38%N. intros c. lia. }
  assert (R : forall strict, highlight_html js css (text before ++ bs "&" ++ b2 ++ bs ";" ++ run ++ [34%N] ++ bs ">") strict = Ok (true, tokens 0 (before ++ [(bs "&" ++ b2 ++ bs ";" ++ run ++ [34%N], Some hl_string); punc ">"]))).
  { clear strict. intros strict. replace (bs "&" ++ b2 ++ bs ";" ++ run ++ [34%N] ++ bs ">") with (text [(bs "&" ++ b2 ++ bs ";" ++ run ++ [34%N], Some hl_string); punc ">"]) by (rewrite text_cons, text_one, <- !app_assoc; reflexivity).
    rewrite <- text_app. unfold before. rewrite <- app_assoc. apply run_one; [|unfold tag_before; cbn [app]; rewrite text_cons; discriminate|apply tag_no_bom].
    change ([([34%N], Some hl_string); reference_piece b1] ++ [(bs "&" ++ b2 ++ bs ";" ++ run ++ [34%N], Some hl_string); punc ">"]) with ([([34%N], Some hl_string); reference_piece b1; (bs "&" ++ b2 ++ bs ";" ++ run ++ [34%N], Some hl_string)] ++ [punc ">"]).
    apply does_one_tag; [exact Ht|exact Ha|rewrite text_cons; eexists; reflexivity| |].
    - apply does_reference_then; [exact Hb1|]. replace (bs "&" ++ b2 ++ bs ";" ++ run ++ [34%N]) with (w ++ [34%N]) by (unfold w; rewrite <- !app_assoc; reflexivity). apply scans_run with (m := length w); [cbn; lia|rewrite text_one, !app_length; lia| |].
      + intros k Hk. rewrite text_one, <- app_assoc. destruct (nth_run (fun c => c <> 34%N /\ c <> ch "&") (bs "&") (b2 ++ bs ";" ++ run) k) as (c & E & K1 & K2); [apply Forall_app; split; [exact Fb|]; constructor; [split; discriminate|exact Hr]|exact Hk|]. apply (quoted_step 34 w k c); assumption.
      + apply scans_end. unfold html_quoted_body. apply does_get. rewrite text_one, <- app_assoc. rewrite (proj2 (Nat.ltb_lt _ _)) by (rewrite !app_length; cbn; lia). cbn [negb app]. eapply does_at; [apply nth_mid|]. change (34 =? 34)%N with true. cbv iota. eapply does_last; [|apply does_ret]. unfold html_flush. rewrite (proj2 (Nat.eqb_neq _ _)) by lia. cbn [negb when]. apply does_emit; [rewrite app_length; reflexivity|discriminate].
    - apply (attributes_iterate (bs ">") [] ltac:(cbn; tauto) [] (attributes_end _) []). constructor. }
  split; [apply R|]. intros K. specialize (K false). rewrite text_app in K. change (text [reference_piece b2; (run ++ [34%N], Some hl_string); punc ">"]) with ((ch "&" :: b2 ++ [ch ";"]) ++ (run ++ [34%N]) ++ bs ">" ++ []) in K.
  replace ((ch "&" :: b2 ++ [ch ";"]) ++ (run ++ [34%N]) ++ bs ">" ++ []) with (bs "&" ++ b2 ++ bs ";" ++ run ++ [34%N] ++ bs ">") in K by (change (ch "&" :: b2 ++ [ch ";"]) with (bs "&" ++ b2 ++ bs ";"); rewrite app_nil_r, <- !app_assoc; reflexivity).
  rewrite R in K. injection K as K. revert K. rewrite !app_length. cbn [length]. intros K. lia.
Qed.
Print Assumptions C140_html_adjacent_references_refuted.
(** With some text after each reference, the references are right. *)
Theorem C140_html_reference_in_value_partial : forall js css t a q v, ordinary t -> attribute_name a -> q = 34%N \/ q = 39%N -> quoted q [q] v -> tokenizes (highlight_html js css) (tag_before t a ++ v ++ [punc ">"]).
Proof.
  intros js css t a q v [Ht Hn] Ha Hq Hv. apply C139_html_document_partial; [|rewrite tag_no_bom; discriminate]. rewrite <- (app_nil_r (tag_before t a ++ _)). eapply sequence_lexeme; [|apply sequence_end]. apply (html_start_tag t); [exact Hn|].
  replace (tag_before t a ++ v ++ [punc ">"]) with (punc "<" :: (t, Some hl_markup_tag) :: blank [32%N] ++ ((a, Some hl_markup_attr) :: blank [] ++ punc "=" :: blank [] ++ v ++ blank [] ++ []) ++ [punc ">"]) by (cbn [blank app tag_before]; unfold tag_before; cbn [app]; rewrite app_nil_r; reflexivity).
  apply start_tag_; [exact Ht|repeat constructor|right; discriminate|cbn; tauto|]. apply attributes_value; try constructor; try apply Ha; [reflexivity|]. apply (value_quoted _ q); assumption.
  Unshelve. exact tt.
Qed.
Print Assumptions C140_html_reference_in_value_partial.
Example C140_case : ordinary (bs "a") /\ attribute_name (bs "href") /\ reference_body (bs "amp") /\ Forall (fun c => c <> 34%N /\ c <> ch "&") (bs "x</a>")
  /\ quoted 34 [34%N] [(34%N :: bs "x", Some hl_string); reference_piece (bs "amp"); (bs "y" ++ [34%N], Some hl_string)].
Proof.
  split; [split; [tagname|no]|]. split; [attrname|]. split; [named|]. split; [textchars|]. apply (quoted_reference 34 [34%N] (bs "x") (bs "amp")); [discriminate|textchars|named|]. apply (quoted_last 34 [] (bs "y")); [discriminate|textchars].
Qed.

(** ** C141: white space in end tags *)
(** The last white space character is highlighted instead of the [>], which becomes text. *)
Theorem C141_html_end_tag_space_refuted : forall js css strict t w c, tag_name t -> Forall html_space w -> html_space c ->
  highlight_html js css (bs "</" ++ t ++ w ++ [c] ++ bs ">") strict = Ok (true, tokens 0 [punc "</"; (t, Some hl_markup_tag); (w, None); ([c], Some hl_symbol_punc); (bs ">", None)])
  /\ ~ tokenizes (highlight_html js css) [punc "</"; (t, Some hl_markup_tag); (w ++ [c], None); punc ">"].
Proof.
  intros js css strict t w c [Nt Ft] Fw Hc. assert (Lt : 0 < length t) by (destruct t; [congruence|cbn; lia]).
  set (p := [punc "</"; (t, Some hl_markup_tag); (w, None); ([c], Some hl_symbol_punc)]).
  assert (R : forall strict, highlight_html js css (bs "</" ++ t ++ w ++ [c] ++ bs ">") strict = Ok (true, tokens 0 (p ++ [(bs ">", None)]))).
  { clear strict. intros strict. replace (bs "</" ++ t ++ w ++ [c] ++ bs ">") with (text (p ++ [(bs ">", None)])) by (unfold p; cbn [app]; rewrite !text_cons; reflexivity).
    apply (run_lexemes js css strict (fun q r => q = p /\ r = bs ">" \/ q = [(bs ">", None)] /\ r = [])).
    - intros q r [[-> ->]|[-> ->]].
      + split; [unfold p; rewrite text_cons; discriminate|]. unfold html_body.
        assert (E0 : text p ++ bs ">" = 60%N :: 47%N :: t ++ w ++ c :: bs ">") by (unfold p; rewrite !text_cons, <- !app_assoc; reflexivity).
        skip_ no_comment. skip_ no_doctype; [rewrite E0; apply (not_doctype2 47); discriminate|]. skip_ no_cdata.
        apply (does_last _ _ tt _ _ true tt _ tt); [|apply does_ret]. unfold html_expect_end_tag. apply does_get. rewrite E0.
        assert (E : match_end_tag_permissive (60%N :: 47%N :: t ++ w ++ c :: bs ">") = Ok (length t + length w + 3, length t)).
        { unfold match_end_tag_permissive. match goal with |- context [starts_with ?x (bs "</")] => change (starts_with x (bs "</")) with true end. cbn [negb]. unfold ascii_find_checked, ascii_find, find_if_from. cbn [length Nat.leb check bind skipn].
          assert (X : exists d u, w ++ c :: bs ">" = d :: u /\ html_space d) by (destruct Fw as [|d w Hd Fw]; cbn [app]; eauto). destruct X as (d & u & Ed & Hd). rewrite Ed. rewrite find_exact.
          - cbn [option_map]. cbv zeta. replace (2 + length t - 2) with (length t) by lia. rewrite (proj2 (Nat.eqb_neq _ _)) by lia. cbn [Nat.add nth_error]. rewrite nth_mid. replace (d =? ch ">")%N with false by (symmetry; apply N.eqb_neq; intros ->; unfold html_space in Hd; cbn in Hd; intuition discriminate).
            unfold find_ch, find_if_from. cbn [skipn]. rewrite skipn_app_exact, <- Ed. change (w ++ c :: bs ">") with (w ++ [c] ++ [ch ">"]). rewrite app_assoc. rewrite find_exact; [|apply Forall_app; split; [eapply Forall_impl; [|exact Fw]|constructor; [revert Hc|constructor]]|reflexivity].
            + cbn [option_map]. rewrite app_length. cbn [length]. f_equal. f_equal. lia.
            + cbn beta. intros x Hx. apply N.eqb_neq. intros ->. unfold html_space in Hx. cbn in Hx. intuition discriminate.
            + intros Hx. apply N.eqb_neq. intros ->. unfold html_space in Hx. cbn in Hx. intuition discriminate.
          - eapply Forall_impl; [|exact Ft]. cbn beta. intros x Hx. apply tag_char_no in Hx as (C1 & C2 & _). rewrite <- hspace_iff in C1. apply not_true_iff_false in C1. rewrite C1, (proj2 (N.eqb_neq _ _)) by exact C2. reflexivity.
          - apply hspace_iff in Hd. rewrite Hd. reflexivity. }
        eapply does_lift; [exact E|]. cbn [fst snd]. rewrite (proj2 (Nat.eqb_neq (length t + length w + 3) 0)) by lia. apply does_check; [rewrite (proj2 (Nat.eqb_neq _ _)) by lia; reflexivity|].
        intros i o. assert (L : length (text p) = length t + length w + 3) by (unfold p; rewrite !text_cons, !app_length; cbn; lia). assert (L2 : length (text p ++ bs ">") = length t + length w + 4) by (rewrite app_length, L; cbn; lia).
        apply wp_bind, wp_get_idx. cbn [idx]. apply wp_bind, wp_emit_at_exact; [lia|lia|lia|]. apply wp_bind, wp_emit_at_exact; [lia|lia|lia|]. apply wp_bind, wp_emit_at_exact; [lia|lia|lia|]. apply wp_bind, wp_advance_exact; [lia|]. apply wp_ret. split; [reflexivity|].
        rewrite L. rewrite <- L at 1. rewrite skipn_app_exact. f_equal. unfold p. cbn [tokens rev app length]. change (length (bs "</")) with 2. replace (i + (length t + length w + 3) - 1) with (i + 2 + length t + length w) by lia. reflexivity.
      + split; [discriminate|]. apply body_exact. apply html_normal_text; [apply (html_text_end (bs ">")); textchars|discriminate|auto].
    - eapply sequence_lexeme; [left; split; [reflexivity|reflexivity]|]. rewrite <- (app_nil_r [_]). eapply sequence_lexeme; [right; split; reflexivity|constructor].
    - reflexivity. }
  split; [apply R|]. intros K. specialize (K false). rewrite !text_cons in K. change (text []) with (@nil N) in K. rewrite app_nil_r, <- app_assoc in K. rewrite R in K. injection K as K. revert K. rewrite app_length. cbn [length]. lia.
  Unshelve. all: exact tt.
Qed.
Print Assumptions C141_html_end_tag_space_refuted.
Example C141_case : tag_name (bs "p") /\ Forall html_space (bs " ") /\ html_space 10.
Proof. split; [tagname|]. split; [spaces|cbn; tauto]. Qed.
Theorem C141_html_end_tag_partial : forall js css t, tag_name t -> tokenizes (highlight_html js css) [punc "</"; (t, Some hl_markup_tag); punc ">"].
Proof.
  intros js css t Ht. apply C139_html_document_partial; [|rewrite text_cons; discriminate]. rewrite <- (app_nil_r [_; _; _]). eapply sequence_lexeme; [|apply sequence_end]. apply html_end_tag. exact Ht.
  Unshelve. exact tt.
Qed.
Print Assumptions C141_html_end_tag_partial.
