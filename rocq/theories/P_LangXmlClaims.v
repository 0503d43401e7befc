(** * XML highlighting: an example document, and what users may expect but does not hold (C121-C126) *)
From Coq Require Import List NArith ZArith Bool Arith Lia.
From Verif Require Import M_Base L_Base S_Tokens M_Emit S_Ops L_Emit M_Types M_Chars S_Chars P_Chars M_Parse S_Parse L_Parse P_Parse S_Utf8 M_Utf8 L_Utf8 P_Utf8 L_Any
  M_Api M_Highlighter S_Highlight L_Highlighter P_LangCpp L_Auto S_Json L_JsonText M_LangHtml S_LangHtml P_HtmlMatch S_Lexemes L_Lexemes L_Number L_Scan L_Comments S_States L_States L_Does M_LangXml S_LangXml P_LangXml P_LangXmlLexemes.
Import ListNotations.

(** ** C121 *)
Lemma ascii_name c t : xml_name_start_char c -> Forall xml_name_char t -> Forall (fun c => c <> 45 /\ c < 128)%N (c :: t) -> xml_known_name (c :: t).
Proof.
  intros H1 H2 H3. exists c, t. split.
  - clear -H3. induction H3 as [|x l [_ Hx] _ IH]; [reflexivity|]. cbn [map concat]. rewrite <- IH. unfold utf8_encoding. rewrite (proj2 (N.ltb_lt _ _) Hx). reflexivity.
  - split; [exact H1|]. split; [exact H2|]. eapply Forall_impl; [|exact H3]. intros x [K1 K2]. split; [exact K1|lia].
Qed.
Ltac each := match goal with |- Forall _ ?w => let v := eval vm_compute in w in change w with v end; repeat (apply Forall_cons; [unfold xml_name_char, xml_name_start_char; lia|]); apply Forall_nil.
Ltac known := match goal with |- xml_known_name ?w => let v := eval vm_compute in w in change w with v end; apply ascii_name; [unfold xml_name_start_char; lia|each|each].
Definition xml_value_case : list piece := [([34%N], Some hl_string_delim); (bs "1 ", Some hl_string); (bs "&lt;", Some hl_string_escape); ([34%N], Some hl_string_delim)].
Definition xml_start_case : list piece :=
  [(bs "<", Some hl_symbol_punc); (bs "root", Some hl_markup_tag); (bs " ", None); (bs "a", Some hl_markup_attr); ([], None); (bs "=", Some hl_symbol_punc); ([], None)]
  ++ xml_value_case ++ [([], None); (bs ">", Some hl_symbol_punc)].
Definition xml_comment_case : list piece := [(bs "<!--", Some hl_comment_delim); (bs " hi ", Some hl_comment); (bs "-->", Some hl_comment_delim)].
Definition xml_instruction_case : list piece := [(bs "<?", Some hl_symbol_punc); (bs "pi", Some hl_name_macro); (bs " ", None); (bs "data", None); (bs "?>", Some hl_symbol_punc)].
Definition xml_cdata_case : list piece := [(bs "<![CDATA[", Some hl_name_macro); (bs "x<y", None); (bs "]]>", Some hl_name_macro)].
Definition xml_accented_case : list piece := [(bs "<", Some hl_symbol_punc); ([0xC3; 0xA9]%N, Some hl_markup_tag); ([], None); (bs "/>", Some hl_symbol_punc)].
Definition xml_end_case : list piece := [(bs "</", Some hl_symbol_punc); (bs "root", Some hl_markup_tag); ([], None); (bs ">", Some hl_symbol_punc)].
(** <!-- hi --><?pi data?> NL <root a="1 &lt;">text &amp;<![CDATA[x<y]]><é/></root> *)
Definition xml_case : list piece :=
  xml_comment_case ++ xml_instruction_case ++ [([10%N], None)] ++ xml_start_case ++ [(bs "text ", None)] ++ [(bs "&amp;", Some hl_string_escape)] ++ xml_cdata_case ++ xml_accented_case ++ xml_end_case ++ [].
Lemma nasty_contains s p : find_sub s p = None -> ~ contains s p.
Proof. apply find_sub_None. Qed.
Lemma xml_case_document : xml_document xml_known_name xml_case.
Proof.
  unfold xml_case. apply xml_document_misc; [left; apply (xml_comment xml_known_name (bs " hi ")); apply nasty_contains; vm_compute; reflexivity|].
  apply xml_document_misc; [left; apply (xml_instruction xml_known_name (bs "pi") (bs " ") (bs "data"))|].
  { known. } { repeat constructor. } { discriminate. } { apply nasty_contains. vm_compute. reflexivity. } { apply nasty_contains. vm_compute. reflexivity. }
  apply xml_document_misc; [right; constructor; [discriminate|constructor; [unfold xml_space; cbn [In]; auto|constructor]|apply not_before_cons'; unfold xml_space; cbn [In]; intuition discriminate]|].
  apply xml_document_root.
  { apply (xml_start_tag_ xml_known_name (bs "root") ([(bs " ", None); (bs "a", Some hl_markup_attr); ([], None); (bs "=", Some hl_symbol_punc); ([], None)] ++ xml_value_case ++ []) [] (bs ">")); [known| |constructor|cbn; auto].
    apply (xml_attributes_more xml_known_name (bs " ") (bs "a") [] [] xml_value_case []); [discriminate|repeat constructor|known|constructor|constructor| |constructor].
    apply (xml_value_ 34%N [(bs "1 ", Some hl_string); (bs "&lt;", Some hl_string_escape)]); [auto|]. apply string_text; [discriminate|repeat constructor; discriminate|].
    apply (string_item hl_string _ _ _ false [(bs "&lt;", Some hl_string_escape)] []); [|constructor]. apply (xml_reference_ (bs "lt")). apply ref_named; [discriminate|]. each. }
  apply (sequence_lexeme _ tt [(bs "text ", None)] tt).
  { apply xml_content_text; [discriminate|repeat constructor; discriminate|]. intros c Hc. injection Hc as <-. intros [_ K]. apply K. reflexivity. }
  apply (sequence_lexeme _ tt [(bs "&amp;", Some hl_string_escape)] tt).
  { apply xml_content_reference. apply (xml_reference_ (bs "amp")). apply ref_named; [discriminate|]. each. }
  apply (sequence_lexeme _ tt xml_cdata_case tt).
  { apply (xml_content_cdata _ (bs "x<y")). apply nasty_contains. vm_compute. reflexivity. }
  apply (sequence_lexeme _ tt xml_accented_case tt).
  { apply xml_content_start. apply (xml_start_tag_ xml_known_name [0xC3; 0xA9]%N [] [] (bs "/>")); [|constructor|constructor|cbn; auto]. exists 0xE9%N, []. split; [reflexivity|]. split; [unfold xml_name_start_char; lia|]. split; each. }
  apply (sequence_lexeme _ tt xml_end_case tt); [|constructor].
  apply (xml_content_end _ (bs "root") []); [known|constructor].
Qed.
Example C121_case : xml_document xml_known_name xml_case /\ fits (text xml_case) /\ (~ exists t, text xml_case = bs "<?xml" ++ t)
  /\ text xml_case = bs "<!-- hi --><?pi data?>" ++ [10%N] ++ bs "<root a=" ++ [34%N] ++ bs "1 &lt;" ++ [34%N] ++ bs ">text &amp;<![CDATA[x<y]]><" ++ [0xC3; 0xA9]%N ++ bs "/></root>".
Proof.
  split; [exact xml_case_document|]. split; [split; [vm_compute; repeat constructor|vm_compute; reflexivity]|]. split; [intros [t E]; vm_compute in E; discriminate|reflexivity].
Qed.

(** ** C122: names *)
Definition tag_pieces (t : str) : list piece := [(bs "<", Some hl_symbol_punc); (t, Some hl_markup_tag); (bs ">", Some hl_symbol_punc)].
Theorem C122_xml_names_partial : forall t, xml_known_name t -> fits (text (tag_pieces t)) -> tokenizes highlight_xml (tag_pieces t).
Proof.
  intros t Ht Hf strict. set (l := [(bs "<", Some hl_symbol_punc); (t, Some hl_markup_tag)] ++ [] ++ [([], None); (bs ">", Some hl_symbol_punc)]).
  assert (E : text l = text (tag_pieces t)) by reflexivity. assert (E2 : tokens 0 l = tokens 0 (tag_pieces t)) by (cbn [tokens l tag_pieces app]; rewrite Nat.add_0_r; reflexivity). rewrite <- E, <- E2.
  apply C121_xml_document; [|rewrite E; exact Hf|].
  - rewrite <- (app_nil_r l). apply xml_document_root; [|constructor]. apply (xml_start_tag_ xml_known_name t [] [] (bs ">")); [exact Ht|constructor|constructor|cbn; auto].
  - intros [u Eu]. destruct (name_ne t Ht) as (b & v & -> & Hb). destruct (name_byte b Hb) as (_ & _ & _ & _ & K & _). rewrite E in Eu. unfold tag_pieces in Eu. rewrite !text_cons in Eu. change (bs "<") with [60%N] in Eu. change (bs "<?xml" ++ u) with ([60%N; 63%N] ++ bs "xml" ++ u) in Eu. cbn [app] in Eu. injection Eu as Eu _. contradiction.
Qed.
Print Assumptions C122_xml_names_partial.
(** A hyphen is an error: <my-tag> *)
Theorem C122_xml_names_refuted : exists t, xml_name t /\ fits (text (tag_pieces t)) /\ highlight_xml (text (tag_pieces t)) false = Ok (true, [OEmit 0 1 hl_symbol_punc false; OEmit 1 2 hl_markup_tag false; OEmit 3 1 hl_error false; OEmit 4 3 hl_markup_tag false; OEmit 7 1 hl_symbol_punc false])
  /\ ~ tokenizes highlight_xml (tag_pieces t).
Proof.
  exists (bs "my-tag"). split.
  - exists 109%N, [121; 45; 116; 97; 103]%N. split; [reflexivity|]. split; [unfold xml_name_start_char; lia|]. split; each.
  - split; [split; [vm_compute; repeat constructor|vm_compute; reflexivity]|]. split; [vm_compute; reflexivity|]. intros K. specialize (K false). vm_compute in K. discriminate.
Qed.
Print Assumptions C122_xml_names_refuted.

(** ** C125: entity references *)
Definition entity_document (n : str) : list piece := tag_pieces (bs "a") ++ [(ch "&" :: n ++ [ch ";"], Some hl_string_escape)].
Theorem C125_xml_entities_partial : forall n, n <> [] -> Forall (fun c => letter c \/ digit c) n -> fits (text (entity_document n)) -> tokenizes highlight_xml (entity_document n).
Proof.
  intros n Hn F Hf strict. set (l := ([(bs "<", Some hl_symbol_punc); (bs "a", Some hl_markup_tag)] ++ [] ++ [([], None); (bs ">", Some hl_symbol_punc)]) ++ [(ch "&" :: n ++ [ch ";"], Some hl_string_escape)] ++ []).
  assert (E : text l = text (entity_document n)) by reflexivity. assert (E2 : tokens 0 l = tokens 0 (entity_document n)) by reflexivity. rewrite <- E, <- E2.
  apply C121_xml_document; [|rewrite E; exact Hf|intros [u Eu]; rewrite E in Eu; discriminate].
  apply xml_document_root.
  - apply (xml_start_tag_ xml_known_name (bs "a") [] [] (bs ">")); [known|constructor|constructor|cbn; auto].
  - apply (sequence_lexeme _ tt _ tt []); [|constructor]. apply xml_content_reference. constructor. apply ref_named; [exact Hn|]. eapply Forall_impl; [|exact F]. intros c. unfold letter, digit. lia.
Qed.
Print Assumptions C125_xml_entities_partial.
(** A dot in the name makes the ampersand an error: <a>&my.ent; *)
Theorem C125_xml_entities_refuted : exists n, xml_known_name n /\ fits (text (entity_document n)) /\ highlight_xml (text (entity_document n)) false = Ok (true, [OEmit 0 1 hl_symbol_punc false; OEmit 1 1 hl_markup_tag false; OEmit 2 1 hl_symbol_punc false; OEmit 3 1 hl_error false])
  /\ ~ tokenizes highlight_xml (entity_document n).
Proof.
  exists (bs "my.ent"). split; [known|]. split; [split; [vm_compute; repeat constructor|vm_compute; reflexivity]|]. split; [vm_compute; reflexivity|]. intros K. specialize (K false). vm_compute in K. discriminate.
Qed.
Print Assumptions C125_xml_entities_refuted.

(** ** C126: processing instructions *)
Definition instruction_pieces (t body : str) : list piece := [(bs "<?", Some hl_symbol_punc); (t, Some hl_name_macro); (bs " ", None); (body, None); (bs "?>", Some hl_symbol_punc)].
(** The instruction is highlighted if its text does not contain "xml". *)
Theorem C126_xml_instructions_partial : forall t body, xml_known_name t -> (~ exists u, t = bs "xml" ++ u) -> ~ contains body (bs "?>") -> ~ contains (map lower body) (bs "xml") -> fits (text (instruction_pieces t body)) ->
  tokenizes highlight_xml (instruction_pieces t body).
Proof.
  intros t body Ht Hx Hb Hc Hf. rewrite <- (app_nil_r (instruction_pieces t body)) in *. apply C121_xml_document; [|exact Hf|].
  - apply xml_document_misc; [|constructor]. left. apply xml_instruction; [exact Ht|repeat constructor|discriminate|exact Hb|]. intros K. apply Hc.
    assert (K2 : contains (map lower (bs " " ++ body ++ bs "?>" ++ text [])) (bs "xml")).
    { rewrite <- (firstn_skipn (length t) (bs " " ++ body ++ bs "?>" ++ text [])). rewrite map_app. destruct K as (a & b & ->). exists a, (b ++ map lower (skipn (length t) (bs " " ++ body ++ bs "?>" ++ text []))). rewrite <- !app_assoc. reflexivity. }
    clear K. rewrite app_nil_r, map_app in K2. destruct K2 as (a & b & E). destruct a as [|x a]; [discriminate|]. change (map lower (bs " ")) with [32%N] in E. cbn [app] in E. injection E as _ E. rewrite map_app in E. change (map lower (bs "?>")) with [63; 62]%N in E. change (bs "xml") with [120; 109; 108]%N in E.
    clear -E. revert a b E. induction (map lower body) as [|d m IH]; intros a b E.
    + destruct a as [|x [|y a]]; try discriminate. cbn in E. injection E as _ _ E. destruct a; discriminate.
    + destruct a as [|x a].
      * cbn [app] in E. injection E as -> E. destruct m as [|e [|f m]]; cbn [app] in E; try discriminate. injection E as -> -> E. exists [], m. reflexivity.
      * cbn [app] in E. injection E as -> E. destruct (IH _ _ E) as (u & v & ->). exists (x :: u), v. reflexivity.
  - rewrite app_nil_r. intros [u E]. apply Hx. unfold instruction_pieces in E. rewrite !text_cons in E. change (bs "<?xml" ++ u) with (bs "<?" ++ bs "xml" ++ u) in E. apply app_inv_head in E. change (bs "xml") with [120; 109; 108]%N in *.
    destruct t as [|c1 [|c2 [|c3 t]]]; cbn [app bs] in E; try discriminate. injection E as -> -> -> _. exists t. reflexivity.
Qed.
Print Assumptions C126_xml_instructions_partial.
Example C126_case : xml_known_name (bs "style") /\ fits (text (instruction_pieces (bs "style") (bs "x='1'"))) /\ ~ contains (map lower (bs "x='1'")) (bs "xml") /\ ~ contains (bs "x='1'") (bs "?>") /\ (~ exists u, bs "style" = bs "xml" ++ u).
Proof. split; [known|]. split; [split; [vm_compute; repeat constructor|vm_compute; reflexivity]|]. split; [apply nasty_contains; vm_compute; reflexivity|]. split; [apply nasty_contains; vm_compute; reflexivity|]. intros [u E]. discriminate. Qed.
(** The word "xml" after the target ends the instruction: <?style xml?> *)
Theorem C126_xml_instructions_refuted : exists t body, xml_known_name t /\ (~ exists u, t = bs "xml" ++ u) /\ ~ contains body (bs "?>") /\ fits (text (instruction_pieces t body))
  /\ highlight_xml (text (instruction_pieces t body)) false = Ok (true, [OEmit 0 2 hl_symbol_punc false; OEmit 2 5 hl_name_macro false]) /\ ~ tokenizes highlight_xml (instruction_pieces t body).
Proof.
  exists (bs "style"), (bs "xml"). split; [known|]. split; [intros [u E]; discriminate|]. split; [apply nasty_contains; vm_compute; reflexivity|]. split; [split; [vm_compute; repeat constructor|vm_compute; reflexivity]|]. split; [vm_compute; reflexivity|]. intros K. specialize (K false). vm_compute in K. discriminate.
Qed.
Print Assumptions C126_xml_instructions_refuted.

(** ** What follows the prolog *)
Lemma after_prolog a l : does xml_expect_prolog tt a (text l) tt tt -> sequence content_step tt l -> tokenizes highlight_xml (a ++ l).
Proof.
  intros D Hl strict. unfold highlight_xml, run.
  assert (W : wp (xml_expect_prolog ;; while_rem xml_content) (fun _ st' => rops st' = rev (tokens 0 (a ++ l))) (mk_hst (text (a ++ l)) 0 [] tt)).
  { apply wp_bind. rewrite text_app. eapply wp_mono; [apply D|]. cbn beta. intros ? ? [_ ->]. eapply wp_mono.
    - apply (while_states_wp (fun _ => tt) content_step xml_content) with (s := tt); [| |exact Hl].
      + intros s p r s' [H _]. eapply content_head. exact H.
      + intros s p r s' i o [H F]. destruct s. eapply wp_mono; [apply (content_exact p r H F)|]. cbn beta. intros ? ? [_ ->]. reflexivity.
    - cbn beta. intros _ st' ->. rewrite tokens_app, rev_app_distr, app_nil_r. reflexivity. }
  unfold wp in W. unfold bindM in *. destruct (xml_expect_prolog _) as [[[] st1]|]; [|contradiction]. destruct (while_rem xml_content st1) as [[[] st2]|]; [|contradiction]. unfold ret. rewrite W, rev_involutive. reflexivity.
Qed.
Notation xml_contents l := (sequence (fun _ p rest _ => xml_content_lexeme xml_known_name p rest) tt l).
Lemma no_space r : not_before xml_space r -> does xml_expect_whitespace tt [] r false tt.
Proof. intros H. eapply (does_same _ _ [([], None)]); [reflexivity|reflexivity|]. apply (does_space []); [constructor|exact H]. Qed.

(** ** C123: XML declarations *)
(** <?xml version= and a value, e.g. "1.0"?> *)
Definition declaration_pieces (w v : str) : list piece := [(bs "<?xml", Some hl_name_macro); (w, None); (bs "version", Some hl_markup_attr); (bs "=", Some hl_symbol_punc); (v, None)].
Lemma quote_number q t : q = 34%N \/ q = 39%N -> exists n, match_common_number (q :: t) xml_number_options = Ok n /\ nr_integer n = 0 /\ nr_radix_point n = 0 /\ nr_fractional n = 0.
Proof. intros [->| ->]; eexists; (split; [cbn; reflexivity|split; [reflexivity|split; reflexivity]]). Qed.
Definition plain_text (c : N) : Prop := c <> ch "<" /\ c <> ch "&".
Theorem C123_xml_declaration_partial : forall w q v l, w <> [] -> Forall xml_space w -> (q = 34%N \/ q = 39%N) -> Forall plain_text v -> not_before plain_text (text l) -> xml_contents l ->
  fits (text (declaration_pieces w (q :: v) ++ l)) -> tokenizes highlight_xml (declaration_pieces w (q :: v) ++ l).
Proof.
  intros w q v l Hw Fw Hq Fv R Hl Hf. set (d := [(bs "<?xml", Some hl_name_macro); (w, None); (bs "version", Some hl_markup_attr); (bs "=", Some hl_symbol_punc)]).
  change (declaration_pieces w (q :: v)) with (d ++ [(q :: v, None)]) in *. rewrite <- app_assoc in *. assert (Hq' : plain_text q) by (unfold plain_text; destruct Hq as [->| ->]; split; discriminate).
  assert (F2 : fits (text ([(q :: v, @None N)] ++ l))) by (rewrite text_app in Hf; exact (fits_app _ _ Hf)).
  apply after_prolog.
  - match goal with |- does _ _ _ ?x _ _ => assert (Er : x = q :: v ++ text l) by reflexivity; revert Er; generalize x end. intros r Er. unfold xml_expect_prolog.
    assert (NP : forall c x, c <> 34%N -> c <> 39%N -> starts_with r (c :: x) = false).
    { intros c x N1 N2. rewrite Er. cbn [starts_with]. replace (q =? c)%N with false; [reflexivity|]. symmetry. apply N.eqb_neq. destruct Hq as [->| ->]; congruence. }
    assert (NS : not_before xml_space r) by (rewrite Er; destruct Hq as [->| ->]; nospace).
    assert (NA : forall c x val, c <> 34%N -> c <> 39%N -> does (xml_decl_attr (c :: x) val) tt [] r tt tt) by (intros c x val N1 N2; unfold xml_decl_attr; apply does_get; change (text [] ++ r) with r; rewrite NP by assumption; apply does_ret).
    eapply does_last.
    { unfold xml_expect_xml_decl. apply does_get. match goal with |- context [starts_with ?x (bs "<?xml")] => change (starts_with x (bs "<?xml")) with true end. cbn [negb]. unfold d.
      eapply does_cons; [apply does_emit; [reflexivity|discriminate]|]. eapply does_cons; [apply does_space; [exact Fw|rewrite text_cons; change (bs "version") with [118; 101; 114; 115; 105; 111; 110]%N; nospace]|].
      eapply does_last.
      { unfold xml_decl_attr. apply does_get. rewrite !text_cons. match goal with |- context [starts_with ?x (bs "version")] => change (starts_with x (bs "version")) with true end. cbn [when].
        eapply does_cons; [apply does_emit; [reflexivity|discriminate]|]. apply does_get. rewrite !text_cons. match goal with |- context [starts_with_ch ?x (ch "=")] => change (starts_with_ch x (ch "=")) with true end. cbn [when].
        eapply does_cons; [apply does_emit; [reflexivity|discriminate]|]. apply does_eof; [rewrite Er; discriminate|]. cbn [negb when]. unfold xml_highlight_number. apply does_get. change (text [] ++ r) with r. destruct (quote_number q (v ++ text l) Hq) as (n & En & N1 & N2 & N3). rewrite Er. eapply does_lift; [exact En|]. rewrite N1, N2, N3. cbn [Nat.eqb negb when].
        eapply does_nil; [apply does_ret|]. eapply does_nil; apply does_ret. }
      eapply does_nil; [apply no_space; exact NS|]. eapply does_nil; [apply NA; discriminate|]. eapply does_nil; [apply no_space; exact NS|]. eapply does_nil; [apply NA; discriminate|]. eapply does_nil; [apply no_space; exact NS|].
      apply does_get. change (text [] ++ r) with r. replace (starts_with r (bs "?>")) with false by (symmetry; apply NP; discriminate). cbn [when]. eapply does_nil; apply does_ret. }
    eapply does_nil.
    { apply does_loop, iterates_end. unfold xml_prolog_body. change (text [] ++ r) with r. skip_ no_pi; [apply NP; discriminate|]. skip_ no_comment; [apply NP; discriminate|]. skip_ no_space; [exact NS|]. apply does_ret. }
    apply (does_nil _ _ tt [] r false tt tt tt); [|apply does_ret]. change (text [] ++ r) with r. unfold xml_expect_doctype. apply does_get. change (text [] ++ r) with r. replace (starts_with r (bs "<!")) with false by (symmetry; apply NP; discriminate). apply does_ret.
  - apply content_sequence; [|exact F2]. apply (sequence_lexeme _ tt [(q :: v, None)] tt l); [|exact Hl]. apply xml_content_text; [discriminate|constructor; assumption|exact R].
Qed.
Print Assumptions C123_xml_declaration_partial.
Definition version_1_0 : str := [34%N] ++ bs "1.0" ++ [34%N] ++ bs "?>".
Definition xml_note : list piece := [(bs "<", Some hl_symbol_punc); (bs "note", Some hl_markup_tag); ([], None); (bs "/>", Some hl_symbol_punc)].
Lemma xml_note_contents : xml_contents xml_note.
Proof.
  rewrite <- (app_nil_r xml_note). apply (sequence_lexeme _ tt xml_note tt []); [|constructor]. apply xml_content_start. apply (xml_start_tag_ xml_known_name (bs "note") [] [] (bs "/>")); [known|constructor|constructor|cbn; auto].
Qed.
Example C123_case : text (declaration_pieces (bs " ") version_1_0 ++ xml_note) = bs "<?xml version=" ++ version_1_0 ++ bs "<note/>" /\ xml_contents xml_note /\ Forall plain_text (bs "1.0" ++ [34%N] ++ bs "?>") /\ not_before plain_text (text xml_note)
  /\ fits (text (declaration_pieces (bs " ") version_1_0 ++ xml_note)).
Proof.
  split; [reflexivity|]. split; [exact xml_note_contents|]. split; [repeat constructor; discriminate|]. split; [intros c Hc; injection Hc as <-; intros [K _]; apply K; reflexivity|]. split; [vm_compute; repeat constructor|vm_compute; reflexivity].
Qed.
(** The version, its quotes and the end of the declaration are not highlighted, and a document type is taken for a tag:
    <?xml version="1.0"?><!DOCTYPE note []><note/> *)
Theorem C123_xml_declaration_refuted :
  highlight_xml (bs "<?xml version=" ++ version_1_0 ++ bs "<!DOCTYPE note []><note/>") false
  = Ok (true, tokens 0 ([(bs "<?xml", Some hl_name_macro); (bs " ", None); (bs "version", Some hl_markup_attr); (bs "=", Some hl_symbol_punc); (version_1_0, None);
      (bs "<", Some hl_symbol_punc); (bs "!", Some hl_error); (bs "DOCTYPE", Some hl_markup_tag); (bs " ", None); (bs "note", Some hl_markup_attr); (bs " ", None); (bs "[", Some hl_error); (bs "]", Some hl_error); (bs ">", Some hl_symbol_punc)] ++ xml_note))
  /\ highlight_xml (bs "<!DOCTYPE note []><note/>") false
  = Ok (true, tokens 0 ([(bs "<!", Some hl_name_macro); (bs "DOCTYPE", Some hl_name_macro); (bs " ", None); (bs "note", Some hl_name); (bs " ", None); (bs "[", Some hl_symbol_punc); (bs "]", Some hl_symbol_punc); (bs ">", Some hl_name_macro)] ++ xml_note)).
Proof. split; vm_compute; reflexivity. Qed.
Print Assumptions C123_xml_declaration_refuted.

(** ** C124: document types *)
Definition doctype_pieces (w n w1 w2 : str) (subset : list piece) (w3 : str) : list piece :=
  [(bs "<!", Some hl_name_macro); (bs "DOCTYPE", Some hl_name_macro); (w, None); (n, Some hl_name); (w1, None); (bs "[", Some hl_symbol_punc); (w2, None)]
  ++ subset ++ [(bs "]", Some hl_symbol_punc); (w3, None); (bs ">", Some hl_name_macro)].
(** Comments and processing instructions, each with white space after it; [rest] follows. *)
Inductive misc_list (rest : str) : list piece -> Prop :=
| misc_end : misc_list rest []
| misc_more p w l : xml_misc xml_known_name p (w ++ text l ++ rest) -> Forall xml_space w -> misc_list rest l -> misc_list rest (p ++ [(w, None)] ++ l).
Lemma doctype_name_stop : name_stop xml_doctype_stop. Proof. unfold xml_doctype_stop. stop_tac. Qed.
Lemma misc_start rest p l : xml_misc xml_known_name p (text l) -> exists c t, text p ++ rest = 60%N :: c :: t /\ (c = 33 \/ c = 63)%N.
Proof. intros [t r _|t w b r _ _ _ _ _]; rewrite text_cons; eexists _, _; (split; [reflexivity|auto]). Qed.
Theorem C124_xml_doctype_partial : forall w n w1 w2 s w3 l, w <> [] -> Forall xml_space w -> xml_known_name n -> Forall xml_space w1 -> Forall xml_space w2 -> Forall xml_space w3 ->
  misc_list (bs "]" ++ w3 ++ bs ">" ++ text l) s -> xml_contents l -> fits (text (doctype_pieces w n w1 w2 s w3 ++ l)) -> tokenizes highlight_xml (doctype_pieces w n w1 w2 s w3 ++ l).
Proof.
  intros w n w1 w2 s w3 l Hw Fw Hn F1 F2 F3 Hs Hl Hf. apply after_prolog.
  2:{ apply content_sequence; [exact Hl|]. rewrite text_app in Hf. exact (fits_app _ _ Hf). }
  set (rest := bs "]" ++ w3 ++ bs ">" ++ text l) in *. unfold doctype_pieces in *.
  assert (Hf2 : fits (n ++ w1 ++ bs "[" ++ w2 ++ text s ++ rest)).
  { rewrite text_app in Hf. cbn [app] in Hf. rewrite !text_cons, text_app, !text_cons, <- !app_assoc in Hf. change (text [] ++ text l) with (text l) in Hf. do 3 apply fits_app in Hf. exact Hf. }
  assert (Hf3 : fits (text s ++ rest)) by (do 4 apply fits_app in Hf2; exact Hf2).
  assert (SS : forall s', misc_list rest s' -> not_before (fun c => xml_space c \/ c = 62%N) (text s' ++ rest)).
  { intros s' [|p u q Hp _ _]; [unfold rest; apply not_before_cons'; change (ch "]") with 93%N; unfold xml_space; cbn [In]; intuition discriminate|]. rewrite text_app, <- app_assoc. destruct Hp; rewrite text_cons; apply not_before_cons'; unfold xml_space; cbn [In]; intuition discriminate. }
  assert (SSs : forall s', misc_list rest s' -> not_before xml_space (text s' ++ rest)) by (intros s' H'; eapply not_before_impl; [|apply SS; exact H']; intros c K; left; exact K).
  unfold xml_expect_prolog. eapply does_nil.
  { unfold xml_expect_xml_decl. apply does_get. match goal with |- context [starts_with ?x (bs "<?xml")] => change (starts_with x (bs "<?xml")) with false end. apply does_ret. }
  eapply does_nil.
  { apply does_loop, iterates_end. unfold xml_prolog_body. skip_ no_pi. skip_ no_comment. skip_ no_space; [cbn [app]; rewrite text_cons; nospace|]. apply does_ret. }
  eapply does_last; [|apply does_ret]. unfold xml_expect_doctype. apply does_get. match goal with |- context [starts_with ?x (bs "<!")] => change (starts_with x (bs "<!")) with true end. cbn [negb app].
  eapply does_cons; [apply does_emit; [reflexivity|discriminate]|]. eapply does_cons.
  { apply does_name; [apply doctype_name_stop|known| |].
    - rewrite text_cons, <- app_assoc. unfold xml_doctype_stop. rewrite space_stop by assumption. apply orb_true_r.
    - rewrite text_app in Hf. cbn [app] in Hf. rewrite text_cons, <- !app_assoc in Hf. apply fits_app in Hf. rewrite text_cons, <- app_assoc in Hf. exact Hf. }
  eapply does_cons; [apply does_space; [exact Fw|rewrite text_cons, <- app_assoc; apply name_no_space; exact Hn]|].
  match goal with |- context [s ++ ?x] => assert (Et : text (s ++ x) ++ text l = text s ++ rest) by (rewrite text_app, !text_cons, <- !app_assoc; reflexivity) end.
  eapply does_cons.
  { apply does_name; [apply doctype_name_stop|exact Hn| |].
    - rewrite text_cons, <- app_assoc. unfold xml_doctype_stop. destruct w1 as [|c w1]; [reflexivity|]. rewrite space_stop by (first [discriminate|assumption]). apply orb_true_r.
    - rewrite !text_cons, <- !app_assoc, Et. exact Hf2. }
  eapply does_cons; [apply does_space; [exact F1|rewrite text_cons; nospace]|]. apply does_get. rewrite text_cons.
  match goal with |- context [xml_match_external_id_type ?x] => change (xml_match_external_id_type x) with 0; change (starts_with_ch x (ch "[")) with true end. cbn [Nat.eqb negb when].
  eapply does_nil; [apply does_ret|]. eapply does_nil; [apply no_space; rewrite text_cons; nospace|]. apply does_get. rewrite text_cons. match goal with |- context [starts_with_ch ?x (ch "[")] => change (starts_with_ch x (ch "[")) with true end. cbn [negb].
  eapply does_cons; [apply does_emit; [reflexivity|discriminate]|]. eapply does_cons; [apply does_space; [exact F2|rewrite Et; apply SSs; exact Hs]|].
  eapply (does_bind _ _ tt s _ _ tt tt).
  { apply does_loop. rewrite !text_cons, <- !app_assoc. change (text [] ++ text l) with (text l). fold rest. clear Et Hf Hf2. induction Hs as [|p u q Hp Fu Hq IH].
    - apply iterates_end. unfold xml_doctype_body, xml_expect_markup_decl. apply (does_nil _ _ tt [] rest false tt (inr tt) tt); [|cbn [negb]; apply does_ret]. skip_ no_comment. skip_ no_pi. apply does_get. match goal with |- context [starts_with ?x (bs "<!")] => change (starts_with x (bs "<!")) with false end. apply does_ret.
    - rewrite !text_app, text_one, <- !app_assoc in Hf3. rewrite app_assoc. eapply iterates_more; [| |apply IH; do 2 apply fits_app in Hf3; exact Hf3].
      + unfold xml_doctype_body. eapply does_bind.
        { rewrite text_one. unfold xml_expect_markup_decl. remember (u ++ text q ++ rest) as r eqn:Er. destruct Hp as [t r Hc|t v body r Ht Fv Hv Hb Hx].
          - eapply does_last; [apply does_comment; exact Hc|apply does_ret].
          - skip_ no_comment. eapply does_last; [apply does_pi; assumption|apply does_ret]. }
        cbn [negb]. eapply does_last; [apply does_space; [exact Fu|apply SSs; exact Hq]|]. apply does_get. change (text [] ++ text q ++ rest) with (text q ++ rest). replace (starts_with_ch (text q ++ rest) (ch ">")) with false.
        2:{ symmetry. specialize (SS q Hq). destruct (text q ++ rest) as [|c z]; [reflexivity|]. cbn [starts_with_ch]. apply N.eqb_neq. intros ->. apply (SS _ eq_refl). right. reflexivity. }
        cbn [when]. eapply does_nil; [apply does_ret|]. eapply does_nil; [apply no_space; apply SSs; exact Hq|]. apply does_ret.
      + rewrite text_app. destruct Hp; rewrite text_cons; discriminate. }
  apply does_get. match goal with |- context [starts_with_ch ?x (ch "]")] => change (starts_with_ch x (ch "]")) with true end. cbn [negb].
  eapply does_cons; [apply does_emit; [reflexivity|discriminate]|]. eapply does_cons; [apply does_space; [exact F3|rewrite text_one; nospace]|]. apply does_get. match goal with |- context [starts_with_ch ?x (ch ">")] => change (starts_with_ch x (ch ">")) with true end. cbn [when].
  eapply does_last; [apply does_emit; [reflexivity|discriminate]|]. apply does_ret.
Qed.
Print Assumptions C124_xml_doctype_partial.
Example C124_case : misc_list (bs "]" ++ [] ++ bs ">" ++ text xml_note) (xml_comment_case ++ [(bs " ", None)] ++ []) /\ xml_known_name (bs "note")
  /\ text (doctype_pieces (bs " ") (bs "note") (bs " ") [] (xml_comment_case ++ [(bs " ", None)] ++ []) [] ++ xml_note) = bs "<!DOCTYPE note [<!-- hi --> ]><note/>".
Proof.
  split; [|split; [known|reflexivity]]. apply misc_more; [apply (xml_comment xml_known_name (bs " hi ")); apply nasty_contains; vm_compute; reflexivity|repeat constructor|constructor].
Qed.
(** Without internal subset the text up to the next white space is lost, here the whole document: <!DOCTYPE note><note/> *)
Theorem C124_xml_doctype_refuted :
  highlight_xml (bs "<!DOCTYPE note><note/>") false = Ok (true, tokens 0 [(bs "<!", Some hl_name_macro); (bs "DOCTYPE", Some hl_name_macro); (bs " ", None); (bs "note", Some hl_name); (bs "><note/>", None)])
  /\ highlight_xml (bs "<!DOCTYPE note SYSTEM 'n.dtd'><note/>") false
     = Ok (true, tokens 0 ([(bs "<!", Some hl_name_macro); (bs "DOCTYPE", Some hl_name_macro); (bs " ", None); (bs "note", Some hl_name); (bs " ", None); (bs "SYSTEM", Some hl_keyword); (bs " ", None);
         (bs "'", Some hl_string_delim); (bs "n.dtd", Some hl_string); (bs "'", Some hl_string_delim); (bs ">", None)] ++ xml_note)).
Proof. split; vm_compute; reflexivity. Qed.
Print Assumptions C124_xml_doctype_refuted.
