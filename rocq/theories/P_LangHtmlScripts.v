(** * HTML documents with scripts and style sheets (C216) *)
From Coq Require Import List NArith ZArith Bool Arith Lia.
From Verif Require Import M_Base L_Base S_Tokens M_Emit S_Ops L_Emit M_Types M_Chars S_Chars P_Chars M_Parse S_Parse L_Parse P_Parse S_Utf8 M_Utf8 L_Utf8 P_Utf8 L_Any L_Utf8Ascii
  M_Api M_Highlighter S_Highlight L_Highlighter P_LangCpp L_Auto S_Json L_JsonText M_LangHtml S_LangHtml P_HtmlMatch S_Lexemes L_Lexemes L_Number L_Scan L_Comments S_States L_States L_Does S_LangHtmlLexemes P_LangHtmlLexemes.
Import ListNotations.

(** ** Specification *)
(** The text of an element in another language has no end tag of the element, and neither the beginning of one. *)
Definition no_close (name t : str) : Prop := forall a m b, t = a ++ bs "</" ++ m ++ b -> map lower m <> name.
(** The tokens of a text in another language: those that its highlighter gives, moved to the place of the text *)
Definition moved (at_ : nat) (t : str) (nested : list out_op) : list out_op := match t with [] => [] | _ => [ONested 1024 at_ (length t) nested] end.
(** [html_document js css strict i src ops]: the document [src] that begins at [i], and its tokens. Scripts are highlighted by [js] and style sheets by [css]. *)
Inductive html_document (js css : highlighter) (strict : bool) : nat -> str -> list out_op -> Prop :=
| document_end i : html_document js css strict i [] []
| document_lexeme i p src ops : html_lexeme p src -> html_document js css strict (i + length (text p)) src ops ->
    html_document js css strict i (text p ++ src) (tokens i p ++ ops)
| document_raw i name (h : highlighter) p t src nested ops : In (map lower name, h) [(bs "script", js); (bs "style", css)] -> start_tag name (t ++ src) p ->
    no_close (map lower name) t -> closes (map lower name) src -> (t <> [] -> h t strict = Ok (true, nested)) ->
    html_document js css strict (i + length (text p) + length t) src ops ->
    html_document js css strict i (text p ++ t ++ src) (tokens i p ++ moved (i + length (text p)) t nested ++ ops).

(** ** The end of the text *)
Lemma find_close t rest : ~ contains t (bs "</") -> find_sub (t ++ bs "</" ++ rest) (bs "</") = Some (length t).
Proof.
  change (bs "</") with [60; 47]%N. induction t as [|c t IH]; intros H; [reflexivity|]. cbn [app find_sub starts_with].
  assert (X : (c =? 60)%N && starts_with (t ++ 60%N :: 47%N :: rest) [47%N] = false).
  { destruct (N.eqb_spec c 60) as [->|]; [|reflexivity]. destruct t as [|d t]; [reflexivity|]. cbn [app starts_with]. destruct (N.eqb_spec d 47) as [->|]; [|reflexivity]. elim H. exists [], t. reflexivity. }
  cbn [starts_with] in X. change (t ++ [60; 47]%N ++ rest) with (t ++ 60%N :: 47%N :: rest) in IH. rewrite X, IH; [reflexivity|]. intros (a & b & E). apply H. exists (c :: a), b. rewrite E. reflexivity.
Qed.
Lemma raw_text_end name : In name raw_names -> forall fuel t src len, length (t ++ src) <= fuel -> no_close name t -> closes name src ->
  match_raw_text_loop fuel (t ++ src) name len = Ok (len + length t).
Proof.
  intros Hn. assert (Low : map lower name = name /\ ~ In 60%N name) by (cbn in Hn; destruct Hn as [<-|[<-|[]]]; split; (reflexivity || (cbn; intuition discriminate))). destruct Low as [Low N60].
  induction fuel as [|fuel IH]; intros t src len L NC C.
  { destruct C as (m & c & r & -> & _). rewrite !app_length in L. cbn in L. lia. }
  pose proof C as (m & c & r & Es & Em & Hc).
  assert (NE : exists x y, t ++ src = x :: y) by (destruct t; [rewrite Es; cbn; eauto|cbn; eauto]). destruct NE as (x & y & NE). rewrite NE. cbn [match_raw_text_loop]. rewrite <- NE. clear x y NE.
  destruct (find_sub t (bs "</")) as [k|] eqn:F.
  - destruct (find_sub_split _ _ _ F) as (a & b & -> & <- & M). assert (Ca : ~ contains a (bs "</")).
    { intros (u & v & ->). specialize (M u (v ++ bs "</" ++ b)). rewrite <- !app_assoc in M. specialize (M eq_refl). rewrite !app_length in M. cbn in M. lia. }
    unfold find_str. cbn [Nat.ltb Nat.leb skipn]. rewrite <- !app_assoc. rewrite (find_close a (b ++ src) Ca). cbn [option_map Nat.add].
    rewrite remove_prefix_any by (rewrite app_length; lia). cbn [bind]. rewrite skipn_app_exact. rewrite remove_prefix_any by (cbn; lia). cbn [bind]. change (skipn 2 (bs "</" ++ b ++ src)) with (b ++ src).
    assert (S : starts_with_ignore_case (b ++ src) name = false).
    { apply not_true_iff_false. rewrite starts_with_ignore_case_spec. intros (m' & r' & E & Em'). rewrite Low in Em'. destruct (le_lt_dec (length m') (length b)) as [Lb|Lb].
      - assert (B : b = m' ++ skipn (length m') b).
        { rewrite <- (firstn_skipn (length m') b) at 1. f_equal. pose proof (f_equal (firstn (length m')) E) as E'. rewrite firstn_app_exact, firstn_app in E'. replace (length m' - length b) with 0 in E' by lia. cbn [firstn] in E'. rewrite app_nil_r in E'. exact E'. }
        apply (NC a m' (skipn (length m') b)); [rewrite B at 1; reflexivity|exact Em'].
      - apply N60. rewrite <- Em'. change 60%N with (lower 60%N). apply in_map. rewrite Es in E.
        pose proof (f_equal (fun l => nth_error l (length b)) E) as E'. cbv beta in E'. rewrite nth_error_app2 in E' by lia. rewrite Nat.sub_diag in E'. rewrite (nth_error_app1 m' r') in E' by lia. cbn in E'. symmetry in E'. apply nth_error_In in E'. exact E'. }
    rewrite S. cbn [negb]. cbv zeta. rewrite IH.
    + f_equal. rewrite !app_length. cbn. lia.
    + rewrite !app_length in *. cbn in L. lia.
    + intros a' m' b' ->. apply (NC (a ++ bs "</" ++ a') m' b'). rewrite <- !app_assoc. reflexivity.
    + exact C.
  - apply find_sub_None in F. unfold find_str. cbn [Nat.ltb Nat.leb skipn]. rewrite Es, (find_close t _ F). cbn [option_map Nat.add].
    rewrite remove_prefix_any by (rewrite app_length; lia). cbn [bind]. rewrite skipn_app_exact. rewrite remove_prefix_any by (cbn; lia). cbn [bind]. change (skipn 2 (bs "</" ++ m ++ c :: r)) with (m ++ c :: r).
    assert (Lm : length m = length name) by (rewrite <- (map_length lower m), Em; apply map_length).
    rewrite (proj2 (starts_with_ignore_case_spec _ _)) by (exists m, (c :: r); split; [reflexivity|exact Em]). cbn [negb]. cbv zeta. rewrite remove_prefix_any by (rewrite app_length; lia). rewrite <- Lm, skipn_app_exact. cbn [bind].
    replace (is_html_whitespace c || (c =? ch ">")%N || (c =? ch "/")%N) with true; [reflexivity|]. symmetry. rewrite !orb_true_iff, hspace_iff, !N.eqb_eq. tauto.
Qed.

(** ** The element *)
Lemma wp_after {A B} (m : M unit A) (k : A -> M unit B) p rest x i o Q : does m tt p rest x tt -> wp (k x) Q (mk_hst rest (i + length (text p)) (rev (tokens i p) ++ o) tt) -> wp (bindM m k) Q (mk_hst (text p ++ rest) i o tt).
Proof. intros D K. apply wp_bind. eapply wp_mono; [apply D|]. cbn beta. intros ? ? [-> ->]. exact K. Qed.
Lemma wp_skip {A B} (m : M unit A) (k : A -> M unit B) rest x i o Q : does m tt [] rest x tt -> wp (k x) Q (mk_hst rest i o tt) -> wp (bindM m k) Q (mk_hst rest i o tt).
Proof. intros D K. apply (wp_after m k [] rest x i o Q D). cbn. rewrite Nat.add_0_r. exact K. Qed.
Lemma nested_wp strict (h : highlighter) t src i o nested name : In name raw_names -> no_close name t -> closes name src -> (t <> [] -> h t strict = Ok (true, nested)) ->
  wp (let! r := get_rem in let! len := lift (match_raw_text r name) in html_consume_nested strict h len ;; ret true)
    (fun b st' => b = true /\ st' = mk_hst src (i + length t) (rev (moved i t nested) ++ o) tt) (mk_hst (t ++ src) i o tt).
Proof.
  intros Hn NC C Hh. apply wp_bind, wp_get_rem. cbn [rem]. apply wp_bind. eapply wp_lift; [unfold match_raw_text; apply raw_text_end; auto|]. cbn [Nat.add]. apply wp_bind. unfold html_consume_nested. destruct t as [|c t].
  - cbn [length Nat.eqb]. apply wp_ret. apply wp_ret. split; [reflexivity|]. rewrite Nat.add_0_r. reflexivity.
  - cbn [length Nat.eqb]. unfold wp at 1, bindM, consume_nested. cbn [length Nat.eqb rem]. change (S (length t)) with (length (c :: t)). rewrite firstn_app_exact, Hh by discriminate. rewrite (proj2 (Nat.leb_le _ _)) by (rewrite app_length; lia). rewrite skipn_app_exact. cbn. split; reflexivity.
Qed.
Lemma wp_after_eq {A B} (m : M unit A) (k : A -> M unit B) p rest x i o s Q : does m tt p rest x tt -> s = text p ++ rest -> wp (k x) Q (mk_hst rest (i + length (text p)) (rev (tokens i p) ++ o) tt) -> wp (bindM m k) Q (mk_hst s i o tt).
Proof. intros D ->. apply wp_after. exact D. Qed.
Lemma wp_tag js css strict t rest p Q i o : start_tag t rest p ->
  wp (if equals_ignore_case t (bs "textarea") || equals_ignore_case t (bs "title") then
        hloop 1 (html_escapable_body t) tt ;; ret true
      else if equals_ignore_case t (bs "script") then
        let! r := get_rem in
        let! len := lift (match_raw_text r (bs "script")) in
        html_consume_nested strict js len ;; ret true
      else if equals_ignore_case t (bs "style") then
        let! r := get_rem in
        let! len := lift (match_raw_text r (bs "style")) in
        html_consume_nested strict css len ;; ret true
      else ret true) Q (mk_hst rest (i + length (text p)) (rev (tokens i p) ++ o) tt) ->
  wp (html_expect_start_tag js css strict) Q (mk_hst (text p ++ rest) i o tt).
Proof.
  intros Hp K. destruct Hp as [w a e [Nt Ft] Fw Hw He Ha]. set (tail := blank w ++ a ++ [(e, Some hl_symbol_punc)]) in *.
  unfold html_expect_start_tag. apply wp_bind, wp_get_rem. cbn [rem]. rewrite !text_cons, <- !app_assoc. match goal with |- context [starts_with_ch ?x (ch "<")] => change (starts_with_ch x (ch "<")) with true end. cbn [negb].
  eapply (wp_after_eq _ _ [(bs "<", Some hl_symbol_punc)]); [apply does_emit; [reflexivity|discriminate]|rewrite text_one; reflexivity|]. apply wp_bind, wp_get_rem. cbn [rem].
  apply wp_bind. eapply wp_lift; [apply length_ascii; [eapply Forall_impl; [|exact Ft]; intros d; apply tag_char_ok|]|].
  { right. destruct (gap_head e rest w a He Ha Fw Hw) as (c & r & E & Hc). exists c, r. destruct (attribute_char_stop c Hc) as (L & _ & S). unfold tail. rewrite !text_app, blank_text, text_one, <- !app_assoc, E. auto. }
  rewrite (proj2 (Nat.eqb_neq _ _)) by (destruct t; [congruence|discriminate]). cbv zeta. rewrite firstn_app_exact.
  eapply (wp_after_eq _ _ [(t, Some hl_markup_tag)]); [apply does_emit; [reflexivity|exact Nt]|rewrite text_one; reflexivity|].
  eapply (wp_after_eq _ _ tail rest); [apply does_loop; apply attributes_iterate; assumption|reflexivity|]. cbn [negb].
  match goal with |- wp _ _ ?st => match type of K with wp _ _ ?st' => assert (ES : st = st') end end; [|rewrite ES; exact K].
  f_equal; [rewrite !text_cons, !app_length; cbn [text map concat app length]; lia|]. cbn [tokens rev]. rewrite !text_cons. change (text []) with (@nil N). rewrite !app_nil_r. cbn [app]. rewrite <- !app_assoc. reflexivity.
Qed.
Lemma raw_element js css strict i o name (h : highlighter) p t src nested : In (map lower name, h) [(bs "script", js); (bs "style", css)] -> start_tag name (t ++ src) p ->
  no_close (map lower name) t -> closes (map lower name) src -> (t <> [] -> h t strict = Ok (true, nested)) ->
  wp (html_expect_start_tag js css strict) (fun b st' => b = true /\ st' = mk_hst src (i + length (text p) + length t) (rev (moved (i + length (text p)) t nested) ++ rev (tokens i p) ++ o) tt) (mk_hst (text p ++ t ++ src) i o tt).
Proof.
  intros Hn Hp NC C Hh. apply (wp_tag js css strict name); [exact Hp|].
  pose proof (nested_wp strict h t src (i + length (text p)) (rev (tokens i p) ++ o) nested (map lower name)) as K.
  assert (NI : forall x, In x [bs "textarea"; bs "title"; bs "script"; bs "style"] -> equals_ignore_case name x = true <-> map lower name = x).
  { intros x Hx. rewrite equals_ignore_case_spec. cbn in Hx. repeat (destruct Hx as [<-|Hx]; [reflexivity|]). contradiction. }
  assert (B : forall x, In x [bs "textarea"; bs "title"; bs "script"; bs "style"] -> map lower name <> x -> equals_ignore_case name x = false) by (intros x Hx D; apply not_true_iff_false; rewrite NI by exact Hx; exact D).
  cbn [In] in Hn. destruct Hn as [Hn|[Hn|[]]]; pose proof (f_equal fst Hn) as El; pose proof (f_equal snd Hn) as Eh; cbn [fst snd] in El, Eh; subst h; clear Hn.
  - symmetry in El. rewrite (B (bs "textarea")), (B (bs "title")) by (first [cbn; tauto|rewrite El; discriminate]). cbn [orb]. rewrite (proj2 (NI (bs "script") ltac:(cbn; tauto)) El). rewrite El in *. eapply wp_mono; [apply K; auto; cbn; tauto|]. cbn beta. intros b st' [-> ->]. split; reflexivity.
  - symmetry in El. rewrite (B (bs "textarea")), (B (bs "title")), (B (bs "script")) by (first [cbn; tauto|rewrite El; discriminate]). cbn [orb]. rewrite (proj2 (NI (bs "style") ltac:(cbn; tauto)) El). rewrite El in *. eapply wp_mono; [apply K; auto; cbn; tauto|]. cbn beta. intros b st' [-> ->]. split; reflexivity.
Qed.
Lemma raw_body js css strict i o name (h : highlighter) p t src nested : In (map lower name, h) [(bs "script", js); (bs "style", css)] -> start_tag name (t ++ src) p ->
  no_close (map lower name) t -> closes (map lower name) src -> (t <> [] -> h t strict = Ok (true, nested)) ->
  wp (html_body js css strict) (fun _ st' => st' = mk_hst src (i + length (text p) + length t) (rev (moved (i + length (text p)) t nested) ++ rev (tokens i p) ++ o) tt) (mk_hst (text p ++ t ++ src) i o tt).
Proof.
  intros Hn Hp NC C Hh. destruct (start_tag_head name p (t ++ src) Hp) as (b & u & E & N1 & N2). unfold html_body.
  eapply wp_skip; [apply no_comment; rewrite E; apply (not_prefix2 b); exact N1|]. cbn iota. eapply wp_skip; [apply no_doctype; rewrite E; apply (not_doctype2 b); exact N1|]. cbn iota. eapply wp_skip; [apply no_cdata; rewrite E; apply (not_prefix2 b); exact N1|]. cbn iota. eapply wp_skip; [apply no_end; rewrite E; apply (not_prefix2 b); exact N2|]. cbn iota.
  apply wp_bind. eapply wp_mono; [eapply raw_element; eassumption|]. cbn beta. intros ? ? [-> ->]. apply wp_ret. reflexivity.
Qed.

(** ** Documents *)
Theorem C216_html_scripts_partial : forall js css strict src ops, html_document js css strict 0 src ops -> starts_with src [0xEF; 0xBB; 0xBF]%N = false ->
  highlight_html js css src strict = Ok (true, ops).
Proof.
  intros js css strict src ops H Hb. unfold highlight_html, run.
  assert (W : wp (html_expect_bom ;; while_rem (html_body js css strict)) (fun _ st' => rops st' = rev ops) (mk_hst src 0 [] tt)).
  { apply wp_bind. unfold html_expect_bom. apply wp_bind, wp_get_rem. cbn [rem]. rewrite Hb. cbn [when]. apply wp_ret.
    unfold while_rem. apply wp_hloop with (mu := fun _ st' => length (rem st'))
      (Inv := fun _ st' => exists ops', html_document js css strict (idx st') (rem st') ops' /\ rev ops' ++ rops st' = rev ops).
    - exists ops. split; [exact H|apply app_nil_r].
    - cbn [rem]. lia.
    - intros _ [r i o []] (ops' & D & T). cbn [rem idx rops] in *. apply wp_bind. destruct D as [i|i p src' ops' Hl D|i name h p t src' nested ops' Hn Hp NC C Hh D].
      + apply wp_eof; cbn [rem]; intros He; [|elim He; reflexivity]. apply wp_ret. exact T.
      + pose proof (lexeme_head _ _ Hl) as Hne. apply wp_eof; cbn [rem]; intros He; [apply app_eq_nil in He; tauto|]. apply wp_bind. eapply wp_mono; [apply (body_exact js css strict p src' Hl)|]. cbn beta. intros ? ? [_ ->]. apply wp_ret. cbn [idx rem rops]. split.
        * exists ops'. split; [exact D|]. rewrite rev_app_distr, <- app_assoc in T. exact T.
        * rewrite app_length. destruct (text p); [congruence|cbn; lia].
      + destruct (start_tag_head name p (t ++ src') Hp) as (b & u & E & _). apply wp_eof; cbn [rem]; intros He; [rewrite E in He; discriminate He|]. apply wp_bind. eapply wp_mono; [eapply raw_body; eassumption|]. cbn beta. intros ? ? ->. apply wp_ret. cbn [idx rem rops]. split.
        * exists ops'. split; [exact D|]. rewrite !rev_app_distr, <- !app_assoc in T. exact T.
        * rewrite !app_length, E. cbn. lia. }
  unfold wp in W. unfold bindM in *. destruct (html_expect_bom _) as [[[] st1]|]; [|contradiction]. destruct (while_rem _ st1) as [[[] st2]|]; [|contradiction]. unfold ret. rewrite W, rev_involutive. reflexivity.
Qed.
Print Assumptions C216_html_scripts_partial.

(** By the HTML standard (13.1.2.6), only the name of the element with a space, a slash or the end of the tag after it ends the text: "</scripts" does not. *)
Definition no_end (name t : str) : Prop := forall a m c b, t = a ++ bs "</" ++ m ++ c :: b -> map lower m = name -> ~ (html_space c \/ c = ch ">" \/ c = ch "/").
Theorem C216_html_scripts_refuted : ~ (forall (js css : highlighter) t nested strict, no_end (bs "script") t -> js t strict = Ok (true, nested) -> t <> [] ->
  highlight_html js css (bs "<script>" ++ t ++ bs "</script>") strict
    = Ok (true, tokens 0 [(bs "<", Some hl_symbol_punc); (bs "script", Some hl_markup_tag); (bs ">", Some hl_symbol_punc)] ++ moved 8 t nested
        ++ tokens (8 + length t) [(bs "</", Some hl_symbol_punc); (bs "script", Some hl_markup_tag); (bs ">", Some hl_symbol_punc)])).
Proof.
  intros H. specialize (H (fun _ _ => Ok (true, [])) (fun _ _ => Ok (true, [])) (bs "</scripts;a") [] false).
  assert (N : no_end (bs "script") (bs "</scripts;a")).
  { intros a m c b E Em. assert (Lm : length m = 6) by (rewrite <- (map_length lower), Em; reflexivity).
    pose proof (f_equal (@length _) E) as EL. rewrite !app_length, Lm in EL. cbn [length bs] in EL. destruct a as [|a1 [|a2 [|a3 a]]].
    - pose proof (f_equal (fun l => nth_error l 8) E) as E8. cbv beta in E8. change ([] ++ bs "</" ++ m ++ c :: b) with (bs "</" ++ m ++ c :: b) in E8. rewrite app_assoc in E8. rewrite nth_error_app2 in E8 by (rewrite app_length, Lm; cbn; lia). rewrite app_length, Lm in E8. vm_compute in E8. injection E8 as <-. intros [X|[X|X]]; [|discriminate X|discriminate X]. vm_compute in X. repeat (destruct X as [X|X]; [discriminate X|]). (discriminate X || contradiction).
    - apply (f_equal (fun l => nth_error l 1)) in E. discriminate E.
    - apply (f_equal (fun l => nth_error l 2)) in E. discriminate E.
    - exfalso. change (length (bs "</scripts;a")) with 11 in EL. change (length (bs "</")) with 2 in EL. cbn [length] in EL. lia. }
  specialize (H N eq_refl ltac:(discriminate)). vm_compute in H. discriminate H.
Qed.
Print Assumptions C216_html_scripts_refuted.
(** A document with a script that has an end tag of another element in it, and text after it *)
Example C216_case : forall js css nested, js (bs "a='</b>'") false = Ok (true, nested) -> exists ops, html_document js css false 0 (bs "<SCRIPT>" ++ bs "a='</b>'" ++ bs "</script>x") ops.
Proof.
  intros js css nested Hj. eexists. 
  apply (document_raw js css false 0 (bs "SCRIPT") js [(bs "<", Some hl_symbol_punc); (bs "SCRIPT", Some hl_markup_tag); (bs ">", Some hl_symbol_punc)] (bs "a='</b>'") (bs "</script>x") nested).
  - left. reflexivity.
  - apply (start_tag_ (bs "SCRIPT") _ [] [] (bs ">")); [split; [discriminate|apply Forall_forall; intros x Hx; cbn in Hx; unfold tag_char, letter; left; lia]|constructor|left; reflexivity|cbn; tauto|constructor].
  - intros a m b E Em. assert (Lm : length m = 6) by (rewrite <- (map_length lower), Em; reflexivity). apply (f_equal (@length N)) in E as EL. rewrite !app_length, Lm in EL. cbn in EL. destruct a as [|? a]; [discriminate E|]. cbn in EL. lia.
  - exists (bs "script"), (ch ">"), (bs "x"). split; [reflexivity|]. split; [reflexivity|]. tauto.
  - intros _. exact Hj.
  - apply (document_lexeme js css false _ [(bs "</", Some hl_symbol_punc); (bs "script", Some hl_markup_tag); (bs ">", Some hl_symbol_punc)] (bs "x")).
    + apply html_end_tag. split; [discriminate|]. apply Forall_forall. intros x Hx. cbn in Hx. unfold tag_char, letter. left. lia.
    + apply (document_lexeme js css false _ [(bs "x", None)] []); [|constructor]. apply html_normal_text; [apply (html_text_end (bs "x")); repeat constructor; discriminate|discriminate|left; reflexivity].
Qed.
