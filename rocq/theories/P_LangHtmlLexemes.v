(** * The HTML highlighter: exact tokens *)
From Coq Require Import List NArith ZArith Bool Arith Lia.
From Verif Require Import M_Base L_Base S_Tokens M_Emit S_Ops L_Emit M_Types M_Chars S_Chars P_Chars M_Parse S_Parse L_Parse P_Parse S_Utf8 M_Utf8 L_Utf8 P_Utf8 L_Any L_Utf8Ascii
  M_Api M_Highlighter S_Highlight L_Highlighter P_LangCpp L_Auto S_Json L_JsonText M_LangHtml S_LangHtml P_HtmlMatch S_Lexemes L_Lexemes L_Number L_Scan L_Comments S_States L_States L_Does S_LangHtmlLexemes.
Import ListNotations.

(** ** Characters *)
Lemma hspace_iff c : is_html_whitespace c = true <-> html_space c.
Proof. unfold is_html_whitespace, html_space. rewrite !orb_true_iff, !N.eqb_eq. cbn [In]. lia. Qed.
Lemma tag_char_ok c : tag_char c -> (c < 128)%N /\ is_html_tag_name_character c = true.
Proof.
  intros H. assert (L : (c < 128)%N) by (unfold tag_char, letter, digit in H; change (bs "-._") with [45; 46; 95]%N in H; cbn [In] in H; lia). split; [exact L|].
  unfold is_html_tag_name_character. unfold is_ascii_alphanumeric, is_ascii_alpha, is_ascii_upper_alpha, is_ascii_lower_alpha, is_ascii_digit, between. rewrite !orb_true_iff, mem_In, !andb_true_iff, !N.leb_le. unfold tag_char, letter, digit in H. rewrite in_app_iff. change (bs "-._") with [45; 46; 95]%N in *. cbn [In] in *. lia.
Qed.
Lemma attribute_char_ok c : attribute_char c -> (c < 128)%N /\ is_html_attribute_name_character c = true.
Proof.
  intros [H N]. split; [lia|]. unfold is_html_attribute_name_character, is_html_ascii_attribute_name_character, is_ascii. rewrite (proj2 (N.leb_le _ _)) by lia. cbn [andb]. rewrite andb_true_iff, !negb_true_iff. split.
  - unfold is_html_ascii_control. apply orb_false_iff. split; [apply N.leb_gt; lia|apply N.eqb_neq; lia].
  - apply not_true_iff_false. rewrite mem_In. change (bs " '>/=") with (32%N :: bs "'>/="). intros [<-|[<-|K]]; [apply N; left; reflexivity|lia|apply N; right; exact K].
Qed.
Lemma attribute_char_stop c : html_space c \/ In c (bs "=>/") -> (c < 128)%N /\ is_html_attribute_name_character c = false /\ is_html_tag_name_character c = false.
Proof.
  intros H. assert (K : In c [32; 9; 10; 12; 13; 61; 62; 47]%N) by (unfold html_space in H; change (bs "=>/") with [61; 62; 47]%N in H; cbn [In] in *; lia).
  clear H. cbn [In] in K. repeat (destruct K as [<-|K]; [vm_compute; repeat split; reflexivity|]). contradiction.
Qed.
Lemma text_one w (h : option N) : text [(w, h)] = w.
Proof. cbn. apply app_nil_r. Qed.
Lemma blank_text w : text (blank w) = w.
Proof. destruct w; [reflexivity|]. apply text_one. Qed.
Lemma hmatch_space w rest : Forall html_space w -> not_before html_space rest -> html_match_whitespace (w ++ rest) = length w.
Proof.
  intros F R. unfold html_match_whitespace. rewrite length_if_eq, prefix_len_exact; [reflexivity| |].
  - eapply Forall_impl; [|exact F]. intros c. apply hspace_iff.
  - eapply not_before_impl; [|exact R]. intros c. apply hspace_iff.
Qed.
Lemma does_hspace w rest : Forall html_space w -> not_before html_space rest -> does html_expect_whitespace tt (blank w) rest tt tt.
Proof.
  intros F R. unfold html_expect_whitespace. apply does_get. cbv zeta. rewrite blank_text, hmatch_space by assumption. destruct w as [|c w]; [apply does_ret|]. cbn [length Nat.eqb negb when blank]. apply does_advance. reflexivity.
Qed.
Lemma not_before_head (p : N -> Prop) c t : ~ p c -> not_before p (c :: t).
Proof. intros H d [= <-]. exact H. Qed.
Ltac nospace := apply not_before_head; unfold html_space; cbn [In]; intros ?; intuition discriminate.
Lemma reference_exact body rest : reference_body body -> match_character_reference (ch "&" :: body ++ ch ";" :: rest) = length body + 2.
Proof. intros H. apply C59_reference; [lia|]. exists body, rest. auto. Qed.
Lemma reference_no c r : c <> ch "&" -> match_character_reference (c :: r) = 0.
Proof. intros N. unfold match_character_reference. cbn [starts_with_ch]. rewrite (proj2 (N.eqb_neq _ _)) by exact N. reflexivity. Qed.
Lemma reference_text body : text [reference_piece body] = ch "&" :: body ++ [ch ";"].
Proof. apply text_one. Qed.
Lemma reference_length body : length (ch "&" :: body ++ [ch ";"]) = length body + 2.
Proof. cbn [length]. rewrite app_length. cbn. lia. Qed.

(** ** Attribute values *)
Lemma nth_mid {A} (a b : list A) c : nth_error (a ++ c :: b) (length a) = Some c.
Proof. rewrite nth_error_app2, Nat.sub_diag by lia. reflexivity. Qed.
(** A step inside of a run *)
Lemma quoted_step q u k c r : nth_error u k = Some c -> c <> q -> c <> ch "&" -> does (html_quoted_body q k) tt [] (u ++ r) (inl (k + 1)) tt.
Proof.
  intros E N1 N2. assert (L : k < length u) by (apply nth_error_Some; congruence). unfold html_quoted_body. apply does_get. change (text [] ++ u ++ r) with (u ++ r). rewrite (proj2 (Nat.ltb_lt _ _)) by (rewrite app_length; lia). cbn [negb].
  eapply does_at; [rewrite nth_error_app1 by exact L; exact E|]. apply N.eqb_neq in N1. rewrite N1. apply does_substr; [rewrite app_length; lia|]. cbv zeta.
  destruct (nth_error_split _ _ E) as (a & b & -> & <-). rewrite <- app_assoc, skipn_app_exact. cbn [app]. rewrite reference_no by exact N2. cbn [Nat.eqb negb]. apply does_ret.
Qed.
Lemma nth_run {A} (P : A -> Prop) (u v : list A) k : Forall P v -> length u <= k < length (u ++ v) -> exists c, nth_error (u ++ v) k = Some c /\ P c.
Proof.
  intros F L. destruct (nth_error (u ++ v) k) as [c|] eqn:E; [|apply nth_error_None in E; lia]. exists c. split; [reflexivity|]. rewrite nth_error_app2 in E by lia. apply nth_error_In in E. rewrite Forall_forall in F. apply F. exact E.
Qed.
Lemma quoted_scans q rest : q = 34%N \/ q = 39%N -> forall pre l, quoted q pre l -> length pre <= 1 -> scans (html_quoted_body q) true rest tt 1 tt l.
Proof.
  intros Hq pre l H. induction H as [pre run N F|pre run body l N F Hb H IH]; intros L.
  - assert (L1 : 1 <= length (pre ++ run)) by (destruct (pre ++ run); [congruence|cbn; lia]).
    apply scans_run with (m := length (pre ++ run)); [exact L1|rewrite text_one, !app_length; lia| |].
    + intros k Hk. rewrite text_one. rewrite app_assoc, <- app_assoc. destruct (nth_run _ pre run k F) as (c & E & N1 & N2); [lia|]. apply (quoted_step q _ _ c); assumption.
    + apply scans_end. unfold html_quoted_body. apply does_get. rewrite text_one. rewrite app_assoc, <- app_assoc. rewrite (proj2 (Nat.ltb_lt _ _)) by (rewrite !app_length; cbn; lia). cbn [negb].
      eapply does_at; [apply nth_mid|]. rewrite N.eqb_refl. eapply does_last; [|apply does_ret]. unfold html_flush. rewrite (proj2 (Nat.eqb_neq _ _)) by lia. cbn [negb when]. apply does_emit; [rewrite !app_length; cbn; lia|]. intros E. apply app_eq_nil in E as [E1 E]. destruct run; discriminate.
  - assert (L1 : 1 <= length (pre ++ run)) by (destruct (pre ++ run); [congruence|cbn; lia]).
    apply scans_run with (m := length (pre ++ run)); [exact L1|rewrite text_cons, !app_length; lia| |].
    + intros k Hk. rewrite text_cons, <- app_assoc. destruct (nth_run _ pre run k F) as (c & E & N1 & N2); [lia|]. apply (quoted_step q _ _ c); assumption.
    + apply (scans_more _ _ _ _ (length (pre ++ run)) tt [(pre ++ run, Some hl_string); reference_piece body] 1 tt l); [| |apply IH; cbn; lia].
      2:{ rewrite text_cons, reference_text, (app_length (pre ++ run)). cbn [length]. lia. }
      unfold html_quoted_body. apply does_get. rewrite text_cons, reference_text, <- app_assoc. rewrite (proj2 (Nat.ltb_lt _ _)) by (rewrite !app_length; cbn; lia). cbn [negb].
      cbn [app]. eapply does_at; [apply nth_mid|]. replace (ch "&" =? q)%N with false by (destruct Hq as [->| ->]; reflexivity). apply does_substr; [rewrite !app_length; lia|]. rewrite skipn_app_exact. cbv zeta.
      replace (match_character_reference _) with (length body + 2) by (rewrite <- app_assoc; symmetry; apply reference_exact; exact Hb). rewrite (proj2 (Nat.eqb_neq (length body + 2) 0)) by lia. cbn [negb].
      eapply does_cons; [unfold html_flush; rewrite (proj2 (Nat.eqb_neq _ _)) by lia; apply does_emit; [reflexivity|exact N]|]. eapply does_last; [apply does_emit; [symmetry; apply reference_length|discriminate]|]. apply does_ret.
Qed.
Lemma quoted_head q pre l r : quoted q (q :: pre) l -> exists t, text l ++ r = q :: t.
Proof. intros H. inversion H; subst; rewrite text_cons, <- ?app_assoc; cbn [app]; eexists; reflexivity. Qed.
Lemma does_quoted q l rest : q = 34%N \/ q = 39%N -> quoted q [q] l -> does (html_expect_quoted q) tt l rest true tt.
Proof.
  intros Hq H. unfold html_expect_quoted. apply does_get. destruct (quoted_head q [] l rest H) as [t ->]. cbn [starts_with_ch]. rewrite N.eqb_refl. cbn [negb]. apply does_scan. apply (quoted_scans q rest Hq [q]); [exact H|cbn; lia].
Qed.
Lemma no_quoted q c t : c <> q -> does (html_expect_quoted q) tt [] (c :: t) false tt.
Proof. intros N. unfold html_expect_quoted. apply does_get. change (text [] ++ c :: t) with (c :: t). cbn [starts_with_ch]. rewrite (proj2 (N.eqb_neq _ _)) by exact N. apply does_ret. Qed.
Lemma unquoted_iff c : unquoted_char c -> is_html_unquoted_attribute_value_terminator c = false /\ c <> ch "&" /\ c <> 34%N /\ c <> 39%N.
Proof.
  intros [H1 H2]. unfold is_html_unquoted_attribute_value_terminator. rewrite orb_false_iff. split; [split; apply not_true_iff_false; [rewrite hspace_iff; exact H1|]|].
  - rewrite mem_In. intros K. apply H2. change (34%N :: bs "'=<>`&") with ((34%N :: bs "'=<>`") ++ [38%N]). apply in_app_iff. left. exact K.
  - repeat split; intros ->; apply H2; cbn; tauto.
Qed.
Lemma does_unquoted t next : t <> [] -> Forall unquoted_char t -> (exists c r, next = c :: r /\ (html_space c \/ c = ch ">")) -> does html_expect_unquoted tt [(t, Some hl_string)] next true tt.
Proof.
  intros N F (d & r & -> & Hd). unfold html_expect_unquoted. apply does_scan. apply scans_run with (m := length t); [lia|rewrite text_one, app_length; lia| |].
  - intros k Hk. destruct (nth_run _ [] t k F) as (c & E & Hc); [cbn; lia|]. cbn [app] in E. apply unquoted_iff in Hc as (K1 & K2 & _). rewrite text_one. unfold html_unquoted_body. apply does_get. change (text [] ++ t ++ d :: r) with (t ++ d :: r). rewrite (proj2 (Nat.ltb_lt _ _)) by (rewrite app_length; lia). cbn [negb].
    eapply does_at; [rewrite nth_error_app1 by lia; exact E|]. rewrite K1. apply does_substr; [rewrite app_length; lia|]. cbv zeta.
    destruct (nth_error_split _ _ E) as (a & b & -> & <-). rewrite <- app_assoc, skipn_app_exact. cbn [app]. rewrite reference_no by exact K2. cbn [Nat.eqb negb]. apply does_ret.
  - apply scans_end. unfold html_unquoted_body. apply does_get. rewrite text_one. rewrite (proj2 (Nat.ltb_lt _ _)) by (rewrite app_length; cbn; lia). cbn [negb]. eapply does_at; [apply nth_mid|].
    replace (is_html_unquoted_attribute_value_terminator d) with true.
    + eapply does_last; [|apply does_ret]. unfold html_flush. destruct t; [congruence|]. cbn [length Nat.eqb negb when]. apply does_emit; [reflexivity|discriminate].
    + unfold is_html_unquoted_attribute_value_terminator. destruct Hd as [Hd| ->]; [|reflexivity]. apply hspace_iff in Hd. rewrite Hd. reflexivity.
Qed.
Lemma value_no_space next v r : attribute_value next v -> not_before html_space (text v ++ r).
Proof.
  intros [q l Hq H|t N F _].
  - destruct (quoted_head q [] l r H) as [u ->]. destruct Hq as [->| ->]; nospace.
  - rewrite text_one. destruct F as [|c t [Hc _] F]; [congruence|]. cbn [app]. apply not_before_head. exact Hc.
Qed.
(** ** Tags *)
Lemma name_length a rest : attribute_name a -> (exists c r, rest = c :: r /\ (html_space c \/ In c (bs "=>/"))) -> match_attribute_name (a ++ rest) = Ok (length a).
Proof.
  intros [_ F] (c & r & -> & Hc). apply length_ascii; [eapply Forall_impl; [|exact F]; intros d; apply attribute_char_ok|]. right. exists c, r. destruct (attribute_char_stop c Hc) as (L & S & _). auto.
Qed.
Lemma attribute_char_space c : attribute_char c -> ~ html_space c /\ c <> ch "=" /\ c <> ch ">" /\ c <> ch "/".
Proof. intros [L N]. split; [unfold html_space; cbn [In]; lia|]. repeat split; intros ->; apply N; cbn; tauto. Qed.
(** What follows an attribute *)
Lemma tail_head e rest : In e [bs ">"; bs "/>"] -> exists c r, e ++ rest = c :: r /\ In c (bs ">/").
Proof. cbn [In]. intros [<-|[<-|[]]]; eexists _, _; (split; [reflexivity|cbn; tauto]). Qed.
Lemma attributes_head tail l : attributes tail l -> l = [] \/ exists c r, text l = c :: r /\ attribute_char c.
Proof.
  intros [|a w l0 [N F] Fw Hw H|a w1 w2 v w l0 [N F] F1 F2 Fw Hw Hv H]; [left; reflexivity|right|right]; (destruct F as [|c a Hc F]; [congruence|]); rewrite text_cons; cbn [app]; eexists _, _; (split; [reflexivity|exact Hc]).
Qed.
Lemma attributes_next e rest l : In e [bs ">"; bs "/>"] -> attributes (e ++ rest) l -> not_before html_space (text l ++ e ++ rest) /\ starts_with_ch (text l ++ e ++ rest) (ch "=") = false.
Proof.
  intros He H. destruct (attributes_head _ _ H) as [->|(c & r & -> & Hc)].
  - cbn [In] in He. destruct He as [<-|[<-|[]]]; (split; [nospace|reflexivity]).
  - apply attribute_char_space in Hc as (N1 & N2 & _). cbn [app starts_with_ch]. split; [apply not_before_head; exact N1|]. apply N.eqb_neq. exact N2.
Qed.
Lemma gap_head e rest w l : In e [bs ">"; bs "/>"] -> attributes (e ++ rest) l -> Forall html_space w -> l = [] \/ w <> [] -> exists c r, w ++ text l ++ e ++ rest = c :: r /\ (html_space c \/ In c (bs "=>/")).
Proof.
  intros He H Fw Hw. destruct Fw as [|c w Hc Fw].
  - destruct Hw as [->|Hw]; [|congruence]. destruct (tail_head e rest He) as (c & r & E & Hc). cbn [app text map concat]. rewrite E. exists c, r. split; [reflexivity|right]. cbn in *. tauto.
  - eexists _, _. split; [reflexivity|left; exact Hc].
Qed.
Lemma does_attribute_name a p rest y (k : M unit bool) : attribute_name a -> (exists c r, text p ++ rest = c :: r /\ (html_space c \/ In c (bs "=>/"))) -> does k tt p rest y tt ->
  does (let! r := get_rem in let! n := lift (match_attribute_name r) in if n =? 0 then ret false else emit_and_advance n hl_markup_attr ;; k) tt ((a, Some hl_markup_attr) :: p) rest y tt.
Proof.
  intros Ha Hn Hk. apply does_get. rewrite text_cons, <- app_assoc. eapply does_lift; [apply name_length; assumption|]. destruct Ha as [N _]. destruct a as [|c a]; [congruence|]. cbn [length Nat.eqb]. eapply does_cons; [apply does_emit; [reflexivity|discriminate]|]. exact Hk.
Qed.
Lemma attributes_iterate e rest : In e [bs ">"; bs "/>"] -> forall l, attributes (e ++ rest) l -> forall w, Forall html_space w -> iterates html_tag_body true rest tt tt tt (blank w ++ l ++ [(e, Some hl_symbol_punc)]).
Proof.
  intros He l H. induction H as [|a wa l Ha Fa Hw H IH|a w1 w2 v wa l Ha F1 F2 Fa Hw Hv H IH]; intros w Fw.
  - apply iterates_end. unfold html_tag_body. apply does_eof. { rewrite !text_app, text_one. destruct He as [<-|[<-|[]]]; destruct w; discriminate. }
    eapply does_bind; [apply does_hspace; [exact Fw|]; cbn [app]; rewrite text_one; destruct He as [<-|[<-|[]]]; nospace|]. cbn [app]. apply does_get. rewrite text_one.
    destruct He as [<-|[<-|[]]].
    + change (starts_with (bs ">" ++ rest) (bs "/>")) with false. change (starts_with_ch (bs ">" ++ rest) (ch ">")) with true. cbv iota. eapply does_last; [apply does_emit; [reflexivity|discriminate]|apply does_ret].
    + change (starts_with (bs "/>" ++ rest) (bs "/>")) with true. cbv iota. eapply does_last; [apply does_emit; [reflexivity|discriminate]|apply does_ret].
  - destruct (attributes_next e rest l He H) as [S1 S2]. assert (Ha' := Ha). destruct Ha' as [N F]. destruct F as [|c a Hc F]; [congruence|].
    apply attribute_char_space in Hc as (C1 & C2 & C3 & C4).
    match goal with |- iterates _ _ _ _ _ _ ?p => replace p with ((blank w ++ (c :: a, Some hl_markup_attr) :: blank wa) ++ blank [] ++ l ++ [(e, Some hl_symbol_punc)]) by (repeat first [rewrite <- !app_assoc | progress cbn [app blank]]; reflexivity) end.
    eapply iterates_more; [| |apply IH; constructor]. 2:{ rewrite text_app, text_cons, blank_text; destruct w; discriminate. }
    unfold html_tag_body. apply does_eof; [rewrite text_app, text_cons, blank_text; destruct w; discriminate|].
    eapply does_bind; [apply does_hspace; [exact Fw|]; rewrite text_cons; cbn [app]; apply not_before_head; exact C1|]. apply does_get. rewrite text_cons. cbn [app].
    match goal with |- context [starts_with (c :: ?x) (bs "/>")] => replace (starts_with (c :: x) (bs "/>")) with false by (symmetry; cbn [starts_with bs]; change (bs "/>") with [47; 62]%N; cbn [starts_with]; rewrite (proj2 (N.eqb_neq c 47)) by exact C4; reflexivity) end.
    cbn [starts_with_ch]. rewrite (proj2 (N.eqb_neq _ _)) by exact C3. cbv iota. apply (does_last _ _ tt _ _ true tt _ tt); [|apply does_ret]. unfold html_expect_attribute.
    apply does_attribute_name; [exact Ha| |].
    + rewrite blank_text. cbn [blank app]. rewrite text_app, text_one, <- app_assoc. apply gap_head; assumption.
    + eapply does_last; [apply does_hspace; [exact Fa|]; cbn [blank app]; rewrite text_app, text_one, <- app_assoc; exact S1|]. apply does_get. cbn [blank app]. rewrite text_app, text_one, <- app_assoc. change (text [] ++ text l ++ e ++ rest) with (text l ++ e ++ rest). rewrite S2. apply does_ret.
  - destruct (attributes_next e rest l He H) as [S1 S2]. assert (Ha' := Ha). destruct Ha' as [N F]. destruct F as [|c a Hc F]; [congruence|].
    apply attribute_char_space in Hc as (C1 & C2 & C3 & C4).
    match goal with |- iterates _ _ _ _ _ _ ?p => replace p with ((blank w ++ (c :: a, Some hl_markup_attr) :: blank w1 ++ (bs "=", Some hl_symbol_punc) :: blank w2 ++ v) ++ blank wa ++ l ++ [(e, Some hl_symbol_punc)]) by (repeat first [rewrite <- !app_assoc | progress cbn [app]]; reflexivity) end.
    eapply iterates_more; [|rewrite text_app, text_cons; destruct w; discriminate|apply IH; exact Fa].
    unfold html_tag_body. apply does_eof; [rewrite text_app, text_cons; destruct w; discriminate|].
    eapply does_bind; [apply does_hspace; [exact Fw|]; rewrite text_cons; cbn [app]; apply not_before_head; exact C1|]. apply does_get. rewrite text_cons. cbn [app].
    match goal with |- context [starts_with (c :: ?x) (bs "/>")] => replace (starts_with (c :: x) (bs "/>")) with false by (symmetry; cbn [starts_with bs]; change (bs "/>") with [47; 62]%N; cbn [starts_with]; rewrite (proj2 (N.eqb_neq c 47)) by exact C4; reflexivity) end.
    cbn [starts_with_ch]. rewrite (proj2 (N.eqb_neq _ _)) by exact C3. cbv iota. apply (does_last _ _ tt _ _ true tt _ tt); [|apply does_ret]. unfold html_expect_attribute.
    apply does_attribute_name; [exact Ha| |].
    + rewrite text_app, blank_text, text_cons. destruct F1 as [|d w1 Hd F1]; [|eexists _, _; split; [reflexivity|left; exact Hd]]. eexists _, _. split; [reflexivity|]. right. left. reflexivity.
    + eapply does_bind; [apply does_hspace; [exact F1|]; rewrite text_cons; nospace|]. apply does_get. rewrite text_cons. match goal with |- context [starts_with_ch ?x (ch "=")] => change (starts_with_ch x (ch "=")) with true end. cbn [negb].
      eapply does_cons; [apply does_emit; [reflexivity|discriminate]|]. eapply does_bind; [apply does_hspace; [exact F2|eapply value_no_space; exact Hv]|].
      assert (Et : text (blank wa ++ l ++ [(e, Some hl_symbol_punc)]) ++ rest = wa ++ text l ++ e ++ rest) by (rewrite !text_app, blank_text, text_one, <- !app_assoc; reflexivity). rewrite Et.
      destruct Hv as [q v Hq Hv|t Nt Ft Hn].
      * destruct Hq as [->| ->].
        -- eapply does_last; [apply does_quoted; [left; reflexivity|exact Hv]|apply does_ret].
        -- eapply does_nil; [destruct (quoted_head 39 [] v (wa ++ text l ++ e ++ rest) Hv) as [u ->]; apply no_quoted; discriminate|]. cbv iota. eapply does_last; [apply does_quoted; [right; reflexivity|exact Hv]|apply does_ret].
      * assert (X : exists d u, t = d :: u /\ d <> 34%N /\ d <> 39%N) by (destruct Ft as [|d t Hd Ft]; [congruence|]; apply unquoted_iff in Hd as (_ & _ & K1 & K2); eauto). destruct X as (d & u & Ed & K1 & K2).
        eapply does_nil; [rewrite text_one, Ed; apply no_quoted; exact K1|]. cbv iota. eapply does_nil; [rewrite text_one, Ed; apply no_quoted; exact K2|]. cbv iota. apply does_unquoted; assumption.
Qed.
Lemma name_not_ic t n : ~ In (map lower t) (escapable_names ++ raw_names) -> In n (escapable_names ++ raw_names) -> equals_ignore_case t n = false.
Proof. intros H Hn. apply not_true_iff_false. rewrite equals_ignore_case_spec. intros E. apply H. rewrite E. cbn in Hn. repeat (destruct Hn as [<-|Hn]; [cbn; tauto|]). contradiction. Qed.
Lemma name_ic t : In (map lower t) escapable_names -> equals_ignore_case t (bs "textarea") || equals_ignore_case t (bs "title") = true.
Proof. intros H. apply orb_true_iff. rewrite !equals_ignore_case_spec. cbn [escapable_names In] in H. destruct H as [<-|[<-|[]]]; [left|right]; reflexivity. Qed.
(** The tag itself; [k] is what the highlighter does after it. *)
Lemma does_tag t p q rest (js css : highlighter) strict : start_tag t (text q ++ rest) p ->
  (does (if equals_ignore_case t (bs "textarea") || equals_ignore_case t (bs "title") then
        hloop 1 (html_escapable_body t) tt ;; ret true
      else if equals_ignore_case t (bs "script") then
        let! r := get_rem in
        let! len := lift (match_raw_text r (bs "script")) in
        html_consume_nested strict js len ;; ret true
      else if equals_ignore_case t (bs "style") then
        let! r := get_rem in
        let! len := lift (match_raw_text r (bs "style")) in
        html_consume_nested strict css len ;; ret true
      else ret true) tt q rest true tt) ->
  does (html_expect_start_tag js css strict) tt (p ++ q) rest true tt.
Proof.
  intros Hp K. destruct Hp as [w a e [Nt Ft] Fw Hw He Ha]. unfold html_expect_start_tag. apply does_get. rewrite text_app, text_cons, <- !app_assoc. match goal with |- context [starts_with_ch ?x (ch "<")] => change (starts_with_ch x (ch "<")) with true end. cbn [negb].
  cbn [app]. eapply does_cons; [apply does_emit; [reflexivity|discriminate]|]. apply does_get. rewrite text_cons, <- app_assoc.
  eapply does_lift; [apply length_ascii; [eapply Forall_impl; [|exact Ft]; intros d; apply tag_char_ok|]|].
  { right. destruct (gap_head e (text q ++ rest) w a He Ha Fw Hw) as (c & r & E & Hc). exists c, r. destruct (attribute_char_stop c Hc) as (L & _ & S). rewrite !text_app, blank_text, text_one, <- !app_assoc, E. auto. }
  rewrite (proj2 (Nat.eqb_neq _ _)) by (destruct t; [congruence|discriminate]). cbv zeta. rewrite firstn_app_exact. eapply does_cons; [apply does_emit; [reflexivity|exact Nt]|].
  eapply does_bind; [apply does_loop; apply attributes_iterate; assumption|]. cbn [negb]. exact K.
Qed.
Lemma find_exact p w c r : Forall (fun d => p d = false) w -> p c = true -> find_if p (w ++ c :: r) = Some (length w).
Proof. intros F H. induction F as [|d w Hd F IH]; cbn [app find_if length]; [rewrite H; reflexivity|]. rewrite Hd, IH. reflexivity. Qed.
Lemma find_none p w : Forall (fun d => p d = false) w -> find_if p w = None.
Proof. intros F. induction F as [|d w Hd F IH]; [reflexivity|]. cbn [find_if]. rewrite Hd, IH. reflexivity. Qed.
Lemma text_char_mem c : text_char c -> mem c (bs "<&") = false.
Proof. intros [H1 H2]. apply not_true_iff_false. rewrite mem_In. change (bs "<&") with [ch "<"; ch "&"]. cbn [In]. intros [E|[E|[]]]; congruence. Qed.
Lemma text_chars t : Forall text_char t -> Forall (fun d => mem d (bs "<&") = false) t.
Proof. intros F. eapply Forall_impl; [|exact F]. exact text_char_mem. Qed.
Lemma escapable_ref t body r name : Forall text_char t -> reference_body body -> match_escapable_raw_text_piece (t ++ ch "&" :: body ++ ch ";" :: r) name = Ok (length t, length body + 2).
Proof.
  intros F Hb. unfold match_escapable_raw_text_piece. remember (t ++ ch "&" :: body ++ ch ";" :: r) as s eqn:Es. destruct s as [|c0 s0] eqn:E0; [destruct t; discriminate|]. cbn [length match_escapable_loop]. rewrite Es. unfold find_first_of, find_if_from. cbn [skipn]. rewrite find_exact by (first [apply text_chars; exact F|reflexivity]). cbn [option_map Nat.add].
  rewrite remove_prefix_any by (rewrite app_length; lia). rewrite skipn_app_exact. cbn [bind]. cbv zeta. rewrite reference_exact by exact Hb. rewrite (proj2 (Nat.eqb_neq _ _)) by lia. reflexivity.
Qed.
Lemma escapable_end t rest name : Forall text_char t -> closes name rest -> match_escapable_raw_text_piece (t ++ rest) name = Ok (length t, 0).
Proof.
  intros F (m & c & r & -> & Em & Hc). unfold match_escapable_raw_text_piece. change (bs "</" ++ m ++ c :: r) with (60%N :: 47%N :: m ++ c :: r). remember (t ++ 60%N :: 47%N :: m ++ c :: r) as s eqn:Es. destruct s as [|c0 s0] eqn:E0; [destruct t; discriminate|]. cbn [length match_escapable_loop]. rewrite Es. unfold find_first_of, find_if_from. cbn [skipn]. rewrite find_exact by (first [apply text_chars; exact F|reflexivity]). cbn [option_map Nat.add].
  rewrite remove_prefix_any by (rewrite app_length; lia). rewrite skipn_app_exact. cbn [bind]. cbv zeta. rewrite reference_no by discriminate. cbn [Nat.eqb negb]. change (starts_with (60%N :: 47%N :: m ++ c :: r) (bs "</")) with true. cbn [negb].
  rewrite remove_prefix_any by (cbn [length]; lia). cbn [skipn bind]. assert (Lm : length m = length name) by (rewrite <- (map_length lower m), Em; apply map_length).
  rewrite (proj2 (starts_with_ignore_case_spec _ _)) by (exists m, (c :: r); split; [reflexivity|exact Em]). cbn [negb]. rewrite remove_prefix_any by (rewrite app_length; lia). rewrite <- Lm, skipn_app_exact. cbn [bind].
  replace (is_html_whitespace c || (c =? ch ">")%N || (c =? ch "/")%N) with true; [reflexivity|]. symmetry. rewrite !orb_true_iff, hspace_iff, !N.eqb_eq. tauto.
Qed.
Lemma escapable_iterates name rest : closes name rest -> forall l, html_text_pieces l -> iterates (html_escapable_body name) tt rest tt tt tt l.
Proof.
  intros Hc l H. assert (End : forall t, Forall text_char t -> iterates (html_escapable_body name) tt rest tt tt tt (blank t)).
  { assert (E0 : iterates (html_escapable_body name) tt rest tt tt tt []).
    { apply iterates_end. unfold html_escapable_body. apply does_get. eapply does_lift; [apply (escapable_end []); [constructor|exact Hc]|]. cbn [length fst snd Nat.eqb andb]. apply does_ret. }
    intros t F. destruct t as [|c t]; [exact E0|]. rewrite <- (app_nil_r (blank (c :: t))). eapply iterates_more; [|rewrite blank_text; discriminate|exact E0].
    unfold html_escapable_body. apply does_get. rewrite blank_text. change (text [] ++ rest) with rest. eapply does_lift; [apply escapable_end; assumption|]. cbn [fst snd length Nat.eqb andb negb when blank]. eapply does_last; [apply does_advance; reflexivity|]. eapply does_nil; apply does_ret. }
  induction H as [t F|t body l F Hb H IH]; [apply End; exact F|].
  replace (blank t ++ reference_piece body :: l) with ((blank t ++ [reference_piece body]) ++ l) by (rewrite <- app_assoc; reflexivity).
  eapply iterates_more; [|rewrite text_app, reference_text; destruct (text (blank t)); discriminate|exact IH].
  unfold html_escapable_body. apply does_get. rewrite text_app, blank_text, reference_text, <- app_assoc. cbn [app]. rewrite <- app_assoc. cbn [app]. eapply does_lift; [apply escapable_ref; assumption|]. cbn [fst snd].
  rewrite (proj2 (Nat.eqb_neq (length body + 2) 0)) by lia. rewrite andb_false_r. cbn [negb when].
  eapply does_bind with (p := blank t).
  { destruct t; [apply (does_same _ _ [([], None)]); [reflexivity|reflexivity|]|]; apply does_advance; reflexivity. }
  eapply does_last; [apply does_emit; [symmetry; apply reference_length|discriminate]|]. apply does_ret.
Qed.

(** ** Text *)
Lemma does_text_end t rest : Forall text_char t -> rest = [] \/ (exists r, rest = ch "<" :: r) -> does (html_text_body tt) tt (blank t) rest (inr tt) tt.
Proof.
  intros F R. unfold html_text_body. destruct (list_eq_dec N.eq_dec (text (blank t) ++ rest) []) as [E|E].
  { apply app_eq_nil in E as [E ->]. rewrite blank_text in E. subst t. apply does_eof_end. cbv iota. apply does_ret. }
  apply does_eof; [exact E|]. cbv iota. apply does_get. rewrite blank_text. unfold find_first_of, find_if_from. cbn [skipn].
  assert (A : forall n, n = length t -> does (@advance unit n) tt (blank t) rest tt tt).
  { intros n ->. destruct t; [apply (does_same _ _ [([], None)]); [reflexivity|reflexivity|]|]; apply does_advance; reflexivity. }
  destruct R as [->|[r ->]].
  - rewrite app_nil_r, find_none by (apply text_chars; exact F). cbn [option_map]. eapply does_last; [apply A; reflexivity|apply does_ret].
  - rewrite find_exact by (first [apply text_chars; exact F|reflexivity]). cbn [option_map Nat.add]. eapply does_at; [apply nth_mid|]. change (ch "<" =? ch "<")%N with true. cbv iota. eapply does_last; [apply A; reflexivity|apply does_ret].
Qed.
Lemma no_reference c r : c <> ch "&" -> does html_expect_reference tt [] (c :: r) false tt.
Proof. intros N. unfold html_expect_reference. apply does_get. cbn [text map concat app]. rewrite reference_no by exact N. apply does_ret. Qed.
Lemma does_reference body r : reference_body body -> does html_expect_reference tt [reference_piece body] r true tt.
Proof.
  intros Hb. unfold html_expect_reference. apply does_get. rewrite reference_text. cbn [app]. rewrite <- app_assoc. cbn [app]. rewrite reference_exact by exact Hb. cbv zeta. rewrite (proj2 (Nat.eqb_neq _ _)) by lia.
  intros i o. pose proof (does_emit (ch "&" :: body ++ [ch ";"]) (length body + 2) hl_string_escape tt r (eq_sym (reference_length body)) ltac:(discriminate) i o) as D.
  unfold emit_and_advance, emit_and_advance_c in D. unfold wp, bindM, get_idx, ret in *. cbn [idx] in *. destruct (emit_at _ _ _ _ _) as [[[] st1]|]; [|contradiction]. destruct (advance _ st1) as [[[] st2]|]; [|contradiction]. destruct D as [_ D]. split; [reflexivity|exact D].
Qed.
Lemma text_iterates rest : rest = [] \/ (exists r, rest = ch "<" :: r) -> forall l, html_text_pieces l -> exists l', iterates html_text_body tt rest tt tt tt l' /\ text l' = text l /\ forall i, tokens i l' = tokens i l.
Proof.
  intros R l H. induction H as [t F|t body l F Hb H (l' & IH & IHt & IHk)].
  - exists (blank t). split; [|auto]. apply iterates_end. apply does_text_end; assumption.
  - assert (G : iterates html_text_body tt rest tt tt tt (map (fun c => ([c], None)) t ++ reference_piece body :: l')).
    { induction F as [|c t Hc F IHF].
      - change (map _ [] ++ reference_piece body :: l') with ([reference_piece body] ++ l'). eapply iterates_more; [|rewrite reference_text; discriminate|exact IH].
        unfold html_text_body. apply does_eof; [rewrite reference_text; discriminate|]. cbv iota. apply does_get. rewrite reference_text. cbn [app]. unfold find_first_of, find_if_from. cbn [skipn find_if]. change (mem (ch "&") (bs "<&")) with true. cbn [option_map Nat.add]. eapply does_at; [reflexivity|]. change (ch "&" =? ch "<")%N with false. cbv iota.
        eapply does_last; [apply does_reference; exact Hb|]. cbv iota. eapply does_last; apply does_ret.
      - cbn [map app]. change (([c], None) :: ?x) with ([([c], @None N)] ++ x). eapply iterates_more; [|rewrite text_one; discriminate|exact IHF].
        unfold html_text_body. apply does_eof; [rewrite text_one; discriminate|]. cbv iota. apply does_get. rewrite text_one. cbn [app]. unfold find_first_of, find_if_from. cbn [skipn find_if]. rewrite (text_char_mem c Hc).
        unfold reference_piece. rewrite text_app, text_cons. replace (text (map (fun c0 : N => ([c0], None)) t)) with t by (clear; induction t; [reflexivity|]; cbn [map]; rewrite text_cons; cbn [app]; congruence).
        rewrite <- app_assoc. cbn [app]. rewrite find_exact by (first [apply text_chars; exact F|reflexivity]). cbn [option_map Nat.add].
        eapply does_at; [cbn [nth_error]; apply nth_mid|]. change (ch "&" =? ch "<")%N with false. cbv iota. eapply does_nil; [rewrite text_one; apply no_reference; apply Hc|]. cbv iota. eapply does_last; [apply does_advance; reflexivity|]. apply does_ret. }
    exists (map (fun c => ([c], None)) t ++ reference_piece body :: l'). split; [exact G|]. split.
    + unfold reference_piece. rewrite !text_app, !text_cons, IHt, blank_text. f_equal. clear. induction t; [reflexivity|]. cbn [map]. rewrite text_cons. cbn [app]. congruence.
    + intros i. assert (T : forall i x, tokens i (map (fun c => ([c], None)) t ++ x) = tokens (i + length t) x).
      { clear. induction t as [|c t IH]; intros i x; cbn [map app tokens length]; [rewrite Nat.add_0_r; reflexivity|]. rewrite IH. f_equal. lia. }
      rewrite T, tokens_app, blank_text. unfold reference_piece. cbn [tokens]. rewrite IHk. destruct t; reflexivity.
Qed.

(** ** Comments, document types, CDATA sections and end tags *)
Lemma no_comment r : starts_with r (bs "<!--") = false -> does html_expect_comment tt [] r false tt.
Proof. intros E. unfold html_expect_comment. apply does_get. change (text [] ++ r) with r. unfold html_match_comment. rewrite E. cbn [negb]. eapply does_lift; [reflexivity|]. apply does_ret. Qed.
Lemma does_comment t rest : comment_text t -> does html_expect_comment tt ((bs "<!--", Some hl_comment_delim) :: opt_piece t hl_comment ++ [(bs "-->", Some hl_comment_delim)]) rest true tt.
Proof.
  intros H. unfold html_expect_comment. apply does_get. rewrite text_cons, text_app, opt_piece_text, text_one, <- !app_assoc.
  destruct (C60_comment (bs "<!--" ++ t ++ bs "-->" ++ rest)) as ([n b] & E & K). cbn [en_length en_terminated] in K. destruct (proj2 (K (length t + 7))) as [-> ->]; [eauto|].
  eapply does_lift; [exact E|]. cbn [en_length en_terminated]. cbv zeta. rewrite (proj2 (Nat.eqb_neq _ _)) by lia. eapply does_cons; [apply does_emit; [reflexivity|discriminate]|].
  eapply does_last; [|apply does_ret]. replace (length t + 7 - 4 - 3) with (length t) by lia. replace (3 <? length t + 7 - 4) with (negb (length t =? 0)).
  - eapply does_bind; [apply does_opt; reflexivity|]. apply does_emit; [reflexivity|discriminate].
  - destruct t as [|c t]; [reflexivity|]. symmetry. apply Nat.ltb_lt. cbn [length]. lia.
Qed.
Lemma no_doctype r : starts_with_ignore_case r (bs "<!DOCTYPE") = false -> does html_expect_doctype tt [] r false tt.
Proof. intros E. unfold html_expect_doctype. apply does_get. change (text [] ++ r) with r. unfold match_doctype_permissive. rewrite E. apply does_ret. Qed.
Lemma does_doctype d t rest : map lower d = bs "<!doctype" -> ~ In (ch ">") t -> does html_expect_doctype tt [(d ++ t ++ bs ">", Some hl_name_macro)] rest true tt.
Proof.
  intros Hd Ht. assert (L : length d = 9) by (rewrite <- (map_length lower), Hd; reflexivity). unfold html_expect_doctype. apply does_get. rewrite text_one, <- !app_assoc.
  assert (E : match_doctype_permissive (d ++ t ++ bs ">" ++ rest) = mk_enclosed (10 + length t) true).
  { unfold match_doctype_permissive. rewrite (proj2 (starts_with_ignore_case_spec _ _)) by (exists d, (t ++ bs ">" ++ rest); split; [reflexivity|exact Hd]). cbn [negb]. unfold find_ch, find_if_from. rewrite <- L, skipn_app_exact. change (bs ">" ++ rest) with (ch ">" :: rest). rewrite find_exact.
    - cbn [option_map]. f_equal. lia.
    - apply Forall_forall. intros c Hc. apply N.eqb_neq. intros ->. contradiction.
    - reflexivity. }
  rewrite E. cbv zeta. cbn [en_length]. cbn [Nat.add Nat.eqb]. eapply does_last; [apply does_emit; [rewrite !app_length, L; cbn; lia|]|apply does_ret]. destruct d; discriminate.
Qed.
Lemma no_cdata r : starts_with r (bs "<![CDATA[") = false -> does html_expect_cdata tt [] r false tt.
Proof. intros E. unfold html_expect_cdata. apply does_get. change (text [] ++ r) with r. unfold match_cdata, match_enclosed. rewrite E. apply does_ret. Qed.
Lemma does_cdata t rest : ~ contains t (bs "]]>") -> does html_expect_cdata tt [(bs "<![CDATA[", Some hl_name_macro); (t, None); (bs "]]>", Some hl_name_macro)] rest true tt.
Proof.
  intros H. unfold html_expect_cdata. apply does_get. rewrite !text_cons, <- !app_assoc. change (text [] ++ rest) with rest.
  assert (E : match_cdata (bs "<![CDATA[" ++ t ++ bs "]]>" ++ rest) = mk_enclosed (12 + length t) true).
  { unfold match_cdata, match_enclosed. change (starts_with (bs "<![CDATA[" ++ t ++ bs "]]>" ++ rest) (bs "<![CDATA[")) with true. cbn [negb]. unfold find_str. change (skipn (length (bs "<![CDATA[")) (bs "<![CDATA[" ++ t ++ bs "]]>" ++ rest)) with (t ++ bs "]]>" ++ rest).
    assert (F : find_sub (t ++ bs "]]>" ++ rest) (bs "]]>") = Some (length t)).
    { clear -H. induction t as [|c t IH]; [reflexivity|]. cbn [app find_sub length]. replace (starts_with (c :: t ++ bs "]]>" ++ rest) (bs "]]>")) with false.
      - rewrite IH; [reflexivity|]. intros (a & b & ->). apply H. exists (c :: a), b. reflexivity.
      - symmetry. apply not_true_iff_false. intros E. apply starts_with_app in E as [u E]. change (bs "]]>" ++ u) with (93 :: 93 :: 62 :: u)%N in E. change (bs "]]>" ++ rest) with (93 :: 93 :: 62 :: rest)%N in E. injection E as -> E. destruct t as [|d [|e t]]; cbn [app] in E; [discriminate|discriminate|]. injection E as -> -> E. apply H. exists [], t. reflexivity. }
    rewrite F. cbn [option_map]. f_equal. change (length (bs "]]>")) with 3. change (length (bs "<![CDATA[")) with 9. replace (length _ <? 9) with false by reflexivity. f_equal. lia. }
  rewrite E. cbv zeta. cbn [en_length en_terminated]. rewrite (proj2 (Nat.eqb_neq _ _)) by lia. intros i o. rewrite !text_cons. change (text []) with (@nil N). rewrite app_nil_r.
  set (l := bs "<![CDATA[" ++ t ++ bs "]]>"). assert (L : length l = 12 + length t) by (unfold l; rewrite !app_length; change (length (bs "<![CDATA[")) with 9; change (length (bs "]]>")) with 3; lia).
  assert (L2 : length (l ++ rest) = 12 + length t + length rest) by (rewrite app_length, L; lia).
  apply wp_bind, wp_get_idx. cbn [idx]. apply wp_bind, wp_emit_at_exact; [lia|lia|lia|]. cbn [when]. apply wp_bind, wp_emit_at_exact; [lia|lia|lia|]. apply wp_bind, wp_advance_exact; [lia|]. apply wp_ret. split; [reflexivity|].
  rewrite L. rewrite <- L at 1. rewrite skipn_app_exact. f_equal. cbn [tokens rev app]. change (length (bs "<![CDATA[")) with 9. change (length (bs "]]>")) with 3. replace (i + (12 + length t) - 3) with (i + 9 + length t) by lia. reflexivity.
Qed.
Lemma no_end r : starts_with r (bs "</") = false -> does html_expect_end_tag tt [] r false tt.
Proof. intros E. unfold html_expect_end_tag. apply does_get. change (text [] ++ r) with r. unfold match_end_tag_permissive. rewrite E. cbn [negb]. eapply does_lift; [reflexivity|]. apply does_ret. Qed.
Lemma tag_char_no c : tag_char c -> ~ html_space c /\ c <> ch ">" /\ c <> ch "/" /\ c <> ch "!".
Proof. unfold tag_char, letter, digit, html_space. change (bs "-._") with [45; 46; 95]%N. change (ch ">") with 62%N. change (ch "/") with 47%N. change (ch "!") with 33%N. cbn [In]. lia. Qed.
Lemma does_end_tag t rest : tag_name t -> does html_expect_end_tag tt [(bs "</", Some hl_symbol_punc); (t, Some hl_markup_tag); (bs ">", Some hl_symbol_punc)] rest true tt.
Proof.
  intros [Nt F]. unfold html_expect_end_tag. apply does_get. rewrite !text_cons, <- !app_assoc. change (text [] ++ rest) with rest. assert (Lt : 0 < length t) by (destruct t; [congruence|cbn; lia]).
  assert (E : match_end_tag_permissive (bs "</" ++ t ++ bs ">" ++ rest) = Ok (length t + 3, length t)).
  { unfold match_end_tag_permissive. change (starts_with (bs "</" ++ t ++ bs ">" ++ rest) (bs "</")) with true. cbn [negb]. unfold ascii_find_checked, ascii_find, find_if_from. change (skipn 2 (bs "</" ++ t ++ bs ">" ++ rest)) with (t ++ bs ">" ++ rest). change (bs "</" ++ t ++ bs ">" ++ rest) with (60%N :: 47%N :: t ++ ch ">" :: rest). change (bs ">" ++ rest) with (ch ">" :: rest).
    change (2 <=? length (60%N :: 47%N :: t ++ ch ">" :: rest)) with true. cbn [check bind]. rewrite find_exact.
    - cbn [option_map]. cbv zeta. replace (2 + length t - 2) with (length t) by lia. rewrite (proj2 (Nat.eqb_neq _ _)) by lia. cbn [Nat.add nth_error]. rewrite nth_mid. change (ch ">" =? ch ">")%N with true. cbv iota. f_equal. f_equal. lia.
    - eapply Forall_impl; [|exact F]. cbn beta. intros c Hc. apply tag_char_no in Hc as (C1 & C2 & _). rewrite <- hspace_iff in C1. apply not_true_iff_false in C1. rewrite C1, (proj2 (N.eqb_neq _ _)) by exact C2. reflexivity.
    - reflexivity. }
  eapply does_lift; [exact E|]. cbn [fst snd]. rewrite (proj2 (Nat.eqb_neq (length t + 3) 0)) by lia. apply does_check; [rewrite (proj2 (Nat.eqb_neq _ _)) by lia; reflexivity|].
  intros i o. rewrite !text_cons. change (text []) with (@nil N). rewrite app_nil_r.
  set (l := bs "</" ++ t ++ bs ">"). assert (L : length l = length t + 3) by (unfold l; rewrite !app_length; change (length (bs "</")) with 2; change (length (bs ">")) with 1; lia).
  assert (L2 : length (l ++ rest) = length t + 3 + length rest) by (rewrite app_length, L; lia).
  apply wp_bind, wp_get_idx. cbn [idx]. apply wp_bind, wp_emit_at_exact; [lia|lia|lia|]. apply wp_bind, wp_emit_at_exact; [lia|lia|lia|]. apply wp_bind, wp_emit_at_exact; [lia|lia|lia|]. apply wp_bind, wp_advance_exact; [lia|]. apply wp_ret. split; [reflexivity|].
  rewrite L. rewrite <- L at 1. rewrite skipn_app_exact. f_equal. cbn [tokens rev app]. change (length (bs "</")) with 2. change (length (bs ">")) with 1. replace (i + (length t + 3) - 1) with (i + 2 + length t) by lia. reflexivity.
Qed.

(** ** Documents *)
Lemma not_prefix2 b t x y z : b <> y -> starts_with (x :: b :: t) (x :: y :: z) = false.
Proof. intros N. cbn [starts_with]. rewrite N.eqb_refl, (proj2 (N.eqb_neq _ _)) by exact N. reflexivity. Qed.
Lemma not_prefix1 c t y z : c <> y -> starts_with (c :: t) (y :: z) = false.
Proof. intros N. cbn [starts_with]. rewrite (proj2 (N.eqb_neq _ _)) by exact N. reflexivity. Qed.
Lemma lower_id c x : lower c = x -> (x < 97)%N -> c = x.
Proof. unfold lower. destruct (N.leb_spec 65 c), (N.leb_spec c 90); cbn [andb]; lia. Qed.
Lemma not_doctype2 b t : b <> 33%N -> starts_with_ignore_case (60%N :: b :: t) (bs "<!DOCTYPE") = false.
Proof.
  intros N. apply not_true_iff_false. rewrite starts_with_ignore_case_spec. intros (m & r & E & Em). change (map lower (bs "<!DOCTYPE")) with (60%N :: 33%N :: bs "doctype") in Em. destruct m as [|x [|y m]]; try discriminate. injection Em as _ Ey _. injection E as _ -> _. apply N. apply lower_id; [exact Ey|lia].
Qed.
Lemma not_doctype1 c t : c <> 60%N -> starts_with_ignore_case (c :: t) (bs "<!DOCTYPE") = false.
Proof.
  intros N. apply not_true_iff_false. rewrite starts_with_ignore_case_spec. intros (m & r & E & Em). change (map lower (bs "<!DOCTYPE")) with (60%N :: 33%N :: bs "doctype") in Em. destruct m as [|x m]; try discriminate. injection Em as Ex _. injection E as -> _. apply N. apply lower_id; [exact Ex|lia].
Qed.
Ltac skip_ lem := eapply does_nil; [apply lem; try reflexivity|cbn iota].
Ltac done_ lem := eapply does_last; [apply lem; try eassumption|apply does_ret].
Lemma start_tag_head t p rest : start_tag t rest p -> exists b u, text p = 60%N :: b :: u /\ b <> 33%N /\ b <> 47%N.
Proof. intros [w a e [N F] Fw Hw He Ha]. destruct F as [|b t Hb F]; [congruence|]. apply tag_char_no in Hb as (_ & _ & C1 & C2). rewrite !text_cons. eexists b, _. split; [reflexivity|]. split; assumption. Qed.
Lemma text_head p : html_text_pieces p -> text p <> [] -> exists c u, text p = c :: u /\ c <> 60%N.
Proof.
  intros [t F|t body l F Hb H] N; [rewrite blank_text in *|rewrite text_app, blank_text in *; unfold reference_piece in *; rewrite text_cons in *].
  - destruct F as [|c t [Hc _] F]; [congruence|]. eauto.
  - destruct F as [|c t [Hc _] F]; [|eexists _, _; split; [reflexivity|exact Hc]]. eexists _, _. split; [reflexivity|]. discriminate.
Qed.
Lemma body_exact js css strict p rest : html_lexeme p rest -> does (html_body js css strict) tt p rest tt tt.
Proof.
  intros [t r Ht|d t r Hd Ht|t r Ht|t r Ht|t q r Hn Hq|t q l r Hn Hq Hl Hc|q r Hq Hne R]; unfold html_body.
  - done_ does_comment.
  - skip_ no_comment.
    { rewrite text_one, <- app_assoc. change (bs "<!doctype") with (60 :: 33 :: 100 :: bs "octype")%N in Hd. destruct d as [|x [|y [|z d]]]; try discriminate. injection Hd as Ex Ey Ez _. apply lower_id in Ex; [|lia]. apply lower_id in Ey; [|lia]. subst x y. cbn [app]. change (bs "<!--") with [60; 33; 45; 45]%N. cbn [starts_with N.eqb Pos.eqb andb].
      rewrite (proj2 (N.eqb_neq z 45)); [reflexivity|]. intros ->. discriminate. }
    done_ does_doctype.
  - skip_ no_comment. skip_ no_doctype. done_ does_cdata.
  - skip_ no_comment. skip_ no_doctype; [rewrite text_cons; apply (not_doctype2 47); discriminate|]. skip_ no_cdata. done_ does_end_tag.
  - destruct (start_tag_head t q r Hq) as (b & u & E & N1 & N2).
    skip_ no_comment; [rewrite E; apply (not_prefix2 b); exact N1|]. skip_ no_doctype; [rewrite E; apply (not_doctype2 b); exact N1|]. skip_ no_cdata; [rewrite E; apply (not_prefix2 b); exact N1|]. skip_ no_end; [rewrite E; apply (not_prefix2 b); exact N2|].
    apply (does_last _ _ tt _ _ true tt _ tt); [|apply does_ret]. rewrite <- (app_nil_r q). apply does_tag with (t := t); [exact Hq|]. rewrite !(name_not_ic t) by (first [exact Hn|cbn; tauto]). apply does_ret.
  - destruct (start_tag_head t q (text l ++ r) Hq) as (b & u & E & N1 & N2).
    assert (E2 : text (q ++ l) ++ r = 60%N :: b :: u ++ text l ++ r) by (rewrite text_app, E, <- app_assoc; reflexivity).
    skip_ no_comment; [rewrite E2; apply (not_prefix2 b); exact N1|]. skip_ no_doctype; [rewrite E2; apply (not_doctype2 b); exact N1|]. skip_ no_cdata; [rewrite E2; apply (not_prefix2 b); exact N1|]. skip_ no_end; [rewrite E2; apply (not_prefix2 b); exact N2|].
    apply (does_last _ _ tt _ _ true tt _ tt); [|apply does_ret]. apply does_tag with (t := t); [exact Hq|]. rewrite (name_ic t Hn). eapply does_last; [apply does_loop; apply escapable_iterates; assumption|apply does_ret].
  - destruct (text_head q Hq Hne) as (c & u & E & N).
    skip_ no_comment; [rewrite E; apply not_prefix1; exact N|]. skip_ no_doctype; [rewrite E; apply not_doctype1; exact N|]. skip_ no_cdata; [rewrite E; apply not_prefix1; exact N|]. skip_ no_end; [rewrite E; apply not_prefix1; exact N|].
    eapply does_nil; [instantiate (1 := tt); instantiate (1 := false); unfold html_expect_start_tag; apply does_get; rewrite E; cbn [text map concat app starts_with_ch]; change (ch "<") with 60%N; rewrite (proj2 (N.eqb_neq c 60)) by exact N; apply does_ret|]. cbv iota.
    apply (does_last _ _ tt _ _ true tt _ tt); [|apply does_ret]. unfold html_expect_normal_text. eapply does_last; [|apply does_ret]. destruct (text_iterates r R q Hq) as (l' & Hl & E1 & E2). apply (does_same _ _ l'); [exact E1|exact E2|]. apply does_loop. exact Hl.
Qed.
Lemma lexeme_head p rest : html_lexeme p rest -> text p <> [].
Proof.
  intros [t r Ht|d t r Hd Ht|t r Ht|t r Ht|t q r Hn Hq|t q l r Hn Hq Hl Hc|q r Hq Hne R]; try (rewrite text_cons; discriminate).
  - rewrite text_one. destruct d; discriminate.
  - destruct (start_tag_head t q r Hq) as (b & u & -> & _). discriminate.
  - destruct (start_tag_head t q (text l ++ r) Hq) as (b & u & E & _). rewrite text_app, E. discriminate.
  - exact Hne.
Qed.
(** C139: a document gets exactly the expected tokens (scripts, style sheets and white space in end tags left out; references in attribute
    values restricted, see C140 and C141). *)
Theorem C139_html_document_partial : forall js css l, html_lexemes l -> ~ starts_with (text l) [0xEF; 0xBB; 0xBF]%N = true -> tokenizes (highlight_html js css) l.
Proof.
  intros js css l Hl Hb strict. unfold highlight_html, run.
  assert (W : wp (html_expect_bom ;; while_rem (html_body js css strict)) (fun _ st' => rops st' = rev (tokens 0 l)) (mk_hst (text l) 0 [] tt)).
  { apply wp_bind. unfold html_expect_bom. apply wp_bind, wp_get_rem. cbn [rem]. apply not_true_iff_false in Hb. rewrite Hb. cbn [when]. apply wp_ret. eapply wp_mono.
    - apply (while_states_wp (fun _ => tt) (fun _ p r _ => html_lexeme p r) (html_body js css strict)) with (s := tt); [| |exact Hl].
      + intros s p r s' H. eapply lexeme_head. exact H.
      + intros s p r s' i o H. destruct s. eapply wp_mono; [apply (body_exact js css strict p r H)|]. cbn beta. intros ? ? [_ ->]. reflexivity.
    - cbn beta. intros _ st' ->. apply app_nil_r. }
  unfold wp in W. unfold bindM in *. destruct (html_expect_bom _) as [[[] st1]|]; [|contradiction]. destruct (while_rem _ st1) as [[[] st2]|]; [|contradiction]. unfold ret. rewrite W, rev_involutive. reflexivity.
Qed.
Print Assumptions C139_html_document_partial.
