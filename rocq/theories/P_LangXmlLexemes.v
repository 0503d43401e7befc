(** * The XML highlighter: exact tokens *)
From Coq Require Import List NArith ZArith Bool Arith Lia.
From Verif Require Import M_Base L_Base S_Tokens M_Emit S_Ops L_Emit M_Types M_Chars S_Chars P_Chars M_Parse S_Parse L_Parse P_Parse S_Utf8 M_Utf8 L_Utf8 P_Utf8 L_Any
  M_Api M_Highlighter S_Highlight L_Highlighter P_LangCpp L_Auto S_Json L_JsonText M_LangHtml S_LangHtml P_HtmlMatch S_Lexemes L_Lexemes L_Number L_Scan L_Comments S_States L_States L_Does M_LangXml S_LangXml P_LangXml.
Import ListNotations.

(** ** Characters *)
Lemma space_iff c : is_xml_whitespace c = true <-> xml_space c.
Proof. unfold is_xml_whitespace, xml_space. apply mem_In. Qed.
Lemma start_iff c : is_xml_name_start c = true <-> xml_name_start_char c /\ (c < 0xEFFF0)%N.
Proof.
  unfold is_xml_name_start, xml_name_start_char, is_ascii_alpha, is_ascii_upper_alpha, is_ascii_lower_alpha, between. rewrite !orb_true_iff, mem_In, !andb_true_iff, !N.leb_le. cbn [bs In]. change (bs ":_") with [58; 95]%N. cbn [In]. lia.
Qed.
Lemma name_iff c : is_xml_name c = true <-> xml_name_char c /\ (c <> 45 /\ c < 0xEFFF0)%N.
Proof.
  unfold is_xml_name. rewrite !orb_true_iff, start_iff, mem_In. unfold xml_name_char, xml_name_start_char, is_ascii_digit, between. rewrite !andb_true_iff, !N.leb_le. cbn [In]. lia.
Qed.
Lemma name_scalar c : xml_name_char c -> scalar_value c.
Proof. unfold xml_name_char, xml_name_start_char, scalar_value. lia. Qed.
Lemma decode_scalar c rest : scalar_value c -> fits (utf8_encoding c ++ rest) -> decode_and_length_or_replacement (utf8_encoding c ++ rest) = Ok (c, length (utf8_encoding c)).
Proof.
  intros Hc [Hb Hl]. assert (Hr : bytes rest) by (apply Forall_app in Hb; apply Hb). destruct (C16_encode_decode c rest Hc Hr) as (E & _ & L & D). rewrite E in L, D.
  destruct (C19_replacement (utf8_encoding c ++ rest) Hb) as (c1 & n1 & E1 & _ & _ & H & _).
  - destruct (utf8_encoding c); [cbn in L; lia|discriminate].
  - lia.
  - destruct (H _ _ D) as [-> ->]. exact E1.
Qed.
Lemma fits_app a b : fits (a ++ b) -> fits b.
Proof. intros [H1 H2]. split; [apply Forall_app in H1; apply H1|]. rewrite app_length in H2. lia. Qed.
(** The first byte of a character of a name *)
Lemma name_head c : is_xml_name c = true -> exists b t, utf8_encoding c = b :: t /\ (128 <= b \/ xml_name_char b /\ b <> 45)%N.
Proof.
  intros H. unfold utf8_encoding. destruct (N.ltb_spec c 0x80) as [L|L]; [apply name_iff in H; eexists c, []; split; [reflexivity|right; tauto]|].
  destruct (c <? 0x800)%N; [|destruct (c <? 0x10000)%N]; eexists _, _; (split; [reflexivity|left]).
  - transitivity 192%N; [lia|apply N.le_add_r].
  - transitivity 224%N; [lia|apply N.le_add_r].
  - transitivity 240%N; [lia|apply N.le_add_r].
Qed.
Lemma encoding_ne c : utf8_encoding c <> [].
Proof. unfold utf8_encoding. destruct (c <? 0x80)%N; [discriminate|]. destruct (c <? 0x800)%N; [discriminate|]. destruct (c <? 0x10000)%N; discriminate. Qed.

(** ** Names *)
(** [stop] holds at the end but not at a character of a name. *)
Definition name_stop (stop : str -> bool) : Prop := forall b t, (128 <= b \/ xml_name_char b /\ b <> 45)%N -> stop (b :: t) = false.
Lemma name_loop ty stop cs rest i o : name_stop stop -> Forall (fun c => is_xml_name c = true) cs -> match cs with [] => True | c :: _ => is_xml_name_start c = true end ->
  stop rest = true \/ rest = [] -> fits (concat (map utf8_encoding cs) ++ rest) ->
  wp (xml_expect_name ty stop) (fun n st' => n = length (concat (map utf8_encoding cs)) /\ st' = mk_hst rest (i + length (concat (map utf8_encoding cs))) (rev (tokens i (opt_piece (concat (map utf8_encoding cs)) ty)) ++ o) tt) (mk_hst (concat (map utf8_encoding cs) ++ rest) i o tt).
Proof.
  intros Hs Hn Hf Hr Hfit. set (w := concat (map utf8_encoding cs)) in *. unfold xml_expect_name.
  apply wp_hloop with (mu := fun v _ => length (w ++ rest) - snd v)
    (Inv := fun v st' => st' = mk_hst (w ++ rest) i o tt /\ exists a b, cs = a ++ b /\ v = (length (concat (map utf8_encoding a)), length (concat (map utf8_encoding a)))).
  - split; [reflexivity|]. exists [], cs. split; reflexivity.
  - cbn [rem snd]. lia.
  - intros v st' [-> (a & b & E & ->)]. cbn [snd]. set (n := length (concat (map utf8_encoding a))).
    assert (Ew : w = concat (map utf8_encoding a) ++ concat (map utf8_encoding b)) by (unfold w; rewrite E, map_app, concat_app; reflexivity).
    assert (Ln : n <= length (w ++ rest)) by (rewrite Ew, !app_length; unfold n; lia).
    assert (Es : skipn n (w ++ rest) = concat (map utf8_encoding b) ++ rest) by (rewrite Ew, <- app_assoc; apply skipn_app_exact).
    assert (Finish : b = [] -> wp (xml_flush n ty;; ret (inr n)) (fun r st' => match r with inl a' => (st' = mk_hst (w ++ rest) i o tt /\ exists a0 b0, cs = a0 ++ b0 /\ a' = (length (concat (map utf8_encoding a0)), length (concat (map utf8_encoding a0)))) /\ length (w ++ rest) - snd a' < length (w ++ rest) - n
       | inr b0 => b0 = length w /\ st' = mk_hst rest (i + length w) (rev (tokens i (opt_piece w ty)) ++ o) tt end) (mk_hst (w ++ rest) i o tt)).
    { intros ->. cbn [map concat] in Ew. rewrite app_nil_r in Ew. assert (n = length w) as -> by (unfold n; rewrite Ew; reflexivity). apply flush_run. apply wp_ret. split; reflexivity. }
    unfold xml_name_body. apply wp_bind, wp_get_rem. cbn [rem]. destruct (Nat.ltb_spec n (length (w ++ rest))) as [L|L]; cbn [negb].
    2:{ apply Finish. destruct b as [|c b]; [reflexivity|exfalso]. assert (skipn n (w ++ rest) = []) as E2 by (apply skipn_all2; lia). rewrite Es in E2. cbn [map concat] in E2. pose proof (encoding_ne c). destruct (utf8_encoding c); [congruence|discriminate]. }
    apply wp_bind, wp_substr_from; [lia|]. rewrite Es. destruct b as [|c b].
    + cbn [map concat app]. destruct Hr as [->| ->]; [apply Finish; reflexivity|]. exfalso. cbn [map concat app] in Es. apply (f_equal (@length N)) in Es. rewrite skipn_length in Es. cbn [length] in Es. lia.
    + assert (Hc : is_xml_name c = true) by (rewrite Forall_forall in Hn; apply Hn; rewrite E; apply in_or_app; right; left; reflexivity).
      destruct (name_head c Hc) as (x & t & Ex & Hx). cbn [map concat]. rewrite <- !app_assoc. replace (stop (utf8_encoding c ++ concat (map utf8_encoding b) ++ rest)) with false by (rewrite Ex; symmetry; apply Hs; exact Hx).
      assert (F2 : fits (utf8_encoding c ++ concat (map utf8_encoding b) ++ rest)) by (apply (fits_app (concat (map utf8_encoding a))); rewrite Ew in Hfit; cbn [map concat] in Hfit; rewrite <- !app_assoc in Hfit; exact Hfit).
      apply wp_bind. eapply wp_lift; [apply decode_scalar; [apply name_scalar, name_iff; exact Hc|exact F2]|]. cbn [fst snd]. rewrite Hc.
      replace ((n =? 0) && negb (is_xml_name_start c)) with false.
      2:{ symmetry. apply andb_false_iff. destruct a as [|d a].
        - right. rewrite E in Hf. cbn [app] in Hf. rewrite Hf. reflexivity.
        - left. apply Nat.eqb_neq. unfold n. cbn [map concat]. rewrite app_length. pose proof (encoding_ne d). destruct (utf8_encoding d); [congruence|]. cbn [length]. lia. }
      cbn [orb negb]. apply wp_ret. split; [split; [reflexivity|]|].
      * exists (a ++ [c]), b. rewrite <- app_assoc. split; [exact E|]. rewrite map_app, concat_app. cbn [map concat]. rewrite app_nil_r, app_length. reflexivity.
      * cbn [snd]. pose proof (encoding_ne c). destruct (utf8_encoding c); [congruence|]. cbn [length]. lia.
Qed.
Lemma known_name w : xml_known_name w -> exists c cs, w = concat (map utf8_encoding (c :: cs)) /\ is_xml_name_start c = true /\ Forall (fun c => is_xml_name c = true) (c :: cs).
Proof.
  intros (c & cs & -> & H1 & H2 & H3). exists c, cs. split; [reflexivity|]. inversion H3 as [|? ? [K1 K2] H4]; subst. split; [apply start_iff; tauto|]. constructor; [apply name_iff; unfold xml_name_char; tauto|].
  clear -H2 H4. induction H2 as [|x l Hx _ IH]; [constructor|]. inversion H4; subst. constructor; [apply name_iff; tauto|auto].
Qed.
Lemma name_ne w : xml_known_name w -> exists b t, w = b :: t /\ (128 <= b \/ xml_name_char b /\ b <> 45)%N.
Proof.
  intros H. destruct (known_name w H) as (c & cs & -> & _ & F). inversion F as [|? ? H1 _]; subst. destruct (name_head c H1) as (b & t & E & Hb). exists b, (t ++ concat (map utf8_encoding cs)). cbn [map concat]. rewrite E. split; [reflexivity|exact Hb].
Qed.
Lemma does_name ty stop w rest : name_stop stop -> xml_known_name w -> stop rest = true -> fits (w ++ rest) -> does (xml_expect_name ty stop) tt [(w, Some ty)] rest (length w) tt.
Proof.
  intros Hs Hw Hr Hf i o. destruct (known_name w Hw) as (c & cs & E & H1 & H2). pose proof (name_ne w Hw) as (b & t & Ew & _). assert (text [(w, Some ty)] = w) as Et by (cbn; apply app_nil_r). rewrite Et, E. rewrite E in Hf.
  eapply wp_mono; [apply (name_loop ty stop (c :: cs) rest i o Hs H2 H1 (or_introl Hr) Hf)|]. cbn beta. intros n st' [-> ->]. rewrite <- E. split; [reflexivity|]. rewrite Ew at 2. cbn [opt_piece]. rewrite <- Ew. reflexivity.
Qed.

(** ** White space, references, values *)
Lemma match_space w rest : Forall xml_space w -> not_before xml_space rest -> xml_match_whitespace (w ++ rest) = length w.
Proof.
  intros F R. unfold xml_match_whitespace. rewrite length_if_eq, prefix_len_exact; [reflexivity| |].
  - eapply Forall_impl; [|exact F]. intros c. apply space_iff.
  - eapply not_before_impl; [|exact R]. intros c. apply space_iff.
Qed.
Lemma text_one w (h : option N) : text [(w, h)] = w.
Proof. cbn. apply app_nil_r. Qed.
Lemma does_space w rest : Forall xml_space w -> not_before xml_space rest -> does xml_expect_whitespace tt [(w, None)] rest (negb (length w =? 0)) tt.
Proof.
  intros F R. unfold xml_expect_whitespace. apply does_get. rewrite text_one, match_space by assumption. cbv zeta. eapply does_cons; [apply does_advance; reflexivity|]. apply does_ret.
Qed.
Lemma not_before_cons' (p : N -> Prop) c t : ~ p c -> not_before p (c :: t).
Proof. intros H x Hx. injection Hx as <-. exact H. Qed.
Ltac nospace := apply not_before_cons'; unfold xml_space; cbn [In]; intros ?; intuition discriminate.
Lemma space_skip c t {B} (k : bool -> M unit B) p rest y : text p ++ rest = c :: t -> ~ xml_space c -> does (k false) tt p rest y tt -> does (bindM xml_expect_whitespace k) tt p rest y tt.
Proof.
  intros E Nc H. eapply (does_bind _ _ tt [] p); [|exact H]. rewrite E. change false with (negb (@length N [] =? 0)). change (c :: t) with ([] ++ c :: t). intros i o. pose proof (does_space [] (c :: t) (Forall_nil _) (not_before_cons' _ _ _ Nc) i o) as K. exact K.
Qed.
Lemma reference_exact body rest : reference_body body -> match_character_reference (ch "&" :: body ++ ch ";" :: rest) = length body + 2.
Proof. intros H. apply C59_reference; [lia|]. exists body, rest. split; [reflexivity|]. split; [exact H|reflexivity]. Qed.
Lemma does_reference p rest : xml_reference p rest -> does xml_expect_reference tt p rest true tt.
Proof.
  intros [body r H]. unfold xml_expect_reference. apply does_get. rewrite text_one. cbn [app]. rewrite <- app_assoc. cbn [app]. rewrite reference_exact by exact H. cbv zeta. rewrite (proj2 (Nat.eqb_neq _ _)) by lia. cbn [negb].
  eapply does_last; [apply does_emit; [cbn [length]; rewrite app_length; cbn; lia|discriminate]|apply does_ret].
Qed.
Lemma does_value p rest : xml_value p -> does xml_expect_value tt p rest true tt.
Proof.
  intros Hv. destruct Hv as [q body Hq Hb]. unfold xml_expect_value. apply does_get. cbv zeta. rewrite text_cons. cbn [app].
  match goal with |- does (if _ then ?a else if _ then ?b else _) _ _ _ _ _ => set (va := a); set (vb := b) end.
  assert (K : does (emit_and_advance 1 hl_string_delim ;; let! piece := hloop 2 (xml_value_body q) 0 in xml_highlight_piece piece ;; let! r := get_rem in when (starts_with_ch r q) (emit_and_advance 1 hl_string_delim) ;; ret true) tt
    (([q], Some hl_string_delim) :: body ++ [([q], Some hl_string_delim)]) rest true tt).
  2:{ destruct Hq as [->| ->]; cbn [starts_with_ch]; exact K. }
  clear va vb. eapply does_cons; [apply does_emit; [reflexivity|discriminate]|].
  assert (Hb2 : string_body hl_string (xml_plain q) xml_reference (q :: rest) true body).
  { clear -Hb. revert Hb. generalize true. intros f Hb. induction Hb as [f|run l Hr Hp Hb IH|f p l Hi Hb IH]; [constructor|constructor; auto|]. constructor; [|exact IH]. destruct Hi. constructor. assumption. }
  clear Hb. rename Hb2 into Hb.
  assert (HP : forall run r j o (Q : unit -> hst unit -> Prop), Q tt (mk_hst r (j + length run) (rev (tokens j (opt_piece run hl_string)) ++ o) tt) -> wp (xml_highlight_piece (length run)) Q (mk_hst (run ++ r) j o tt)).
  { intros run r j o Q H. unfold xml_highlight_piece. apply wp_bind, wp_get_rem. cbn [rem]. rewrite (proj2 (Nat.leb_le _ _)) by (rewrite app_length; lia). rewrite andb_true_r. apply (opt_emit hl_string hl_string); auto. }
  intros i o. rewrite text_app, text_one, <- app_assoc. cbn [app]. apply wp_bind. eapply wp_mono.
  { apply (scan_body_at tt (xml_value_body q) hl_string (xml_plain q) xml_reference (q :: rest)
      (fun j o' piece st' => exists run, piece = length run /\ rem st' = run ++ q :: rest /\ idx st' + length run = j /\ rev (tokens (idx st') (opt_piece run hl_string)) ++ rops st' = o' /\ loc st' = tt)) with (c := 2) (f := true); [| | | |lia|exact Hb].
    - intros p r [b r' H]. rewrite text_one. discriminate.
    - intros run r len j o' Hp L. unfold xml_value_body. apply wp_bind, wp_get_rem. cbn [rem]. rewrite (proj2 (Nat.ltb_lt _ _)) by (rewrite app_length; lia). cbn [negb].
      destruct (nth_error run len) as [c|] eqn:E; [|apply nth_error_None in E; lia]. apply wp_bind. apply (wp_at_is _ len c); [rewrite nth_error_app1 by exact L; exact E|]. unfold xml_plain in Hp. rewrite Forall_forall in Hp. apply nth_error_In in E. destruct (Hp c E) as (K1 & K2 & K3). apply N.eqb_neq in K1, K2, K3.
      rewrite K1. apply wp_bind, wp_substr_from; [rewrite app_length; lia|]. cbv zeta. rewrite K2, K3. cbn [andb orb]. apply wp_ret. auto.
    - intros run p r j o' _ Hi. pose proof Hi as Hi'. destruct Hi' as [b r Hbd]. rewrite text_one. unfold xml_value_body. apply wp_bind, wp_get_rem. cbn [rem]. rewrite (proj2 (Nat.ltb_lt _ _)) by (rewrite !app_length; cbn; lia). cbn [negb].
      apply wp_bind. apply (wp_at_is _ (length run) (ch "&")); [rewrite nth_error_app2, Nat.sub_diag by lia; reflexivity|]. replace (ch "&" =? q)%N with false by (destruct Hq as [->| ->]; reflexivity). apply wp_bind, wp_substr_from; [rewrite app_length; lia|]. rewrite skipn_app_exact. cbv zeta.
      cbn [app]. rewrite <- app_assoc. cbn [app]. rewrite reference_exact by exact Hbd. rewrite (proj2 (Nat.eqb_neq _ _)) by lia. change (ch "&" =? ch "&")%N with true. change (ch "&" =? ch "<")%N with false. cbn [andb orb negb].
      apply wp_bind. apply HP. apply wp_bind. pose proof (does_reference _ r Hi) as D. eapply wp_mono; [specialize (D (j + length run) (rev (tokens j (opt_piece run hl_string)) ++ o')); rewrite text_one in D; cbn [app] in D; rewrite <- app_assoc in D; exact D|].
      cbn beta. intros ? ? [-> ->]. apply wp_ret. split; [reflexivity|]. rewrite tokens_app, opt_piece_text, rev_app_distr, <- app_assoc. reflexivity.
    - intros run j o' _. unfold xml_value_body. apply wp_bind, wp_get_rem. cbn [rem]. rewrite (proj2 (Nat.ltb_lt _ _)) by (rewrite !app_length; cbn; lia). cbn [negb].
      apply wp_bind. apply (wp_at_is _ (length run) q); [rewrite nth_error_app2, Nat.sub_diag by lia; reflexivity|]. rewrite N.eqb_refl. apply wp_ret. exists run. cbn [rem idx rops loc]. auto. }
  cbn beta. intros piece [r j o1 []] (run & -> & R & I & T & _). cbn [rem idx rops loc] in *. subst r. apply wp_bind. apply HP. apply wp_bind, wp_get_rem. cbn [rem starts_with_ch]. rewrite N.eqb_refl. cbn [when]. apply wp_bind.
  rewrite I, T. apply wp_emit_exact; [cbn; lia|]. apply wp_ret. split; [reflexivity|]. rewrite app_length, tokens_app, rev_app_distr. cbn [skipn length tokens rev app]. rewrite Nat.add_assoc. reflexivity.
Qed.

(** ** Tags *)
Lemma match_space_head b t : (xml_match_whitespace (b :: t) =? 0) = negb (is_xml_whitespace b).
Proof. unfold xml_match_whitespace. rewrite length_if_eq. cbn [prefix_len]. destruct (is_xml_whitespace b); reflexivity. Qed.
Lemma name_byte b : (128 <= b \/ xml_name_char b /\ b <> 45)%N -> is_xml_whitespace b = false /\ (b <> 62 /\ b <> 61 /\ b <> 47 /\ b <> 63 /\ b <> 33 /\ b <> 91 /\ b <> 60 /\ b <> 38)%N.
Proof.
  intros H. split; [apply not_true_iff_false; rewrite space_iff; unfold xml_space; cbn [In]|]; unfold xml_name_char, xml_name_start_char in H; lia.
Qed.
Ltac stop_tac := intros b t H; destruct (name_byte b H) as (H0 & H1 & H2 & H3 & H4 & H5 & H6 & H7 & H8); apply N.eqb_neq in H1, H2, H3, H4, H5, H6, H7, H8;
  rewrite match_space_head, H0; cbn [starts_with_ch starts_with bs]; cbn -[N.eqb]; rewrite ?H1, ?H2, ?H3, ?H4, ?H5, ?H6; reflexivity.
Lemma tag_name_stop : name_stop xml_tag_stop. Proof. unfold xml_tag_stop. stop_tac. Qed.
Lemma attribute_name_stop : name_stop xml_attribute_stop. Proof. unfold xml_attribute_stop. stop_tac. Qed.
Lemma end_name_stop : name_stop xml_end_stop. Proof. unfold xml_end_stop. stop_tac. Qed.
Lemma pi_name_stop : name_stop xml_pi_stop. Proof. unfold xml_pi_stop. stop_tac. Qed.
Lemma space_stop w r : w <> [] -> Forall xml_space w -> negb (xml_match_whitespace (w ++ r) =? 0) = true.
Proof. intros Hn F. destruct F as [|c w Hc F]; [congruence|]. cbn [app]. rewrite match_space_head. apply space_iff in Hc. rewrite Hc. reflexivity. Qed.
Lemma attribute_end a r : xml_attributes xml_known_name a -> forall w e, Forall xml_space w -> In e [bs ">"; bs "/>"] -> xml_tag_stop (text a ++ w ++ e ++ r) = true.
Proof.
  intros Ha w e Fw He. unfold xml_tag_stop. destruct Ha as [|w1 a w2 w3 v l Hn F1 _ _ _ _ _].
  - destruct Fw as [|c w Hc Fw].
    + cbn [text map concat app]. destruct He as [<-|[<-|[]]]; reflexivity.
    + change (text [] ++ (c :: w) ++ e ++ r) with ((c :: w) ++ (e ++ r)). rewrite (space_stop (c :: w)) by (first [discriminate | constructor; assumption]). reflexivity.
  - rewrite text_cons, <- app_assoc, space_stop by assumption. reflexivity.
Qed.
Lemma name_no_space w r : xml_known_name w -> not_before xml_space (w ++ r).
Proof. intros H. destruct (name_ne w H) as (b & t & -> & Hb). apply not_before_cons'. destruct (name_byte b Hb) as [K _]. rewrite <- space_iff. congruence. Qed.
Lemma value_no_space v r : xml_value v -> not_before xml_space (text v ++ r).
Proof. intros [q b Hq _]. rewrite text_cons. destruct Hq as [->| ->]; nospace. Qed.
Lemma does_attribute a w1 w2 v rest : xml_known_name a -> Forall xml_space w1 -> Forall xml_space w2 -> xml_value v -> fits (text ((a, Some hl_markup_attr) :: (w1, None) :: (bs "=", Some hl_symbol_punc) :: (w2, None) :: v) ++ rest) ->
  does xml_expect_attribute tt ((a, Some hl_markup_attr) :: (w1, None) :: (bs "=", Some hl_symbol_punc) :: (w2, None) :: v) rest true tt.
Proof.
  intros Ha F1 F2 Hv Hf. unfold xml_expect_attribute. rewrite text_cons, <- app_assoc in Hf.
  eapply does_cons; [apply does_name; [apply attribute_name_stop|exact Ha| |exact Hf]|].
  { rewrite text_cons, <- app_assoc. unfold xml_attribute_stop. destruct w1 as [|c w1]; [reflexivity|]. rewrite space_stop by (first [discriminate | assumption]). reflexivity. }
  eapply does_cons; [apply does_space; [exact F1|]; rewrite text_cons; nospace|].
  apply does_get. rewrite text_cons. cbn [bs app]. change (starts_with_ch (bs "=" ++ text ((w2, None) :: v) ++ rest) (ch "=")) with true.
  match goal with |- context [starts_with_ch ?x (ch "=")] => change (starts_with_ch x (ch "=")) with true end. cbn [negb].
  eapply does_cons; [apply does_emit; [reflexivity|discriminate]|]. eapply does_cons; [apply does_space; [exact F2|apply value_no_space; exact Hv]|]. apply does_value. exact Hv.
Qed.
Lemma does_attributes a w e r : xml_attributes xml_known_name a -> Forall xml_space w -> In e [bs ">"; bs "/>"] -> fits (text a ++ w ++ e ++ r) ->
  iterates xml_tag_body tt (e ++ r) tt tt tt (a ++ [(w, None)]).
Proof.
  intros Ha Fw He. assert (Hne : exists c t, e ++ r = c :: t /\ ~ xml_space c) by (destruct He as [<-|[<-|[]]]; eexists _, _; (split; [reflexivity|]); unfold xml_space; cbn [In]; intros K; intuition discriminate).
  assert (Hes : starts_with_ch (e ++ r) (ch ">") || starts_with (e ++ r) (bs "/>") = true) by (destruct He as [<-|[<-|[]]]; reflexivity).
  induction Ha as [|w0 a w1 w2 v l Hn F0 Ha F1 F2 Hv Hl IH]; intros Hf.
  - apply iterates_end. cbn [app]. unfold xml_tag_body. destruct Hne as (c & t & E & Hc). apply does_eof; [rewrite E; intros K; apply app_eq_nil in K as [_ K]; discriminate|].
    eapply does_last; [apply does_space; [exact Fw|rewrite E; apply not_before_cons'; exact Hc]|]. apply does_get. cbn [text map concat app]. rewrite Hes. apply does_ret.
  - set (p := (w0, None) :: (a, Some hl_markup_attr) :: (w1, None) :: (bs "=", Some hl_symbol_punc) :: (w2, None) :: v).
    match goal with |- iterates _ _ _ _ _ _ ?z => replace z with (p ++ (l ++ [(w, None)])) by (unfold p; cbn [app]; rewrite <- app_assoc; reflexivity) end.
    change ((w0, None) :: (a, Some hl_markup_attr) :: (w1, None) :: (bs "=", Some hl_symbol_punc) :: (w2, None) :: v ++ l) with (p ++ l) in Hf. rewrite text_app, <- app_assoc in Hf.
    eapply iterates_more; [| |apply IH; exact (fits_app _ _ Hf)].
    + unfold p. unfold p in Hf. rewrite text_cons, <- app_assoc in Hf. unfold xml_tag_body. apply does_eof; [rewrite text_cons; destruct w0; [congruence|discriminate]|].
      eapply does_cons; [apply does_space; [exact F0|rewrite text_cons, <- app_assoc; apply name_no_space; exact Ha]|]. apply does_get.
      destruct (name_ne a Ha) as (b & t & Eb & Hb). destruct (name_byte b Hb) as (_ & B1 & _ & B2 & _). rewrite text_cons, Eb. cbn [app starts_with_ch starts_with bs]. apply N.eqb_neq in B1, B2.
      change (ch ">") with 62%N. change (bs "/>") with [47; 62]%N. cbn [starts_with]. rewrite B1, B2. cbn [andb orb]. subst a.
      eapply does_last; [apply does_attribute; try assumption|cbn [negb]; apply does_ret]. apply fits_app in Hf. rewrite text_app, text_one, <- !app_assoc. exact Hf.
    + unfold p. rewrite text_cons. destruct w0; [congruence|discriminate].
Qed.
Lemma does_start_tag p rest : xml_start_tag xml_known_name p -> fits (text p ++ rest) -> does xml_expect_start_tag tt p rest true tt.
Proof.
  intros Hp Hf. destruct Hp as [t a w e Ht Ha Fw He]. unfold xml_expect_start_tag. rewrite text_cons, <- app_assoc in Hf. apply fits_app in Hf. rewrite text_cons, text_app, text_cons, text_one, <- !app_assoc in Hf. apply does_get. match goal with |- context [starts_with_ch ?x (ch "<")] => change (starts_with_ch x (ch "<")) with true end. cbn [negb].
  eapply does_cons; [apply does_emit; [reflexivity|discriminate]|]. eapply does_cons.
  { rewrite text_app, text_cons, text_one, <- !app_assoc. apply does_name; [apply tag_name_stop|exact Ht| |exact Hf]. apply attribute_end; assumption. }
  destruct (name_ne t Ht) as (b & u & Eb & _). rewrite (proj2 (Nat.eqb_neq _ _)) by (rewrite Eb; cbn; lia).
  change [(w, None); (e, Some hl_symbol_punc)] with ([(w, @None N)] ++ [(e, Some hl_symbol_punc)]). rewrite app_assoc. eapply does_bind; [rewrite text_one; apply does_loop, does_attributes; try assumption; exact (fits_app _ _ Hf)|].
  apply does_get. rewrite text_one. destruct He as [<-|[<-|[]]].
  - match goal with |- context [starts_with_ch ?x (ch ">")] => change (starts_with_ch x (ch ">")) with true end. cbn [negb]. eapply does_last; [apply does_emit; [reflexivity|discriminate]|]. apply does_ret.
  - match goal with |- context [starts_with_ch ?x (ch ">")] => change (starts_with_ch x (ch ">")) with false end. match goal with |- context [starts_with ?x (bs "/>")] => change (starts_with x (bs "/>")) with true end. cbn [when].
    eapply does_last; [apply does_emit; [reflexivity|discriminate]|]. apply does_ret.
Qed.
Lemma does_end_tag t w rest : xml_known_name t -> Forall xml_space w -> let p := [(bs "</", Some hl_symbol_punc); (t, Some hl_markup_tag); (w, None); (bs ">", Some hl_symbol_punc)] in fits (text p ++ rest) -> does xml_expect_end_tag tt p rest true tt.
Proof.
  intros Ht Fw p Hf. unfold p in *. unfold xml_expect_end_tag. rewrite text_cons, <- app_assoc in Hf. apply fits_app in Hf. rewrite text_cons, text_cons, text_one, <- !app_assoc in Hf. apply does_get. match goal with |- context [starts_with ?x (bs "</")] => change (starts_with x (bs "</")) with true end. cbn [negb].
  eapply does_cons; [apply does_emit; [reflexivity|discriminate]|]. eapply does_cons.
  { rewrite text_cons, text_one, <- app_assoc. apply does_name; [apply end_name_stop|exact Ht| |exact Hf]. unfold xml_end_stop. destruct w as [|c w]; [reflexivity|]. rewrite space_stop by (first [discriminate|assumption]). reflexivity. }
  destruct (name_ne t Ht) as (b & u & Eb & _). rewrite (proj2 (Nat.eqb_neq _ _)) by (rewrite Eb; cbn; lia). eapply does_cons; [apply does_space; [exact Fw|rewrite text_one; nospace]|].
  apply does_get. match goal with |- context [starts_with_ch ?x (ch ">")] => change (starts_with_ch x (ch ">")) with true end. cbn [when]. eapply does_last; [apply does_emit; [reflexivity|discriminate]|]. apply does_ret.
Qed.

(** ** Comments, processing instructions, CDATA sections, text *)
Lemma comment_loop_exact t rest : forall len, ~ contains (t ++ bs "-") (bs "--") -> xml_comment_loop (t ++ bs "-->" ++ rest) len = mk_enclosed (len + length t + 3) true.
Proof.
  induction t as [|c t IH]; intros len H; cbn [app].
  - change (bs "-->" ++ rest) with (45 :: 45 :: 62 :: rest)%N. cbn [xml_comment_loop]. change (starts_with (45 :: 45 :: 62 :: rest)%N (bs "-->")) with true. cbv iota. cbn [length]. rewrite Nat.add_0_r. reflexivity.
  - cbn [xml_comment_loop]. assert (E : starts_with (c :: t ++ bs "-->" ++ rest) (bs "--") = false).
    { apply not_true_iff_false. intros E. apply starts_with_app in E as [u E]. change (bs "--" ++ u) with (45 :: 45 :: u)%N in E. injection E as -> E. apply H. destruct t as [|d t]; [exists [], []; reflexivity|]. injection E as -> E. exists [], (t ++ bs "-"). reflexivity. }
    assert (E2 : starts_with (c :: t ++ bs "-->" ++ rest) (bs "-->") = false).
    { apply not_true_iff_false. intros E2. apply starts_with_app in E2 as [u E2]. apply not_true_iff_false in E. apply E. apply starts_with_app. exists (ch ">" :: u). exact E2. }
    rewrite E, E2, IH; [cbn [length]; f_equal; lia|]. intros (a & b & Eq). apply H. exists (c :: a), b. cbn [app]. rewrite Eq. reflexivity.
Qed.
Lemma does_comment t rest : ~ contains (t ++ bs "-") (bs "--") -> does xml_expect_comment tt ((bs "<!--", Some hl_comment_delim) :: opt_piece t hl_comment ++ [(bs "-->", Some hl_comment_delim)]) rest true tt.
Proof.
  intros H. unfold xml_expect_comment. apply does_get. rewrite text_cons, text_app, opt_piece_text, text_one, <- !app_assoc.
  unfold xml_match_comment. match goal with |- context [starts_with ?x (bs "<!--")] => change (starts_with x (bs "<!--")) with true; change (skipn 4 x) with (t ++ bs "-->" ++ rest) end. cbn [negb].
  rewrite comment_loop_exact by exact H. cbv zeta. cbn [en_length en_terminated]. rewrite (proj2 (Nat.eqb_neq _ _)) by lia. replace (4 + length t + 3 - 4 - 3) with (length t) by lia.
  eapply does_cons; [apply does_emit; [reflexivity|discriminate]|]. eapply does_bind; [apply does_opt; reflexivity|]. eapply does_last; [apply does_emit; [reflexivity|discriminate]|]. apply does_ret.
Qed.
Lemma no_comment r : starts_with r (bs "<!--") = false -> does xml_expect_comment tt [] r false tt.
Proof. intros H. unfold xml_expect_comment. apply does_get. cbn [text map concat app]. unfold xml_match_comment. rewrite H. apply does_ret. Qed.
Lemma pi_loop t rest : ~ contains t (bs "?>") -> does (hloop 1 xml_pi_body tt) tt [(t, None)] (bs "?>" ++ rest) tt tt.
Proof.
  intros H. assert (K : does (hloop 1 xml_pi_body tt) tt (map (fun c => ([c], None)) t) (bs "?>" ++ rest) tt tt).
  { apply does_loop. induction t as [|c t IH].
    - apply iterates_end. unfold xml_pi_body. apply does_get. apply does_ret.
    - cbn [map]. eapply (iterates_more _ _ _ _ tt tt [([c], None)]); [|discriminate|apply IH; intros (a & b & ->); apply H; exists (c :: a), b; reflexivity].
      unfold xml_pi_body. apply does_get. rewrite text_one. cbn [app]. assert (Et : text (map (fun c => ([c], @None N)) t) = t) by (clear; induction t as [|c t IH]; [reflexivity|cbn [map]; rewrite text_cons, IH; reflexivity]). rewrite Et.
      replace (starts_with (c :: t ++ bs "?>" ++ rest) (bs "?>")) with false; [eapply does_last; [apply does_advance; reflexivity|apply does_ret]|].
      symmetry. apply not_true_iff_false. intros E. apply starts_with_app in E as [u E]. change (bs "?>" ++ u) with (63 :: 62 :: u)%N in E. injection E as -> E. destruct t as [|d t]; [discriminate|]. injection E as -> E. apply H. exists [], t. reflexivity. }
  intros i o. specialize (K i o). assert (Et : text (map (fun c => ([c], @None N)) t) = t) by (clear; induction t as [|c t IH]; [reflexivity|cbn [map]; rewrite text_cons, IH; reflexivity]).
  assert (Eo : forall i, tokens i (map (fun c => ([c], @None N)) t) = []) by (clear; induction t as [|c t IH]; intros i; [reflexivity|cbn [map tokens]; apply IH]). rewrite Et, Eo in K. rewrite text_one. exact K.
Qed.
Lemma contains_ic s n : contains_ignore_case s n = true -> map lower n = n -> contains (map lower s) n.
Proof.
  intros H E. apply (proj2 (proj2 (proj2 (proj2 (proj2 C24_ignore_case))))) in H as (a & b & c & -> & Hb). rewrite E in Hb. exists (map lower a), (map lower c). rewrite !map_app, Hb. reflexivity.
Qed.
Lemma contains_app a b s : contains b s -> contains (a ++ b) s.
Proof. intros (u & v & ->). exists (a ++ u), v. rewrite <- app_assoc. reflexivity. Qed.
Lemma does_pi t w body rest : xml_known_name t -> Forall xml_space w -> (w = [] -> body = []) -> ~ contains body (bs "?>") -> ~ contains (map lower (firstn (length t) (w ++ body ++ bs "?>" ++ rest))) (bs "xml") ->
  let p := [(bs "<?", Some hl_symbol_punc); (t, Some hl_name_macro); (w, None); (body, None); (bs "?>", Some hl_symbol_punc)] in fits (text p ++ rest) -> does xml_expect_pi tt p rest true tt.
Proof.
  intros Ht Fw Hw Hb Hx p Hf. unfold p in *. unfold xml_expect_pi. rewrite text_cons, <- app_assoc in Hf. apply fits_app in Hf. rewrite !text_cons, <- !app_assoc in Hf. apply does_get. match goal with |- context [starts_with ?x (bs "<?")] => change (starts_with x (bs "<?")) with true end. cbn [negb].
  eapply does_cons; [apply does_emit; [reflexivity|discriminate]|]. eapply does_cons.
  { rewrite !text_cons, <- !app_assoc. apply does_name; [apply pi_name_stop|exact Ht| |exact Hf]. unfold xml_pi_stop. destruct w as [|c w]; [rewrite (Hw eq_refl); reflexivity|]. rewrite space_stop by (first [discriminate|assumption]). reflexivity. }
  destruct (name_ne t Ht) as (b & u & Eb & _). rewrite (proj2 (Nat.eqb_neq _ _)) by (rewrite Eb; cbn; lia). apply does_get. rewrite !text_cons, <- !app_assoc. change (text [] ++ rest) with rest.
  replace (contains_ignore_case _ _) with false.
  2:{ symmetry. apply not_true_iff_false. intros E. apply contains_ic in E; [exact (Hx E)|reflexivity]. }
  set (v := w ++ body). assert (Hv : ~ contains v (bs "?>")).
  { unfold v. clear -Fw Hb. induction Fw as [|c w Hc _ IH]; [exact Hb|]. intros (a & d & E). destruct a as [|x a]; [|injection E as -> E; apply IH; exists a, d; exact E]. change (bs "?>" ++ d) with (63 :: 62 :: d)%N in E. injection E as -> E. unfold xml_space in Hc. cbn [In] in Hc. intuition discriminate. }
  assert (D : does (xml_expect_whitespace ;; hloop 1 xml_pi_body tt ;; let! r := get_rem in when (starts_with r (bs "?>")) (emit_and_advance 2 hl_symbol_punc) ;; ret true) tt [(v, None); (bs "?>", Some hl_symbol_punc)] rest true tt).
  { set (n := prefix_len is_xml_whitespace v).
    assert (Ev : v = firstn n v ++ skipn n v) by (symmetry; apply firstn_skipn). assert (Sp1 : Forall (fun c => is_xml_whitespace c = true) (firstn n v)) by apply prefix_len_all.
    assert (Sp2 : forall c x, skipn n v = c :: x -> is_xml_whitespace c = false).
    { unfold n. clear. induction v as [|d v IH]; intros c x E; [discriminate|]. cbn [prefix_len] in E. destruct (is_xml_whitespace d) eqn:Ed; [exact (IH _ _ E)|]. injection E as -> _. exact Ed. }
    assert (D : does (xml_expect_whitespace ;; hloop 1 xml_pi_body tt ;; let! r := get_rem in when (starts_with r (bs "?>")) (emit_and_advance 2 hl_symbol_punc) ;; ret true) tt [(firstn n v, None); (skipn n v, None); (bs "?>", Some hl_symbol_punc)] rest true tt).
    { eapply does_cons; [apply does_space|].
      - eapply Forall_impl; [|exact Sp1]. intros c. apply space_iff.
      - rewrite text_cons, text_one, <- app_assoc. destruct (skipn n v) as [|c x] eqn:Ec; [cbn [app]; change (bs "?>" ++ rest) with (63 :: 62 :: rest)%N; nospace|]. cbn [app]. apply not_before_cons'. rewrite <- space_iff. specialize (Sp2 c _ eq_refl). congruence.
      - eapply does_cons; [rewrite text_one; apply pi_loop; intros K; apply Hv; rewrite Ev; apply contains_app; exact K|]. apply does_get. rewrite text_one. change (starts_with (bs "?>" ++ rest) (bs "?>")) with true. cbn [when]. eapply does_last; [apply does_emit; [reflexivity|discriminate]|]. apply does_ret. }
    rewrite Ev. apply does_join. exact D. }
  apply does_join. exact D.
Qed.
Lemma no_pi r : starts_with r (bs "<?") = false -> does xml_expect_pi tt [] r false tt.
Proof. intros H. unfold xml_expect_pi. apply does_get. cbn [text map concat app]. rewrite H. apply does_ret. Qed.
Lemma does_cdata t rest : ~ contains t (bs "]]>") -> does xml_expect_cdata tt [(bs "<![CDATA[", Some hl_name_macro); (t, None); (bs "]]>", Some hl_name_macro)] rest true tt.
Proof.
  intros H. unfold xml_expect_cdata. apply does_get. rewrite !text_cons, <- !app_assoc. change (text [] ++ rest) with rest.
  assert (E : match_cdata (bs "<![CDATA[" ++ t ++ bs "]]>" ++ rest) = mk_enclosed (12 + length t) true).
  { unfold match_cdata, match_enclosed. change (starts_with (bs "<![CDATA[" ++ t ++ bs "]]>" ++ rest) (bs "<![CDATA[")) with true. cbn [negb]. unfold find_str. change (skipn (length (bs "<![CDATA[")) (bs "<![CDATA[" ++ t ++ bs "]]>" ++ rest)) with (t ++ bs "]]>" ++ rest).
    assert (F : find_sub (t ++ bs "]]>" ++ rest) (bs "]]>") = Some (length t)).
    { clear -H. induction t as [|c t IH]; [reflexivity|]. cbn [app find_sub length]. replace (starts_with (c :: t ++ bs "]]>" ++ rest) (bs "]]>")) with false.
      - rewrite IH; [reflexivity|]. intros (a & b & ->). apply H. exists (c :: a), b. reflexivity.
      - symmetry. apply not_true_iff_false. intros E. apply starts_with_app in E as [u E]. change (bs "]]>" ++ u) with (93 :: 93 :: 62 :: u)%N in E. change (bs "]]>" ++ rest) with (93 :: 93 :: 62 :: rest)%N in E. injection E as -> E. destruct t as [|d [|e t]]; cbn [app] in E; [discriminate|discriminate|]. injection E as -> -> E. apply H. exists [], t. reflexivity. }
    rewrite F. cbn [option_map]. f_equal. change (length (bs "]]>")) with 3. change (length (bs "<![CDATA[")) with 9. replace (length _ <? 9) with false by reflexivity. f_equal. lia. }
  rewrite E. cbv zeta. cbn [en_length en_terminated]. rewrite (proj2 (Nat.eqb_neq _ _)) by lia. replace (12 + length t - 9 - 3) with (length t) by lia.
  eapply does_cons; [apply does_emit; [reflexivity|discriminate]|]. eapply does_cons; [apply does_advance; reflexivity|]. eapply does_last; [apply does_emit; [reflexivity|discriminate]|]. apply does_ret.
Qed.
Lemma no_cdata r : starts_with r (bs "<![CDATA[") = false -> does xml_expect_cdata tt [] r false tt.
Proof. intros H. unfold xml_expect_cdata. apply does_get. cbn [text map concat app]. unfold match_cdata, match_enclosed. rewrite H. apply does_ret. Qed.
Lemma no_end r : starts_with r (bs "</") = false -> does xml_expect_end_tag tt [] r false tt.
Proof. intros H. unfold xml_expect_end_tag. apply does_get. cbn [text map concat app]. rewrite H. apply does_ret. Qed.
Lemma no_start r : starts_with_ch r (ch "<") = false -> does xml_expect_start_tag tt [] r false tt.
Proof. intros H. unfold xml_expect_start_tag. apply does_get. cbn [text map concat app]. rewrite H. apply does_ret. Qed.

(** ** Content *)
Lemma does_tt {A} (m : M unit A) s p rest x : does m s p rest x tt -> s = tt.
Proof. destruct s. reflexivity. Qed.
Ltac skip_ lem := eapply does_nil; [apply lem; try reflexivity|cbn iota].
Ltac done_ lem := eapply does_last; [apply lem; try eassumption|apply does_ret].
Lemma start_tag_head p : xml_start_tag xml_known_name p -> exists b t, text p = 60%N :: b :: t /\ b <> 33%N /\ b <> 63%N /\ b <> 47%N.
Proof.
  intros [t a w e Ht _ _ _]. destruct (name_ne t Ht) as (b & u & -> & Hb). destruct (name_byte b Hb) as (_ & K1 & K2 & K3 & K4 & K5 & _). eexists b, _. rewrite !text_cons. split; [reflexivity|auto].
Qed.
Lemma not_prefix2 b t x y z : b <> y -> starts_with (x :: b :: t) (x :: y :: z) = false.
Proof. intros H. cbn [starts_with]. rewrite N.eqb_refl. apply N.eqb_neq in H. rewrite H. reflexivity. Qed.
Lemma content_exact p rest : xml_content_lexeme xml_known_name p rest -> fits (text p ++ rest) -> does xml_content tt p rest tt tt.
Proof.
  intros Hp Hf. unfold xml_content. destruct Hp as [p rest Hm|t rest Hn F R|p rest Hr|t rest H|p rest H|t w rest Ht Fw].
  - destruct Hm as [t rest H|t w body rest Ht Fw Hw Hb Hx].
    + done_ does_comment.
    + skip_ no_comment. skip_ no_cdata. done_ does_pi.
  - destruct t as [|c t]; [congruence|]. assert (Hc : (c =? 60)%N = false /\ (c =? 38)%N = false) by (inversion F as [|? ? [K1 K2]]; subst; split; apply N.eqb_neq; assumption). destruct Hc as [Hc1 Hc2].
    assert (NP : forall x, starts_with (text [(c :: t, @None N)] ++ rest) (60%N :: x) = false) by (intros x; rewrite text_one; cbn [app starts_with]; rewrite Hc1; reflexivity).
    skip_ no_comment; [apply NP|]. skip_ no_cdata; [apply NP|]. skip_ no_pi; [apply NP|]. skip_ no_end; [apply NP|]. skip_ no_start; [rewrite text_one; exact Hc1|].
    apply (does_last _ _ tt _ rest true tt tt tt); [|apply does_ret]. unfold xml_expect_text. apply does_get. rewrite text_one. cbv zeta. unfold xml_match_text. rewrite length_if_not_eq, prefix_len_exact.
    + cbn [length Nat.eqb negb]. eapply does_last; [apply does_advance; reflexivity|apply does_ret].
    + eapply Forall_impl; [|exact F]. intros d [K1 K2]. apply N.eqb_neq in K1, K2. rewrite K1, K2. reflexivity.
    + eapply not_before_impl; [|exact R]. intros d K. apply negb_true_iff, orb_false_iff in K. rewrite !N.eqb_neq in K. exact K.
  - pose proof (does_reference p rest Hr) as D. destruct Hr as [body r Hb]. skip_ no_comment. skip_ no_cdata. skip_ no_pi. skip_ no_end. skip_ no_start.
    apply (does_last _ _ tt _ r true tt tt tt); [|apply does_ret]. unfold xml_expect_text. apply does_get. rewrite text_one. cbv zeta.
    match goal with |- context [xml_match_text ?x] => assert (E : xml_match_text x = 0) by (unfold xml_match_text; rewrite length_if_not_eq; reflexivity); rewrite E end. cbn [Nat.eqb negb].
    match goal with |- context [starts_with_ch ?x (ch "&")] => change (starts_with_ch x (ch "&")) with true end. cbv iota. eapply does_last; [exact D|]. cbn [negb when]. eapply does_last; apply does_ret.
  - skip_ no_comment. done_ does_cdata.
  - destruct (start_tag_head p H) as (b & u & E & N1 & N2 & N3).
    skip_ no_comment; [rewrite E; apply (not_prefix2 b); exact N1|]. skip_ no_cdata; [rewrite E; apply (not_prefix2 b); exact N1|]. skip_ no_pi; [rewrite E; apply (not_prefix2 b); exact N2|]. skip_ no_end; [rewrite E; apply (not_prefix2 b); exact N3|]. done_ does_start_tag.
  - skip_ no_comment. skip_ no_cdata. skip_ no_pi. done_ does_end_tag.
Qed.
Lemma content_head p rest : xml_content_lexeme xml_known_name p rest -> text p <> [].
Proof.
  intros [q r Hm|t r Hn F R|q r Hr|t r H|q r H|t w r Ht Fw]; try (rewrite text_cons; discriminate).
  - destruct Hm; rewrite text_cons; discriminate.
  - rewrite text_one. exact Hn.
  - destruct Hr. rewrite text_one. discriminate.
  - destruct (start_tag_head q H) as (b & u & -> & _). discriminate.
Qed.
Definition content_step (_ : unit) (p : list piece) (rest : str) (_ : unit) : Prop := xml_content_lexeme xml_known_name p rest /\ fits (text p ++ rest).
Lemma content_sequence l : sequence (fun _ p rest _ => xml_content_lexeme xml_known_name p rest) tt l -> fits (text l) -> sequence content_step tt l.
Proof.
  intros H. induction H as [s|s p s' l Hp H IH]; intros Hf; [constructor|]. rewrite text_app in Hf. apply (sequence_lexeme content_step s p s' l); [split; assumption|]. apply IH. exact (fits_app _ _ Hf).
Qed.

(** ** Documents *)
(** The prolog loop consumes comments, instructions and white space, then the content follows. *)
Lemma xml_split l : xml_document xml_known_name l -> fits (text l) -> exists a b, l = a ++ b /\ iterates xml_prolog_body tt (text b) tt tt tt a /\ sequence content_step tt b
  /\ starts_with (text b) (bs "<!") = false.
Proof.
  intros H. induction H as [p l Hp H IH|p l Hp H|]; intros Hf.
  - rewrite text_app in Hf. destruct (IH (fits_app _ _ Hf)) as (a & b & -> & Ha & Hb & Hs). exists (p ++ a), b. split; [apply app_assoc|]. split; [|split; assumption]. rewrite text_app in Hp, Hf. unfold xml_prolog_body in *. destruct Hp as [Hp|Hp].
    + remember (text a ++ text b) as rest eqn:Er. destruct Hp as [t rest Hc|t w body rest Ht Fw Hw Hbd Hx].
      * eapply iterates_more; [|rewrite text_cons; discriminate|exact Ha]. skip_ no_pi. done_ does_comment.
      * eapply iterates_more; [|rewrite text_cons; discriminate|exact Ha]. rewrite <- Er. eapply does_last; [apply does_pi; assumption|apply does_ret].
    + remember (text a ++ text b) as rest eqn:Er. destruct Hp as [w rest Hw Fw R]. eapply iterates_more; [|rewrite text_one; exact Hw|exact Ha]. rewrite <- Er. destruct Fw as [|c w Hc Fw]; [congruence|].
      assert (NP : forall x, starts_with (text [(c :: w, @None N)] ++ rest) (60%N :: x) = false) by (intros x; rewrite text_one; cbn [app starts_with]; replace (c =? 60)%N with false; [reflexivity|]; symmetry; apply N.eqb_neq; unfold xml_space in Hc; cbn [In] in Hc; lia).
      skip_ no_pi; [apply NP|]. skip_ no_comment; [apply NP|]. eapply does_last; [apply does_space; [constructor; assumption|exact R]|]. apply does_ret.
  - rewrite text_app in Hf. pose proof (sequence_lexeme content_step tt p tt l (conj (xml_content_start _ _ _ Hp) Hf) (content_sequence l H (fits_app _ _ Hf))) as Hs.
    destruct (start_tag_head p Hp) as (b & u & E & N1 & N2 & N3). exists [], (p ++ l). split; [reflexivity|]. assert (E2 : text (p ++ l) = 60%N :: b :: u ++ text l) by (rewrite text_app, E; reflexivity). split; [|split; [exact Hs|rewrite E2; apply (not_prefix2 b); exact N1]].
    apply iterates_end. rewrite E2. unfold xml_prolog_body. skip_ no_pi; [apply (not_prefix2 b); exact N2|]. skip_ no_comment; [apply (not_prefix2 b); exact N1|].
    apply (does_last _ _ tt _ _ false tt _ tt); [|apply does_ret]. eapply (does_same _ _ [([], None)]); [reflexivity|reflexivity|]. apply (does_space []); [constructor|]. nospace.
  - exists [], []. split; [reflexivity|]. split; [|split; [constructor|reflexivity]]. apply iterates_end. unfold xml_prolog_body. skip_ no_pi. skip_ no_comment.
    apply (does_last _ _ tt _ _ false tt _ tt); [|apply does_ret]. eapply (does_same _ _ [([], None)]); [reflexivity|reflexivity|]. apply (does_space []); [constructor|]. intros c Hc. discriminate.
Qed.
(** C121: a document with names the highlighter knows, without XML declaration and document type, gets exactly the expected tokens. *)
Theorem C121_xml_document : forall l, xml_document xml_known_name l -> fits (text l) -> (~ exists t, text l = bs "<?xml" ++ t) -> tokenizes highlight_xml l.
Proof.
  intros l Hl Hf Hx strict. destruct (xml_split l Hl Hf) as (a & b & -> & Ha & Hb & Hs). unfold highlight_xml, run.
  assert (W : wp (xml_expect_prolog ;; while_rem xml_content) (fun _ st' => rops st' = rev (tokens 0 (a ++ b))) (mk_hst (text (a ++ b)) 0 [] tt)).
  { apply wp_bind. assert (D : does xml_expect_prolog tt a (text b) tt tt).
    { unfold xml_expect_prolog. eapply does_nil; [|eapply does_last; [apply does_loop; exact Ha|]].
      - unfold xml_expect_xml_decl. apply does_get. change (text [] ++ text a ++ text b) with (text a ++ text b). rewrite <- text_app. replace (starts_with (text (a ++ b)) (bs "<?xml")) with false; [apply does_ret|]. symmetry. apply not_true_iff_false. rewrite starts_with_app. exact Hx.
      - apply (does_last _ _ tt _ _ false tt _ tt); [|apply does_ret]. unfold xml_expect_doctype. apply does_get. change (text [] ++ text b) with (text b). rewrite Hs. apply does_ret. }
    rewrite text_app. eapply wp_mono; [apply D|]. cbn beta. intros ? ? [_ ->]. eapply wp_mono.
    - apply (while_states_wp (fun _ => tt) content_step xml_content) with (s := tt); [| |exact Hb].
      + intros s p r s' [H _]. eapply content_head. exact H.
      + intros s p r s' i o [H F]. destruct s. eapply wp_mono; [apply (content_exact p r H F)|]. cbn beta. intros ? ? [_ ->]. reflexivity.
    - cbn beta. intros _ st' ->. rewrite tokens_app, rev_app_distr, app_nil_r. reflexivity. }
  unfold wp in W. unfold bindM in *. destruct (xml_expect_prolog _) as [[[] st1]|]; [|contradiction]. destruct (while_rem xml_content st1) as [[[] st2]|]; [|contradiction]. unfold ret. rewrite W, rev_involutive. reflexivity.
Qed.
Print Assumptions C121_xml_document.
