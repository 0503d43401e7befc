(** * Properties of the XML highlighter *)
From Coq Require Import List NArith ZArith Bool Arith Lia.
From Verif Require Import M_Base L_Base S_Tokens M_Utf8 L_Utf8 L_Any P_Utf8 M_Emit S_Ops L_Emit M_Types M_Chars S_Chars P_Chars M_Parse S_Parse L_Parse P_Parse
  M_Api M_Highlighter S_Highlight L_Highlighter P_LangCpp L_Auto M_LangHtml S_LangHtml P_LangHtml M_LangXml.
Import ListNotations.
Notation anyx := (anything).
Lemma xml_options : good_options xml_number_options.
Proof. split; [left; reflexivity|]. split; [constructor|]. discriminate. Qed.
#[local] Hint Resolve xml_options : good_opts.

(** ** The matchers *)
Lemma xml_name_le s : exists n, xml_match_name s = Ok n /\ n <= length s.
Proof.
  induction s as [|c t (n & E & L)]; [exists 0; split; [reflexivity|cbn; lia]|]. cbn [xml_match_name].
  destruct (replacement_any (c :: t)) as (d & m & -> & _); [discriminate|]. cbn [bind fst]. destruct (is_xml_name d); cbn [negb]; [|exists 0; split; [reflexivity|lia]].
  rewrite E. cbn [bind]. exists (S n). split; [reflexivity|cbn [length]; lia].
Qed.
Lemma first_length_starts s l : first_length (starts_with s) l <= length s.
Proof. induction l as [|x l IH]; cbn [first_length]; [lia|]. destruct (starts_with s x) eqn:E; [apply starts_with_len; exact E|exact IH]. Qed.
Lemma first_length_word w l : first_length (str_eqb w) l <= length w.
Proof. induction l as [|x l IH]; cbn [first_length]; [lia|]. destruct (str_eqb w x) eqn:E; [apply str_eqb_eq in E; subst; lia|exact IH]. Qed.
Lemma att_type_le s : xml_match_att_type s <= length s.
Proof. unfold xml_match_att_type. cbv zeta. pose proof (first_length_word (firstn (length_if_not s (fun c => is_xml_whitespace c || (c =? ch ">")%N)) s) xml_att_types) as H. rewrite firstn_length in H. lia. Qed.
Lemma xml_comment_loop_ok s : forall len, len <= en_length (xml_comment_loop s len) <= len + length s /\ (en_terminated (xml_comment_loop s len) = true -> len + 3 <= en_length (xml_comment_loop s len)).
Proof.
  induction s as [|c t IH]; intros len; cbn [xml_comment_loop]; [cbn; split; [lia|discriminate]|].
  destruct (starts_with (c :: t) (bs "-->")) eqn:E; [apply starts_with_len in E; change (length (bs "-->")) with 3 in E; cbn [en_length en_terminated]; lia|].
  destruct (starts_with (c :: t) (bs "--")); [cbn [en_length en_terminated]; split; [lia|discriminate]|]. specialize (IH (len + 1)) as [IH1 IH2]. cbn [length]. split; [lia|]. intros T. specialize (IH2 T). lia.
Qed.
Lemma xml_comment_len s : en_length (xml_match_comment s) = 0 \/ 4 <= en_length (xml_match_comment s) <= length s /\ (en_terminated (xml_match_comment s) = true -> 7 <= en_length (xml_match_comment s)).
Proof.
  unfold xml_match_comment. destruct (starts_with s (bs "<!--")) eqn:E; cbn [negb]; [|left; reflexivity]. right. apply starts_with_len in E. change (length (bs "<!--")) with 4 in E.
  pose proof (xml_comment_loop_ok (skipn 4 s) 4) as [H1 H2]. rewrite skipn_length in H1. split; [lia|exact H2].
Qed.
Lemma xml_reference_le c s : exists n, xml_match_reference c s = Ok n /\ n <= length s.
Proof.
  unfold xml_match_reference. destruct (starts_with_ch s c); cbn [negb]; [|exists 0; split; [reflexivity|lia]]. destruct (find_ch s (ch ";") 1) as [r|] eqn:E; [|exists 0; split; [reflexivity|lia]].
  apply find_if_from_Some in E as (B & _). destruct (xml_name_le (substr s 1 (r - 1))) as (n & -> & _). cbn [bind]. destruct (n =? _); [exists (r + 1)|exists 0]; split; try reflexivity; lia.
Qed.

(** ** The highlighter *)
Lemma advance_0 {S} (st : hst S) : advance 0 st = Ok (tt, st).
Proof. unfold advance. cbn [Nat.leb skipn]. rewrite Nat.add_0_r. destruct st; reflexivity. Qed.
Lemma x_whitespace st : wp xml_expect_whitespace (fun b st' => steps anyx (xml_match_whitespace (rem st)) st st' /\ b = negb (xml_match_whitespace (rem st) =? 0)) st.
Proof.
  unfold xml_expect_whitespace. apply wp_bind, wp_get_rem, wp_bind. cbv zeta. pose proof (length_if_le (rem st) is_xml_whitespace) as L. fold (xml_match_whitespace (rem st)) in L.
  begin_steps anyx st. go1. go1. split; [assumption|reflexivity].
Qed.
Lemma x_name ty stop st : wp (xml_expect_name ty stop) (fun n st' => steps anyx n st st' /\ (n = 0 -> rem st = [] \/ stop (rem st) = true)) st.
Proof.
  unfold xml_expect_name. apply wp_hloop with (mu := fun v st1 => length (rem st1) - snd v)
    (Inv := fun v st1 => exists k, steps anyx k st st1 /\ fst v = k + snd v /\ snd v <= length (rem st1)).
  - exists 0. split; [apply steps_refl|]. cbn. lia.
  - cbn [snd]. lia.
  - intros [total piece] st1 (k & H & E & L). cbn [fst snd] in *. unfold xml_name_body. go1. go1.
    assert (Z : total = 0 -> rem st1 = rem st) by (intros ->; assert (k = 0) by lia; subst k; rewrite (steps_rem _ _ _ _ H); reflexivity).
    go1.
    { unfold xml_flush. go1. go1. go1. replace total with (k + piece) by lia. split; [assumption|]. intros Z0. left. rewrite <- (Z ltac:(lia)). apply length_zero_iff_nil. hlia. }
    go1. go1. go1.
    { unfold xml_flush. go1. go1. go1. replace total with (k + piece) by lia. split; [assumption|]. intros Z0. right. assert (piece = 0) by lia. subst piece. rewrite <- (Z ltac:(lia)). assumption. }
    go1. bool_hyps. destruct (replacement_any (skipn piece (rem st1))) as (d & m & E2 & B1 & B2). { intros E0. apply (f_equal (@length N)) in E0. rewrite skipn_length in E0. cbn in E0. lia. }
    rewrite skipn_length in B1. eapply wp_lift; [exact E2|]. cbn [fst snd]. go1.
    + unfold xml_flush. go1. go1. go1. go1. go1. cbn beta. split; [|cbn [snd]; hlia]. eexists. split; [eassumption|]. cbn [fst snd]. hlia.
    + go1. cbn beta. split; [|cbn [snd]; lia]. exists k. split; [exact H|]. cbn [fst snd]. lia.
Qed.
Lemma x_reference st : wp xml_expect_reference (attempt anyx st) st.
Proof. begin_steps anyx st. unfold xml_expect_reference. go1. go1. cbv zeta. pose proof (reference_le (rem st)). go; fin. Qed.
Lemma x_piece piece st : piece <= length (rem st) -> wp (xml_highlight_piece piece) (fun _ st' => steps anyx piece st st') st.
Proof.
  intros L. unfold xml_highlight_piece. apply wp_bind, wp_get_rem. apply wp_when; intros E.
  - bool_hyps. apply (wp_emit_adv anyx); [lia|]. auto.
  - apply andb_false_iff in E as [E|E]; bool_hyps; [subst; apply steps_refl|lia].
Qed.
Lemma x_value_tail quote st : starts_with_ch (rem st) quote = true ->
  wp (emit_and_advance 1 hl_string_delim ;; let! piece := hloop 2 (xml_value_body quote) 0 in xml_highlight_piece piece ;; let! r := get_rem in when (starts_with_ch r quote) (emit_and_advance 1 hl_string_delim) ;; ret true) (fun b st' => b = true /\ exists k, steps anyx k st st' /\ 0 < k) st.
Proof.
  intros Hq. begin_steps anyx st. go1. go1. go1.
  eapply wp_mono; [apply (wp_scan anyx 2 (xml_value_body quote) 0 (fun piece _ st2 => piece <= length (rem st2))); [lia|lia|]|].
  2:{ cbn beta. intros piece st2 (k & Hk & L). fuse. go1. eapply wp_mono; [apply x_piece; exact L|]. cbn beta. intros _ st3 Hp3. fuse. go; (split; [reflexivity|]); fin. }
  intros a k st1 Hs La _. clear - Hs La. unfold xml_value_body. go1. go1. go1; [go; fin|]. go1. go1. go1; [go; fin|]. go1. go1. cbv zeta. go1.
  - go1. eapply wp_mono; [apply x_piece; lia|]. cbn beta. intros _ st3 Hp3. fuse. bool_hyps. go; fin.
  - go1; [|go; bool_hyps; fin]. go1. eapply wp_mono; [apply x_piece; lia|]. cbn beta. intros _ st3 Hp3. pose proof (steps_rem _ _ _ _ Hp3) as R3. fuse. go1.
    unfold xml_expect_reference. go1. go1. cbv zeta. rewrite R3. bool_hyps. pose proof (reference_le (skipn a (rem st1))) as L3. rewrite <- R3 in L3 at 2. go1; [go; fin|]. bool_hyps. lia.
Qed.
Lemma x_value_quoted st : starts_with_ch (rem st) 39 || starts_with_ch (rem st) 34 = true -> wp xml_expect_value (fun b st' => b = true /\ exists k, steps anyx k st st' /\ 0 < k) st.
Proof. intros H. unfold xml_expect_value. apply wp_bind, wp_get_rem. cbv zeta. destruct (starts_with_ch (rem st) 39) eqn:E; [apply x_value_tail; exact E|]. cbn [orb] in H. rewrite H. apply x_value_tail. exact H. Qed.
Lemma x_value st : wp xml_expect_value (attempt anyx st) st.
Proof.
  destruct (starts_with_ch (rem st) 39 || starts_with_ch (rem st) 34) eqn:E; [eapply wp_mono; [apply x_value_quoted; exact E|]; cbn beta; intros b st' [-> H]; exact H|].
  apply orb_false_iff in E as [E1 E2]. unfold xml_expect_value. apply wp_bind, wp_get_rem. cbv zeta. rewrite E1, E2. apply wp_ret. reflexivity.
Qed.
Lemma x_comment st : wp xml_expect_comment (attempt anyx st) st.
Proof.
  unfold xml_expect_comment. begin_steps anyx st. go1. go1. cbv zeta. pose proof (xml_comment_len (rem st)) as L. set (e := xml_match_comment (rem st)) in *. go1; [go; fin|]. bool_hyps. destruct L as [L|[L T]]; [contradiction|].
  destruct (en_terminated e); [specialize (T eq_refl)|clear T]; go; fin.
Qed.
Lemma whitespace_twice s : xml_match_whitespace (skipn (xml_match_whitespace s) s) = 0.
Proof.
  unfold xml_match_whitespace. rewrite !length_if_eq. induction s as [|c s IH]; [reflexivity|]. cbn [prefix_len]. destruct (is_xml_whitespace c) eqn:E; [exact IH|]. cbn [skipn prefix_len]. rewrite E. reflexivity.
Qed.
Lemma x_space_then {A} (k : M unit A) (Q : A -> hst unit -> Prop) st : (forall st', steps anyx (xml_match_whitespace (rem st)) st st' -> wp k Q st') -> wp (xml_expect_whitespace ;; k) Q st.
Proof. intros H. apply wp_bind. eapply wp_mono; [apply x_whitespace|]. intros b st' [A0 _]. apply H. exact A0. Qed.
Ltac sp := apply x_space_then; intros ? ?; try fuse.
Ltac nm := cbn beta; eapply wp_mono; [apply x_name|cbn beta; intros ? ? [? ?]; try fuse].
Lemma x_pi st : wp xml_expect_pi (attempt anyx st) st.
Proof.
  unfold xml_expect_pi. begin_steps anyx st. go1. go1. go1; [go; fin|]. go1. go1. go1. nm. go1; [go; fin|]. go1. go1. go1; [go; fin|]. sp. go1.
  eapply wp_mono; [apply (wp_rounds anyx 1 xml_pi_body (fun _ _ _ => True)); [lia|]|].
  - intros j st1 Hj. unfold xml_pi_body. go1. go1. destruct (rem st1) eqn:E; [go; fin|]. go1; [go; fin|]. go1. go1. go1. fin.
  - cbn beta. intros _ st1 (j & Hj & _). fuse. go; fin.
Qed.
Lemma x_cdata st : wp xml_expect_cdata (attempt anyx st) st.
Proof.
  begin_steps anyx st. unfold xml_expect_cdata, match_cdata. go1. go1. cbv zeta.
  pose proof (match_enclosed_le (rem st) (bs "<![CDATA[") (bs "]]>")) as L1. pose proof (match_enclosed_prefix (rem st) (bs "<![CDATA[") (bs "]]>")) as L2. pose proof (match_enclosed_terminated (rem st) (bs "<![CDATA[") (bs "]]>")) as L3.
  set (e := match_enclosed _ _ _) in *. change (length (bs "<![CDATA[")) with 9 in *. change (length (bs "]]>")) with 3 in *.
  go1; [go; fin|]. bool_hyps. specialize (L2 H0). destruct (en_terminated e); [specialize (L3 eq_refl)|clear L3]; go; fin.
Qed.
Lemma x_attribute st : wp xml_expect_attribute (fun _ st' => exists k, steps anyx k st st' /\ (rem st <> [] -> xml_match_whitespace (rem st) = 0 -> starts_with_ch (rem st) (ch ">") = false -> starts_with (rem st) (bs "/>") = false -> 0 < k)) st.
Proof.
  unfold xml_expect_attribute. begin_steps anyx st. go1. eapply wp_mono; [apply x_name|]. cbn beta. intros n st1 [S1 P1]. clear H.
  assert (P2 : rem st <> [] -> xml_match_whitespace (rem st) = 0 -> starts_with_ch (rem st) (ch ">") = false -> starts_with (rem st) (bs "/>") = false -> 0 < n \/ n = 0 /\ starts_with_ch (rem st) (ch "=") = true /\ rem st1 = rem st).
  { intros N1 N2 N3 N4. destruct (Nat.eq_dec n 0) as [->|Hn]; [|left; lia]. right. split; [reflexivity|]. split; [|rewrite (steps_rem _ _ _ _ S1); reflexivity].
    destruct (P1 eq_refl) as [P|P]; [contradiction|]. unfold xml_attribute_stop in P. rewrite N2, N3, N4 in P. exact P. }
  clear P1. apply x_space_then. set (j := xml_match_whitespace (rem st1)). intros st2 S2.
  assert (P3 : j = 0 -> rem st2 = rem st1) by (intros E; rewrite E in S2; rewrite (steps_rem _ _ _ _ S2); reflexivity).
  go1. go1. pose proof (steps_trans _ _ _ _ _ _ S1 S2) as S3. clear S1. go1.
  - go1. exists (n + j). split; [exact S3|]. intros N1 N2 N3 N4. destruct (P2 N1 N2 N3 N4) as [P|(-> & P & E)]; [lia|]. destruct (Nat.eq_dec j 0) as [->|Hj]; [|lia].
    rewrite (P3 eq_refl), E, P in H. discriminate.
  - clear S2. go1. go1. sp. eapply wp_mono; [apply x_value|]. intros [|] st4 A0; cbn [attempt] in A0.
    + destruct A0 as (m & A1 & _). fuse. eexists. split; [eassumption|]. lia.
    + subst st4. eexists. split; [eassumption|]. lia.
Qed.
Lemma x_tag_loop st : wp (hloop 1 xml_tag_body tt) (fun _ st' => exists k, steps anyx k st st' /\ True) st.
Proof.
  apply (wp_rounds anyx 1 xml_tag_body (fun _ _ _ => True)); [lia|]. intros k st1 Hk. unfold xml_tag_body. go1. go1; [go; fin|]. apply x_space_then. set (j := xml_match_whitespace (rem st1)). intros st2 S2.
  assert (P3 : j = 0 -> rem st2 = rem st1) by (intros E; rewrite E in S2; rewrite (steps_rem _ _ _ _ S2); reflexivity).
  pose proof (steps_len _ _ _ _ S2) as L2. go1. go1. pose proof (steps_trans _ _ _ _ _ _ Hk S2) as S3. go1; [go; fin|]. go1. eapply wp_mono; [apply x_attribute|]. cbn beta. intros b st3 (m & S4 & P4).
  pose proof (steps_len _ _ _ _ S4) as L4. pose proof (steps_trans _ _ _ _ _ _ S3 S4) as S5. go1; go1; cbn beta; unfold round_post; cbn iota; exists (k + j + m); (split; [exact S5|]); [exact I|].
  destruct (Nat.eq_dec j 0) as [Ej|Ej]; [|hlia]. bool_hyps. rewrite (P3 Ej) in *. specialize (P4 H Ej H0 H2). lia.
Qed.
Lemma x_start_tag st : wp xml_expect_start_tag (attempt anyx st) st.
Proof.
  unfold xml_expect_start_tag. begin_steps anyx st. go1. go1. go1; [go; fin|]. go1. go1. go1. nm. go1; [go; fin|]. go1. eapply wp_mono; [apply x_tag_loop|]. cbn beta. intros _ st2 (j & S2 & _). fuse. go; fin.
Qed.
Lemma x_end_tag st : wp xml_expect_end_tag (attempt anyx st) st.
Proof. unfold xml_expect_end_tag. begin_steps anyx st. go1. go1. go1; [go; fin|]. go1. go1. go1. nm. go1; [go; fin|]. sp. go; fin. Qed.
Lemma x_text st : rem st <> [] -> wp xml_expect_text (fun b st' => b = true /\ exists k, steps anyx k st st' /\ 0 < k) st.
Proof.
  intros Hne. unfold xml_expect_text. begin_steps anyx st. go1. go1. cbv zeta. pose proof (length_if_not_le (rem st) (fun c => (c =? ch "<")%N || (c =? ch "&")%N)) as L. fold (xml_match_text (rem st)) in L.
  go1; [go; split; [reflexivity|]; fin|]. go1. { go1. attempt_ x_reference; go; split; try reflexivity; fin. }
  go1; [go; split; [reflexivity|]; fin|]. exfalso. bool_hyps. destruct (rem st) as [|c t] eqn:E; [contradiction|]. unfold xml_match_text in *. rewrite length_if_not_eq in *. cbn [prefix_len starts_with_ch] in *. rewrite H1, H2 in *. cbn in *. discriminate.
Qed.
Lemma x_external st : wp xml_expect_external_id (attempt anyx st) st.
Proof.
  unfold xml_expect_external_id. begin_steps anyx st. go1. go1. go1. destruct (utf8_find_any is_xml_whitespace true (rem st)) as (r & E & B). eapply wp_lift; [exact E|]. cbv zeta.
  set (w := match r with Some n => firstn n (rem st) | None => rem st end). assert (Lw : length w <= length (rem st)) by (unfold w; destruct r; [rewrite firstn_length|]; lia).
  go1. { apply str_eqb_eq in H0. assert (6 <= length (rem st)) by (rewrite H0 in Lw; exact Lw). go1. go1. sp. go1. attempt_ x_value; go; fin. }
  go1. { apply str_eqb_eq in H1. assert (6 <= length (rem st)) by (rewrite H1 in Lw; exact Lw). go1. go1. sp. go1. attempt_ x_value; sp; go1; attempt_ x_value; go; fin. }
  go. fin.
Qed.
Lemma x_decl_token st : rem st <> [] -> xml_match_whitespace (rem st) = 0 -> starts_with_ch (rem st) (ch ">") = false -> wp (xml_decl_token (rem st)) (fun _ st' => exists k, steps anyx k st st' /\ 0 < k) st.
Proof.
  intros Hne Hw Hg. unfold xml_decl_token. begin_steps anyx st. go1; [go; fin|]. pose proof (att_type_le (rem st)). pose proof (first_length_starts (rem st) xml_default_decl_types). fold (xml_match_default_decl_type (rem st)) in *.
  pose proof (first_length_starts (rem st) [bs "PUBLIC"; bs "SYSTEM"]). fold (xml_match_external_id_type (rem st)) in *. pose proof (first_length_starts (rem st) [bs "EMPTY"; bs "ANY"]). fold (xml_match_content_spec_type (rem st)) in *.
  assert (xml_match_ndata (rem st) <= length (rem st)) by (unfold xml_match_ndata; destruct (starts_with (rem st) (bs "NDATA")) eqn:E; [apply starts_with_len in E; exact E|lia]).
  assert (xml_match_pcdata (rem st) <= length (rem st)) by (unfold xml_match_pcdata; destruct (starts_with (rem st) (bs "#PCDATA")) eqn:E; [apply starts_with_len in E; exact E|lia]).
  go1; [go; fin|]. go1; [go; fin|]. go1; [go; fin|]. go1; [go; fin|]. go1; [go; fin|]. go1; [go; fin|].
  go1. destruct (xml_reference_le (ch "&") (rem st)) as (n & E & L). eapply wp_lift; [exact E|]. go1; [go; fin|]. go1. destruct (xml_name_le (rem st)) as (m & E2 & L2). eapply wp_lift; [exact E2|]. go1; [go; fin|].
  go1. { go1. eapply wp_mono; [apply x_value_quoted; assumption|]. cbn beta. intros b st' (_ & k & Hk & K). go. exists k. split; assumption. }
  go1; [pose proof (length_if_not_le (rem st) (fun c => is_xml_whitespace c || (c =? ch ">")%N)); lia|]. eexists. split; [eassumption|]. destruct (rem st) as [|c t]; [contradiction|]. rewrite length_if_not_eq. cbn [prefix_len]. unfold xml_match_whitespace in Hw. rewrite length_if_eq in Hw. cbn [prefix_len] in Hw. cbn [starts_with_ch] in Hg. rewrite Hg.
  destruct (is_xml_whitespace c); [discriminate|]. cbn. lia.
Qed.
Lemma x_decl_loop st : xml_match_whitespace (rem st) = 0 -> wp (hloop 1 xml_decl_body tt) (fun _ st' => exists k, steps anyx k st st') st.
Proof.
  intros Hw. apply wp_hloop with (mu := fun _ st1 => length (rem st1)) (Inv := fun _ st1 => exists k, steps anyx k st st1 /\ xml_match_whitespace (rem st1) = 0).
  - exists 0. split; [apply steps_refl|exact Hw].
  - lia.
  - intros [] st1 (k & Hk & Hw1). unfold xml_decl_body. go1. go1. destruct (rem st1) as [|c t] eqn:E; [rewrite orb_true_r; go; cbn beta; eauto|]. rewrite orb_false_r. go1; [go; cbn beta; eauto|].
    rewrite <- E in *. go1. eapply wp_mono; [apply x_decl_token; [rewrite E; discriminate|assumption|assumption]|]. cbn beta. intros _ st2 (m & Hm & Pm). pose proof (steps_len _ _ _ _ Hm) as Lm. apply x_space_then. intros st3 Hs3. pose proof (steps_len _ _ _ _ Hs3) as L3. go1. cbn beta. split; [|hlia].
    eexists. split; [eapply steps_trans; [exact Hk|]; eapply steps_trans; [exact Hm|exact Hs3]|]. rewrite (steps_rem _ _ _ _ Hs3). apply whitespace_twice.
Qed.
Lemma x_markup_decl st : wp xml_expect_markup_decl (attempt anyx st) st.
Proof.
  unfold xml_expect_markup_decl. begin_steps anyx st. go1. attempt_ x_comment; [go; fin|]. go1. attempt_ x_pi; [go; fin|]. go1. go1. go1; [go; fin|]. go1. go1. go1. nm. sp. go1. go1. go1. go1.
  - go1. go1. sp. go1. go1. nm. apply x_space_then. intros st9 Hs9. go1. eapply wp_mono; [apply x_decl_loop; rewrite (steps_rem _ _ _ _ Hs9); apply whitespace_twice|]. cbn beta. intros _ st8 (k & Hk). fuse. fuse. go. fin.
  - go1. nm. apply x_space_then. intros st9 Hs9. go1. eapply wp_mono; [apply x_decl_loop; rewrite (steps_rem _ _ _ _ Hs9); apply whitespace_twice|]. cbn beta. intros _ st8 (k & Hk). fuse. fuse. go. fin.
Qed.
Lemma x_quoted st : wp xml_quoted (fun _ st' => exists k, steps anyx k st st') st.
Proof. unfold xml_quoted. begin_steps anyx st. go1. go1. go1; [|go; fin]. go1. attempt_ x_value; go; fin. Qed.
Ltac qt := cbn beta; eapply wp_mono; [apply x_quoted|cbn beta; intros ? ? (? & ?); try fuse].
Lemma x_doctype_loop st : wp (hloop 1 xml_doctype_body tt) (fun _ st' => exists k, steps anyx k st st' /\ True) st.
Proof.
  apply (wp_rounds anyx 1 xml_doctype_body (fun _ _ _ => True)); [lia|]. intros k st1 Hk. unfold xml_doctype_body. go1. attempt_ x_markup_decl; cbn [negb]; [|go; fin]. sp. go1. go1. go1. go1; [go1|]; sp; go; fin.
Qed.
Lemma x_doctype st : wp xml_expect_doctype (fun _ st' => exists k, steps anyx k st st') st.
Proof.
  unfold xml_expect_doctype. begin_steps anyx st. go1. go1. go1; [go; fin|]. go1. go1. go1. nm. sp. go1. nm. sp. go1. go1. go1.
  eapply wp_mono with (P := fun _ st' => exists k, steps anyx k st st').
  - go1. { go1. attempt_ x_external; go; fin. } go1; [|go; fin]. match goal with |- context [length_if_not ?r ?p] => pose proof (length_if_not_le r p) end. go1. go1. sp. go1. qt. sp. qt. fin.
  - cbn beta. intros _ st5 (k & Hk). match goal with H : steps _ _ st ?s |- _ => first [constr_eq s st5; fail 1 | clear H] end. sp. go1. go1. go1; [go; fin|]. go1. go1. sp. go1. eapply wp_mono; [apply x_doctype_loop|]. cbn beta. intros _ st6 (j & Hj & _). fuse. go1. go1. go1; [go; fin|]. go1. go1. sp. go; fin.
Qed.
Lemma x_number st : wp xml_highlight_number (fun _ st' => exists k, steps anyx k st st') st.
Proof. unfold xml_highlight_number. begin_steps anyx st. go1. go1. go1. go1. unfold parts in *. go; fin. Qed.
Lemma x_decl_attr name (value : M unit unit) st : 0 < length name -> (forall st, wp value (fun _ st' => exists k, steps anyx k st st') st) -> wp (xml_decl_attr name value) (fun _ st' => exists k, steps anyx k st st') st.
Proof.
  intros Hn Hv. unfold xml_decl_attr. begin_steps anyx st. go1. go1. go1; [|fin]. go1. go1. go1. go1. go1; [|fin]. go1. go1. go1. go1; cbn [negb]; unfold when; [go; fin|]. eapply wp_mono; [apply Hv|]. cbn beta. intros _ st2 (k & Hk). fuse. fin.
Qed.
Lemma x_value_ st : wp (xml_expect_value ;; ret tt) (fun _ st' => exists k, steps anyx k st st') st.
Proof. begin_steps anyx st. go1. attempt_ x_value; go; fin. Qed.
Ltac at_ lem := cbn beta; eapply wp_mono; [apply x_decl_attr; [cbn; lia|apply lem]|cbn beta; intros ? ? (? & ?); try fuse].
Lemma x_xml_decl st : wp xml_expect_xml_decl (fun _ st' => exists k, steps anyx k st st') st.
Proof. unfold xml_expect_xml_decl. begin_steps anyx st. go1. go1. go1; [go; fin|]. go1. go1. sp. go1. at_ x_number. sp. go1. at_ x_value_. sp. go1. at_ x_value_. sp. go; fin. Qed.
Lemma x_prolog st : wp xml_expect_prolog (fun _ st' => exists k, steps anyx k st st') st.
Proof.
  unfold xml_expect_prolog. go1. eapply wp_mono; [apply x_xml_decl|]. cbn beta. intros _ st1 (k & Hk). go1.
  eapply wp_mono; [apply (wp_rounds anyx 1 xml_prolog_body (fun _ _ _ => True)); [lia|]|].
  - intros j st2 Hj. unfold xml_prolog_body. go1. attempt_ x_pi; [go; fin|]. go1. attempt_ x_comment; [go; fin|]. go1. eapply wp_mono; [apply x_whitespace|]. cbn beta. intros b st3 [S3 ->]. fuse. go; fin.
  - cbn beta. intros _ st2 (j & Hj & _). fuse. go1. eapply wp_mono; [apply x_doctype|]. cbn beta. intros _ st3 (i & Hi). fuse. go. fin.
Qed.
Lemma x_content st : rem st <> [] -> wp xml_content (fun _ st' => exists k, steps anyx k st st' /\ 0 < k) st.
Proof.
  intros Hne. unfold xml_content. begin_steps anyx st. go1. attempt_ x_comment; [go; fin|]. go1. attempt_ x_cdata; [go; fin|]. go1. attempt_ x_pi; [go; fin|]. go1. attempt_ x_end_tag; [go; fin|]. go1. attempt_ x_start_tag; [go; fin|].
  go1. eapply wp_mono; [apply x_text; exact Hne|]. cbn beta. intros b st' (-> & k & Hk & K). go. exists k. split; assumption.
Qed.
Theorem C120_xml : always_highlights highlight_xml.
Proof.
  apply always_from_ops. intros src strict. unfold highlight_xml. apply (run_ok anyx). apply wp_bind. eapply wp_mono; [apply x_prolog|]. cbn beta. intros _ st1 (k & Hk). apply wp_bind. eapply wp_mono; [apply (while_rem_safe anyx); apply x_content|]. cbn beta. intros [] st2 (j & Hj). apply wp_ret.
  split; [reflexivity|]. exists (k + j). eapply steps_trans; eassumption.
Qed.
Print Assumptions C120_xml.
Example C120_case : exists ops, highlight_xml (bs "<!-- c --><!DOCTYPE a SYSTEM 'x' [<!ENTITY b 'c'>]><a b='1&lt;'>x &amp; y<![CDATA[z]]></a>") false = Ok (true, ops) /\ 20 < length ops.
Proof. eexists. split; [vm_compute; reflexivity|]. cbn [length]. lia. Qed.
