(** * Names of HTML tags and attributes *)
From Coq Require Import List NArith Bool Arith Lia.
From Verif Require Import M_Base L_Base S_Utf8 M_Utf8 L_Utf8 L_Utf8b M_Chars M_LangHtml M_HtmlNames S_HtmlNames.
Import ListNotations.

Lemma view_step s : bytes s -> s <> [] ->
  (exists c t, scalar_value c /\ s = utf8_encoding c ++ t /\ iterator_deref s = Ok c /\ iterator_next s = Ok t) \/ iterator_deref s = Fail FThrow.
Proof.
  intros B Hs. destruct (decode_and_length_dec s B) as (r & D1 & D2). unfold iterator_deref. rewrite D1. cbn [bind].
  destruct (dec s) as [[[c n]|]|k] eqn:D.
  - left. subst r. destruct (dec_sound s c n D) as (Hc & <- & t & ->). exists c, t. split; [exact Hc|]. split; [reflexivity|]. split; [reflexivity|].
    destruct (first_of_encoding c t Hc) as (b0 & r & E & Hb & Hl). pose proof (encoding_nonempty c) as HL.
    rewrite E at 1. unfold iterator_next. rewrite sequence_length_eq, Hl by exact Hb.
    rewrite <- E. destruct (Nat.eqb_spec (length (utf8_encoding c)) 0); [lia|].
    destruct (Nat.ltb_spec (length (utf8_encoding c ++ t)) (length (utf8_encoding c))) as [L|L]; [rewrite app_length in L; lia|].
    cbn [orb]. now rewrite skipn_app_exact.
  - right. destruct D2 as [e ->]. reflexivity.
  - right. destruct D2 as [e ->]. reflexivity.
Qed.
Lemma all_valid p cs : Forall scalar_value cs -> forall fuel, length (concat (map utf8_encoding cs)) <= fuel ->
  all_code_points fuel p (concat (map utf8_encoding cs)) = Ok (forallb p cs).
Proof.
  induction 1 as [|c cs Hc Hcs IH]; intros fuel Hf; [destruct fuel; reflexivity|].
  assert (HB: bytes (concat (map utf8_encoding (c :: cs)))) by (apply concat_bytes; now constructor).
  cbn [map concat] in *. pose proof (encoding_nonempty c) as HL. rewrite app_length in Hf. destruct fuel as [|fuel]; [lia|].
  set (r := concat (map utf8_encoding cs)) in *.
  assert (Ne : utf8_encoding c ++ r <> []) by (destruct (utf8_encoding c); [cbn in HL; lia|discriminate]).
  assert (De : iterator_deref (utf8_encoding c ++ r) = Ok c).
  { destruct (decode_and_length_dec _ HB) as (d & D1 & D2). rewrite dec_complete in D2 by exact Hc. subst d. unfold iterator_deref. now rewrite D1. }
  destruct (view_step _ HB Ne) as [(c' & t & _ & E & D & X)|D]; [|congruence].
  assert (c' = c) as -> by congruence. apply app_inv_head in E. subst t.
  destruct (utf8_encoding c ++ r) as [|b l] eqn:Q; [congruence|]. cbn [all_code_points]. rewrite De. cbn [bind forallb].
  destruct (p c); [|reflexivity]. cbn [negb andb]. rewrite X. cbn [bind]. apply IH. lia.
Qed.
Lemma all_total p : forall fuel s, bytes s -> length s <= fuel ->
  (all_code_points fuel p s = Ok true /\ exists cs, Forall scalar_value cs /\ s = concat (map utf8_encoding cs) /\ forallb p cs = true)
  \/ all_code_points fuel p s = Ok false \/ all_code_points fuel p s = Fail FThrow.
Proof.
  induction fuel as [|fuel IH]; intros s B L; [destruct s; [|cbn in L; lia]; left; split; [reflexivity|exists []; repeat split; constructor]|].
  destruct s as [|b l]; [left; split; [reflexivity|exists []; repeat split; constructor]|].
  destruct (view_step (b :: l) B) as [(c & t & Hc & E & D & X)|D]; [discriminate| |].
  - cbn [all_code_points]. rewrite D. cbn [bind]. destruct (p c) eqn:P; cbn [negb]; [|auto]. rewrite X. cbn [bind].
    rewrite E in B, L. pose proof (encoding_nonempty c) as HL. rewrite app_length in L. apply Forall_app in B as [_ B].
    destruct (IH t B) as [(A & cs & S1 & S2 & S3)|A]; [lia| |auto]. left. split; [exact A|]. exists (c :: cs). cbn. rewrite E, P, S3, S2. auto.
  - right. right. cbn [all_code_points]. rewrite D. reflexivity.
Qed.

Ltac ranges := repeat match goal with
  | |- context [N.leb ?a ?b] => destruct (N.leb_spec a b)
  | |- context [N.eqb ?a ?b] => destruct (N.eqb_spec a b) end.
Lemma or_t a b (P Q : Prop) : (a = true <-> P) -> (b = true <-> Q) -> (a || b = true <-> P \/ Q).
Proof. intros H K. rewrite orb_true_iff, H, K. reflexivity. Qed.
Lemma between_t a b c : between a b c = true <-> (a <= c <= b)%N.
Proof. unfold between. rewrite andb_true_iff, !N.leb_le. reflexivity. Qed.
Lemma alpha_t c : is_ascii_alpha c = true <-> ascii_letter c.
Proof. unfold is_ascii_alpha, is_ascii_lower_alpha, is_ascii_upper_alpha, ascii_letter. rewrite orb_true_iff, !between_t. cbn. tauto. Qed.
Lemma mem_t c l : mem c l = true <-> In c l.
Proof. unfold mem. rewrite existsb_exists. split; [intros (x & H & E); apply N.eqb_eq in E; subst; exact H|intros H; exists c; split; [exact H|apply N.eqb_refl]]. Qed.
Lemma name_character_t c : is_html_tag_name_character c = true <-> name_character c.
Proof.
  unfold is_html_tag_name_character, name_character, is_ascii_alphanumeric, is_ascii_digit. rewrite !orb_true_iff, !between_t, alpha_t, mem_t. cbn [In app bs].
  split; [|]; intros H; repeat (destruct H as [H|H]; try (cbn in H; tauto)); cbn; intuition.
Qed.
Lemma noncharacter_t c : is_noncharacter c = true <-> noncharacter c.
Proof.
  unfold is_noncharacter, noncharacter. change 0xFFFF%N with (N.ones 16) at 1. rewrite N.land_ones, orb_true_iff, between_t, mem_t.
  change (2 ^ 16)%N with 0x10000%N. cbn [In]. intuition.
Qed.
Lemma attribute_character_t c : is_html_attribute_name_character c = true <-> attribute_character c \/ c1_control c.
Proof.
  unfold is_html_attribute_name_character, is_html_ascii_attribute_name_character, is_html_ascii_control, attribute_character, c1_control, control.
  assert (A : is_ascii c = true <-> (c <= 0x7F)%N) by (unfold is_ascii; rewrite ?N.leb_le, ?N.ltb_lt; lia).
  destruct (is_ascii c) eqn:E.
  - assert (L : (c <= 0x7F)%N) by (apply A; reflexivity). cbn [andb]. rewrite andb_true_iff, !negb_true_iff, orb_false_iff, N.leb_gt, N.eqb_neq.
    assert (M : mem c (34%N :: bs " '>/=") = false <-> ~ In c [0x20; 0x22; 0x27; 0x3E; 0x2F; 0x3D]%N).
    { rewrite <- not_true_iff_false, mem_t. cbn. intuition. }
    rewrite M. assert (K : ~ noncharacter c) by (unfold noncharacter; rewrite N.mod_small by lia; lia). split.
    + intros [[H1 H2] H3]. left. split; [lia|]. auto.
    + intros [(H1 & H2 & _)|H]; [|lia]. split; [lia|exact H2].
  - assert (L : (0x7F < c)%N) by (destruct (N.lt_ge_cases 0x7F c) as [X|X]; [exact X|discriminate (proj2 A X)]).
    rewrite negb_true_iff, <- not_true_iff_false, noncharacter_t. cbn [In]. split.
    + intros H. destruct (N.le_gt_cases c 0x9F); [right; lia|left]. split; [lia|]. split; [lia|exact H].
    + intros [(_ & _ & H)|H]; [exact H|]. unfold noncharacter. rewrite N.mod_small by lia. lia.
Qed.
Lemma forallb_t (f : N -> bool) (P : N -> Prop) l : (forall c, f c = true <-> P c) -> forallb f l = true <-> Forall P l.
Proof. intros H. rewrite forallb_forall, Forall_forall. split; intros K x Hx; apply H, K, Hx. Qed.
Lemma first_alpha c t : scalar_value c -> exists b r, utf8_encoding c ++ t = b :: r /\ (is_ascii_alpha b = true <-> ascii_letter c).
Proof.
  intros _. unfold utf8_encoding. destruct (N.ltb_spec c 0x80) as [L|L]; [exists c, t; split; [reflexivity|apply alpha_t]|].
  destruct (N.ltb_spec c 0x800); [|destruct (N.ltb_spec c 0x10000)]; do 2 eexists; (split; [cbn [app]; reflexivity|]); rewrite alpha_t; unfold ascii_letter; lia.
Qed.

(** For all texts in UTF-8, the answer is yes exactly for the names of the standard. *)
Theorem C211_tag_names : forall cs, Forall scalar_value cs ->
  exists b, is_tag_name (concat (map utf8_encoding cs)) = Ok b /\ (b = true <-> tag_name cs).
Proof.
  intros cs H. destruct H as [|c cs Hc Hcs]; [exists false; split; [reflexivity|split; [discriminate|intros K; inversion K]]|].
  pose proof (all_valid is_html_tag_name_character (c :: cs) (Forall_cons _ Hc Hcs) _ (le_n _)) as A. unfold is_tag_name. cbn [map concat] in *.
  destruct (first_alpha c (concat (map utf8_encoding cs)) Hc) as (b & r & E & F). rewrite E in *. destruct (is_ascii_alpha b).
  - rewrite A. eexists. split; [reflexivity|]. rewrite (forallb_t _ _ _ name_character_t). split.
    + intros K. inversion K. constructor; [apply F; reflexivity|assumption].
    + intros K. inversion K. constructor; [left; assumption|assumption].
  - exists false. split; [reflexivity|]. split; [discriminate|]. intros K. inversion K. apply F. assumption.
Qed.
Print Assumptions C211_tag_names.

(** The same for attributes, except that the controls U+0080 to U+009F are taken for characters of names. *)
Theorem C212_attribute_names_partial : forall cs, Forall scalar_value cs ->
  exists b, is_attribute_name (concat (map utf8_encoding cs)) = Ok b
    /\ (b = true <-> cs <> [] /\ Forall (fun c => attribute_character c \/ c1_control c) cs)
    /\ (Forall (fun c => ~ c1_control c) cs -> b = true <-> attribute_name cs).
Proof.
  intros cs H. destruct H as [|c cs Hc Hcs].
  { exists false. split; [reflexivity|]. split; [split; [discriminate|intros [K _]; congruence]|]. intros _. split; [discriminate|intros K; inversion K]. }
  pose proof (all_valid is_html_attribute_name_character (c :: cs) (Forall_cons _ Hc Hcs) _ (le_n _)) as A. unfold is_attribute_name. cbn [map concat] in *.
  destruct (first_alpha c (concat (map utf8_encoding cs)) Hc) as (b & r & E & _). rewrite E in *. rewrite A. eexists. split; [reflexivity|].
  rewrite (forallb_t _ _ _ attribute_character_t). split.
  - split; [intros K; split; [discriminate|exact K]|intros [_ K]; exact K].
  - intros N. split.
    + intros K. constructor. rewrite Forall_forall in *. intros x Hx. destruct (K x Hx) as [X|X]; [exact X|destruct (N x Hx X)].
    + intros K. inversion K as [? ? X]. eapply Forall_impl; [|exact X]. auto.
Qed.
Print Assumptions C212_attribute_names_partial.
Theorem C212_attribute_names_refuted : ~ (forall cs, Forall scalar_value cs -> is_attribute_name (concat (map utf8_encoding cs)) = Ok true -> attribute_name cs).
Proof.
  intros H. assert (K : attribute_name [0x85%N]) by (apply H; [constructor; [split; lia|constructor]|vm_compute; reflexivity]).
  inversion K as [? ? X]. inversion X as [|? ? Y _]. destruct Y as [Y _]. apply Y. right. lia.
Qed.
Print Assumptions C212_attribute_names_refuted.

(** Malformed text is not a name: the answer is no or an error is reported. *)
Theorem C211_malformed : forall s, bytes s -> ~ valid_utf8 s ->
  (is_tag_name s = Ok false \/ is_tag_name s = Fail FThrow) /\ (is_attribute_name s = Ok false \/ is_attribute_name s = Fail FThrow).
Proof.
  intros s B V. unfold is_tag_name, is_attribute_name. destruct s as [|b r]; [auto|]. split.
  - destruct (is_ascii_alpha b); [|auto]. destruct (all_total is_html_tag_name_character _ (b :: r) B (le_n _)) as [(_ & cs & C1 & C2 & _)|H]; [|exact H].
    destruct V. exists cs. auto.
  - destruct (all_total is_html_attribute_name_character _ (b :: r) B (le_n _)) as [(_ & cs & C1 & C2 & _)|H]; [|exact H]. destruct V. exists cs. auto.
Qed.
Print Assumptions C211_malformed.

Example C211_case : Forall scalar_value [0x61; 0x2D; 0xE9]%N /\ tag_name [0x61; 0x2D; 0xE9]%N
  /\ is_tag_name (concat (map utf8_encoding [0x61; 0x2D; 0xE9]%N)) = Ok true /\ is_tag_name (bs "-a") = Ok false
  /\ is_tag_name [0x61; 0xFF]%N = Fail FThrow /\ ~ valid_utf8 [0x61; 0xFF]%N.
Proof.
  split; [repeat constructor; cbn; lia|]. split; [constructor; [unfold ascii_letter; lia|repeat constructor; unfold name_character, ascii_letter; lia]|].
  split; [vm_compute; reflexivity|]. split; [reflexivity|]. split; [vm_compute; reflexivity|].
  intros (cs & H & E). pose proof (all_valid (fun _ => true) cs H _ (le_n _)) as A. rewrite <- E in A. vm_compute in A. discriminate A.
Qed.
Example C212_case : Forall scalar_value (bs "data-h") /\ attribute_name (bs "data-h") /\ Forall (fun c => ~ c1_control c) (bs "data-h") /\ is_attribute_name (bs "data-h") = Ok true.
Proof.
  split; [repeat constructor; cbn; lia|]. split; [|split; [|vm_compute; reflexivity]].
  - constructor. apply Forall_forall. intros x Hx. change (In x [100; 97; 116; 97; 45; 104]%N) in Hx. cbn [In] in Hx.
    split; [unfold control; lia|]. split; [cbn [In]; lia|]. unfold noncharacter. rewrite N.mod_small by lia. lia.
  - apply Forall_forall. intros x Hx. change (In x [100; 97; 116; 97; 45; 104]%N) in Hx. cbn [In] in Hx. unfold c1_control. lia.
Qed.
