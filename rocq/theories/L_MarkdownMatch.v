(** * Exact results of the Markdown matchers *)
From Coq Require Import List NArith ZArith Bool Arith Lia.
From Verif Require Import M_Base L_Base S_Tokens M_Utf8 L_Utf8 L_Any P_Utf8 M_Types M_Chars S_Chars P_Chars M_Parse M_Api M_Highlighter M_LangHtml P_HtmlMatch M_LangMarkdown
  S_LangHtml S_Lexemes L_Lexemes L_Number L_Escapes S_LangMarkdown.
Import ListNotations.

(** ** Characters *)
Lemma white_iff c : is_md_whitespace c = true <-> md_white c.
Proof. unfold is_md_whitespace, md_white, blank_char. rewrite mem_In. cbn [In]. intuition lia. Qed.
Lemma white_no c : is_md_whitespace c = false <-> ~ md_white c.
Proof. rewrite <- white_iff. destruct (is_md_whitespace c); intuition congruence. Qed.
Lemma space_iff c : is_md_space c = true <-> blank_char c.
Proof. unfold is_md_space, blank_char. rewrite mem_In. cbn [In]. intuition lia. Qed.
Lemma space_no c : is_md_space c = false <-> ~ blank_char c.
Proof. rewrite <- space_iff. destruct (is_md_space c); intuition congruence. Qed.
Lemma special_iff c : md_is_special c = true <-> md_special c.
Proof. apply mem_In. Qed.
Lemma special_no c : md_is_special c = false <-> ~ md_special c.
Proof. rewrite <- special_iff. destruct (md_is_special c); intuition congruence. Qed.
Lemma alnum_iff c : is_ascii_alphanumeric c = true <-> alnum c.
Proof.
  unfold alnum, letter, digit, is_ascii_alphanumeric, is_ascii_alpha, is_ascii_digit, is_ascii_upper_alpha, is_ascii_lower_alpha, between.
  rewrite !orb_true_iff, !andb_true_iff, !N.leb_le. lia.
Qed.
Lemma alnum_no c : is_ascii_alphanumeric c = false <-> ~ alnum c.
Proof. rewrite <- alnum_iff. destruct (is_ascii_alphanumeric c); intuition congruence. Qed.
Lemma punctuation_iff c : is_md_ascii_punctuation c = true <-> md_punctuation c.
Proof. unfold is_md_ascii_punctuation, md_punctuation. rewrite mem_In. cbn [In bs]. cbn. lia. Qed.
Lemma punctuation_no c : is_md_ascii_punctuation c = false <-> ~ md_punctuation c.
Proof. rewrite <- punctuation_iff. destruct (is_md_ascii_punctuation c); intuition congruence. Qed.

(** ** Runs *)
Lemma all_eq_repeat c n : Forall (fun x => (c =? x)%N = true) (repeat c n).
Proof. induction n; constructor; [apply N.eqb_refl|assumption]. Qed.
Lemma run_len c n r : not_before (is_char c) r -> prefix_len (N.eqb c) (repeat c n ++ r) = n.
Proof.
  intros H. rewrite prefix_len_exact; [apply repeat_length|apply all_eq_repeat|]. eapply not_before_impl; [|exact H]. intros x E. apply N.eqb_eq in E. symmetry. exact E.
Qed.
Lemma starts_no (s : str) c : not_before (is_char c) s -> starts_with_ch s c = false.
Proof. destruct s as [|x s]; [reflexivity|]. intros H. cbn. apply N.eqb_neq. exact (H x eq_refl). Qed.
Lemma repeat_ne {A} (c : A) n : 0 < n -> repeat c n <> [].
Proof. destruct n; [lia|discriminate]. Qed.
Lemma repeat_snoc {A} (c : A) n : repeat c (S n) = repeat c n ++ [c].
Proof. induction n as [|n IH]; [reflexivity|]. cbn [repeat app] in *. congruence. Qed.

(** ** Code spans *)
Lemma close_run n k : forall s run i, md_close_ticks n (repeat tick k ++ s) run i = md_close_ticks n s (run + k) (i + k).
Proof.
  induction k as [|k IH]; intros s run i; cbn [repeat app]; [rewrite !Nat.add_0_r; reflexivity|].
  cbn [md_close_ticks]. change (tick =? ch "`")%N with true. cbn iota. rewrite IH. f_equal; lia.
Qed.
Lemma close_reset n s k i : not_before (is_char tick) s -> k <> n -> 0 < n -> md_close_ticks n s k i = md_close_ticks n s 0 i.
Proof.
  intros H K Z. destruct s as [|c s]; cbn [md_close_ticks].
  - destruct (Nat.eqb_spec k n); [contradiction|]. destruct (Nat.eqb_spec 0 n); [lia|reflexivity].
  - assert (E : (c =? ch "`")%N = false) by (apply N.eqb_neq; exact (H c eq_refl)). rewrite E. destruct (Nat.eqb_spec k n); [contradiction|]. destruct (Nat.eqb_spec 0 n); [lia|reflexivity].
Qed.
Lemma close_end n s i : not_before (is_char tick) s -> md_close_ticks n s n i = Some i.
Proof.
  intros H. destruct s as [|c s]; cbn [md_close_ticks]; [rewrite Nat.eqb_refl; reflexivity|].
  assert (E : (c =? ch "`")%N = false) by (apply N.eqb_neq; exact (H c eq_refl)). rewrite E, Nat.eqb_refl. reflexivity.
Qed.
Lemma close_char n c s i : c <> tick -> 0 < n -> md_close_ticks n (c :: s) 0 i = md_close_ticks n s 0 (S i).
Proof. intros E Z. cbn [md_close_ticks]. apply N.eqb_neq in E. unfold tick in E. rewrite E. destruct (Nat.eqb_spec 0 n); [lia|reflexivity]. Qed.
Lemma span_first n b r : span_text n b -> not_before (is_char tick) (b ++ r).
Proof. intros [c H|c t H _|c k t H _ _ _]; apply not_before_cons; exact H. Qed.
Lemma span_ne n b : span_text n b -> b <> [].
Proof. intros [ | | ]; discriminate. Qed.
Lemma span_close n b r : 0 < n -> span_text n b -> not_before (is_char tick) r -> forall i, md_close_ticks n (b ++ repeat tick n ++ r) 0 i = Some (i + length b + n).
Proof.
  intros Z H R. induction H as [c Hc|c t Hc H IH|c k t Hc K Kn H IH]; intros i; cbn [app length]; rewrite close_char by assumption.
  - rewrite close_run. rewrite close_end by exact R. f_equal. lia.
  - rewrite IH. f_equal. lia.
  - rewrite <- app_assoc, close_run. rewrite close_reset; [|apply (span_first n); exact H|exact Kn|exact Z]. rewrite IH, app_length, repeat_length. f_equal. lia.
Qed.
Lemma no_run_none n t : 0 < n -> no_run n t -> forall i, md_close_ticks n t 0 i = None.
Proof.
  intros Z H. induction H as [|c t Hc H IH|k t K Kn F H IH]; intros i.
  - cbn [md_close_ticks]. destruct (Nat.eqb_spec 0 n); [lia|reflexivity].
  - rewrite close_char by assumption. apply IH.
  - rewrite close_run, close_reset by assumption. apply IH.
Qed.
Lemma code_span_exact n b r : 0 < n -> span_text n b -> not_before (is_char tick) r -> match_code_span (repeat tick n ++ b ++ repeat tick n ++ r) = Some (n, length b).
Proof.
  intros Z H R. unfold match_code_span. rewrite (run_len tick n); [|apply (span_first n); exact H]. destruct (Nat.eqb_spec n 0); [lia|].
  replace (skipn n (repeat tick n ++ b ++ repeat tick n ++ r)) with (b ++ repeat tick n ++ r).
  2:{ rewrite <- (repeat_length tick n) at 2. rewrite skipn_app_exact. reflexivity. }
  rewrite (span_close n b r Z H R). f_equal. f_equal. lia.
Qed.
Lemma code_span_none j r : not_before (is_char tick) r -> no_run (S j) r -> match_code_span (tick :: repeat tick j ++ r) = None.
Proof.
  intros R H. change (tick :: repeat tick j ++ r) with (repeat tick (S j) ++ r). unfold match_code_span. rewrite (run_len tick (S j)) by exact R. cbn [Nat.eqb].
  replace (skipn (S j) (repeat tick (S j) ++ r)) with r by (rewrite <- (repeat_length tick (S j)) at 1; rewrite skipn_app_exact; reflexivity).
  rewrite no_run_none; [reflexivity|lia|exact H].
Qed.

(** ** Autolinks and references *)
Lemma link_char_iff c : negb (mem c (bs "<>")) && negb (is_md_whitespace c) = true <-> link_char c.
Proof.
  unfold link_char. rewrite andb_true_iff, !negb_true_iff, white_no. rewrite <- (not_true_iff_false (mem _ _)), mem_In. cbn [bs In]. cbn. intuition congruence.
Qed.
Lemma link_len u r : Forall link_char u -> not_before link_char r -> prefix_len (fun c => negb (mem c (bs "<>")) && negb (is_md_whitespace c)) (u ++ r) = length u.
Proof.
  intros H R. apply prefix_len_exact.
  - eapply Forall_impl; [|exact H]. intros c Hc. apply link_char_iff. exact Hc.
  - eapply not_before_impl; [|exact R]. intros c Hc. apply link_char_iff. exact Hc.
Qed.
Lemma autolink_exact u r : autolink u -> match_autolink (bs "<" ++ u ++ bs ">" ++ r) = length u.
Proof.
  intros (F & (c & Hc & Ha) & _). unfold match_autolink. assert (Hu : 0 < length u) by (destruct u; [destruct Hc|cbn; lia]).
  replace (length (bs "<" ++ u ++ bs ">" ++ r) <? 3) with false by (symmetry; apply Nat.ltb_ge; rewrite !app_length; cbn; lia).
  cbn [orb]. change (starts_with_ch (bs "<" ++ u ++ bs ">" ++ r) (ch "<")) with true. cbn [negb]. change (skipn 1 (bs "<" ++ u ++ bs ">" ++ r)) with (u ++ bs ">" ++ r).
  rewrite link_len; [|exact F|apply not_before_cons; unfold link_char; cbn; tauto]. change (skipn (1 + length u) (bs "<" ++ u ++ bs ">" ++ r)) with (skipn (length u) (u ++ bs ">" ++ r)).
  rewrite skipn_app_exact, firstn_app_exact. cbn [starts_with_ch app bs]. change (negb (starts_with_ch (bs ">" ++ r) (ch ">"))) with false. cbn iota.
  replace (existsb (fun c => mem c (bs ":@")) u) with true; [reflexivity|]. symmetry. apply existsb_exists. exists c. split; [exact Hc|]. apply mem_In. destruct Ha as [->| ->]; cbn; tauto.
Qed.
Lemma autolink_none u r : Forall link_char u -> not_before link_char r -> not_before (is_char (ch ">")) r \/ Forall (fun c => ~ address_char c) u ->
  match_autolink (ch "<" :: u ++ r) = 0.
Proof.
  intros F R H. unfold match_autolink. destruct (_ || _); [reflexivity|]. change (skipn 1 (ch "<" :: u ++ r)) with (u ++ r). rewrite link_len by assumption.
  change (skipn (1 + length u) (ch "<" :: u ++ r)) with (skipn (length u) (u ++ r)). rewrite skipn_app_exact, firstn_app_exact. destruct H as [H|H].
  - rewrite starts_no by exact H. reflexivity.
  - destruct (negb _); [reflexivity|]. replace (existsb (fun c => mem c (bs ":@")) u) with false; [reflexivity|]. symmetry. apply not_true_iff_false. intros E.
    apply existsb_exists in E as (c & Hc & E). rewrite Forall_forall in H. apply (H c Hc). apply mem_In in E. unfold address_char. cbn in E. cbn. intuition congruence.
Qed.
Lemma reference_body_exact k pre (p : N -> bool) w r : k = length pre -> w <> [] -> Forall (fun c => p c = true) w -> p (ch ";") = false -> md_reference_body (pre ++ w ++ bs ";" ++ r) k p = length pre + length w + 1.
Proof.
  intros -> N F P. unfold md_reference_body. rewrite skipn_app_exact. rewrite prefix_len_exact; [|exact F|apply not_before_cons; cbn; cbn in P; rewrite P; discriminate].
  destruct w as [|c w]; [congruence|]. set (v := c :: w) in *. destruct (Nat.eqb_spec (length v) 0) as [Z|Z]; [discriminate|]. cbn [orb].
  rewrite <- (skipn_skipn (length v) (length pre)), !skipn_app_exact. reflexivity.
Qed.
Lemma reference_exact w r : md_reference w -> md_match_character_reference (w ++ r) = length w.
Proof.
  intros [v N F|v N F|x v Hx N F]; unfold md_match_character_reference.
  - assert (Lv : 0 < length v) by (destruct v; [congruence|cbn; lia]). replace (length ((bs "&" ++ v ++ bs ";") ++ r) <? 2) with false by (symmetry; apply Nat.ltb_ge; rewrite !app_length; cbn; lia).
    change (starts_with_ch ((bs "&" ++ v ++ bs ";") ++ r) (ch "&")) with true. cbn [orb negb]. change (skipn 1 ((bs "&" ++ v ++ bs ";") ++ r)) with ((v ++ bs ";") ++ r).
    replace (starts_with_ch ((v ++ bs ";") ++ r) (ch "#")) with false.
    2:{ destruct v as [|c v]; [congruence|]. cbn. symmetry. apply N.eqb_neq. apply Forall_inv in F. unfold alnum, letter, digit in F. lia. }
    cbn iota. rewrite <- !app_assoc. rewrite (reference_body_exact 1 (bs "&") is_ascii_alphanumeric v r eq_refl N); [rewrite !app_length; cbn; lia| |reflexivity].
    eapply Forall_impl; [|exact F]. intros c Hc. apply alnum_iff. exact Hc.
  - assert (Lv : 0 < length v) by (destruct v; [congruence|cbn; lia]). replace (length ((bs "&#" ++ v ++ bs ";") ++ r) <? 2) with false by (symmetry; apply Nat.ltb_ge; rewrite !app_length; cbn; lia).
    change (starts_with_ch ((bs "&#" ++ v ++ bs ";") ++ r) (ch "&")) with true. cbn [orb negb]. change (starts_with_ch (skipn 1 ((bs "&#" ++ v ++ bs ";") ++ r)) (ch "#")) with true. cbn iota.
    change (skipn 2 ((bs "&#" ++ v ++ bs ";") ++ r)) with ((v ++ bs ";") ++ r).
    replace (starts_with_ch ((v ++ bs ";") ++ r) (ch "x") || starts_with_ch ((v ++ bs ";") ++ r) (ch "X")) with false.
    2:{ destruct v as [|c v]; [congruence|]. cbn. symmetry. apply orb_false_iff. apply Forall_inv in F. unfold digit in F. split; apply N.eqb_neq; lia. }
    rewrite <- !app_assoc. rewrite (reference_body_exact 2 (bs "&#") is_ascii_digit v r eq_refl N); [rewrite !app_length; cbn; lia| |reflexivity].
    eapply Forall_impl; [|exact F]. intros c Hc. apply digit_iff. exact Hc.
  - assert (Lv : 0 < length v) by (destruct v; [congruence|cbn; lia]). replace (length ((bs "&#" ++ x :: v ++ bs ";") ++ r) <? 2) with false by (symmetry; apply Nat.ltb_ge; rewrite !app_length; cbn; lia).
    change (starts_with_ch ((bs "&#" ++ x :: v ++ bs ";") ++ r) (ch "&")) with true. cbn [orb negb]. change (starts_with_ch (skipn 1 ((bs "&#" ++ x :: v ++ bs ";") ++ r)) (ch "#")) with true. cbn iota.
    change (skipn 2 ((bs "&#" ++ x :: v ++ bs ";") ++ r)) with (x :: (v ++ bs ";") ++ r).
    replace (starts_with_ch (x :: (v ++ bs ";") ++ r) (ch "x") || starts_with_ch (x :: (v ++ bs ";") ++ r) (ch "X")) with true by (destruct Hx as [->| ->]; reflexivity).
    change ((bs "&#" ++ x :: v ++ bs ";") ++ r) with ((bs "&#" ++ [x]) ++ (v ++ bs ";") ++ r). rewrite <- (app_assoc v).
    rewrite (reference_body_exact 3 (bs "&#" ++ [x]) is_ascii_hex_digit v r eq_refl N); [rewrite !app_length; cbn; rewrite app_length; cbn; lia| |reflexivity].
    eapply Forall_impl; [|exact F]. intros c Hc. apply hex_digit_iff. exact Hc.
Qed.
Lemma reference_none w r : Forall alnum w -> not_before (fun c => alnum c \/ c = ch "#" \/ c = ch ";") r -> md_match_character_reference (ch "&" :: w ++ r) = 0.
Proof.
  intros F R. unfold md_match_character_reference. destruct (_ || _); [reflexivity|]. change (skipn 1 (ch "&" :: w ++ r)) with (w ++ r).
  replace (starts_with_ch (w ++ r) (ch "#")) with false.
  2:{ symmetry. apply starts_no. destruct w as [|c w]; [eapply not_before_impl; [|exact R]; intros c Hc; right; left; exact Hc|]. apply not_before_cons. apply Forall_inv in F. unfold alnum, letter, digit, is_char in *. intros ->. cbn in F. lia. }
  cbn iota. unfold md_reference_body. change (skipn 1 (ch "&" :: w ++ r)) with (w ++ r). rewrite prefix_len_exact.
  - change (skipn (1 + length w) (ch "&" :: w ++ r)) with (skipn (length w) (w ++ r)). rewrite skipn_app_exact, starts_no; [rewrite orb_true_r; reflexivity|]. eapply not_before_impl; [|exact R]. intros c Hc. right; right; exact Hc.
  - eapply Forall_impl; [|exact F]. intros c Hc. apply alnum_iff. exact Hc.
  - eapply not_before_impl; [|exact R]. intros c Hc. apply alnum_iff in Hc. left; exact Hc.
Qed.

(** ** Comments *)
Lemma comment_exact t r : comment_text t -> html_match_comment (bs "<!--" ++ t ++ bs "-->" ++ r) = Ok (mk_enclosed (length t + 7) true).
Proof.
  intros H. destruct (C60_comment (bs "<!--" ++ t ++ bs "-->" ++ r)) as (e & E & K). rewrite E. destruct (K (length t + 7)) as [_ K2]. destruct K2 as [A B]; [eauto|]. destruct e as [n b]. cbn in A, B. congruence.
Qed.
Lemma not_contains_starts t p : ~ contains t p -> starts_with t p = false.
Proof. intros H. apply not_true_iff_false. intros E. apply starts_with_app in E as [b E]. apply H. exists [], b. exact E. Qed.
Lemma not_contains_suffix a t p : ~ contains (a ++ t) p -> ~ contains t p.
Proof. intros H (x & y & ->). apply H. exists (a ++ x), y. rewrite <- app_assoc. reflexivity. Qed.
Lemma open_loop : forall fuel t len, length t <= fuel -> ~ contains t (bs "<!--") -> ~ contains t (bs "-->") -> ~ contains t (bs "--!>") ->
  html_comment_loop fuel t len = Ok (mk_enclosed (len + length t) false).
Proof.
  induction fuel as [|f IH]; intros t len L A B C.
  - destruct t; [|cbn in L; lia]. cbn. rewrite Nat.add_0_r. reflexivity.
  - destruct t as [|x t]; [cbn; rewrite Nat.add_0_r; reflexivity|]. cbn [html_comment_loop]. set (u := x :: t) in *.
    unfold find_first_of, find_if_from. cbn [skipn]. destruct (find_if (fun x => mem x (bs "<-")) u) as [k|] eqn:F; cbn [option_map]; [|reflexivity].
    apply find_if_split in F as (a & y & b & Eu & <- & Ey & Ha). rewrite Eu in *. cbn [Nat.add]. rewrite remove_prefix_any by (rewrite app_length; lia). rewrite skipn_app_exact. cbn [bind].
    apply not_contains_suffix in A. apply not_contains_suffix in B. apply not_contains_suffix in C.
    rewrite (not_contains_starts _ _ A), (not_contains_starts _ _ B), (not_contains_starts _ _ C). rewrite remove_prefix_any by (cbn; lia). cbn [bind skipn].
    rewrite app_length in L. cbn [length] in L. rewrite IH; [rewrite app_length; cbn [length]; do 2 f_equal; lia|lia| | | ]; apply (not_contains_suffix [y]); assumption.
Qed.
Lemma open_exact t : open_comment t -> html_match_comment (bs "<!--" ++ t) = Ok (mk_enclosed (4 + length t) false).
Proof.
  intros (_ & A & B & C & D & E). unfold html_match_comment. rewrite (proj2 (starts_with_app _ _)) by eauto. cbn [negb]. change (bs "<!--" ++ t) with ([60; 33; 45; 45]%N ++ t).
  rewrite remove_prefix_any by (rewrite app_length; cbn; lia). change (skipn 4 ([60; 33; 45; 45]%N ++ t)) with t. cbn [bind].
  replace (starts_with_ch t (ch ">")) with false. 2:{ symmetry. apply starts_no. destruct t as [|c t]; [apply not_before_nil|apply not_before_cons]. intros ->. apply A. exists t. reflexivity. }
  replace (starts_with t (bs "->")) with false. 2:{ symmetry. apply not_true_iff_false. intros X. apply starts_with_app in X as [b X]. apply B. eauto. }
  cbn [orb]. apply open_loop; auto.
Qed.
Lemma comment_none u : (~ exists v, u = bs "!--" ++ v) -> html_match_comment (ch "<" :: u) = Ok (mk_enclosed 0 false).
Proof.
  intros H. unfold html_match_comment. replace (starts_with (ch "<" :: u) (bs "<!--")) with false; [reflexivity|]. symmetry. apply not_true_iff_false. intros E.
  apply starts_with_app in E as [v E]. apply H. exists v. injection E as E. exact E.
Qed.

(** ** Links *)
Lemma bracket_balanced b : balanced b -> forall d s, md_bracket (S d) (b ++ s) = option_map (Nat.add (length b)) (md_bracket (S d) s).
Proof.
  intros H. induction H as [|c t Hc H IH|c t H IH|a t Ha IHa Ht IHt]; intros d s.
  - cbn [app length]. destruct (md_bracket (S d) s); reflexivity.
  - cbn [app md_bracket]. cbn in Hc. replace (c =? ch "\")%N with false by (symmetry; apply N.eqb_neq; intros ->; apply Hc; cbn; tauto).
    replace (c =? ch "[")%N with false by (symmetry; apply N.eqb_neq; intros ->; apply Hc; cbn; tauto). replace (c =? ch "]")%N with false by (symmetry; apply N.eqb_neq; intros ->; apply Hc; cbn; tauto).
    rewrite IH. destruct (md_bracket (S d) s); reflexivity.
  - cbn [app]. change (md_bracket (S d) (ch "\" :: c :: t ++ s)) with (option_map (fun n => S (S n)) (md_bracket (S d) (t ++ s))). rewrite IH. destruct (md_bracket (S d) s); reflexivity.
  - cbn [app]. change (md_bracket (S d) (ch "[" :: (a ++ ch "]" :: t) ++ s)) with (option_map S (md_bracket (S (S d)) ((a ++ ch "]" :: t) ++ s))).
    rewrite <- app_assoc, IHa. cbn [app]. change (md_bracket (S (S d)) (ch "]" :: t ++ s)) with (option_map S (md_bracket (S d) (t ++ s))). rewrite IHt.
    destruct (md_bracket (S d) s); cbn [option_map]; [|reflexivity]. f_equal. cbn [length]. rewrite app_length. cbn [length]. lia.
Qed.
Lemma bracket_exact b r : balanced b -> md_bracket 1 (b ++ ch "]" :: r) = Some (length b + 1).
Proof. intros H. rewrite bracket_balanced by exact H. reflexivity. Qed.
Lemma bracket_none : forall n s d, length s <= n -> ~ In (ch "]") s -> md_bracket d s = None.
Proof.
  induction n as [|n IH]; intros s d L H; [destruct s; [reflexivity|cbn in L; lia]|]. destruct s as [|c s]; [reflexivity|]. cbn [length] in L. cbn [md_bracket].
  assert (Hs : ~ In (ch "]") s) by (intros X; apply H; right; exact X).
  destruct (c =? ch "\")%N. { destruct s as [|x s]; [reflexivity|]. rewrite IH; [reflexivity|cbn in L; lia|]. intros X. apply Hs. right. exact X. }
  destruct (c =? ch "[")%N; [rewrite IH; [reflexivity|lia|exact Hs]|].
  destruct (N.eqb_spec c (ch "]")) as [->|]; [exfalso; apply H; left; reflexivity|]. rewrite IH; [reflexivity|lia|exact Hs].
Qed.
Lemma plain_url_exact u r : plain_url u -> (exists c v, r = c :: v /\ (c = ch ")" \/ md_white c)) -> md_plain_url (u ++ r) = length u.
Proof.
  intros H (x & v & -> & Hx). induction H as [|c t A B C H IH|c t H IH]; cbn [app length].
  - cbn [md_plain_url]. destruct Hx as [->|Hx]; [reflexivity|]. apply white_iff in Hx. rewrite Hx, orb_true_r. reflexivity.
  - cbn [md_plain_url]. apply N.eqb_neq in A, B. apply white_no in C. rewrite A, B, C. cbn [orb]. rewrite IH. reflexivity.
  - change (md_plain_url (ch "\" :: c :: t ++ x :: v)) with (S (S (md_plain_url (t ++ x :: v)))). rewrite IH. reflexivity.
Qed.
Lemma url_exact u t r : destination u -> link_title t -> md_url_length (u ++ t ++ ch ")" :: r) = length u /\ md_link_close (t ++ ch ")" :: r) = length t.
Proof.
  intros D [T1 T2]. split.
  - unfold md_url_length. destruct D as [[P F]|(v & -> & F)].
    + assert (X : exists c v, t ++ ch ")" :: r = c :: v /\ (c = ch ")" \/ md_white c)).
      { destruct t as [|c t]; [exists (ch ")"), r; auto|]. exists c, (t ++ ch ")" :: r). split; [reflexivity|]. right. apply white_iff. apply not_false_iff_true. intros E. apply white_no in E. exact (T2 c eq_refl E). }
      rewrite starts_no; [apply plain_url_exact; assumption|]. destruct u as [|c u]; [|exact F]. cbn [app]. destruct X as (c & v & -> & Hc). apply not_before_cons. intros ->. destruct Hc as [Hc|[[Hc|Hc]|[Hc|Hc]]]; discriminate.
    + change ((bs "<" ++ v ++ bs ">") ++ t ++ ch ")" :: r) with (ch "<" :: (v ++ bs ">") ++ t ++ ch ")" :: r). change (starts_with_ch (ch "<" :: (v ++ bs ">") ++ t ++ ch ")" :: r) (ch "<")) with true. cbn iota.
      change (skipn 1 (ch "<" :: (v ++ bs ">") ++ t ++ ch ")" :: r)) with ((v ++ bs ">") ++ t ++ ch ")" :: r). rewrite <- app_assoc. rewrite prefix_len_exact.
      * change (skipn (1 + length v) (ch "<" :: v ++ bs ">" ++ t ++ ch ")" :: r)) with (skipn (length v) (v ++ bs ">" ++ t ++ ch ")" :: r)). rewrite skipn_app_exact. change (starts_with_ch (bs ">" ++ t ++ ch ")" :: r) (ch ">")) with true. cbn iota. rewrite !app_length. cbn. lia.
      * eapply Forall_impl; [|exact F]. intros c Hc. apply negb_true_iff, not_true_iff_false. rewrite mem_In. intros [<-|[<-|[<-|[]]]]; apply Hc; cbn; tauto.
      * apply not_before_cons. cbn. discriminate.
  - unfold md_link_close. apply prefix_len_exact; [|apply not_before_cons; cbn; discriminate]. apply Forall_forall. intros c Hc. apply negb_true_iff, N.eqb_neq. intros ->. contradiction.
Qed.
Lemma link_close_none s : ~ In (ch ")") s -> md_link_close s = length s.
Proof.
  intros H. unfold md_link_close. rewrite <- (app_nil_r s). rewrite prefix_len_exact; [rewrite app_nil_r; reflexivity| |apply not_before_nil].
  apply Forall_forall. intros c Hc. apply negb_true_iff, N.eqb_neq. intros ->. contradiction.
Qed.

(** ** Emphasis *)
Lemma closer_char f c n prev x s i : x <> tick -> x <> c -> md_closer (S f) c n prev (x :: s) i = md_closer f c n x s (i + 1).
Proof. intros A B. cbn [md_closer]. apply N.eqb_neq in A, B. unfold tick in A. rewrite A, B. reflexivity. Qed.
Lemma closer_code f c n prev k b s i : 0 < k -> span_text k b -> not_before (is_char tick) s ->
  md_closer (S f) c n prev (repeat tick k ++ b ++ repeat tick k ++ s) i = md_closer f c n tick s (i + (k + length b + k)).
Proof.
  intros K H R. destruct k as [|k]; [lia|]. cbn [md_closer repeat app]. change (tick =? ch "`")%N with true. cbn iota.
  change (tick :: repeat tick k ++ b ++ tick :: repeat tick k ++ s) with (repeat tick (S k) ++ b ++ repeat tick (S k) ++ s).
  rewrite (run_len tick (S k)); [|apply (span_first (S k)); exact H].
  replace (skipn (S k) (repeat tick (S k) ++ b ++ repeat tick (S k) ++ s)) with (b ++ repeat tick (S k) ++ s) by (rewrite <- (repeat_length tick (S k)) at 2; rewrite skipn_app_exact; reflexivity).
  rewrite span_close by (assumption || lia). f_equal.
  rewrite !app_assoc, <- app_assoc. replace (S k + length b + S k) with (length ((repeat tick (S k) ++ b) ++ repeat tick (S k))) by (rewrite !app_length, repeat_length; lia).
  rewrite app_assoc. apply skipn_app_exact.
Qed.
Lemma skipn_repeat {A} (c : A) k s : skipn k (repeat c k ++ s) = s.
Proof. rewrite <- (repeat_length c k) at 1. apply skipn_app_exact. Qed.
Lemma closer_run f c n prev k s i : 0 < k -> c <> tick -> not_before (is_char c) s ->
  (closes c n k prev s -> md_closer (S f) c n prev (repeat c k ++ s) i = Ok (Some i)) /\
  (~ closes c n k prev s -> md_closer (S f) c n prev (repeat c k ++ s) i = md_closer f c n c s (i + k)).
Proof.
  intros K T R. destruct k as [|k]; [lia|]. cbn [md_closer repeat app]. assert (E : (c =? ch "`")%N = false) by (apply N.eqb_neq; exact T). rewrite E, N.eqb_refl.
  change (c :: repeat c k ++ s) with (repeat c (S k) ++ s). rewrite (run_len c (S k)) by exact R. rewrite skipn_repeat. set (k' := S k) in *. clearbody k'.
  set (b := (k' =? n) && negb (is_md_whitespace prev) && negb ((c =? ch "_")%N && match s with [] => false | y :: _ => is_ascii_alphanumeric y end)).
  assert (B : b = true <-> closes c n k' prev s).
  { unfold b, closes. rewrite !andb_true_iff, !negb_true_iff, Nat.eqb_eq, white_no. enough (X : (c =? ch "_")%N && match s with [] => false | y :: _ => is_ascii_alphanumeric y end = false <-> (c = ch "_" -> not_before alnum s)) by tauto.
    rewrite andb_false_iff, N.eqb_neq. destruct s as [|y s].
    - split; [intros _ _; apply not_before_nil|intros _; right; reflexivity].
    - rewrite alnum_no. split; [intros [X|X] Y; [contradiction|apply not_before_cons; exact X]|]. intros X. destruct (N.eq_dec c (ch "_")) as [Y|Y]; [right; exact (X Y y eq_refl)|left; exact Y]. }
  split; intros H.
  - apply B in H. rewrite H. reflexivity.
  - destruct b; [exfalso; apply H, B; reflexivity|reflexivity].
Qed.
Lemma emphasis_closer c n r : c <> tick -> 0 < n -> not_before (is_char c) r -> (c = ch "_" -> not_before alnum r) ->
  forall prev t, emphasis_text c n prev t -> forall f i, length t < f -> md_closer f c n prev (t ++ repeat c n ++ r) i = Ok (Some (i + length t)).
Proof.
  intros T Z R1 R2 prev t H.
  assert (Next : forall u, not_before (is_char tick) u -> not_before (is_char tick) (u ++ repeat c n ++ r)).
  { intros [|x u] Hu; [|exact Hu]. destruct n; [lia|]. apply not_before_cons. exact T. }
  induction H as [prev P|prev x t A B H IH|prev k b t K S B H IH|prev k t K N B C H IH]; intros [|f] i L; try lia.
  - cbn [app length]. rewrite Nat.add_0_r. apply closer_run; [exact Z|exact T|exact R1|]. split; [reflexivity|]. split; [exact P|exact R2].
  - cbn [app length] in *. rewrite closer_char by assumption. rewrite IH by lia. do 2 f_equal. lia.
  - rewrite !app_length, !repeat_length in L. rewrite <- !app_assoc. rewrite closer_code; [|exact K|exact S|apply Next; exact B]. rewrite IH by lia. rewrite !app_length, !repeat_length. do 2 f_equal. lia.
  - rewrite app_length, repeat_length in L. rewrite <- app_assoc. destruct t as [|y t]; [congruence|]. rewrite (proj2 (closer_run f c n prev k ((y :: t) ++ repeat c n ++ r) i K T B)).
    + rewrite IH by lia. rewrite app_length, repeat_length. do 2 f_equal. lia.
    + intros X. apply C. destruct X as (X1 & X2 & X3). split; [exact X1|]. split; [exact X2|exact X3].
Qed.
Lemma never_closer c n : c <> tick -> 0 < n -> forall prev t, never_closes c n prev t -> forall f i, length t <= f -> md_closer f c n prev t i = Ok None.
Proof.
  intros T Z prev t H. induction H as [prev|prev x t A B H IH|prev k b t K S B H IH|prev k t K B R|prev k t K B C H IH]; intros [|f] i L.
  - reflexivity.
  - reflexivity.
  - cbn in L. lia.
  - cbn in L. rewrite closer_char by assumption. apply IH. lia.
  - rewrite !app_length, !repeat_length in L. lia.
  - rewrite !app_length, !repeat_length in L. rewrite closer_code by assumption. apply IH. lia.
  - rewrite !app_length, !repeat_length in L. lia.
  - destruct k as [|k]; [lia|]. cbn [md_closer repeat app]. change (tick =? ch "`")%N with true. cbn iota. change (tick :: repeat tick k ++ t) with (repeat tick (S k) ++ t).
    rewrite (run_len tick (S k)) by exact B. rewrite skipn_repeat, no_run_none; [reflexivity|lia|exact R].
  - rewrite !app_length, !repeat_length in L. lia.
  - rewrite !app_length, !repeat_length in L. rewrite (proj2 (closer_run f c n prev k t i K T B)) by exact C. apply IH. lia.
Qed.

(** ** Headings *)
Lemma rev_repeat {A} (c : A) n : rev (repeat c n) = repeat c n.
Proof. induction n as [|n IH]; [reflexivity|]. rewrite repeat_snoc at 1. rewrite rev_app_distr, IH. reflexivity. Qed.
Lemma trailing_exact c u n : (u = [] \/ exists v x, u = v ++ [x] /\ x <> c) -> md_trailing c (u ++ repeat c n) = n.
Proof.
  intros H. unfold md_trailing. rewrite rev_app_distr, rev_repeat.
  apply run_len. destruct H as [->|(v & x & -> & Hx)]; [apply not_before_nil|]. rewrite rev_app_distr. apply not_before_cons. exact Hx.
Qed.
Lemma nth_last (u : str) c r k : k = length u -> nth k ((u ++ [c]) ++ r) 0%N = c.
Proof. intros ->. rewrite <- app_assoc, app_nth2, Nat.sub_diag by lia. reflexivity. Qed.
Lemma strip_exact v e : heading_end v e -> strip_atx_trailing (v ++ e) = length v.
Proof.
  unfold heading_end, spaces. intros [(i & -> & H)|(i & n & j & -> & Hn & H)]; unfold strip_atx_trailing; cbv zeta.
  - destruct H as [(u & c & -> & Hc & Hh)|[(u & c & n & -> & Hc & Hh & Hn)| ->]].
    + rewrite trailing_exact by (right; eauto). replace (length ((u ++ [c]) ++ repeat (ch " ") i) - i) with (S (length u)) by (rewrite !app_length, repeat_length; cbn; lia). cbn [Nat.eqb]. rewrite (nth_last u c _ (S (length u) - 1)) by lia.
      apply N.eqb_neq in Hh. rewrite Hh. cbn [negb]. rewrite app_length. cbn. lia.
    + destruct n as [|n]; [lia|].
      assert (E1 : u ++ c :: repeat (ch "#") (S n) = ((u ++ [c]) ++ repeat (ch "#") n) ++ [ch "#"]) by (rewrite repeat_snoc, <- !app_assoc; reflexivity).
      assert (E2 : u ++ c :: repeat (ch "#") (S n) = (u ++ [c]) ++ repeat (ch "#") (S n)) by (rewrite <- app_assoc; reflexivity).
      set (v := u ++ c :: repeat (ch "#") (S n)) in *.
      rewrite trailing_exact by (right; exists ((u ++ [c]) ++ repeat (ch "#") n), (ch "#"); split; [exact E1|discriminate]).
      replace (length (v ++ repeat (ch " ") i) - i) with (length v) by (rewrite app_length, repeat_length; lia). assert (Lv : length v = length u + 1 + S n) by (rewrite E2, !app_length, repeat_length; cbn; lia).
      destruct (Nat.eqb_spec (length v) 0) as [Z|_]; [lia|]. rewrite E1 at 2. rewrite nth_last by (rewrite Lv, !app_length, repeat_length; cbn; lia). change (negb (ch "#" =? ch "#")%N) with false. cbn iota.
      rewrite firstn_app_exact. rewrite E2 at 2 4. rewrite trailing_exact by (right; eauto). replace (length v - S n) with (length u + 1) by lia.
      destruct (Nat.eqb_spec (length u + 1) 0) as [Z|_]; [lia|]. cbn [orb]. rewrite Nat.add_sub. rewrite E2, <- app_assoc, nth_last by reflexivity. apply N.eqb_neq in Hc. rewrite Hc. reflexivity.
    + rewrite (trailing_exact _ []) by (left; reflexivity). cbn [app length]. rewrite repeat_length, Nat.sub_diag. reflexivity.
  - set (s := v ++ repeat (ch " ") i ++ repeat (ch "#") n ++ repeat (ch " ") j).
    destruct n as [|n]; [lia|].
    assert (E1 : s = (((v ++ repeat (ch " ") i) ++ repeat (ch "#") n) ++ [ch "#"]) ++ repeat (ch " ") j) by (unfold s; rewrite repeat_snoc, <- !app_assoc; reflexivity).
    assert (E2 : s = ((v ++ repeat (ch " ") i) ++ repeat (ch "#") (S n)) ++ repeat (ch " ") j) by (unfold s; rewrite <- !app_assoc; reflexivity).
    assert (T1 : md_trailing (ch " ") s = j) by (rewrite E1; apply trailing_exact; right; do 2 eexists; split; [reflexivity|discriminate]).
    assert (Ls : length s - j = length v + i + S n) by (rewrite E2, !app_length, !repeat_length; lia).
    rewrite T1, Ls. destruct (Nat.eqb_spec (length v + i + S n) 0) as [Z|_]; [lia|].
    rewrite E1 at 1. rewrite nth_last by (rewrite !app_length, !repeat_length; lia). change (negb (ch "#" =? ch "#")%N) with false. cbn iota.
    replace (firstn (length v + i + S n) s) with ((v ++ repeat (ch " ") i) ++ repeat (ch "#") (S n)).
    2:{ rewrite E2. replace (length v + i + S n) with (length ((v ++ repeat (ch " ") i) ++ repeat (ch "#") (S n))) by (rewrite !app_length, !repeat_length; lia). rewrite firstn_app_exact. reflexivity. }
    rewrite trailing_exact.
    2:{ destruct i as [|i]; [destruct H as [->|[H _]]; [left; reflexivity|lia]|]. right. exists (v ++ repeat (ch " ") i), (ch " "). split; [rewrite repeat_snoc, <- app_assoc; reflexivity|discriminate]. }
    replace (length v + i + S n - S n) with (length v + i) by lia.
    replace (firstn (length v + i) s) with (v ++ repeat (ch " ") i).
    2:{ rewrite E2. replace (length v + i) with (length (v ++ repeat (ch " ") i)) by (rewrite !app_length, !repeat_length; lia). rewrite <- app_assoc, firstn_app_exact. reflexivity. }
    assert (T2 : md_trailing (ch " ") (v ++ repeat (ch " ") i) = i) by (apply trailing_exact; destruct H as [->|[_ H]]; [left; reflexivity|right; exact H]).
    rewrite T2. replace ((length v + i =? 0) || (nth (length v + i - 1) s 0 =? ch " ")%N) with true; [lia|]. symmetry.
    destruct i as [|i]; [destruct H as [->|[H _]]; [reflexivity|lia]|]. apply orb_true_intro. right.
    assert (E3 : s = ((v ++ repeat (ch " ") i) ++ [ch " "]) ++ repeat (ch "#") (S n) ++ repeat (ch " ") j) by (unfold s; rewrite (repeat_snoc (ch " ") i), <- !app_assoc; reflexivity).
    rewrite E3, nth_last; [reflexivity|]. rewrite !app_length, repeat_length. lia.
Qed.
