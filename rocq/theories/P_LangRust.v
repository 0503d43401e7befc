(** * Properties of the Rust highlighter *)
From Coq Require Import List NArith ZArith Bool Arith Lia.
From Verif Require Import M_Base L_Base S_Tokens M_Emit S_Ops L_Emit M_Types M_Chars M_Parse S_Parse L_Parse P_Parse M_Utf8 S_Utf8 L_Utf8 L_Utf8b P_Utf8 L_Any
  M_Api M_Table L_Table M_LangCpp M_Highlighter S_Highlight L_Highlighter P_LangCpp L_Auto M_TokenLoop M_Json S_Json L_WfSteps
  S_Lexemes L_Lexemes L_Number L_Number2 L_Scan L_Symbols L_Escapes S_Comments L_Comments S_Utf8Lexemes L_Utf8Loop M_LangRust S_LangRust.
Import ListNotations.

(** ** Safety *)
Definition none (c : N) : Prop := False.
Lemma rust_options : good_options rust_number_options.
Proof.
  split; [left; reflexivity|]. split; [repeat constructor; discriminate|]. intros f [= <-] s. unfold rust_match_suffix.
  destruct (cpp_identifier_ok s) as (n & -> & L). exact L.
Qed.
#[local] Hint Resolve rust_options : good_opts.
Lemma rust_punctuation_good s t : rust_match_punctuation s = Some t -> good_symbol rust_tokens s t.
Proof. destruct s as [|c s]; [discriminate|]. unfold rust_match_punctuation. intros H. symbol_cases H. Qed.
Lemma rust_punctuation_ok st : wp rust_expect_punctuation (attempt none st) st.
Proof.
  begin_steps none st. unfold rust_expect_punctuation. go1. go1. destruct (rust_match_punctuation (rem st)) as [t|] eqn:E; [|go; fin].
  apply rust_punctuation_good in E. destruct (good_symbol_find _ _ _ E) as [h F]. apply good_symbol_len in E. unfold rust_token_by_code. rewrite F. go; fin.
Qed.
Lemma rust_match_number_ok s : exists r, rust_match_number s = Ok r /\ nr_length r = parts r /\ nr_length r <= length s.
Proof.
  unfold rust_match_number. destruct (match_common_number_ok s _ rust_options) as (r & -> & E1 & E2). cbn [bind].
  destruct (negb (nr_is_non_integer r)).
  - destruct (Nat.eqb_spec (nr_suffix r) 0) as [Z|Z]; [eauto|]. unfold parts in E1.
    rewrite (proj2 (Nat.leb_le (nr_suffix r) _)) by lia. rewrite (proj2 (Nat.leb_le (nr_length r - nr_suffix r) _)) by lia. cbn [check bind].
    destruct (firstn (nr_suffix r) (skipn (nr_length r - nr_suffix r) s)) as [|c t] eqn:E.
    + apply (f_equal (@length N)) in E. rewrite firstn_length, skipn_length in E. cbn [length] in E. lia.
    + eexists. split; [reflexivity|]. split; [exact E1|exact E2].
  - eexists. split; [reflexivity|]. split; [exact E1|exact E2].
Qed.
Lemma rust_number_ok st : wp rust_expect_number (attempt none st) st.
Proof.
  begin_steps none st. unfold rust_expect_number. go1. go1. go1. destruct (rust_match_number_ok (rem st)) as (r & E & E1 & E2). eapply wp_lift; [exact E|]. go; fin.
Qed.
Ltac ident s n E L := destruct (cpp_identifier_ok s) as (n & E & L); eapply wp_lift; [exact E|].
Lemma rust_identifier_ok st : wp rust_expect_identifier (attempt none st) st.
Proof.
  begin_steps none st. unfold rust_expect_identifier. go1. go1. go1. ident (rem st) n E L. go1; [go; fin|]. destruct (rust_token_by_code (firstn n (rem st))) as [h|]; [go; fin|]. go; try fin.
Qed.
Lemma rust_raw_identifier_ok st : wp rust_expect_raw_identifier (attempt none st) st.
Proof.
  begin_steps none st. unfold rust_expect_raw_identifier. go1. go1. go1; [go; fin|]. go1. ident (skipn 2 (rem st)) n E L. rewrite skipn_length in L. go1; [go; fin|]. cbv zeta.
  go; try fin.
Qed.
Lemma rust_escape_ok s t : exists e, rust_match_escape_sequence s t = Ok e /\ es_length e <= length s.
Proof.
  assert (A : forall k n, n <= length s -> exists e, match_common_escape_at k s n = Ok e /\ es_length e <= length s).
  { intros k n L. destruct (common_escape_at_ok k s n ltac:(lia)) as (e & E & B). exists e. split; [exact E|lia]. }
  destruct s as [|b [|c s]]; [eexists; split; [reflexivity|cbn; lia]..|]. unfold rust_match_escape_sequence.
  destruct (negb _); [eexists; split; [reflexivity|cbn; lia]|].
  repeat match goal with |- context [if ?b then _ else _] => destruct b end;
  match goal with
  | |- context [match_common_escape_at ?k _ ?n] => apply A; cbn; lia
  | _ => eexists; split; [reflexivity|cbn; lia]
  end.
Qed.
Lemma rust_literal_suffix_ok st : wp rust_literal_suffix (fun _ st' => exists k, steps none k st st') st.
Proof. begin_steps none st. unfold rust_literal_suffix. go1. go1. go1. ident (rem st) n E L. go; eauto. Qed.
Lemma rust_emit_char_ok (byte : bool) n h st : (if byte then 1 else 0) + n + 2 <= length (rem st) -> 0 < n ->
  wp (rust_emit_char byte n h) (fun _ st' => exists k, steps none k st st' /\ 0 < k) st.
Proof.
  intros L Ln. begin_steps none st. unfold rust_emit_char.
  assert (K : forall st1 : hst unit, n + 2 <= length (rem st1) -> wp (emit_and_advance 1 hl_string_delim ;; emit_and_advance n h ;; emit_and_advance 1 hl_string_delim ;; rust_literal_suffix) (fun _ (st' : hst unit) => exists k, steps none k st1 st' /\ 0 < k) st1).
  { clear H. intros st1 L1. begin_steps none st1. go1. go1. go1. go1. go1. go1. eapply wp_mono; [apply rust_literal_suffix_ok|]. cbn beta. intros _ stz (k & Hk). try fuse. eexists. split; [eassumption|lia]. }
  destruct byte; cbn [when].
  - go1. go1. eapply wp_mono; [apply K; hlia|]. cbn beta. intros _ st2 (k2 & ? & ?). try fuse. eexists. split; [eassumption|lia].
  - apply wp_bind, wp_ret. apply K. lia.
Qed.
Lemma starts_with_ch_len s c : starts_with_ch s c = true -> 1 <= length s.
Proof. destruct s; [discriminate|cbn; lia]. Qed.
Lemma rust_char_ok st : wp rust_expect_char (attempt none st) st.
Proof.
  begin_steps none st. unfold rust_expect_char. go1. go1. cbv zeta. set (byte := starts_with_ch (rem st) (ch "b")). set (b := if byte then 1 else 0).
  assert (Hb : b <= 1) by (unfold b; destruct byte; lia).
  go1; [go; fin|]. go1. go1. go1; [go; fin|]. go1. go1. go1; [go; fin|]. go1.
  - go1. go1. go1. destruct (rust_escape_ok (skipn (b + 1) (rem st)) rs_string) as (e & E & Le). eapply wp_lift; [exact E|]. rewrite skipn_length in Le. go1; [go; fin|].
    assert (K : forall k : N -> M unit bool, (forall d, wp (k d) (attempt none st) st) -> wp (bindM (if es_length e =? 2 then at_ (rem st) (b + 1 + 1) else ret 0%N) k) (attempt none st) st).
    { intros k Hk. apply wp_bind. destruct (Nat.eqb_spec (es_length e) 2); [apply wp_at; [hlia|]; intros; apply Hk|apply wp_ret, Hk]. }
    apply K. intros d. go1; [go; fin|]. go1. go1. go1; [go; fin|].
    match goal with H : negb (starts_with_ch (skipn _ _) _) = false |- _ => apply negb_false_iff, starts_with_ch_len in H; rewrite skipn_length in H end.
    go1. eapply wp_mono; [apply rust_emit_char_ok|]; [fold b; hlia|hlia|]. cbn beta. intros _ st' (k & ? & ?). try fuse. go. fin.
  - go1. go1. go1. apply wp_decode. intros cz n Ln Pn. rewrite skipn_length in Ln. cbn [snd]. go1. go1. go1; [go; fin|].
    match goal with H : negb (starts_with_ch (skipn _ _) _) = false |- _ => apply negb_false_iff, starts_with_ch_len in H; rewrite skipn_length in H end.
    assert (0 < n). { apply Pn. intros E. apply (f_equal (@length N)) in E. rewrite skipn_length in E. cbn in E. lia. }
    go1. eapply wp_mono; [apply rust_emit_char_ok|]; [fold b; hlia|hlia|]. cbn beta. intros _ st' (k & ? & ?). try fuse. go. fin.
Qed.
Lemma rust_raw_scan_ok h st : wp (hloop 1 (rust_raw_body h) 0) (fun _ st' => exists k, steps none k st st') st.
Proof.
  eapply wp_mono; [apply (wp_scan none 1 (rust_raw_body h) 0 (fun _ _ _ => True)); [lia|lia|]|].
  2:{ cbn beta. intros _ st2 (k & ? & _). eauto. }
  intros a k st1 Hs La _. unfold rust_raw_body. go1. go1. go1; [go; try fin|]. go1. go1. go1; [|go; fin]. go1. go1. cbv zeta.
  set (n := length_if (skipn (a + 1) (rem st1)) (fun c => (c =? ch "#")%N)). assert (Lz : n <= length (skipn (a + 1) (rem st1))) by apply length_if_le. rewrite skipn_length in Lz.
  go; try fin.
Qed.
Lemma rust_string_scan_ok t st : wp (hloop 1 (rust_string_body t) 0) (fun _ st' => exists k, steps none k st st') st.
Proof.
  eapply wp_mono; [apply (wp_scan none 1 (rust_string_body t) 0 (fun _ _ _ => True)); [lia|lia|]|].
  2:{ cbn beta. intros _ st2 (k & ? & _). eauto. }
  intros a k st1 Hs La _. unfold rust_string_body. go1. go1. go1; [go; try fin|]. go1. go1. go1; [go; try fin|]. go1; [|go; try fin].
  go1. go1. go1. go1. go1. destruct (rust_escape_ok (rem st') t) as (e & E & Le). eapply wp_lift; [exact E|]. 
  apply wp_bind. destruct (Nat.eqb_spec (es_length e) 0) as [Z|Z]; go; try fin.
Qed.
Lemma rust_prefix_len s n t : classify_string_prefix s = Some (n, t) -> n + 1 <= length s.
Proof.
  unfold classify_string_prefix. intros H. destruct (find _ _) as [[w [n' t']]|] eqn:E; [|discriminate]. cbn in H. injection H as <- <-.
  apply find_some in E as [E1 E2]. cbn [fst] in E2. apply starts_with_length in E2. cbn [rust_string_prefixes In] in E1.
  repeat (destruct E1 as [E1|E1]; [injection E1 as <- <- <-; cbn [length bs] in E2; cbn in E2; lia|]). contradiction.
Qed.
Lemma rust_string_ok st : wp rust_expect_string (attempt none st) st.
Proof.
  begin_steps none st. unfold rust_expect_string. go1. go1. destruct (classify_string_prefix (rem st)) as [[p t]|] eqn:E; [|go; fin]. apply rust_prefix_len in E.
  go1. go1. cbv zeta. set (h := if string_type_is_raw t then length_if (skipn p (rem st)) (fun c => (c =? ch "#")%N) else 0).
  assert (Lh : p + h <= length (rem st)).
  { unfold h. destruct (string_type_is_raw t); [|lia]. pose proof (length_if_le (skipn p (rem st)) (fun c => (c =? ch "#")%N)) as L. rewrite skipn_length in L. lia. }
  go1. go1. destruct (negb (starts_with_ch (skipn (p + h) (rem st)) 39) && negb (starts_with_ch (skipn (p + h) (rem st)) 34)) eqn:Eq; [go; fin|].
  assert (Lq : p + h + 1 <= length (rem st)).
  { apply andb_false_iff in Eq as [Eq|Eq]; apply negb_false_iff, starts_with_ch_len in Eq; rewrite skipn_length in Eq; lia. }
  go1. go1. go1. go1. go1.
  eapply wp_mono; [instantiate (1 := fun _ st2 => exists k, steps none k st'0 st2); destruct (string_type_is_raw t); [apply rust_raw_scan_ok|apply rust_string_scan_ok]|]. cbn beta. intros _ st2 (k2 & ?). try fuse.
  go1. eapply wp_mono; [apply rust_literal_suffix_ok|]. cbn beta. intros _ st3 (k3 & ?). try fuse. go. fin.
Qed.
Lemma rust_emit_lifetime_ok d n st : 0 < d -> 0 < n -> d + n <= length (rem st) -> wp (rust_emit_lifetime d n) (fun _ st' => exists k, steps none k st st' /\ 0 < k) st.
Proof. intros Hd Hn L. begin_steps none st. unfold rust_emit_lifetime. go; try fin; try (eexists; split; [eassumption|lia]). Qed.
Lemma rust_lifetime_ok st : wp (rust_expect_lifetime false) (attempt none st) st.
Proof.
  begin_steps none st. unfold rust_expect_lifetime. go1. go1. go1; [go; fin|]. cbv zeta. go1.
  - match goal with H : starts_with _ _ = true |- _ => apply starts_with_length in H; change (length (bs "'#r")) with 3 in H end. go1. ident (skipn 3 (rem st)) n E L. rewrite skipn_length in L. go1; [go; fin|].
    assert (K : wp (if is_illegal_raw_identifier (firstn n (skipn 3 (rem st))) then emit_and_advance (3 + n) hl_error else rust_emit_lifetime 3 n) (fun _ st' => exists k, steps none k st st' /\ 0 < k) st).
    { destruct (is_illegal_raw_identifier _); [|apply rust_emit_lifetime_ok; hlia]. begin_steps none st. go; eexists; (split; [eassumption|lia]). }
    go1. eapply wp_mono; [exact K|]. cbn beta. intros _ st2 (k2 & ? & ?). try fuse. go. fin.
  - match goal with H : negb (starts_with_ch _ _) = false |- _ => apply negb_false_iff, starts_with_ch_len in H end. go1. ident (skipn 1 (rem st)) n E L. rewrite skipn_length in L. go1; [go; fin|].
    go1. eapply wp_mono; [apply rust_emit_lifetime_ok; hlia|]. cbn beta. intros _ st2 (k2 & ? & ?). try fuse. go. fin.
Qed.
Lemma rust_token_ok st : rem st <> [] -> wp (rust_token false) (fun _ st' => exists k, steps none k st st' /\ 0 < k) st.
Proof.
  intros Hne. begin_steps none st. unfold rust_token, rust_expect_line_comment, rust_expect_block_comment.
  repeat match goal with
  | |- wp (bindM json_expect_line_comment _) _ _ => apply wp_bind; attempt_ (line_comment_ok none); cbn beta iota
  | |- wp (bindM json_expect_block_comment _) _ _ => apply wp_bind; attempt_ (block_comment_ok none); cbn beta iota
  | |- wp (bindM rust_expect_char _) _ _ => apply wp_bind; attempt_ rust_char_ok; cbn beta iota
  | |- wp (bindM rust_expect_string _) _ _ => apply wp_bind; attempt_ rust_string_ok; cbn beta iota
  | |- wp (bindM rust_expect_number _) _ _ => apply wp_bind; attempt_ rust_number_ok; cbn beta iota
  | |- wp (bindM (rust_expect_lifetime _) _) _ _ => apply wp_bind; attempt_ rust_lifetime_ok; cbn beta iota
  | |- wp (bindM rust_expect_identifier _) _ _ => apply wp_bind; attempt_ rust_identifier_ok; cbn beta iota
  | |- wp (bindM rust_expect_raw_identifier _) _ _ => apply wp_bind; attempt_ rust_raw_identifier_ok; cbn beta iota
  | |- wp (bindM rust_expect_punctuation _) _ _ => apply wp_bind; attempt_ rust_punctuation_ok; cbn beta iota
  end; try (go; fin).
  apply (wp_error_code_point none); [exact Hne|]. intros. fin.
Qed.

(** ** C99: a lifetime that is followed by an apostrophe fails a debug assertion. *)
Theorem C99_rust_refuted : ~ highlights_except_code_points rust_space (highlight_rust true) /\ ~ highlights (highlight_rust true) (bs "'ab'").
Proof.
  split; intros H.
  - destruct (H (bs "'ab'") false false 1 ltac:(repeat constructor) ltac:(lia)) as (ops & chunks & E & _). vm_compute in E. discriminate E.
  - destruct (H false false 1 ltac:(lia)) as (ops & chunks & E & _). vm_compute in E. discriminate E.
Qed.
Theorem C99_rust_partial : highlights_except_code_points rust_space (highlight_rust false).
Proof.
  apply (utf8_loop_highlights is_rust_whitespace rust_space (rust_token false)) with (init := tt).
  - intros c H. apply mem_In in H. exact H.
  - reflexivity.
  - exact rust_token_ok.
  - reflexivity.
Qed.
Print Assumptions C99_rust_refuted.
Print Assumptions C99_rust_partial.
Example C99_case : bytes ([226; 128; 168]%N ++ bs "fn f<'a>(x: &'a str) -> u8 { b'\n' + 0x1f_u8 }") /\
  exists ops, highlight_rust false ([226; 128; 168]%N ++ bs "fn f<'a>(x: &'a str) -> u8 { b'\n' + 0x1f_u8 }") false = Ok (true, ops) /\ 20 < length ops.
Proof. split; [repeat constructor|]. eexists. split; [vm_compute; reflexivity|]. cbn [length]. lia. Qed.

(** ** Exactness *)
Ltac tryno lem := apply wp_bind; apply lem; [..|cbn beta iota].
Definition rust_does (debug : bool) (p : list piece) (r : str) : Prop :=
  forall i o, wp (rust_token debug) (fun _ st' => st' = mk_hst r (i + length (text p)) (rev (tokens i p) ++ o) tt) (mk_hst (text p ++ r) i o tt).
Lemma no_identifier_here s : not_before (fun c => ident_start c \/ (128 <= c)%N) s -> cpp_match_identifier s = Ok 0.
Proof.
  intros H. destruct s as [|c s]; [reflexivity|]. specialize (H c eq_refl). cbn beta in H. apply not_identifier; [lia|tauto].
Qed.
Lemma rust_char_no c s (Q : bool -> hst unit -> Prop) i o : c <> 39%N -> (c = 98%N -> not_before (fun c => c = 39%N) s) -> Q false (mk_hst (c :: s) i o tt) -> wp rust_expect_char Q (mk_hst (c :: s) i o tt).
Proof.
  intros H1 H2 HQ. unfold rust_expect_char. apply wp_bind, wp_get_rem. cbn [rem starts_with_ch]. cbv zeta. change (ch "b") with 98%N. destruct (N.eqb_spec c 98) as [->|Nc].
  - destruct (Nat.ltb_spec (length (98%N :: s)) (3 + 1)) as [L|L]; [apply wp_ret; exact HQ|]. destruct s as [|d s]; [cbn in L; lia|]. apply wp_bind. apply (wp_at_is _ _ d); [reflexivity|]. specialize (H2 eq_refl d eq_refl). cbn beta in H2. rewrite (proj2 (N.eqb_neq d 39) H2). apply wp_ret. exact HQ.
  - destruct (Nat.ltb_spec (length (c :: s)) (3 + 0)) as [L|L]; [apply wp_ret; exact HQ|]. apply wp_bind. apply (wp_at_is _ _ c); [reflexivity|]. rewrite (proj2 (N.eqb_neq c 39) H1). apply wp_ret. exact HQ.
Qed.
Lemma rust_char_no_quote c d s (Q : bool -> hst unit -> Prop) i o : (c < 128)%N -> c <> 92%N -> d <> 39%N -> Q false (mk_hst (39 :: c :: d :: s)%N i o tt) -> wp rust_expect_char Q (mk_hst (39 :: c :: d :: s)%N i o tt).
Proof.
  intros Hc H1 H2 HQ. unfold rust_expect_char. apply wp_bind, wp_get_rem. cbn [rem]. change (starts_with_ch (39 :: c :: d :: s)%N (ch "b")) with false. cbv zeta.
  change (length (39 :: c :: d :: s)%N <? 3 + 0) with false. cbn iota. apply wp_bind. apply (wp_at_is _ _ 39%N); [reflexivity|]. change (negb (39 =? 39)%N) with false. cbn iota. apply wp_bind. apply (wp_at_is _ _ c); [reflexivity|].
  destruct (mem c [39; 10; 13; 9]%N); [apply wp_ret; exact HQ|]. rewrite (proj2 (N.eqb_neq c 92) H1). apply wp_bind. apply wp_substr_from; [cbn; lia|]. cbn [skipn Nat.add]. apply wp_bind. eapply wp_lift; [apply decode_ascii; exact Hc|]. cbn [snd].
  apply wp_bind. apply wp_substr_from; [cbn; lia|]. cbn [skipn Nat.add starts_with_ch]. rewrite (proj2 (N.eqb_neq d 39) H2). apply wp_ret. exact HQ.
Qed.
Lemma rust_char_short s (Q : bool -> hst unit -> Prop) i o : length s < 2 -> Q false (mk_hst (39%N :: s) i o tt) -> wp rust_expect_char Q (mk_hst (39%N :: s) i o tt).
Proof.
  intros H HQ. unfold rust_expect_char. apply wp_bind, wp_get_rem. cbn [rem]. change (starts_with_ch (39%N :: s)%N (ch "b")) with false. cbv zeta. rewrite (proj2 (Nat.ltb_lt _ _)) by (cbn [length]; lia). apply wp_ret. exact HQ.
Qed.
Lemma rust_string_no c s (Q : bool -> hst unit -> Prop) i o : classify_string_prefix (c :: s) = None -> Q false (mk_hst (c :: s) i o tt) -> wp rust_expect_string Q (mk_hst (c :: s) i o tt).
Proof. intros H HQ. unfold rust_expect_string. apply wp_bind, wp_get_rem. cbn [rem]. rewrite H. apply wp_ret. exact HQ. Qed.
Lemma no_string_prefix c s : ~ In c [34; 98; 99; 114]%N -> classify_string_prefix (c :: s) = None.
Proof.
  intros H. unfold classify_string_prefix, rust_string_prefixes. change (bs "br#") with [98; 114; 35]%N. change (bs "cr#") with [99; 114; 35]%N. change (bs "r#") with [114; 35]%N. cbn [In] in H.
  cbn [find fst starts_with]. rewrite (proj2 (N.eqb_neq c 34)), (proj2 (N.eqb_neq c 98)), (proj2 (N.eqb_neq c 99)), (proj2 (N.eqb_neq c 114)) by (intros ->; tauto). reflexivity.
Qed.
Lemma ident_prefix (w : str) rest : forall q x v, Forall ident_char w -> not_before ident_char rest -> Forall ident_char q -> ~ ident_char x -> w ++ rest = q ++ x :: v -> w = q /\ rest = x :: v.
Proof.
  induction w as [|c w IH]; intros q x v Fw R Fq Hx E.
  - destruct q as [|d q]; [auto|]. exfalso. cbn [app] in E. subst rest. apply (R d eq_refl). apply (Forall_inv Fq).
  - destruct q as [|d q]; cbn [app] in E.
    + injection E as -> E. elim Hx. apply (Forall_inv Fw).
    + injection E as -> E. apply Forall_inv_tail in Fw, Fq. destruct (IH q x v Fw R Fq Hx E) as [-> ->]. auto.
Qed.
Lemma no_string_ident w rest : identifier w -> not_before ident_or_non_ascii rest -> rust_no_prefix w rest -> classify_string_prefix (w ++ rest) = None.
Proof.
  intros Hw R Hp. destruct (classify_string_prefix (w ++ rest)) as [[n t]|] eqn:E; [exfalso|reflexivity]. unfold classify_string_prefix in E. destruct (find _ _) as [[u nt]|] eqn:F; [|discriminate]. clear E.
  apply find_some in F as [F1 F2]. cbn [fst] in F2. apply starts_with_app in F2 as [v F2].
  assert (W : Forall ident_char w) by (destruct Hw as (c & l & -> & Hc & Hl); constructor; [unfold ident_start in Hc; unfold ident_char; tauto|exact Hl]).
  assert (R2 : not_before ident_char rest) by (eapply not_before_impl; [|exact R]; unfold ident_or_non_ascii; tauto).
  assert (K : forall q x, In q [[]; bs "b"; bs "br"; bs "c"; bs "cr"; bs "r"] -> Forall ident_char q -> In x [34; 35]%N -> u = q ++ [x] -> False).
  { intros q x Q Hq Hx ->. rewrite <- app_assoc in F2. cbn [app] in F2. destruct (ident_prefix w rest q x v W R2 Hq) as [-> ->]; [cbn [In] in Hx; unfold ident_char, letter, digit; lia|exact F2|].
    destruct Q as [<-|Q]; [destruct Hw as (c & l & Ew & _); discriminate Ew|]. apply (Hp Q x eq_refl). cbn [In] in *. change (bs "'#") with [39; 35]%N. cbn [In]. tauto. }
  cbn [rust_string_prefixes In] in F1.
  repeat (destruct F1 as [F1|F1]; [injection F1 as F1 _; eapply (K (removelast u) (last u 0%N)); [rewrite <- F1; vm_compute; tauto|rewrite <- F1; vm_compute; repeat constructor; vm_compute; intuition discriminate|rewrite <- F1; vm_compute; tauto|rewrite <- F1; reflexivity]|]). contradiction.
Qed.
Lemma rust_number_no c s (Q : bool -> hst unit -> Prop) i o : ~ digit c -> c <> 95%N -> (c = 46%N -> not_before digit s) -> Q false (mk_hst (c :: s) i o tt) ->
  wp rust_expect_number Q (mk_hst (c :: s) i o tt).
Proof.
  intros Hd Hs H HQ. unfold rust_expect_number. apply wp_bind, wp_get_rem. cbn [rem]. apply wp_bind.
  assert (E : match_common_number (c :: s) rust_number_options = Ok no_number).
  { apply no_number_match; try reflexivity; try discriminate; try assumption.
    + intros p Hp. cbn in Hp. repeat (destruct Hp as [<-|Hp]; [eexists _, _; split; [reflexivity|]; unfold digit in Hd; lia|]). contradiction.
    + destruct (is_ascii_digit_base c (no_base rust_number_options)) eqn:E; [|reflexivity]. apply digit_10 in E. contradiction.
    + unfold digit in Hd. lia. }
  eapply wp_lift; [unfold rust_match_number; rewrite E; reflexivity|]. apply wp_ret. exact HQ.
Qed.
Lemma rust_lifetime_no debug c s (Q : bool -> hst unit -> Prop) i o : c <> 39%N -> Q false (mk_hst (c :: s) i o tt) -> wp (rust_expect_lifetime debug) Q (mk_hst (c :: s) i o tt).
Proof. intros H HQ. unfold rust_expect_lifetime. apply wp_bind, wp_get_rem. cbn [rem starts_with_ch]. rewrite (proj2 (N.eqb_neq c 39) H). apply wp_ret. exact HQ. Qed.
Lemma rust_identifier_no c s (Q : bool -> hst unit -> Prop) i o : (c < 128)%N -> ~ ident_start c -> Q false (mk_hst (c :: s) i o tt) -> wp rust_expect_identifier Q (mk_hst (c :: s) i o tt).
Proof. intros H1 H2 HQ. unfold rust_expect_identifier. apply wp_bind, wp_get_rem. cbn [rem]. apply wp_bind. eapply wp_lift; [apply not_identifier; assumption|]. apply wp_ret. exact HQ. Qed.
Lemma rust_raw_identifier_no c s (Q : bool -> hst unit -> Prop) i o : c <> 114%N -> Q false (mk_hst (c :: s) i o tt) -> wp rust_expect_raw_identifier Q (mk_hst (c :: s) i o tt).
Proof. intros H HQ. unfold rust_expect_raw_identifier. apply wp_bind, wp_get_rem. cbn [rem]. change (bs "r#") with [114; 35]%N. cbn [starts_with]. rewrite (proj2 (N.eqb_neq c 114) H). apply wp_ret. exact HQ. Qed.

Lemma rust_symbol_longest c t rest : longest rust_symbols (c :: t) rest -> rust_match_punctuation ((c :: t) ++ rest) = rust_match_punctuation (c :: t).
Proof. intros H. unfold rust_match_punctuation. symbol_longest rust_symbols H. Qed.
Lemma rust_symbols_ok : symbols_ok rust_match_punctuation rust_token_by_code rust_symbols = true.
Proof. vm_compute. reflexivity. Qed.
Lemma rust_words_ok : words_ok rust_tokens rust_words = true.
Proof. vm_compute. reflexivity. Qed.
Lemma rust_do_symbol debug t h rest : In (t, h) rust_symbols -> longest rust_symbols t rest -> (t = bs "." -> not_before digit rest) ->
  (t = bs "/" -> not_before (fun c => c = ch "/" \/ c = ch "*") rest) -> rust_does debug [(t, Some h)] rest.
Proof.
  intros Hi Hl Hdot Hsl i o. rewrite text_one. destruct (symbols_ok_In _ _ _ rust_symbols_ok t h Hi) as (E1 & E2 & c & u & -> & Hc).
  assert (Hh : forallb (fun e => let c := hd 0%N (fst e) in negb (mem c [34; 39]%N) && (c <? 128)%N && negb (is_cpp_ascii_identifier_continue c)
     && (negb (c =? 46)%N || str_eqb (fst e) (bs ".") || str_eqb (firstn 2 (fst e)) (bs "..")) && (negb (c =? 47)%N || str_eqb (fst e) (bs "/") || str_eqb (fst e) (bs "/="))) rust_symbols = true) by (vm_compute; reflexivity).
  rewrite forallb_forall in Hh. specialize (Hh _ Hi). cbn [fst hd] in Hh. rewrite !andb_true_iff, !orb_true_iff, !negb_true_iff in Hh. destruct Hh as [[[[H1 H0] H2] H3] H5]. apply N.ltb_lt in H0.
  assert (Nid : ~ ident_char c) by (rewrite <- ident_char_iff; congruence).
  assert (Nq : ~ In c [34; 39]%N) by (rewrite <- mem_In; congruence). cbn [In] in Nq.
  assert (Dot : c = 46%N -> not_before digit (u ++ rest)).
  { intros ->. destruct H3 as [[H3|H3]|H3]; [discriminate| |]; apply str_eqb_eq in H3; [injection H3 as ->; apply Hdot; reflexivity|]. cbn [firstn] in H3. destruct u as [|d u]; [discriminate|]. injection H3 as ->. apply not_before_cons. unfold digit. lia. }
  assert (Sl : c <> 47%N \/ not_before (fun c => c = 47 \/ c = 42)%N (u ++ rest)).
  { destruct H5 as [[H5|H5]|H5]; [left; apply N.eqb_neq; exact H5|right|right]; apply str_eqb_eq in H5; injection H5 as -> ->; [apply Hsl; reflexivity|]. apply not_before_cons. lia. }
  assert (Na : c <> 98%N /\ c <> 99%N /\ c <> 114%N /\ c <> 95%N /\ ~ digit c /\ ~ ident_start c) by (unfold ident_char, ident_start, letter, digit in *; lia). destruct Na as (N1 & N2 & N3 & N4 & N5 & N6).
  unfold rust_token, rust_expect_line_comment, rust_expect_block_comment. cbn [app].
  tryno line_comment_no. { destruct Sl as [Sl|Sl]; [tauto|right]. eapply not_before_impl; [|exact Sl]. cbn beta. tauto. }
  tryno block_comment_no. { destruct Sl as [Sl|Sl]; [tauto|right]. eapply not_before_impl; [|exact Sl]. cbn beta. tauto. }
  tryno rust_char_no; [intuition congruence|congruence|]. tryno rust_string_no; [apply no_string_prefix; cbn [In]; intuition congruence|]. tryno rust_number_no; [assumption|assumption|exact Dot|].
  tryno rust_lifetime_no; [intuition congruence|]. tryno rust_identifier_no; [assumption|assumption|]. tryno rust_raw_identifier_no; [assumption|].
  apply wp_bind. unfold rust_expect_punctuation. apply wp_bind, wp_get_rem. cbn [rem]. change (c :: u ++ rest) with ((c :: u) ++ rest). rewrite rust_symbol_longest, E1, E2 by assumption.
  apply wp_bind. apply wp_emit_exact; [rewrite app_length; cbn; lia|]. rewrite skipn_app_exact. apply wp_ret. cbn iota. apply wp_ret. reflexivity.
Qed.
(** What comes before identifiers does not take one. *)
Lemma rust_at_identifier debug w rest X i o : identifier w -> rust_no_underscore w -> not_before ident_or_non_ascii rest -> rust_no_prefix w rest ->
  wp rust_expect_identifier (fun b st' => b = true /\ st' = X) (mk_hst (w ++ rest) i o tt) ->
  wp (rust_token debug) (fun _ st' => st' = X) (mk_hst (w ++ rest) i o tt).
Proof.
  intros Hw Hu R Hp K. pose proof (no_string_ident w rest Hw R Hp) as NS. destruct Hw as (c & t & -> & Hc & Ft). specialize (Hu c eq_refl). cbn beta in Hu. change (ch "_") with 95%N in Hu.
  assert (Nd : ~ digit c /\ c <> 47%N /\ c <> 39%N /\ c <> 46%N) by (unfold ident_start, letter, digit in *; lia). destruct Nd as (N1 & N2 & N3 & N4).
  unfold rust_token, rust_expect_line_comment, rust_expect_block_comment. cbn [app] in *.
  tryno line_comment_no; [tauto|]. tryno block_comment_no; [tauto|]. tryno rust_char_no; [assumption| |].
  { intros ->. destruct t as [|d t]; cbn [app].
    - specialize (Hp ltac:(vm_compute; tauto)). eapply not_before_impl; [|exact Hp]. cbn beta. intros c ->. vm_compute. tauto.
    - apply not_before_cons. apply Forall_inv in Ft. intros ->. unfold ident_char, letter, digit in Ft. lia. }
  tryno rust_string_no; [exact NS|]. tryno rust_number_no; [assumption|assumption|congruence|]. tryno rust_lifetime_no; [assumption|].
  apply wp_bind. eapply wp_mono; [exact K|]. cbn beta. intros b st' [-> ->]. apply wp_ret. reflexivity.
Qed.
Lemma rust_do_word debug w h rest : identifier w -> rust_no_underscore w -> rust_no_prefix w rest -> not_before ident_or_non_ascii rest ->
  rust_token_by_code w = Some h \/ rust_token_by_code w = None /\ h = hl_name /\ not_before (fun c => c = ch "!") rest -> rust_does debug [(w, Some h)] rest.
Proof.
  intros Hw Hu Hp R Hh i o. rewrite text_one. apply rust_at_identifier; try assumption. pose proof (identifier_exact w rest Hw R) as HI.
  assert (Lw : 0 < length w) by (destruct Hw as (c & t & -> & _); cbn; lia).
  unfold rust_expect_identifier. apply wp_bind, wp_get_rem. cbn [rem]. apply wp_bind. eapply wp_lift; [exact HI|]. rewrite (proj2 (Nat.eqb_neq _ 0)) by lia. rewrite firstn_app_exact.
  destruct Hh as [->|(-> & -> & NB)].
  - apply wp_bind. apply wp_emit_exact; [rewrite app_length; lia|]. rewrite skipn_app_exact. apply wp_ret. split; reflexivity.
  - apply wp_bind. apply wp_substr_from; [rewrite app_length; lia|]. rewrite skipn_app_exact.
    assert (E : starts_with_ch rest (ch "!") = false) by (destruct rest as [|c r]; [reflexivity|]; specialize (NB c eq_refl); cbn [starts_with_ch]; apply N.eqb_neq; exact NB). rewrite E.
    apply wp_bind. apply wp_emit_exact; [rewrite app_length; lia|]. rewrite skipn_app_exact. apply wp_ret. split; reflexivity.
Qed.
Lemma rust_do_macro debug w rest : identifier w -> rust_no_underscore w -> rust_token_by_code w = None -> rust_does debug [(w, Some hl_name_macro); (bs "!", Some hl_name_macro_delim)] rest.
Proof.
  intros Hw Hu Hh i o. rewrite text_cons, text_one, <- app_assoc. change (bs "!") with [33%N]. cbn [app]. assert (R : not_before ident_or_non_ascii (33%N :: rest)) by (apply not_before_cons; unfold ident_or_non_ascii, ident_char, letter, digit; lia).
  apply rust_at_identifier; try assumption; [intros _; apply not_before_cons; change (bs "'#") with [39; 35]%N; cbn [In]; lia|]. pose proof (identifier_exact w _ Hw R) as HI.
  assert (Lw : 0 < length w) by (destruct Hw as (c & t & -> & _); cbn; lia).
  unfold rust_expect_identifier. apply wp_bind, wp_get_rem. cbn [rem]. apply wp_bind. eapply wp_lift; [exact HI|]. rewrite (proj2 (Nat.eqb_neq _ 0)) by lia. rewrite firstn_app_exact, Hh.
  apply wp_bind. apply wp_substr_from; [rewrite app_length; lia|]. rewrite skipn_app_exact. change (starts_with_ch (33%N :: rest) (ch "!")) with true. cbn iota.
  apply wp_bind. apply wp_emit_exact; [rewrite app_length; lia|]. rewrite skipn_app_exact. apply wp_bind. apply wp_emit_exact; [cbn; lia|]. cbn [skipn]. apply wp_ret. split; [reflexivity|]. cbn [tokens rev app length]. rewrite app_length. cbn [length]. rewrite Nat.add_assoc. reflexivity.
Qed.
Lemma rust_do_comment debug p rest : rust_comment p rest -> rust_does debug p rest.
Proof. intros [H _] i o. unfold rust_token, rust_expect_line_comment, rust_expect_block_comment. apply c_comment_token. exact H. Qed.
(** Lifetimes and labels *)
Lemma rust_do_lifetime debug w rest : identifier w -> not_before (fun c => ident_or_non_ascii c \/ c = 39%N) rest ->
  let label := starts_with_ch rest (ch ":") in
  rust_does debug [(bs "'", Some (if label then hl_name_label_delim else hl_name_lifetime_delim)); (w, Some (if label then hl_name_label else hl_name_lifetime))] rest.
Proof.
  intros Hw R label i o. assert (R1 : not_before ident_or_non_ascii rest) by (eapply not_before_impl; [|exact R]; cbn beta; tauto). pose proof (identifier_exact w rest Hw R1) as HI.
  rewrite text_cons, text_one, <- app_assoc. change (bs "'") with [39%N]. cbn [app].
  assert (Lw : 0 < length w) by (destruct Hw as (c & t & -> & _); cbn; lia).
  assert (NC : forall (Q : bool -> hst unit -> Prop), Q false (mk_hst (39%N :: w ++ rest) i o tt) -> wp rust_expect_char Q (mk_hst (39%N :: w ++ rest) i o tt)).
  { intros Q HQ. destruct Hw as (c & t & -> & Hc & Ft). cbn [app] in *. assert (Hd : match t ++ rest with [] => True | d :: _ => d <> 39%N end).
    { destruct t as [|d t]; cbn [app]; [destruct rest as [|d r]; [trivial|]; specialize (R d eq_refl); cbn beta in R; tauto|]. apply Forall_inv in Ft. unfold ident_char, letter, digit in Ft. lia. }
    destruct (t ++ rest) as [|d u]; [apply rust_char_short; [cbn; lia|exact HQ]|]. apply rust_char_no_quote; try assumption; unfold ident_start, letter in Hc; lia. }
  assert (NH : starts_with (39%N :: w ++ rest) (bs "'#r") = false).
  { destruct Hw as (c & t & -> & Hc & Ft). change (bs "'#r") with [39; 35; 114]%N. cbn [app starts_with]. rewrite (proj2 (N.eqb_neq c 35)) by (unfold ident_start, letter in Hc; lia). reflexivity. }
  unfold rust_token, rust_expect_line_comment, rust_expect_block_comment.
  tryno line_comment_no; [left; discriminate|]. tryno block_comment_no; [left; discriminate|]. apply wp_bind. apply NC. cbn iota. tryno rust_string_no; [apply no_string_prefix; cbn [In]; lia|]. tryno rust_number_no; [unfold digit; lia|discriminate|discriminate|].
  apply wp_bind. unfold rust_expect_lifetime. apply wp_bind, wp_get_rem. cbn [rem]. change (negb (starts_with_ch (39%N :: w ++ rest) 39)) with false. cbn iota. cbv zeta. rewrite NH. cbn [skipn]. apply wp_bind. eapply wp_lift; [exact HI|].
  rewrite (proj2 (Nat.eqb_neq _ 0)) by lia. apply wp_bind. unfold rust_emit_lifetime. apply wp_bind, wp_get_rem. cbn [rem]. apply wp_bind. apply wp_substr_from; [cbn [length]; rewrite app_length; lia|]. cbn [Nat.add skipn]. rewrite skipn_app_exact. fold label. cbv zeta.
  apply wp_bind. apply wp_emit_exact; [cbn [length]; lia|]. cbn [skipn]. apply wp_emit_exact; [rewrite app_length; lia|]. rewrite skipn_app_exact. apply wp_bind, wp_get_rem. cbn [rem].
  assert (E : starts_with_ch rest 39 = false) by (destruct rest as [|c r]; [reflexivity|]; specialize (R c eq_refl); cbn beta in R; cbn [starts_with_ch]; apply N.eqb_neq; tauto).
  apply wp_bind, wp_check; [rewrite E, orb_true_r; reflexivity|]. apply wp_ret. cbn iota. apply wp_ret. cbn [tokens rev app length]. change (length (bs "'")) with 1. f_equal. lia.
Qed.
(** Numbers *)
Lemma rust_do_number_pieces debug (d : N -> Prop) p I f e x rest : let n := number_pieces p I f e x in
  (exists c t, text n = c :: t /\ digit c) -> ~ d 95%N -> grouped d 95 I -> (forall f', f = Some f' -> f' = [] \/ grouped d 95 f') ->
  match e with Some (es, ed) => es <> [] /\ ed <> [] /\ Forall digit ed | None => True end ->
  (f <> None \/ e <> None -> p = []) -> (f = None -> e = None -> not_before (fun c => In c (bs "eE")) x) ->
  match_common_number (text n ++ rest) rust_number_options = Ok (mk_number (length p + length (text I) + length (frac_text f) + length (exp_text e) + length x)
    0 (length p) (length (text I)) (match f with None => 0 | Some _ => 1 end) (match f with None => 0 | Some f => length (text f) end)
    (match e with None => 0 | Some (e, _) => length e end) (match e with None => 0 | Some (_, d) => length d end) (length x) false) ->
  rust_does debug n rest.
Proof.
  intros n (c & t & En & Hc) Hd GI GF GE HP HX HM i o. assert (LI : 0 < length (text I)) by (apply grouped_ne in GI; destruct (text I); [congruence|cbn; lia]).
  assert (HM2 : rust_match_number (text n ++ rest) = match_common_number (text n ++ rest) rust_number_options).
  { unfold rust_match_number. rewrite HM. cbn [bind]. match goal with |- (if negb (nr_is_non_integer ?r) then _ else _) = _ => set (R := r) end.
    destruct (nr_is_non_integer R) eqn:Ei; cbn [negb].
    - unfold R. rewrite HP; [reflexivity|]. unfold nr_is_non_integer, R in Ei. cbn [nr_radix_point nr_exponent_sep] in Ei. destruct f; [left; discriminate|]. destruct e; [right; discriminate|]. discriminate Ei.
    - unfold R in *. cbn [nr_suffix nr_length]. destruct x as [|y x]; [reflexivity|]. cbn [length Nat.eqb].
      assert (f = None /\ e = None) as [-> ->].
      { unfold nr_is_non_integer, R in Ei. cbn [nr_radix_point nr_exponent_sep] in Ei. destruct f as [f|]; [discriminate Ei|]. destruct e as [[[|? ?] ?]|]; [destruct GE; congruence|discriminate Ei|auto]. }
      assert (T : text n = (p ++ text I) ++ y :: x) by (unfold n; rewrite number_pieces_text; cbn [frac_text exp_text app]; rewrite app_assoc; reflexivity).
      rewrite T. cbn [frac_text exp_text length]. rewrite (proj2 (Nat.leb_le _ _)) by lia. cbn [check bind]. 
      match goal with |- context [skipn ?k _] => assert (Ek : k = length (p ++ text I)) by (rewrite app_length; lia) end.
      rewrite Ek. rewrite (proj2 (Nat.leb_le _ _)) by (rewrite !app_length; lia). cbn [check bind]. rewrite <- app_assoc, skipn_app_exact. cbn [app firstn].
      pose proof (HX eq_refl eq_refl y eq_refl) as NE. cbn beta in NE. cbn in NE. change (ch "e") with 101%N. change (ch "E") with 69%N. rewrite (proj2 (N.eqb_neq y 101)), (proj2 (N.eqb_neq y 69)) by (intros ->; tauto). reflexivity. }
  unfold rust_token, rust_expect_line_comment, rust_expect_block_comment. rewrite En. cbn [app]. unfold digit in Hc.
  tryno line_comment_no; [left; lia|]. tryno block_comment_no; [left; lia|]. tryno rust_char_no; [lia|lia|]. tryno rust_string_no; [apply no_string_prefix; cbn [In]; lia|].
  change (c :: t ++ rest) with ((c :: t) ++ rest). rewrite <- En in *. apply wp_bind. unfold rust_expect_number. apply wp_bind, wp_get_rem. cbn [rem]. apply wp_bind. eapply wp_lift; [rewrite HM2; exact HM|]. cbn [nr_length].
  match goal with |- context [?a =? 0] => rewrite (proj2 (Nat.eqb_neq a 0)) by lia end. apply wp_bind. unfold n. apply (highlight_sep_exact d); try assumption; try discriminate.
  - unfold digit. lia.
  - auto.
  - apply wp_ret. cbn iota. apply wp_ret. reflexivity.
Qed.
Lemma rust_exp_good e : rust_exp e ->
  match e with
  | Some (es, ed) => true = true /\ In es (map fst (no_exponents rust_number_options)) /\ fst (fst (number_exponent es (no_exponents rust_number_options))) = length es /\ ed <> [] /\ Forall digit ed
                     /\ not_before (fun c => digit c \/ c = no_separator rust_number_options) es
  | None => True
  end.
Proof.
  intros H. destruct e as [[es ed]|]; [|exact Logic.I]. destruct (H es ed eq_refl) as ((l & s & Hl & Hs & ->) & H2 & H3). split; [reflexivity|].
  cbn [In] in Hl, Hs; destruct Hl as [<-|[<-|[]]]; destruct Hs as [<-|[<-|[<-|[]]]]; (split; [vm_compute; tauto|]; split; [vm_compute; reflexivity|]; split; [exact H2|]; split; [exact H3|]; nb).
Qed.
Lemma rust_suffix_ok no x rest : rust_suffix no x -> not_before ident_or_non_ascii rest -> suffix_match rust_number_options (x ++ rest) = length x.
Proof.
  intros Hx R. change (rust_match_suffix (x ++ rest) = length x). unfold rust_match_suffix. destruct Hx as [->|[Hx _]].
  - cbn [app length]. rewrite no_identifier_here; [reflexivity|]. eapply not_before_impl; [|exact R]. cbn beta. unfold ident_or_non_ascii, ident_char, ident_start. tauto.
  - rewrite identifier_exact by assumption. reflexivity.
Qed.
Lemma rust_literal debug p (d : N -> Prop) base I f e x rest (no : N -> Prop) :
  (forall c, is_ascii_digit_base c base = true <-> d c) -> (forall c, d c -> hex_digit c) ->
  number_base rust_number_options (p ++ text I ++ frac_text f ++ exp_text e ++ x ++ rest) (no_prefixes rust_number_options) = Ok (length p, match p with [] => true | _ => false end, base) ->
  (p = [] /\ d = digit \/ exists b, p = [48; b]%N /\ f = None /\ e = None) -> grouped d 95 I ->
  (forall f', f = Some f' -> grouped d 95 f' \/ f' = [] /\ e = None /\ x = [] /\ rest <> []) -> rust_exp e ->
  rust_suffix no x -> (e = None -> forall c, d c \/ In c (bs "_eE") -> no c \/ ~ ident_start c) -> not_before ident_or_non_ascii rest -> (e = None -> x = [] -> not_before (fun c => c = ch ".") rest) ->
  rust_does debug (number_pieces p I f e x) rest.
Proof.
  intros Hd Hhex HB HP GI GF GE GX HX R RD.
  assert (D95 : ~ d 95%N) by (intros D; apply Hhex in D; unfold hex_digit in D; lia).
  assert (D46 : ~ d 46%N) by (intros D; apply Hhex in D; unfold hex_digit in D; lia).
  assert (XE : e = None -> forall c, d c \/ In c (bs "_eE") -> hd_error x <> Some c).
  { intros He c Hc E. destruct GX as [->|[(y & t & -> & Hy & _) Hn]]; [discriminate E|]. injection E as ->. specialize (Hn c eq_refl). cbn beta in Hn. destruct (HX He c Hc); contradiction. }
  assert (HR : forall q : N -> Prop, not_before q x -> (forall c, q c -> ident_or_non_ascii c \/ e = None /\ c = 46%N) -> not_before q (x ++ rest)).
  { intros q Q1 Q2. destruct x as [|y x']; [|intros c Ec; apply (Q1 c); exact Ec]. cbn [app]. intros c Ec Qc. destruct (Q2 c Qc) as [K|[He K]]; [exact (R c Ec K)|exact (RD He eq_refl c Ec K)]. }
  apply (rust_do_number_pieces debug d).
  - rewrite number_pieces_text. destruct HP as [[-> ->]|(b & -> & _)]; [|exists 48%N; eexists; split; [reflexivity|unfold digit; lia]]. cbn [app]. 
    destruct (grouped_second _ _ _ GI) as (c & t & -> & Hc & _). exists c. eexists. split; [reflexivity|exact Hc].
  - exact D95.
  - exact GI.
  - intros f' E. destruct (GF f' E) as [G|[G _]]; auto.
  - pose proof (rust_exp_good e GE) as K. destruct e as [[es ed]|]; [|exact Logic.I]. destruct K as (_ & K1 & _ & K2 & K3 & _). split; [|auto]. intros ->. cbn in K1. intuition discriminate.
  - intros K. destruct HP as [[HP _]|(b & _ & -> & ->)]; [exact HP|tauto].
  - intros _ He c Ec Hc. apply (XE He c); [|exact Ec]. right. change (bs "_eE") with [95; 101; 69]%N. change (bs "eE") with [101; 69]%N in Hc. cbn [In] in *. tauto.
  - rewrite number_pieces_text, <- !app_assoc. apply (literal_exact rust_number_options p d (match p with [] => true | _ => false end) base I f e x rest); try reflexivity; try discriminate; try assumption.
    + left. exact GI.
    + intros f' E. destruct HP as [[-> _]|(b & _ & -> & _)]; [|discriminate E]. split; [reflexivity|]. destruct (GF f' E) as [G|(-> & -> & -> & G)]; auto.
    + pose proof (rust_exp_good e GE) as K. destruct e as [[es ed]|].
      * destruct HP as [[-> ->]|(b & _ & _ & HP)]; [|discriminate HP]. exact K.
      * intros _. apply no_exponent; [reflexivity|]. apply HR.
        -- intros c Ec Hc. apply (XE eq_refl c); [|exact Ec]. right. vm_compute in Hc. vm_compute. intuition subst; tauto.
        -- intros c Hc. left. vm_compute in Hc. unfold ident_or_non_ascii, ident_char, letter. intuition subst; lia.
    + intros _. eapply rust_suffix_ok; eassumption.
    + apply HR.
      * destruct e as [ee|]; intros c Ec Q; cbv beta iota in Q.
        -- destruct GX as [->|[(y & t & -> & Hy & _) _]]; [discriminate Ec|]. injection Ec as ->. unfold ident_start, letter in Hy. unfold digit in Q. lia.
        -- destruct Q as [Q|[Q|Q]]; [exact (XE eq_refl c (or_introl Q) Ec)|cbn in Q; subst c; apply (XE eq_refl 95%N); [right; left; reflexivity|exact Ec]|]. subst c. destruct GX as [->|[(y & t & -> & Hy & _) _]]; [discriminate Ec|]. injection Ec as ->. unfold ident_start, letter in Hy. lia.
      * intros c. destruct e as [ee|]; cbv beta iota; [unfold ident_or_non_ascii, ident_char; tauto|]. intros [D|[D|D]]; [left; apply Hhex in D; unfold hex_digit in D; unfold ident_or_non_ascii, ident_char, letter, digit; lia|left; cbn in D; subst c; unfold ident_or_non_ascii, ident_char, letter, digit; lia|auto].
Qed.
Lemma rust_do_number debug n rest : rust_number n rest -> rust_does debug n rest.
Proof.
  assert (B10 : forall c, digit c -> hex_digit c) by (unfold digit, hex_digit; lia).
  assert (Dec : forall I f e x rest, grouped digit 95 I -> rust_exp e -> not_before ident_or_non_ascii rest -> (f = None -> e = None -> text I = bs "0" -> not_before (fun c => In c (bs "box")) x) ->
     number_base rust_number_options ([] ++ text I ++ frac_text f ++ exp_text e ++ x ++ rest) (no_prefixes rust_number_options) = Ok (length (@nil N), true, 10%Z)).
  { clear rest. intros I f e x rest G GE R HX. destruct (grouped_second _ _ _ G) as (c & t & Et & Hc & Ht). rewrite Et in *. cbn [app length].
    destruct (N.eq_dec c 48) as [->|Nc].
    2:{ rewrite number_base_none; [rewrite (proj2 (N.eqb_neq c 48) Nc : starts_with_ch (c :: _) 48 = false); reflexivity|].
        apply Forall_forall. intros p Hp. cbn in Hp. repeat (destruct Hp as [<-|Hp]; [split; [discriminate|]; cbn [np_str starts_with bs]; cbn; rewrite (proj2 (N.eqb_neq c 48) Nc); reflexivity|]). contradiction. }
    apply decimal_base; try reflexivity.
    intros y Hy Iy. assert (Jy : y = 98%N \/ y = 111%N \/ y = 120%N) by (vm_compute in Iy; intuition congruence). clear Iy. destruct t as [|z t]; cbn [app] in Hy.
    2:{ injection Hy as ->. specialize (Ht y eq_refl). unfold digit in Ht. lia. }
    destruct f as [f|]; [cbn in Hy; injection Hy as <-; lia|]. cbn [frac_text app] in Hy. destruct e as [[es ed]|].
    - destruct (GE es ed eq_refl) as ((l & s & Hl & Hs & ->) & _). cbn [In] in Hl. destruct Hl as [<-|[<-|[]]]; cbn in Hy; injection Hy as <-; lia.
    - cbn [exp_text app] in Hy. destruct x as [|z x]; [cbn in Hy; apply (R y Hy); unfold ident_or_non_ascii, ident_char, letter; lia|]. apply (HX eq_refl eq_refl eq_refl y); [exact Hy|]. vm_compute. intuition. }
  assert (NE : rust_exp None) by (intros ? ? [=]).
  intros [base d I x r Hb G HX [R RD]|I f x r G GF HX H0 [R RD]|I f e x r G GF He GE HX R|I r G Hr R].
  - cbn [In] in Hb. destruct Hb as [Hb|[Hb|[Hb|[]]]]; injection Hb as <- <-.
    + apply (rust_literal debug (bs "0b") binary_digit 2 I None None x r (fun c => binary_digit c \/ In c (bs "_eE"))); auto; try discriminate; solve [exact digit_2 | unfold binary_digit, hex_digit; lia | reflexivity | right; eexists; repeat split].
    + apply (rust_literal debug (bs "0o") octal_digit 8 I None None x r (fun c => octal_digit c \/ In c (bs "_eE"))); auto; try discriminate; solve [exact digit_8 | unfold octal_digit, hex_digit; lia | reflexivity | right; eexists; repeat split].
    + apply (rust_literal debug (bs "0x") hex_digit 16 I None None x r (fun c => hex_digit c \/ In c (bs "_eE"))); auto; try discriminate; solve [exact digit_16 |  reflexivity | right; eexists; repeat split].
  - apply (rust_literal debug [] digit 10 I f None x r (fun c => In c (bs "_eE"))); auto; try discriminate; [exact digit_10|].
    intros _ c [K|K]; [right; unfold digit in K; unfold ident_start, letter; lia|auto].
  - apply (rust_literal debug [] digit 10 I f e x r (fun _ => False)); auto; try discriminate; try congruence; [exact digit_10|]. apply Dec; auto. congruence.
  - assert (R1 : not_before ident_or_non_ascii r) by (eapply not_before_impl; [|exact R]; cbn beta; tauto).
    apply (rust_literal debug [] digit 10 I (Some []) None [] r (fun c => In c (bs "_eE"))); auto; try discriminate; try congruence.
    + exact digit_10.
    + apply Dec; auto; discriminate.
    + intros f' [= <-]. auto.
    + left. reflexivity.
    + intros _ c [K|K]; [right; unfold digit in K; unfold ident_start, letter; lia|auto].
    + intros _ _. eapply not_before_impl; [|exact R]. cbn beta. tauto.
Qed.
(** Literals *)
Lemma rust_suffix_no rest i o (Q : unit -> hst unit -> Prop) : no_suffix rest -> Q tt (mk_hst rest i o tt) -> wp rust_literal_suffix Q (mk_hst rest i o tt).
Proof.
  intros H HQ. unfold rust_literal_suffix. apply wp_bind, wp_get_rem. cbn [rem]. apply wp_bind. eapply wp_lift; [apply no_identifier_here; exact H|]. cbn [Nat.eqb negb when]. apply wp_ret. exact HQ.
Qed.
Lemma rust_escape_exact unicode line e rest t : rust_escape unicode line e -> (unicode = true -> string_type_has_unicode_escape t = true) ->
  rust_match_escape_sequence (e ++ rest) t = Ok (mk_escape (length e) false) /\ exists c u, e = 92%N :: c :: u /\ (line = false -> u = [] -> c <> 10%N).
Proof.
  intros [c Hc|Hl|d Hd|d Hu Hn Fd] HT.
  - change (34%N :: bs "'nrt\0") with [34; 39; 110; 114; 116; 92; 48]%N in Hc. cbn [In] in Hc. split.
    + repeat (destruct Hc as [<-|Hc]; [reflexivity|]). contradiction.
    + exists c, []. split; [reflexivity|]. intros _ _. lia.
  - split; [reflexivity|]. exists 10%N, []. split; [reflexivity|congruence].
  - change (bs "\x") with [92; 120]%N. split.
    + rewrite <- app_assoc. change (match_common_escape_at hex_2 ([92; 120]%N ++ d ++ rest) (length [92; 120]%N) = Ok (mk_escape (length ([92; 120]%N ++ d)) false)).
      rewrite escape_at by (apply (escape_hex hex_2 2); [tauto|exact Hd]). f_equal. f_equal. rewrite app_length. cbn. lia.
    + exists 120%N, d. split; [reflexivity|]. intros _ _. discriminate.
  - change (bs "\u{") with [92; 117; 123]%N. change (bs "}") with [125]%N. split.
    + assert (E : ([92; 117; 123]%N ++ d ++ [125]%N) ++ rest = [92; 117]%N ++ (123%N :: d ++ [125]%N) ++ rest) by (cbn [app]; reflexivity). rewrite E.
      assert (F : rust_match_escape_sequence ([92; 117]%N ++ (123%N :: d ++ [125]%N) ++ rest) t = match_common_escape_at nonempty_braced ([92; 117]%N ++ (123%N :: d ++ [125]%N) ++ rest) (length [92; 117]%N)).
      { cbn [app rust_match_escape_sequence]. change (92 =? 92)%N with true. cbn [negb]. change (mem 117%N (34 :: 10 :: bs "'nrt\0")%N) with false. change (117 =? ch "x")%N with false. change (117 =? ch "u")%N with true. cbn iota. rewrite (HT Hu). reflexivity. }
      rewrite F. rewrite escape_at by (apply escape_named; intros K; rewrite Forall_forall in Fd; specialize (Fd _ K); unfold hex_digit in Fd; lia). f_equal. f_equal. cbn [app length]. rewrite !app_length. cbn. lia.
    + exists 117%N. eexists. split; [reflexivity|]. intros _ _. discriminate.
Qed.
Definition byte_prefix (byte : bool) : list piece := if byte then [(bs "b", Some hl_string_decor)] else [].
Definition char_pieces (byte : bool) (w : str) (h : N) : list piece := byte_prefix byte ++ [rust_quote; (w, Some h); rust_quote].
Lemma rust_emit_char_exact (byte : bool) w h rest i o : w <> [] -> no_suffix rest ->
  let p := char_pieces byte w h in
  wp (rust_emit_char byte (length w) h) (fun _ st' => st' = mk_hst rest (i + length (text p)) (rev (tokens i p) ++ o) tt) (mk_hst (text p ++ rest) i o tt).
Proof.
  intros Hw Hs p. assert (Lw : 0 < length w) by (destruct w; [congruence|cbn; lia]). 
  assert (K : forall j o', wp (emit_and_advance 1 hl_string_delim ;; emit_and_advance (length w) h ;; emit_and_advance 1 hl_string_delim ;; rust_literal_suffix)
    (fun _ st' => st' = mk_hst rest (j + 1 + length w + 1) (OEmit (j + 1 + length w) 1 hl_string_delim false :: OEmit (j + 1) (length w) h false :: OEmit j 1 hl_string_delim false :: o') tt) (mk_hst (39%N :: w ++ 39%N :: rest) j o' tt)).
  { intros j o'. apply wp_bind. apply wp_emit_exact; [cbn; lia|]. cbn [skipn]. apply wp_bind. apply wp_emit_exact; [rewrite app_length; lia|]. rewrite skipn_app_exact. apply wp_bind. apply wp_emit_exact; [cbn; lia|]. cbn [skipn]. apply rust_suffix_no; [exact Hs|]. reflexivity. }
  subst p. unfold rust_emit_char. destruct byte; cbn [when char_pieces byte_prefix app].
  - match goal with |- wp _ _ (mk_hst ?t _ _ _) => replace t with (98%N :: 39%N :: w ++ 39%N :: rest) by (unfold rust_quote; rewrite !text_cons, <- !app_assoc; reflexivity) end.
    apply wp_bind. apply wp_emit_exact; [cbn; lia|]. cbn [skipn]. eapply wp_mono; [apply K|]. cbn beta. intros _ st' ->. unfold rust_quote. cbn [tokens rev app]. rewrite !text_cons, !app_length. change (length (bs "b")) with 1. change (length (bs "'")) with 1. cbn [text map concat length]. f_equal. lia.
  - match goal with |- wp _ _ (mk_hst ?t _ _ _) => replace t with (39%N :: w ++ 39%N :: rest) by (unfold rust_quote; rewrite !text_cons, <- !app_assoc; reflexivity) end.
    apply wp_bind, wp_ret. eapply wp_mono; [apply K|]. cbn beta. intros _ st' ->. unfold rust_quote. cbn [tokens rev app]. rewrite !text_cons, !app_length. change (length (bs "'")) with 1. cbn [text map concat length]. f_equal. lia.
Qed.
Lemma encoding_head c : scalar_value c -> exists b t, utf8_encoding c = b :: t /\ ((c < 128)%N /\ b = c /\ t = [] \/ (128 <= c)%N /\ (128 <= b)%N).
Proof.
  intros _. unfold utf8_encoding. destruct (N.ltb_spec c 128) as [L|L]; [eauto 8|]. repeat match goal with |- context [if ?b then _ else _] => destruct b end; eexists _, _; (split; [reflexivity|]; right; split; [exact L|lia]).
Qed.
Lemma decode_encoding c rest : scalar_value c -> bytes (utf8_encoding c ++ rest) -> (c < 128)%N \/ (Z.of_nat (length rest) < 2147483644)%Z ->
  decode_and_length_or_replacement (utf8_encoding c ++ rest) = Ok (c, length (utf8_encoding c)).
Proof.
  intros Sc B L. destruct (encoding_head c Sc) as (b & t & E & [(Hc & -> & ->)|(Hc & Hb)]).
  - rewrite E. apply decode_ascii. exact Hc.
  - destruct L as [L|L]; [lia|]. assert (Le : length (utf8_encoding c) <= 4) by (unfold utf8_encoding; repeat match goal with |- context [if ?b then _ else _] => destruct b end; cbn; lia).
    destruct (C19_replacement (utf8_encoding c ++ rest) B) as (c' & n & D & _ & NX & _).
    + rewrite E. discriminate.
    + rewrite app_length. change (2 ^ 31)%Z with 2147483648%Z. lia.
    + rewrite D. destruct (next_unique _ _ _ _ _ NX (next_encoding c rest Sc)) as [-> ->]. reflexivity.
Qed.
(** What comes before character literals *)
Lemma rust_char_token debug s X i o : (exists c t, s = c :: t /\ (c = 39 \/ c = 98)%N) -> wp rust_expect_char (fun b st' => b = true /\ st' = X) (mk_hst s i o tt) ->
  wp (rust_token debug) (fun _ st' => st' = X) (mk_hst s i o tt).
Proof.
  intros (c & t & -> & Hc) K. unfold rust_token, rust_expect_line_comment, rust_expect_block_comment. tryno line_comment_no; [left; lia|]. tryno block_comment_no; [left; lia|].
  apply wp_bind. eapply wp_mono; [exact K|]. cbn beta. intros b st' [-> ->]. apply wp_ret. reflexivity.
Qed.
Lemma rust_do_char_escape debug byte e rest : rust_escape (negb byte) false e -> no_suffix rest -> rust_does debug (char_pieces byte e hl_string_escape) rest.
Proof.
  intros He Hs i o. assert (Es : text (char_pieces byte e hl_string_escape) ++ rest = (if byte then [98%N] else []) ++ 39%N :: e ++ 39%N :: rest).
  { unfold char_pieces, byte_prefix, rust_quote. destruct byte; cbn [app]; rewrite !text_cons, <- !app_assoc; reflexivity. }
  destruct (rust_escape_exact _ _ _ (39%N :: rest) rs_string He ltac:(reflexivity)) as (E & c & u & Ee & Hn).
  apply rust_char_token; [rewrite Es; destruct byte; cbn [app]; eauto|]. pose proof (rust_emit_char_exact byte e hl_string_escape rest i o ltac:(rewrite Ee; discriminate) Hs) as K. cbv zeta in K. rewrite Es in *.
  unfold rust_expect_char. apply wp_bind, wp_get_rem. cbn [rem]. set (r := (if byte then [98%N] else []) ++ 39%N :: e ++ 39%N :: rest) in *.
  assert (Eb : starts_with_ch r (ch "b") = byte) by (unfold r; destruct byte; reflexivity). rewrite Eb. cbv zeta. set (b := if byte then 1 else 0).
  assert (Lr : length r = b + 1 + length e + 1 + length rest) by (unfold r, b; rewrite app_length; cbn [length]; rewrite app_length; cbn [length]; destruct byte; cbn [length]; lia).
  assert (Le : 2 <= length e) by (rewrite Ee; cbn; lia).
  rewrite (proj2 (Nat.ltb_ge _ _)) by lia. 
  assert (S1 : skipn (b + 1) r = e ++ 39%N :: rest) by (unfold r, b; destruct byte; reflexivity).
  assert (S2 : skipn (b + 1 + length e) r = 39%N :: rest) by (rewrite <- skipn_skipn, S1; apply skipn_app_exact).
  assert (N0 : nth_error r b = Some 39%N) by (unfold r, b; destruct byte; reflexivity).
  assert (N1 : nth_error r (b + 1) = Some 92%N) by (rewrite <- (Nat.add_0_r (b + 1)), <- nth_error_skipn, S1, Ee; reflexivity).
  assert (N2 : nth_error r (b + 1 + 1) = Some c) by (rewrite <- nth_error_skipn, S1, Ee; reflexivity).
  apply wp_bind. apply (wp_at_is _ _ 39%N); [exact N0|]. change (negb (39 =? 39)%N) with false. cbn iota. apply wp_bind. apply (wp_at_is _ _ 92%N); [exact N1|]. change (mem 92%N [39; 10; 13; 9]%N) with false. change (92 =? 92)%N with true. cbn iota.
  apply wp_bind. apply wp_substr_from; [lia|]. rewrite S1. apply wp_bind. eapply wp_lift; [exact E|]. cbn [es_length es_erroneous]. rewrite (proj2 (Nat.eqb_neq (length e) 0)) by lia.
  assert (Fin : wp (rust_emit_char byte (length e) hl_string_escape ;; ret true) (fun b0 st' => b0 = true /\ st' = mk_hst rest (i + length (text (char_pieces byte e hl_string_escape))) (rev (tokens i (char_pieces byte e hl_string_escape)) ++ o) tt) (mk_hst r i o tt)).
  { apply wp_bind. eapply wp_mono; [exact K|]. cbn beta. intros _ st' ->. apply wp_ret. auto. }
  apply wp_bind. destruct (Nat.eqb_spec (length e) 2) as [E2|E2].
  - apply (wp_at_is _ _ c); [exact N2|]. rewrite (proj2 (N.eqb_neq c 10)) by (apply Hn; [reflexivity|]; rewrite Ee in E2; cbn in E2; destruct u; [reflexivity|cbn in E2; lia]). cbn [andb]. apply wp_bind. apply wp_substr_from; [lia|]. rewrite S2. change (negb (starts_with_ch (39%N :: rest) 39)) with false. cbn iota. exact Fin.
  - apply wp_ret. cbn [andb]. apply wp_bind. apply wp_substr_from; [lia|]. rewrite S2. change (negb (starts_with_ch (39%N :: rest) 39)) with false. cbn iota. exact Fin.
Qed.
Lemma rust_do_char_plain debug byte c rest : scalar_value c -> ~ In c [39; 92; 10; 13; 9]%N -> (c < 128)%N \/ (Z.of_nat (length rest) < 2147483640)%Z -> no_suffix rest ->
  bytes (utf8_encoding c ++ 39%N :: rest) ->
  rust_does debug (char_pieces byte (utf8_encoding c) hl_string) rest.
Proof.
  intros Sc Hc HL Hs HB i o. set (e := utf8_encoding c) in *. assert (Es : text (char_pieces byte e hl_string) ++ rest = (if byte then [98%N] else []) ++ 39%N :: e ++ 39%N :: rest).
  { unfold char_pieces, byte_prefix, rust_quote. destruct byte; cbn [app]; rewrite !text_cons, <- !app_assoc; reflexivity. }
  destruct (encoding_head c Sc) as (x & u & Ee & Hx). fold e in Ee.
  assert (D : decode_and_length_or_replacement (e ++ 39%N :: rest) = Ok (c, length e)).
  { apply decode_encoding; [exact Sc|exact HB|]. cbn [length]. lia. }
  assert (Nx : ~ In x [39; 92; 10; 13; 9]%N) by (destruct Hx as [(_ & -> & _)|(_ & Hx)]; [exact Hc|cbn [In]; lia]).
  apply rust_char_token; [rewrite Es; destruct byte; cbn [app]; eauto|]. pose proof (rust_emit_char_exact byte e hl_string rest i o ltac:(rewrite Ee; discriminate) Hs) as K. cbv zeta in K. rewrite Es in *.
  unfold rust_expect_char. apply wp_bind, wp_get_rem. cbn [rem]. set (r := (if byte then [98%N] else []) ++ 39%N :: e ++ 39%N :: rest) in *.
  assert (Eb : starts_with_ch r (ch "b") = byte) by (unfold r; destruct byte; reflexivity). rewrite Eb. cbv zeta. set (b := if byte then 1 else 0).
  assert (Lr : length r = b + 1 + length e + 1 + length rest) by (unfold r, b; rewrite app_length; cbn [length]; rewrite app_length; cbn [length]; destruct byte; cbn [length]; lia).
  assert (Le : 1 <= length e) by (rewrite Ee; cbn; lia).
  rewrite (proj2 (Nat.ltb_ge _ _)) by lia. 
  assert (S1 : skipn (b + 1) r = e ++ 39%N :: rest) by (unfold r, b; destruct byte; reflexivity).
  assert (S2 : skipn (b + 1 + length e) r = 39%N :: rest) by (rewrite <- skipn_skipn, S1; apply skipn_app_exact).
  assert (N0 : nth_error r b = Some 39%N) by (unfold r, b; destruct byte; reflexivity).
  assert (N1 : nth_error r (b + 1) = Some x) by (rewrite <- (Nat.add_0_r (b + 1)), <- nth_error_skipn, S1, Ee; reflexivity).
  apply wp_bind. apply (wp_at_is _ _ 39%N); [exact N0|]. change (negb (39 =? 39)%N) with false. cbn iota. apply wp_bind. apply (wp_at_is _ _ x); [exact N1|].
  assert (M : mem x [39; 10; 13; 9]%N = false) by (destruct (mem x [39; 10; 13; 9]%N) eqn:E; [apply mem_In in E; cbn [In] in *; tauto|reflexivity]). rewrite M.
  rewrite (proj2 (N.eqb_neq x 92)) by (intros ->; apply Nx; cbn; tauto).
  apply wp_bind. apply wp_substr_from; [lia|]. rewrite S1. apply wp_bind. eapply wp_lift; [exact D|]. cbn [snd]. apply wp_bind. apply wp_substr_from; [lia|]. rewrite S2. change (negb (starts_with_ch (39%N :: rest) 39)) with false. cbn iota.
  apply wp_bind. eapply wp_mono; [exact K|]. cbn beta. intros _ st' ->. apply wp_ret. auto.
Qed.
Lemma rust_do_char debug p rest : rust_char p rest -> no_suffix rest -> bytes (text p ++ rest) -> rust_does debug p rest.
Proof.
  intros [c r Sc Hc HL|e r He|c r Hc Hn|e r He] Hs HB.
  - apply (rust_do_char_plain debug false); try assumption. unfold rust_quote in HB. rewrite !text_cons, <- !app_assoc in HB. apply Forall_app in HB. apply HB.
  - apply (rust_do_char_escape debug false); assumption.
  - assert (Ec : utf8_encoding c = [c]) by (unfold utf8_encoding; rewrite (proj2 (N.ltb_lt _ _)); [reflexivity|exact Hc]).
    pose proof (rust_do_char_plain debug true c r) as K. rewrite Ec in K. apply K; try assumption; [unfold scalar_value; lia|auto|]. unfold rust_quote in HB. rewrite !text_cons, <- !app_assoc in HB. apply Forall_app in HB as [_ HB]. apply Forall_app in HB. apply HB.
  - apply (rust_do_char_escape debug true); assumption.
Qed.
(** Strings *)
Section strings.
Variable close : list piece.
Variable rest : str.
Definition rust_end (i : nat) (o : list out_op) (_ : unit) (st' : hst unit) : Prop :=
  st' = mk_hst rest (i + length (text close)) (rev (tokens i close) ++ o) tt.
Lemma rust_string_scan t unicode (Hclose : rust_closing rust_double close rest) (HT : unicode = true -> string_type_has_unicode_escape t = true) l i o :
  string_body hl_string rust_plain (rust_item unicode) (text close ++ rest) true l ->
  wp (hloop 1 (rust_string_body t) 0) (fun b st' => rust_end (i + length (text l)) (rev (tokens i l) ++ o) b st') (mk_hst (text l ++ text close ++ rest) i o tt).
Proof.
  assert (Hitem : forall p r, rust_item unicode p r -> exists e u, p = [(e, Some hl_string_escape)] /\ e = 92%N :: u /\ rust_match_escape_sequence (e ++ r) t = Ok (mk_escape (length e) false)).
  { intros p r [e r' He]. destruct (rust_escape_exact _ _ _ r' t He HT) as (E & c & u & Eu & _). exists e, (c :: u). auto. }
  apply (scan_body tt (rust_string_body t) hl_string rust_plain (rust_item unicode) (text close ++ rest) rust_end).
  - intros p r Hp. destruct (Hitem p r Hp) as (e & u & -> & -> & _). discriminate.
  - intros run r len j o1 P L. unfold rust_string_body. apply wp_bind, wp_get_rem. cbn [rem]. rewrite (proj2 (Nat.ltb_lt len (length (run ++ r)))) by (rewrite app_length; lia). cbn [negb].
    destruct (nth_error run len) as [c|] eqn:Ec; [|apply nth_error_None in Ec; lia]. apply wp_bind. apply (wp_at_is _ _ c); [rewrite nth_error_app1 by lia; exact Ec|].
    unfold rust_plain in P. rewrite Forall_forall in P. specialize (P c (nth_error_In _ _ Ec)). cbn [In] in P. rewrite (proj2 (N.eqb_neq c 34)), (proj2 (N.eqb_neq c 92)) by (intros ->; tauto). apply wp_ret. auto.
  - intros run p r j o1 Hrun Hp. destruct (Hitem p r Hp) as (e & u & -> & Ee & He). rewrite text_one. unfold rust_string_body. apply wp_bind, wp_get_rem. cbn [rem].
    rewrite (proj2 (Nat.ltb_lt (length run) _)) by (rewrite !app_length, Ee; cbn; lia). cbn [negb]. apply wp_bind. apply (wp_at_is _ _ 92%N).
    { rewrite Ee. rewrite nth_error_app2, Nat.sub_diag by lia. reflexivity. }
    change (92 =? 34)%N with false. change (92 =? 92)%N with true. cbn iota. apply flush_run. apply wp_bind, wp_get_rem. cbn [rem]. apply wp_bind. eapply wp_lift; [exact He|]. cbn [es_length es_erroneous].
    rewrite (proj2 (Nat.eqb_neq (length e) 0)) by (rewrite Ee; discriminate). apply wp_bind. apply wp_emit_exact; [rewrite app_length, Ee; cbn; lia|]. rewrite skipn_app_exact. apply wp_ret. split; [reflexivity|].
    rewrite tokens_app, rev_app_distr, <- app_assoc, opt_piece_text. cbn [tokens rev app]. reflexivity.
  - intros run j o1 Hrun. unfold rust_string_body. apply wp_bind, wp_get_rem. cbn [rem]. unfold rust_end. clear Hitem. destruct Hclose as [rest'|].
    + change (text [rust_double]) with [34%N]. cbn [app]. rewrite (proj2 (Nat.ltb_lt (length run) _)) by (rewrite !app_length; cbn; lia). cbn [negb]. apply wp_bind. apply (wp_at_is _ _ 34%N).
      { rewrite nth_error_app2, Nat.sub_diag by lia. reflexivity. }
      change (34 =? 34)%N with true. cbn iota. apply flush_run. apply wp_bind. apply wp_emit_exact; [cbn; lia|]. cbn [skipn]. apply wp_ret. reflexivity.
    + change (text []) with (@nil N). cbn [app]. rewrite (proj2 (Nat.ltb_ge (length run) _)) by (rewrite app_length; cbn; lia). cbn [negb]. apply flush_run. apply wp_ret. cbn [length tokens rev app]. rewrite Nat.add_0_r. reflexivity.
Qed.
Lemma hashes_count n s : not_before (fun c => c = ch "#") s -> length_if (hashes n ++ s) (fun c => (c =? ch "#")%N) = n.
Proof.
  intros H. rewrite length_if_eq. rewrite prefix_len_exact; [apply repeat_length| |].
  - apply Forall_forall. intros c Hc. apply repeat_spec in Hc. subst c. reflexivity.
  - eapply not_before_impl; [|exact H]. cbn beta. intros c. apply N.eqb_eq.
Qed.
Lemma hashes_leading n b s : n <= length_if (b ++ s) (fun c => (c =? ch "#")%N) -> not_before (fun c => c = ch "#") s -> exists v, b = hashes n ++ v.
Proof.
  revert b. induction n as [|n IH]; intros b H R; [exists b; reflexivity|]. rewrite length_if_eq in H. destruct b as [|c b]; cbn [app prefix_len] in H.
  - exfalso. destruct s as [|d s]; [cbn in H; lia|]. cbn [prefix_len] in H. specialize (R d eq_refl). cbn beta in R. rewrite (proj2 (N.eqb_neq _ _) R) in H. lia.
  - destruct (N.eqb_spec c (ch "#")) as [->|]; [|lia]. destruct (IH b) as [v ->]; [rewrite length_if_eq; lia|exact R|]. exists v. reflexivity.
Qed.
Lemma rust_raw_scan n body i o : rust_closing (34%N :: hashes n, Some hl_string_delim) close rest -> ~ contains body (34%N :: hashes n) -> (close <> [] -> not_before (fun c => c = ch "#") rest) ->
  wp (hloop 1 (rust_raw_body n) 0) (fun b st' => rust_end (i + length body) (rev (tokens i (opt_piece body hl_string)) ++ o) b st') (mk_hst (body ++ text close ++ rest) i o tt).
Proof.
  intros Hclose NC NH. set (plain := fun run r : str => forall a b, run = a ++ 34%N :: b -> ~ n <= length_if (b ++ r) (fun c => (c =? ch "#")%N)).
  assert (Rt : not_before (fun c => c = ch "#") (text close ++ rest)).
  { destruct Hclose as [r|]; [rewrite text_one; apply not_before_cons; discriminate|apply not_before_nil]. }
  assert (P : plain body (text close ++ rest)).
  { intros a b E K. destruct (hashes_leading n b _ K Rt) as [v ->]. apply NC. exists a, v. rewrite E. reflexivity. }
  assert (SB : string_body hl_string plain (fun _ _ => False) (text close ++ rest) true (opt_piece body hl_string)).
  { unfold opt_piece. destruct body as [|c body]; [apply string_end|]. apply (string_text hl_string plain _ _ (c :: body) []); [discriminate|exact P|apply string_end]. }
  pose proof (scan_body tt (rust_raw_body n) hl_string plain (fun _ _ => False) (text close ++ rest) rust_end) as K.
  pose proof (fun A B C D => K A B C D _ true i o SB) as K2. rewrite opt_piece_text in K2. apply K2; clear K K2; [tauto|..].
  - intros run r len j o1 Pl L. unfold rust_raw_body. apply wp_bind, wp_get_rem. cbn [rem]. rewrite (proj2 (Nat.ltb_lt len (length (run ++ r)))) by (rewrite app_length; lia). cbn [negb].
    destruct (skipn len run) as [|c t] eqn:Es; [apply (f_equal (@length N)) in Es; rewrite skipn_length in Es; cbn in Es; lia|].
    assert (Er : run = firstn len run ++ c :: t) by (rewrite <- Es; symmetry; apply firstn_skipn).
    assert (E0 : skipn len (run ++ r) = c :: t ++ r) by (rewrite skipn_app, Es; replace (len - length run) with 0 by lia; reflexivity).
    apply wp_bind. apply (wp_at_is _ _ c). { rewrite <- (Nat.add_0_r len), <- nth_error_skipn, E0. reflexivity. }
    destruct (N.eqb_spec c 34) as [->|_]; [|apply wp_ret; auto]. apply wp_bind. apply wp_substr_from; [rewrite app_length; lia|]. rewrite <- skipn_skipn, E0. cbn [skipn]. cbv zeta.
    rewrite (proj2 (Nat.leb_gt _ _)) by (specialize (Pl _ _ Er); lia). apply wp_ret. auto.
  - tauto.
  - intros run j o1 Hrun. unfold rust_raw_body. apply wp_bind, wp_get_rem. cbn [rem]. unfold rust_end. destruct Hclose as [r|].
    + rewrite text_one. cbn [app]. rewrite (proj2 (Nat.ltb_lt (length run) _)) by (rewrite !app_length; cbn; lia). cbn [negb]. apply wp_bind. apply (wp_at_is _ _ 34%N).
      { rewrite nth_error_app2, Nat.sub_diag by lia. reflexivity. }
      change (34 =? 34)%N with true. cbn iota. apply wp_bind. apply wp_substr_from; [rewrite app_length; cbn [length]; lia|]. rewrite <- skipn_skipn, skipn_app_exact. cbn [skipn]. cbv zeta.
      rewrite hashes_count by (apply NH; discriminate). rewrite Nat.leb_refl. apply flush_run. apply wp_bind. assert (Lh : length (hashes n) = n) by apply repeat_length. apply wp_emit_exact; [cbn [length]; rewrite app_length, Lh; lia|]. cbn [Nat.add skipn].
      rewrite <- Lh at 1. rewrite skipn_app_exact. apply wp_ret. cbn [tokens rev app length]. rewrite Lh. reflexivity.
    + change (text []) with (@nil N). cbn [app]. rewrite (proj2 (Nat.ltb_ge (length run) _)) by (rewrite app_length; cbn; lia). cbn [negb]. apply flush_run. apply wp_ret. cbn [length tokens rev app]. rewrite Nat.add_0_r. reflexivity.
Qed.
End strings.
Lemma rust_string_token debug s c t n ty X i o : s = c :: t -> c <> 39%N -> c <> 47%N -> (c = 98%N -> not_before (fun c => c = 39%N) t) -> classify_string_prefix s = Some (n, ty) ->
  wp rust_expect_string (fun b st' => b = true /\ st' = X) (mk_hst s i o tt) -> wp (rust_token debug) (fun _ st' => st' = X) (mk_hst s i o tt).
Proof.
  intros -> H1 H2 H3 _ K. unfold rust_token, rust_expect_line_comment, rust_expect_block_comment. tryno line_comment_no; [left; exact H2|]. tryno block_comment_no; [left; exact H2|]. tryno rust_char_no; [exact H1|exact H3|].
  apply wp_bind. eapply wp_mono; [exact K|]. cbn beta. intros b st' [-> ->]. apply wp_ret. reflexivity.
Qed.
Lemma rust_do_string debug p rest : rust_string p rest -> no_suffix rest -> rust_does debug p rest.
Proof.
  intros [prefix body close r Hp Hclose Hbody|prefix n body close r Hp Hclose NC NH] Hs i o.
  - assert (HT : exists t, (forall tl, classify_string_prefix (prefix ++ 34%N :: tl) = Some (length prefix, t)) /\ string_type_is_raw t = false /\ (negb (str_eqb prefix (bs "b")) = true -> string_type_has_unicode_escape t = true)).
    { cbn [In] in Hp. destruct Hp as [<-|[<-|[<-|[]]]]; eexists; (split; [intros tl; reflexivity|]); split; try reflexivity; intros; try discriminate; reflexivity. }
    destruct HT as (t & HC & HR & HU).
    assert (Et : text (opt_piece prefix hl_string_decor ++ rust_double :: body ++ close) ++ r = prefix ++ 34%N :: text body ++ text close ++ r).
    { unfold rust_double. rewrite text_app, opt_piece_text, text_cons, text_app, <- !app_assoc. reflexivity. }
    assert (El : length (text (opt_piece prefix hl_string_decor ++ rust_double :: body ++ close)) = length prefix + 1 + length (text body) + length (text close)).
    { unfold rust_double. rewrite text_app, opt_piece_text, text_cons, text_app, !app_length. cbn [length]. lia. }
    rewrite Et, El. set (tl := text body ++ text close ++ r) in *.
    assert (Hd : exists c u, prefix ++ 34%N :: tl = c :: u /\ c <> 39%N /\ c <> 47%N /\ (c = 98%N -> not_before (fun c => c = 39%N) u)).
    { cbn [In] in Hp. destruct Hp as [<-|[<-|[<-|[]]]]; cbn [app bs]; eexists _, _; (split; [reflexivity|]; split; [discriminate|]; split; [discriminate|]; intros; try discriminate; apply not_before_cons; discriminate). }
    destruct Hd as (c & u & Ec & D1 & D2 & D3). eapply rust_string_token; [exact Ec|exact D1|exact D2|exact D3|apply HC|]. unfold rust_expect_string. apply wp_bind, wp_get_rem. cbn [rem]. rewrite HC, HR.
    apply wp_bind. apply wp_substr_from; [rewrite app_length; lia|]. cbv zeta. apply wp_bind. apply wp_substr_from; [rewrite app_length; lia|]. rewrite Nat.add_0_r, skipn_app_exact.
    change (starts_with_ch (34%N :: tl) 39) with false. change (starts_with_ch (34%N :: tl) 34) with true. cbn [negb andb].
    assert (Flush : forall (K : M unit bool) Q, wp K Q (mk_hst (34%N :: tl) (i + length prefix) (rev (tokens i (opt_piece prefix hl_string_decor)) ++ o) tt) -> wp (when (negb (length prefix =? 0)) (emit_and_advance (length prefix) hl_string_decor) ;; K) Q (mk_hst (prefix ++ 34%N :: tl) i o tt)).
    { intros K Q H. apply flush_run. exact H. }
    apply Flush. apply wp_bind. apply wp_emit_exact; [cbn; lia|]. cbn [skipn Nat.add]. unfold tl. apply wp_bind. eapply wp_mono; [apply (rust_string_scan close r t _ Hclose HU body); exact Hbody|]. cbn beta. unfold rust_end. intros [] st' ->.
    apply wp_bind. apply rust_suffix_no; [exact Hs|]. apply wp_ret. split; [reflexivity|].
    change (rust_double :: body ++ close) with ([rust_double] ++ body ++ close). rewrite !tokens_app, !rev_app_distr. cbn [tokens app rev length rust_double]. rewrite <- !app_assoc, opt_piece_text. cbn [app length]. change (text [rust_double]) with [34%N]. cbn [length]. f_equal. lia.
  - assert (Et : text ((prefix, Some hl_string_decor) :: (hashes n ++ [34]%N, Some hl_string_delim) :: opt_piece body hl_string ++ close) ++ r = prefix ++ hashes n ++ 34%N :: body ++ text close ++ r).
    { rewrite !text_cons, text_app, opt_piece_text, <- !app_assoc. reflexivity. }
    assert (Lh : length (hashes n) = n) by apply repeat_length.
    assert (El : length (text ((prefix, Some hl_string_decor) :: (hashes n ++ [34]%N, Some hl_string_delim) :: opt_piece body hl_string ++ close)) = length prefix + (n + 1) + length body + length (text close)).
    { rewrite !text_cons, text_app, opt_piece_text, !app_length, Lh. cbn [length]. lia. }
    rewrite Et, El. set (tl := body ++ text close ++ r) in *.
    assert (HT : exists t, classify_string_prefix (prefix ++ hashes n ++ 34%N :: tl) = Some (length prefix, t) /\ string_type_is_raw t = true).
    { cbn [In] in Hp. destruct Hp as [<-|[<-|[]]]; (destruct n; [eexists; split; reflexivity|]); eexists; split; reflexivity. }
    destruct HT as (t & HC & HR).
    assert (Hd : exists c u, prefix ++ hashes n ++ 34%N :: tl = c :: u /\ c <> 39%N /\ c <> 47%N /\ (c = 98%N -> not_before (fun c => c = 39%N) u)).
    { cbn [In] in Hp. destruct Hp as [<-|[<-|[]]]; cbn [app bs]; eexists _, _; (split; [reflexivity|]; split; [discriminate|]; split; [discriminate|]; intros; try discriminate; apply not_before_cons; discriminate). }
    assert (Lp : 0 < length prefix) by (cbn [In] in Hp; destruct Hp as [<-|[<-|[]]]; cbn; lia).
    destruct Hd as (c & u & Ec & D1 & D2 & D3). eapply rust_string_token; [exact Ec|exact D1|exact D2|exact D3|exact HC|]. unfold rust_expect_string. apply wp_bind, wp_get_rem. cbn [rem]. rewrite HC, HR.
    apply wp_bind. apply wp_substr_from; [rewrite app_length; lia|]. rewrite skipn_app_exact. rewrite hashes_count by (apply not_before_cons; discriminate). cbv zeta. apply wp_bind. apply wp_substr_from; [rewrite !app_length; cbn [length]; lia|]. rewrite <- skipn_skipn, skipn_app_exact.
    assert (Sh : skipn n (hashes n ++ 34%N :: tl) = 34%N :: tl) by (rewrite <- Lh at 1; apply skipn_app_exact). rewrite Sh.
    change (starts_with_ch (34%N :: tl) 39) with false. change (starts_with_ch (34%N :: tl) 34) with true. cbn [negb andb]. rewrite (proj2 (Nat.eqb_neq _ 0)) by lia. cbn [negb when].
    apply wp_bind. apply wp_emit_exact; [rewrite app_length; lia|]. rewrite skipn_app_exact. apply wp_bind. apply wp_emit_exact; [rewrite app_length; cbn [length]; lia|].
    replace (skipn (1 + n) (hashes n ++ 34%N :: tl)) with tl by (rewrite Nat.add_comm, <- skipn_skipn, Sh; reflexivity).
    unfold tl. apply wp_bind. eapply wp_mono; [apply (rust_raw_scan close r n body); assumption|]. cbn beta. unfold rust_end. intros [] st' ->. apply wp_bind. apply rust_suffix_no; [exact Hs|]. apply wp_ret. split; [reflexivity|].
    cbn [tokens]. rewrite tokens_app, opt_piece_text. cbn [rev]. rewrite !rev_app_distr, <- !app_assoc. cbn [app]. rewrite app_length, Lh. cbn [length]. rewrite (Nat.add_comm n 1). f_equal. lia.
Qed.

(** ** C100 *)
Lemma rust_words_plain w h : In (w, h) rust_words -> rust_no_underscore w /\ forall rest, rust_no_prefix w rest.
Proof.
  intros H. assert (F : forallb (fun e => negb (existsb (str_eqb (fst e)) [bs "b"; bs "br"; bs "c"; bs "cr"; bs "r"]) && negb (starts_with_ch (fst e) 95)) rust_words = true) by (vm_compute; reflexivity).
  rewrite forallb_forall in F. specialize (F _ H). cbn [fst] in F. apply andb_true_iff in F as [F1 F2]. rewrite negb_true_iff in F1, F2. split.
  - intros c Ec ->. destruct w as [|d w]; [discriminate|]. injection Ec as ->. cbn [starts_with_ch] in F2. discriminate F2.
  - intros rest K. exfalso. enough (existsb (str_eqb w) [bs "b"; bs "br"; bs "c"; bs "cr"; bs "r"] = true) by congruence. apply existsb_exists. exists w. split; [exact K|apply str_eqb_eq; reflexivity].
Qed.
Lemma rust_lexeme_does debug p r : rust_lexeme p r -> bytes (text p ++ r) -> rust_does debug p r.
Proof.
  intros [p' rest H|w h rest H1 H2|w rest H1 H2 H3 H4 H5|w rest H1 H2 H3 H4|w rest H1 H2|w rest H1 H2|t h rest H1 H2 H3 H4|n rest H1|p' rest H1 H2|p' rest H1 H2] HB.
  - apply rust_do_comment. exact H.
  - destruct (word_hit _ _ _ _ rust_words_ok H1) as [E Hw]. destruct (rust_words_plain w h H1) as [U P]. apply rust_do_word; auto.
  - apply rust_do_word; auto; [eapply not_before_impl; [|exact H5]; cbn beta; tauto|]. right. split; [apply (word_miss _ _ _ rust_words_ok H1 H3)|]. split; [reflexivity|]. eapply not_before_impl; [|exact H5]. cbn beta. tauto.
  - apply rust_do_macro; [exact H1|exact H2|]. apply (word_miss _ _ _ rust_words_ok H1 H3).
  - assert (E : starts_with_ch rest (ch ":") = false). { destruct rest as [|c r']; [reflexivity|]. specialize (H2 c eq_refl). cbn beta in H2. cbn [starts_with_ch]. apply N.eqb_neq. intros ->. apply H2. right. vm_compute. tauto. }
    pose proof (rust_do_lifetime debug w rest H1) as K. cbv zeta in K. rewrite E in K. apply K. eapply not_before_impl; [|exact H2]. cbn beta. intros c [Hc| ->]; [auto|]. right. vm_compute. tauto.
  - assert (E : starts_with_ch rest (ch ":") = true) by (destruct rest as [|c r']; [discriminate|]; injection H2 as ->; reflexivity).
    pose proof (rust_do_lifetime debug w rest H1) as K. cbv zeta in K. rewrite E in K. apply K. intros c Ec. rewrite H2 in Ec. injection Ec as <-. vm_compute. intuition discriminate.
  - apply rust_do_symbol; assumption.
  - apply rust_do_number. exact H1.
  - apply rust_do_char; assumption.
  - apply rust_do_string; assumption.
Qed.
Lemma rust_lexeme_head p r : rust_lexeme p r -> exists c t, text p = c :: t /\ (c < 128)%N /\ ~ rust_space c.
Proof.
  intros H. enough (K : exists c t, text p = c :: t /\ (32 < c < 128)%N) by (destruct K as (c & t & E & L); exists c, t; split; [exact E|]; split; [lia|unfold rust_space; cbn [In]; lia]).
  assert (Id : forall w, identifier w -> exists c t, w = c :: t /\ (32 < c < 128)%N) by (intros w (c & t & -> & Hc & _); exists c, t; split; [reflexivity|unfold ident_start, letter in Hc; lia]).
  destruct H as [p' rest [H _]|w h rest H1 H2|w rest H1 H2 H3 H4 H5|w rest H1 H2 H3 H4|w rest H1 H2|w rest H1 H2|t h rest H1 H2 H3 H4|n rest H1|p' rest H1 H2|p' rest H1 H2].
  - destruct (c_comment_head _ _ _ H) as [t ->]. exists 47%N, t. split; [reflexivity|lia].
  - rewrite text_one. apply Id. apply (word_hit _ _ _ _ rust_words_ok H1).
  - rewrite text_one. apply Id. exact H1.
  - rewrite text_cons. destruct (Id w H1) as (c & t & -> & Hc). cbn [app]. eauto.
  - rewrite text_cons. exists 39%N. eexists. split; [reflexivity|lia].
  - rewrite text_cons. exists 39%N. eexists. split; [reflexivity|lia].
  - rewrite text_one. assert (F : forallb (fun e => match fst e with [] => false | c :: _ => (32 <? c)%N && (c <? 128)%N end) rust_symbols = true) by (vm_compute; reflexivity).
    rewrite forallb_forall in F. specialize (F _ H1). cbn [fst] in F. destruct t as [|c t]; [discriminate|]. apply andb_true_iff in F as [F1 F2]. apply N.ltb_lt in F1, F2. eauto.
  - assert (G : forall I t, grouped digit 95 I -> exists c u, text I ++ t = c :: u /\ (32 < c < 128)%N).
    { intros I t G. destruct (grouped_second _ _ _ G) as (c & u & -> & Hc & _). cbn [app]. exists c. eexists. split; [reflexivity|unfold digit in Hc; lia]. }
    destruct H1 as [base d I x r Hb GI HX R|I f x r GI GF HX H0 R|I f e x r GI GF He GE HX R|I r GI Hr R]; rewrite number_pieces_text.
    + cbn [In] in Hb. destruct Hb as [Hb|[Hb|[Hb|[]]]]; injection Hb as <- <-; exists 48%N; (eexists; split; [reflexivity|lia]).
    + cbn [app]. apply G. exact GI.
    + cbn [app]. apply G. exact GI.
    + cbn [app]. apply G. exact GI.
  - destruct H1 as [c r Sc Hc HL|e r He|c r Hc Hn|e r He]; unfold rust_quote; rewrite text_cons; eexists _, _; (split; [reflexivity|]; vm_compute; split; reflexivity).
  - destruct H1 as [prefix body close r Hp Hclose Hbody|prefix n body close r Hp Hclose NC NH].
    + rewrite text_app, opt_piece_text. cbn [In] in Hp. destruct Hp as [<-|[<-|[<-|[]]]]; eexists _, _; (split; [reflexivity|]; vm_compute; split; reflexivity).
    + rewrite text_cons. cbn [In] in Hp. destruct Hp as [<-|[<-|[]]]; eexists _, _; (split; [reflexivity|]; vm_compute; split; reflexivity).
Qed.
Theorem C100_rust_lexemes debug l : bytes (text l) -> program_utf8 rust_space rust_lexeme l -> tokenizes (highlight_rust debug) l.
Proof.
  intros HB H strict. unfold highlight_rust. apply (token_loop_utf8_exact tt is_rust_whitespace rust_space rust_lexeme (rust_token debug)).
  - intros c. unfold is_rust_whitespace. rewrite mem_In. unfold rust_space. tauto.
  - intros c Hc. unfold rust_space in Hc. cbn [In] in Hc. unfold scalar_value. lia.
  - exact rust_lexeme_head.
  - intros p r i o Hp Hb. apply rust_lexeme_does; assumption.
  - exact HB.
  - exact H.
Qed.
Print Assumptions C100_rust_lexemes.
(** Some of everything *)
Example C100_case : exists l, program_utf8 rust_space rust_lexeme l /\ bytes (text l) /\ 25 < length l
  /\ text l = bs "fn f<'a>(x:u8)" ++ [226; 128; 168]%N ++ bs "{'l:p!(0x1fu8);y+2.5e-3f32;b'\n','" ++ [195; 164]%N ++ bs "'}/*a*/".
Proof.
  pose (l9 := ((bs "/*", Some hl_comment_delim) :: opt_piece (bs "a") hl_comment ++ [(bs "*/", Some hl_comment_delim)]) ++ []).
  pose (l8 := [rust_quote; (utf8_encoding 228, Some hl_string); rust_quote] ++ [(bs "}", Some hl_symbol_brace)] ++ l9).
  pose (l7 := [(bs "b", Some hl_string_decor); rust_quote; (bs "\n", Some hl_string_escape); rust_quote] ++ [(bs ",", Some hl_symbol_punc)] ++ l8).
  pose (l6 := number_pieces [] [(bs "2", Some hl_number)] (Some [(bs "5", Some hl_number)]) (Some (bs "e-", bs "3")) (bs "f32") ++ [(bs ";", Some hl_symbol_punc)] ++ l7).
  pose (l5 := [(bs ")", Some hl_symbol_parens)] ++ [(bs ";", Some hl_symbol_punc)] ++ [(bs "y", Some hl_name)] ++ [(bs "+", Some hl_symbol_op)] ++ l6).
  pose (l4 := number_pieces (bs "0x") [(bs "1f", Some hl_number)] None None (bs "u8") ++ l5).
  pose (l3 := [(bs "'", Some hl_name_label_delim); (bs "l", Some hl_name_label)] ++ [(bs ":", Some hl_symbol_punc)] ++ [(bs "p", Some hl_name_macro); (bs "!", Some hl_name_macro_delim)] ++ [(bs "(", Some hl_symbol_parens)] ++ l4).
  pose (l2 := [(bs "(", Some hl_symbol_parens)] ++ [(bs "x", Some hl_name)] ++ [(bs ":", Some hl_symbol_punc)] ++ [(bs "u8", Some hl_name_type_builtin)] ++ [(bs ")", Some hl_symbol_parens)] ++ ([226; 128; 168]%N, None) :: [(bs "{", Some hl_symbol_brace)] ++ l3).
  pose (l1 := [(bs "f", Some hl_name)] ++ [(bs "<", Some hl_symbol_op)] ++ [(bs "'", Some hl_name_lifetime_delim); (bs "a", Some hl_name_lifetime)] ++ [(bs ">", Some hl_symbol_op)] ++ l2).
  exists ([(bs "fn", Some hl_keyword)] ++ (bs " ", None) :: l1). split; [|split; [vm_compute; repeat constructor|split; [cbn; lia|reflexivity]]].
  set (ok := program_utf8 rust_space rust_lexeme).
  assert (Sym : forall t h l, In (t, h) rust_symbols -> longest rust_symbols t (text l) -> t <> bs "." -> t <> bs "/" -> ok l -> ok ([(t, Some h)] ++ l)).
  { intros t h l H1 H2 H3 H4 H5. apply program8_lexeme; [|exact H5]. apply rust_symbol; try assumption; congruence. }
  assert (Word : forall w h l, In (w, h) rust_words -> not_before ident_or_non_ascii (text l) -> ok l -> ok ([(w, Some h)] ++ l)).
  { intros w h l H1 H2 H3. apply program8_lexeme; [|exact H3]. apply rust_word; assumption. }
  assert (Miss : forall w, table_find rust_tokens w = None -> forall h, ~ In (w, h) rust_words) by (intros w E h H; apply (word_hit _ _ _ _ rust_words_ok) in H as [H _]; congruence).
  assert (Name : forall w l, identb w = true -> rust_no_underscore w -> rust_no_prefix w (text l) -> table_find rust_tokens w = None -> not_before (fun c => ident_or_non_ascii c \/ c = ch "!") (text l) -> ok l -> ok ([(w, Some hl_name)] ++ l)).
  { intros w l H1 H2 H3 H4 H5 H6. apply program8_lexeme; [|exact H6]. apply rust_name; try assumption; [apply identb_iff; exact H1|apply Miss; exact H4]. }
  apply Word; [vm_compute; tauto|nb|]. apply program8_space; [exists [32]%N; split; [repeat constructor; vm_compute; tauto|reflexivity]|].
  unfold l1. apply Name; [reflexivity|nb|vm_compute; intuition discriminate|vm_compute; reflexivity|nb|]. apply Sym; [vm_compute; tauto|sym_longest|discriminate|discriminate|].
  apply program8_lexeme. { apply rust_lifetime; [apply identb_iff; reflexivity|nb]. }
  apply Sym; [vm_compute; tauto|sym_longest|discriminate|discriminate|].
  unfold l2. apply Sym; [vm_compute; tauto|sym_longest|discriminate|discriminate|]. apply Name; [reflexivity|nb|vm_compute; intuition discriminate|vm_compute; reflexivity|nb|]. apply Sym; [vm_compute; tauto|sym_longest|discriminate|discriminate|].
  apply Word; [vm_compute; tauto|nb|]. apply Sym; [vm_compute; tauto|sym_longest|discriminate|discriminate|]. apply program8_space; [exists [0x2028]%N; split; [repeat constructor; vm_compute; tauto|reflexivity]|].
  apply Sym; [vm_compute; tauto|sym_longest|discriminate|discriminate|].
  unfold l3. apply program8_lexeme. { apply rust_label; [apply identb_iff; reflexivity|reflexivity]. }
  apply Sym; [vm_compute; tauto|sym_longest|discriminate|discriminate|].
  apply program8_lexeme. { apply rust_macro; [apply identb_iff; reflexivity|nb|apply Miss; vm_compute; reflexivity|nb]. }
  apply Sym; [vm_compute; tauto|sym_longest|discriminate|discriminate|].
  unfold l4. apply program8_lexeme.
  { apply rust_num. apply (rust_based _ hex_digit); [vm_compute; tauto|apply grouped_one; [discriminate|fa]|right; split; [apply identb_iff; reflexivity|nb]|split; [nb|discriminate]]. }
  unfold l5. apply Sym; [vm_compute; tauto|sym_longest|discriminate|discriminate|]. apply Sym; [vm_compute; tauto|sym_longest|discriminate|discriminate|]. apply Name; [reflexivity|nb|vm_compute; intuition discriminate|vm_compute; reflexivity|nb|]. apply Sym; [vm_compute; tauto|sym_longest|discriminate|discriminate|].
  unfold l6. apply program8_lexeme.
  { apply rust_num. apply rust_exponent; [apply grouped_one; [discriminate|fa]|intros f [= <-]; apply grouped_one; [discriminate|fa]|discriminate| |right; split; [apply identb_iff; reflexivity|nb]|nb].
    intros e d [= <- <-]. split; [exists (bs "e"), (bs "-"); cbn; tauto|]. split; [discriminate|fa]. }
  apply Sym; [vm_compute; tauto|sym_longest|discriminate|discriminate|].
  unfold l7. apply program8_lexeme. { apply rust_character; [|nb]. apply rust_byte_escape. apply (rust_esc_simple false false 110). vm_compute. tauto. }
  apply Sym; [vm_compute; tauto|sym_longest|discriminate|discriminate|].
  unfold l8. apply program8_lexeme. { apply rust_character; [|nb]. apply rust_char_plain; [unfold scalar_value; lia|cbn [In]; lia|right; vm_compute; reflexivity]. }
  apply Sym; [vm_compute; tauto|sym_longest|discriminate|discriminate|].
  unfold l9. apply program8_lexeme; [|apply program8_end]. apply rust_comm. split.
  - apply (c_block js_line (bs "a")). intros (a & b & E). destruct a as [|? [|? [|? ?]]]; discriminate E.
  - intros t Ht. vm_compute in Ht. destruct Ht as [Ht|[Ht|[Ht|[]]]]; try discriminate Ht. injection Ht as <-. intros (a & b & E). destruct a as [|? [|? [|? ?]]]; discriminate E.
Qed.
