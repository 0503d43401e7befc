(** * Properties of the Kotlin highlighter *)
From Coq Require Import List NArith ZArith Bool Arith Lia.
From Verif Require Import M_Base L_Base S_Tokens M_Emit S_Ops L_Emit M_Types M_Chars M_Parse S_Parse L_Parse P_Parse M_Utf8 S_Utf8 L_Any
  M_Api M_Table L_Table M_LangCpp M_Highlighter S_Highlight L_Highlighter P_LangCpp L_Auto M_TokenLoop M_Json L_WfSteps
  S_Lexemes L_Lexemes L_Number L_Number2 L_Scan L_Symbols L_Escapes S_Comments L_Comments L_Mono M_LangPython M_LangKotlin S_LangKotlin.
Import ListNotations.

(** ** Safety *)
Lemma kotlin_options : good_options kotlin_number_options.
Proof. split; [right; reflexivity|]. split; [repeat constructor; discriminate|]. discriminate. Qed.
#[local] Hint Resolve kotlin_options : good_opts.
Lemma kotlin_number_match_ok s : exists r, kotlin_match_number s = Ok r /\ nr_length r = parts r /\ nr_length r <= length s.
Proof.
  destruct (match_common_number_ok s _ kotlin_options) as (r & E & E1 & E2). unfold kotlin_match_number. rewrite E. cbn [bind]. unfold parts in *.
  destruct (negb (nr_radix_point r =? 0)) eqn:B; cbn [andb].
  - destruct ((nr_fractional r =? 0) && (nr_length r <? length s) && (nth (nr_length r) s 0 =? ch ".")%N).
    + assert (Rp : nr_radix_point r = 1).
      { revert B E. clear. unfold match_common_number. destruct (check _ _); [|discriminate]. cbn [bind]. destruct s as [|c s]; [intros B [= <-]; discriminate B|].
        destruct (number_base _ _ _) as [[[? ?] ?]|]; [|discriminate]. cbn [bind]. destruct (match_separated_digits _ _ _) as [? ?]. 
        match goal with |- context [starts_with_ch ?a 46] => destruct (b && starts_with_ch a 46) end.
        - destruct (match_separated_digits _ _ _) as [? ?]. match goal with |- context [if ?x then Ok no_number else _] => destruct x end; [intros B [= <-]; discriminate B|].
          match goal with |- context [if ?x then Ok no_number else _] => destruct x end; [intros B [= <-]; discriminate B|].
          match goal with |- context [if ?x then number_exponent ?a ?b else ?c] => destruct (if x then number_exponent a b else c) as [[? ?] ?] end. destruct (check _ _); [|discriminate]. cbn [bind]. intros _ [= <-]. reflexivity.
        - cbn [andb]. match goal with |- context [if ?x then Ok no_number else _] => destruct x end; [intros B [= <-]; discriminate B|].
          match goal with |- context [if ?x then number_exponent ?a ?b else ?c] => destruct (if x then number_exponent a b else c) as [[? ?] ?] end. destruct (check _ _); [|discriminate]. cbn [bind]. intros B [= <-]. discriminate B. }
      eexists. split; [reflexivity|]. cbn. lia.
    + eexists. split; [reflexivity|]. cbn. lia.
  - eexists. split; [reflexivity|]. cbn. lia.
Qed.
Lemma kotlin_symbol_good s t : kotlin_match_symbol s = Some t -> good_symbol kotlin_tokens s t.
Proof.
  destruct s as [|c s]; [discriminate|]. unfold kotlin_match_symbol. intros H.
  assert (E : (if starts_with (c :: s) (bs ">=") then Some (bs "=>") else Some [c]) = Some [c] \/ (c =? ch "=")%N = false).
  { destruct (N.eqb_spec c (ch "=")) as [->|]; [left; reflexivity|auto]. }
  destruct E as [E|E]; [rewrite E in H|rewrite E in H]; symbol_cases H.
Qed.

Lemma kotlin_identifier_ok st : wp kotlin_expect_identifier (attempt kotlin_space st) st.
Proof.
  begin_steps kotlin_space st. unfold kotlin_expect_identifier. go. destruct (cpp_identifier_ok (rem st)) as (n & E & L). eapply wp_lift; [exact E|]. go; fin.
Qed.
Lemma kotlin_number_ok st : wp kotlin_expect_number (attempt kotlin_space st) st.
Proof.
  begin_steps kotlin_space st. unfold kotlin_expect_number. go1. go1. go1. destruct (kotlin_number_match_ok (rem st)) as (r & E & E1 & E2). eapply wp_lift; [exact E|]. go; fin.
Qed.
Lemma kotlin_symbol_ok st : wp kotlin_expect_symbol (attempt kotlin_space st) st.
Proof.
  begin_steps kotlin_space st. unfold kotlin_expect_symbol. go1. go1. destruct (kotlin_match_symbol (rem st)) as [t|] eqn:E; [|go; fin].
  apply kotlin_symbol_good in E. destruct (good_symbol_find _ _ _ E) as [h F]. apply good_symbol_len in E. unfold kotlin_token_by_code. rewrite F. go; fin.
Qed.
Lemma kotlin_escape_ok s : s <> [] -> exists e, kotlin_match_escape_sequence s = Ok e /\ 0 < es_length e <= length s.
Proof.
  intros Hs. assert (A : forall k n, 0 < n <= length s -> exists e, match_common_escape_at k s n = Ok e /\ 0 < es_length e <= length s).
  { intros k n L. destruct (common_escape_at_ok k s n ltac:(lia)) as (e & E & B). exists e. split; [exact E|lia]. }
  destruct s as [|b [|c s]]; [congruence|eexists; split; [reflexivity|cbn; lia]|]. unfold kotlin_match_escape_sequence.
  destruct (negb _); [eexists; split; [reflexivity|cbn; lia]|].
  repeat match goal with |- context [if ?b then _ else _] => destruct b end;
  match goal with
  | |- context [match_common_escape_at ?k _ ?n] => destruct (A k n) as (e & E & B); [cbn; lia|]; rewrite ?E; cbn [bind]; eexists; split; [reflexivity|exact B]
  | _ => eexists; split; [reflexivity|cbn; lia]
  end.
Qed.
Lemma kotlin_backtick_ok st : wp kotlin_expect_backtick_identifier (attempt kotlin_space st) st.
Proof.
  begin_steps kotlin_space st. unfold kotlin_expect_backtick_identifier. go1. go1. go1; [go; fin|].
  set (len := 1 + length_if (skipn 1 (rem st)) (fun c => negb (mem c [96; 13; 10]%N))).
  assert (L : len <= length (rem st)).
  { unfold len. pose proof (length_if_le (skipn 1 (rem st)) (fun c => negb (mem c [96; 13; 10]%N))) as X. rewrite skipn_length in X. destruct (rem st); [discriminate|]. cbn [length] in *. lia. }
  apply wp_if; intros E.
  - assert (L2 : len < length (rem st)). { destruct (Nat.eq_dec len (length (rem st))) as [X|X]; [|lia]. rewrite X, skipn_all in E. discriminate. }
    assert (L0 : 1 <= len) by (unfold len; lia). clearbody len. go; fin.
  - assert (L0 : 1 <= len) by (unfold len; lia). clearbody len. go; fin.
Qed.
Lemma kotlin_dotted_ok st : wp kotlin_dotted_name (fun _ st' => exists k, steps kotlin_space k st st' /\ (cpp_match_identifier (rem st) <> Ok 0 -> 0 < k)) st.
Proof.
  unfold kotlin_dotted_name. destruct (cpp_identifier_ok (rem st)) as (n & E & L). 
  assert (K : forall st, wp (hloop 1 kotlin_dotted_body tt) (fun _ st' => exists k, steps kotlin_space k st st') st).
  { intros st0. eapply wp_mono; [apply (wp_rounds kotlin_space 1 kotlin_dotted_body (fun _ _ _ => True)); [lia|]|].
    2:{ cbn beta. intros _ st2 (k & ? & _). eauto. }
    intros k st1 Hs. unfold kotlin_dotted_body. go1. go1. go1. destruct (cpp_identifier_ok (rem st1)) as (m & E1 & L1). eapply wp_lift; [exact E1|].
    go; try fin. }
  begin_steps kotlin_space st. apply wp_unroll. unfold kotlin_dotted_body at 1. go1. go1. go1. eapply wp_lift; [exact E|]. go1.
  { apply wp_ret. exists 0. split; [apply steps_refl|]. intros X. exfalso. apply X. rewrite E. f_equal. hlia. }
  go1. go1. go1. go1. go1; [go; fin|]. go1. go1. go1. split; [hlia|]. eapply wp_mono; [apply K|]. cbn beta. intros _ st2 (k2 & S2). fuse. fin.
Qed.
Lemma kotlin_space_prefix s : Forall kotlin_space (firstn (length_if s is_python_whitespace) s).
Proof. rewrite length_if_eq. apply Forall_prefix_len. intros c E. apply mem_In in E. unfold kotlin_space. cbn [In] in *. tauto. Qed.
Lemma kotlin_whitespace_ok st (Q : unit -> hst unit -> Prop) : (forall st' k, steps kotlin_space k st st' -> Q tt st') -> wp kotlin_whitespace Q st.
Proof.
  intros H. unfold kotlin_whitespace. apply wp_bind, wp_get_rem. apply (wp_advance kotlin_space); [apply length_if_le|apply kotlin_space_prefix|]. intros st' S' _. eapply H. exact S'.
Qed.
Lemma kotlin_multi_ok st : starts_with_ch (rem st) (ch "[") = true -> wp kotlin_multi_annotation (fun _ st' => exists k, steps kotlin_space k st st' /\ 0 < k) st.
Proof.
  intros Hc. begin_steps kotlin_space st. unfold kotlin_multi_annotation. go1. go1. go1. go1. go1. go1.
  go1. eapply wp_mono; [apply (wp_rounds kotlin_space 1 kotlin_multi_body (fun _ _ _ => True)); [lia|]|].
  2:{ cbn beta. intros _ st2 (k & ? & _). fuse. go; fin. }
  intros k st1 Hs. unfold kotlin_multi_body. go1. go1. go1; [go; fin|].
  go1. apply kotlin_whitespace_ok. intros st2 k2 S2. fuse. go1. go1. go1; [go; fin|].
  go1. destruct (cpp_identifier_ok (rem st2)) as (m & E1 & L1). eapply wp_lift; [exact E1|]. go1.
  - apply wp_bind. eapply wp_mono; [apply kotlin_dotted_ok|]. cbn beta. intros _ st3 (k3 & S3 & L3). assert (0 < k3) by (apply L3; rewrite E1; intros [= ->]; discriminate). fuse. go. fin.
  - apply orb_false_iff in H9 as [H9 _]. apply Nat.eqb_neq in H9. go; fin.
Qed.
Lemma kotlin_annotation_ok st : wp kotlin_expect_annotation (attempt kotlin_space st) st.
Proof.
  begin_steps kotlin_space st. unfold kotlin_expect_annotation. go1. go1. go1; [go; fin|]. go1.
  - go1. go1. apply wp_bind. eapply wp_mono; [apply kotlin_multi_ok|].
    + rems. assumption.
    + cbn beta. intros _ st2 (k2 & S2 & L2). fuse. go. fin.
  - go1. destruct (cpp_identifier_ok (skipn 1 (rem st))) as (n & E & L). eapply wp_lift; [exact E|]. go1; [go; fin|]. go1. go1.
    apply wp_bind. eapply wp_mono; [apply kotlin_dotted_ok|]. cbn beta. intros _ st2 (k2 & S2 & L2). fuse. go1. go1. go1. 
    assert (K : wp (if starts_with_ch (rem st2) (ch ":") then emit_and_advance 1 hl_name_attr_delim ;; let! r := get_rem in if starts_with_ch r (ch "[") then kotlin_multi_annotation else kotlin_dotted_name else ret tt)
      (fun _ st3 => exists k, steps kotlin_space k st2 st3) st2).
    { clear - st2. begin_steps kotlin_space st2. go1; [|go; fin]. go1. go1. go1. go1. go1.
      - eapply wp_mono; [apply kotlin_multi_ok; assumption|]. cbn beta. intros _ st3 (k3 & S3 & L3). fuse. fin.
      - eapply wp_mono; [apply kotlin_dotted_ok|]. cbn beta. intros _ st3 (k3 & S3 & _). fuse. fin. }
    eapply wp_mono; [exact K|]. cbn beta. intros _ st3 (k3 & S3). fuse. go. fin.
Qed.

(** What the nested call guarantees: it stops at the end or before a closing brace. *)
Definition kotlin_safe (bound : nat) (nested : M unit unit) : Prop := forall st, length (rem st) < bound ->
  wp nested (fun _ st' => (exists k, steps kotlin_space k st st') /\ (rem st' = [] \/ starts_with_ch (rem st') (ch "}") = true)) st.
Section safety.
Variable bound : nat.
Variable nested : M unit unit.
Hypothesis Hnested : kotlin_safe bound nested.
Definition kind_ok (k : kotlin_kind) : Prop := In k [kotlin_character; kotlin_line; kotlin_multiline].
Lemma triple_prefix s : starts_with s [34; 34; 34]%N = true -> 3 <= length_if s (fun c => (c =? 34)%N) <= length s.
Proof. intros H. apply starts_with_app in H as [v ->]. split; [|apply length_if_le]. rewrite length_if_eq. cbn [app prefix_len]. change (34 =? 34)%N with true. cbn iota. lia. Qed.
Lemma kotlin_literal_ok k st : kind_ok k -> length (rem st) < S bound -> starts_with (rem st) (kk_terminator k) = true -> wp (kotlin_literal nested k) (attempt kotlin_space st) st.
Proof.
  intros Hk Lb Hc. assert (Lt : 1 <= length (kk_terminator k)) by (destruct Hk as [<-|[<-|[<-|[]]]]; cbn; lia). pose proof (starts_with_length _ _ Hc) as L0.
  begin_steps kotlin_space st. unfold kotlin_literal. go1. go1. go1. go1. go1. go1.
  go1. eapply wp_mono; [apply (wp_scan kotlin_space 1 (kotlin_string_body nested k) 0 (fun _ _ _ => True)); [lia|lia|]|].
  2:{ cbn beta. intros _ st2 (k2 & ? & _). fuse. go. fin. }
  intros a k1 st1 Hs La _. unfold kotlin_string_body. go1. go1. go1; [go; fin|]. go1. go1. go1.
  - (* the terminator *)
    match goal with H : starts_with _ (kk_terminator k) = true |- _ => rename H into HT end. pose proof (starts_with_length _ _ HT) as LT. rewrite skipn_length in LT.
    go1. go1. assert (E2 : rem st'0 = skipn a (rem st1)) by assumption.
    match goal with |- wp (bindM ?m _) _ _ => assert (K : wp m (fun _ st3 => exists k3, steps kotlin_space k3 st'0 st3) st'0) end.
    { clear - Hk HT E2 LT. destruct Hk as [<-|[<-|[<-|[]]]]; cbn [kk_multiline kotlin_character kotlin_line kotlin_multiline] in *.
      - begin_steps kotlin_space st'0. cbn [kk_terminator length kotlin_character] in LT. apply (f_equal (@length N)) in E2. rewrite skipn_length in E2. go; fin.
      - begin_steps kotlin_space st'0. cbn [kk_terminator length kotlin_line] in LT. apply (f_equal (@length N)) in E2. rewrite skipn_length in E2. go; fin.
      - cbn [kk_terminator kotlin_multiline] in HT. rewrite <- E2 in HT. apply triple_prefix in HT. begin_steps kotlin_space st'0. go1. go1.
        set (q := length_if (rem st'0) (fun c => (c =? 34)%N)) in *. clearbody q. go; try fin. }
    apply wp_bind. eapply wp_mono; [exact K|]. cbn beta. intros _ st3 (k3 & S3). fuse. go. fin.
  - go1. go1. go1; [go; fin|]. go1.
    + (* a dollar sign *)
      go1. go1. go1. go1. go1.
      * go1. match goal with H : starts_with _ (bs "${") = true |- _ => pose proof (starts_with_length _ _ H) as L2; change (length (bs "${")) with 2 in L2 end.
        go1. apply wp_bind. eapply wp_mono; [apply Hnested; hlia|]. cbn beta. intros _ st3 [[k3 S3] E3]. fuse. go1. apply wp_eof; intros He; [go; fin|].
        destruct E3 as [E3|E3]; [congruence|]. go; try assumption; fin.
      * go1. go1. go1. match goal with |- wp (lift (cpp_match_identifier ?s)) _ _ => destruct (cpp_identifier_ok s) as (m & E1 & L1) end. eapply wp_lift; [exact E1|]. rewrite skipn_length in L1. go; fin.
    + go1.
      * go1. go1. go1. go1. go1. destruct (kotlin_escape_ok (rem st'0)) as (e & E & B).
        { intros E. apply (f_equal (@length N)) in E. cbn [length] in E. hlia. }
        eapply wp_lift; [exact E|]. go; try fin.
      * go. fin.
Qed.
Lemma kotlin_string_ok st : length (rem st) < S bound -> wp (kotlin_expect_string nested) (attempt kotlin_space st) st.
Proof.
  intros Lb. unfold kotlin_expect_string. apply wp_bind, wp_get_rem. cbn beta.
  assert (One : forall c, starts_with_ch (rem st) c = true -> starts_with (rem st) [c] = true) by (intros c E; destruct (rem st); [discriminate|]; cbn [starts_with starts_with_ch] in *; rewrite E; reflexivity).
  apply wp_if; intros E1; [apply kotlin_literal_ok; [left; reflexivity|exact Lb|apply One; exact E1]|]. apply wp_if; intros E2; [|apply wp_ret; reflexivity].
  apply wp_if; intros E3; [apply kotlin_literal_ok; [right; right; left; reflexivity|exact Lb|exact E3]|]. apply kotlin_literal_ok; [right; left; reflexivity|exact Lb|apply One; exact E2].
Qed.
Lemma kotlin_token_ok st : length (rem st) < S bound -> rem st <> [] -> wp (kotlin_token nested) (fun _ st' => exists k, steps kotlin_space k st st' /\ 0 < k) st.
Proof.
  intros Lb Hne. begin_steps kotlin_space st. unfold kotlin_token, kotlin_expect_line_comment, kotlin_expect_block_comment.
  repeat match goal with
  | |- wp (bindM json_expect_line_comment _) _ _ => apply wp_bind; attempt_ (line_comment_ok kotlin_space); cbn beta iota
  | |- wp (bindM json_expect_block_comment _) _ _ => apply wp_bind; attempt_ (block_comment_ok kotlin_space); cbn beta iota
  | |- wp (bindM (kotlin_expect_string _) _) _ _ => apply wp_bind; attempt_ kotlin_string_ok; cbn beta iota
  | |- wp (bindM kotlin_expect_identifier _) _ _ => apply wp_bind; attempt_ kotlin_identifier_ok; cbn beta iota
  | |- wp (bindM kotlin_expect_number _) _ _ => apply wp_bind; attempt_ kotlin_number_ok; cbn beta iota
  | |- wp (bindM kotlin_expect_symbol _) _ _ => apply wp_bind; attempt_ kotlin_symbol_ok; cbn beta iota
  | |- wp (bindM kotlin_expect_backtick_identifier _) _ _ => apply wp_bind; attempt_ kotlin_backtick_ok; cbn beta iota
  | |- wp (bindM kotlin_expect_annotation _) _ _ => apply wp_bind; attempt_ kotlin_annotation_ok; cbn beta iota
  end; try exact Lb; try (go; fin).
  apply (wp_error_code_point kotlin_space); [exact Hne|]. intros. fin.
Qed.
Lemma kotlin_loop_ok in_string st : length (rem st) < S bound ->
  wp (hloop 1 (kotlin_round nested in_string) 0) (fun _ st' => (exists k, steps kotlin_space k st st') /\ (rem st' = [] \/ in_string = true /\ starts_with_ch (rem st') (ch "}") = true)) st.
Proof.
  intros Lb. apply wp_hloop with (Inv := fun _ st' => exists k, steps kotlin_space k st st') (mu := fun _ st' => length (rem st')).
  - exists 0. apply steps_refl.
  - lia.
  - intros level st1 (k1 & S1). begin_steps kotlin_space st1. unfold kotlin_round. apply wp_bind. apply kotlin_whitespace_ok. intros st2 k2 S2. apply wp_bind, wp_get_rem.
    assert (S3 : steps kotlin_space (k1 + k2) st st2) by (eapply steps_trans; eassumption). apply steps_len in S1 as L1. apply steps_len in S2 as L2. clear S1 S2.
    destruct (rem st2) as [|c r] eqn:Er; [apply wp_ret; split; [eauto|auto]|].
    assert (E1 : forall ty x, wp (emit_and_advance 1 ty ;; ret (inl x)) (fun (r0 : nat + unit) st' => match r0 with
       | inl _ => (exists k, steps kotlin_space k st st') /\ length (rem st') < length (rem st1)
       | inr _ => (exists k, steps kotlin_space k st st') /\ (rem st' = [] \/ in_string = true /\ starts_with_ch (rem st') (ch "}") = true) end) st2).
    { intros ty x. apply wp_bind. apply (wp_emit_adv kotlin_space); [rewrite Er; cbn [length]; lia|]. intros st3 S4 _. apply wp_ret. split; [exists (k1 + k2 + 1); eapply steps_trans; eassumption|]. apply steps_len in S4. rewrite Er in S4. lia. }
    apply wp_if; intros B1; [apply E1|]. apply wp_if; intros B2.
    { apply wp_if; intros B3; [|apply E1]. destruct in_string; [|apply E1]. apply wp_ret. split; [eauto|]. right. split; [reflexivity|]. rewrite Er. exact B2. }
    apply wp_bind. eapply wp_mono; [apply kotlin_token_ok; [rewrite Er in *; lia|rewrite Er; discriminate]|]. cbn beta. intros _ st3 (k3 & S4 & L4). apply wp_ret. split; [exists (k1 + k2 + k3); eapply steps_trans; eassumption|]. apply steps_len in S4. rewrite Er in S4. lia.
Qed.
End safety.
Lemma kotlin_tokens_ok fuel : kotlin_safe fuel (kotlin_tokens_loop fuel true).
Proof.
  induction fuel as [|fuel IH]; intros st L; [lia|]. cbn [kotlin_tokens_loop]. eapply wp_mono; [apply (kotlin_loop_ok fuel _ IH); exact L|]. cbn beta. tauto.
Qed.

(** ** C93 *)
Theorem C93_kotlin : always_highlights_except (fun c => In c [32; 9; 10; 12; 13]%N) highlight_kotlin.
Proof.
  apply always_except_from_ops. intros src strict. apply (run_ok_all kotlin_space). apply wp_bind.
  replace (length src + 1) with (S (length src)) by lia. cbn [kotlin_tokens_loop].
  eapply wp_mono; [apply (kotlin_loop_ok (length src)); [apply kotlin_tokens_ok|cbn [rem]; lia]|]. cbn beta. intros [] st' [[k S1] [E|[E _]]]; [|discriminate E].
  apply wp_ret. split; [reflexivity|]. eapply steps_eq; [exact S1|]. apply steps_len in S1. rewrite E in S1. cbn [rem length] in *. lia.
Qed.
Print Assumptions C93_kotlin.
Example C93_case : exists ops, highlight_kotlin (bs "@A.b fun f(x: Int) { g(0..9, ${'$'}) } // c") false = Ok (true, ops) /\ 8 < length ops.
Proof. eexists. split; [vm_compute; reflexivity|]. cbn [length]. lia. Qed.

(** ** Exact tokens *)
Ltac tryno lem := apply wp_bind; apply lem; [..|cbn beta iota].
Section exact.
Variable nested : M unit unit.
Definition kotlin_does (p : list piece) (r : str) : Prop :=
  forall i o, wp (kotlin_token nested) (fun _ st' => st' = mk_hst r (i + length (text p)) (rev (tokens i p) ++ o) tt) (mk_hst (text p ++ r) i o tt).
Lemma kotlin_string_no c s (Q : bool -> hst unit -> Prop) i o : c <> 39%N -> c <> 34%N -> Q false (mk_hst (c :: s) i o tt) -> wp (kotlin_expect_string nested) Q (mk_hst (c :: s) i o tt).
Proof.
  intros H1 H2 HQ. unfold kotlin_expect_string. apply wp_bind, wp_get_rem. cbn [rem]. cbn [starts_with_ch]. rewrite (proj2 (N.eqb_neq c 39) H1), (proj2 (N.eqb_neq c 34) H2). apply wp_ret. exact HQ.
Qed.
Lemma kotlin_number_no c s (Q : bool -> hst unit -> Prop) i o : ~ digit c -> c <> 95%N -> (c = 46%N -> not_before digit s) -> Q false (mk_hst (c :: s) i o tt) ->
  wp kotlin_expect_number Q (mk_hst (c :: s) i o tt).
Proof.
  intros Hd Hs H HQ. unfold kotlin_expect_number. apply wp_bind, wp_get_rem. cbn [rem]. apply wp_bind. eapply wp_lift.
  - unfold kotlin_match_number. rewrite no_number_match; try reflexivity; try discriminate; try assumption.
    + intros p Hp. cbn in Hp. repeat (destruct Hp as [<-|Hp]; [eexists _, _; split; [reflexivity|]; unfold digit in Hd; lia|]). contradiction.
    + destruct (is_ascii_digit_base c (no_base kotlin_number_options)) eqn:E; [|reflexivity]. apply digit_10 in E. contradiction.
    + unfold digit in Hd. lia.
  - apply wp_ret. exact HQ.
Qed.
Lemma no_identifier_here s : not_before (fun c => ident_start c \/ (128 <= c)%N) s -> cpp_match_identifier s = Ok 0.
Proof.
  intros H. destruct s as [|c s]; [reflexivity|]. specialize (H c eq_refl). cbn beta in H. apply not_identifier; [lia|tauto].
Qed.
Lemma kotlin_annotation_no c s (Q : bool -> hst unit -> Prop) i o : c <> 64%N \/ not_before (fun c => ident_start c \/ (128 <= c)%N \/ c = 91%N) s -> Q false (mk_hst (c :: s) i o tt) ->
  wp kotlin_expect_annotation Q (mk_hst (c :: s) i o tt).
Proof.
  intros H HQ. unfold kotlin_expect_annotation. apply wp_bind, wp_get_rem. cbn [rem starts_with_ch]. change (ch "@") with 64%N. destruct (N.eqb_spec c 64) as [->|N]; cbn [negb]; [|apply wp_ret; exact HQ].
  destruct H as [H|H]; [congruence|]. cbn [skipn]. assert (E : starts_with_ch s (ch "[") = false).
  { destruct s as [|d s]; [reflexivity|]. specialize (H d eq_refl). cbn beta in H. cbn [starts_with_ch]. apply N.eqb_neq. change (ch "[") with 91%N. tauto. }
  rewrite E. apply wp_bind. eapply wp_lift; [apply no_identifier_here; eapply not_before_impl; [|exact H]; cbn beta; tauto|]. apply wp_ret. exact HQ.
Qed.
Definition label_texts : list str := map fst kotlin_labels.
Lemma kotlin_no_symbol c s : ident_char c -> no_label (c :: s) -> kotlin_match_symbol (c :: s) = None.
Proof.
  intros H Hl. unfold kotlin_match_symbol.
  assert (F : forall u, In u label_texts -> first_of (c :: s) [u] None = None).
  { intros u Hu. unfold first_of. cbn [find]. destruct (starts_with (c :: s) u) eqn:E; [|reflexivity]. exfalso. apply starts_with_app in E as [v E]. apply in_map_iff in Hu as ([u' h] & <- & Hu). exact (Hl _ _ _ Hu E). }
  repeat match goal with
  | |- (if (c =? ?x)%N then first_of _ [?u] None else _) = _ => destruct (c =? x)%N eqn:?; [first [apply F; vm_compute; tauto | exfalso; match goal with E : (c =? _)%N = true |- _ => apply N.eqb_eq in E; subst c; vm_compute in H; intuition discriminate end]|]
  | |- (if (c =? ?x)%N then _ else _) = _ => destruct (N.eqb_spec c x) as [E|_]; [exfalso; subst c; vm_compute in H; intuition discriminate|]
  end.
  destruct (mem c (bs "#(),@[]{}")) eqn:E; [|reflexivity]. apply mem_In in E. exfalso. cbn in E. repeat (destruct E as [E|E]; [subst c; vm_compute in H; intuition discriminate|]). exact E.
Qed.
Lemma kotlin_symbol_no c s (Q : bool -> hst unit -> Prop) i o : ident_char c -> no_label (c :: s) -> Q false (mk_hst (c :: s) i o tt) -> wp kotlin_expect_symbol Q (mk_hst (c :: s) i o tt).
Proof. intros H Hl HQ. unfold kotlin_expect_symbol. apply wp_bind, wp_get_rem. cbn [rem]. rewrite kotlin_no_symbol by assumption. apply wp_ret. exact HQ. Qed.
Lemma kotlin_backtick_no c s (Q : bool -> hst unit -> Prop) i o : c <> 96%N -> Q false (mk_hst (c :: s) i o tt) -> wp kotlin_expect_backtick_identifier Q (mk_hst (c :: s) i o tt).
Proof. intros H HQ. unfold kotlin_expect_backtick_identifier. apply wp_bind, wp_get_rem. cbn [rem starts_with_ch]. rewrite (proj2 (N.eqb_neq c 96) H). apply wp_ret. exact HQ. Qed.

Lemma kotlin_symbol_longest c t rest : longest kotlin_symbols (c :: t) rest -> c <> 34%N -> ~ ident_char c -> kotlin_match_symbol ((c :: t) ++ rest) = kotlin_match_symbol (c :: t).
Proof.
  intros H N Hid. apply N.eqb_neq in N. unfold kotlin_match_symbol. cbn [app].
  assert (I : forall x, is_cpp_ascii_identifier_continue x = true -> (c =? x)%N = false) by (intros x Hx; apply N.eqb_neq; intros ->; apply Hid; apply ident_char_iff; exact Hx).
  rewrite !(I (ch "a")), !(I (ch "b")), !(I (ch "c")), !(I (ch "r")), !(I (ch "s")), !(I (ch "t")) by reflexivity. clear I.
  assert (E : forall u, (c =? ch "=")%N = true -> (if starts_with (c :: u) (bs ">=") then Some (bs "=>") else Some [c]) = Some [c]) by (intros u E; apply N.eqb_eq in E; subst c; reflexivity).
  cbn [app]. change (c :: t ++ rest) with ((c :: t) ++ rest).
  destruct (c =? ch "=")%N eqn:Eq.
  - rewrite !(E _ eq_refl). apply N.eqb_eq in Eq. subst c. cbn [app]. change (ch "=" :: t ++ rest) with ((ch "=" :: t) ++ rest). change ((if (ch "=" =? ch "!")%N then first_of ((ch "=" :: t) ++ rest) [bs "!="; bs "!in"; bs "!is"] (Some [ch "="]) else first_of ((ch "=" :: t) ++ rest) [bs "==="; bs "=="] (Some [ch "="])) = first_of (ch "=" :: t) [bs "==="; bs "=="] (Some [ch "="])).
    change (ch "=" =? ch "!")%N with false. cbn iota. apply (first_of_longest kotlin_symbols); [exact H|apply known_In; vm_compute; reflexivity].
  - symbol_longest kotlin_symbols H. congruence.
Qed.
Lemma kotlin_symbols_ok : symbols_ok kotlin_match_symbol kotlin_token_by_code kotlin_symbols = true.
Proof. vm_compute. reflexivity. Qed.
Lemma kotlin_labels_ok : symbols_ok kotlin_match_symbol kotlin_token_by_code kotlin_labels = true.
Proof. vm_compute. reflexivity. Qed.
Lemma kotlin_words_ok : words_ok kotlin_tokens kotlin_words = true.
Proof. vm_compute. reflexivity. Qed.
Lemma kotlin_label_match w h rest : In (w, h) kotlin_labels -> kotlin_match_symbol (w ++ rest) = Some w.
Proof. intros H. cbn [kotlin_labels In] in H. repeat (destruct H as [[= <- <-]|H]; [reflexivity|]). contradiction. Qed.

Ltac start_token := unfold kotlin_token, kotlin_expect_line_comment, kotlin_expect_block_comment; cbn [app].
Lemma kotlin_do_symbol t h rest : In (t, h) kotlin_symbols -> longest kotlin_symbols t rest -> (t = bs "." -> not_before digit rest) ->
  (t = bs "@" -> not_before (fun c => ident_start c \/ (128 <= c)%N \/ c = ch "[") rest) -> (t = bs "/" -> not_before (fun c => c = ch "/" \/ c = ch "*") rest) -> kotlin_does [(t, Some h)] rest.
Proof.
  intros Hi Hl Hdot Hat Hsl i o. rewrite text_one. destruct (symbols_ok_In _ _ _ kotlin_symbols_ok t h Hi) as (E1 & E2 & c & u & -> & Hc).
  assert (Hh : forallb (fun e => let c := hd 0%N (fst e) in negb (mem c [34; 39]%N) && negb (is_cpp_ascii_identifier_continue c)
     && (negb (c =? 46)%N || str_eqb (fst e) (bs ".") || (nth 1 (fst e) 0 =? 46)%N) && (negb (c =? 64)%N || str_eqb (fst e) (bs "@")) && (negb (c =? 47)%N || str_eqb (fst e) (bs "/") || str_eqb (fst e) (bs "/="))) kotlin_symbols = true) by (vm_compute; reflexivity).
  rewrite forallb_forall in Hh. specialize (Hh _ Hi). cbn [fst hd] in Hh. rewrite !andb_true_iff, !orb_true_iff, !negb_true_iff in Hh. destruct Hh as [[[[H1 H2] H3] H4] H5].
  assert (Nid : ~ ident_char c) by (rewrite <- ident_char_iff; congruence).
  assert (Nq : ~ In c [34; 39]%N) by (rewrite <- mem_In; congruence). cbn [In] in Nq.
  assert (Dot : c = 46%N -> not_before digit (u ++ rest)).
  { intros ->. destruct H3 as [[H3|H3]|H3]; [discriminate| |].
    - apply str_eqb_eq in H3; injection H3 as ->. apply Hdot; reflexivity.
    - destruct u as [|y u]; [discriminate H3|]. cbn [nth] in H3. apply N.eqb_eq in H3. subst y. apply not_before_cons. unfold digit. lia. }
  assert (At : c <> 64%N \/ not_before (fun c => ident_start c \/ (128 <= c)%N \/ c = 91%N) (u ++ rest)).
  { destruct H4 as [H4|H4]; [left; apply N.eqb_neq; exact H4|right]. apply str_eqb_eq in H4. injection H4 as -> ->. apply Hat. reflexivity. }
  assert (Sl : c <> 47%N \/ not_before (fun c => c = 47 \/ c = 42)%N (u ++ rest)).
  { destruct H5 as [[H5|H5]|H5]; [left; apply N.eqb_neq; exact H5|right|right]; apply str_eqb_eq in H5; injection H5 as -> ->; [apply Hsl; reflexivity|]. apply not_before_cons. lia. }
  start_token.
  tryno line_comment_no. { destruct Sl as [Sl|Sl]; [tauto|right]. eapply not_before_impl; [|exact Sl]. cbn beta. tauto. }
  tryno block_comment_no. { destruct Sl as [Sl|Sl]; [tauto|right]. eapply not_before_impl; [|exact Sl]. cbn beta. tauto. }
  tryno kotlin_string_no; [intuition congruence|intuition congruence|]. tryno kotlin_number_no; [unfold ident_char in Nid; tauto|unfold ident_char in Nid; tauto|exact Dot|]. tryno kotlin_annotation_no; [exact At|].
  apply wp_bind. unfold kotlin_expect_symbol. apply wp_bind, wp_get_rem. cbn [rem]. change (c :: u ++ rest) with ((c :: u) ++ rest). rewrite kotlin_symbol_longest, E1, E2 by (assumption || intuition congruence).
  apply wp_bind. apply wp_emit_exact; [rewrite app_length; cbn; lia|]. rewrite skipn_app_exact. apply wp_ret. cbn iota. apply wp_ret. reflexivity.
Qed.
Lemma kotlin_do_label w h rest : In (w, h) kotlin_labels -> kotlin_does [(w, Some h)] rest.
Proof.
  intros Hi i o. rewrite text_one. destruct (symbols_ok_In _ _ _ kotlin_labels_ok w h Hi) as (E1 & E2 & c & u & -> & Hc). pose proof (kotlin_label_match _ _ rest Hi) as HM.
  assert (Hh : forallb (fun e => (97 <=? hd 0 (fst e)) && (hd 0 (fst e) <=? 122))%N kotlin_labels = true) by (vm_compute; reflexivity).
  rewrite forallb_forall in Hh. specialize (Hh _ Hi). cbn [fst hd] in Hh. rewrite andb_true_iff, !N.leb_le in Hh.
  start_token. tryno line_comment_no; [lia|]. tryno block_comment_no; [lia|]. tryno kotlin_string_no; [lia|lia|]. tryno kotlin_number_no; [unfold digit; lia|lia|lia|]. tryno kotlin_annotation_no; [lia|].
  apply wp_bind. unfold kotlin_expect_symbol. apply wp_bind, wp_get_rem. cbn [rem]. change (c :: u ++ rest) with ((c :: u) ++ rest). rewrite HM, E2.
  apply wp_bind. apply wp_emit_exact; [rewrite app_length; cbn; lia|]. rewrite skipn_app_exact. apply wp_ret. cbn iota. apply wp_ret. reflexivity.
Qed.
Lemma kotlin_do_word w h rest : identifier w -> not_underscore w -> match kotlin_token_by_code w with Some h => h | None => hl_name end = h -> no_label (w ++ rest) -> not_before ident_or_non_ascii rest -> kotlin_does [(w, Some h)] rest.
Proof.
  intros Hw Hu Hh Hl R i o. rewrite text_one. pose proof (identifier_exact w rest Hw R) as HI. pose proof Hw as (c & t & E & Hc & _). subst w. specialize (Hu c eq_refl). cbn beta in Hu. change (ch "_") with 95%N in Hu.
  assert (Nd : ~ digit c /\ c <> 47%N /\ c <> 39%N /\ c <> 34%N /\ c <> 46%N /\ c <> 64%N /\ c <> 96%N /\ ident_char c) by (unfold ident_start, letter, ident_char, letter, digit in *; lia). destruct Nd as (N1 & N2 & N3 & N4 & N5 & N6 & N7 & N8).
  start_token.
  tryno line_comment_no; [tauto|]. tryno block_comment_no; [tauto|]. tryno kotlin_string_no; [assumption|assumption|]. tryno kotlin_number_no; [assumption|assumption|congruence|]. tryno kotlin_annotation_no; [tauto|]. tryno kotlin_symbol_no; [assumption|exact Hl|]. tryno kotlin_backtick_no; [assumption|].
  apply wp_bind. unfold kotlin_expect_identifier. apply wp_bind, wp_get_rem. cbn [rem]. apply wp_bind. eapply wp_lift; [exact HI|].
  change (length (c :: t) =? 0) with false. cbn iota. change (c :: t ++ rest) with ((c :: t) ++ rest). rewrite firstn_app_exact, Hh. apply wp_bind. apply wp_emit_exact; [rewrite app_length; cbn; lia|]. rewrite skipn_app_exact. apply wp_ret. cbn iota. apply wp_ret. reflexivity.
Qed.
Lemma kotlin_do_backtick w rest : w <> [] -> Forall (fun c => ~ In c [96; 10; 13]%N) w -> kotlin_does [([96]%N, Some hl_name_delim); (w, Some hl_name); ([96]%N, Some hl_name_delim)] rest.
Proof.
  intros Hw F i o. set (p := [([96]%N, Some hl_name_delim); (w, Some hl_name); ([96]%N, Some hl_name_delim)]).
  assert (Ep : text p ++ rest = 96%N :: w ++ 96%N :: rest) by (unfold p; cbn [text map fst concat app]; rewrite <- app_assoc; reflexivity).
  assert (El : length (text p) = 1 + length w + 1) by (unfold p; cbn [text map fst concat app length]; rewrite app_length; cbn; lia).
  assert (Lw : 0 < length w) by (destruct w; [congruence|cbn; lia]).
  rewrite Ep, El. start_token. tryno line_comment_no; [lia|]. tryno block_comment_no; [lia|]. tryno kotlin_string_no; [lia|lia|]. tryno kotlin_number_no; [unfold digit; lia|lia|lia|]. tryno kotlin_annotation_no; [lia|].
  apply wp_bind. unfold kotlin_expect_symbol. apply wp_bind, wp_get_rem. cbn [rem]. change (kotlin_match_symbol (96%N :: w ++ 96%N :: rest)) with (@None str). apply wp_ret. cbn iota.
  apply wp_bind. unfold kotlin_expect_backtick_identifier. apply wp_bind, wp_get_rem. cbn [rem]. change (negb (starts_with_ch (96%N :: w ++ 96%N :: rest) 96)) with false. cbn iota. cbn [skipn].
  assert (W : length_if (w ++ 96%N :: rest) (fun c => negb (mem c [96; 13; 10]%N)) = length w).
  { rewrite length_if_eq. apply prefix_len_exact; [|apply not_before_cons; discriminate]. eapply Forall_impl; [|exact F]. intros c Hc. apply negb_true_iff. destruct (mem c [96; 13; 10]%N) eqn:E; [|reflexivity]. apply mem_In in E. cbn [In] in *. tauto. }
  rewrite W. cbn [Nat.add skipn]. rewrite skipn_app_exact. change (starts_with_ch (96%N :: rest) 96) with true. cbn iota. rewrite (proj2 (Nat.eqb_neq (S (length w)) 1)) by lia.
  apply wp_bind. apply wp_emit_exact; [cbn; lia|]. cbn [skipn]. replace (S (length w) - 1) with (length w) by lia. apply wp_bind. apply wp_emit_exact; [rewrite app_length; lia|]. rewrite skipn_app_exact. apply wp_bind. apply wp_emit_exact; [cbn; lia|]. cbn [skipn]. apply wp_ret. cbn iota. apply wp_ret.
  unfold p. cbn [tokens rev app length]. f_equal. lia.
Qed.
Lemma kotlin_do_comment p rest : c_comment js_line p rest -> kotlin_does p rest.
Proof. intros H i o. unfold kotlin_token, kotlin_expect_line_comment, kotlin_expect_block_comment. apply c_comment_token. exact H. Qed.

(** Numbers *)
Lemma kotlin_do_number_pieces (d : N -> Prop) p I f e x rest : let n := number_pieces p I f e x in
  (exists c t, text n = c :: t /\ (digit c \/ c = 46%N)) -> ~ d 95%N -> grouped d 95 I \/ I = [] /\ f <> None -> (forall f', f = Some f' -> p = [] /\ grouped d 95 f') ->
  match e with Some (es, ed) => es <> [] /\ ed <> [] /\ Forall digit ed | None => True end ->
  match_common_number (text n ++ rest) kotlin_number_options = Ok (mk_number (length p + length (text I) + length (frac_text f) + length (exp_text e) + length x)
    0 (length p) (length (text I)) (match f with None => 0 | Some _ => 1 end) (match f with None => 0 | Some f => length (text f) end)
    (match e with None => 0 | Some (e, _) => length e end) (match e with None => 0 | Some (_, d) => length d end) (length x) false) ->
  kotlin_does n rest.
Proof.
  intros n (c & t & En & Hc) Hd GI GF GE HM i o. assert (LI : 0 < length (text I) + length (frac_text f)).
  { destruct GI as [GI|[-> GI]]; [apply grouped_ne in GI; destruct (text I); [congruence|cbn; lia]|]. destruct f; [cbn; lia|congruence]. }
  unfold kotlin_token, kotlin_expect_line_comment, kotlin_expect_block_comment. rewrite En. cbn [app]. unfold digit in Hc.
  tryno line_comment_no; [left; lia|]. tryno block_comment_no; [left; lia|]. tryno kotlin_string_no; [lia|lia|].
  change (c :: t ++ rest) with ((c :: t) ++ rest). rewrite <- En in *. apply wp_bind. unfold kotlin_expect_number. apply wp_bind, wp_get_rem. cbn [rem]. apply wp_bind.
  assert (HM' : kotlin_match_number (text n ++ rest) = match_common_number (text n ++ rest) kotlin_number_options).
  { unfold kotlin_match_number. rewrite HM. cbn [bind nr_length nr_sign nr_prefix nr_integer nr_radix_point nr_fractional nr_exponent_sep nr_exponent_digits nr_suffix nr_erroneous].
    destruct f as [f|]; [|reflexivity]. destruct (GF f eq_refl) as [-> G]. apply grouped_ne in G. assert (Ef : (length (text f) =? 0) = false) by (destruct (text f); [congruence|reflexivity]). rewrite Ef. reflexivity. }
  rewrite HM' , HM. eapply wp_lift; [reflexivity|]. cbn [nr_length].
  match goal with |- context [?a =? 0] => rewrite (proj2 (Nat.eqb_neq a 0)) by lia end. apply wp_bind. unfold n. apply (highlight_sep_exact d); try assumption; try discriminate.
  - unfold digit. lia.
  - destruct GI as [GI|[GI _]]; auto.
  - intros f' E. right. apply GF. exact E.
  - apply wp_ret. cbn iota. apply wp_ret. reflexivity.
Qed.
Lemma kotlin_exp_good e : kotlin_exp e ->
  match e with
  | Some (es, ed) => true = true /\ In es (map fst (no_exponents kotlin_number_options)) /\ fst (fst (number_exponent es (no_exponents kotlin_number_options))) = length es /\ ed <> [] /\ Forall digit ed
                     /\ not_before (fun c => digit c \/ c = no_separator kotlin_number_options) es
  | None => True
  end.
Proof.
  intros H. destruct e as [[es ed]|]; [|exact Logic.I]. destruct (H es ed eq_refl) as (H1 & H2 & H3). split; [reflexivity|].
  cbn [In] in H1. repeat (destruct H1 as [<-|H1]; [split; [vm_compute; tauto|]; split; [vm_compute; reflexivity|]; split; [exact H2|]; split; [exact H3|]; nb|]). contradiction.
Qed.
Definition kotlin_suffixes : list str := [[]; bs "l"; bs "L"; bs "u"; bs "U"; bs "f"; bs "F"].
Lemma kotlin_suffix_ok x rest : In x kotlin_suffixes -> not_before ident_char rest -> x ++ rest <> [] -> suffix_match kotlin_number_options (x ++ rest) = length x.
Proof.
  intros Hx R _. change (number_suffix (x ++ rest) [bs "F"; bs "L"; bs "U"; bs "UL"; bs "f"; bs "l"; bs "u"; bs "uL"] = length x). rewrite number_suffix_exact by (exact R || (vm_compute; reflexivity)).
  unfold kotlin_suffixes in Hx. cbn [In] in Hx. repeat (destruct Hx as [<-|Hx]; [vm_compute; reflexivity|]). contradiction.
Qed.
Lemma kotlin_literal_number p (d : N -> Prop) allow base I f e x rest :
  (forall c, is_ascii_digit_base c base = true <-> d c) -> (forall c, d c -> hex_digit c) ->
  number_base kotlin_number_options (p ++ text I ++ frac_text f ++ exp_text e ++ x ++ rest) (no_prefixes kotlin_number_options) = Ok (length p, allow, base) ->
  (p = [] \/ exists b, p = [48; b]%N) ->
  grouped d 95 I \/ p = [] /\ d = digit /\ I = [] /\ f <> None ->
  (forall f', f = Some f' -> p = [] /\ allow = true /\ grouped d 95 f') ->
  match e with
  | Some (es, ed) => allow = true /\ In es (map fst (no_exponents kotlin_number_options)) /\ fst (fst (number_exponent es (no_exponents kotlin_number_options))) = length es /\ ed <> [] /\ Forall digit ed
                     /\ not_before (fun c => d c \/ c = no_separator kotlin_number_options) es
  | None => True
  end ->
  In x kotlin_suffixes -> (e = None -> not_before d x) -> not_before (fun c => ident_char c \/ c = ch ".") rest ->
  kotlin_does (number_pieces p I f e x) rest.
Proof.
  intros Hd Hhex HB HP GI GF GE GX HX R.
  assert (D95 : ~ d 95%N) by (intros D; apply Hhex in D; unfold hex_digit in D; lia).
  assert (D46 : ~ d 46%N) by (intros D; apply Hhex in D; unfold hex_digit in D; lia).
  assert (Ri : not_before ident_char rest) by (eapply not_before_impl; [|exact R]; cbn beta; tauto).
  assert (HR : forall q : N -> Prop, not_before q x -> (forall c, q c -> ident_char c \/ c = 46%N) -> not_before q (x ++ rest)).
  { intros q Q1 Q2. destruct x as [|y x]; [|intros c Ec; apply (Q1 c); exact Ec]. cbn [app]. eapply not_before_impl; [|exact R]. cbn beta. exact Q2. }
  assert (Hhexid : forall c, d c -> ident_char c) by (intros c D; apply Hhex in D; unfold hex_digit in D; unfold ident_char, letter, digit; lia).
  apply (kotlin_do_number_pieces d).
  - rewrite number_pieces_text. destruct HP as [->|[b ->]]; [|exists 48%N; eexists; split; [reflexivity|unfold digit; lia]]. cbn [app]. destruct GI as [GI|(_ & _ & -> & Hf)].
    + destruct (grouped_second _ _ _ GI) as (c & t & -> & Hc & _). exists c. eexists. split; [reflexivity|]. left. apply digit_iff.
      assert (E : base = 10%Z). { pose proof (number_base_prefix _ _ _ _ HB) as (_ & _ & K). cbn [fst snd] in K. destruct (K eq_refl) as [_ ->]. destruct (starts_with_ch _ _); reflexivity. }
      subst base. apply Hd in Hc. apply digit_iff, digit_10. exact Hc.
    + destruct f as [f|]; [|congruence]. exists 46%N. eexists. split; [reflexivity|]. auto.
  - exact D95.
  - tauto.
  - intros f' E. destruct (GF f' E) as (H1 & _ & H2). auto.
  - destruct e as [[es ed]|]; [|exact Logic.I]. destruct GE as (_ & GE & GE2 & GE3 & GE4 & _). split; [|auto]. intros ->. cbn in GE. intuition discriminate.
  - rewrite number_pieces_text, <- !app_assoc. apply (literal_exact kotlin_number_options p d allow base I f e x rest); try reflexivity; try discriminate; try assumption.
    + destruct GI as [GI|(-> & -> & -> & Hf)]; [left; exact GI|right]. split; [reflexivity|]. split; [reflexivity|]. destruct f as [f|]; [|congruence]. exists f. split; [reflexivity|]. apply GF. reflexivity.
    + intros f' E. destruct (GF f' E) as (_ & -> & G). split; [reflexivity|]. right. exact G.
    + destruct e as [[es ed]|]; [exact GE|]. intros _. apply no_exponent; [reflexivity|]. apply HR.
      * unfold kotlin_suffixes in GX. cbn [In] in GX. repeat (destruct GX as [<-|GX]; [nb|]). contradiction.
      * intros c Hc. cbn in Hc. left. repeat (destruct Hc as [<-|Hc]; [vm_compute; intuition discriminate|]). contradiction.
    + apply kotlin_suffix_ok; [exact GX|exact Ri].
    + apply HR.
      * destruct e as [[es ed]|].
        -- unfold kotlin_suffixes in GX. cbn [In] in GX. repeat (destruct GX as [<-|GX]; [nb|]). contradiction.
        -- specialize (HX eq_refl). intros c Ec [D|D]; [exact (HX c Ec D)|]. unfold kotlin_suffixes in GX. cbn [In] in GX. repeat (destruct GX as [<-|GX]; [destruct D as [-> | ->]; vm_compute in Ec; discriminate Ec|]). contradiction.
      * intros c. destruct e as [[es ed]|]; [unfold ident_char; tauto|]. cbn. intros [D|[D|D]]; [left; auto| |auto]. left. unfold ident_char. auto.
Qed.
Lemma kotlin_do_number n rest : kotlin_number n -> not_before (fun c => ident_char c \/ c = ch ".") rest -> kotlin_does n rest.
Proof.
  intros Hn R.
  assert (B10 : forall c, digit c -> hex_digit c) by (unfold digit, hex_digit; lia). assert (B2 : forall c, binary_digit c -> hex_digit c) by (unfold binary_digit, hex_digit; lia).
  assert (S1 : forall x, In x [[]; bs "l"; bs "L"; bs "u"; bs "U"] -> In x kotlin_suffixes /\ not_before hex_digit x /\ not_before digit x /\ not_before binary_digit x).
  { intros x Hx. cbn [In] in Hx. repeat (destruct Hx as [<-|Hx]; [split; [vm_compute; tauto|]; repeat split; nb|]). contradiction. }
  assert (S2 : forall x, In x [[]; bs "f"; bs "F"] -> In x kotlin_suffixes /\ not_before digit x).
  { intros x Hx. cbn [In] in Hx. repeat (destruct Hx as [<-|Hx]; [split; [vm_compute; tauto|]; repeat split; nb|]). contradiction. }
  assert (Dec : forall I f e x, grouped digit 95 I -> kotlin_exp e -> In x kotlin_suffixes -> not_before digit x ->
     number_base kotlin_number_options ([] ++ text I ++ frac_text f ++ exp_text e ++ x ++ rest) (no_prefixes kotlin_number_options) = Ok (length (@nil N), true, 10%Z)).
  { intros I f e x G GE GX _. destruct (grouped_second _ _ _ G) as (c & t & -> & Hc & Ht). cbn [app length]. apply decimal_base; try reflexivity.
    intros y Hy Iy. cbn in Iy. destruct t as [|z t]; cbn [app] in Hy.
    2:{ injection Hy as ->. specialize (Ht y eq_refl). unfold digit in Ht. lia. }
    destruct f as [f|]; [cbn in Hy; injection Hy as <-; lia|]. cbn [frac_text app] in Hy. destruct e as [[es ed]|].
    - destruct (GE es ed eq_refl) as (Hl & _). cbn [In] in Hl. repeat (destruct Hl as [<-|Hl]; [cbn in Hy; injection Hy as <-; lia|]). contradiction.
    - cbn [exp_text app] in Hy. unfold kotlin_suffixes in GX. cbn [In] in GX.
      destruct GX as [<-|GX]; [cbn in Hy; apply (R y Hy); left; unfold ident_char, letter; lia|]. repeat (destruct GX as [<-|GX]; [cbn in Hy; injection Hy as <-; lia|]). contradiction. }
  destruct Hn as [base I x Hb G HX|base I x Hb G HX|I x G HX|I f e x G GF GE HX|f e x G GE HX].
  - destruct (S1 x HX) as (X1 & X2 & X3 & X4). apply (kotlin_literal_number base binary_digit false 2); auto; try discriminate.
    + exact digit_2.
    + cbn [In] in Hb. destruct Hb as [<-|[<-|[]]]; reflexivity.
    + right. cbn [In] in Hb. destruct Hb as [<-|[<-|[]]]; eexists; reflexivity.
  - destruct (S1 x HX) as (X1 & X2 & X3 & X4). apply (kotlin_literal_number base hex_digit false 16); auto; try discriminate.
    + exact digit_16.
    + cbn [In] in Hb. destruct Hb as [<-|[<-|[]]]; reflexivity.
    + right. cbn [In] in Hb. destruct Hb as [<-|[<-|[]]]; eexists; reflexivity.
  - destruct (S1 x HX) as (X1 & X2 & X3 & X4). apply (kotlin_literal_number [] digit true 10); auto; try discriminate.
    + exact digit_10.
    + apply Dec; auto. discriminate.
  - destruct (S2 x HX) as (X1 & X2). apply (kotlin_literal_number [] digit true 10); auto; try discriminate.
    + exact digit_10.
    + apply (kotlin_exp_good e GE).
  - destruct (S2 x HX) as (X1 & X2). apply (kotlin_literal_number [] digit true 10); auto; try discriminate.
    + exact digit_10.
    + right. repeat split. discriminate.
    + intros f' [= <-]. auto.
    + apply (kotlin_exp_good e GE).
Qed.
Lemma kotlin_do_range n rest : grouped digit 95 n -> kotlin_does n (bs ".." ++ rest).
Proof.
  intros G i o. change (bs "..") with [46; 46]%N. cbn [app].
  destruct (grouped_second _ _ _ G) as (c & t & En & Hc & Ht). unfold digit in Hc.
  start_token. rewrite En. cbn [app]. tryno line_comment_no; [left; lia|]. tryno block_comment_no; [left; lia|]. tryno kotlin_string_no; [lia|lia|].
  change (c :: t ++ 46%N :: 46%N :: rest) with ((c :: t) ++ 46%N :: 46%N :: rest). rewrite <- En. apply wp_bind. unfold kotlin_expect_number. apply wp_bind, wp_get_rem. cbn [rem]. apply wp_bind.
  assert (Ln : 0 < length (text n)) by (rewrite En; cbn; lia).
  assert (HM : match_common_number (text n ++ 46%N :: 46%N :: rest) kotlin_number_options = Ok (mk_number (length (text n) + 1) 0 0 (length (text n)) 1 0 0 0 0 false)).
  { pose proof (number_exact kotlin_number_options [] n (Some []) None [] (46%N :: rest) true 10%Z) as K. cbn [frac_text exp_text text map concat app length] in K. rewrite !Nat.add_0_r in K. apply K; try reflexivity; try discriminate.
    - left. rewrite En. discriminate.
    - rewrite En. apply decimal_base; try reflexivity. intros y Hy Iy. cbn in Iy. destruct t as [|z t]; cbn [app] in Hy; injection Hy as <-; [lia|]. specialize (Ht z eq_refl). unfold digit in Ht. lia.
    - apply (separated_exact digit); [exact digit_10|unfold digit; vm_compute; intuition discriminate|discriminate|exact G|]. apply not_before_cons. unfold digit. vm_compute. intuition discriminate.
    - repeat split. discriminate. }
  assert (HM' : kotlin_match_number (text n ++ 46%N :: 46%N :: rest) = Ok (mk_number (length (text n)) 0 0 (length (text n)) 0 0 0 0 0 false)).
  { unfold kotlin_match_number. rewrite HM. cbn [bind nr_length nr_sign nr_prefix nr_integer nr_radix_point nr_fractional nr_exponent_sep nr_exponent_digits nr_suffix nr_erroneous].
    assert (B1 : (length (text n) + 1 <? length (text n ++ 46%N :: 46%N :: rest)) = true) by (apply Nat.ltb_lt; rewrite app_length; cbn; lia).
    assert (B2 : nth (length (text n) + 1) (text n ++ 46%N :: 46%N :: rest) 0%N = 46%N) by (rewrite app_nth2 by lia; replace (length (text n) + 1 - length (text n)) with 1 by lia; reflexivity).
    rewrite B1, B2. cbn [Nat.eqb negb andb orb N.eqb ch]. replace (length (text n) + 1 - 1) with (length (text n)) by lia. reflexivity. }
  eapply wp_lift; [exact HM'|]. cbn [nr_length]. rewrite (proj2 (Nat.eqb_neq (length (text n)) 0)) by lia. apply wp_bind.
  assert (Ep : number_pieces [] n None None [] = n) by (unfold number_pieces; cbn [opt_piece app]; rewrite !app_nil_r; reflexivity).
  pose proof (highlight_sep_exact (S := unit) digit 95 [] n None None [] (fun _ st' => st' = mk_hst (46%N :: 46%N :: rest) (i + length (text n)) (rev (tokens i n) ++ o) tt) (46%N :: 46%N :: rest) i o tt) as K.
  match type of K with context [number_pieces ?a ?b ?c ?d ?e] => replace (number_pieces a b c d e) with n in K end. cbn [frac_text exp_text length] in K. rewrite !Nat.add_0_r in K. cbn [Nat.add] in K. eapply wp_mono; [apply K; try discriminate; try tauto; unfold digit; lia|]. cbn beta. intros _ st' ->. apply wp_ret. cbn iota. apply wp_ret. reflexivity.
Qed.

(** Annotations *)
Lemma kotlin_dotted_scan n rest i o : kotlin_dotted n -> dotted_end rest ->
  wp kotlin_dotted_name (fun _ st' => st' = mk_hst rest (i + length (text n)) (rev (tokens i n) ++ o) tt) (mk_hst (text n ++ rest) i o tt).
Proof.
  intros H R. unfold kotlin_dotted_name. unfold dotted_end in R. revert i o. induction H as [w Hw|w l Hw Hl IH]; intros i o; apply wp_unroll; unfold kotlin_dotted_body; apply wp_bind, wp_get_rem; cbn [rem]; apply wp_bind.
  - rewrite text_one. eapply wp_lift; [apply identifier_exact; [exact Hw|]; eapply not_before_impl; [|exact R]; cbn beta; tauto|]. assert (Lw : 0 < length w) by (destruct Hw as (c & t & -> & _); cbn; lia).
    rewrite (proj2 (Nat.eqb_neq (length w) 0)) by lia. apply wp_bind. apply wp_emit_exact; [rewrite app_length; lia|]. rewrite skipn_app_exact. apply wp_bind, wp_get_rem. cbn [rem].
    assert (E : starts_with_ch rest (ch ".") = false). { destruct rest as [|c t]; [reflexivity|]. specialize (R c eq_refl). cbn beta in R. cbn [starts_with_ch]. apply N.eqb_neq. tauto. }
    rewrite E. cbn [negb]. apply wp_ret. reflexivity.
  - rewrite !text_cons, <- !app_assoc. eapply wp_lift; [apply identifier_exact; [exact Hw|]|].
    { change (bs ".") with [46%N]. apply not_before_cons. unfold ident_or_non_ascii, ident_char, letter, digit. lia. }
    assert (Lw : 0 < length w) by (destruct Hw as (c & t & -> & _); cbn; lia). rewrite (proj2 (Nat.eqb_neq (length w) 0)) by lia. apply wp_bind. apply wp_emit_exact; [rewrite app_length; lia|]. rewrite skipn_app_exact. apply wp_bind, wp_get_rem. cbn [rem].
    change (bs ".") with [46%N]. cbn [app]. change (negb (starts_with_ch (46%N :: text l ++ rest) (ch "."))) with false. cbn iota. apply wp_bind. apply wp_emit_exact; [cbn; lia|]. cbn [skipn]. apply wp_ret.
    split; [cbn [rem]; rewrite !app_length; cbn [length]; rewrite app_length; lia|].
    eapply wp_mono; [apply IH|]. cbn beta. intros _ st' ->. cbn [tokens rev length]. rewrite !app_length. cbn [length]. rewrite <- !app_assoc. cbn [app]. f_equal. lia.
Qed.
Lemma kotlin_dotted_head n rest : kotlin_dotted n -> dotted_end rest -> exists c t m, text n = c :: t /\ ident_start c /\ cpp_match_identifier (text n ++ rest) = Ok m /\ m <> 0.
Proof.
  intros H R. assert (K : exists w l, text n ++ rest = w ++ l /\ identifier w /\ not_before ident_or_non_ascii l /\ exists v, text n = w ++ v).
  { destruct H as [w Hw|w l Hw Hl].
    - exists w, rest. rewrite text_one. repeat split; [exact Hw| |exists []; rewrite app_nil_r; reflexivity]. eapply not_before_impl; [|exact R]. cbn beta. tauto.
    - exists w, (bs "." ++ text l ++ rest). rewrite !text_cons, <- !app_assoc. repeat split; [exact Hw| |eauto]. change (bs ".") with [46%N]. apply not_before_cons. unfold ident_or_non_ascii, ident_char, letter, digit. lia. }
  destruct K as (w & l & E & Hw & Hl & v & Ev). pose proof Hw as (c & t & -> & Hc & _). exists c, (t ++ v), (length (c :: t)). rewrite E, Ev. repeat split; [exact Hc| |discriminate]. apply identifier_exact; assumption.
Qed.
Lemma kotlin_space_iff c : is_python_whitespace c = true <-> kotlin_space c.
Proof. unfold is_python_whitespace. rewrite mem_In. unfold kotlin_space. cbn [In]. tauto. Qed.
Lemma kotlin_space_len b X : Forall kotlin_space b -> length_if (b ++ X) is_python_whitespace = length b + length_if X is_python_whitespace.
Proof.
  intros F. rewrite !length_if_eq. induction F as [|c b Hc F IH]; [reflexivity|]. cbn [app prefix_len length]. apply kotlin_space_iff in Hc. rewrite Hc, IH. reflexivity.
Qed.
Lemma kotlin_whitespace_skip b X i o (s : unit) : Forall kotlin_space b -> kotlin_whitespace (mk_hst (b ++ X) i o s) = kotlin_whitespace (mk_hst X (i + length b) o s).
Proof.
  intros F. unfold kotlin_whitespace, bindM, get_rem, advance. cbn [rem idx rops loc]. rewrite kotlin_space_len by exact F. rewrite app_length.
  pose proof (length_if_le X is_python_whitespace). rewrite !(proj2 (Nat.leb_le _ _)) by lia. rewrite skipn_app. rewrite skipn_all2 by lia. cbn [app]. f_equal. f_equal. f_equal; [f_equal; lia|lia].
Qed.
Lemma kotlin_whitespace_none X i o (Q : unit -> hst unit -> Prop) : not_before kotlin_space X -> Q tt (mk_hst X i o tt) -> wp kotlin_whitespace Q (mk_hst X i o tt).
Proof.
  intros R H. unfold kotlin_whitespace. apply wp_bind, wp_get_rem. cbn [rem]. assert (E : length_if X is_python_whitespace = 0).
  { destruct X as [|c X]; [reflexivity|]. rewrite length_if_eq. cbn [prefix_len]. destruct (is_python_whitespace c) eqn:E; [|reflexivity]. apply kotlin_space_iff in E. elim (R c eq_refl E). }
  rewrite E. apply wp_advance_exact; [lia|]. cbn [skipn]. rewrite Nat.add_0_r. exact H.
Qed.
Lemma skip_loop {A B} (body : A -> M unit (A + B)) a b X i o Q : body a (mk_hst (b ++ X) i o tt) = body a (mk_hst X (i + length b) o tt) ->
  wp (hloop 1 body a) Q (mk_hst X (i + length b) o tt) -> wp (hloop 1 body a) Q (mk_hst (b ++ X) i o tt).
Proof.
  unfold wp, hloop. cbn [rem]. intros E H. destruct (iter (1 * length X + 1) body a (mk_hst X (i + length b) o tt)) as [r|] eqn:Er; [|contradiction].
  assert (K : iter (1 * length (b ++ X) + 1) body a (mk_hst (b ++ X) i o tt) = Ok r); [|rewrite K; exact H].
  rewrite <- (iter_more body _ (1 * length (b ++ X) + 1) a _ r) with (2 := Er) by (rewrite app_length; lia).
  replace (1 * length (b ++ X) + 1) with (S (length (b ++ X))) by lia. cbn [iter]. unfold bindM. rewrite E. reflexivity.
Qed.
Lemma bind_same {A B} (m : M unit A) (k : A -> M unit B) s1 s2 : m s1 = m s2 -> bindM m k s1 = bindM m k s2.
Proof. unfold bindM. intros ->. reflexivity. Qed.
Lemma wp_same {A} (m m' : M unit A) Q s1 s2 : m s1 = m' s2 -> wp m' Q s2 -> wp m Q s1.
Proof. unfold wp. intros ->. auto. Qed.
Definition multi_rest : M unit (unit + unit) :=
  let! r := get_rem in if (length r =? 0) || starts_with_ch r (ch "]") then ret (inr tt) else let! len := lift (cpp_match_identifier r) in if negb (len =? 0) then kotlin_dotted_name ;; ret (inl tt) else emit_and_advance 1 hl_error ;; ret (inl tt).
Lemma multi_step Y i o : (length Y =? 0) || starts_with_ch Y (ch "]") = false -> kotlin_multi_body tt (mk_hst Y i o tt) = bindM kotlin_whitespace (fun _ => multi_rest) (mk_hst Y i o tt).
Proof. intros E. unfold kotlin_multi_body. unfold bindM at 1, get_rem at 1. cbn [rem]. rewrite E. reflexivity. Qed.
Lemma kotlin_list_scan l rest i o : kotlin_list l ->
  wp (hloop 1 kotlin_multi_body tt) (fun _ st' => exists l' j o', st' = mk_hst (93%N :: rest) j o' tt /\ i + length (text l) = j + 1 /\ rev (tokens i l) ++ o = rev (tokens j l') ++ o' /\ l' = [(bs "]", Some hl_symbol_square)]) (mk_hst (text l ++ rest) i o tt).
Proof.
  intros H. revert i o. induction H as [|b l Hb Hl IH|n l Hn He Hl IH]; intros i o.
  - rewrite text_one. change (bs "]") with [93%N]. cbn [app]. apply wp_unroll. unfold kotlin_multi_body. apply wp_bind, wp_get_rem. cbn [rem]. change ((length (93%N :: rest) =? 0) || starts_with_ch (93%N :: rest) (ch "]")) with true. cbn iota. apply wp_ret.
    eexists. exists i, o. split; [reflexivity|]. split; [cbn; lia|]. split; reflexivity.
  - rewrite text_cons, <- app_assoc. destruct b as [|c b]; [|set (bb := c :: b) in *].
    + cbn [app]. eapply wp_mono; [apply IH|]. cbn beta. intros _ st' (l' & j & o' & H1 & H2 & H3 & H4). exists l', j, o'. repeat split; try assumption. cbn [tokens length app]. rewrite Nat.add_0_r. exact H3.
    + assert (K : kotlin_multi_body tt (mk_hst (bb ++ text l ++ rest) i o tt) = kotlin_multi_body tt (mk_hst (text l ++ rest) (i + length bb) o tt) \/ exists X, text l ++ rest = 93%N :: X).
      { assert (Hc : is_python_whitespace c = true) by (apply kotlin_space_iff; exact (Forall_inv Hb)). 
        assert (E1 : (length (bb ++ text l ++ rest) =? 0) || starts_with_ch (bb ++ text l ++ rest) (ch "]") = false).
        { unfold bb. cbn [app length Nat.eqb orb starts_with_ch]. apply N.eqb_neq. intros ->. discriminate Hc. }
        destruct ((length (text l ++ rest) =? 0) || starts_with_ch (text l ++ rest) (ch "]")) eqn:E2.
        - right. destruct (text l ++ rest) as [|y X] eqn:E3; [|cbn [length Nat.eqb orb starts_with_ch] in E2; apply N.eqb_eq in E2; subst y; eauto]. exfalso. clear - Hl E3. apply app_eq_nil in E3 as [E3 _]. induction Hl.
          + discriminate E3.
          + rewrite text_cons in E3. apply app_eq_nil in E3. tauto.
          + rewrite text_app in E3. apply app_eq_nil in E3. tauto.
        - left. rewrite !multi_step by assumption. apply bind_same, kotlin_whitespace_skip. exact Hb. }
      destruct K as [K|[X K]].
      * apply skip_loop; [exact K|]. eapply wp_mono; [apply IH|]. cbn beta. intros _ st' (l' & j & o' & H1 & H2 & H3 & H4). exists l', j, o'. repeat split; try assumption. rewrite app_length. lia.
      * apply wp_unroll.
        assert (E1 : (length (bb ++ text l ++ rest) =? 0) || starts_with_ch (bb ++ text l ++ rest) (ch "]") = false).
        { unfold bb. cbn [app length Nat.eqb orb starts_with_ch]. apply N.eqb_neq. intros ->. pose proof (Forall_inv Hb) as Hc. apply kotlin_space_iff in Hc. discriminate Hc. }
        eapply wp_same; [rewrite multi_step by exact E1; apply (bind_same _ _ _ _ (kotlin_whitespace_skip _ _ _ _ _ Hb))|]. apply wp_bind.
        rewrite K. apply kotlin_whitespace_none; [apply not_before_cons; rewrite <- kotlin_space_iff; discriminate|]. unfold multi_rest. apply wp_bind, wp_get_rem. cbn [rem]. change ((length (93%N :: X) =? 0) || starts_with_ch (93%N :: X) (ch "]")) with true. cbn iota. apply wp_ret.
        specialize (IH (i + length bb) o). rewrite K in IH. unfold wp, hloop in IH. cbn [rem length Nat.mul Nat.add iter] in IH. unfold kotlin_multi_body at 1 in IH. unfold bindM, get_rem in IH. cbn [rem] in IH. 
        change ((length (93%N :: X) =? 0) || starts_with_ch (93%N :: X) (ch "]")) with true in IH. cbn iota in IH. unfold ret in IH. destruct IH as (l' & j & o' & H1 & H2 & H3 & H4). exists l', j, o'. repeat split; try assumption. rewrite app_length. lia.
  - rewrite text_app, <- app_assoc. assert (De : dotted_end (text l ++ rest)).
    { destruct (text l) as [|c t] eqn:E; [|intros y Hy; apply (He y); exact Hy]. exfalso. clear - Hl E. induction Hl; [discriminate|rewrite text_cons in E; apply app_eq_nil in E; tauto|rewrite text_app in E; apply app_eq_nil in E; tauto]. }
    destruct (kotlin_dotted_head n (text l ++ rest) Hn De) as (c & t & m & En & Hc & Em & Hm). assert (Nc : (length (text n ++ text l ++ rest) =? 0) || starts_with_ch (text n ++ text l ++ rest) (ch "]") = false).
    { rewrite En. cbn [app length Nat.eqb orb starts_with_ch]. apply N.eqb_neq. unfold ident_start, letter in Hc. change (ch "]") with 93%N. lia. }
    apply wp_unroll. unfold kotlin_multi_body at 1. apply wp_bind, wp_get_rem. cbn [rem]. rewrite Nc. apply wp_bind. apply kotlin_whitespace_none.
    { rewrite En. apply not_before_cons. unfold kotlin_space. cbn [In]. unfold ident_start, letter in Hc. lia. }
    apply wp_bind, wp_get_rem. cbn [rem]. rewrite Nc. apply wp_bind. eapply wp_lift; [exact Em|]. rewrite (proj2 (Nat.eqb_neq m 0) Hm). cbn [negb]. apply wp_bind. eapply wp_mono; [apply kotlin_dotted_scan; assumption|]. cbn beta. intros _ st' ->. apply wp_ret. cbn [rem].
    split; [rewrite En; cbn [app length]; rewrite !app_length; lia|]. eapply wp_mono; [apply IH|]. cbn beta. intros _ st' (l' & j & o' & H1 & H2 & H3 & H4). exists l', j, o'. repeat split; try assumption; [rewrite app_length; lia|]. rewrite tokens_app, rev_app_distr, <- app_assoc. exact H3.
Qed.
Lemma kotlin_multi_exact l rest i o : kotlin_list l ->
  wp kotlin_multi_annotation (fun _ st' => let p := (bs "[", Some hl_symbol_square) :: l in st' = mk_hst rest (i + length (text p)) (rev (tokens i p) ++ o) tt) (mk_hst (91%N :: text l ++ rest) i o tt).
Proof.
  intros H. unfold kotlin_multi_annotation. apply wp_bind, wp_get_rem. cbn [rem]. apply wp_bind, wp_check; [reflexivity|]. apply wp_bind. apply wp_emit_exact; [cbn; lia|]. cbn [skipn]. apply wp_bind. eapply wp_mono; [apply kotlin_list_scan; exact H|]. cbn beta.
  intros _ st' (l' & j & o' & -> & H2 & H3 & ->). apply wp_bind, wp_get_rem. cbn [rem]. change (starts_with_ch (93%N :: rest) (ch "]")) with true. cbn [when]. apply wp_emit_exact; [cbn; lia|]. cbn [skipn]. cbn zeta. rewrite text_cons, app_length. change (length (bs "[")) with 1. cbn [tokens rev]. rewrite <- app_assoc. cbn [app].
  change (length (bs "[")) with 1. rewrite H3. rewrite Nat.add_assoc, H2. reflexivity.
Qed.
Lemma kotlin_at X rest' i o (Q : unit -> hst unit -> Prop) : wp kotlin_expect_annotation (fun b st' => b = true /\ Q tt st') (mk_hst (64%N :: X ++ rest') i o tt) -> wp (kotlin_token nested) Q (mk_hst (64%N :: X ++ rest') i o tt).
Proof.
  intros H. start_token. tryno line_comment_no; [left; discriminate|]. tryno block_comment_no; [left; discriminate|]. tryno kotlin_string_no; [discriminate|discriminate|]. tryno kotlin_number_no; [unfold digit; lia|discriminate|discriminate|].
  apply wp_bind. eapply wp_mono; [exact H|]. cbn beta. intros b st' [-> HQ]. apply wp_ret. exact HQ.
Qed.
Lemma kotlin_do_annotation p rest : kotlin_annotation p rest -> kotlin_does p rest.
Proof.
  assert (C58 : forall X, dotted_end (58%N :: X)) by (intros X; apply not_before_cons; unfold ident_or_non_ascii, ident_char, letter, digit; vm_compute; intuition discriminate).
  assert (N91 : forall n X, kotlin_dotted n -> dotted_end X -> starts_with_ch (text n ++ X) (ch "[") = false).
  { intros n X Hn HX. destruct (kotlin_dotted_head n X Hn HX) as (c & t & m & En & Hc & _). rewrite En. cbn [app starts_with_ch]. apply N.eqb_neq. unfold ident_start, letter in Hc. change (ch "[") with 91%N. lia. }
  intros [n r Hn He Hc|t n r Ht Hn He|l r Hl|t l r Ht Hl] i o; rewrite ?text_cons, ?text_app, <- ?app_assoc; change (bs "@") with [64%N]; cbn [app].
  - apply kotlin_at. unfold kotlin_expect_annotation. apply wp_bind, wp_get_rem. cbn [rem]. change (negb (starts_with_ch (64%N :: text n ++ r) (ch "@"))) with false. cbn iota. cbn [skipn]. rewrite N91 by assumption.
    destruct (kotlin_dotted_head n r Hn He) as (c & t & m & En & Hc' & Em & Hm). apply wp_bind. eapply wp_lift; [exact Em|]. rewrite (proj2 (Nat.eqb_neq m 0) Hm). apply wp_bind. apply wp_emit_exact; [cbn; lia|]. cbn [skipn].
    apply wp_bind. eapply wp_mono; [apply kotlin_dotted_scan; assumption|]. cbn beta. intros _ st' ->. apply wp_bind, wp_get_rem. cbn [rem]. assert (E : starts_with_ch r (ch ":") = false) by (destruct r as [|y r]; [reflexivity|]; apply N.eqb_neq; exact (Hc y eq_refl)). rewrite E. apply wp_bind, wp_ret, wp_ret.
    split; [reflexivity|]. cbn [tokens rev length]. rewrite <- app_assoc. cbn [app]. f_equal. lia.
  - rewrite text_cons. change (bs ":") with [58%N]. cbn [app]. rewrite <- ?app_assoc. cbn [app]. apply kotlin_at. unfold kotlin_expect_annotation. apply wp_bind, wp_get_rem. cbn [rem]. match goal with |- context [negb ?x] => change (negb x) with false end. cbn iota. cbn [skipn]. rewrite N91 by auto.
    destruct (kotlin_dotted_head t (58%N :: text n ++ r) Ht (C58 _)) as (c & t' & m & En & Hc' & Em & Hm). apply wp_bind. eapply wp_lift; [exact Em|]. rewrite (proj2 (Nat.eqb_neq m 0) Hm). apply wp_bind. apply wp_emit_exact; [cbn; lia|]. cbn [skipn].
    apply wp_bind. eapply wp_mono; [apply kotlin_dotted_scan; [assumption|apply C58]|]. cbn beta. intros _ st' ->. apply wp_bind, wp_get_rem. cbn [rem]. change (starts_with_ch (58%N :: text n ++ r) (ch ":")) with true. cbn iota. apply wp_bind. apply wp_bind. apply wp_emit_exact; [cbn; lia|]. cbn [skipn].
    apply wp_bind, wp_get_rem. cbn [rem]. rewrite N91 by assumption. eapply wp_mono; [apply kotlin_dotted_scan; assumption|]. cbn beta. intros _ st' ->. apply wp_ret. split; [reflexivity|].
    change ((bs ":", Some hl_name_attr_delim) :: n) with ([(bs ":", Some hl_name_attr_delim)] ++ n). change ([64%N], Some hl_name_attr_delim) with ([64%N], Some hl_name_attr_delim). cbn [tokens rev length]. rewrite !tokens_app, !rev_app_distr, !app_length. cbn [tokens rev app length]. rewrite <- !app_assoc. cbn [app]. change (length (text [([58%N], Some hl_name_attr_delim)])) with 1. f_equal. lia.
  - change (bs "[") with [91%N]. cbn [app]. apply (kotlin_at (91%N :: text l) r). cbn [app]. unfold kotlin_expect_annotation. apply wp_bind, wp_get_rem. cbn [rem]. match goal with |- context [negb ?x] => change (negb x) with false end. cbn iota. cbn [skipn].
    change (starts_with_ch (91%N :: text l ++ r) (ch "[")) with true. cbn iota. apply wp_bind. apply wp_emit_exact; [cbn; lia|]. cbn [skipn]. apply wp_bind. eapply wp_mono; [apply kotlin_multi_exact; exact Hl|]. cbn beta zeta. intros _ st' ->. apply wp_ret. split; [reflexivity|].
    rewrite text_cons. change (bs "[") with [91%N]. cbn [tokens rev length app]. rewrite <- !app_assoc. cbn [app]. f_equal. lia.
  - rewrite !text_cons. change (bs ":") with [58%N]. change (bs "[") with [91%N]. cbn [app]. rewrite <- ?app_assoc. cbn [app]. apply kotlin_at. unfold kotlin_expect_annotation. apply wp_bind, wp_get_rem. cbn [rem]. match goal with |- context [negb ?x] => change (negb x) with false end. cbn iota. cbn [skipn]. rewrite N91 by auto.
    destruct (kotlin_dotted_head t (58%N :: 91%N :: text l ++ r) Ht (C58 _)) as (c & t' & m & En & Hc' & Em & Hm). apply wp_bind. eapply wp_lift; [exact Em|]. rewrite (proj2 (Nat.eqb_neq m 0) Hm). apply wp_bind. apply wp_emit_exact; [cbn; lia|]. cbn [skipn].
    apply wp_bind. eapply wp_mono; [apply kotlin_dotted_scan; [assumption|apply C58]|]. cbn beta. intros _ st' ->. apply wp_bind, wp_get_rem. cbn [rem]. change (starts_with_ch (58%N :: 91%N :: text l ++ r) (ch ":")) with true. cbn iota. apply wp_bind. apply wp_bind. apply wp_emit_exact; [cbn; lia|]. cbn [skipn].
    apply wp_bind, wp_get_rem. cbn [rem]. change (starts_with_ch (91%N :: text l ++ r) (ch "[")) with true. cbn iota. eapply wp_mono; [apply kotlin_multi_exact; exact Hl|]. cbn beta zeta. intros _ st' ->. apply wp_ret. split; [reflexivity|].
    change (bs "[") with [91%N]. set (q := ([91%N], Some hl_symbol_square) :: l). change (([58%N], Some hl_name_attr_delim) :: q) with ([([58%N], Some hl_name_attr_delim)] ++ q). cbn [tokens rev length]. rewrite !tokens_app, !rev_app_distr, !app_length. cbn [tokens rev app length]. rewrite <- !app_assoc. cbn [app]. change (length (text [([58%N], Some hl_name_attr_delim)])) with 1.
    assert (Eq : length (text q) = S (length (text l))) by (unfold q; rewrite text_cons, app_length; reflexivity). f_equal. rewrite text_cons. cbn [app length]. lia.
Qed.

Lemma kotlin_do_simple p rest : kotlin_simple p rest -> kotlin_does p rest.
Proof.
  intros [p' r H|w h r H1 H2 H3|w h r H|w r H1 H2 H3 H4 H5|w r H1 H2|t h r H1 H2 H3 H4 H5|n r H1 H2|n r H|p' r H].
  - apply kotlin_do_comment. exact H.
  - destruct (word_hit _ _ _ _ kotlin_words_ok H1) as [Ht Hw]. apply kotlin_do_word; try assumption.
    + assert (F : forallb (fun e => match fst e with c :: _ => negb (c =? 95)%N | [] => true end) kotlin_words = true) by (vm_compute; reflexivity).
      rewrite forallb_forall in F. specialize (F _ H1). cbn [fst] in F. destruct w as [|c w]; [apply not_before_nil|]. apply not_before_cons. apply negb_true_iff, N.eqb_neq in F. exact F.
    + unfold kotlin_token_by_code. rewrite Ht. reflexivity.
  - apply kotlin_do_label. exact H.
  - apply kotlin_do_word; try assumption. unfold kotlin_token_by_code. rewrite (word_miss _ _ _ kotlin_words_ok H1 H3). reflexivity.
  - apply kotlin_do_backtick; assumption.
  - apply kotlin_do_symbol; assumption.
  - apply kotlin_do_number; assumption.
  - apply kotlin_do_range. exact H.
  - apply kotlin_do_annotation. exact H.
Qed.

(** Literals *)
Lemma kotlin_escape_exact e rest : kotlin_escape e -> kotlin_match_escape_sequence (e ++ rest) = Ok (mk_escape (length e) false) /\ exists t, e = 92%N :: t.
Proof.
  intros [(c & Hc & ->)|(d & Hd & ->)]; (split; [|eexists; reflexivity]).
  - change (34%N :: bs "tbrn'\$") with [34; 116; 98; 114; 110; 39; 92; 36]%N in Hc. cbn [In] in Hc. repeat (destruct Hc as [<-|Hc]; [reflexivity|]). contradiction.
  - change (bs "\u") with [92; 117]%N. rewrite <- app_assoc. change (match_common_escape_at hex_4 ([92; 117]%N ++ d ++ rest) (length [92; 117]%N) = Ok (mk_escape (length ([92; 117]%N ++ d)) false)).
    rewrite escape_at by (apply (escape_hex hex_4 4); [tauto|exact Hd]). f_equal. f_equal. rewrite app_length. cbn. lia.
Qed.
Variable code : list piece -> str -> Prop.
Hypothesis Hnested : forall c rest i o, code c (bs "}" ++ rest) ->
  wp nested (fun _ st' => st' = mk_hst (bs "}" ++ rest) (i + length (text c)) (rev (tokens i c) ++ o) tt) (mk_hst (text c ++ bs "}" ++ rest) i o tt).
Definition kotlin_end (close : list piece) (rest : str) (i : nat) (o : list out_op) (_ : unit) (st' : hst unit) : Prop :=
  st' = mk_hst rest (i + length (text close)) (rev (tokens i close) ++ o) tt.
Section literal.
Variable k : kotlin_kind.
Hypothesis Hk : kind_ok k.
Lemma kind_no c s : c <> 34%N -> c <> 39%N -> starts_with (c :: s) (kk_terminator k) = false.
Proof. intros H1 H2. destruct Hk as [<-|[<-|[<-|[]]]]; cbn [kk_terminator kotlin_character kotlin_line kotlin_multiline starts_with]; [rewrite (proj2 (N.eqb_neq c 39) H2)|rewrite (proj2 (N.eqb_neq c 34) H1)|rewrite (proj2 (N.eqb_neq c 34) H1)]; reflexivity. Qed.
Lemma kotlin_unclosed_end run j o1 : wp (kotlin_string_body nested k (length run)) (fun x st' => match x with inr b => kotlin_end [] [] (j + length run) (rev (tokens j (opt_piece run hl_string)) ++ o1) b st' | inl _ => False end) (mk_hst (run ++ []) j o1 tt).
Proof.
  unfold kotlin_string_body. apply wp_bind, wp_get_rem. cbn [rem]. rewrite (proj2 (Nat.ltb_ge (length run) _)) by (rewrite app_length; cbn; lia). cbn [negb]. apply flush_run. apply wp_ret. unfold kotlin_end. cbn [length tokens rev app text map concat]. rewrite Nat.add_0_r. reflexivity.
Qed.
Lemma kotlin_closing_end q close rest : kk_terminator k = [q] -> (q = 34 \/ q = 39)%N -> kk_multiline k = false -> kotlin_closing [q] close rest -> forall run j o1,
  wp (kotlin_string_body nested k (length run)) (fun x st' => match x with inr b => kotlin_end close rest (j + length run) (rev (tokens j (opt_piece run hl_string)) ++ o1) b st' | inl _ => False end) (mk_hst (run ++ text close ++ rest) j o1 tt).
Proof.
  intros Ek Eq Em Hc run j o1. destruct Hc as [rest'| |c rest' Hc].
  - unfold kotlin_quotes. rewrite text_one. cbn [app]. unfold kotlin_string_body. apply wp_bind, wp_get_rem. cbn [rem]. rewrite (proj2 (Nat.ltb_lt (length run) _)) by (rewrite !app_length; cbn; lia). cbn [negb]. apply wp_bind. apply wp_substr_from; [rewrite app_length; lia|]. rewrite skipn_app_exact, Ek, Em.
    assert (E : starts_with (q :: rest') [q] = true) by (apply starts_with_app; exists rest'; reflexivity). rewrite E. apply flush_run. apply wp_bind. apply wp_emit_exact; [cbn; lia|]. cbn [skipn]. apply wp_ret. reflexivity.
  - apply kotlin_unclosed_end.
  - cbn [text map concat app]. unfold kotlin_string_body. apply wp_bind, wp_get_rem. cbn [rem]. rewrite (proj2 (Nat.ltb_lt (length run) _)) by (rewrite !app_length; cbn; lia). cbn [negb]. apply wp_bind. apply wp_substr_from; [rewrite app_length; lia|]. rewrite skipn_app_exact.
    rewrite kind_no by lia. apply wp_bind. apply (wp_at_is _ _ c). { rewrite nth_error_app2, Nat.sub_diag by lia. reflexivity. }
    rewrite Em. assert (E : negb false && mem c [13; 10]%N = true) by (destruct Hc as [->| ->]; reflexivity). rewrite E. apply flush_run. apply wp_ret. unfold kotlin_end. cbn [length tokens rev app text map concat]. rewrite Nat.add_0_r. reflexivity.
Qed.
Variable plain : str -> str -> Prop.
Variable item : list piece -> str -> Prop.
Hypothesis Hplain : forall run r len c t, plain run r -> len < length run -> skipn len run = c :: t ->
  starts_with (c :: t ++ r) (kk_terminator k) = false /\ negb (kk_multiline k) && mem c [13; 10]%N = false /\ negb (kk_character k) && (c =? ch "$")%N = false /\ negb (kk_multiline k) && (c =? 92)%N = false.
Hypothesis Hitem : forall p r, item p r -> (kk_multiline k = false /\ exists e, p = [(e, Some hl_string_escape)] /\ kotlin_escape e) \/ kk_character k = false /\ kotlin_interpolation code p r.
Lemma kotlin_scan close rest l i o :
  (forall run j o1, run = [] \/ plain run (text close ++ rest) -> wp (kotlin_string_body nested k (length run))
     (fun x st' => match x with inr b => kotlin_end close rest (j + length run) (rev (tokens j (opt_piece run hl_string)) ++ o1) b st' | inl _ => False end) (mk_hst (run ++ text close ++ rest) j o1 tt)) ->
  string_body hl_string plain item (text close ++ rest) true l ->
  wp (hloop 1 (kotlin_string_body nested k) 0) (fun b st' => kotlin_end close rest (i + length (text l)) (rev (tokens i l) ++ o) b st') (mk_hst (text l ++ text close ++ rest) i o tt).
Proof.
  intros Hend. apply (scan_body tt (kotlin_string_body nested k) hl_string plain item (text close ++ rest) (kotlin_end close rest)).
  - intros p r Hp. destruct (Hitem p r Hp) as [(_ & e & -> & He)|(_ & Hp')].
    + destruct (kotlin_escape_exact e [] He) as [_ [t ->]]. discriminate.
    + destruct Hp'; discriminate.
  - intros run r len j o1 P L. unfold kotlin_string_body. apply wp_bind, wp_get_rem. cbn [rem]. rewrite (proj2 (Nat.ltb_lt len (length (run ++ r)))) by (rewrite app_length; lia). cbn [negb].
    apply wp_bind. apply wp_substr_from; [rewrite app_length; lia|].
    destruct (skipn len run) as [|c t] eqn:Es; [apply (f_equal (@length N)) in Es; rewrite skipn_length in Es; cbn in Es; lia|].
    assert (E0 : skipn len (run ++ r) = c :: t ++ r) by (rewrite skipn_app, Es; replace (len - length run) with 0 by lia; reflexivity).
    destruct (Hplain run r len c t P L Es) as (E1 & E2 & E3 & E4). rewrite E0, E1. apply wp_bind. apply (wp_at_is _ _ c).
    { rewrite <- (Nat.add_0_r len), <- nth_error_skipn, E0. reflexivity. }
    rewrite E2, E3, E4. apply wp_ret. auto.
  - intros run p r j o1 Hrun Hp. unfold kotlin_string_body. apply wp_bind, wp_get_rem. cbn [rem]. apply Hitem in Hp.
    assert (Hd : exists c t, text p = c :: t /\ (c = 92 /\ kk_multiline k = false \/ c = 36 /\ kk_character k = false)%N).
    { destruct Hp as [(Ek & e & -> & He)|(Ek & Hp')]; [destruct (kotlin_escape_exact e [] He) as [_ [t ->]]; rewrite text_one; eauto 6|]. destruct Hp' as [w r _ _|c r _]; rewrite text_cons; exists 36%N; eexists; (split; [reflexivity|auto]). }
    destruct Hd as (c & t & Et & Hc). rewrite (proj2 (Nat.ltb_lt (length run) _)) by (rewrite !app_length, Et; cbn; lia). cbn [negb]. apply wp_bind. apply wp_substr_from; [rewrite app_length; lia|]. rewrite skipn_app_exact.
    rewrite Et. cbn [app]. rewrite kind_no by lia. apply wp_bind. apply (wp_at_is _ _ c). { rewrite nth_error_app2, Nat.sub_diag by lia. reflexivity. }
    assert (Em : mem c [13; 10]%N = false) by (destruct Hc as [[-> _]|[-> _]]; reflexivity). rewrite Em, andb_false_r.
    change (c :: t ++ r) with ((c :: t) ++ r). rewrite <- Et.
    destruct Hp as [(Ek & e & -> & He)|(Ek & Hp')].
    + rewrite text_one in *. destruct (kotlin_escape_exact e r He) as [EE [t' Ee]]. rewrite Ee in Et. injection Et as <- <-. change (92 =? ch "$")%N with false. rewrite andb_false_r, Ek. change (negb false && (92 =? 92)%N) with true. cbn iota. apply flush_run.
      apply wp_bind, wp_get_rem. cbn [rem]. apply wp_bind. eapply wp_lift; [exact EE|]. cbn [es_length es_erroneous]. apply wp_bind, wp_check; [rewrite Ee; reflexivity|]. apply wp_bind. apply wp_emit_exact; [rewrite app_length, Ee; cbn; lia|]. rewrite skipn_app_exact. apply wp_ret. split; [reflexivity|].
      rewrite tokens_app, rev_app_distr, <- app_assoc, opt_piece_text. cbn [tokens rev app]. reflexivity.
    + assert (Ec : c = 36%N) by (destruct Hp'; rewrite text_cons in Et; injection Et as <- _; reflexivity). subst c. rewrite Ek. change (negb false && (36 =? ch "$")%N) with true. cbn iota. apply flush_run. apply wp_bind, wp_get_rem. cbn [rem].
      destruct Hp' as [w r Hw Hr|c r Hc'].
      * rewrite text_one in *. rewrite <- app_assoc. pose proof Hw as (y & w' & Ew & Hy & _). change (bs "$") with [36%N]. cbn [app].
        assert (E : starts_with (36%N :: w ++ r) (bs "${") = false). { rewrite Ew. change (bs "${") with [36; 123]%N. cbn [app starts_with]. change (36 =? 36)%N with true. rewrite (proj2 (N.eqb_neq y 123)) by (unfold ident_start, letter in Hy; lia). reflexivity. }
        rewrite E. apply wp_bind. apply wp_substr_from; [cbn; lia|]. cbn [skipn]. apply wp_bind. eapply wp_lift; [apply identifier_exact; assumption|]. rewrite (proj2 (Nat.eqb_neq (length w) 0)) by (rewrite Ew; discriminate). cbn [negb].
        apply wp_bind. change (36%N :: w ++ r) with ((36%N :: w) ++ r). apply wp_emit_exact; [rewrite app_length; cbn; lia|]. change (1 + length w) with (length (36%N :: w)). rewrite skipn_app_exact. apply wp_ret. split; [reflexivity|].
        rewrite tokens_app, rev_app_distr, <- app_assoc, opt_piece_text. cbn [tokens rev app]. reflexivity.
      * set (q := c ++ [(bs "}", Some hl_string_interpolation_delim)]) in *. assert (Eq : text ((bs "${", Some hl_string_interpolation_delim) :: q) ++ r = 36%N :: 123%N :: text c ++ bs "}" ++ r) by (unfold q; rewrite text_cons, text_app, text_one, <- !app_assoc; reflexivity).
        assert (El : length (text ((bs "${", Some hl_string_interpolation_delim) :: q)) = 2 + length (text c) + 1) by (unfold q; rewrite text_cons, text_app, text_one, !app_length; cbn; lia).
        rewrite Eq, El. match goal with |- context [starts_with ?a ?b] => change (starts_with a b) with true end. cbn iota. apply wp_bind. apply wp_emit_exact; [cbn; lia|]. cbn [skipn]. apply wp_bind. eapply wp_mono; [apply Hnested; exact Hc'|]. cbn beta. intros _ st' ->.
        apply wp_bind. apply wp_eof; cbn [rem]; intros E; [discriminate E|]. apply wp_bind, wp_get_rem. cbn [rem]. apply wp_bind, wp_check; [reflexivity|]. apply wp_bind. apply wp_emit_exact; [cbn; lia|]. change (bs "}") with [125%N]. cbn [skipn app]. apply wp_ret. split; [reflexivity|].
        unfold q. change (bs "}") with [125%N]. rewrite tokens_app, rev_app_distr, opt_piece_text. cbn [tokens]. rewrite tokens_app. cbn [rev]. rewrite rev_app_distr. cbn [tokens rev app]. change (length (bs "${")) with 2. rewrite <- !app_assoc. cbn [app length]. f_equal. lia.
  - exact Hend.
Qed.
End literal.
Lemma kotlin_quote_token p c t i o : (c = 34 \/ c = 39)%N -> text p = c :: t -> forall rest,
  wp (kotlin_expect_string nested) (fun b st' => b = true /\ st' = mk_hst rest (i + length (text p)) (rev (tokens i p) ++ o) tt) (mk_hst (text p ++ rest) i o tt) ->
  wp (kotlin_token nested) (fun _ st' => st' = mk_hst rest (i + length (text p)) (rev (tokens i p) ++ o) tt) (mk_hst (text p ++ rest) i o tt).
Proof.
  intros Hc Ep rest H. rewrite Ep in *. cbn [app] in *. unfold kotlin_token, kotlin_expect_line_comment, kotlin_expect_block_comment. tryno line_comment_no; [left; lia|]. tryno block_comment_no; [left; lia|].
  apply wp_bind. eapply wp_mono; [exact H|]. cbn beta. intros b st' [-> ->]. apply wp_ret. reflexivity.
Qed.
Lemma kotlin_literal_exact k q (plain : str -> str -> Prop) (item : list piece -> str -> Prop) body close rest i o : kind_ok k -> q = kk_terminator k ->
  (forall run r len c t, plain run r -> len < length run -> skipn len run = c :: t ->
    starts_with (c :: t ++ r) (kk_terminator k) = false /\ negb (kk_multiline k) && mem c [13; 10]%N = false /\ negb (kk_character k) && (c =? ch "$")%N = false /\ negb (kk_multiline k) && (c =? 92)%N = false) ->
  (forall p r, item p r -> (kk_multiline k = false /\ exists e, p = [(e, Some hl_string_escape)] /\ kotlin_escape e) \/ kk_character k = false /\ kotlin_interpolation code p r) ->
  (forall run j o1, run = [] \/ plain run (text close ++ rest) -> wp (kotlin_string_body nested k (length run))
     (fun x st' => match x with inr b => kotlin_end close rest (j + length run) (rev (tokens j (opt_piece run hl_string)) ++ o1) b st' | inl _ => False end) (mk_hst (run ++ text close ++ rest) j o1 tt)) ->
  string_body hl_string plain item (text close ++ rest) true body ->
  let p := kotlin_quotes q :: body ++ close in
  wp (kotlin_literal nested k) (fun b st' => b = true /\ st' = mk_hst rest (i + length (text p)) (rev (tokens i p) ++ o) tt) (mk_hst (text p ++ rest) i o tt).
Proof.
  intros Hk -> Hp Hi Hend Hb p. set (q := kk_terminator k) in *. assert (Et : text p ++ rest = q ++ text body ++ text close ++ rest) by (unfold p, kotlin_quotes; rewrite text_cons, text_app, <- !app_assoc; reflexivity).
  rewrite Et. unfold kotlin_literal. apply wp_bind, wp_get_rem. cbn [rem]. fold q. apply wp_bind, wp_check; [apply starts_with_app; eauto|]. apply wp_bind. apply wp_emit_exact; [rewrite app_length; assert (0 < length q) by (unfold q; destruct Hk as [<-|[<-|[<-|[]]]]; cbn; lia); lia|]. rewrite skipn_app_exact. apply wp_bind.
  eapply wp_mono; [apply (kotlin_scan k Hk plain item Hp Hi close rest body); assumption|]. cbn beta. unfold kotlin_end. intros [] st' ->. apply wp_ret. split; [reflexivity|].
  unfold p, kotlin_quotes. change ((q, Some hl_string_delim) :: body ++ close) with ([(q, Some hl_string_delim)] ++ body ++ close). rewrite !tokens_app, !rev_app_distr, !text_app, !app_length, !text_one. cbn [tokens app rev]. rewrite <- !app_assoc. cbn [app]. f_equal. lia.
Qed.
Lemma skipn_in {A} n (l : list A) c t : skipn n l = c :: t -> In c l.
Proof. intros E. rewrite <- (firstn_skipn n l), E. apply in_or_app. right. left. reflexivity. Qed.
Lemma not_mem c l : ~ In c l -> mem c l = false.
Proof. intros H. destruct (mem c l) eqn:E; [|reflexivity]. apply mem_In in E. contradiction. Qed.
Lemma kotlin_do_string p rest : kotlin_string code p rest -> kotlin_does p rest.
Proof.
  intros [body close r Hc Hb|body close r Hc Hb Hq|body close r Hc Hb] i o.
  - eapply (kotlin_quote_token _ 39%N); [auto|reflexivity|]. set (p' := kotlin_quotes [39%N] :: body ++ close). unfold kotlin_expect_string. apply wp_bind, wp_get_rem. cbn [rem]. change (starts_with_ch (text p' ++ r) 39) with true. cbn iota.
    apply (kotlin_literal_exact kotlin_character [39%N] kotlin_char_plain kotlin_char_item body close r); [left; reflexivity|reflexivity| | | |exact Hb].
    + intros run r' len c t P L Es. apply skipn_in in Es. unfold kotlin_char_plain in P. rewrite Forall_forall in P. specialize (P c Es). cbn [In] in P. cbn [kotlin_character kk_terminator kk_multiline kk_character starts_with negb andb]. rewrite (proj2 (N.eqb_neq c 39)), (proj2 (N.eqb_neq c 92)) by (intros ->; tauto). rewrite not_mem by (cbn [In]; tauto). auto.
    + intros pp r' [e r'' He]. left. split; [reflexivity|]. eauto.
    + intros run j o1 _. apply (kotlin_closing_end kotlin_character ltac:(left; reflexivity) 39%N); auto.
  - eapply (kotlin_quote_token _ 34%N); [auto|reflexivity|]. set (p' := kotlin_quotes [34%N] :: body ++ close). unfold kotlin_expect_string. apply wp_bind, wp_get_rem. cbn [rem]. change (starts_with_ch (text p' ++ r) 39) with false. change (starts_with_ch (text p' ++ r) 34) with true. cbn iota.
    assert (Et : text p' ++ r = 34%N :: text body ++ text close ++ r) by (unfold p', kotlin_quotes; rewrite text_cons, text_app, <- !app_assoc; reflexivity).
    assert (E : starts_with (text p' ++ r) [34; 34; 34]%N = false).
    { rewrite Et. destruct (starts_with _ _) eqn:E; [|reflexivity]. apply starts_with_app in E as [v E]. cbn [app] in E. injection E as E. exfalso.
      destruct Hb as [fl|run l Hr Hp Hb|fl q l Hp Hb].
      - cbn [app text map concat] in E. destruct Hc as [r'| |c r' Hc].
        + cbn in E. injection E as E. apply (Hq eq_refl eq_refl 34%N); [rewrite E; reflexivity|reflexivity].
        + discriminate E.
        + cbn in E. injection E as E. lia.
      - rewrite text_cons in E. destruct run as [|c run]; [congruence|]. cbn [app] in E. injection E as E _. unfold kotlin_line_plain in Hp. apply Forall_inv in Hp. cbn [In] in Hp. subst c. tauto.
      - destruct Hp as [e r' He|q' r' Hi]; [destruct (kotlin_escape_exact _ r' He) as [_ [t ->]]; discriminate E|destruct Hi; discriminate E]. }
    rewrite E.
    apply (kotlin_literal_exact kotlin_line [34%N] kotlin_line_plain (kotlin_line_item code) body close r); [right; left; reflexivity|reflexivity| | | |exact Hb].
    + intros run r' len c t P L Es. apply skipn_in in Es. unfold kotlin_line_plain in P. rewrite Forall_forall in P. specialize (P c Es). cbn [In] in P. cbn [kotlin_line kk_terminator kk_multiline kk_character starts_with negb andb]. rewrite (proj2 (N.eqb_neq c 34)), (proj2 (N.eqb_neq c 92)), (proj2 (N.eqb_neq c (ch "$"))) by (intros ->; tauto). rewrite not_mem by (cbn [In]; tauto). auto.
    + intros pp r' [e r'' He|p'' r'' Hi]; [left; split; [reflexivity|]; eauto|right]. split; [reflexivity|exact Hi].
    + intros run j o1 _. apply (kotlin_closing_end kotlin_line ltac:(right; left; reflexivity) 34%N); auto.
  - eapply (kotlin_quote_token _ 34%N); [auto|reflexivity|]. set (p' := kotlin_quotes [34; 34; 34]%N :: body ++ close). unfold kotlin_expect_string. apply wp_bind, wp_get_rem. cbn [rem]. change (starts_with_ch (text p' ++ r) 39) with false. change (starts_with_ch (text p' ++ r) 34) with true. change (starts_with (text p' ++ r) [34; 34; 34]%N) with true. cbn iota.
    assert (K : kind_ok kotlin_multiline) by (right; right; left; reflexivity).
    apply (kotlin_literal_exact kotlin_multiline [34; 34; 34]%N kotlin_multi_plain (kotlin_interpolation code) body close r); [exact K|reflexivity| | | |exact Hb].
    + intros run r' len c t [P1 P2] L Es. cbn [kotlin_multiline kk_terminator kk_multiline kk_character negb andb]. assert (In c run) by (eapply skipn_in; exact Es). rewrite (proj2 (N.eqb_neq c (ch "$"))) by (intros ->; contradiction). split; [|auto].
      destruct (starts_with (c :: t ++ r') [34; 34; 34]%N) eqn:E; [|reflexivity]. apply starts_with_app in E as [v E]. exfalso. apply (P2 (firstn len run) (c :: t) v); [rewrite <- Es; symmetry; apply firstn_skipn|discriminate|exact E].
    + intros pp r' Hi. right. split; [reflexivity|exact Hi].
    + intros run j o1 _. destruct Hc as [r' Hr|]; [|apply kotlin_unclosed_end].
      unfold kotlin_quotes. rewrite text_one. unfold kotlin_string_body. apply wp_bind, wp_get_rem. cbn [rem]. rewrite (proj2 (Nat.ltb_lt (length run) _)) by (rewrite !app_length; cbn; lia). cbn [negb]. apply wp_bind. apply wp_substr_from; [rewrite app_length; lia|]. rewrite skipn_app_exact.
      cbn [kotlin_multiline kk_terminator kk_multiline kk_character]. rewrite (proj2 (starts_with_app _ _)) by eauto. apply flush_run. apply wp_bind. apply wp_bind, wp_get_rem. cbn [rem].
      assert (Eq : length_if ([34; 34; 34]%N ++ r') (fun c => (c =? 34)%N) = 3).
      { rewrite length_if_eq. change 3 with (length [34; 34; 34]%N). apply prefix_len_exact; [repeat constructor|]. intros c Ec E. apply N.eqb_eq in E. exact (Hr c Ec E). }
      rewrite Eq. apply wp_bind, wp_check; [reflexivity|]. change (3 <? 3) with false. cbn [when]. apply wp_bind, wp_ret. apply wp_emit_exact; [cbn; lia|]. cbn [skipn app]. apply wp_ret. reflexivity.
Qed.

(** Code *)
Definition good_head (c : N) : Prop := (32 < c /\ c <> 123 /\ c <> 125)%N.
Lemma kotlin_simple_head p r : kotlin_simple p r -> exists c t, text p = c :: t /\ good_head c.
Proof.
  intros H. unfold good_head. assert (Id : forall w, identifier w -> exists c t, w = c :: t /\ (32 < c /\ c <> 123 /\ c <> 125)%N) by (intros w (c & t & -> & Hc & _); exists c, t; split; [reflexivity|unfold ident_start, letter in Hc; lia]).
  assert (F : forallb (fun e => match fst e with [] => false | c :: _ => (32 <? c)%N && negb (c =? 123)%N && negb (c =? 125)%N end) (kotlin_symbols ++ kotlin_labels) = true) by (vm_compute; reflexivity).
  assert (F' : forall t h, In (t, h) (kotlin_symbols ++ kotlin_labels) -> exists c u, t = c :: u /\ (32 < c /\ c <> 123 /\ c <> 125)%N).
  { intros t h Ht. rewrite forallb_forall in F. specialize (F _ Ht). cbn [fst] in F. destruct t as [|c t]; [discriminate|]. rewrite !andb_true_iff, N.ltb_lt, !negb_true_iff, !N.eqb_neq in F. exists c, t. split; [reflexivity|tauto]. }
  assert (G : forall (d : N -> Prop) I, (forall c, d c -> (32 < c /\ c <> 123 /\ c <> 125)%N) -> grouped d 95 I -> forall t, exists c u, text I ++ t = c :: u /\ (32 < c /\ c <> 123 /\ c <> 125)%N).
  { intros d I Hd G t. destruct (grouped_second _ _ _ G) as (c & u & -> & Hc & _). cbn [app]. eauto. }
  destruct H as [p' r H|w h r H1 H2 H3|w h r H|w r H1 H2 H3 H4 H5|w r H1 H2|t h r H1 H2 H3 H4 H5|n r H1 H2|n r H|p' r H].
  - destruct (c_comment_head _ _ _ H) as [t ->]. exists 47%N, t. split; [reflexivity|lia].
  - rewrite text_one. apply Id. apply (word_hit _ _ _ _ kotlin_words_ok H1).
  - rewrite text_one. eapply F'. apply in_or_app. right. exact H.
  - rewrite text_one. apply Id. exact H1.
  - rewrite text_cons. exists 96%N. eexists. split; [reflexivity|lia].
  - rewrite text_one. eapply F'. apply in_or_app. left. exact H1.
  - destruct H1 as [base I x Hb GI HX|base I x Hb GI HX|I x GI HX|I f e x GI GF GE HX|f e x GI GE HX]; rewrite number_pieces_text.
    1-2: cbn [In] in Hb; destruct Hb as [<-|[<-|[]]]; exists 48%N; (eexists; split; [reflexivity|lia]).
    1-2: cbn [app]; apply (G digit); [unfold digit; lia|exact GI].
    exists 46%N. eexists. split; [reflexivity|lia].
  - rewrite <- (app_nil_r (text n)). apply (G digit); [unfold digit; lia|exact H].
  - destruct H; rewrite text_cons; exists 64%N; (eexists; split; [reflexivity|lia]).
Qed.
Lemma kotlin_string_head p r : kotlin_string code p r -> exists c t, text p = c :: t /\ good_head c.
Proof. intros [body close rest _ _|body close rest _ _ _|body close rest _ _]; unfold kotlin_quotes; rewrite text_cons; eexists; eexists; (split; [reflexivity|unfold good_head; lia]). Qed.
Variable in_string : bool.
Notation round := (kotlin_round nested in_string).
Lemma kotlin_round_token p rest level i o (Q : unit -> hst unit -> Prop) : kotlin_does p rest -> (exists c t, text p = c :: t /\ good_head c) ->
  wp (hloop 1 round level) Q (mk_hst rest (i + length (text p)) (rev (tokens i p) ++ o) tt) -> wp (hloop 1 round level) Q (mk_hst (text p ++ rest) i o tt).
Proof.
  intros Hp (c & t & Et & Hc) H. unfold good_head in Hc. apply wp_unroll. unfold kotlin_round at 1. apply wp_bind. apply kotlin_whitespace_none.
  { rewrite Et. apply not_before_cons. unfold kotlin_space. cbn [In]. lia. }
  apply wp_bind, wp_get_rem. cbn [rem]. rewrite Et at 1. cbn [app]. rewrite (proj2 (N.eqb_neq c (ch "{"))), (proj2 (N.eqb_neq c (ch "}"))) by (change (ch "{") with 123%N; change (ch "}") with 125%N; lia).
  apply wp_bind. eapply wp_mono; [apply Hp|]. cbn beta. intros _ st' ->. apply wp_ret. cbn [rem]. split; [rewrite Et; cbn [app length]; rewrite app_length; lia|]. exact H.
Qed.
Lemma kotlin_code_run c rest : kotlin_code_of code c rest -> forall level i o (Q : unit -> hst unit -> Prop),
  wp (hloop 1 round level) Q (mk_hst rest (i + length (text c)) (rev (tokens i c) ++ o) tt) -> wp (hloop 1 round level) Q (mk_hst (text c ++ rest) i o tt).
Proof.
  assert (Two : forall p l i o, rev (tokens (i + length (text p)) l) ++ rev (tokens i p) ++ o = rev (tokens i (p ++ l)) ++ o) by (intros; rewrite tokens_app, rev_app_distr, <- app_assoc; reflexivity).
  induction 1 as [rest|b l rest Hb Hl IH|p l rest Hp Hl IH|p l rest Hp Hl IH|c l rest Hc IH1 Hl IH2]; intros level i o Q H.
  - cbn [text map concat length tokens rev app] in *. rewrite Nat.add_0_r in H. exact H.
  - rewrite text_cons, <- app_assoc in *. apply skip_loop.
    + unfold kotlin_round. apply bind_same, kotlin_whitespace_skip. exact Hb.
    + apply IH. rewrite app_length, Nat.add_assoc in H. exact H.
  - rewrite text_app, <- app_assoc. apply kotlin_round_token; [apply kotlin_do_simple; exact Hp|eapply kotlin_simple_head; exact Hp|]. apply IH. rewrite Two. rewrite text_app, app_length, Nat.add_assoc in H. exact H.
  - rewrite text_app, <- app_assoc. apply kotlin_round_token; [apply kotlin_do_string; exact Hp|eapply kotlin_string_head; exact Hp|]. apply IH. rewrite Two. rewrite text_app, app_length, Nat.add_assoc in H. exact H.
  - change (bs "}") with [125%N] in *. change (bs "{") with [123%N] in *.
    match goal with |- wp _ _ (mk_hst (text ?P ++ rest) _ _ _) => assert (Et : text P ++ rest = 123%N :: text c ++ [125%N] ++ text l ++ rest) by (rewrite text_cons, text_app, text_cons, <- !app_assoc; reflexivity) end.
    rewrite Et. apply wp_unroll. unfold kotlin_round at 1. apply wp_bind. apply kotlin_whitespace_none; [apply not_before_cons; unfold kotlin_space; cbn [In]; lia|]. apply wp_bind, wp_get_rem. cbn [rem]. change (123 =? ch "{")%N with true. cbn iota.
    apply wp_bind. apply wp_emit_exact; [cbn; lia|]. cbn [skipn]. apply wp_ret. split; [cbn; lia|]. apply IH1.
    apply wp_unroll. unfold kotlin_round at 1. cbn [app]. apply wp_bind. apply kotlin_whitespace_none; [apply not_before_cons; unfold kotlin_space; cbn [In]; lia|]. apply wp_bind, wp_get_rem. cbn [rem]. change (125 =? ch "{")%N with false. change (125 =? ch "}")%N with true. cbn iota.
    rewrite (proj2 (Nat.eqb_neq (level + 1) 0)) by lia. apply wp_bind. apply wp_emit_exact; [cbn; lia|]. cbn [skipn]. apply wp_ret. replace (level + 1 - 1) with level by lia. split; [cbn; lia|]. apply IH2.
    match goal with |- wp _ _ (mk_hst _ ?j ?o1 _) => match type of H with wp _ _ (mk_hst _ ?j2 ?o2 _) => replace j with j2; [replace o1 with o2; [exact H|]|] end end.
    + cbn [tokens]. rewrite tokens_app. cbn [tokens rev]. rewrite !rev_app_distr. cbn [rev app length]. rewrite <- !app_assoc. cbn [app]. reflexivity.
    + rewrite text_cons, text_app, text_cons, !app_length. cbn [length]. lia.
Qed.
End exact.

(** More fuel does not change the result. *)
Lemma kotlin_literal_mle n1 n2 k : mle n1 n2 -> mle (kotlin_literal n1 k) (kotlin_literal n2 k).
Proof. intros H. unfold kotlin_literal, kotlin_string_body. mle. Qed.
Lemma kotlin_round_mle n1 n2 b level : mle n1 n2 -> mle (kotlin_round n1 b level) (kotlin_round n2 b level).
Proof.
  intros H. unfold kotlin_round, kotlin_token, kotlin_expect_string. pose proof (fun k => kotlin_literal_mle n1 n2 k H) as K. repeat (mle1 || apply K).
Qed.
Lemma kotlin_loop_mle f1 : forall f2 b, f1 <= f2 -> mle (kotlin_tokens_loop f1 b) (kotlin_tokens_loop f2 b).
Proof.
  induction f1 as [|f1 IH]; intros [|f2] b L; cbn [kotlin_tokens_loop]; [apply mle_refl|apply mle_fail|lia|]. apply mle_hloop. intros a. apply kotlin_round_mle. apply IH. lia.
Qed.
Lemma kotlin_nested_exact n : forall c rest i o, kotlin_code n c (bs "}" ++ rest) ->
  wp (kotlin_tokens_loop n true) (fun _ st' => st' = mk_hst (bs "}" ++ rest) (i + length (text c)) (rev (tokens i c) ++ o) tt) (mk_hst (text c ++ bs "}" ++ rest) i o tt).
Proof.
  induction n as [|n IH]; intros c rest i o H; [contradiction|]. cbn [kotlin_tokens_loop]. eapply kotlin_code_run; [exact IH|exact H|].
  apply wp_unroll. unfold kotlin_round at 1. apply wp_bind. apply kotlin_whitespace_none; [change (bs "}") with [125%N]; apply not_before_cons; unfold kotlin_space; cbn [In]; lia|]. apply wp_bind, wp_get_rem. cbn [rem]. change (bs "}") with [125%N]. cbn [app]. change (125 =? ch "{")%N with false. change (125 =? ch "}")%N with true. cbn iota. apply wp_ret. reflexivity.
Qed.
(** Every program that consists of the lexemes of the specification is highlighted token by token as specified. *)
Theorem C94_kotlin_lexemes l : kotlin_program l -> tokenizes highlight_kotlin l.
Proof.
  intros [n H] strict. destruct n as [|n]; [contradiction|].
  assert (W : wp (kotlin_tokens_loop (S n) false) (fun _ st' => rops st' = rev (tokens 0 l)) (mk_hst (text l) 0 [] tt)).
  { cbn [kotlin_tokens_loop]. rewrite <- (app_nil_r (text l)). eapply kotlin_code_run; [apply (kotlin_nested_exact n)|exact H|].
    apply wp_unroll. unfold kotlin_round at 1. apply wp_bind. apply kotlin_whitespace_none; [apply not_before_nil|]. apply wp_bind, wp_get_rem. cbn [rem]. apply wp_ret. cbn [rops]. rewrite app_nil_r. reflexivity. }
  destruct (C93_kotlin (text l) strict false 1 ltac:(lia)) as (ops & chunks & E & _). unfold highlight_kotlin, run in *. unfold bindM in *. unfold wp in W.
  destruct (kotlin_tokens_loop (S n) false (mk_hst (text l) 0 [] tt)) as [[[] st1]|] eqn:E1; [|contradiction].
  destruct (kotlin_tokens_loop (length (text l) + 1) false (mk_hst (text l) 0 [] tt)) as [[[] st2]|] eqn:E2; [|discriminate E].
  apply (kotlin_loop_mle (S n) (S n + (length (text l) + 1)) false ltac:(lia)) in E1. apply (kotlin_loop_mle (length (text l) + 1) (S n + (length (text l) + 1)) false ltac:(lia)) in E2. rewrite E1 in E2. injection E2 as <-. cbn [ret]. unfold ret. rewrite W, rev_involutive. reflexivity.
Qed.
Print Assumptions C94_kotlin_lexemes.

Lemma code_symbol code t h l rest : In (t, h) kotlin_symbols -> longest kotlin_symbols t (text l ++ rest) -> t <> bs "." -> t <> bs "@" -> t <> bs "/" -> kotlin_code_of code l rest -> kotlin_code_of code ([(t, Some h)] ++ l) rest.
Proof. intros H1 H2 H3 H4 H5 H6. apply kotlin_code_simple; [|exact H6]. apply kotlin_symbol; try assumption; congruence. Qed.
Lemma labels_start s : forallb (fun e => negb (starts_with s (fst e))) kotlin_labels = true -> no_label s.
Proof. intros H u h v Hi E. rewrite forallb_forall in H. specialize (H _ Hi). cbn [fst] in H. apply negb_true_iff in H. assert (starts_with s u = true) by (apply starts_with_app; eauto). congruence. Qed.
Lemma code_word code w h l rest : In (w, h) kotlin_words -> forallb (fun e => negb (starts_with (w ++ text l ++ rest) (fst e))) kotlin_labels = true -> not_before ident_or_non_ascii (text l ++ rest) -> kotlin_code_of code l rest -> kotlin_code_of code ([(w, Some h)] ++ l) rest.
Proof. intros H1 H2 H3 H4. apply kotlin_code_simple; [|exact H4]. apply kotlin_word; try assumption. apply labels_start. exact H2. Qed.
Lemma code_name code w l rest : identb w = true -> not_underscore w -> table_find kotlin_tokens w = None -> forallb (fun e => negb (starts_with (w ++ text l ++ rest) (fst e))) kotlin_labels = true -> not_before ident_or_non_ascii (text l ++ rest) -> kotlin_code_of code l rest -> kotlin_code_of code ([(w, Some hl_name)] ++ l) rest.
Proof.
  intros H1 H2 H3 H4 H5 H6. apply kotlin_code_simple; [|exact H6]. apply kotlin_name; try assumption; [apply identb_iff; exact H1| |apply labels_start; exact H4]. intros h H. apply (word_hit _ _ _ _ kotlin_words_ok) in H as [H _]. congruence.
Qed.
(** An annotation, a range, nested braces and a string with an expression that has braces and a string of its own *)
Example C94_case : exists l, kotlin_program l /\ 20 < length l /\ text l = bs "@A fun f(){for(i in 0..9)g(" ++ [34]%N ++ bs "a$i${h({x})}" ++ [34]%N ++ bs ")}".
Proof.
  pose (inner := [(bs "h", Some hl_name)] ++ [(bs "(", Some hl_symbol_parens)] ++ (bs "{", Some hl_symbol_brace) :: ([(bs "x", Some hl_name)] ++ []) ++ (bs "}", Some hl_symbol_brace) :: [(bs ")", Some hl_symbol_parens)] ++ []).
  pose (items := (bs "a", Some hl_string) :: [(bs "$" ++ bs "i", Some hl_string_interpolation)] ++ ((bs "${", Some hl_string_interpolation_delim) :: inner ++ [(bs "}", Some hl_string_interpolation_delim)]) ++ []).
  pose (l3 := (kotlin_quotes [34]%N :: items ++ [kotlin_quotes [34]%N]) ++ [(bs ")", Some hl_symbol_parens)] ++ []).
  pose (l2 := [(bs "for", Some hl_keyword_control)] ++ [(bs "(", Some hl_symbol_parens)] ++ [(bs "i", Some hl_name)] ++ (bs " ", None) :: [(bs "in", Some hl_keyword)] ++ (bs " ", None) :: [(bs "0", Some hl_number)] ++ [(bs "..", Some hl_symbol_punc)]
     ++ number_pieces [] [(bs "9", Some hl_number)] None None [] ++ [(bs ")", Some hl_symbol_parens)] ++ [(bs "g", Some hl_name)] ++ [(bs "(", Some hl_symbol_parens)] ++ l3).
  exists (((bs "@", Some hl_name_attr_delim) :: [(bs "A", Some hl_name_attr)]) ++ (bs " ", None) :: [(bs "fun", Some hl_keyword)] ++ (bs " ", None) :: [(bs "f", Some hl_name)] ++ [(bs "(", Some hl_symbol_parens)] ++ [(bs ")", Some hl_symbol_parens)]
     ++ (bs "{", Some hl_symbol_brace) :: l2 ++ (bs "}", Some hl_symbol_brace) :: []).
  split; [|split; [cbn; lia|reflexivity]]. exists 2. cbn [kotlin_code].
  apply kotlin_code_simple. { apply kotlin_annotated. apply kotlin_at_name; [apply kotlin_dotted_one, identb_iff; reflexivity|nb|nb]. }
  apply kotlin_code_space; [repeat constructor|]. apply code_word; [vm_compute; tauto|vm_compute; reflexivity|nb|]. apply kotlin_code_space; [repeat constructor|].
  apply code_name; [reflexivity|nb|vm_compute; reflexivity|vm_compute; reflexivity|nb|]. do 2 (apply code_symbol; [vm_compute; tauto|sym_longest|discriminate|discriminate|discriminate|]).
  apply kotlin_code_braces; [|apply kotlin_code_end]. unfold l2.
  apply code_word; [vm_compute; tauto|vm_compute; reflexivity|nb|]. apply code_symbol; [vm_compute; tauto|sym_longest|discriminate|discriminate|discriminate|].
  apply code_name; [reflexivity|nb|vm_compute; reflexivity|vm_compute; reflexivity|nb|]. apply kotlin_code_space; [repeat constructor|]. apply code_word; [vm_compute; tauto|vm_compute; reflexivity|nb|]. apply kotlin_code_space; [repeat constructor|].
  apply kotlin_code_simple. { match goal with |- kotlin_simple _ ?r => let r' := eval vm_compute in (skipn 2 r) in change r with (bs ".." ++ r') end. apply kotlin_range. apply grouped_one; [discriminate|fa]. }
  apply code_symbol; [vm_compute; tauto|sym_longest|discriminate|discriminate|discriminate|].
  apply kotlin_code_simple. { apply kotlin_num; [|nb]. apply kotlin_int; [apply grouped_one; [discriminate|fa]|left; reflexivity]. }
  apply code_symbol; [vm_compute; tauto|sym_longest|discriminate|discriminate|discriminate|]. apply code_name; [reflexivity|nb|vm_compute; reflexivity|vm_compute; reflexivity|nb|]. apply code_symbol; [vm_compute; tauto|sym_longest|discriminate|discriminate|discriminate|].
  unfold l3. apply kotlin_code_string; [|apply code_symbol; [vm_compute; tauto|sym_longest|discriminate|discriminate|discriminate|apply kotlin_code_end]].
  apply kotlin_string_line; [apply kotlin_closed| |discriminate]. unfold items. apply string_text; [discriminate|fa|]. apply string_item; [apply kotlin_line_interpolation, kotlin_variable; [apply identb_iff; reflexivity|nb]|].
  apply string_item; [|apply string_end]. apply kotlin_line_interpolation, kotlin_expression. cbn [kotlin_code]. unfold inner.
  apply code_name; [reflexivity|nb|vm_compute; reflexivity|vm_compute; reflexivity|nb|]. apply code_symbol; [vm_compute; tauto|sym_longest|discriminate|discriminate|discriminate|].
  apply kotlin_code_braces; [|apply code_symbol; [vm_compute; tauto|sym_longest|discriminate|discriminate|discriminate|apply kotlin_code_end]].
  apply code_name; [reflexivity|nb|vm_compute; reflexivity|vm_compute; reflexivity|nb|]. apply kotlin_code_end.
Qed.

(** ** C95: identifiers and keywords on their own. Identifiers that begin with an underscore and the keyword "super" are not highlighted as such. *)
Theorem C95_kotlin_words_refuted : ~ (forall w, identifier w -> (forall h, ~ In (w, h) kotlin_hard_words) -> tokenizes highlight_kotlin [(w, Some hl_name)])
  /\ ~ (forall w h, In (w, h) kotlin_hard_words -> tokenizes highlight_kotlin [(w, Some h)]).
Proof.
  split; intros H.
  - enough (K : tokenizes highlight_kotlin [(bs "_x", Some hl_name)]) by (specialize (K false); vm_compute in K; discriminate K).
    apply H; [apply identb_iff; reflexivity|]. intros h [E|E]; [discriminate E|]. apply (word_hit _ _ _ _ kotlin_words_ok) in E as [E _]. vm_compute in E. discriminate E.
  - specialize (H (bs "super") hl_keyword_this ltac:(left; reflexivity) false). vm_compute in H. discriminate H.
Qed.
Lemma word_no_label w : identifier w -> no_label (w ++ []).
Proof.
  intros (c & t & -> & Hc & Ht) u h v Hi E. rewrite app_nil_r in E. assert (F : forallb (fun e => existsb (fun c => negb (is_cpp_ascii_identifier_continue c)) (fst e)) kotlin_labels = true) by (vm_compute; reflexivity).
  rewrite forallb_forall in F. specialize (F _ Hi). cbn [fst] in F. apply existsb_exists in F as (y & Hy & Ny). apply negb_true_iff in Ny. enough (ident_char y) by (apply ident_char_iff in H; congruence).
  assert (In y (c :: t)) by (rewrite E; apply in_or_app; auto). destruct H as [<-|H]; [unfold ident_start in Hc; unfold ident_char; tauto|]. rewrite Forall_forall in Ht. apply Ht. exact H.
Qed.
Theorem C95_kotlin_words_partial w : identifier w -> not_underscore w -> w <> bs "super" ->
  ((forall h, ~ In (w, h) kotlin_hard_words) -> tokenizes highlight_kotlin [(w, Some hl_name)]) /\ (forall h, In (w, h) kotlin_hard_words -> tokenizes highlight_kotlin [(w, Some h)]).
Proof.
  intros H1 H2 H4. pose proof (word_no_label w H1) as HL. split; [intros H3|intros h H3]; apply C94_kotlin_lexemes; exists 1; cbn [kotlin_code]; [apply (kotlin_code_simple _ [(w, Some hl_name)] [] [])|apply (kotlin_code_simple _ [(w, Some h)] [] [])]; try apply kotlin_code_end.
  - apply kotlin_name; [exact H1|exact H2| |exact HL|apply not_before_nil]. intros h Hh. apply (H3 h). right. exact Hh.
  - destruct H3 as [[= <- _]|H3]; [congruence|]. apply kotlin_word; [exact H3|exact HL|apply not_before_nil].
Qed.
Print Assumptions C95_kotlin_words_refuted.
Print Assumptions C95_kotlin_words_partial.
Example C95_case : identifier (bs "typealias") /\ not_underscore (bs "typealias") /\ In (bs "typealias", hl_keyword) kotlin_hard_words.
Proof. split; [apply identb_iff; reflexivity|]. split; [nb|]. vm_compute. tauto. Qed.

(** ** C96: operators. "!==" falls apart, and so does the operand after "!" if it begins with "in" or "is". *)
Theorem C96_kotlin_operators_refuted : ~ (forall t h, In (t, h) kotlin_operators -> tokenizes highlight_kotlin [(t, Some h)])
  /\ ~ (forall w, identifier w -> not_underscore w -> (forall h, ~ In (w, h) kotlin_hard_words) -> tokenizes highlight_kotlin [(bs "!", Some hl_symbol_op); (w, Some hl_name)]).
Proof.
  split; intros H.
  - specialize (H (bs "!==") hl_symbol_op ltac:(left; reflexivity) false). vm_compute in H. discriminate H.
  - enough (K : tokenizes highlight_kotlin [(bs "!", Some hl_symbol_op); (bs "isOpen", Some hl_name)]) by (specialize (K false); vm_compute in K; discriminate K).
    apply H; [apply identb_iff; reflexivity|nb|]. intros h [E|E]; [discriminate E|]. apply (word_hit _ _ _ _ kotlin_words_ok) in E as [E _]. vm_compute in E. discriminate E.
Qed.
Theorem C96_kotlin_operators_partial t h : In (t, h) kotlin_symbols -> tokenizes highlight_kotlin [(t, Some h)].
Proof.
  intros H. apply C94_kotlin_lexemes. exists 1. cbn [kotlin_code]. apply (kotlin_code_simple _ [(t, Some h)] [] []); [|apply kotlin_code_end]. apply kotlin_symbol; [exact H| |intros; apply not_before_nil..].
  intros u h' v _ E. cbn [text map concat app] in E. rewrite app_nil_r in E. apply (f_equal (@length N)) in E. rewrite app_length in E. lia.
Qed.
Print Assumptions C96_kotlin_operators_refuted.
Print Assumptions C96_kotlin_operators_partial.
Example C96_case : In (bs "?:", hl_symbol_op) kotlin_symbols.
Proof. vm_compute. tauto. Qed.

(** ** C97: integers with suffixes. The suffixes "uL" and "UL" fall apart. *)
Theorem C97_kotlin_integers_refuted : ~ (forall n, kotlin_integer n -> tokenizes highlight_kotlin n).
Proof.
  intros H. enough (K : tokenizes highlight_kotlin (number_pieces [] [(bs "1", Some hl_number)] None None (bs "UL"))) by (specialize (K false); vm_compute in K; discriminate K).
  apply H. apply kotlin_integer_suffix; [apply grouped_one; [discriminate|fa]|cbn; tauto].
Qed.
Theorem C97_kotlin_integers_partial n suffix : grouped digit 95 n -> In suffix [[]; bs "l"; bs "L"; bs "u"; bs "U"] -> tokenizes highlight_kotlin (number_pieces [] n None None suffix).
Proof.
  intros H1 H2. rewrite <- (app_nil_r (number_pieces [] n None None suffix)). apply C94_kotlin_lexemes. exists 1. cbn [kotlin_code]. apply kotlin_code_simple; [|apply kotlin_code_end]. apply kotlin_num; [|apply not_before_nil]. apply kotlin_int; assumption.
Qed.
Print Assumptions C97_kotlin_integers_refuted.
Print Assumptions C97_kotlin_integers_partial.
Example C97_case : grouped digit 95 [(bs "12", Some hl_number); (bs "_", Some hl_number_delim); (bs "3", Some hl_number)].
Proof. apply grouped_more; [discriminate|fa|]. apply grouped_one; [discriminate|fa]. Qed.

(** ** C98: string literals on one line. A dollar sign that is plain text is highlighted as an error. *)
Theorem C98_kotlin_dollar_refuted : ~ (forall t, kotlin_dollar_plain t [34]%N -> tokenizes highlight_kotlin (kotlin_quotes [34]%N :: opt_piece t hl_string ++ [kotlin_quotes [34]%N])).
Proof.
  intros H. enough (K : tokenizes highlight_kotlin (kotlin_quotes [34]%N :: opt_piece (bs "5$") hl_string ++ [kotlin_quotes [34]%N])) by (specialize (K false); vm_compute in K; discriminate K).
  apply H. split; [fa|]. intros a b E. destruct a as [|a1 [|a2 a]]; cbn in E; try discriminate E.
  - injection E as _ <-. nb.
  - injection E as _ _ E. destruct a; discriminate E.
Qed.
Theorem C98_kotlin_dollar_partial t : kotlin_line_plain t [34]%N -> tokenizes highlight_kotlin (kotlin_quotes [34]%N :: opt_piece t hl_string ++ [kotlin_quotes [34]%N]).
Proof.
  intros H. rewrite <- (app_nil_r (_ :: _)). apply C94_kotlin_lexemes. exists 1. cbn [kotlin_code]. apply kotlin_code_string; [|apply kotlin_code_end]. apply kotlin_string_line; [apply kotlin_closed| |intros; apply not_before_nil].
  destruct t as [|c t]; [apply string_end|]. cbn [opt_piece]. apply string_text; [discriminate|exact H|apply string_end].
Qed.
Print Assumptions C98_kotlin_dollar_refuted.
Print Assumptions C98_kotlin_dollar_partial.
Example C98_case : kotlin_line_plain (bs "five dollars") [34]%N.
Proof. fa. Qed.
