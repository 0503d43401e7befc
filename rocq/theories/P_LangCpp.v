(** * Properties of C and C++ highlighting. *)
From Coq Require Import List NArith ZArith Bool Arith Lia.
From Verif Require Import M_Base L_Base S_Tokens M_Emit S_Ops L_Emit M_Types M_Chars M_Parse L_Parse M_Utf8 L_Any
  S_Utf8 M_Api M_Table L_Table M_Highlighter S_Highlight L_Highlighter L_Wf8 M_LangCpp.
Import ListNotations.

Notation any := anything.

(** ** Matchers stay inside the text *)

Lemma newline_escape_loop_le : forall s len, newline_escape_loop s len <= len + length s.
Proof.
  induction s as [|c s IH]; intros len; cbn [newline_escape_loop length]; [lia|].
  destruct (_ =? _)%N; [lia|]. destruct (negb _); [lia|]. specialize (IH (len + 1)). lia.
Qed.
Lemma newline_escape_le s : match_newline_escape s <= length s.
Proof.
  destruct s as [|c s]; cbn [match_newline_escape length]; [lia|]. destruct (_ =? _)%N; [|lia].
  pose proof (newline_escape_loop_le s 1). lia.
Qed.

Lemma line_comment_loop_ok : forall fuel s len, length s <= fuel ->
  exists n, line_comment_loop fuel s len = Ok n /\ len <= n <= len + length s.
Proof.
  induction fuel as [|f IH]; intros s len Hf.
  - destruct s; [|cbn in Hf; lia]. exists len. split; [reflexivity|cbn; lia].
  - destruct s as [|c s]; [exists len; split; [reflexivity|cbn; lia]|]. cbn [line_comment_loop].
    destruct (_ || _); [exists len; split; [reflexivity|lia]|]. cbv zeta.
    pose proof (newline_escape_le (c :: s)) as L.
    destruct (Nat.eqb_spec (match_newline_escape (c :: s)) 0) as [E|E]; cbn [negb].
    + cbn [length] in Hf. destruct (IH s (len + 1)) as (n & -> & B); [lia|]. exists n. cbn [length]. split; [reflexivity|lia].
    + destruct (IH (skipn (match_newline_escape (c :: s)) (c :: s)) (len + match_newline_escape (c :: s))) as (n & -> & B).
      { rewrite skipn_length. lia. }
      rewrite skipn_length in B. exists n. split; [reflexivity|lia].
Qed.
Lemma line_comment_ok s : exists n, cpp_match_line_comment s = Ok n /\ n <= length s /\ (n <> 0 -> 2 <= n).
Proof.
  unfold cpp_match_line_comment. destruct (starts_with s (bs "//")) eqn:E; cbn [negb]; [|exists 0; repeat split; lia].
  apply starts_with_len in E. change (length (bs "//")) with 2 in E.
  destruct (line_comment_loop_ok (length s) (skipn 2 s) 2) as (n & -> & B); [rewrite skipn_length; lia|].
  rewrite skipn_length in B. exists n. repeat split; lia.
Qed.

Lemma block_comment_le s : en_length (cpp_match_block_comment s) <= length s
  /\ (en_length (cpp_match_block_comment s) <> 0 ->
      (if en_terminated (cpp_match_block_comment s) then 4 else 2) <= en_length (cpp_match_block_comment s)).
Proof.
  unfold cpp_match_block_comment. destruct (starts_with s (bs "/*")) eqn:E; cbn [negb]; [|cbn; lia].
  apply starts_with_len in E. change (length (bs "/*")) with 2 in E.
  destruct (find_str s (bs "*/") 2) as [i|] eqn:F; cbn [en_length en_terminated]; [|lia].
  apply find_str_bound in F. change (length (bs "*/")) with 2 in F. lia.
Qed.

Lemma pp_number_loop_ok : forall fuel s len, length s <= fuel ->
  exists n, pp_number_loop fuel s len = Ok n /\ len <= n <= len + length s.
Proof.
  induction fuel as [|f IH]; intros s len Hf.
  - destruct s; [|cbn in Hf; lia]. exists len. split; [reflexivity|cbn; lia].
  - destruct s as [|c s]; [exists len; split; [reflexivity|cbn; lia]|]. cbn [pp_number_loop].
    cbn [length] in Hf.
    destruct (_ =? _)%N.
    { destruct s as [|d s]; [exists len; split; [reflexivity|lia]|].
      destruct (is_cpp_ascii_identifier_continue d); [|exists len; split; [reflexivity|lia]].
      cbn [length] in *. destruct (IH s (len + 2)) as (n & -> & B); [lia|]. exists n. split; [reflexivity|lia]. }
    destruct (mem c (bs "eEpP")).
    { destruct s as [|d s]; [destruct (IH [] (len + 1)) as (n & -> & B); [cbn; lia|]; exists n; cbn in *; split; [reflexivity|lia]|].
      destruct (mem d (bs "-+")).
      - cbn [length] in *. destruct (IH s (len + 2)) as (n & -> & B); [lia|]. exists n. split; [reflexivity|lia].
      - destruct (IH (d :: s) (len + 1)) as (n & -> & B); [lia|]. exists n. cbn [length] in *. split; [reflexivity|lia]. }
    destruct (_ =? _)%N.
    { destruct (IH s (len + 1)) as (n & -> & B); [lia|]. exists n. cbn [length] in *. split; [reflexivity|lia]. }
    destruct (replacement_any (c :: s)) as (cp & u & -> & B1 & B2); [discriminate|]. cbn [bind].
    destruct (is_identifier_continue_likely_ascii cp); [|exists len; split; [reflexivity|lia]].
    cbn [length] in B1.
    destruct (IH (skipn u (c :: s)) (len + u)) as (n & -> & B); [rewrite skipn_length; cbn [length]; lia|].
    rewrite skipn_length in B. exists n. cbn [length] in *. split; [reflexivity|lia].
Qed.
Lemma pp_number_ok s : exists n, match_pp_number s = Ok n /\ n <= length s.
Proof.
  unfold match_pp_number. destruct s as [|c s]; [exists 0; split; [reflexivity|cbn; lia]|].
  destruct (_ && _) eqn:E.
  - destruct s as [|d s]; [rewrite andb_false_r in E; discriminate|].
    destruct (pp_number_loop_ok (length (c :: d :: s)) (skipn 2 (c :: d :: s)) 2) as (n & -> & B); [rewrite skipn_length; lia|].
    rewrite skipn_length in B. exists n. cbn [length] in *. split; [reflexivity|lia].
  - destruct (is_ascii_digit c); [|exists 0; split; [reflexivity|lia]].
    destruct (pp_number_loop_ok (length (c :: s)) s 1) as (n & -> & B); [cbn; lia|]. exists n. cbn [length]. split; [reflexivity|lia].
Qed.

Lemma identifier_loop_ok : forall fuel s len, length s <= fuel ->
  exists n, identifier_loop fuel s len = Ok n /\ len <= n <= len + length s.
Proof.
  induction fuel as [|f IH]; intros s len Hf.
  - destruct s; [|cbn in Hf; lia]. exists len. split; [reflexivity|cbn; lia].
  - destruct s as [|c s]; [exists len; split; [reflexivity|cbn; lia]|]. cbn [identifier_loop].
    destruct (replacement_any (c :: s)) as (cp & u & -> & B1 & B2); [discriminate|]. cbn [bind].
    destruct (negb _); [exists len; split; [reflexivity|lia]|].
    rewrite remove_prefix_any by lia. cbn [bind].
    destruct (IH (skipn u (c :: s)) (len + u)) as (n & -> & B); [rewrite skipn_length; lia|].
    rewrite skipn_length in B. exists n. split; [reflexivity|lia].
Qed.
Lemma cpp_identifier_ok s : exists n, cpp_match_identifier s = Ok n /\ n <= length s.
Proof.
  unfold cpp_match_identifier. destruct s as [|c s]; [exists 0; split; [reflexivity|cbn; lia]|].
  destruct (replacement_any (c :: s)) as (cp & u & -> & B1 & B2); [discriminate|]. cbn [bind].
  destruct (negb _); [exists 0; split; [reflexivity|lia]|].
  rewrite remove_prefix_any by lia. cbn [bind].
  destruct (identifier_loop_ok (length (c :: s)) (skipn u (c :: s)) u) as (n & -> & B); [rewrite skipn_length; lia|].
  rewrite skipn_length in B. exists n. split; [reflexivity|lia].
Qed.

Lemma common_escape_at_ok k s p : p <= length s ->
  exists e, match_common_escape_at k s p = Ok e /\ p <= es_length e <= length s.
Proof.
  intros H. unfold match_common_escape_at. apply Nat.leb_le in H as H'. rewrite H'. cbn [check bind].
  eexists. split; [reflexivity|]. cbn [es_length]. pose proof (match_common_escape_le k (skipn p s)) as L.
  rewrite skipn_length in L. lia.
Qed.

Lemma with_type_ok k s p : 1 <= p <= length s ->
  exists e, with_type (match_common_escape_at k s p) = Ok e /\ 1 <= ce_length e <= length s.
Proof.
  intros H. destruct (common_escape_at_ok k s p) as (e & E & B); [lia|]. unfold with_type. rewrite E. cbn [bind].
  eexists. split; [reflexivity|]. cbn [ce_length]. lia.
Qed.

Lemma cpp_escape_ok s : exists e, cpp_match_escape_sequence s = Ok e /\ ce_length e <= length s.
Proof.
  unfold cpp_match_escape_sequence.
  destruct s as [|b [|c s]]; try (eexists; split; [reflexivity|cbn; lia]).
  set (t := b :: c :: s). assert (Ht : 2 <= length t) by (subst t; cbn; lia). clearbody t. cbv zeta.
  destruct (negb _); [eexists; split; [reflexivity|cbn; lia]|].
  destruct (mem c _); [eexists; split; [reflexivity|cbn; lia]|].
  destruct (mem c _).
  { pose proof (newline_escape_le t). destruct (negb _); eexists; (split; [reflexivity|cbn; lia]). }
  destruct (_ =? _)%N; [eexists; split; [reflexivity|cbn; lia]|].
  destruct (_ =? _)%N; [destruct (with_type_ok (if starts_with_ch (skipn 2 t) (ch "{") then hex_braced else hex_4) t 2) as (e & -> & B); [lia|]; exists e; split; [reflexivity|lia]|].
  destruct (_ =? _)%N; [destruct (with_type_ok hex_8 t 2) as (e & -> & B); [lia|]; exists e; split; [reflexivity|lia]|].
  destruct (_ =? _)%N.
  { destruct (starts_with_ch (skipn 2 t) (ch "{")) eqn:E; [|eexists; split; [reflexivity|cbn; lia]].
    apply starts_with_ch_len in E. rewrite skipn_length in E.
    destruct (find_first_of t _ 0) as [e|] eqn:F; [|eexists; split; [reflexivity|cbn; lia]].
    apply find_if_from_Some in F as (B & _).
    destruct (_ =? _)%N; eexists; (split; [reflexivity|cbn; lia]). }
  destruct (_ =? _)%N; [destruct (with_type_ok (if starts_with_ch (skipn 2 t) (ch "{") then hex_braced else hex_1_to_inf) t 2) as (e & -> & B); [lia|]; exists e; split; [reflexivity|lia]|].
  destruct (_ =? _)%N.
  { destruct (starts_with_ch (skipn 2 t) (ch "{")); [|eexists; split; [reflexivity|cbn; lia]].
    destruct (with_type_ok octal_braced t 2) as (e & -> & B); [lia|]; exists e; split; [reflexivity|lia]. }
  destruct (between _ _ _); [destruct (with_type_ok octal_1_to_3 t 1) as (e & -> & B); [lia|]; exists e; split; [reflexivity|lia]|].
  eexists; split; [reflexivity|cbn; lia].
Qed.

(** Tokens are not empty and lie inside the text. *)
Lemma op_le is_cpp s t : match_preprocessing_op_or_punc is_cpp s = Some t -> 0 < length t <= length s.
Proof.
  unfold match_preprocessing_op_or_punc. destruct s as [|c s]; [discriminate|].
  set (u := c :: s). assert (Hu : 1 <= length u) by (subst u; cbn; lia). clearbody u. cbv zeta.
  intros H.
  repeat match type of H with
  | (if ?b then _ else _) = _ => destruct b
  | None = Some _ => discriminate H
  end.
  all: try (injection H as <-; vm_compute length in *; cbn; lia).
  all: cbn [first_alternative] in H;
    repeat match type of H with
    | (if ?b then _ else _) = _ => let E := fresh in destruct b eqn:E; bool_hyps; pose_len
    | None = Some _ => discriminate H
    end; injection H as <-; lit_len; cbn [length] in *; try lia.
Qed.

Lemma find_raw_bound d : forall s n, find_raw_terminator d s = Some n -> n + length d + 2 <= length s.
Proof.
  induction s as [|c s IH]; intros n H; cbn [find_raw_terminator] in H; [discriminate|].
  destruct (match_raw_terminator d (c :: s)) eqn:E.
  - injection H as <-. unfold match_raw_terminator in E. bool_hyps.
    match goal with X : starts_with_ch (skipn (1 + length d) _) _ = true |- _ => apply starts_with_ch_len in X; rewrite skipn_length in X; cbn [length] in * end. lia.
  - destruct (find_raw_terminator d s) as [i|]; [|discriminate]. injection H as <-.
    specialize (IH i eq_refl). cbn [length]. lia.
Qed.

(** ** The highlighter *)

(** What holds of every state: index is in the source and no sequence is cut off. *)
Definition good (st : hst cpp_loc) : Prop :=
  fits (rem st) /\ idx st + length (rem st) = cl_size (loc st).

Lemma good_steps k st st' : good st -> steps any k st st' -> loc st' = loc st -> good st'.
Proof.
  intros [H1 H2] Hs Hl. pose proof (steps_len _ _ _ _ Hs) as [L1 L2]. destruct Hs as (_ & E & Ei & _).
  split; [rewrite E; apply fits_skip; exact H1|]. rewrite Hl, Ei, L2. lia.
Qed.

Lemma wp_cpp_remainder (Q : str -> hst cpp_loc -> Prop) st : good st -> Q (rem st) st -> wp cpp_remainder Q st.
Proof.
  intros [_ H] HQ. unfold wp, cpp_remainder.
  assert (E : (idx st <=? cl_size (loc st)) = true) by (apply Nat.leb_le; lia). rewrite E. exact HQ.
Qed.
Lemma wp_set_fresh b (Q : unit -> hst cpp_loc -> Prop) st : good st ->
  (forall st', steps any 0 st st' -> rem st' = rem st -> good st' -> Q tt st') -> wp (set_fresh_line b) Q st.
Proof.
  intros G H. unfold set_fresh_line. apply wp_bind, wp_get_loc. apply (wp_set_loc any).
  intros st' Hs Hr Hl. apply H; [exact Hs|exact Hr|]. destruct G as [G1 G2].
  split; [rewrite Hr; exact G1|]. rewrite Hl, Hr. cbn [cl_size]. destruct Hs as (_ & _ & -> & _). lia.
Qed.
Lemma wp_cpp_emit_adv n ty (Q : unit -> hst cpp_loc -> Prop) st : good st -> 0 < n <= length (rem st) ->
  (forall st', steps any n st st' -> good st' -> loc st' = loc st -> Q tt st') -> wp (cpp_emit_and_advance n ty) Q st.
Proof.
  intros G Hn H. pose proof (wp_emit_adv any n ty Q st Hn) as W.
  unfold wp, emit_and_advance, emit_and_advance_c, cpp_emit_and_advance, bindM, get_idx, emit_at, cpp_emit, advance, cpp_advance in *.
  assert (E1 : (n =? 0) = false) by (apply Nat.eqb_neq; lia). rewrite E1 in *.
  assert (E2 : (idx st <? idx st + length (rem st)) = true) by (apply Nat.ltb_lt; lia). rewrite E2 in *.
  assert (E3 : (idx st + n <=? idx st + length (rem st)) = true) by (apply Nat.leb_le; lia). rewrite E3 in *.
  cbn [negb andb rem idx rops loc] in *.
  assert (E4 : (n <=? length (rem st)) = true) by (apply Nat.leb_le; lia). rewrite E4 in *.
  apply W. intros st' Hs Hl. apply H; [exact Hs|eapply good_steps; eassumption|exact Hl].
Qed.
Lemma wp_cpp_advance n (Q : unit -> hst cpp_loc -> Prop) st : good st -> n <= length (rem st) ->
  (forall st', steps any n st st' -> good st' -> loc st' = loc st -> Q tt st') -> wp (cpp_advance n) Q st.
Proof.
  intros G Hn H. pose proof (wp_advance any n Q st Hn (Forall_anything _)) as W.
  unfold wp, advance, cpp_advance in *.
  assert (E4 : (n <=? length (rem st)) = true) by (apply Nat.leb_le; lia). rewrite E4 in *.
  apply W. intros st' Hs Hl. apply H; [exact Hs|eapply good_steps; eassumption|exact Hl].
Qed.

Ltac cp1 :=
  cbn beta;
  lazymatch goal with
  | |- wp cpp_remainder _ _ => apply wp_cpp_remainder; [assumption|]
  | |- wp (set_fresh_line _) _ _ => apply wp_set_fresh; [assumption|intros ? ? ? ?; try fuse]
  | |- wp (cpp_emit_and_advance _ _) _ _ => apply wp_cpp_emit_adv; [assumption|side|intros ? ? ? ?; try fuse]
  | |- wp (cpp_advance _) _ _ => apply wp_cpp_advance; [assumption|side|intros ? ? ? ?; try fuse]
  | |- _ => hl1
  end.
Ltac cp := repeat cp1.

(** Result of an expect function: nothing done, or something consumed. *)
Definition gtries (m : M cpp_loc bool) : Prop :=
  forall st, good st -> wp m (fun b st' => attempt any st b st' /\ good st') st.
(** Other functions move forward. *)
Definition gsafe {A} (m : M cpp_loc A) : Prop :=
  forall st, good st -> wp m (fun _ st' => (exists k, steps any k st st') /\ good st') st.

Ltac done_g := split; [first [done_try | done_steps]|assumption].

Lemma g_whitespace : gtries cpp_expect_whitespace.
Proof.
  intros st G. begin_steps any st. unfold cpp_expect_whitespace. cp1. cp1. cbv zeta.
  pose proof (length_if_le (rem st) is_cpp_whitespace). unfold cpp_match_whitespace. cp; done_g.
Qed.

Lemma g_line_comment : gtries cpp_expect_line_comment.
Proof.
  intros st G. begin_steps any st. unfold cpp_expect_line_comment. cp1. cp1. cp1.
  destruct (line_comment_ok (rem st)) as (n & E & L1 & L2). eapply wp_lift; [exact E|].
  cp1; [cp; done_g|]. bool_hyps. specialize (L2 ltac:(lia)). cp; done_g.
Qed.

(** Emitting ahead of the current position, as in the base class. *)
Lemma wp_cpp_emit b n ty (Q : unit -> hst cpp_loc -> Prop) st : b + n <= idx st + length (rem st) ->
  wp (emit_at false b n ty) Q st -> wp (cpp_emit b n ty) Q st.
Proof.
  intros H. unfold wp, emit_at, cpp_emit. destruct (n =? 0); cbn [negb andb]; [auto|].
  destruct (_ <? _); cbn [andb]; [|contradiction]. destruct (_ <=? _); [auto|contradiction].
Qed.
Lemma wp_cpp_adv n (Q : unit -> hst cpp_loc -> Prop) st : wp (advance n) Q st -> wp (cpp_advance n) Q st.
Proof. unfold wp, advance, cpp_advance. destruct (_ <=? _); [auto|contradiction]. Qed.

Lemma g_block_comment : gtries cpp_expect_block_comment.
Proof.
  intros st G. begin_steps any st. unfold cpp_expect_block_comment. cp1. cp1. cbv zeta.
  pose proof (block_comment_le (rem st)) as [L1 L2]. set (e := cpp_match_block_comment (rem st)) in *.
  cp1; [cp; done_g|]. bool_hyps. specialize (L2 ltac:(assumption)).
  assert (A : forall st1 n, ahead any n st st1 -> n = en_length e ->
    wp (let! _ := cpp_advance (en_length e) in ret true) (fun b st' => attempt any st b st' /\ good st') st1).
  { intros st1 n A1 ->. cp1. apply wp_cpp_adv. eapply ahead_advance; [exact A1|reflexivity|].
    intros st3 S3 Hl. pose proof (good_steps _ _ _ G S3 Hl). cp. done_g. }
  cp1. cp1. cp1.
  apply wp_cpp_emit; [destruct (en_terminated e); lia|].
  eapply (ahead_emit any); [apply ahead_refl|lia|lia|destruct (en_terminated e); lia|]. intros st1 A1.
  assert (Ei : idx st1 = idx st) by apply A1. assert (Er : rem st1 = rem st) by apply A1.
  cp1. cp1; bool_hyps.
  - apply wp_cpp_emit; [rewrite Ei, Er; destruct (en_terminated e); lia|].
    eapply ahead_emit; [exact A1|lia|lia|destruct (en_terminated e); lia|]. intros st2 A2.
    assert (Ei2 : idx st2 = idx st) by apply A2. assert (Er2 : rem st2 = rem st) by apply A2.
    cp1. cp1.
    + match goal with X : en_terminated e = true |- _ => rewrite X in * end.
      apply wp_cpp_emit; [rewrite Ei2, Er2; lia|]. eapply ahead_emit; [exact A2|lia|lia|lia|]. intros st3 A3.
      eapply A; [exact A3|lia].
    + match goal with X : en_terminated e = false |- _ => rewrite X in * end. eapply A; [exact A2|lia].
  - cp1. cp1.
    + match goal with X : en_terminated e = true |- _ => rewrite X in * end.
      apply wp_cpp_emit; [rewrite Ei, Er; lia|]. eapply ahead_emit; [exact A1|lia|lia|lia|]. intros st3 A3.
      eapply A; [exact A3|lia].
    + match goal with X : en_terminated e = false |- _ => rewrite X in * end. eapply A; [exact A1|lia].
Qed.

Lemma g_identifier is_cpp strict fb : gtries (cpp_expect_identifier_or_keyword is_cpp strict fb).
Proof.
  intros st G. begin_steps any st. unfold cpp_expect_identifier_or_keyword. cp1. cp1. cp1.
  destruct (cpp_identifier_ok (rem st)) as (n & E & L1). eapply wp_lift; [exact E|]. cp1; [cp; done_g|].
  cbv zeta. cp; done_g.
Qed.

Lemma gtries_gsafe m : gtries m -> gsafe m.
Proof.
  intros H st G. eapply wp_mono; [apply H; exact G|]. cbn beta. intros [] st' [A B]; cbn in A.
  - destruct A as (k & Hk & _). split; [eauto|exact B].
  - subst. split; [exists 0; apply steps_refl|exact B].
Qed.
Lemma wp_gsafe {A} (m : M cpp_loc A) (Q : A -> hst cpp_loc -> Prop) st : gsafe m -> good st ->
  (forall a k st', steps any k st st' -> good st' -> Q a st') -> wp m Q st.
Proof. intros H G HQ. eapply wp_mono; [apply H; exact G|]. cbn beta. intros a st' [[k Hk] Hg]. eauto. Qed.

Lemma g_suffix is_cpp strict : gsafe (cpp_consume_string_suffix is_cpp strict).
Proof.
  intros st G. unfold cpp_consume_string_suffix. cp1.
  eapply wp_gsafe; [apply gtries_gsafe, g_identifier|exact G|]. intros b k st1 HS1 G1. cp. done_g.
Qed.

(** [n] units before the current position have been consumed without any operation. *)
Definition held (k n : nat) (st st' : hst cpp_loc) : Prop :=
  k <= length (rem st) /\ rem st' = skipn k (rem st) /\ idx st' = idx st + k /\ n <= k
  /\ exists new, rops st' = new ++ rops st /\ ops_in (idx st) (idx st' - n) (rev new).

Lemma held_steps k n st st' : held k n st st' -> n = 0 -> steps any k st st'.
Proof.
  intros (H1 & H2 & H3 & H4 & new & H5 & H6) ->. split; [exact H1|]. split; [exact H2|]. split; [exact H3|].
  exists new. split; [exact H5|]. rewrite Nat.sub_0_r in H6. split; [exact H6|]. intros; left; exact I.
Qed.
Lemma steps_held k st st' : steps any k st st' -> held k 0 st st'.
Proof.
  intros (H1 & H2 & H3 & new & H5 & H6 & _). split; [exact H1|]. split; [exact H2|]. split; [exact H3|]. split; [lia|].
  exists new. rewrite Nat.sub_0_r. auto.
Qed.
Lemma held_advance k n m st st' (Q : unit -> hst cpp_loc -> Prop) : held k n st st' -> good st' -> m <= length (rem st') ->
  (forall st2, held (k + m) (n + m) st st2 -> good st2 -> length (rem st2) = length (rem st') - m -> Q tt st2) -> wp (cpp_advance m) Q st'.
Proof.
  intros (H1 & H2 & H3 & H4 & new & H5 & H6) G Hm H. unfold wp, cpp_advance.
  apply H.
  - rewrite H2, skipn_length in Hm. split; [lia|]. split; [cbn [rem]; rewrite H2, skipn_skipn; reflexivity|]. cbn [idx rops].
    split; [lia|]. split; [lia|]. exists new. split; [exact H5|]. replace (idx st' + m - (n + m)) with (idx st' - n) by lia. exact H6.
  - destruct G as [G1 G2]. split; cbn [rem idx loc]; [apply fits_skip; exact G1|]. rewrite skipn_length. lia.
  - cbn [rem]. apply skipn_length.
Qed.
Lemma held_flush k n st st' (Q : unit -> hst cpp_loc -> Prop) : held k n st st' -> good st' ->
  (forall st2, steps any k st st2 -> good st2 -> rem st2 = rem st' -> Q tt st2) -> wp (cpp_flush_chars n) Q st'.
Proof.
  intros Hh G H. unfold cpp_flush_chars. cp1; bool_hyps.
  - destruct Hh as (H1 & H2 & H3 & H4 & new & H5 & H6). cp1. cp1. cp1. cp1.
    unfold wp, cpp_emit. assert (E1 : (n =? 0) = false) by (apply Nat.eqb_neq; lia). rewrite E1. cbn [negb].
    apply H; [|exact G|reflexivity]. split; [exact H1|]. split; [exact H2|]. split; [exact H3|].
    eexists (_ :: new). split; [cbn [rops]; rewrite H5; reflexivity|]. split; [|intros; left; exact I].
    cbn [rev idx]. eapply ops_in_app; [exact H6|]. constructor; [lia|lia|]. constructor. lia.
  - apply H; [eapply held_steps; eassumption|exact G|reflexivity].
Qed.

Lemma g_char_sequence is_cpp strict quote : gsafe (cpp_consume_char_sequence_and_suffix is_cpp strict quote).
Proof.
  intros st G. unfold cpp_consume_char_sequence_and_suffix.
  apply wp_hloop with (Inv := fun a st1 => (exists k, held k a st st1) /\ good st1) (mu := fun _ st1 => length (rem st1)).
  - split; [|exact G]. exists 0. apply steps_held, steps_refl.
  - lia.
  - intros a st1 [[k HK] G1]. unfold cpp_char_sequence_body. cp1. cp1.
    { cp1. eapply held_flush; [exact HK|exact G1|]. intros st2 S2 G2 R2. cp. done_g. }
    cp1. cp1. cp1. assert (Hne : 1 <= length (rem st1)) by (apply neq_nil_len; assumption). cp1.
    match goal with X : nth_error (rem st1) 0 = Some ?x |- _ => rename X into Hc; rename x into c end. cp1.
    { cp1. eapply held_flush; [exact HK|exact G1|]. intros st2 S2 G2 R2. rewrite <- R2 in Hne. cp1. cp1. cp1.
      eapply wp_gsafe; [apply g_suffix|assumption|]. intros [] k3 st3 HS3 G3. fuse. cp. done_g. }
    cp1.
    { cp1. cp1. cp1. destruct (cpp_escape_ok (rem st1)) as (e & E & L). eapply wp_lift; [exact E|]. cp1; bool_hyps; [cp1|].
      - cp1. eapply held_advance; [exact HK|exact G1|lia|]. intros st2 HH2 G2 L2. cp. split; [split; [eauto|exact G2]|lia].
      - cp1. eapply held_flush; [exact HK|exact G1|]. intros st2 S2 G2 R2. rewrite <- R2 in *. cp1. cp1. cp1.
        split; [split; [|assumption]|hlia]. eexists. apply steps_held. eassumption.
      - cp1. eapply held_flush; [exact HK|exact G1|]. intros st2 S2 G2 R2. rewrite <- R2 in *. cp1. cp1. cp1.
        split; [split; [|assumption]|hlia]. eexists. apply steps_held. eassumption. }
    cp1.
    { cp1. eapply held_flush; [exact HK|exact G1|]. intros st2 S2 G2 R2. cp. done_g. }
    cbv zeta. cp1. destruct G1 as [F1 G1]. pose proof (F1 _ _ Hc) as F. cbn [Nat.add] in F.
    set (n := if sequence_length c =? 0 then 1 else sequence_length c).
    assert (Hn : 0 < n <= length (rem st1)) by (subst n; destruct (Nat.eqb_spec (sequence_length c) 0); lia).
    eapply held_advance; [exact HK|split; assumption|lia|]. intros st2 HH2 G2 L2. cp. split; [split; [eauto|exact G2]|lia].
Qed.

Lemma g_raw is_cpp strict st : good st -> starts_with_ch (rem st) 34 = true ->
  wp (cpp_consume_raw_string_and_suffix is_cpp strict) (fun _ st' => (exists k, steps any k st st' /\ 0 < k) /\ good st') st.
Proof.
  intros G HQ. begin_steps any st. unfold cpp_consume_raw_string_and_suffix. cp1. cp1. cp1. cp1. cp1. cp1. cbv zeta.
  pose proof (length_if_le (skipn 1 (rem st)) is_cpp_d_char) as Ln. rewrite skipn_length in Ln.
  set (n := length_if _ _) in *. assert (Hd : length (substr (rem st) 1 n) = n).
  { unfold substr. rewrite firstn_length, skipn_length. lia. }
  apply starts_with_ch_len in HQ as Hl. rewrite <- H1 in Hd, Hl, Ln |- *.
  cp1; bool_hyps; [cp; done_g|]. cp1. cp1. cp1; [cp; done_g|]. cp1.
  eapply wp_lift; [apply remove_prefix_any; lia|]. cp1. cp1.
  rewrite H1 in *. set (t := skipn (n + 2) (rem st)) in *. assert (Lt : length t = length (rem st) - (n + 2)) by (subst t; apply skipn_length).
  destruct (find_raw_terminator _ t) as [raw|] eqn:EF.
  - apply find_raw_bound in EF. rewrite Hd in EF. cp1. cp1.
    + cp1. cp1. cp1. eapply wp_gsafe; [apply g_suffix|assumption|]. intros [] k3 st3 HS3 G3. fuse. done_g.
    + cp1. cp1. eapply wp_gsafe; [apply g_suffix|assumption|]. intros [] k3 st3 HS3 G3. fuse. done_g.
  - cp; done_g.
Qed.

Lemma g_character_literal is_cpp strict : gtries (cpp_expect_character_literal is_cpp strict).
Proof.
  intros st G. begin_steps any st. unfold cpp_expect_character_literal. cp1. cp1. cp1.
  destruct (cpp_identifier_ok (rem st)) as (n & E & L1). eapply wp_lift; [exact E|]. cp1; [cp; done_g|]. bool_hyps.
  apply starts_with_ch_len in H0 as L2. rewrite skipn_length in L2.
  cp1. cp1; bool_hyps.
  - cp1. cp1. cp1. cp1. cp1; [match goal with X : steps any n st ?s |- starts_with_ch (rem ?s) _ = true => rewrite (steps_rem _ _ _ _ X) end; assumption|].
    cp1. cp1. cp1. eapply wp_gsafe; [apply g_char_sequence|assumption|]. intros [] k3 st3 HS3 G3. fuse. cp. done_g.
  - subst n. cp1. cp1. cp1. cp1. cp1. cp1. cp1. eapply wp_gsafe; [apply g_char_sequence|assumption|].
    intros [] k3 st3 HS3 G3. fuse. cp. done_g.
Qed.

Lemma g_string_literal is_cpp strict : gtries (cpp_expect_string_literal is_cpp strict).
Proof.
  intros st G. begin_steps any st. unfold cpp_expect_string_literal. cp1. cp1. cp1.
  destruct (cpp_identifier_ok (rem st)) as (n & E & L1). eapply wp_lift; [exact E|]. cp1; [cp; done_g|]. bool_hyps.
  apply starts_with_ch_len in H0 as L2. rewrite skipn_length in L2. cbv zeta.
  assert (W : forall k st1, steps any k st st1 -> good st1 -> starts_with_ch (rem st1) 34 = true -> 
    wp (let! s := get_rem in
    checkM (starts_with_ch s 34) FDebugAssert ;;
    (if negb (n =? 0) && ends_with (firstn n (rem st)) (bs "R") then cpp_consume_raw_string_and_suffix is_cpp strict
     else
       cpp_emit_and_advance 1 hl_string_delim ;;
       cpp_consume_char_sequence_and_suffix is_cpp strict 34) ;;
    ret true) (fun b st' => attempt any st b st' /\ good st') st1).
  { intros k st1 HK G1 HQ. apply starts_with_ch_len in HQ as L3. cp1. cp1. cp1. cp1. cp1. cp1.
    - eapply wp_mono; [apply g_raw; assumption|]. cbn beta. intros [] st2 [(k2 & S2 & P2) G2]. fuse. cp. done_g.
    - cp1. cp1. eapply wp_gsafe; [apply g_char_sequence|assumption|]. intros [] k3 st3 HS3 G3. fuse. cp. done_g. }
  cp1. cp1; bool_hyps.
  - cp1. eapply W; [eassumption|assumption|]. match goal with X : steps any n st ?s |- starts_with_ch (rem ?s) _ = true => rewrite (steps_rem _ _ _ _ X) end. assumption.
  - subst n. eapply W; [eassumption|assumption|assumption].
Qed.

Lemma g_flush_digits n (Q : unit -> hst cpp_loc -> Prop) st : good st -> n <= length (rem st) ->
  (forall st', steps any n st st' -> good st' -> Q tt st') -> wp (cpp_flush_digits n) Q st.
Proof.
  intros G L H. unfold cpp_flush_digits. begin_steps any st. cp1; bool_hyps.
  - cp1. apply H; assumption.
  - subst n. apply H; assumption.
Qed.
Lemma g_pp_loop is_hex : forall p digits st, good st -> digits + length p <= length (rem st) ->
  wp (cpp_pp_number_loop is_hex p digits) (fun _ st' => steps any (digits + length p) st st' /\ good st') st.
Proof.
  induction p as [|c p IH]; intros digits st G L; cbn [cpp_pp_number_loop length].
  - apply g_flush_digits; [exact G|cbn in L; lia|]. intros st' S' G'. split; [|exact G']. replace (digits + 0) with digits by lia. exact S'.
  - cbn [length] in L.
    assert (W : wp (cpp_flush_digits digits ;; cpp_emit_and_advance 1 hl_number_delim ;; cpp_pp_number_loop is_hex p 0)
      (fun _ st' => steps any (digits + Datatypes.S (length p)) st st' /\ good st') st).
    { cp1. apply g_flush_digits; [exact G|lia|]. intros st1 S1 G1. cp1. cp1.
      match goal with X : steps any _ st ?s |- wp _ _ ?s => rename X into HX end.
      eapply wp_mono; [apply IH; [assumption|hlia]|]. cbn beta. intros [] st3 [S3 G3]. split; [|exact G3].
      eapply steps_eq; [eapply steps_trans; eassumption|lia]. }
    assert (W2 : wp (cpp_flush_digits digits ;; cpp_emit_and_advance (Datatypes.S (length p)) hl_number_decor)
      (fun _ st' => steps any (digits + Datatypes.S (length p)) st st' /\ good st') st).
    { cp1. apply g_flush_digits; [exact G|lia|]. intros st1 S1 G1. cp1. split; assumption. }
    assert (W3 : wp (cpp_pp_number_loop is_hex p (digits + 1))
      (fun _ st' => steps any (digits + Datatypes.S (length p)) st st' /\ good st') st).
    { eapply wp_mono; [apply IH; [exact G|lia]|]. cbn beta. intros [] st3 [S3 G3]. split; [|exact G3].
      eapply steps_eq; [exact S3|lia]. }
    cbv zeta.
    assert (W4 : forall b : bool, wp (cpp_flush_digits digits ;;
        if b then cpp_emit_and_advance 1 hl_number_delim ;; cpp_pp_number_loop is_hex p 0
        else cpp_emit_and_advance (Datatypes.S (length p)) hl_number_decor)
      (fun _ st' => steps any (digits + Datatypes.S (length p)) st st' /\ good st') st).
    { intros []; assumption. }
    repeat match goal with |- wp (if ?b then _ else _) _ _ => destruct b end; auto.
Qed.

Lemma g_pp_number : gtries cpp_expect_pp_number.
Proof.
  intros st G. begin_steps any st. unfold cpp_expect_pp_number. cp1. cp1. cp1.
  destruct (pp_number_ok (rem st)) as (n & E & L1). eapply wp_lift; [exact E|]. cp1; [cp; done_g|]. bool_hyps.
  cp1. cp1. cp1. eapply wp_mono with (P := fun _ st' => steps any n st st' /\ good st').
  - assert (Lp : length (firstn n (rem st)) = n) by (rewrite firstn_length; lia). set (p := firstn n (rem st)) in *.
    unfold cpp_highlight_pp_number. cp1. cp1; [destruct p; [cbn in Lp; lia|reflexivity]|]. cbv zeta. cp1.
    + assert (2 <= length p).
      { match goal with X : (_ || _) = true |- _ => apply orb_true_iff in X as [X|X]; apply orb_true_iff in X as [X|X]; apply starts_with_len in X; cbn in X; lia end. }
      cp1. cp1. eapply wp_mono; [apply g_pp_loop; [assumption|rewrite skipn_length; hlia]|]. cbn beta.
      intros [] st3 [S3 G3]. split; [|exact G3]. eapply steps_eq; [eapply steps_trans; eassumption|rewrite skipn_length; lia].
    + eapply wp_mono; [apply g_pp_loop; [assumption|lia]|]. cbn beta.
      intros [] st3 [S3 G3]. split; [|exact G3]. eapply steps_eq; [exact S3|lia].
  - cbn beta. intros [] st1 [S1 G1]. cp1. cp1. cp1. cp1; [apply Nat.eqb_eq; destruct S1 as (_ & _ & -> & _); reflexivity|]. cp. done_g.
Qed.

Lemma g_op is_cpp st : good st -> (cl_fresh_line (loc st) = true -> is_pound (match_preprocessing_op_or_punc is_cpp (rem st)) = false) ->
  wp (cpp_expect_preprocessing_op_or_punc is_cpp) (fun b st' => attempt any st b st' /\ good st') st.
Proof.
  intros G HP. begin_steps any st. unfold cpp_expect_preprocessing_op_or_punc. cp1. cp1.
  destruct (match_preprocessing_op_or_punc is_cpp (rem st)) as [t|] eqn:E; [|cp; done_g].
  apply op_le in E. unfold cpp_token_type_length. cp1. cp1. cp1. cp1.
  { destruct (cl_fresh_line (loc st)); [|reflexivity]. rewrite HP by reflexivity. reflexivity. }
  cp. done_g.
Qed.

Lemma g_directive is_cpp st : good st -> wp (cpp_expect_directive is_cpp)
  (fun b st' => attempt any st b st' /\ good st'
     /\ (b = false -> cl_fresh_line (loc st) = true -> is_pound (match_preprocessing_op_or_punc is_cpp (rem st)) = false)) st.
Proof.
  intros G. begin_steps any st. unfold cpp_expect_directive. cp1. cp1.
  cp1; [cp; bool_hyps; split; [done_try|split; [assumption|intros _ X; congruence]]|]. bool_hyps.
  cp1. cp1. cbv zeta. cp1; [cp; bool_hyps; split; [done_try|split; [assumption|intros _ _; assumption]]|]. bool_hyps.
  assert (F : forall k st1, steps any k st st1 -> 0 < k -> good st1 -> attempt any st true st1 /\ good st1
     /\ (true = false -> cl_fresh_line (loc st) = true -> is_pound (match_preprocessing_op_or_punc is_cpp (rem st)) = false)).
  { intros k st1 S1 P1 G1. split; [done_try|]. split; [exact G1|discriminate]. }
  destruct (match_preprocessing_op_or_punc is_cpp (rem st)) as [t|] eqn:EO; [|discriminate].
  apply op_le in EO as LO. unfold cpp_token_type_length.
  cp1. cp1. cp1. cp1. cp1.
  pose proof (length_if_le (rem st') is_cpp_whitespace) as LW. unfold cpp_match_whitespace. cp1.
  cp1. cp1. cp1.
  match goal with |- wp _ _ ?s => destruct (cpp_identifier_ok (rem s)) as (n & E & L1) end. eapply wp_lift; [exact E|].
  cp1; [cp; eapply F; [eassumption|hlia|assumption]|]. bool_hyps. cp1. cp1.
  cp1; [|cp; eapply F; [eassumption|hlia|assumption]].
  cp1. cp1. cp1.
  match goal with |- wp _ _ ?s => pose proof (length_if_le (rem s) is_cpp_whitespace) as LW2 end. unfold cpp_match_whitespace. cp1.
  cp1. cp1. cp1; [|cp; eapply F; [eassumption|hlia|assumption]]. cp1. cp1. cp1. cp1.
  match goal with |- wp _ _ ?s => destruct (find_first_of (rem s) [62; 13; 10]%N 0) as [e|] eqn:EE end.
  - apply find_if_from_Some in EE as (B & _). cp1. cp1. cp1. cp1. cp1; bool_hyps.
    + cp1. cp1; cp; eapply F; try eassumption; hlia.
    + cp1; cp; eapply F; try eassumption; hlia.
  - cp; eapply F; try eassumption; hlia.
Qed.

Lemma g_non_whitespace : gtries cpp_expect_non_whitespace.
Proof.
  intros st G. begin_steps any st. unfold cpp_expect_non_whitespace. cp1. cp1. cbv zeta.
  pose proof (length_if_not_le (rem st) is_cpp_whitespace). unfold cpp_match_non_whitespace. cp1; [cp; done_g|].
  bool_hyps. cp1. cp1. match goal with X : rem st' = rem st |- _ => rewrite <- X in * end. cp; done_g.
Qed.

(** Either there is whitespace at the front or there is not. *)
Lemma white_or_not s : s <> [] -> cpp_match_whitespace s = 0 -> cpp_match_non_whitespace s <> 0.
Proof.
  intros H. unfold cpp_match_whitespace, cpp_match_non_whitespace. rewrite length_if_eq, length_if_not_eq.
  destruct s as [|c s]; [congruence|]. cbn [prefix_len]. destruct (is_cpp_whitespace c); cbn [negb]; lia.
Qed.

Lemma wp_gor (m k : M cpp_loc bool) (Q : bool -> hst cpp_loc -> Prop) st : good st -> gtries m ->
  (forall n st', steps any n st st' -> 0 < n -> good st' -> Q true st') -> wp k Q st -> wp (or_else m k) Q st.
Proof.
  intros G H H1 H2. unfold or_else. apply wp_bind. eapply wp_mono; [apply H; exact G|]. cbn beta. intros [] st' [A B]; cbn in A.
  - destruct A as (n & Hn & H0). apply wp_ret. eauto.
  - subst. exact H2.
Qed.

Lemma g_body is_cpp strict st : good st -> rem st <> [] ->
  wp (cpp_body is_cpp strict) (fun _ st' => (exists k, steps any k st st' /\ 0 < k) /\ good st') st.
Proof.
  intros G Hne. unfold cpp_body. cp1.
  assert (F : forall n st', steps any n st st' -> 0 < n -> good st' ->
    wp (checkM true FAssert) (fun (_ : unit) st' => (exists k, steps any k st st' /\ 0 < k) /\ good st') st').
  { intros n st' HS HN HG. cp1. split; [eauto|exact HG]. }
  (* whitespace: keep the information that there is none *)
  unfold or_else at 1. cp1.
  assert (WW : wp cpp_expect_whitespace (fun b st' => (attempt any st b st' /\ good st') /\ (b = false -> cpp_match_whitespace (rem st) = 0)) st).
  { pose proof (g_whitespace st G) as W. unfold wp in *. 
    destruct (cpp_expect_whitespace st) as [[b st']|] eqn:E; [|contradiction]. split; [exact W|]. intros ->.
    unfold cpp_expect_whitespace, bindM, cpp_remainder in E. destruct (idx st <=? _); [|discriminate].
    destruct (Nat.eqb_spec (cpp_match_whitespace (rem st)) 0); [assumption|]. cbn in E. discriminate. }
  eapply wp_mono; [exact WW|]. cbn beta. intros [] st1 [[A B] C]; cbn in A.
  { destruct A as (n & Hn & H0). apply wp_ret. eapply F; eassumption. }
  subst st1. specialize (C eq_refl).
  apply wp_gor; [exact G|apply g_line_comment|exact F|].
  apply wp_gor; [exact G|apply g_block_comment|exact F|].
  unfold or_else at 1. cp1. eapply wp_mono; [apply g_directive; exact G|]. cbn beta. intros [] st1 (A & B2 & D); cbn in A.
  { destruct A as (n & Hn & H0). apply wp_ret. eapply F; eassumption. }
  subst st1. specialize (D eq_refl).
  apply wp_gor; [exact G|apply g_string_literal|exact F|].
  apply wp_gor; [exact G|apply g_character_literal|exact F|].
  apply wp_gor; [exact G|apply g_pp_number|exact F|].
  apply wp_gor; [exact G|apply g_identifier|exact F|].
  unfold or_else at 1. cp1. eapply wp_mono; [apply g_op; [exact G|exact D]|]. cbn beta. intros [] st1 (A & B3); cbn in A.
  { destruct A as (n & Hn & H0). apply wp_ret. eapply F; eassumption. }
  subst st1. pose proof (white_or_not _ Hne C) as NW.
  begin_steps any st. unfold cpp_expect_non_whitespace. cp1. cp1. cbv zeta.
  pose proof (length_if_not_le (rem st) is_cpp_whitespace). fold (cpp_match_non_whitespace (rem st)) in *.
  cp1; bool_hyps; [contradiction|]. cp1. cp1. match goal with X : rem st' = rem st |- _ => rewrite <- X in *; rename X into HR end.
  cp1. cp1. cp1. eapply F; [eassumption|lia|assumption].
Qed.

Lemma cpp_in_order is_cpp src strict : fits src ->
  exists ops, highlight_c_or_cpp is_cpp src strict = Ok (true, ops) /\ ops_in 0 (length src) ops.
Proof.
  intros F. apply (run_ok any). set (st := mk_hst src 0 [] _).
  assert (G : good st) by (split; [exact F|reflexivity]). apply wp_bind.
  eapply wp_mono with (P := fun _ st' => exists k, steps any k st st'); [|intros; apply wp_ret; auto].
  unfold while_rem. apply wp_hloop with (Inv := fun _ st' => (exists k, steps any k st st') /\ good st') (mu := fun _ st' => length (rem st')).
  - split; [exists 0; apply steps_refl|exact G].
  - lia.
  - intros [] st2 [(k2 & HK2) G2]. hl1. hl1; [hl; done_steps|]. hl1.
    eapply wp_mono; [apply g_body; assumption|]. cbn beta.
    intros [] st3 [(k3 & HS3 & P3) G3]. fuse. hl. split; [split; [done_steps|assumption]|hlia].
Qed.

(** ** C61 *)
(** An unterminated string ending in a truncated UTF-8 sequence: the second token covers bytes
    1 and 2 of a source of two bytes. *)
Theorem C61_cpp_refuted : forall is_cpp strict,
  highlight_c_or_cpp is_cpp [34; 0xC3]%N strict
  = Ok (true, [OEmit 0 1 hl_string_delim false; OEmit 1 2 hl_string false])
  /\ ~ always_highlights (highlight_c_or_cpp is_cpp).
Proof.
  intros is_cpp strict.
  assert (E : forall strict, highlight_c_or_cpp is_cpp [34; 0xC3]%N strict
    = Ok (true, [OEmit 0 1 hl_string_delim false; OEmit 1 2 hl_string false])) by (intros []; destruct is_cpp; vm_compute; reflexivity).
  split; [apply E|]. intros H. destruct (H [34; 0xC3]%N false false 10 ltac:(lia)) as (ops & chunks & H1 & H2 & H3).
  rewrite E in H1. injection H1 as <-. vm_compute in H2. first [discriminate H2 | injection H2 as <-].
  all: destruct H3 as [H3 _]; cbn [concat app] in H3; repeat (inversion H3; subst; clear H3); cbn in *; lia.
Qed.
Print Assumptions C61_cpp_refuted.

Theorem C61_cpp_partial : forall is_cpp src, bytes src -> untruncated src ->
  highlights (highlight_c_or_cpp is_cpp) src.
Proof.
  intros is_cpp src H1 H2. apply highlights_from_ops. intros strict. apply cpp_in_order, fits_untruncated; assumption.
Qed.
Print Assumptions C61_cpp_partial.
Theorem C61_cpp_utf8_partial : forall is_cpp src, valid_utf8 src -> highlights (highlight_c_or_cpp is_cpp) src.
Proof.
  intros is_cpp src H. apply highlights_from_ops. intros strict. apply cpp_in_order, valid_fits, H.
Qed.
Print Assumptions C61_cpp_utf8_partial.
Example C61_case : bytes (bs "#include <a>" ++ [10; 0xC3; 34]%N) /\ untruncated (bs "#include <a>" ++ [10; 0xC3; 34]%N)
  /\ exists ops, highlight_cpp (bs "#include <a>" ++ [10; 0xC3; 34]%N) false = Ok (true, ops) /\ length ops = 5.
Proof.
  split; [repeat constructor|]. split.
  { intros k c. do 15 (destruct k as [|k]; [cbn; injection 1 as <-; vm_compute; lia|]). cbn. destruct k; discriminate. }
  eexists. split; vm_compute; reflexivity.
Qed.
