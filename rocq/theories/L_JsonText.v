(** * JSON comments and escapes: the matchers against the grammar. *)
From Coq Require Import List NArith ZArith Bool Arith Lia.
From Verif Require Import M_Base L_Base M_Types M_Chars M_Parse S_Parse L_Parse M_Json S_Json L_JsonNum.
Import ListNotations.

(** ** Substring search *)
Lemma find_sub_split nd : forall s i, find_sub s nd = Some i ->
  exists a b, s = a ++ nd ++ b /\ length a = i /\ forall a' b', s = a' ++ nd ++ b' -> i <= length a'.
Proof.
  induction s as [|c s IH]; intros i H; cbn [find_sub] in H.
  - destruct (starts_with [] nd) eqn:E; [|discriminate]. injection H as <-.
    apply starts_with_app in E as [t E]. exists [], t. split; [exact E|]. split; [reflexivity|]. intros; lia.
  - destruct (starts_with (c :: s) nd) eqn:E.
    + injection H as <-. apply starts_with_app in E as [t E]. exists [], t. split; [exact E|].
      split; [reflexivity|]. intros; lia.
    + destruct (find_sub s nd) as [j|]; [|discriminate]. injection H as <-.
      destruct (IH j eq_refl) as (a & b & -> & L & Min). exists (c :: a), b. split; [reflexivity|].
      split; [cbn; lia|]. intros [|x a'] b' E'.
      * exfalso. cbn in E'. assert (X : starts_with (c :: a ++ nd ++ b) nd = true); [|congruence].
        apply starts_with_app. exists b'. exact E'.
      * cbn in E'. injection E' as <- E'. apply Min in E'. cbn. lia.
Qed.

Lemma find_sub_None nd : forall s, find_sub s nd = None -> ~ contains s nd.
Proof.
  induction s as [|c s IH]; intros H (a & b & E); cbn [find_sub] in H.
  - destruct (starts_with [] nd) eqn:X; [discriminate|]. destruct a; [|discriminate]. cbn in E.
    assert (starts_with [] nd = true) by (apply starts_with_app; eauto). congruence.
  - destruct (starts_with (c :: s) nd) eqn:X; [discriminate|].
    destruct (find_sub s nd) as [j|] eqn:F; [discriminate|]. destruct a as [|x a].
    + cbn in E. assert (starts_with (c :: s) nd = true) by (apply starts_with_app; eauto). congruence.
    + cbn in E. injection E as <- E. apply IH; [reflexivity|]. exists a, b. exact E.
Qed.

(** ** Line comments *)
Lemma terminator_iff s : starts_with_line_terminator s = true <-> exists l t, In l line_terminators /\ s = l ++ t.
Proof.
  unfold starts_with_line_terminator. rewrite !orb_true_iff, !starts_with_app. split.
  - intros [[[H|H]|[t ->]]|[t ->]].
    + destruct s as [|c s]; [discriminate|]. apply N.eqb_eq in H. subst. exists [10%N], s. cbn; auto.
    + destruct s as [|c s]; [discriminate|]. apply N.eqb_eq in H. subst. exists [13%N], s. cbn; auto.
    + eexists _, t. split; [|reflexivity]. cbn; auto.
    + eexists _, t. split; [|reflexivity]. cbn; auto.
  - intros (l & t & Hl & ->). destruct Hl as [<-|[<-|[<-|[<-|[]]]]]; cbn [app starts_with_ch].
    + left; left; left. reflexivity.
    + left; left; right. reflexivity.
    + left; right. exists t. reflexivity.
    + right. exists t. reflexivity.
Qed.

Lemma before_spec s : exists body r, s = body ++ r /\ length body = before_line_terminator s
  /\ (forall l, In l line_terminators -> ~ contains body l)
  /\ (r = [] \/ starts_with_line_terminator r = true).
Proof.
  induction s as [|c s (body & r & E & L & H & Hr)].
  - exists [], []. repeat split; auto. intros l Hl (a & b & E). destruct a; [|discriminate].
    destruct Hl as [<-|[<-|[<-|[<-|[]]]]]; discriminate E.
  - cbn [before_line_terminator]. destruct (starts_with_line_terminator (c :: s)) eqn:T.
    + exists [], (c :: s). repeat split; auto. intros l Hl (a & b & E'). destruct a; [|discriminate].
      destruct Hl as [<-|[<-|[<-|[<-|[]]]]]; discriminate E'.
    + exists (c :: body), r. subst s. split; [reflexivity|]. split; [cbn; lia|]. split; [|exact Hr].
      intros l Hl (a & b & E'). destruct a as [|x a]; cbn in E'.
      * assert (X : starts_with_line_terminator (c :: body ++ r) = true); [|congruence].
        apply terminator_iff. exists l, (b ++ r). split; [exact Hl|].
        change (c :: body ++ r) with ((c :: body) ++ r). rewrite E', app_assoc. reflexivity.
      * injection E' as <- E'. apply (H l Hl). exists a, b. exact E'.
Qed.

Lemma match_line_comment_spec s : match_line_comment s <> 0 ->
  exists t r, s = t ++ r /\ length t = match_line_comment s /\ line_comment t
    /\ (r = [] \/ starts_with_line_terminator r = true).
Proof.
  unfold match_line_comment. destruct (starts_with s (bs "//")) eqn:E; cbn [negb]; [|congruence].
  intros _. apply starts_with_app in E as [s' ->].
  change (skipn 2 (bs "//" ++ s')) with s'.
  destruct (before_spec s') as (body & r & -> & L & H & Hr).
  exists (bs "//" ++ body), r. rewrite <- app_assoc. split; [reflexivity|]. split.
  - rewrite app_length, L. reflexivity.
  - split; [|exact Hr]. exists body. auto.
Qed.

Lemma before_exact body r : (forall l, In l line_terminators -> ~ contains body l) ->
  (r = [] \/ exists c w, r = c :: w /\ In c [10; 13]%N) ->
  before_line_terminator (body ++ r) = length body.
Proof.
  intros H Hr. induction body as [|c body IH].
  - cbn [app length]. destruct Hr as [->|(c & w & -> & Hc)]; [reflexivity|].
    cbn [before_line_terminator]. replace (starts_with_line_terminator (c :: w)) with true; [reflexivity|].
    symmetry. apply terminator_iff. exists [c], w. split; [|reflexivity].
    destruct Hc as [<-|[<-|[]]]; cbn; auto.
  - cbn [app before_line_terminator length].
    replace (starts_with_line_terminator (c :: body ++ r)) with false.
    + f_equal. apply IH. intros l Hl (a & b & E). apply (H l Hl). exists (c :: a), b. cbn. now rewrite E.
    + symmetry. apply not_true_is_false. intros T. apply terminator_iff in T as (l & t & Hl & E).
      apply (H l Hl).
      destruct Hl as [<-|[<-|[<-|[<-|[]]]]]; cbn in E.
      * injection E as -> E. exists [], body. reflexivity.
      * injection E as -> E. exists [], body. reflexivity.
      * injection E as -> E. destruct body as [|x body].
        { cbn in E. destruct Hr as [->|(c & w & -> & Hc)]; [discriminate|]. injection E as -> _.
          destruct Hc as [X|[X|[]]]; discriminate X. }
        cbn in E. injection E as -> E. destruct body as [|y body].
        { cbn in E. destruct Hr as [->|(c & w & -> & Hc)]; [discriminate|]. injection E as -> _.
          destruct Hc as [X|[X|[]]]; discriminate X. }
        cbn in E. injection E as -> E. exists [], body. reflexivity.
      * injection E as -> E. destruct body as [|x body].
        { cbn in E. destruct Hr as [->|(c & w & -> & Hc)]; [discriminate|]. injection E as -> _.
          destruct Hc as [X|[X|[]]]; discriminate X. }
        cbn in E. injection E as -> E. destruct body as [|y body].
        { cbn in E. destruct Hr as [->|(c & w & -> & Hc)]; [discriminate|]. injection E as -> _.
          destruct Hc as [X|[X|[]]]; discriminate X. }
        cbn in E. injection E as -> E. exists [], body. reflexivity.
Qed.

Lemma match_line_comment_complete t r : line_comment t ->
  (r = [] \/ exists c w, r = c :: w /\ In c [10; 13]%N) -> match_line_comment (t ++ r) = length t.
Proof.
  intros (body & -> & H) Hr. unfold match_line_comment. rewrite <- app_assoc.
  assert (E : starts_with (bs "//" ++ body ++ r) (bs "//") = true) by (apply starts_with_app; eauto).
  rewrite E. cbn [negb]. change (skipn 2 (bs "//" ++ body ++ r)) with (body ++ r).
  rewrite before_exact by assumption. rewrite app_length. reflexivity.
Qed.

(** ** Block comments *)
Lemma match_block_comment_le s : en_length (match_block_comment s) <= length s.
Proof.
  unfold match_block_comment. destruct (starts_with s (bs "/*")); cbn [negb]; [|cbn; lia].
  destruct (find_str s (bs "*/") 2) as [i|] eqn:E; cbn [en_length]; [|lia].
  apply find_str_bound in E. change (length (bs "*/")) with 2 in E. lia.
Qed.

Lemma match_block_comment_spec s : en_length (match_block_comment s) <> 0 ->
  en_terminated (match_block_comment s) = true ->
  exists t r, s = t ++ r /\ length t = en_length (match_block_comment s) /\ block_comment t.
Proof.
  unfold match_block_comment. destruct (starts_with s (bs "/*")) eqn:E; cbn [negb]; [|cbn; congruence].
  apply starts_with_app in E as [s' ->]. unfold find_str.
  replace (length (bs "/*" ++ s') <? 2) with false.
  2:{ symmetry. apply Nat.ltb_ge. rewrite app_length. cbn; lia. }
  change (skipn 2 (bs "/*" ++ s')) with s'.
  destruct (find_sub s' (bs "*/")) as [i|] eqn:F; cbn [option_map en_length en_terminated]; [|discriminate].
  intros _ _. destruct (find_sub_split _ _ _ F) as (body & r & -> & L & Min).
  exists (bs "/*" ++ body ++ bs "*/"), r. rewrite <- !app_assoc. split; [reflexivity|]. split.
  - rewrite !app_length. change (length (bs "/*")) with 2. change (length (bs "*/")) with 2. lia.
  - exists body. split; [reflexivity|]. intros (a & b & Ec).
    assert (Lt : length a < length body).
    { apply (f_equal (@length N)) in Ec. rewrite !app_length in Ec. cbn in Ec. lia. }
    assert (Le : i <= length a); [|lia].
    apply (Min a (b ++ bs "/" ++ r)).
    transitivity ((body ++ bs "*") ++ bs "/" ++ r); [rewrite <- app_assoc; reflexivity|].
    rewrite Ec, <- !app_assoc. reflexivity.
Qed.

Lemma match_block_comment_complete t r : block_comment t ->
  match_block_comment (t ++ r) = mk_enclosed (length t) true.
Proof.
  intros (body & -> & H). unfold match_block_comment. rewrite <- !app_assoc.
  assert (E : starts_with (bs "/*" ++ body ++ bs "*/" ++ r) (bs "/*") = true) by (apply starts_with_app; eauto).
  rewrite E. cbn [negb]. unfold find_str.
  replace (length (bs "/*" ++ body ++ bs "*/" ++ r) <? 2) with false.
  2:{ symmetry. apply Nat.ltb_ge. rewrite app_length. cbn; lia. }
  change (skipn 2 (bs "/*" ++ body ++ bs "*/" ++ r)) with (body ++ bs "*/" ++ r).
  destruct (find_sub (body ++ bs "*/" ++ r) (bs "*/")) as [i|] eqn:F.
  - cbn [option_map]. destruct (find_sub_split _ _ _ F) as (a & b & E2 & L & Min).
    assert (L1 : i <= length body) by (apply (Min body r); reflexivity).
    destruct (Nat.eq_dec i (length body)) as [->|Hne].
    + f_equal. rewrite !app_length. change (length (bs "/*")) with 2. change (length (bs "*/")) with 2. lia.
    + exfalso. apply H.
      exists a, (skipn (length a + 2) (body ++ bs "*")).
      rewrite <- (firstn_skipn (length a + 2) (body ++ bs "*")) at 1. rewrite app_assoc. f_equal.
      assert (E3 : firstn (length a + 2) (body ++ bs "*/" ++ r) = a ++ bs "*/").
      { rewrite E2, app_assoc. replace (length a + 2) with (length (a ++ bs "*/")) by (rewrite app_length; reflexivity).
        apply firstn_app_exact. }
      rewrite <- E3. replace (body ++ bs "*/" ++ r) with ((body ++ bs "*") ++ bs "/" ++ r)
        by (rewrite <- app_assoc; reflexivity).
      rewrite (firstn_app _ (body ++ bs "*") (bs "/" ++ r)). rewrite app_length.
      replace (length a + 2 - (length body + length (bs "*"))) with 0 by (cbn; lia).
      rewrite firstn_O, app_nil_r. reflexivity.
  - exfalso. eapply find_sub_None; [exact F|]. exists body, r. reflexivity.
Qed.

(** ** Escape sequences *)
Lemma hex_value_exists c : is_ascii_hex_digit c = true -> exists v, hex_value c v.
Proof.
  intros H. apply hex_iff in H. unfold hex in H. unfold hex_value.
  destruct (N.le_gt_cases c 57); [exists (c - 48)%N; lia|].
  destruct (N.le_gt_cases c 70); [exists (c - 55)%N; lia|exists (c - 87)%N; lia].
Qed.
Lemma hex_value_facts c v : hex_value c v ->
  is_ascii_hex_digit c = true /\ is_ascii_digit_base c 16 = true /\ digit_val c = v /\ (v < 16)%N.
Proof.
  intros H. split.
  { apply hex_iff. unfold hex, hex_value in *. lia. }
  assert (V : digit_val c = v /\ (v < 16)%N).
  { unfold digit_val, between, hex_value in *.
    destruct (N.leb_spec 48 c), (N.leb_spec c 57), (N.leb_spec 97 c), (N.leb_spec c 122); cbn; lia. }
  split; [|exact V].
  unfold is_ascii_digit_base. change (16 <? 10)%Z with false. cbn iota.
  unfold is_ascii_digit, between, hex_value in *.
  rewrite !orb_true_iff, !andb_true_iff, !N.leb_le, !Z.ltb_lt. lia.
Qed.

Lemma escapable_iff c : is_json_escapable c = true <-> In c (34 :: bs "\/bfnrtu")%N.
Proof. apply mem_In. Qed.

Lemma hex4_value a b c d va vb vc vd : hex_value a va -> hex_value b vb -> hex_value c vc -> hex_value d vd ->
  from_chars_ull [a; b; c; d] 16 = Some (((va * 16 + vb) * 16 + vc) * 16 + vd)%N
  /\ (((va * 16 + vb) * 16 + vc) * 16 + vd <= 0xFFFF)%N.
Proof.
  intros Ha Hb Hc Hd. apply hex_value_facts in Ha as (_ & A & <- & A'). apply hex_value_facts in Hb as (_ & B & <- & B').
  apply hex_value_facts in Hc as (_ & C & <- & C'). apply hex_value_facts in Hd as (_ & D & <- & D').
  split; [|lia]. unfold from_chars_ull. cbv zeta. change (Z.of_N 16) with 16%Z.
  cbn [prefix_len]. rewrite A, B, C, D. cbn [Nat.eqb firstn fold_left]. rewrite N.add_0_l.
  destruct (N.ltb_spec (((digit_val a * 16 + digit_val b) * 16 + digit_val c) * 16 + digit_val d) (2 ^ 64)) as [_|X]; [reflexivity|].
  exfalso. change (2 ^ 64)%N with 18446744073709551616%N in X. lia.
Qed.

Lemma match_escape_u s parse : json_match_escape (92 :: 117 :: s)%N parse
  = json_match_unicode_escape (92 :: 117 :: s)%N parse.
Proof. reflexivity. Qed.

Lemma match_escape_spec s parse :
  (exists t r v, s = t ++ r /\ json_escape t v
     /\ json_match_escape s parse = Ok (length t, Some (if parse then v else 0%N)))
  \/ (exists n, json_match_escape s parse = Ok (n, None) /\ n <= length s).
Proof.
  destruct s as [|c0 s]; [right; eexists; split; [reflexivity|lia]|].
  destruct s as [|c1 s]; [right; eexists; split; [reflexivity|lia]|].
  destruct (N.eqb_spec c0 92) as [->|H0].
  2:{ right. exists 0. split; [|lia]. unfold json_match_escape. apply N.eqb_neq in H0.
      change (ch "\") with 92%N. rewrite H0. reflexivity. }
  destruct (is_json_escapable c1) eqn:Es.
  2:{ right. exists 0. split; [|lia]. unfold json_match_escape. rewrite Es. reflexivity. }
  apply escapable_iff in Es.
  destruct Es as [<-|[<-|[<-|[<-|[<-|[<-|[<-|[<-|[<-|[]]]]]]]]]];
    try (left; eexists [_; _], s, _; split; [reflexivity|]; split; [apply escape_simple; cbn; tauto|destruct parse; reflexivity]).
  change (Ascii.N_of_ascii (Ascii.Ascii true false true false true true true false)) with 117%N.
  rewrite match_escape_u. unfold json_match_unicode_escape.
  unfold match_common_escape_at. cbn [check length Nat.leb bind].
  change (skipn 2 (92 :: 117 :: s)%N) with s.
  cbn [match_common_escape escape_type_min_length].
  destruct (Nat.ltb_spec (length (firstn 4 s)) 4) as [Hl|Hl]; cbn [es_erroneous es_length].
  - right. eexists. split; [reflexivity|]. rewrite firstn_length. cbn [length]. lia.
  - destruct (forallb is_ascii_hex_digit (firstn 4 s)) eqn:Hh; cbn [negb].
    + left. destruct s as [|a [|b [|c [|d s]]]]; cbn in Hl; try lia. cbn [firstn] in *.
      cbn [forallb] in Hh. rewrite andb_true_r in Hh. apply andb_prop in Hh as [Ha Hh].
      apply andb_prop in Hh as [Hb Hh]. apply andb_prop in Hh as [Hc Hd].
      apply hex_value_exists in Ha as (va & Va). apply hex_value_exists in Hb as (vb & Vb).
      apply hex_value_exists in Hc as (vc & Vc). apply hex_value_exists in Hd as (vd & Vd).
      exists (bs "\u" ++ [a; b; c; d]), s. eexists. split; [reflexivity|].
      split; [constructor; eassumption|].
      destruct (hex4_value _ _ _ _ _ _ _ _ Va Vb Vc Vd) as [E _].
      destruct parse; [|reflexivity]. cbn [negb]. unfold substr. cbn [skipn firstn length Nat.eqb check bind].
      rewrite E. reflexivity.
    + right. eexists. split; [reflexivity|]. rewrite firstn_length. cbn [length] in *.
      rewrite firstn_length in Hl. lia.
Qed.

Lemma match_escape_complete t v r parse : json_escape t v ->
  json_match_escape (t ++ r) parse = Ok (length t, Some (if parse then v else 0%N)).
Proof.
  intros H. destruct H as [c v H|a b c d va vb vc vd Ha Hb Hc Hd].
  - destruct H as [H|[H|[H|[H|[H|[H|[H|[H|[]]]]]]]]]; injection H as <- <-; destruct parse; reflexivity.
  - change ((bs "\u" ++ [a; b; c; d]) ++ r) with (92 :: 117 :: a :: b :: c :: d :: r)%N.
    rewrite match_escape_u. unfold json_match_unicode_escape.
    destruct (hex4_value _ _ _ _ _ _ _ _ Ha Hb Hc Hd) as [E _].
    apply hex_value_facts in Ha as (A & _). apply hex_value_facts in Hb as (B & _).
    apply hex_value_facts in Hc as (C & _). apply hex_value_facts in Hd as (D & _).
    unfold match_common_escape_at. cbn [check length Nat.leb bind skipn match_common_escape escape_type_min_length firstn Nat.ltb forallb]. rewrite A, B, C, D. cbn [andb negb].
    cbn [Nat.ltb Nat.leb es_erroneous es_length]. destruct parse; [|reflexivity]. cbn [negb].
    unfold substr. cbn [skipn firstn length Nat.eqb check bind]. rewrite E. reflexivity.
Qed.

Lemma escape_value_bound t v : json_escape t v -> (v <= 0xFFFF)%N.
Proof.
  intros H. destruct H as [c v H|a b c d va vb vc vd Ha Hb Hc Hd].
  - destruct H as [H|[H|[H|[H|[H|[H|[H|[H|[]]]]]]]]]; injection H as <- <-; lia.
  - destruct (hex4_value _ _ _ _ _ _ _ _ Ha Hb Hc Hd) as [_ E]. exact E.
Qed.

Lemma escape_head t v : json_escape t v -> exists r, t = 92%N :: r /\ Forall (fun c => c <> 10%N) t /\ 2 <= length t.
Proof.
  intros H. destruct H as [c v H|a b c d va vb vc vd Ha Hb Hc Hd].
  - exists [c]. split; [reflexivity|]. split; [|cbn; lia].
    destruct H as [H|[H|[H|[H|[H|[H|[H|[H|[]]]]]]]]]; injection H as <- <-;
      repeat (apply Forall_cons; [discriminate|]); apply Forall_nil.
  - eexists. split; [reflexivity|]. split; [|cbn; lia].
    unfold hex_value in *. apply Forall_app. split; [|repeat constructor; lia].
    repeat (apply Forall_cons; [discriminate|]); apply Forall_nil.
Qed.

(** ** Whitespace *)
Lemma blank_iff c : is_json_whitespace c = true <-> lenient_blank c.
Proof.
  unfold is_json_whitespace. rewrite mem_In. unfold lenient_blank, rfc_blank. cbn. intuition.
Qed.
Lemma match_whitespace_spec s : exists w r, s = w ++ r /\ length w = json_match_whitespace s
  /\ Forall lenient_blank w /\ unless_head lenient_blank r.
Proof.
  unfold json_match_whitespace. rewrite length_if_eq.
  induction s as [|c s (w & r & E & L & H1 & H2)].
  - exists [], []. repeat split. constructor.
  - cbn [prefix_len]. destruct (is_json_whitespace c) eqn:B.
    + exists (c :: w), r. subst. cbn. repeat split; auto. apply Forall_cons; [apply blank_iff; exact B|exact H1].
    + exists [], (c :: s). repeat split; [constructor|]. cbn. rewrite <- blank_iff. congruence.
Qed.
Lemma match_whitespace_exact w r : Forall lenient_blank w -> unless_head lenient_blank r ->
  json_match_whitespace (w ++ r) = length w.
Proof.
  intros H1 H2. unfold json_match_whitespace. rewrite length_if_eq, prefix_len_app_all.
  - destruct r as [|c r]; cbn [prefix_len]; [lia|]. destruct (is_json_whitespace c) eqn:B; [|lia].
    apply blank_iff in B. contradiction.
  - eapply Forall_impl; [|exact H1]. intros c. apply blank_iff.
Qed.
