(** * The exact tokens of Markdown documents *)
From Coq Require Import List NArith ZArith Bool Arith Lia.
From Verif Require Import M_Base L_Base S_Tokens M_Utf8 L_Utf8 L_Any P_Utf8 M_Emit S_Ops L_Emit M_Types M_Chars S_Chars P_Chars M_Parse S_Parse L_Parse P_Parse
  M_Api M_Highlighter S_Highlight L_Highlighter L_Auto M_LangHtml M_LangMarkdown S_LangHtml S_Lexemes L_Lexemes L_Number L_Escapes L_Comments L_Does S_LangMarkdown L_MarkdownMatch.
From Verif Require P_LangNasmLexemes.
Import ListNotations.

Lemma does_region {B} (k : str -> MD B) n r s p rest y s' : n = length (text p ++ r) -> does (k (text p ++ r)) s p (r ++ rest) y s' -> does (bindM (md_region n) k) s p (r ++ rest) y s'.
Proof.
  intros -> H i o. apply wp_bind. unfold md_region. apply wp_bind, wp_get_rem. cbn [rem]. rewrite app_assoc. apply wp_bind, wp_check; [apply Nat.leb_le; rewrite !app_length; lia|]. apply wp_ret.
  rewrite firstn_app_exact, <- app_assoc. apply H.
Qed.
Lemma does_region_all {B} (k : str -> MD B) n s p rest y s' : n = length (text p) -> does (k (text p)) s p rest y s' -> does (bindM (md_region n) k) s p rest y s'.
Proof. intros -> H. change rest with ([] ++ rest). apply does_region; [rewrite app_nil_r; reflexivity|]. rewrite app_nil_r. exact H. Qed.

Lemma reference_head w : md_reference w -> exists v, w = ch "&" :: v.
Proof. intros [v|v|x v]; eexists; reflexivity. Qed.

(** ** Constructs without nested constructs *)
Section atoms.
Variables (s : md_state) (r rest : str).
Implicit Type n : nat.
Local Ltac one := eapply does_cons; [apply does_emit; [|try discriminate]|].

Lemma code_does n k b : 0 < k -> span_text k b -> not_before (is_char tick) r -> n = length (repeat tick k ++ b ++ repeat tick k ++ r) ->
  does (md_expect_code_span n) s [(repeat tick k, Some hl_string_delim); (b, Some hl_text_code); (repeat tick k, Some hl_string_delim)] (r ++ rest) true s.
Proof.
  intros K H R E. unfold md_expect_code_span. rewrite <- (app_nil_r b) in E. apply does_region; [rewrite !text_cons; cbn [text map concat]; rewrite E, !app_nil_r, <- !app_assoc; reflexivity|].
  rewrite !text_cons. cbn [text map concat]. rewrite app_nil_r, <- !app_assoc. rewrite code_span_exact by assumption.
  one; [rewrite repeat_length; reflexivity|apply repeat_ne; exact K|]. pose proof (span_ne _ _ H) as Hb. destruct (Nat.eqb_spec (length b) 0) as [Z|_]; [destruct b; [congruence|discriminate]|]. cbn [negb when].
  one; [reflexivity|exact Hb|]. one; [rewrite repeat_length; reflexivity|apply repeat_ne; exact K|]. apply does_ret.
Qed.
Lemma code_no n t : match_code_span (t ++ r) = None -> n = length (t ++ r) -> forall o, does (md_expect_code_span n) s [] ((t ++ r) ++ o) false s.
Proof. intros H E o. unfold md_expect_code_span. apply does_region; [exact E|]. cbn [text map concat app]. rewrite H. apply does_ret. Qed.
Lemma autolink_does n u : autolink u -> n = length (bs "<" ++ u ++ bs ">" ++ r) ->
  does (md_expect_autolink n) s [formatting (bs "<"); (u, Some hl_text_link); formatting (bs ">")] (r ++ rest) true s.
Proof.
  intros H E. unfold md_expect_autolink, formatting. apply does_region; [rewrite !text_cons; cbn [text map concat]; rewrite E, !app_nil_r, <- !app_assoc; reflexivity|].
  rewrite !text_cons. cbn [text map concat]. rewrite app_nil_r, <- !app_assoc. cbv zeta. rewrite autolink_exact by exact H.
  destruct u as [|c u]; [destruct H as (_ & (c & [] & _) & _)|]. cbn [length Nat.eqb]. one; [reflexivity|]. one; [reflexivity|]. one; [reflexivity|]. apply does_ret.
Qed.
Lemma comment_does n t : comment_text t -> n = length (bs "<!--" ++ t ++ bs "-->" ++ r) ->
  does (md_expect_html_comment n) s ((bs "<!--", Some hl_comment_delim) :: opt_piece t hl_comment ++ [(bs "-->", Some hl_comment_delim)]) (r ++ rest) true s.
Proof.
  intros H E. unfold md_expect_html_comment.
  assert (T : text ((bs "<!--", Some hl_comment_delim) :: opt_piece t hl_comment ++ [(bs "-->", Some hl_comment_delim)]) = bs "<!--" ++ t ++ bs "-->") by (rewrite text_cons, text_app, opt_piece_text; reflexivity).
  apply does_region; [rewrite T, <- !app_assoc; exact E|]. rewrite T, <- !app_assoc. eapply does_lift; [apply comment_exact; exact H|]. cbn [en_length en_terminated].
  replace (length t + 7 =? 0) with false by (symmetry; apply Nat.eqb_neq; lia). one; [reflexivity|]. replace (length t + 7 - 4) with (length t + 3) by lia.
  eapply does_bind; [|one; [reflexivity|apply does_ret]]. rewrite Nat.add_sub. destruct t as [|c t]; [apply does_ret|]. replace (3 <? length (c :: t) + 3) with true by (symmetry; apply Nat.ltb_lt; cbn; lia). apply does_emit; [reflexivity|discriminate].
Qed.
Lemma comment_no n t : (~ exists v, t = bs "!--" ++ v) -> n = length (ch "<" :: t) -> forall o, does (md_expect_html_comment n) s [] ((ch "<" :: t) ++ o) false s.
Proof.
  intros H E o. unfold md_expect_html_comment. apply does_region; [exact E|]. cbn [text map concat]. eapply does_lift; [apply comment_none; exact H|]. cbn [en_length Nat.eqb]. apply does_ret.
Qed.
Lemma autolink_no n t : match_autolink t = 0 -> n = length t -> forall o, does (md_expect_autolink n) s [] (t ++ o) false s.
Proof. intros H E o. unfold md_expect_autolink. apply does_region; [exact E|]. cbn [text map concat app]. cbv zeta. rewrite H. apply does_ret. Qed.
Lemma reference_does n w : md_reference w -> n = length (w ++ r) -> does (md_expect_reference n) s [(w, Some hl_string_escape)] (r ++ rest) true s.
Proof.
  intros H E. unfold md_expect_reference. apply does_region; [rewrite text_one; exact E|]. rewrite text_one. cbv zeta. rewrite reference_exact by exact H.
  assert (N : w <> []) by (destruct H; discriminate). destruct w as [|c w]; [congruence|]. cbn [length Nat.eqb]. one; [reflexivity|]. apply does_ret.
Qed.
Lemma reference_no n t : md_match_character_reference t = 0 -> n = length t -> forall o, does (md_expect_reference n) s [] (t ++ o) false s.
Proof. intros H E o. unfold md_expect_reference. apply does_region; [exact E|]. cbn [text map concat app]. cbv zeta. rewrite H. apply does_ret. Qed.

(** The part in common of images and links *)
Lemma destination_does n pre inner (m : nat -> MD unit) u t : 0 < length pre -> balanced (text inner) -> destination u -> link_title t ->
  (forall o, does (m (length (text inner))) s inner o tt s) ->
  n = length (pre ++ text inner ++ bs "](" ++ u ++ t ++ bs ")" ++ r) ->
  does (md_expect_destination n (length pre) m) s (formatting pre :: inner ++ formatting (bs "](") :: opt_piece u hl_text_link ++ [(t, None); formatting (bs ")")]) (r ++ rest) true s.
Proof.
  intros P B D T M E. unfold md_expect_destination. destruct (Nat.ltb_spec n (length pre + 3)) as [L|_]; [rewrite E, !app_length in L; cbn in L; lia|]. set (b := text inner) in *.
  assert (X : text (formatting pre :: inner ++ formatting (bs "](") :: opt_piece u hl_text_link ++ [(t, None); formatting (bs ")")]) = pre ++ b ++ bs "](" ++ u ++ t ++ bs ")").
  { unfold formatting. rewrite text_cons, text_app, text_cons, text_app, opt_piece_text, text_cons, text_one. reflexivity. }
  apply does_region; [rewrite X, <- !app_assoc; exact E|]. rewrite X, <- !app_assoc. rewrite skipn_app_exact.
  change (bs "](" ++ u ++ t ++ bs ")" ++ r) with (ch "]" :: ch "(" :: u ++ t ++ ch ")" :: r). rewrite bracket_exact by exact B. cbv zeta.
  assert (Ln : n = length pre + (length b + 1) + 1 + length u + length t + 1 + length r) by (rewrite E, !app_length; cbn; lia).
  destruct (Nat.leb_spec n (length pre + (length b + 1))) as [L|_]; [lia|].
  assert (S1 : skipn (length pre + (length b + 1)) (pre ++ b ++ ch "]" :: ch "(" :: u ++ t ++ ch ")" :: r) = ch "(" :: u ++ t ++ ch ")" :: r).
  { rewrite <- skipn_skipn, skipn_app_exact, <- skipn_skipn, skipn_app_exact. reflexivity. }
  rewrite S1. change (starts_with_ch (ch "(" :: u ++ t ++ ch ")" :: r) (ch "(")) with true. cbn [negb].
  assert (S2 : skipn (length pre + (length b + 1) + 1) (pre ++ b ++ ch "]" :: ch "(" :: u ++ t ++ ch ")" :: r) = u ++ t ++ ch ")" :: r) by (rewrite <- skipn_skipn, S1; reflexivity).
  rewrite S2. destruct (url_exact u t r D T) as [U1 U2]. rewrite U1. rewrite <- (skipn_skipn (length u)), S2, skipn_app_exact, U2.
  destruct (Nat.leb_spec n (length pre + (length b + 1) + 1 + length u + length t)) as [L|_]; [lia|].
  one; [reflexivity|destruct pre; [cbn in P; lia|discriminate]|].
  replace (length pre + (length b + 1) - length pre - 1) with (length b) by lia.
  eapply does_bind; [apply M|]. one; [reflexivity|]. eapply does_bind; [apply does_opt; reflexivity|].
  eapply does_cons; [apply does_advance; reflexivity|]. one; [reflexivity|]. apply does_ret.
Qed.
Lemma destination_no n pre (m : nat -> MD unit) t : n = length (pre ++ t) ->
  (~ In (ch "]") t) \/ (exists b v, t = b ++ ch "]" :: v /\ balanced b /\ (not_before (is_char (ch "(")) v \/ exists v', v = ch "(" :: v' /\ ~ In (ch ")") v')) ->
  forall o, does (md_expect_destination n (length pre) m) s [] ((pre ++ t) ++ o) false s.
Proof.
  intros E H o. unfold md_expect_destination. destruct (_ <? _); [apply does_ret|]. apply does_region; [exact E|]. cbn [text map concat]. change ([] ++ pre ++ t) with (pre ++ t). rewrite skipn_app_exact.
  destruct H as [H|(b & v & -> & B & H)]; [rewrite (bracket_none (length t)) by (assumption || lia); apply does_ret|]. rewrite bracket_exact by exact B. cbv zeta. destruct (_ <=? _); [apply does_ret|].
  assert (S1 : skipn (length pre + (length b + 1)) (pre ++ b ++ ch "]" :: v) = v).
  { rewrite <- skipn_skipn, skipn_app_exact, <- skipn_skipn, skipn_app_exact. reflexivity. }
  rewrite S1. destruct H as [H|(v' & -> & H)]; [rewrite starts_no by exact H; apply does_ret|]. change (starts_with_ch (ch "(" :: v') (ch "(")) with true. cbn [negb].
  assert (S2 : skipn (length pre + (length b + 1) + 1) (pre ++ b ++ ch "]" :: ch "(" :: v') = v') by (rewrite <- skipn_skipn, S1; reflexivity).
  rewrite S2. rewrite <- (skipn_skipn (md_url_length v')), S2. rewrite link_close_none.
  2:{ intros X. apply H. rewrite <- (firstn_skipn (md_url_length v') v'). apply in_or_app. right. exact X. }
  rewrite skipn_length. replace (n <=? _) with true; [apply does_ret|]. symmetry. apply Nat.leb_le. rewrite E, !app_length. cbn [length]. lia.
Qed.
End atoms.

(** ** Emphasis *)
Lemma run3 x k r : k <= 3 -> (k = 3 \/ not_before (is_char x) r) -> prefix_len (N.eqb x) (firstn 3 (repeat x k ++ r)) = k.
Proof.
  intros K H. destruct H as [->|H].
  - cbn [repeat app firstn prefix_len]. rewrite N.eqb_refl. reflexivity.
  - assert (E : firstn 3 (repeat x k ++ r) = repeat x k ++ firstn (3 - k) r) by (rewrite firstn_app, repeat_length; f_equal; apply firstn_all2; rewrite repeat_length; lia).
    rewrite E. apply run_len. destruct r as [|y r]; [destruct (3 - k); apply not_before_nil|]. destruct (3 - k); [apply not_before_nil|]. apply not_before_cons. exact (H y eq_refl).
Qed.
Section inline.
Variable inline : nat -> N -> option N -> MD unit.
Lemma emphasis_no n prev x r s : In x (bs "*_") -> n = length (x :: r) -> lone prev r x -> forall o, does (md_expect_emphasis inline n prev) s [] ((x :: r) ++ o) false s.
Proof.
  intros Hx E H o. unfold md_expect_emphasis. apply does_region; [exact E|]. cbn [text map concat]. change ([] ++ x :: r) with (x :: r).
  eapply does_at; [reflexivity|]. cbv zeta.
  assert (Tx : x <> tick /\ ~ md_white x). { cbn in Hx. unfold md_white, blank_char, tick. destruct Hx as [<-|[<-|[]]]; cbn; (split; [discriminate|intuition discriminate]). }
  assert (K : forall k t, k <= 2 -> r = repeat x k ++ t -> not_before (is_char x) t -> (not_before (fun c => ~ md_white c) t \/ never_closes x (S k) x t) ->
    does (if prefix_len (N.eqb x) (firstn 3 (x :: r)) =? 0 then ret false else
      match skipn (prefix_len (N.eqb x) (firstn 3 (x :: r))) (x :: r) with
      | [] => ret false
      | x0 :: _ => if ((x0 =? x)%N || is_md_whitespace x0) then ret false else if (x =? ch "_")%N && is_ascii_alphanumeric prev then ret false else
          (let! e := lift (md_closer (length (x :: r)) x (prefix_len (N.eqb x) (firstn 3 (x :: r))) x (skipn (prefix_len (N.eqb x) (firstn 3 (x :: r))) (x :: r)) (prefix_len (N.eqb x) (firstn 3 (x :: r)))) in
           match e with None => ret false | Some close_start =>
             emit_and_advance (prefix_len (N.eqb x) (firstn 3 (x :: r))) hl_symbol_formatting ;; inline (close_start - prefix_len (N.eqb x) (firstn 3 (x :: r))) x None ;;
             emit_and_advance (prefix_len (N.eqb x) (firstn 3 (x :: r))) hl_symbol_formatting ;; ret true end)
      end) s [] ((x :: r) ++ o) false s).
  { intros k t Hk -> Ht C. change (x :: repeat x k ++ t) with (repeat x (S k) ++ t). rewrite run3 by (lia || (right; exact Ht)). cbn [Nat.eqb]. rewrite skipn_repeat.
    destruct t as [|y t]; [apply does_ret|]. destruct (_ || _) eqn:W; [apply does_ret|]. destruct (_ && _); [apply does_ret|]. apply orb_false_iff in W as [_ W]. apply white_no in W.
    destruct C as [C|C]; [elim (C y eq_refl W)|]. eapply does_lift; [apply never_closer; [apply Tx|lia|exact C|]|apply does_ret]. rewrite app_length. lia. }
  inversion H as [ | | | | | | | |x' k t _ Hk Hr Ht|Hp|x' _ [t Hr]|x' k t _ Hk Hr Ht Hn]; subst x; try (exfalso; cbn in Hx; cbn in *; intuition discriminate).
  - apply (K k t Hk Hr); [|left; exact Ht]. intros c Hc [= ->]. elim (Ht x' Hc). apply Tx.
  - destruct (_ =? 0); [apply does_ret|]. destruct (skipn _ _) as [|y t]; [apply does_ret|]. destruct (_ || _); [apply does_ret|]. apply alnum_iff in Hp. rewrite Hp. cbn [N.eqb ch andb]. change (ch "_" =? ch "_")%N with true. cbn [andb]. apply does_ret.
  - rewrite Hr. change (x' :: x' :: x' :: x' :: t) with (repeat x' 3 ++ x' :: t). rewrite run3 by (lia || (left; reflexivity)). cbn [Nat.eqb]. rewrite skipn_repeat, N.eqb_refl. apply does_ret.
  - apply (K k t Hk Hr); [exact Ht|right; exact Hn].
Qed.
Lemma emphasis_does n prev c k inner r rest s : In c (bs "*_") -> 1 <= k <= 3 -> (c = ch "_" -> ~ alnum prev) -> text inner <> [] -> not_before (fun x => x = c \/ md_white x) (text inner) ->
  emphasis_text c k c (text inner) -> not_before (is_char c) r -> (c = ch "_" -> not_before alnum r) ->
  (forall o, does (inline (length (text inner)) c None) s inner o tt s) -> n = length (repeat c k ++ text inner ++ repeat c k ++ r) ->
  does (md_expect_emphasis inline n prev) s (formatting (repeat c k) :: inner ++ [formatting (repeat c k)]) (r ++ rest) true s.
Proof.
  intros Hc Hk Hp Hn Hf He R1 R2 Hi E. unfold md_expect_emphasis.
  assert (X : text (formatting (repeat c k) :: inner ++ [formatting (repeat c k)]) = repeat c k ++ text inner ++ repeat c k) by (unfold formatting; rewrite text_cons, text_app, text_one; reflexivity).
  assert (Tc : c <> tick). { cbn in Hc. destruct Hc as [<-|[<-|[]]]; discriminate. }
  apply does_region; [rewrite X, <- !app_assoc; exact E|]. rewrite X, <- !app_assoc. eapply does_at with (c := c); [destruct k; [lia|reflexivity]|]. cbv zeta.
  assert (Fc : not_before (is_char c) (text inner ++ repeat c k ++ r)). { destruct (text inner) as [|x t]; [congruence|]. apply not_before_cons. intros Y. apply (Hf x eq_refl). left. exact Y. }
  rewrite run3 by (lia || (right; exact Fc)). destruct (Nat.eqb_spec k 0) as [Z|_]; [lia|]. rewrite skipn_repeat.
  destruct (text inner) as [|x t] eqn:Et; [congruence|]. cbn [app]. destruct ((x =? c)%N || is_md_whitespace x) eqn:W.
  { exfalso. apply (Hf x eq_refl). apply orb_true_iff in W as [W|W]; [left; apply N.eqb_eq; exact W|right; apply white_iff; exact W]. }
  destruct ((c =? ch "_")%N && is_ascii_alphanumeric prev) eqn:A. { exfalso. apply andb_true_iff in A as [A1 A2]. apply N.eqb_eq in A1. apply alnum_iff in A2. exact (Hp A1 A2). }
  change (x :: t ++ repeat c k ++ r) with ((x :: t) ++ repeat c k ++ r).
  eapply does_lift; [apply emphasis_closer; [exact Tc|lia|exact R1|exact R2|exact He|]|]. { rewrite !app_length, repeat_length. lia. }
  eapply does_cons; [apply does_emit; [rewrite repeat_length; reflexivity|apply repeat_ne; lia]|].
  replace (k + length (x :: t) - k) with (length (x :: t)) by lia.
  eapply does_bind; [apply Hi|]. eapply does_cons; [apply does_emit; [rewrite repeat_length; reflexivity|apply repeat_ne; lia]|]. apply does_ret.
Qed.

(** ** The steps of the loop *)
Local Ltac ifs := repeat match goal with |- context [if (?a =? ?b)%N then _ else _] => let v := eval vm_compute in (a =? b)%N in change (a =? b)%N with v; cbv iota end.
Local Ltac start c E := eapply does_region; [rewrite ?text_one; E|]; eapply does_at with (c := c); [reflexivity|]; cbv zeta.
Lemma skip_does x (s : md_state) r rest : does (advance 1 ;; ret x) s [([x], None)] (r ++ rest) x s.
Proof. eapply does_cons; [apply does_advance; reflexivity|apply does_ret]. Qed.
Lemma either_no (m : MD bool) (x last : N) s r rest : does m s [] ((x :: r) ++ rest) false s -> does (let! b := m in if b then ret last else advance 1 ;; ret x) s [([x], None)] (r ++ rest) x s.
Proof. intros H. eapply does_nil; [exact H|]. cbv iota. apply skip_does. Qed.
Lemma either_yes (m : MD bool) (x last : N) s p rest : does m s p rest true s -> does (let! b := m in if b then ret last else advance 1 ;; ret x) s p rest last s.
Proof. intros H. eapply does_last; [exact H|]. apply does_ret. Qed.

Lemma step_lone h prev x r rest s : lone prev r x -> does (md_inline_step inline (length (x :: r)) h prev) s [([x], None)] (r ++ rest) x s.
Proof.
  intros H. unfold md_inline_step. apply does_region; [reflexivity|]. change (text [([x], None)] ++ r) with (x :: r). eapply does_at; [reflexivity|]. cbv zeta.
  assert (Em : In x (bs "*_") -> does (if (x =? ch "*")%N || (x =? ch "_")%N then let! b := md_expect_emphasis inline (length (x :: r)) prev in if b then ret x else advance 1 ;; ret x else fail FFuel) s [([x], None)] (r ++ rest) x s).
  { intros Hx. replace ((x =? ch "*")%N || (x =? ch "_")%N) with true by (cbn in Hx; destruct Hx as [<-|[<-|[]]]; reflexivity). apply either_no. apply emphasis_no; auto. }
  inversion H as [Hb|Hb|w t Hr Hw Ht|j t Hr Ht Hn|u t Hr Hu Ht Hv Ha|Hb|b t Hr B Ht|b t Hr B Ht|x' k t Hx Hk Hr Ht|Hp|x' Hx [t Hr]|x' k t Hx Hk Hr Ht Hn]; subst x; ifs.
  - change (skipn 1 (ch "!" :: r)) with r. rewrite starts_no by exact Hb. apply skip_does.
  - destruct r as [|d r]; [apply skip_does|]. replace (is_md_ascii_punctuation d) with false by (symmetry; apply punctuation_no; exact (Hb d eq_refl)). apply skip_does.
  - apply either_no. apply reference_no; [|reflexivity]. rewrite Hr. apply reference_none; assumption.
  - apply either_no. apply (code_no _ r _ [tick]); [|reflexivity]. rewrite Hr. apply code_span_none; assumption.
  - apply either_no. eapply does_nil; [apply comment_no; [exact Hv|reflexivity]|]. cbv iota. apply autolink_no; [|reflexivity]. rewrite Hr. apply autolink_none; assumption.
  - apply either_no. apply (destination_no _ _ (bs "[")); [reflexivity|left; exact Hb].
  - apply either_no. apply (destination_no _ _ (bs "[")); [reflexivity|]. right. eauto 8.
  - apply either_no. apply (destination_no _ _ (bs "[")); [reflexivity|]. right. exists b, (ch "(" :: t). rewrite Hr. split; [reflexivity|]. split; [exact B|]. right. eauto.
  - cbn in Hx. destruct Hx as [<-|[<-|[]]]; ifs; apply (Em ltac:(cbn; tauto)).
  - apply (Em ltac:(cbn; tauto)).
  - cbn in Hx. destruct Hx as [<-|[<-|[]]]; ifs; apply (Em ltac:(cbn; tauto)).
  - cbn in Hx. destruct Hx as [<-|[<-|[]]]; ifs; apply (Em ltac:(cbn; tauto)).
Qed.
Lemma step_atom h prev p last r rest s : md_atom prev p last r -> does (md_inline_step inline (length (text p ++ r)) h prev) s p (r ++ rest) last s.
Proof.
  intros [x t H|c t H|w t H|n b t Z H R|u t H|t r' H|alt u t r' B D T].
  - change (text [([x], None)] ++ t) with (x :: t). apply step_lone. exact H.
  - unfold md_inline_step. apply does_region; [reflexivity|]. change (text [([ch "\"; c], Some hl_string_escape)] ++ t) with (ch "\" :: c :: t). eapply does_at; [reflexivity|]. cbv zeta. ifs.
    apply punctuation_iff in H. rewrite H. eapply does_cons; [apply does_emit; [reflexivity|discriminate]|]. apply does_ret.
  - unfold md_inline_step. apply does_region; [reflexivity|]. rewrite text_one. destruct (reference_head w H) as [v ->]. eapply does_at with (c := ch "&"); [reflexivity|]. cbv zeta. ifs.
    apply either_yes. apply reference_does; [exact H|reflexivity].
  - unfold md_inline_step. apply does_region; [reflexivity|]. eapply does_at with (c := tick); [destruct n; [lia|reflexivity]|]. cbv zeta. ifs.
    apply either_yes. apply code_does; auto. rewrite !text_cons. cbn [text map concat]. rewrite app_nil_r, <- !app_assoc. reflexivity.
  - unfold md_inline_step. apply does_region; [reflexivity|]. eapply does_at with (c := ch "<"); [reflexivity|]. cbv zeta. ifs.
    assert (E : text [formatting (bs "<"); (u, Some hl_text_link); formatting (bs ">")] ++ t = bs "<" ++ u ++ bs ">" ++ t) by (unfold formatting; rewrite !text_cons; cbn [text map concat]; rewrite app_nil_r, <- !app_assoc; reflexivity).
    apply either_yes. eapply does_nil.
    + rewrite app_assoc, E. apply (comment_no s _ (u ++ bs ">" ++ t)); [|reflexivity]. destruct H as (F & _ & N). intros (v & Ev). apply N.
      destruct u as [|a [|a1 [|a2 u]]]; try discriminate Ev. injection Ev as -> -> -> Ev. exists u. reflexivity.
    + cbv iota. apply autolink_does; [exact H|]. rewrite E. reflexivity.
  - assert (E : text ((bs "<!--", Some hl_comment_delim) :: opt_piece t hl_comment ++ [(bs "-->", Some hl_comment_delim)]) ++ r' = bs "<!--" ++ t ++ bs "-->" ++ r') by (rewrite text_cons, text_app, opt_piece_text, text_one, <- !app_assoc; reflexivity).
    unfold md_inline_step. apply does_region; [reflexivity|]. rewrite E. eapply does_at with (c := ch "<"); [reflexivity|]. cbv zeta. ifs.
    apply either_yes. eapply does_last; [apply comment_does; [exact H|reflexivity]|]. apply does_ret.
  - assert (E : text (formatting (bs "![") :: (alt, None) :: formatting (bs "](") :: opt_piece u hl_text_link ++ [(t, None); formatting (bs ")")]) ++ r' = bs "![" ++ alt ++ bs "](" ++ u ++ t ++ bs ")" ++ r').
    { unfold formatting. rewrite !text_cons, text_app, opt_piece_text, text_cons, text_one, <- !app_assoc. reflexivity. }
    unfold md_inline_step. apply does_region; [reflexivity|]. rewrite E. eapply does_at with (c := ch "!"); [reflexivity|]. cbv zeta. ifs.
    change (starts_with_ch (skipn 1 (bs "![" ++ alt ++ bs "](" ++ u ++ t ++ bs ")" ++ r')) (ch "[")) with true. cbv iota. apply either_yes.
    apply (destination_does s r' rest _ (bs "![") [(alt, None)] advance u t); [cbn; lia|rewrite text_one; exact B|exact D|exact T| |rewrite text_one; reflexivity].
    intros o. rewrite text_one. apply does_advance. reflexivity.
Qed.
Lemma step_plain h prev w c r rest s : Forall (fun c => ~ md_special c) (w ++ [c]) -> not_before (fun c => ~ md_special c) r ->
  does (md_inline_step inline (length ((w ++ [c]) ++ r)) h prev) s [(w ++ [c], h)] (r ++ rest) c s.
Proof.
  intros F R. unfold md_inline_step. apply does_region; [rewrite text_one; reflexivity|]. rewrite text_one. set (v := w ++ [c]) in *.
  assert (L : length v = length w + 1) by (unfold v; rewrite app_length; reflexivity).
  assert (Lc : forall t, nth_error (v ++ t) (length v - 1) = Some c). { intros t. rewrite L, Nat.add_sub. unfold v. rewrite <- app_assoc, nth_error_app2, Nat.sub_diag by lia. reflexivity. }
  destruct v as [|x v]; [discriminate L || (cbn in L; lia)|]. eapply does_at with (c := x); [reflexivity|]. cbv zeta. apply Forall_cons_iff in F as [Hx F].
  assert (No : forall y, In y (bs "`<\&![*_") -> (x =? y)%N = false). { intros y Hy. apply N.eqb_neq. intros ->. exact (Hx Hy). }
  rewrite !No by (cbn; tauto). cbn [orb]. change (skipn 1 ((x :: v) ++ r)) with (v ++ r). rewrite prefix_len_exact.
  2:{ eapply Forall_impl; [|exact F]. intros y Hy. apply negb_true_iff, special_no. exact Hy. }
  2:{ eapply not_before_impl; [|exact R]. intros y Hy. apply negb_true_iff, special_no in Hy. exact Hy. }
  eapply does_at; [exact (Lc r)|]. eapply does_cons; [|apply does_ret]. destruct h; [apply does_emit; [reflexivity|discriminate]|apply does_advance; reflexivity].
Qed.
Lemma step_open h prev t rest s : open_comment t -> does (md_inline_step inline (length (bs "<!--" ++ t)) h prev) s [(bs "<!--", Some hl_comment_delim); (t, Some hl_comment)] rest (ch ">")
  (mk_md (md_fenced s) (md_fence_char s) (md_fence_length s) true).
Proof.
  intros H. pose proof H as (N & _). set (p := [(bs "<!--", Some hl_comment_delim); (t, Some hl_comment)]).
  assert (E : text p = bs "<!--" ++ t) by (unfold p; rewrite text_cons, text_one; reflexivity).
  unfold md_inline_step. apply does_region_all; [rewrite E; reflexivity|]. rewrite E. eapply does_at with (c := ch "<"); [reflexivity|]. cbv zeta. ifs.
  eapply does_last with (x := true); [|apply does_ret]. eapply does_last with (x := true); [|apply does_ret].
  unfold md_expect_html_comment. apply does_region_all; [rewrite E; reflexivity|]. rewrite E. eapply does_lift; [apply open_exact; exact H|]. cbn [en_length en_terminated Nat.eqb Nat.add].
  unfold p. eapply does_cons; [apply does_emit; [reflexivity|discriminate]|]. cbv iota. eapply does_cons; [apply does_emit; [cbn; lia|exact N]|]. apply does_get_loc, does_set_loc, does_ret.
Qed.
Lemma step_link h prev inner u t r rest s : balanced (text inner) -> destination u -> link_title t -> (forall o, does (inline (length (text inner)) 0%N None) s inner o tt s) ->
  does (md_inline_step inline (length (bs "[" ++ text inner ++ bs "](" ++ u ++ t ++ bs ")" ++ r)) h prev) s
    (formatting (bs "[") :: inner ++ formatting (bs "](") :: opt_piece u hl_text_link ++ [(t, None); formatting (bs ")")]) (r ++ rest) (ch ")") s.
Proof.
  intros B D T I. set (p := formatting (bs "[") :: inner ++ formatting (bs "](") :: opt_piece u hl_text_link ++ [(t, None); formatting (bs ")")]).
  assert (E : text p ++ r = bs "[" ++ text inner ++ bs "](" ++ u ++ t ++ bs ")" ++ r).
  { unfold p, formatting. rewrite text_cons, text_app, text_cons, text_app, opt_piece_text, text_cons, text_one, <- !app_assoc. reflexivity. }
  unfold md_inline_step. apply does_region; [rewrite E; reflexivity|]. rewrite E. eapply does_at with (c := ch "["); [reflexivity|]. cbv zeta. ifs. apply either_yes.
  apply (destination_does s r rest _ (bs "[") inner); auto.
Qed.
Lemma step_emphasis h prev c k inner r rest s : In c (bs "*_") -> 1 <= k <= 3 -> (c = ch "_" -> ~ alnum prev) -> text inner <> [] -> not_before (fun x => x = c \/ md_white x) (text inner) ->
  emphasis_text c k c (text inner) -> not_before (is_char c) r -> (c = ch "_" -> not_before alnum r) ->
  (forall o, does (inline (length (text inner)) c None) s inner o tt s) ->
  does (md_inline_step inline (length (repeat c k ++ text inner ++ repeat c k ++ r)) h prev) s (formatting (repeat c k) :: inner ++ [formatting (repeat c k)]) (r ++ rest) c s.
Proof.
  intros Hc Hk Hp Hn Hf He R1 R2 I. set (p := formatting (repeat c k) :: inner ++ [formatting (repeat c k)]).
  assert (E : text p ++ r = repeat c k ++ text inner ++ repeat c k ++ r) by (unfold p, formatting; rewrite text_cons, text_app, text_one, <- !app_assoc; reflexivity).
  unfold md_inline_step. apply does_region; [rewrite E; reflexivity|]. rewrite E. eapply does_at with (c := c); [destruct k; [lia|reflexivity]|]. cbv zeta.
  assert (K : does (let! b := md_expect_emphasis inline (length (repeat c k ++ text inner ++ repeat c k ++ r)) prev in if b then ret c else advance 1 ;; ret c) s p (r ++ rest) c s).
  { apply either_yes. apply emphasis_does; auto. }
  destruct Hc as [<-|[<-|[]]]; ifs; exact K.
Qed.
End inline.

(** ** Inline content *)
Definition loops inline (h : option N) (p : N) (l : list piece) (s s' : md_state) : Prop :=
  forall rest i o f, length (text l) < f ->
  wp (iter f (md_inline_round inline (i + length (text l)) h) p) (fun x st' => x = tt /\ st' = mk_hst rest (i + length (text l)) (rev (tokens i l) ++ o) s') (mk_hst (text l ++ rest) i o s).
Lemma loops_end inline h p s : loops inline h p [] s s.
Proof.
  intros rest i o f L. destruct f as [|f]; [cbn in L; lia|]. cbn [iter]. apply wp_bind. unfold md_inline_round. apply wp_bind, wp_get_idx. cbn [idx]. apply wp_bind.
  cbn [text map concat length]. rewrite Nat.add_0_r, Nat.ltb_irrefl. apply wp_eof; intros _; cbn [negb orb]; apply wp_ret; apply wp_ret; split; reflexivity.
Qed.
Lemma loops_step inline h p p' q l s s1 s' : text q <> [] -> (forall rest, does (md_inline_step inline (length (text q ++ text l)) h p) s q (text l ++ rest) p' s1) ->
  loops inline h p' l s1 s' -> loops inline h p (q ++ l) s s'.
Proof.
  intros N D H rest i o f L. rewrite text_app. rewrite text_app in L. rewrite app_length in L |- *. assert (Lq : 0 < length (text q)) by (destruct (text q); [congruence|cbn; lia]). destruct f as [|f]; [lia|]. cbn [iter]. apply wp_bind.
  unfold md_inline_round. apply wp_bind, wp_get_idx. cbn [idx]. apply wp_bind. apply wp_eof; cbn [rem]; [intros E; destruct (text q); [congruence|discriminate]|]. intros _.
  destruct (Nat.ltb_spec i (i + (length (text q) + length (text l)))) as [_|X]; [|lia]. cbn [negb orb]. apply wp_bind.
  replace (i + (length (text q) + length (text l)) - i) with (length (text q ++ text l)) by (rewrite app_length; lia). rewrite <- app_assoc.
  eapply wp_mono; [apply D|]. cbn beta. intros ? ? [-> ->]. apply wp_ret.
  specialize (H rest (i + length (text q)) (rev (tokens i q) ++ o) f ltac:(lia)). rewrite tokens_app, rev_app_distr, <- app_assoc, Nat.add_assoc. exact H.
Qed.
Definition opened (open : bool) (s : md_state) : md_state := if open then mk_md (md_fenced s) (md_fence_char s) (md_fence_length s) true else s.
Lemma atom_ne prev p last r : md_atom prev p last r -> text p <> [].
Proof.
  intros [x t H|c t H|w t H|n b t Z H R|u t H|t r' H|alt u t r' B D T]; try discriminate.
  - rewrite text_one. destruct H; discriminate.
  - rewrite text_cons. destruct n; [lia|discriminate].
Qed.
Lemma inlines_nil h open p l : md_inlines h open p l -> text l = [] -> l = [] /\ open = false.
Proof.
  intros H E. destruct H as [prev|prev t H|open prev w c l F R H|open prev p last l A H|open prev inner u t l H1 B D T H2|open prev c n inner l Hc Hn Hp H1 Hne Hf He R1 R2 H2]; [auto|exfalso..].
  - discriminate E.
  - rewrite text_cons in E. destruct w; discriminate E.
  - rewrite text_app in E. apply app_eq_nil in E as [E _]. exact (atom_ne _ _ _ _ A E).
  - discriminate E.
  - unfold formatting in E. rewrite text_cons in E. destruct n; [lia|discriminate E].
Qed.
Lemma nested_does h open p l : md_inlines h open p l -> (forall fuel s, length (text l) <= S fuel -> loops (md_inline_nested fuel) h p l s (opened open s)) ->
  forall fuel s rest, length (text l) <= fuel -> does (md_inline_nested fuel (length (text l)) p h) s l rest tt (opened open s).
Proof.
  intros G H fuel s rest L. destruct (text l) as [|c t] eqn:E.
  - destruct (inlines_nil _ _ _ _ G E) as [-> ->]. cbn [length]. destruct fuel; apply does_ret.
  - rewrite <- E in *. destruct fuel as [|fuel]; [rewrite E in L; cbn in L; lia|]. cbn [md_inline_nested]. unfold md_inline_body. destruct (Nat.eqb_spec (length (text l)) 0) as [Z|_]; [rewrite E in Z; discriminate|].
    intros i o. apply wp_bind, wp_get_idx. cbn [idx]. unfold wp, hloop. apply (H fuel s L rest i o). cbn [rem]. rewrite app_length. lia.
Qed.
Lemma opened_false s : opened false s = s.
Proof. reflexivity. Qed.
Lemma inlines_loops h open p l : md_inlines h open p l -> forall fuel s, length (text l) <= S fuel -> loops (md_inline_nested fuel) h p l s (opened open s).
Proof.
  intros G. induction G as [h prev|h prev t H|h open prev w c l F R H IH|h open prev p last l A H IH|h open prev inner u t l H1 IH1 B D T H2 IH2|h open prev c n inner l Hc Hn Hp H1 IH1 Hne Hf He R1 R2 H2 IH2]; intros fuel s L.
  - apply loops_end.
  - rewrite <- (app_nil_r [_; _]). eapply loops_step; [discriminate| |apply loops_end]. intros rest. rewrite text_cons, text_one. change (text []) with (@nil N). rewrite app_nil_r. apply step_open. exact H.
  - rewrite text_cons, !app_length in L. cbn [length] in L. change ((w ++ [c], h) :: l) with ([(w ++ [c], h)] ++ l). eapply loops_step; [rewrite text_one; destruct w; discriminate| |apply IH; lia].
    intros rest. rewrite text_one. apply step_plain; assumption.
  - rewrite text_app, app_length in L. eapply loops_step; [exact (atom_ne _ _ _ _ A)|intros rest; apply step_atom; exact A|apply IH; lia].
  - assert (E : formatting (bs "[") :: inner ++ formatting (bs "](") :: opt_piece u hl_text_link ++ (t, None) :: formatting (bs ")") :: l
      = (formatting (bs "[") :: inner ++ formatting (bs "](") :: opt_piece u hl_text_link ++ [(t, None); formatting (bs ")")]) ++ l) by (cbn [app]; rewrite <- !app_assoc; cbn [app]; rewrite <- !app_assoc; reflexivity).
    assert (X : text (formatting (bs "[") :: inner ++ formatting (bs "](") :: opt_piece u hl_text_link ++ [(t, None); formatting (bs ")")]) ++ text l = bs "[" ++ text inner ++ bs "](" ++ u ++ t ++ bs ")" ++ text l).
    { unfold formatting. rewrite text_cons, text_app, text_cons, text_app, opt_piece_text, text_cons, text_one, <- !app_assoc. reflexivity. }
    rewrite E, text_app, X, !app_length in L. cbn in L. rewrite E. eapply loops_step; [discriminate| |apply IH2; lia]. intros rest. rewrite X. apply step_link; auto. intros o. apply (nested_does _ _ _ _ H1 IH1). lia.
  - unfold formatting in L. rewrite text_cons, text_app, !app_length, text_cons, !app_length, repeat_length in L.
    assert (E : formatting (repeat c n) :: inner ++ formatting (repeat c n) :: l = (formatting (repeat c n) :: inner ++ [formatting (repeat c n)]) ++ l) by (cbn [app]; rewrite <- !app_assoc; reflexivity).
    assert (X : text (formatting (repeat c n) :: inner ++ [formatting (repeat c n)]) ++ text l = repeat c n ++ text inner ++ repeat c n ++ text l).
    { unfold formatting. rewrite text_cons, text_app, text_one, <- !app_assoc. reflexivity. }
    rewrite E. eapply loops_step; [unfold formatting; rewrite text_cons; destruct n; [lia|discriminate]| |apply IH2; lia]. intros rest.
    rewrite X. apply step_emphasis; auto. intros o. apply (nested_does _ _ _ _ H1 IH1). lia.
Qed.
Lemma inline_does h open p l n : md_inlines h open p l -> n = length (text l) -> forall s rest, does (md_inline n p h) s l rest tt (opened open s).
Proof. intros H -> s rest. unfold md_inline. apply nested_does; [exact H|apply inlines_loops; exact H|lia]. Qed.
