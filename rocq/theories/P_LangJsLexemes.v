(** * C151: JavaScript and TypeScript programs get exactly the tokens of their lexemes *)
From Coq Require Import List NArith ZArith Bool Arith Lia.
From Verif Require Import M_Base L_Base S_Tokens M_Utf8 L_Utf8 L_Any P_Utf8 L_Wf8 L_Utf8Ascii M_Emit S_Ops L_Emit M_Types M_Chars S_Chars P_Chars M_Parse S_Parse L_Parse P_Parse
  M_Api M_Highlighter S_Highlight L_Highlighter P_LangCpp L_Auto M_Table L_Table M_TokenLoop S_Json M_Json L_JsonText P_Json M_LangHtml M_LangJs S_LangJs P_LangJs
  S_Lexemes L_Lexemes L_Number L_Number2 L_Symbols L_Escapes S_Comments L_Comments L_Does S_LangJsLexemes L_LangJsLexemes.
Import ListNotations.

(** ** Strings *)
Lemma flush_back run r j o s : wp (js_flush (length run)) (fun _ st' => st' = mk_hst r (j + length run) (rev (tokens j (opt_piece run hl_string)) ++ o) s) (mk_hst r (j + length run) o s).
Proof.
  unfold js_flush. apply wp_bind. unfold wp at 1, get_idx. cbn [idx]. destruct run as [|c run].
  - cbn [length Nat.eqb negb when]. apply wp_ret. reflexivity.
  - cbn [length Nat.eqb negb when]. apply L_Highlighter.wp_emit_at; [lia|cbn [idx]; lia|]. cbn [rem idx rops loc opt_piece tokens rev app]. do 2 f_equal. cbn [length]. f_equal. lia.
Qed.
Lemma find_skip c run t : Forall (fun x => x <> c) run -> find_ch (run ++ t) c 0 = option_map (Nat.add (length run)) (find_ch t c 0).
Proof.
  unfold find_ch, find_if_from. cbn [skipn]. intros H. induction H as [|x run Hx H IH]; [cbn [app length Nat.add]; destruct (find_if _ t); reflexivity|].
  cbn [app find_if]. rewrite (proj2 (N.eqb_neq x c) Hx). cbn [length]. destruct (find_if _ (run ++ t)), (find_if _ t); cbn [option_map Nat.add] in *; congruence.
Qed.
Lemma escape_item p r : js_escape_item p r -> exists e, p = [(e, Some hl_string_escape)] /\ js_escape e r.
Proof. intros [e r' H]. eauto. Qed.
Section strings.
Variable q : N.
Hypothesis Hq : (q = 34 \/ q = 39)%N.
Variable tail : str.
Notation body := (string_body hl_string (js_string_plain q) js_escape_item tail).
Lemma body_slash l : body false l -> l = [] \/ exists t, text l = 92%N :: t.
Proof.
  intros H. inversion H as [f E1 E2|run l' _ _ _ E1 E2|f p l' Hp Hl E1 E2]; [left; reflexivity|right]. apply escape_item in Hp as (e & -> & He). destruct (js_escape_exact _ _ He) as (_ & c & t & -> & _). rewrite text_app, text_one. eexists. reflexivity.
Qed.
Lemma string_rounds f l : body f l -> forall run j o s, (f = true -> run = []) ->
  wp (let! chars := hloop 1 js_string_round (length run, Some (length (text l))) in js_flush chars)
    (fun _ st' => st' = mk_hst tail (j + length run + length (text l)) (rev (tokens j (opt_piece run hl_string ++ l)) ++ o) s) (mk_hst (text l ++ tail) (j + length run) o s).
Proof.
  intros H. induction H as [f|run0 l Nr Pr H IH|f p l Hp H IH]; intros run j o s Hf; apply wp_bind, wp_unroll; unfold js_string_round at 1.
  - cbn [text map concat length app]. apply wp_ret. rewrite app_nil_r, Nat.add_0_r. apply flush_back.
  - rewrite (Hf eq_refl). cbn [length Nat.add opt_piece app] in *. rewrite text_cons, <- app_assoc, app_length, Nat.add_0_r. set (k := length run0 + length (text l)).
    assert (Lr : 0 < length run0) by (destruct run0; [congruence|cbn; lia]). replace (match k with 0 => true | S _ => false end) with false by (destruct k eqn:Ek; [unfold k in Ek; lia|reflexivity]).
    apply wp_bind, wp_get_rem. cbn [rem]. assert (F92 : Forall (fun x => x <> 92%N) run0) by (eapply Forall_impl; [|exact Pr]; cbn [In]; lia).
    assert (E1 : starts_with_ch (run0 ++ text l ++ tail) (ch "\") = false) by (destruct F92 as [|x r0 Hx F92]; [congruence|]; cbn [app starts_with_ch]; apply N.eqb_neq; exact Hx).
    rewrite E1. cbv zeta. change (ch "\") with 92%N. rewrite (find_skip _ _ _ F92).
    assert (E2 : match option_map (Nat.add (length run0)) (find_ch (text l ++ tail) 92 0) with Some f => Some (Nat.min k f) | None => Some k end = Some (length run0)).
    { destruct (body_slash l H) as [->|[t Et]].
      - cbn [text map concat app length] in *. unfold k. destruct (find_ch tail 92 0); cbn [option_map]; f_equal; cbn [text map concat length]; lia.
      - rewrite Et. change (find_ch ((92%N :: t) ++ tail) 92 0) with (Some 0). cbn [option_map]. f_equal. unfold k. lia. }
    rewrite E2. destruct (length run0) as [|n0] eqn:En; [lia|]. rewrite <- En in *. apply wp_bind, wp_advance_exact; [rewrite app_length; lia|]. rewrite skipn_app_exact. apply wp_ret. cbn [rem]. split; [rewrite (app_length run0); lia|].
    rewrite (proj2 (Nat.leb_le (length run0) k)) by (unfold k; lia). replace (k - length run0) with (length (text l)) by (unfold k; lia). cbn [Nat.add].
    specialize (IH run0 j o s ltac:(discriminate)). unfold wp, bindM in IH |- *. destruct (hloop 1 js_string_round _ _) as [[? ?]|]; [|contradiction]. destruct (js_flush _ _) as [[? ?]|]; [|contradiction]. rewrite IH. destruct run0; [congruence|]. cbn [opt_piece app]. unfold k. f_equal. lia.
  - apply escape_item in Hp as (e & -> & He). destruct (js_escape_exact _ _ He) as (M & c & t & Ee & _). rewrite text_app, text_one in *. rewrite <- app_assoc. set (k := length (e ++ text l)). assert (Lk : k = length e + length (text l)) by (unfold k; apply app_length). assert (Le : 0 < length e) by (rewrite Ee; cbn; lia).
    replace (match k with 0 => true | S _ => false end) with false by (destruct k; [lia|reflexivity]). apply wp_bind, wp_get_rem. cbn [rem].
    assert (E1 : starts_with_ch (e ++ text l ++ tail) (ch "\") = true) by (rewrite Ee; reflexivity). rewrite E1. apply wp_bind. eapply wp_lift; [exact M|]. cbn [es_length es_erroneous]. rewrite (proj2 (Nat.eqb_neq (length e) 0)) by lia. cbn [negb].
    apply wp_bind. eapply wp_mono; [apply flush_back|]. cbn beta. intros ? ? ->. apply wp_bind, wp_emit_exact; [rewrite app_length; lia|]. rewrite skipn_app_exact. apply wp_ret. cbn [rem]. split; [rewrite (app_length e); lia|].
    rewrite (proj2 (Nat.leb_le (length e) k)) by lia. replace (k - length e) with (length (text l)) by lia.
    specialize (IH [] (j + length run + length e) (OEmit (j + length run) (length e) hl_string_escape false :: rev (tokens j (opt_piece run hl_string)) ++ o) s ltac:(reflexivity)). cbn [length Nat.add] in IH. rewrite Nat.add_0_r in IH. cbn [opt_piece app] in IH.
    unfold wp, bindM in IH |- *. change (js_escape_type (mk_escape (length e) false)) with hl_string_escape. destruct (hloop 1 js_string_round _ _) as [[? ?]|]; [|contradiction]. destruct (js_flush _ _) as [[? ?]|]; [|contradiction]. rewrite IH.
    rewrite tokens_app, opt_piece_text. cbn [app tokens]. rewrite rev_app_distr. cbn [rev]. rewrite <- !app_assoc. cbn [app]. f_equal. lia.
Qed.
Lemma string_skip run t : Forall (fun c => ~ In c [q; 92; 10]%N) run -> forall n, js_string_loop (run ++ t) q false n = js_string_loop t q false (n + length run).
Proof.
  intros H. induction H as [|x run Hx H IH]; intros n; [cbn [app length]; rewrite Nat.add_0_r; reflexivity|]. cbn [In] in Hx. cbn [app js_string_loop].
  rewrite (proj2 (N.eqb_neq x (ch "\"))), (proj2 (N.eqb_neq x q)), (proj2 (N.eqb_neq x 10)) by (change (ch "\") with 92%N; intuition congruence). rewrite IH. f_equal. cbn [length]. lia.
Qed.
Lemma string_match f l : body f l -> forall n, js_string_loop (text l ++ tail) q false n = js_string_loop tail q false (n + length (text l)).
Proof.
  intros H. induction H as [f|run l Nr Pr H IH|f p l Hp H IH]; intros n.
  - cbn [text map concat app length]. rewrite Nat.add_0_r. reflexivity.
  - rewrite text_cons, <- app_assoc, string_skip, IH by (eapply Forall_impl; [|exact Pr]; cbn [In]; tauto). f_equal. rewrite app_length. lia.
  - apply escape_item in Hp as (e & -> & He). destruct (js_escape_exact _ _ He) as (_ & c & t & Ee & _ & _ & Ft). rewrite text_app, text_one, <- app_assoc, Ee. cbn [app js_string_loop]. change (92 =? ch "\")%N with true. cbn iota. rewrite string_skip, IH by (eapply Forall_impl; [|exact Ft]; cbn [In]; intros; destruct Hq as [-> | ->]; tauto). f_equal. cbn [length]. rewrite app_length. lia.
Qed.
End strings.
Lemma string_yes s q bod close rest : (q = 34 \/ q = 39)%N -> js_closing q close rest -> string_body hl_string (js_string_plain q) js_escape_item (text close ++ rest) true bod ->
  does js_expect_string s (js_quote q :: bod ++ close) rest true div_goal.
Proof.
  intros Hq Hc Hb. assert (E : text (js_quote q :: bod ++ close) ++ rest = q :: text bod ++ text close ++ rest) by (unfold js_quote; rewrite text_cons, text_app, <- !app_assoc; reflexivity).
  set (en := negb (length close =? 0)).
  assert (M : js_match_string (q :: text bod ++ text close ++ rest) = mk_enclosed (1 + length (text bod) + length close) en).
  { unfold js_match_string. replace ((q =? 39) || (q =? 34))%N with true by (destruct Hq as [-> | ->]; reflexivity). rewrite (string_match q Hq _ _ _ Hb). unfold en. destruct Hc as [r| |r].
    - unfold js_quote. rewrite text_one. cbn [app js_string_loop]. rewrite N.eqb_refl. rewrite (proj2 (N.eqb_neq q (ch "\"))) by (change (ch "\") with 92%N; lia). reflexivity.
    - cbn [text map concat app js_string_loop length Nat.eqb negb]. rewrite Nat.add_0_r. reflexivity.
    - cbn [text map concat app js_string_loop length Nat.eqb negb]. rewrite (proj2 (N.eqb_neq 10 q)) by lia. cbn. rewrite Nat.add_0_r. reflexivity. }
  unfold js_expect_string. apply does_get. rewrite E. cbv zeta. rewrite M. cbn [en_length en_terminated]. cbn [Nat.add Nat.eqb]. apply does_last with (x := tt) (s1 := div_goal); [|apply does_ret].
  unfold js_highlight_string. cbn [en_length en_terminated]. apply does_check; [reflexivity|]. eapply does_cons; [apply does_emit; [reflexivity|discriminate]|].
  assert (Lk : S (length (text bod) + length close) - (if en then 2 else 1) = length (text bod)) by (unfold en; destruct Hc; cbn [length Nat.eqb negb]; lia). rewrite Lk.
  assert (R : does (let! chars := hloop 1 js_string_round (0, Some (length (text bod))) in js_flush chars) s bod (text close ++ rest) tt s).
  { intros i o. pose proof (string_rounds q Hq (text close ++ rest) true bod Hb [] i o s ltac:(reflexivity)) as W. cbn [length opt_piece app] in W. rewrite Nat.add_0_r in W. eapply wp_mono; [exact W|]. cbn beta. intros [] ? ->. split; reflexivity. }
  assert (T : does (when en (emit_and_advance 1 hl_string_delim) ;; set_loc div_goal) s close rest tt div_goal).
  { assert (Z : forall rest, does (set_loc div_goal) s [] rest tt div_goal) by (intros r i o; apply wp_set_loc_exact; cbn [text map concat length tokens rev app]; rewrite Nat.add_0_r; split; reflexivity).
    unfold en. destruct Hc; cbn [length Nat.eqb negb when]; [eapply does_last; [apply does_emit; [reflexivity|discriminate]|apply Z]|eapply does_nil; [apply does_ret|apply Z]|eapply does_nil; [apply does_ret|apply Z]]. }
  intros i o. pose proof (does_bind _ (fun _ => when en (emit_and_advance 1 hl_string_delim) ;; set_loc div_goal) _ _ _ _ _ _ _ _ R T i o) as W. unfold wp, bindM in W |- *. destruct (hloop _ _ _ _) as [[? ?]|]; [|exact W]. exact W.
Qed.

Section programs.
Variable mode : js_mode.
Notation words := (the_words mode).
Notation symbols := (the_symbols mode).
Notation after_less := (the_after_less mode).
Notation lexeme := (js_lexeme words symbols after_less).
Ltac no lem := apply js_or_no; [match goal with E : text _ ++ _ = _ :: _ |- _ => rewrite E end; apply lem|].
Lemma do_string nested s q bod close rest : (q = 34 \/ q = 39)%N -> js_closing q close rest -> string_body hl_string (js_string_plain q) js_escape_item (text close ++ rest) true bod ->
  does (js_token mode nested) s (js_quote q :: bod ++ close) rest tt div_goal.
Proof.
  intros Hq Hc Hb. assert (E : text (js_quote q :: bod ++ close) ++ rest = q :: text bod ++ text close ++ rest) by (unfold js_quote; rewrite text_cons, text_app, <- !app_assoc; reflexivity).
  apply token_does. no white_no; [lia|unfold js_space; cbn [In]; lia|]. no hashbang_no; [lia|]. no line_no; [lia|]. no block_no; [lia|]. no jsx_no; [lia|]. apply js_or_yes. apply string_yes; assumption.
Qed.

(** ** Templates *)
Section templates.
Variable code : list piece -> str -> Prop.
Lemma template_item p r : js_template_item code p r ->
  (exists e, p = [(e, Some hl_string_escape)] /\ js_escape e r /\ not_before (fun c => c = 10%N) (skipn 1 e)) \/
  (exists c, p = (bs "${", Some hl_string_interpolation_delim) :: c ++ [(bs "}", Some hl_string_interpolation_delim)] /\ code c (bs "}" ++ r)).
Proof. intros [e r' H1 H2|c r' H]; [left|right]; eauto. Qed.
Variable nested : M js_input unit.
Variable B : nat.
Hypothesis Hn : forall c r, length (text c) < B -> code c (bs "}" ++ r) -> forall s, exists s', does nested s c (bs "}" ++ r) tt s'.
Notation body tail := (string_body hl_string js_template_plain (js_template_item code) tail).
Lemma template_skip (Q : unit -> hst js_input -> Prop) o s r run0 : js_template_plain run0 r -> forall run j,
  wp (hloop 1 (js_template_round nested) (length (run ++ run0))) Q (mk_hst r (j + length (run ++ run0)) o s) ->
  wp (hloop 1 (js_template_round nested) (length run)) Q (mk_hst (run0 ++ r) (j + length run) o s).
Proof.
  intros [F S]. induction F as [|c run0 Hc F IH]; intros run j W; [rewrite app_nil_r in W; exact W|]. cbn [In] in Hc.
  assert (S' : forall a b t, run0 = a ++ b -> b <> [] -> b ++ r <> bs "${" ++ t) by (intros a b t E; apply (S (c :: a) b t); rewrite E; reflexivity).
  apply wp_unroll. unfold js_template_round at 1. apply wp_bind, wp_get_rem. cbn [rem app].
  rewrite (proj2 (N.eqb_neq c 96)), (proj2 (N.eqb_neq c (ch "\"))) by (change (ch "\") with 92%N; lia).
  assert (K : wp (advance 1 ;; ret (inl (length run + 1))) (fun r0 st' => match r0 with inl a' => length (rem st') < length (rem (mk_hst (c :: run0 ++ r) (j + length run) o s)) /\ wp (hloop 1 (js_template_round nested) a') Q st' | inr b => Q b st' end) (mk_hst (c :: run0 ++ r) (j + length run) o s)).
  { apply wp_bind, wp_advance_exact; [cbn [length]; lia|]. cbn [skipn]. apply wp_ret. cbn [rem length]. split; [lia|]. replace (length run + 1) with (length (run ++ [c])) by (rewrite app_length; reflexivity). replace (j + length run + 1) with (j + length (run ++ [c])) by (rewrite app_length; cbn; lia).
    apply (IH S' (run ++ [c]) j). rewrite <- app_assoc. exact W. }
  destruct (c =? ch "$")%N eqn:Ed; [|exact K]. apply N.eqb_eq in Ed.
  assert (E : starts_with (c :: run0 ++ r) (bs "${") = false); [|rewrite E; exact K]. apply not_true_is_false. intros T. apply starts_with_app in T as [t T]. apply (S [] (c :: run0) t); [reflexivity|discriminate|]. exact T.
Qed.
Lemma template_slash chars n (Q : nat + unit -> hst js_input -> Prop) st : js_match_escape (rem st) = Ok (mk_escape n false) -> js_line_continuation (rem st) = 0 -> starts_with_ch (rem st) 92 = true -> 0 < n ->
  wp (js_flush chars ;; emit_and_advance n (js_escape_type (mk_escape n false)) ;; ret (inl 0)) Q st -> wp (js_template_round nested chars) Q st.
Proof.
  intros M Z H Hn0 W. unfold js_template_round. apply wp_bind, wp_get_rem. destruct (rem st) as [|x r] eqn:E; [discriminate|]. cbn [starts_with_ch] in H. apply N.eqb_eq in H. subst x.
  change (92 =? 96)%N with false. change (92 =? ch "$")%N with false. change (92 =? ch "\")%N with true. cbn iota. cbv zeta. rewrite Z. cbn [Nat.eqb negb]. apply wp_bind. eapply wp_lift; [exact M|]. cbn [es_length]. rewrite (proj2 (Nat.eqb_neq n 0)) by lia. exact W.
Qed.
Lemma template_rounds rest f l : body ([96]%N ++ rest) f l -> length (text l) < B -> forall run j o s, (f = true -> run = []) ->
  wp (hloop 1 (js_template_round nested) (length run))
    (fun _ st' => st' = mk_hst rest (j + length run + length (text l) + 1) (rev (tokens j (opt_piece run hl_string ++ l ++ [js_quote 96])) ++ o) div_goal) (mk_hst (text l ++ [96]%N ++ rest) (j + length run) o s).
Proof.
  intros H. induction H as [f|run0 l Nr Pr H IH|f p l Hp H IH]; intros LB run j o s Hf.
  - cbn [text map concat length app]. apply wp_unroll. unfold js_template_round at 1. apply wp_bind, wp_get_rem. cbn [rem]. cbn [N.eqb Pos.eqb].
    apply wp_bind. eapply wp_mono; [apply flush_back|]. cbn beta. intros ? ? ->. apply wp_bind, wp_emit_exact; [cbn [length]; lia|]. cbn [skipn]. apply wp_bind, wp_set_loc_exact, wp_ret.
    unfold js_quote. rewrite tokens_app, opt_piece_text. cbn [tokens length]. rewrite rev_app_distr. cbn [rev app]. f_equal. lia.
  - rewrite (Hf eq_refl). cbn [opt_piece app]. rewrite text_cons, <- app_assoc. apply template_skip with (run := []); [exact Pr|]. cbn [app]. rewrite text_cons, app_length in LB.
    eapply wp_mono; [apply IH; [lia|discriminate]|]. cbn beta. intros ? ? ->. destruct run0; [congruence|]. cbn [opt_piece app length]. rewrite app_length. f_equal. lia.
  - apply template_item in Hp as [(e & -> & He & Ne)|(c & -> & Hc)].
    + destruct (js_escape_exact _ _ He) as (M & c & t & Ee & N13 & N226 & _). rewrite text_app, text_one in *. rewrite <- (app_assoc e). rewrite app_length in LB. assert (Le : 0 < length e) by (rewrite Ee; cbn; lia).
      assert (N10 : c <> 10%N) by (rewrite Ee in Ne; exact (Ne c eq_refl)).
      assert (Z : js_line_continuation (e ++ text l ++ [96]%N ++ rest) = 0).
      { rewrite Ee. unfold js_line_continuation. cbn [app starts_with_ch]. change (92 =? ch "\")%N with true. cbn [negb skipn]. unfold js_line_terminator_sequence. cbn [starts_with_ch starts_with].
        rewrite (proj2 (N.eqb_neq c 10) N10), (proj2 (N.eqb_neq c 13) N13), (proj2 (N.eqb_neq c 226) N226). reflexivity. }
      apply wp_unroll. eapply template_slash; [cbn [rem]; exact M|exact Z|rewrite Ee; reflexivity|exact Le|].
      apply wp_bind. eapply wp_mono; [apply flush_back|]. cbn beta. intros ? ? ->. apply wp_bind, wp_emit_exact; [rewrite app_length; lia|]. rewrite skipn_app_exact. apply wp_ret. cbn [rem]. split; [rewrite (app_length e); lia|].
      change (js_escape_type (mk_escape (length e) false)) with hl_string_escape.
      match goal with |- wp _ _ (mk_hst _ _ ?o1 _) => pose proof (IH ltac:(lia) [] (j + length run + length e) o1 s ltac:(reflexivity)) as W end. cbn [length] in W. rewrite Nat.add_0_r in W.
      eapply wp_mono; [exact W|]. cbn beta. intros ? ? ->. cbn [opt_piece app]. rewrite (tokens_app (opt_piece run hl_string)), opt_piece_text. cbn [app tokens]. rewrite (rev_app_distr (tokens j (opt_piece run hl_string))). cbn [rev]. rewrite <- !app_assoc. cbn [app]. f_equal. rewrite app_length. lia.
    + rewrite text_app, text_cons, text_app, text_one in *. rewrite !app_length in LB. change (length (bs "${")) with 2 in LB. change (length (bs "}")) with 1 in LB. rewrite <- !app_assoc.
      apply wp_unroll. unfold js_template_round at 1. apply wp_bind, wp_get_rem. cbn [rem]. change (bs "${" ++ ?w) with (36%N :: 123%N :: w). change (36 =? 96)%N with false. change (36 =? ch "$")%N with true. cbn iota.
      change (starts_with (36%N :: 123%N :: ?w) (bs "${")) with true. cbn iota.
      apply wp_bind. eapply wp_mono; [apply flush_back|]. cbn beta. intros ? ? ->. apply wp_bind, wp_emit_exact; [cbn [length]; lia|]. cbn [skipn].
      destruct (Hn c (text l ++ [96]%N ++ rest) ltac:(lia) Hc s) as [s1 D]. apply wp_bind. eapply wp_mono; [apply D|]. cbn beta. intros ? ? [-> ->]. apply wp_bind, wp_get_rem. cbn [rem]. change (bs "}" ++ ?w) with (125%N :: w). cbn iota.
      apply wp_bind, wp_check; [reflexivity|]. apply wp_bind, wp_emit_exact; [cbn [length]; lia|]. cbn [skipn]. apply wp_ret. cbn [rem]. split; [cbn [length]; rewrite (app_length (text c)); cbn [length]; lia|].
      match goal with |- wp _ _ (mk_hst _ _ ?o1 _) => pose proof (IH ltac:(lia) [] (j + length run + 2 + length (text c) + 1) o1 s1 ltac:(reflexivity)) as W end. cbn [length] in W. rewrite Nat.add_0_r in W.
      eapply wp_mono; [exact W|]. cbn beta. intros ? ? ->. cbn [opt_piece app]. rewrite (tokens_app (opt_piece run hl_string)), opt_piece_text. cbn [app tokens]. rewrite <- app_assoc. change (length (bs "${")) with 2. rewrite (tokens_app c). cbn [app tokens]. change (length (bs "}")) with 1.
      rewrite (rev_app_distr (tokens j (opt_piece run hl_string))). cbn [rev]. rewrite (rev_app_distr (tokens (j + length run + 2) c)). cbn [rev]. rewrite <- !app_assoc. cbn [app]. f_equal. cbn [length]. rewrite app_length. cbn [length]. lia.
Qed.
Lemma do_template s p rest : js_template code p rest -> length (text p) <= S B -> does (js_token mode nested) s p rest tt div_goal.
Proof.
  intros [bod r Hb] LB. assert (E : text (js_quote 96 :: bod ++ [js_quote 96]) ++ r = 96%N :: text bod ++ [96]%N ++ r) by (unfold js_quote; rewrite text_cons, text_app, text_one, <- !app_assoc; reflexivity).
  assert (L : length (text (js_quote 96 :: bod ++ [js_quote 96])) = length (text bod) + 2) by (unfold js_quote; rewrite text_cons, text_app, text_one, !app_length; cbn [length]; lia).
  apply token_does. no white_no; [lia|unfold js_space; cbn [In]; lia|]. no hashbang_no; [lia|]. no line_no; [lia|]. no block_no; [lia|]. no jsx_no; [lia|]. no string_no; [lia|lia|]. apply js_or_yes.
  unfold js_expect_template. apply does_get. rewrite E. cbn [starts_with_ch N.eqb Pos.eqb]. eapply does_cons; [apply does_emit; [reflexivity|discriminate]|].
  eapply does_last; [|apply does_ret]. intros i o. rewrite text_app, <- app_assoc. change (text [js_quote 96]) with [96]%N.
  pose proof (template_rounds r true bod Hb ltac:(lia) [] i o s ltac:(reflexivity)) as W. cbn [length opt_piece app] in W. rewrite Nat.add_0_r in W. eapply wp_mono; [exact W|]. cbn beta. intros [] ? ->. split; [reflexivity|].
  rewrite app_length. cbn [length]. f_equal. lia.
Qed.

(** ** Code *)
Definition js_head (p : list piece) : Prop := exists c t, text p = c :: t /\ ~ In c [123; 125]%N.
Lemma do_lexeme g p rest g' : lexeme g p rest g' -> does (js_token mode nested) (js_state g) p rest tt (js_state g').
Proof.
  intros [g0 b r H1 H2 H3|t r H1 H2|g0 p0 r H|g0 w h r g1 H1 H2 H3|g0 w r H1 H2 H3 H4|g0 w r H1 H2|g0 n r H1 H2|g0 q bod close r H1 H2 H3|g0 t flags r H1 H2 H3 H4 H5 H6 H7|g0 t h r g1 H1 H2 H3 H4 H5 H6 H7].
  - apply do_white; assumption.
  - apply do_hashbang; assumption.
  - apply do_comment; assumption.
  - apply do_word; assumption.
  - apply do_identifier; assumption.
  - apply do_private; assumption.
  - apply do_number; assumption.
  - apply do_string; assumption.
  - apply do_regex; assumption.
  - apply do_symbol; assumption.
Qed.
Lemma number_head n : js_number n -> js_head n.
Proof.
  assert (K : forall (d : N -> Prop) l r, (forall c, d c -> hex_digit c) -> grouped d 95 l -> exists c t, text l ++ r = c :: t /\ ~ In c [123; 125]%N).
  { intros d l r Hd G. destruct (grouped_second _ _ _ G) as (c & t & E & Hc & _). exists c, (t ++ r). split; [rewrite E; reflexivity|]. apply Hd in Hc. unfold hex_digit in Hc. cbn [In]. lia. }
  intros [base l x Hb G HX|base l x Hb G HX|base l x Hb G HX|l x G HX|l fr e G GF GE|fr e G GE]; unfold js_head, number_pieces; rewrite text_app, opt_piece_text;
    try (cbn [In] in Hb; destruct Hb as [<-|[<-|[]]]; (eexists _, _; split; [reflexivity|]; vm_compute; intuition discriminate)).
  - cbn [app]. rewrite text_app. apply (K digit); [unfold digit, hex_digit; lia|apply G].
  - cbn [app]. rewrite text_app. apply (K digit); [unfold digit, hex_digit; lia|apply G].
  - cbn [app]. rewrite text_cons. eexists _, _. split; [reflexivity|]. vm_compute. intuition discriminate.
Qed.
Lemma lexeme_head g p rest g' : lexeme g p rest g' -> js_head p.
Proof.
  assert (NS : forall w r, js_name w -> exists c t, w ++ r = c :: t /\ ~ In c [123; 125]%N).
  { intros w r (c & t & -> & Hc & _). exists c, (t ++ r). split; [reflexivity|]. unfold js_name_start, ident_start, letter in Hc. change (ch "$") with 36%N in Hc. cbn [In]. lia. }
  intros [g0 b r H1 H2 H3|t r H1 H2|g0 p0 r H|g0 w h r g1 H1 H2 H3|g0 w r H1 H2 H3 H4|g0 w r H1 H2|g0 n r H1 H2|g0 q bod close r H1 H2 H3|g0 t flags r H1 H2 H3 H4 H5 H6 H7|g0 t h r g1 H1 H2 H3 H4 H5 H6 H7]; unfold js_head.
  - rewrite text_one. destruct H2 as [|c b Hc H2]; [congruence|]. exists c, b. split; [reflexivity|]. unfold js_space in Hc. cbn [In] in *. lia.
  - rewrite text_cons. eexists _, _. split; [reflexivity|]. cbn [In]. vm_compute. intuition discriminate.
  - destruct H; (eexists _, _; split; [reflexivity|]; vm_compute; intuition discriminate).
  - rewrite text_one. destruct (word_facts mode w h H1) as (G1 & G2 & G3 & G4). destruct (NS w [] (ident_js w G2)) as (c & t & E & Hc). rewrite app_nil_r in E. eauto.
  - rewrite text_one. destruct (NS w [] H1) as (c & t & E & Hc). rewrite app_nil_r in E. eauto.
  - rewrite text_one. eexists _, _. split; [reflexivity|]. vm_compute. intuition discriminate.
  - apply number_head. exact H1.
  - unfold js_quote. rewrite text_cons. eexists _, _. split; [reflexivity|]. cbn [In]. lia.
  - rewrite text_cons. eexists _, _. split; [reflexivity|]. vm_compute. intuition discriminate.
  - rewrite text_one. destruct (symbol_head_facts mode t h H1) as (c & u & Et & _ & _ & _ & _ & Nc & _). exists c, u. split; [exact Et|]. cbn [In] in *. tauto.
Qed.
Lemma template_head p rest : js_template code p rest -> js_head p.
Proof. intros [bod r _]. unfold js_head, js_quote. rewrite text_cons. eexists _, _. split; [reflexivity|]. vm_compute. intuition discriminate. Qed.

Section run.
Context {A : Type}.
Variable body : A -> M js_input (A + unit).
Variable up : A -> A.
Variable good : A -> Prop.
Hypothesis good_up : forall a, good a -> good (up a).
Hypothesis Htoken : forall a s p rest s', js_head p -> does (js_token mode nested) s p rest tt s' -> does (body a) s p rest (inl a) s'.
Hypothesis Hopen : forall a s rest, does (body a) s [(bs "{", Some hl_symbol_brace)] rest (inl (up a)) regex_goal.
Hypothesis Hclose : forall a s rest, good a -> does (body (up a)) s [(bs "}", Some hl_symbol_brace)] rest (inl a) div_goal.
Lemma head_nonempty p : js_head p -> text p <> [].
Proof. intros (c & t & -> & _). discriminate. Qed.
Lemma code_run g l rest : js_code_of words symbols after_less code g l rest -> length (text l) <= S B -> forall k rest0 a, good a -> rest = text k ++ rest0 ->
  (forall s, exists sf, iterates body tt rest0 sf a s k) -> exists sf, iterates body tt rest0 sf a (js_state g) (l ++ k).
Proof.
  intros H. induction H as [g rest|g p g' l rest Hp H IH|g p l rest Hp H IH|g c l rest Hc IHc H IH]; intros LB k rest0 a Ga E K.
  - exact (K (js_state g)).
  - rewrite text_app, app_length in LB. destruct (IH ltac:(lia) k rest0 a Ga E K) as [sf I]. exists sf. rewrite <- app_assoc. pose proof (lexeme_head _ _ _ _ Hp) as Hh. eapply iterates_more; [|exact (head_nonempty p Hh)|exact I].
    apply Htoken; [exact Hh|]. rewrite text_app, <- app_assoc, <- E. apply do_lexeme. exact Hp.
  - rewrite text_app, app_length in LB. destruct (IH ltac:(lia) k rest0 a Ga E K) as [sf I]. exists sf. rewrite <- app_assoc. pose proof (template_head _ _ Hp) as Hh. eapply iterates_more; [|exact (head_nonempty p Hh)|exact I].
    apply Htoken; [exact Hh|]. rewrite text_app, <- app_assoc, <- E. apply do_template; [exact Hp|lia].
  - rewrite text_cons, text_app, text_cons, !app_length in LB. change (length (bs "{")) with 1 in LB. change (length (bs "}")) with 1 in LB.
    destruct (IH ltac:(lia) k rest0 a Ga E K) as [sf I].
    assert (K2 : forall s, exists sf, iterates body tt rest0 sf (up a) s ([(bs "}", Some hl_symbol_brace)] ++ l ++ k)).
    { intros s. exists sf. eapply iterates_more; [apply Hclose; exact Ga|rewrite text_one; discriminate|exact I]. }
    assert (E2 : bs "}" ++ text l ++ rest = text ([(bs "}", Some hl_symbol_brace)] ++ l ++ k) ++ rest0) by (rewrite E, !text_app, text_one, <- !app_assoc; reflexivity).
    destruct (IHc ltac:(lia) ([(bs "}", Some hl_symbol_brace)] ++ l ++ k) rest0 (up a) (good_up a Ga) E2 K2) as [sf2 I2]. exists sf2.
    change ((bs "{", Some hl_symbol_brace) :: c ++ (bs "}", Some hl_symbol_brace) :: l) with ([(bs "{", Some hl_symbol_brace)] ++ c ++ [(bs "}", Some hl_symbol_brace)] ++ l). rewrite <- !app_assoc.
    eapply iterates_more; [apply Hopen|rewrite text_one; discriminate|exact I2].
Qed.
End run.
End templates.

Lemma before_brace_ok n : forall fuel c r, length (text c) < fuel -> js_code words symbols after_less n c (bs "}" ++ r) -> forall s, exists s', does (js_before_brace mode fuel) s c (bs "}" ++ r) tt s'.
Proof.
  induction n as [|n IH]; intros fuel c r L Hc s; [contradiction|]. destruct fuel as [|fuel]; [lia|]. cbn [js_code] in Hc.
  assert (G : exists sf, iterates (js_brace_round mode (js_before_brace mode fuel)) tt (bs "}" ++ r) sf 0%Z (js_state js_operand) (c ++ [])).
  { eapply (code_run (js_code words symbols after_less n) (js_before_brace mode fuel) fuel (IH fuel) (js_brace_round mode (js_before_brace mode fuel)) (fun z => z + 1)%Z (fun z => 0 <= z)%Z); [intros; lia| | | |exact Hc|lia|lia|reflexivity|].
    - intros a s0 p rest s' (x & t & E & Hx) D. unfold js_brace_round. apply does_get. rewrite E. cbn [app]. cbn [In] in Hx. rewrite (proj2 (N.eqb_neq x (ch "{"))), (proj2 (N.eqb_neq x (ch "}"))) by (change (ch "{") with 123%N; change (ch "}") with 125%N; lia). eapply does_last; [exact D|]. apply does_ret.
    - intros a s0 rest. unfold js_brace_round. apply does_get. rewrite text_one. cbn [app bs]. eapply does_last; [apply does_emit; [reflexivity|discriminate]|]. apply does_set_loc, does_ret.
    - intros a s0 rest Ha. unfold js_brace_round. apply does_get. rewrite text_one. change (bs "}" ++ rest) with (125%N :: rest). cbn iota. change (125 =? ch "{")%N with false. change (125 =? ch "}")%N with true. cbn iota. rewrite (proj2 (Z.ltb_ge (a + 1 - 1) 0)) by lia. replace (a + 1 - 1)%Z with a by lia. eapply does_last; [apply does_emit; [reflexivity|discriminate]|]. apply does_set_loc, does_ret.
    - intros s0. exists s0. apply iterates_end. unfold js_brace_round. apply does_get. cbn [text map concat app]. apply does_ret. }
  rewrite app_nil_r in G. destruct G as [sf G]. exists sf. cbn [js_before_brace]. unfold js_before_brace_body. apply does_set_loc. apply does_loop. exact G.
Qed.
Lemma highlight_exact l strict : js_program words symbols after_less l -> js_highlight mode (text l) strict = Ok (true, tokens 0 l).
Proof.
  intros [n Hl]. unfold js_highlight. set (fuel := length (text l) + 1). set (nest := js_before_brace mode fuel).
  set (body := fun _ : unit => let! e := eof in if e then ret (inr tt) else js_token mode nest ;; ret (inl tt)).
  assert (G : exists sf, iterates body tt [] sf tt (js_state js_begin) (l ++ [])).
  { eapply (code_run (js_code words symbols after_less n) nest fuel (before_brace_ok n fuel) body (fun _ => tt) (fun _ => True)); [auto| | | |exact Hl|unfold fuel; lia|exact I|reflexivity|].
    - intros [] s0 p rest s' (x & t & E & Hx) D. unfold body. apply does_eof; [rewrite E; discriminate|]. cbn iota. eapply does_last; [exact D|]. apply does_ret.
    - intros [] s0 rest. unfold body. apply does_eof; [discriminate|]. cbn iota. eapply does_last; [apply (do_brace mode nest s0 123%N); cbn; tauto|]. apply does_ret.
    - intros [] s0 rest _. unfold body. apply does_eof; [discriminate|]. cbn iota. eapply does_last; [apply (do_brace mode nest s0 125%N); cbn; tauto|]. apply does_ret.
    - intros s0. exists s0. apply iterates_end. unfold body. apply does_eof_end. apply does_ret. }
  rewrite app_nil_r in G. destruct G as [sf G]. pose proof (does_loop 0 body _ _ _ _ _ _ G 0 []) as W.
  unfold run, bindM, while_rem. unfold wp in W. rewrite app_nil_r in W. change (js_state js_begin) with hashbang_or_regex in W. fold body. destruct (hloop 1 body tt _) as [[[] st]|]; [|contradiction]. destruct W as [_ ->]. cbn [rops]. unfold ret. cbn [rops]. rewrite !app_nil_r, rev_involutive. reflexivity.
Qed.
End programs.

Theorem C151_javascript_lexemes : forall l strict, javascript_program l -> highlight_javascript (text l) strict = Ok (true, tokens 0 l).
Proof. intros l strict H. apply (highlight_exact javascript). exact H. Qed.
Print Assumptions C151_javascript_lexemes.
Theorem C151_typescript_lexemes : forall l strict, typescript_program l -> highlight_typescript (text l) strict = Ok (true, tokens 0 l).
Proof. intros l strict H. apply (highlight_exact typescript). exact H. Qed.
Print Assumptions C151_typescript_lexemes.
