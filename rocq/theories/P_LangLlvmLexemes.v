(** * The LLVM highlighter: exact tokens (C161) *)
From Coq Require Import List NArith ZArith Bool Arith Lia.
From Verif Require Import M_Base L_Base S_Tokens M_Emit S_Ops L_Emit M_Types M_Chars S_Chars P_Chars M_Parse S_Parse L_Parse P_Parse M_Lang L_Lang
  M_Api M_Table L_Table M_Highlighter S_Highlight L_Highlighter P_LangCpp L_Auto M_Json S_Json L_JsonText S_Lexemes L_Lexemes L_Does L_Number L_Number2 L_Symbols L_Escapes L_Scan L_Comments
  M_LangLlvm S_LangLlvm P_LangLlvm S_LangLlvmLexemes.
From Verif Require P_LangNasmLexemes.
Import ListNotations.

Notation ldoes p rest := (does llvm_consume_anything tt p rest tt tt).

Lemma llvm_name_iff c : is_llvm_identifier c = true <-> llvm_name_char c.
Proof.
  unfold is_llvm_identifier, llvm_name_char, llvm_word_char, is_ascii_alphanumeric, is_ascii_alpha, is_ascii_upper_alpha, is_ascii_lower_alpha, is_ascii_digit, between.
  rewrite !orb_true_iff, !andb_true_iff, !N.leb_le, mem_In. change (bs "-$._") with [45; 36; 46; 95]%N. change (ch "$") with 36%N. change (ch ".") with 46%N. cbn [In]. lia.
Qed.

(** The dispatch on the first character *)
Lemma at_first p rest c t : text p ++ rest = c :: t -> forall (m : N -> M unit unit),
  does (m c) tt p rest tt tt -> does (let! r := get_rem in let! c := at_ r 0 in m c) tt p rest tt tt.
Proof. intros E m H. apply does_get. eapply does_at; [rewrite E; reflexivity|]. exact H. Qed.
Ltac first_ c := unfold llvm_consume_anything; eapply (at_first _ _ c); [reflexivity|]; match goal with |- does ?m _ _ _ _ _ => let m' := eval cbn beta iota delta [mem existsb bs] in m in idtac end.

(** Blanks *)
Lemma llvm_do_blank c rest : llvm_blank c -> ldoes [([c], None)] rest.
Proof.
  intros H. unfold llvm_consume_anything. eapply at_first; [reflexivity|]. rewrite (proj2 (mem_In _ _)) by exact H. apply does_advance. reflexivity.
Qed.
(** Symbols *)
Lemma llvm_do_symbol c h rest : In (c, h) llvm_symbols -> ldoes [([c], Some h)] rest.
Proof.
  intros H. unfold llvm_symbols in H. cbn [In] in H. repeat (destruct H as [H|H]; [injection H as <- <-; unfold llvm_consume_anything; eapply at_first; [reflexivity|]; apply does_emit; [reflexivity|discriminate]|]). contradiction.
Qed.
(** Comments *)
Lemma llvm_do_line t w rest : Forall (fun c => c <> 10 /\ c <> 13)%N t -> newline w rest \/ w = [] /\ rest = [] ->
  ldoes ((bs ";", Some hl_comment_delim) :: opt_piece t hl_comment ++ [(w, None)]) rest.
Proof.
  intros F W. unfold llvm_consume_anything. eapply at_first; [reflexivity|]. match goal with |- does ?m _ _ _ _ _ => change m with llvm_consume_line_comment end. unfold llvm_consume_line_comment.
  apply does_get. apply does_check; [reflexivity|]. eapply does_cons; [apply does_emit; [reflexivity|discriminate]|]. apply does_get.
  rewrite text_app, opt_piece_text, text_one, <- app_assoc. rewrite (P_LangNasmLexemes.crlf_line_exact t w rest F W). cbn [fst snd].
  eapply does_bind; [apply does_opt; reflexivity|]. apply does_advance. reflexivity.
Qed.
Lemma does_enclosed {S} (s : S) a t b c d rest : a <> [] -> b <> [] ->
  does (highlight_enclosed (mk_enclosed (length a + length t + length b) true) (length a) (length b) c d) s ((a, Some d) :: opt_piece t c ++ [(b, Some d)]) rest tt s.
Proof.
  intros Ha Hb i o. assert (0 < length a /\ 0 < length b) as [La Lb] by (split; [destruct a|destruct b]; cbn; congruence || lia).
  rewrite text_cons, text_app, opt_piece_text, text_one. set (w := a ++ t ++ b).
  assert (Lw : length w = length a + length t + length b) by (unfold w; rewrite !app_length; lia).
  unfold highlight_enclosed. cbn [en_length en_terminated]. rewrite <- Lw. apply wp_bind, wp_check; [destruct (Nat.eqb_spec (length w) 0); [lia|reflexivity]|]. apply wp_bind, wp_check; [apply Nat.leb_le; lia|]. apply wp_bind, wp_check; [apply Nat.leb_le; lia|].
  apply wp_bind, wp_get_idx. cbn [idx]. apply wp_bind. apply wp_emit_at_exact; [lia|lia|rewrite app_length; lia|]. apply wp_bind. cbv zeta. replace (length w - length a - length b) with (length t) by lia.
  apply wp_bind.
  assert (Fin : forall o', wp (emit_at false (i + length a + length t) (length b) d) (fun x st' => wp ((fun _ => advance (length w)) x) (fun b0 st'' => b0 = tt /\ st'' = mk_hst rest (i + length w) (OEmit (i + length a + length t) (length b) d false :: o') s) st') (mk_hst (w ++ rest) i o' s)).
  { intros o'. apply wp_emit_at_exact; [lia|lia|rewrite app_length; lia|]. apply wp_advance_exact; [rewrite app_length; lia|]. rewrite skipn_app_exact. split; reflexivity. }
  destruct t as [|x t].
  - cbn [length Nat.eqb negb when opt_piece app tokens rev] in *. apply wp_ret. rewrite Nat.add_0_r in Fin. eapply wp_mono; [rewrite Nat.add_0_r; apply Fin|]. cbn beta. intros [] st' H. exact H.
  - cbn [length Nat.eqb negb when opt_piece app tokens rev] in *. apply wp_emit_at_exact; [lia|lia|rewrite app_length; lia|]. eapply wp_mono; [apply Fin|]. cbn beta. intros [] st' H. exact H.
Qed.
Lemma llvm_do_block t rest : ~ contains (t ++ bs "*") (bs "*/") ->
  ldoes ((bs "/*", Some hl_comment_delim) :: opt_piece t hl_comment ++ [(bs "*/", Some hl_comment_delim)]) rest.
Proof.
  intros H. unfold llvm_consume_anything. eapply at_first; [reflexivity|].
  match goal with |- does ?m _ _ _ _ _ => change m with (let! b := llvm_expect_block_comment in if b then ret tt else emit_and_advance_c true 1 hl_error) end.
  apply (does_last _ _ tt _ _ true tt); [|cbn iota; apply does_ret]. unfold llvm_expect_block_comment. apply does_get. cbv zeta.
  assert (E : llvm_match_block_comment (text ((bs "/*", Some hl_comment_delim) :: opt_piece t hl_comment ++ [(bs "*/", Some hl_comment_delim)]) ++ rest) = mk_enclosed (2 + length t + 2) true).
  { change llvm_match_block_comment with match_block_comment. rewrite text_cons, text_app, opt_piece_text, text_one. rewrite match_block_comment_complete by (exists t; split; [reflexivity|exact H]). rewrite !app_length. cbn [length bs app]. f_equal; cbn; lia. }
  rewrite E. cbn [en_length Nat.add Nat.eqb]. eapply does_last; [|apply does_ret]. unfold highlight_enclosed_comment. apply (does_enclosed tt (bs "/*") t (bs "*/") hl_comment hl_comment_delim rest); discriminate.
Qed.
(** Names *)
Lemma llvm_do_name q h h' t rest : q = 37%N /\ h = hl_name_var_delim /\ h' = hl_name_var \/ q = 64%N /\ h = hl_name_function_delim /\ h' = hl_name_function ->
  Forall llvm_name_char t -> not_before llvm_name_char rest -> ldoes (([q], Some h) :: opt_piece t h') rest.
Proof.
  intros Hq F R. assert (L : length_if (t ++ rest) is_llvm_identifier = length t).
  { rewrite length_if_eq. apply prefix_len_exact; [eapply Forall_impl; [|exact F]; intros; apply llvm_name_iff; assumption|]. intros c Hc E. apply llvm_name_iff in E. exact (R c Hc E). }
  unfold llvm_consume_anything. eapply at_first; [reflexivity|].
  assert (K : does llvm_consume_identifier tt (([q], Some h) :: opt_piece t h') rest tt tt).
  { unfold llvm_consume_identifier. apply does_get. rewrite text_cons, opt_piece_text, <- app_assoc.
    assert (Em : llvm_match_identifier ([q] ++ t ++ rest) = 1 + length t). { unfold llvm_match_identifier. cbn [app skipn starts_with_ch]. rewrite L. destruct Hq as [(-> & _)|(-> & _)]; reflexivity. }
    rewrite Em. apply does_check; [reflexivity|]. replace (1 + length t - 1) with (length t) by lia. replace (1 <? 1 + length t) with (negb (length t =? 0)) by (destruct t; reflexivity).
    destruct Hq as [(-> & -> & ->)|(-> & -> & ->)]; (eapply does_cons; [apply does_emit; [reflexivity|discriminate]|apply does_opt; reflexivity]). }
  destruct Hq as [(-> & -> & ->)|(-> & -> & ->)]; exact K.
Qed.
(** Strings *)
Lemma llvm_do_string body close rest : string_body hl_string llvm_plain llvm_escape (text close ++ rest) true body ->
  close = [([34%N], Some hl_string_delim)] \/ close = [] /\ rest = [] -> ldoes (([34%N], Some hl_string_delim) :: body ++ close) rest.
Proof.
  intros Hb Hc. unfold llvm_consume_anything. eapply at_first; [reflexivity|]. match goal with |- does ?m _ _ _ _ _ => change m with llvm_consume_string end. unfold llvm_consume_string.
  apply does_get. apply does_check; [reflexivity|]. eapply does_cons; [apply does_emit; [reflexivity|discriminate]|].
  intros i o. rewrite text_app, <- app_assoc. eapply wp_mono.
  { apply (scan_body tt llvm_string_body hl_string llvm_plain llvm_escape (text close ++ rest) (fun j o' _ st' => st' = mk_hst rest (j + length (text close)) (rev (tokens j close) ++ o') tt)) with (f := true); [| | | |exact Hb].
    - intros p r [r'|d r' Hd]; discriminate.
    - intros run r len j o1 P L. unfold llvm_string_body. apply wp_bind, wp_get_rem. cbn [rem]. rewrite (proj2 (Nat.ltb_lt len (length (run ++ r)))) by (rewrite app_length; lia). cbn [negb].
      destruct (nth_error run len) as [c|] eqn:Ec; [|apply nth_error_None in Ec; lia]. apply wp_bind. apply (wp_at_is _ _ c); [rewrite nth_error_app1 by lia; exact Ec|].
      unfold llvm_plain in P. rewrite Forall_forall in P. specialize (P c (nth_error_In _ _ Ec)). rewrite (proj2 (N.eqb_neq c 34)), (proj2 (N.eqb_neq c (ch "\"))) by tauto. apply wp_ret. auto.
    - intros run p r j o1 Hrun Hp. unfold llvm_string_body. apply wp_bind, wp_get_rem. cbn [rem].
      assert (exists e, p = [(92%N :: e, Some hl_string_escape)] /\ (e = [92%N] \/ exactly 2 hex_digit e)) as (e & -> & He). { destruct Hp as [r'|d r' Hd]; [exists [92%N]|exists d]; auto. }
      rewrite text_one. rewrite (proj2 (Nat.ltb_lt (length run) _)) by (rewrite !app_length; cbn; lia). cbn [negb]. apply wp_bind. apply (wp_at_is _ _ 92%N).
      { rewrite nth_error_app2, Nat.sub_diag by lia. reflexivity. }
      change (92 =? 34)%N with false. change (92 =? ch "\")%N with true. cbv iota. apply flush_run. apply wp_bind, wp_get_rem. cbn [rem].
      assert (Hne : 0 < length (92%N :: e)) by (cbn; lia).
      assert (Post : rev (tokens (j + length run) [(92%N :: e, Some hl_string_escape)]) ++ rev (tokens j (opt_piece run hl_string)) ++ o1 = rev (tokens j (opt_piece run hl_string ++ [(92%N :: e, Some hl_string_escape)])) ++ o1).
      { rewrite tokens_app, rev_app_distr, <- app_assoc, opt_piece_text. reflexivity. }
      assert (Fin : wp (emit_and_advance (length (92%N :: e)) hl_string_escape ;; ret (inl 0)) (fun (x : nat + unit) st' => x = inl 0 /\ st' = mk_hst r (j + length run + length (92%N :: e)) (rev (tokens j (opt_piece run hl_string ++ [(92%N :: e, Some hl_string_escape)])) ++ o1) tt) (mk_hst ((92%N :: e) ++ r) (j + length run) (rev (tokens j (opt_piece run hl_string)) ++ o1) tt)).
      { apply wp_bind. apply wp_emit_exact; [rewrite app_length; cbn; lia|]. apply wp_ret. rewrite skipn_app_exact. split; [reflexivity|]. rewrite <- Post. reflexivity. }
      destruct He as [->|He].
      + change (starts_with ((92 :: [92])%N ++ r) (bs "\\")) with true. cbv iota. exact Fin.
      + assert (NB : starts_with ((92%N :: e) ++ r) (bs "\\") = false).
        { destruct He as [HL He]. destruct He as [|x e Hx He]; [discriminate|]. change (bs "\\") with [92; 92]%N. cbn [app starts_with N.eqb Pos.eqb andb]. rewrite (proj2 (N.eqb_neq x 92)); [reflexivity|]. unfold hex_digit in Hx. lia. }
        rewrite NB. apply wp_bind. eapply wp_lift.
        { apply (escape_at hex_2 [92%N] e r). apply (escape_hex hex_2 2); [auto|exact He]. }
        cbn [es_length es_erroneous]. replace (length e + length [92%N]) with (length (92%N :: e)) by (cbn; lia). cbn [length Nat.eqb negb]. exact Fin.
    - intros run j o1 Hrun. unfold llvm_string_body. apply wp_bind, wp_get_rem. cbn [rem]. destruct Hc as [->|[-> ->]].
      + change (text [([34%N], Some hl_string_delim)]) with [34%N]. cbn [app]. rewrite (proj2 (Nat.ltb_lt (length run) _)) by (rewrite !app_length; cbn; lia). cbn [negb]. apply wp_bind. apply (wp_at_is _ _ 34%N).
        { rewrite nth_error_app2, Nat.sub_diag by lia. reflexivity. }
        change (34 =? 34)%N with true. cbv iota. apply flush_run. apply wp_bind. apply wp_emit_exact; [cbn; lia|]. cbn [skipn]. apply wp_ret. reflexivity.
      + change (text []) with (@nil N). cbn [app]. rewrite (proj2 (Nat.ltb_ge (length run) _)) by (rewrite app_length; cbn; lia). cbn [negb]. apply flush_run. apply wp_ret. cbn [length tokens rev app]. rewrite Nat.add_0_r. reflexivity. }
  cbn beta. intros [] st' ->. split; [reflexivity|]. rewrite app_length, tokens_app, rev_app_distr, Nat.add_assoc, <- app_assoc. reflexivity.
Qed.
(** Numbers *)
Lemma digits_exact (d : N -> Prop) base w rest : (forall c, is_ascii_digit_base c base = true <-> d c) -> Forall d w -> not_before d rest -> match_separated_digits (w ++ rest) base 0 = (length w, false).
Proof.
  intros Hd F R. unfold match_separated_digits. cbn [N.eqb]. unfold match_digits. rewrite length_if_eq. rewrite prefix_len_exact; [reflexivity| |].
  - eapply Forall_impl; [|exact F]. intros c. apply Hd.
  - intros c Hc E. apply Hd in E. exact (R c Hc E).
Qed.
Lemma llvm_number_start c s : llvm_digit c \/ c = 115%N \/ c = 117%N -> forall p rest, text p ++ rest = c :: s -> does llvm_expect_number tt p rest true tt -> ldoes p rest.
Proof.
  intros Hc p rest E H. unfold llvm_consume_anything. eapply at_first; [exact E|]. destruct (is_ascii_digit c) eqn:D.
  - assert (M : mem c [32; 9; 13; 10]%N = false). { destruct (mem c _) eqn:M; [|reflexivity]. apply mem_In in M. apply digit_iff_llvm in D. unfold llvm_digit in D. cbn in M. lia. }
    rewrite M. eapply does_last; [exact H|]. intros i o. apply wp_check; [reflexivity|]. cbn [text map concat length tokens rev app]. rewrite Nat.add_0_r. split; reflexivity.
  - assert (c = 115 \/ c = 117)%N as Hc'. { destruct Hc as [G|G]; [apply digit_iff_llvm in G; congruence|exact G]. }
    assert (X : does (let! b := llvm_expect_number in if b then ret tt else llvm_default_case) tt p rest tt tt) by (eapply does_last; [exact H|apply does_ret]).
    destruct Hc' as [->| ->]; exact X.
Qed.
Lemma llvm_number_does p I f e rest : match_common_number (p ++ text I ++ frac_text f ++ exp_text e ++ rest) llvm_number_options = Ok (mk_number (length p + length (text I) + length (frac_text f) + length (exp_text e) + 0)
    0 (length p) (length (text I)) (match f with None => 0 | Some _ => 1 end) (match f with None => 0 | Some f => length (text f) end)
    (match e with None => 0 | Some (e, _) => length e end) (match e with None => 0 | Some (_, d) => length d end) 0 false) ->
  (exists d, d <> [] /\ I = [(d, Some hl_number)]) -> match f with Some f => exists d, f = opt_piece d hl_number | None => True end -> match e with Some (es, ed) => es <> [] /\ ed <> [] | None => True end ->
  does llvm_expect_number tt (number_pieces p I f e []) rest true tt.
Proof.
  intros E (d & Hd & ->) Hf He. unfold llvm_expect_number. apply does_get. rewrite number_pieces_text, <- !app_assoc. cbn [app]. eapply does_lift; [exact E|]. cbn [nr_length].
  assert (L : length (text [(d, Some hl_number)]) <> 0) by (rewrite text_one; destruct d; cbn; congruence). rewrite (proj2 (Nat.eqb_neq _ 0)) by lia. eapply does_last; [|apply does_ret].
  intros i o. unfold highlight_number. refine (highlight_exact p [(d, Some hl_number)] f e [] _ rest i o tt _ _ _ _ _ _).
  - intros l Hl Hc Q r j o' HQ. assert (exists w, w <> [] /\ l = [(w, Some hl_number)]) as (w & Hw & ->).
    { destruct Hc as [->|[<-|(es & ed & -> & ->)]]; [eauto| |destruct He; eauto]. destruct Hf as (w & ->). destruct w as [|x w]; [elim Hl; reflexivity|]. exists (x :: w). split; [discriminate|reflexivity]. }
    rewrite text_one in *. unfold highlight_digits_ignore_separator. destruct w as [|y w]; [congruence|]. apply wp_emit_exact; [rewrite app_length; cbn; lia|]. rewrite skipn_app_exact. exact HQ.
  - destruct f as [f|]; [|exact Logic.I]. destruct Hf as (w & ->). destruct w; [reflexivity|discriminate].
  - intros X. rewrite X in L. elim L. reflexivity.
  - exact He.
  - split; reflexivity.
Qed.
Lemma llvm_do_decimal d f e rest : d <> [] -> Forall digit d ->
    match f with Some f => Forall digit f /\ (f = [] -> e <> None \/ rest <> []) | None => True end ->
    match e with Some (e, x) => In e llvm_exponents /\ x <> [] /\ Forall digit x | None => True end ->
    not_before llvm_number_char rest ->
    ldoes (number_pieces [] [(d, Some hl_number)] (match f with Some f => Some (opt_piece f hl_number) | None => None end) e []) rest.
Proof.
  intros Hd Fd Ff Fe R. set (F := match f with Some f => Some (opt_piece f hl_number) | None => None end).
  assert (He : match e with Some (es, ed) => es <> [] /\ ed <> [] | None => True end).
  { destruct e as [[es ed]|]; [|exact Logic.I]. destruct Fe as (H1 & H2 & _). split; [|exact H2]. intros ->. unfold llvm_exponents in H1. cbn [In] in H1. repeat (destruct H1 as [H1|H1]; [discriminate|]). contradiction. }
  assert (NE : match e with Some (es, _) => exists x t, es = x :: t /\ (x = 101 \/ x = 69)%N | None => True end).
  { destruct e as [[es ed]|]; [|exact Logic.I]. destruct Fe as (H1 & _). unfold llvm_exponents in H1. cbn [In] in H1. repeat (destruct H1 as [<-|H1]; [eexists _, _; split; [reflexivity|cbn; lia]|]). contradiction. }
  assert (R0 : not_before digit rest) by (eapply not_before_impl; [|exact R]; intros c; unfold llvm_number_char, llvm_word_char, digit; lia).
  assert (R2 : not_before (fun c => digit c \/ c = 46%N) (exp_text e ++ rest)).
  { destruct e as [[es ed]|]; cbn [exp_text app]; [|eapply not_before_impl; [|exact R]; intros c; unfold llvm_number_char, llvm_word_char, digit; change (ch ".") with 46%N; lia].
    destruct NE as (x & t & -> & Hx). cbn [app]. apply not_before_cons. unfold digit. lia. }
  assert (R1 : not_before digit (frac_text F ++ exp_text e ++ rest)).
  { unfold F. destruct f as [f|]; cbn [frac_text app]; [apply not_before_cons; unfold digit; lia|]. eapply not_before_impl; [|exact R2]; cbn beta; tauto. }
  assert (E : exists c t, d = c :: t /\ llvm_digit c) by (destruct Fd as [|c t Hc Ft]; [congruence|]; exists c, t; auto).
  destruct E as (c & t & Ed & Hc).
  assert (Et : text (number_pieces [] [(d, Some hl_number)] F e []) ++ rest = c :: (t ++ frac_text F ++ exp_text e ++ rest)) by (rewrite number_pieces_text, text_one, Ed, <- !app_assoc; reflexivity).
  eapply llvm_number_start; [left; exact Hc|exact Et|]. apply llvm_number_does; [|eauto|unfold F; destruct f as [f|]; [eauto|exact Logic.I]|exact He].
  apply (number_exact llvm_number_options [] [(d, Some hl_number)] F e [] rest true 10%Z).
  - reflexivity.
  - left. rewrite text_one. exact Hd.
  - discriminate.
  - intros _. rewrite text_one, Ed. cbn [app starts_with_ch]. apply N.eqb_neq. unfold llvm_digit in Hc. lia.
  - cbn [app]. rewrite text_one.
    assert (NX : not_before (fun x => x = 120%N) (t ++ frac_text F ++ exp_text e ++ rest)).
    { rewrite Ed in Fd. apply Forall_cons_iff in Fd as [_ Ft]. destruct Ft as [|x t Hx Ft]; cbn [app]; [|apply not_before_cons; unfold digit in Hx; lia].
      unfold F. destruct f as [f|]; cbn [frac_text app]; [apply not_before_cons; discriminate|]. destruct e as [[es ed]|]; cbn [exp_text app].
      - destruct NE as (x & t & -> & Hx). cbn [app]. apply not_before_cons. lia.
      - eapply not_before_impl; [|exact R]. intros x. unfold llvm_number_char, llvm_word_char. lia. }
    rewrite Ed. cbn [app]. unfold llvm_digit in Hc. set (u := t ++ frac_text F ++ exp_text e ++ rest) in *.
    assert (P : forall p, In p (map np_str (no_prefixes llvm_number_options)) -> starts_with (c :: u) p = false).
    { intros p Hp. cbn [no_prefixes llvm_number_options map np_str In] in Hp. destruct u as [|x u]; [|specialize (NX x eq_refl); cbn beta in NX].
      - repeat (destruct Hp as [<-|Hp]; [cbn; rewrite ?andb_false_r; reflexivity|]). contradiction.
      - assert (N1 : (x =? 120)%N = false) by (apply N.eqb_neq; exact NX). assert (N2 : (c =? 115)%N = false) by (apply N.eqb_neq; lia). assert (N3 : (c =? 117)%N = false) by (apply N.eqb_neq; lia).
        repeat (destruct Hp as [<-|Hp]; [cbn; rewrite ?N1, ?N2, ?N3, ?andb_false_r; reflexivity|]). contradiction. }
    cbn [no_prefixes llvm_number_options map number_base np_str] in *. rewrite !P by (cbn; auto 10). cbn. destruct (c =? 48)%N; reflexivity.
  - rewrite text_one. apply (digits_exact digit); [apply digit_10|exact Fd|exact R1].
  - unfold F. destruct f as [f|]; [|intros _; cbn [app]; destruct (exp_text e ++ rest) as [|x u]; [reflexivity|]; specialize (R2 x eq_refl); cbn beta in R2; cbn [starts_with_ch]; apply N.eqb_neq; tauto].
    split; [reflexivity|]. rewrite opt_piece_text. split; [|discriminate]. apply (digits_exact digit); [apply digit_10|apply Ff|]. cbn [app]. eapply not_before_impl; [|exact R2]; cbn beta; tauto.
  - cbn [app]. destruct e as [[es ed]|].
    + destruct Fe as (H1 & H2 & H3). split; [reflexivity|]. split; [apply He|]. apply exponent_exact; try assumption; [reflexivity|apply He|].
      unfold llvm_exponents in H1. cbn [In] in H1. repeat (destruct H1 as [<-|H1]; [reflexivity|]). contradiction.
    + intros _ _. apply exponent_none; [reflexivity|]. intros u b x v Hu -> Hx. apply (R x Hx). unfold llvm_number_char, llvm_word_char. cbn in Hu. repeat (destruct Hu as [Hu|Hu]; [injection Hu as <- _; cbn; lia|]). contradiction.
  - intros _. reflexivity.
Qed.
Lemma llvm_do_hex p d rest : In p [bs "0x"; bs "s0x"; bs "u0x"] -> d <> [] -> Forall hex_digit d -> not_before llvm_word_char rest -> ldoes (number_pieces p [(d, Some hl_number)] None None []) rest.
Proof.
  intros Hp Hd Fd R.
  assert (exists c t, p = c :: t /\ (llvm_digit c \/ c = 115%N \/ c = 117%N)) as (c & t & Ep & Hc) by (cbn [In] in Hp; destruct Hp as [<-|[<-|[<-|[]]]]; eexists _, _; (split; [reflexivity|]); [left; unfold llvm_digit; cbn; lia|cbn; lia|cbn; lia]).
  assert (Et : text (number_pieces p [(d, Some hl_number)] None None []) ++ rest = c :: (t ++ d ++ rest)) by (rewrite number_pieces_text, text_one, Ep, <- !app_assoc; reflexivity).
  eapply llvm_number_start; [exact Hc|exact Et|]. apply llvm_number_does; [|eauto|exact Logic.I|exact Logic.I].
  apply (number_exact llvm_number_options p [(d, Some hl_number)] None None [] rest false 16%Z).
  - reflexivity.
  - left. rewrite text_one. exact Hd.
  - discriminate.
  - intros _. rewrite Ep. cbn [app starts_with_ch]. apply N.eqb_neq. unfold llvm_digit in Hc. lia.
  - cbn [In] in Hp. destruct Hp as [<-|[<-|[<-|[]]]]; reflexivity.
  - rewrite text_one. apply (digits_exact hex_digit); [apply digit_16|exact Fd|]. eapply not_before_impl; [|exact R]. intros x. unfold hex_digit, llvm_word_char. lia.
  - discriminate.
  - discriminate.
  - intros _. reflexivity.
Qed.
(** Words *)
Lemma llvm_word_unique w h h' : llvm_word w h -> llvm_word w h' -> h = h'.
Proof.
  assert (NI : forall w, In w (llvm_types ++ llvm_terminators ++ llvm_nulls ++ [bs "true"; bs "false"; bs "c"; bs "x"]) -> ~ llvm_integer_type w).
  { intros v Hv (d & E & Hd & F). destruct d as [|y d]; [congruence|]. apply Forall_cons_iff in F as [Hy _]. unfold llvm_digit in Hy. subst v.
    assert (K : forallb (fun v => match v with a :: b :: _ => negb (a =? 105)%N || negb ((48 <=? b)%N && (b <=? 57)%N) | _ => true end) (llvm_types ++ llvm_terminators ++ llvm_nulls ++ [bs "true"; bs "false"; bs "c"; bs "x"]) = true) by (vm_compute; reflexivity).
    rewrite forallb_forall in K. apply K in Hv. change (bs "i") with [105%N] in Hv. cbn [app] in Hv. change (105 =? 105)%N with true in Hv. cbn [negb orb] in Hv. apply negb_true_iff, andb_false_iff in Hv. rewrite !N.leb_gt in Hv. lia. }
  assert (T : forall v hv, llvm_word v hv -> llvm_integer_type v /\ hv = hl_keyword_type \/ ~ llvm_integer_type v /\ hv = match find (fun e => str_eqb (fst e) v)
     (map (fun x => (x, hl_keyword_type)) llvm_types ++ map (fun x => (x, hl_keyword_control)) llvm_terminators ++ map (fun x => (x, hl_null)) llvm_nulls ++ [(bs "true", hl_bool); (bs "false", hl_bool); (bs "c", hl_string_decor); (bs "x", hl_symbol_punc)]) with Some e => snd e | None => hl_keyword end).
  { intros v hv [u Hi|u Hi|u Hi|u Hi|u Hi| | |u H1 H2 H3 H4 H5].
    - left. auto.
    - right. split; [apply NI; apply in_or_app; auto|]. unfold llvm_types in Hi. cbn [In] in Hi. repeat (destruct Hi as [<-|Hi]; [vm_compute; reflexivity|]). contradiction.
    - right. split; [apply NI; apply in_or_app; right; apply in_or_app; auto|]. unfold llvm_terminators in Hi. cbn [In] in Hi. repeat (destruct Hi as [<-|Hi]; [vm_compute; reflexivity|]). contradiction.
    - right. split; [apply NI; apply in_or_app; right; apply in_or_app; right; apply in_or_app; auto|]. unfold llvm_nulls in Hi. cbn [In] in Hi. repeat (destruct Hi as [<-|Hi]; [vm_compute; reflexivity|]). contradiction.
    - right. split; [apply NI; do 3 (apply in_or_app; right); destruct Hi as [->| ->]; cbn; auto|]. destruct Hi as [->| ->]; vm_compute; reflexivity.
    - right. split; [apply NI; do 3 (apply in_or_app; right); cbn; auto|vm_compute; reflexivity].
    - right. split; [apply NI; do 3 (apply in_or_app; right); cbn; auto|vm_compute; reflexivity].
    - right. split; [exact H1|]. match goal with |- _ = match find ?f ?l with _ => _ end => destruct (find f l) as [e|] eqn:Ef end; [|reflexivity]. exfalso.
      apply find_some in Ef as [Ef Eq]. apply str_eqb_eq in Eq. destruct e as [e he]. cbn [fst] in Eq. subst e.
      rewrite !in_app_iff, !in_map_iff in Ef. destruct Ef as [(y & Ey & Hy)|[(y & Ey & Hy)|[(y & Ey & Hy)|Ef]]]; try (injection Ey as -> _; contradiction).
      apply H5. cbn [In] in Ef |- *. destruct Ef as [Ef|[Ef|[Ef|[Ef|[]]]]]; injection Ef as <- _; auto. }
  intros A B. apply T in A, B. destruct A as [(A & ->)|(A & ->)], B as [(B & ->)|(B & ->)]; tauto || reflexivity.
Qed.
Lemma llvm_default w (p : list piece) rest : (exists p', text p = w ++ p') -> w <> [] -> Forall llvm_word_char w -> not_before digit w -> (~ exists t, w = bs "s0x" ++ t \/ w = bs "u0x" ++ t) ->
  not_before llvm_word_char (skipn (length w) (text p ++ rest)) -> does llvm_expect_keyword_or_label tt p rest true tt -> ldoes p rest.
Proof.
  intros (p' & Ep) Hw F D NX R H.
  assert (X : forall q, In q [bs "s0x"; bs "u0x"] -> starts_with w q = false).
  { intros q Hq. destruct (starts_with w q) eqn:E; [|reflexivity]. elim NX. apply starts_with_firstn in E as E2. rewrite <- (firstn_skipn (length q) w), E2. eexists. cbn [In] in Hq. destruct Hq as [<-|[<-|[]]]; [left|right]; reflexivity. }
  assert (K : does llvm_default_case tt p rest tt tt) by (unfold llvm_default_case; eapply does_last; [exact H|apply does_ret]).
  rewrite Ep, <- app_assoc, skipn_app_exact in R. set (u := p' ++ rest) in *. assert (Eu : text p ++ rest = w ++ u) by (rewrite Ep, <- app_assoc; reflexivity).
  destruct w as [|c w]; [congruence|]. apply Forall_cons_iff in F as [Fc F]. unfold llvm_consume_anything. eapply at_first; [exact Eu|].
  assert (D' : is_ascii_digit c = false). { destruct (is_ascii_digit c) eqn:E; [|reflexivity]. apply digit_iff in E. elim (D c eq_refl E). }
  assert (NM : forall l, forallb (fun x => negb (is_llvm_keyword x)) l = true -> mem c l = false).
  { intros l Hl. destruct (mem c l) eqn:E; [|reflexivity]. apply mem_In in E. rewrite forallb_forall in Hl. apply Hl in E. apply llvm_word_char_iff in Fc. rewrite Fc in E. discriminate. }
  assert (NE : forall x, is_llvm_keyword x = false -> (c =? x)%N = false).
  { intros x Hx. apply N.eqb_neq. intros ->. apply llvm_word_char_iff in Fc. congruence. }
  rewrite (NM [32; 9; 13; 10]%N), D', (NE 34%N), (NM (bs "()")), (NM (bs "[]")), (NM (bs "{}")), (NM (bs ",:<=>")), (NE (ch ";")), (NE (ch "/")), (NM (bs "%@")) by reflexivity.
  destruct (mem c (bs "su")) eqn:M; [|exact K]. apply (does_nil _ _ tt p rest false tt); [|exact K]. change (does llvm_expect_number tt [] (text p ++ rest) false tt). unfold llvm_expect_number. apply does_get. cbn [text map concat app]. fold (text p). rewrite Eu.
  destruct (llvm_no_number ((c :: w) ++ u)) as (r & Er & E0).
  - apply mem_In in M. change (bs "su") with [ch "s"; ch "u"] in M. cbn [app starts_with_ch]. destruct M as [<-|[<-|[]]]; reflexivity.
  - destruct (starts_with ((c :: w) ++ u) (bs "s0x")) eqn:E; [|reflexivity]. rewrite <- (X (bs "s0x")) by (cbn; auto). symmetry. eapply starts_with_word; [|exact R|exact E]. change (bs "s0x") with [115; 48; 120]%N. unfold llvm_word_char. repeat constructor; lia.
  - destruct (starts_with ((c :: w) ++ u) (bs "u0x")) eqn:E; [|reflexivity]. rewrite <- (X (bs "u0x")) by (cbn; auto). symmetry. eapply starts_with_word; [|exact R|exact E]. change (bs "u0x") with [117; 48; 120]%N. unfold llvm_word_char. repeat constructor; lia.
  - eapply does_lift; [exact Er|]. rewrite E0. cbn [Nat.eqb]. apply does_ret.
Qed.
Lemma llvm_word_length w rest : Forall llvm_word_char w -> not_before llvm_word_char rest -> llvm_match_keyword (w ++ rest) = length w.
Proof.
  intros F R. unfold llvm_match_keyword. rewrite length_if_eq. apply prefix_len_exact; [eapply Forall_impl; [|exact F]; intros; apply llvm_word_char_iff; assumption|]. intros c Hc E. apply llvm_word_char_iff in E. exact (R c Hc E).
Qed.
Lemma llvm_do_label w rest : w <> [] -> Forall llvm_word_char w -> not_before digit w -> (~ exists t, w = bs "s0x" ++ t \/ w = bs "u0x" ++ t) ->
  ldoes [(w, Some hl_name_label_decl); (bs ":", Some hl_name_label_delim)] rest.
Proof.
  intros Hw F D NX. assert (R : not_before llvm_word_char (bs ":" ++ rest)) by (change (bs ":" ++ rest) with (58%N :: rest); apply not_before_cons; unfold llvm_word_char; lia).
  assert (Et : text [(w, Some hl_name_label_decl); (bs ":", Some hl_name_label_delim)] = w ++ bs ":") by (rewrite text_cons, text_one; reflexivity).
  apply (llvm_default w); try assumption; [eauto|rewrite Et, <- app_assoc, skipn_app_exact; exact R|].
  unfold llvm_expect_keyword_or_label. apply does_get. rewrite Et, <- app_assoc. rewrite llvm_word_length by assumption. assert (L : length w <> 0) by (destruct w; cbn; congruence). rewrite (proj2 (Nat.eqb_neq _ _) L). apply does_substr; [rewrite app_length; lia|]. rewrite skipn_app_exact.
  change (starts_with_ch (bs ":" ++ rest) (ch ":")) with true. cbv iota. eapply does_cons; [apply does_emit; [reflexivity|exact Hw]|]. eapply does_cons; [apply does_emit; [reflexivity|discriminate]|]. apply does_ret.
Qed.
Lemma llvm_do_word w h rest : w <> [] -> Forall llvm_word_char w -> not_before digit w -> (~ exists t, w = bs "s0x" ++ t \/ w = bs "u0x" ++ t) ->
  llvm_word w h -> not_before (fun c => llvm_word_char c \/ c = ch ":") rest -> ldoes [(w, Some h)] rest.
Proof.
  intros Hw F D NX Hh R'. assert (R : not_before llvm_word_char rest) by (eapply not_before_impl; [|exact R']; cbn beta; tauto).
  assert (Et : text [(w, Some h)] = w) by apply text_one.
  apply (llvm_default w); try assumption; [exists []; rewrite app_nil_r; exact Et|rewrite Et, skipn_app_exact; exact R|].
  unfold llvm_expect_keyword_or_label. apply does_get. rewrite Et. rewrite llvm_word_length by assumption. assert (L : length w <> 0) by (destruct w; cbn; congruence). rewrite (proj2 (Nat.eqb_neq _ _) L). apply does_substr; [rewrite app_length; lia|]. rewrite skipn_app_exact, firstn_app_exact.
  assert (NC : starts_with_ch rest (ch ":") = false) by (destruct rest as [|c r]; [reflexivity|]; cbn [starts_with_ch]; apply N.eqb_neq; intros ->; apply (R' _ eq_refl); auto). rewrite NC.
  destruct (llvm_classify_spec w Hw) as (h' & Eh & Hh'). rewrite (llvm_word_unique _ _ _ Hh Hh'). eapply does_lift; [exact Eh|]. eapply does_last; [apply does_emit; [reflexivity|exact Hw]|]. apply does_ret.
Qed.

(** ** C161 *)
Lemma llvm_lexeme_does p rest : llvm_lexeme p rest -> ldoes p rest.
Proof.
  intros [t w r F W|t r H|t r F R|t r F R|b c r Hb Hc|c h r H|d f e r H1 H2 H3 H4 H5|q d r H1 H2 H3 H4|w r H1 H2 H3 H4|w h r H1 H2 H3 H4 H5 H6].
  - apply llvm_do_line; assumption.
  - apply llvm_do_block. exact H.
  - apply llvm_do_name; auto.
  - apply llvm_do_name; auto.
  - apply llvm_do_string; assumption.
  - apply llvm_do_symbol. exact H.
  - apply llvm_do_decimal; assumption.
  - apply llvm_do_hex; assumption.
  - apply llvm_do_label; assumption.
  - apply llvm_do_word; assumption.
Qed.
Lemma llvm_lexeme_ne p rest : llvm_lexeme p rest -> text p <> [].
Proof.
  intros [t w r F W|t r H|t r F R|t r F R|b c r Hb Hc|c h r H|d f e r H1 H2 H3 H4 H5|q d r H1 H2 H3 H4|w r H1 H2 H3 H4|w h r H1 H2 H3 H4 H5 H6]; try discriminate.
  - rewrite number_pieces_text, text_one. destruct d; [congruence|discriminate].
  - rewrite number_pieces_text, text_one. destruct q; [destruct d; [congruence|discriminate]|discriminate].
  - rewrite text_cons. destruct w; [congruence|discriminate].
  - rewrite text_one. exact H1.
Qed.
Definition llvm_item (p : list piece) (rest : str) : Prop := llvm_lexeme p rest \/ exists c, llvm_blank c /\ p = [([c], None)].
Lemma llvm_blanks l : program llvm_blank llvm_lexeme l -> exists l', program (fun _ => False) llvm_item l' /\ text l' = text l /\ forall i, tokens i l' = tokens i l.
Proof.
  induction 1 as [|b l F H (l' & H1 & H2 & H3)|p l Hp H (l' & H1 & H2 & H3)].
  - exists []. repeat split. constructor.
  - exists (map (fun c => ([c], None)) b ++ l'). induction F as [|c b Hc F (K1 & K2 & K3)]; cbn [map app].
    + repeat split; [exact H1|exact H2|]. intros i. cbn [tokens length]. rewrite Nat.add_0_r. apply H3.
    + split; [apply (program_lexeme _ _ [([c], None)]); [right; eauto|exact K1]|]. split; [rewrite text_cons, K2; reflexivity|]. intros i. cbn [tokens length]. rewrite K3. cbn [tokens]. f_equal. lia.
  - exists (p ++ l'). split; [apply program_lexeme; [left; rewrite H2; exact Hp|exact H1]|]. split; [rewrite !text_app, H2; reflexivity|]. intros i. rewrite !tokens_app, H3. reflexivity.
Qed.
Theorem C161_llvm_lexemes : forall l, program llvm_blank llvm_lexeme l -> tokenizes highlight_llvm l.
Proof.
  intros l Hl strict. destruct (llvm_blanks l Hl) as (l' & H1 & <- & H3). rewrite <- H3. unfold highlight_llvm. apply (while_rem_exact tt llvm_item); [| |exact H1].
  - intros p r [Hp|(c & _ & ->)]; [eapply llvm_lexeme_ne; exact Hp|discriminate].
  - intros p r i o Hp. assert (D : ldoes p r) by (destruct Hp as [Hp|(c & Hc & ->)]; [apply llvm_lexeme_does; exact Hp|apply llvm_do_blank; exact Hc]).
    eapply wp_mono; [apply D|]. cbn beta. intros [] st' [_ ->]. reflexivity.
Qed.
Print Assumptions C161_llvm_lexemes.

(** A function: [entry:] [ret i32 u0x1F, 1.5e+3 %a.1 ; x] *)
Ltac nb := intros c Hc; cbn in Hc; try discriminate Hc; injection Hc as <-; unfold llvm_name_char, llvm_number_char, llvm_word_char, digit; cbn; lia.
Ltac fa := repeat (apply Forall_cons; [unfold llvm_name_char, llvm_word_char, digit, hex_digit, llvm_blank; cbn; lia|]); apply Forall_nil.
Ltac nx := intros (t & [X|X]); destruct t; discriminate X.
Definition llvm_example : list piece :=
  [(bs "entry", Some hl_name_label_decl); (bs ":", Some hl_name_label_delim)] ++ ([10]%N, None) :: [(bs "ret", Some hl_keyword_control)] ++ (bs " ", None)
  :: [(bs "i32", Some hl_keyword_type)] ++ (bs " ", None) :: number_pieces (bs "u0x") [(bs "1F", Some hl_number)] None None []
  ++ [([44]%N, Some hl_symbol_punc)] ++ number_pieces [] [(bs "1", Some hl_number)] (Some (opt_piece (bs "5") hl_number)) (Some (bs "e+", bs "3")) [] ++ (bs " ", None)
  :: ((bs "%", Some hl_name_var_delim) :: opt_piece (bs "a.1") hl_name_var) ++ (([34%N], Some hl_string_delim) :: ((bs "x", Some hl_string) :: [(bs "\0A", Some hl_string_escape)] ++ []) ++ [([34%N], Some hl_string_delim)])
  ++ ((bs ";", Some hl_comment_delim) :: opt_piece (bs " c") hl_comment ++ [([], None)]) ++ [].
Example C161_case : program llvm_blank llvm_lexeme llvm_example.
Proof.
  unfold llvm_example.
  apply program_lexeme. { apply llvm_label; [discriminate|fa|nb|nx]. }
  apply program_space; [fa|]. apply program_lexeme. { apply llvm_other; [discriminate|fa|nb|nx|apply lw_control; cbn; auto|nb]. }
  apply program_space; [fa|]. apply program_lexeme. { apply llvm_other; [discriminate|fa|nb|nx| |nb]. apply lw_integer. exists (bs "32"). split; [reflexivity|]. split; [discriminate|]. unfold llvm_digit. fa. }
  apply program_space; [fa|]. apply program_lexeme. { apply llvm_hexadecimal; [cbn; auto|discriminate|fa|nb]. }
  apply program_lexeme. { apply llvm_symbol. cbn. tauto. }
  apply program_lexeme. { apply (llvm_decimal (bs "1") (Some (bs "5"))); [discriminate|fa|split; [fa|discriminate]|split; [cbn; auto|split; [discriminate|fa]]|nb]. }
  apply program_space; [fa|]. apply program_lexeme. { apply llvm_variable; [fa|nb]. }
  apply program_lexeme.
  { apply llvm_string; [|auto]. apply string_text; [discriminate|repeat constructor; cbn; discriminate|]. apply string_item; [|apply string_end]. apply (llvm_hex (bs "0A")). split; [reflexivity|fa]. }
  apply program_lexeme; [|apply program_end]. apply llvm_line; [|right; auto]. repeat constructor; cbn; discriminate.
Qed.
