(** * Tokens of YAML documents that the highlighter gets wrong *)
From Coq Require Import List NArith ZArith Bool Arith Lia.
From Verif Require Import M_Base L_Base S_Tokens M_Utf8 L_Utf8 P_Utf8 M_Emit S_Ops L_Emit M_Types M_Chars S_Chars P_Chars M_Parse S_Parse L_Parse P_Parse
  M_Api M_Highlighter S_Highlight L_Highlighter P_LangCpp L_Auto M_Lang M_LangYaml P_LangYaml S_Lexemes L_Lexemes L_Does L_Number L_Escapes L_Scan L_Comments S_LangYamlLexemes P_LangYamlLexemes.
Import ListNotations.

(** ** Documents of one line *)
Definition plain_start (c : N) : Prop := node_char c \/ c = 45%N.
Lemma plain_start_fresh c t : plain_start c -> fresh (c :: t).
Proof. intros [H| ->]; [apply node_fresh; exact H|]. apply fresh_char; [reflexivity|discriminate..]. Qed.
Lemma one_body p c t s' : text p = c :: t -> plain_start c -> starts_with (text p) (bs "---") = false -> (forall node, does (yaml_block_body node 0 tt) [] p [] (inl tt) s') -> tokenizes highlight_yaml p.
Proof.
  intros E C Nd H strict. unfold highlight_yaml. eapply does_run with (s' := s'); [reflexivity|]. assert (Ne : text p <> []) by (rewrite E; discriminate).
  assert (F : fresh (text p)) by (rewrite E; apply plain_start_fresh; exact C). apply does_nil with (x := tt) (s1 := []).
  { rewrite app_nil_r. apply does_add. apply (does_prefix [] [([], None)]); [constructor; [constructor|exact F]|exact Ne]. }
  eapply does_last; [|apply does_ret]. unfold while_rem. rewrite <- (app_nil_r p). eapply does_unroll; [|exact Ne|apply does_stop; apply does_eof_end; apply does_ret]. apply does_eof; [rewrite app_nil_r; exact Ne|]. eapply does_last; [|apply does_ret]. eapply does_last; [|apply does_eof_end; apply does_ret].
  cbn [text map concat app]. unfold yaml_document. apply does_set_loc. apply does_no_space; [rewrite app_nil_r; exact F|]. apply does_eof; [rewrite app_nil_r; exact Ne|]. apply does_get. rewrite app_nil_r, Nd, andb_false_r. eapply does_nil; [apply does_ret|]. apply does_get. rewrite app_nil_r.
  assert (Np : starts_with_ch (text p) (ch "%") = false). { rewrite E. cbn [starts_with_ch]. apply N.eqb_neq. destruct C as [C| ->]; [|discriminate]. apply node_char_cases in C as [C _]. cbn. lia. }
  rewrite Np, andb_false_r. eapply does_nil; [apply does_ret|]. unfold yaml_body. apply does_eof; [rewrite app_nil_r; exact Ne|]. apply does_get. rewrite app_nil_r, Nat.add_1_r. cbn [yaml_block_node]. rewrite Nat.sub_0_r. rewrite <- (app_nil_r p). eapply does_unroll; [apply H|exact Ne|]. apply does_stop. unfold yaml_block_body. apply does_eof_end. apply does_ret.
Qed.
(** The start of [yaml_block_body] *)
Lemma body_start node s' p c t : text p = c :: t -> plain_start c -> starts_with (text p) (bs "---") = false -> 
  does (if starts_with (text p) (bs "- ") then
            emit_and_advance 1 hl_symbol_punc ;;
            let! r := get_rem in
            when (starts_with_ch r 32) (advance 1) ;;
            yaml_space ;;
            let! r := get_rem in
            when (yaml_has_node r) (yaml_compact node 1) ;;
            let! r := get_rem in
            when (yaml_at_break r) yaml_skip_line ;;
            yaml_push 0 ;;
            node 0 0 ;;
            ret (inl tt)
          else
            let! b := yaml_key node 0 in
            if b then yaml_push 0 ;; ret (inl tt)
            else
              let! r := get_rem in
              if yaml_has_node r then yaml_flow 0 false ;; yaml_skip_line ;; ret (inl tt)
              else ret (inr tt)) [] p [] (inl tt) s' ->
  does (yaml_block_body node 0 tt) [] p [] (inl tt) s'.
Proof.
  intros E C Nd H. unfold yaml_block_body. apply does_eof; [rewrite E; discriminate|].
  assert (B : yaml_at_break (c :: t) = false) by (apply (fresh_no_break (c :: t)), plain_start_fresh, C). assert (C1 : (c = 34 \/ c = 39 \/ c = 45 \/ 47 <= c)%N /\ ~ In c (bs ":;<=>?@]\^`|}")) by (destruct C as [C| ->]; [apply node_char_cases in C; intuition|split; [lia|cbn; intuition discriminate]]). destruct C1 as [C1 C2].
  assert (I : yaml_indent (c :: t) = 0) by (apply (indent_exact [] (c :: t)); [constructor|apply not_before_cons; lia]).
  apply does_nil with (x := tt) (s1 := []).
  { rewrite app_nil_r, E. unfold yaml_blank_lines. apply does_stop. unfold yaml_blank_body. apply does_get. cbn [text map concat app]. rewrite B, I. cbv zeta. cbn [nth length Nat.ltb Nat.leb andb]. rewrite (proj2 (N.eqb_neq c (ch "#"))) by (cbn; lia). apply does_ret. }
  apply does_eof; [rewrite E; discriminate|]. apply does_get. rewrite app_nil_r, Nd. cbv zeta. assert (D3 : starts_with (text p) (bs "...") = false) by (rewrite E; change (bs "...") with [46; 46; 46]%N; cbn [starts_with]; rewrite (proj2 (N.eqb_neq c 46)) by lia; reflexivity). rewrite D3, andb_false_r. apply does_get_loc. rewrite andb_false_r.
  rewrite E, I. rewrite E in H. apply does_nil with (x := tt) (s1 := []).
  { unfold yaml_consume_indent. apply does_get. rewrite app_nil_r. cbn [text map concat app Nat.min]. apply does_add. apply does_advance. reflexivity. }
  apply does_get. rewrite app_nil_r, E.
  assert (Q : forall x u v, In x (bs "?|>") -> starts_with (c :: v) (x :: u) = false) by (intros x u v Hx; cbn [starts_with]; rewrite (proj2 (N.eqb_neq c x)); [reflexivity|]; intros ->; cbn in Hx; cbn in C2; intuition lia).
  change (bs "? ") with [63; 32]%N. change (bs "?") with [63]%N. change (bs "| ") with [124; 32]%N. change (bs "> ") with [62; 32]%N. change (bs "|") with [124]%N. change (bs ">") with [62]%N.
  rewrite !(Q 63%N) by (cbn; tauto). cbn [orb andb]. rewrite !(Q 124%N), !(Q 62%N) by (cbn; tauto). cbn [orb andb]. exact H.
Qed.
(** A line with a key *)
Lemma key_line p c t : text p = c :: t -> node_char c -> (forall node, does (yaml_key node 0) [] p [] true []) -> tokenizes highlight_yaml p.
Proof.
  intros E C H. assert (N45 : c <> 45%N) by (apply node_char_cases in C as [C _]; lia). assert (Nd : forall u, starts_with (text p) (45%N :: u) = false) by (intros u; rewrite E; cbn [starts_with]; rewrite (proj2 (N.eqb_neq c 45)) by assumption; reflexivity).
  eapply one_body with (s' := [0]); [exact E|left; exact C|apply (Nd [45; 45]%N)|]. intros node. eapply body_start; [exact E|left; exact C|apply (Nd [45; 45]%N)|]. change (bs "- ") with [45; 32]%N. rewrite Nd. eapply does_last; [apply H|]. eapply does_nil; [apply does_push; cbn; lia|]. apply does_ret.
Qed.
Lemma skip_rest s c w rest : same_line c -> line_ends w rest -> does yaml_skip_line s [(c, None); (w, None)] rest tt s.
Proof.
  intros F W. unfold yaml_skip_line. apply does_get. rewrite text_cons, text_one, <- app_assoc. rewrite until_exact by (try assumption; apply line_end_at; exact W). apply does_cons with (x := tt) (s1 := s); [apply does_advance; reflexivity|]. apply does_break_end. exact W.
Qed.
Lemma skip_last s c : same_line c -> does yaml_skip_line s [(c, None)] [] tt s.
Proof. intros F. eapply does_same; [| |apply (skip_rest s c [] [] F); right; split; reflexivity]; [rewrite text_cons, !text_one, app_nil_r; reflexivity|intros; reflexivity]. Qed.
(** A line without a key *)
Lemma plain_line q r c t : text q = c :: t -> node_char c -> same_line r -> (forall node, does (yaml_key node 0) [] [] (text q ++ r) false []) -> does (yaml_flow 0 false) [] q r tt [] -> tokenizes highlight_yaml (q ++ [(r, None)]).
Proof.
  intros E C F H G. set (p := q ++ [(r, None)]). assert (Ep : text p = c :: t ++ r) by (unfold p; rewrite text_app, text_one, E; reflexivity).
  assert (N45 : c <> 45%N) by (apply node_char_cases in C as [C _]; lia). assert (Nd : forall u, starts_with (text p) (45%N :: u) = false) by (intros u; rewrite Ep; cbn [starts_with]; rewrite (proj2 (N.eqb_neq c 45)) by assumption; reflexivity).
  eapply one_body with (s' := []); [exact Ep|left; exact C|apply (Nd [45; 45]%N)|]. intros node. eapply body_start; [exact Ep|left; exact C|apply (Nd [45; 45]%N)|]. change (bs "- ") with [45; 32]%N. rewrite Nd. eapply does_nil; [rewrite app_nil_r; unfold p; rewrite text_app, text_one; apply H|]. apply does_get. rewrite app_nil_r.
  assert (Y : yaml_has_node (text p) = true) by (rewrite Ep; unfold yaml_has_node; rewrite value_break by exact C; apply node_char_cases in C as [C _]; rewrite (proj2 (N.eqb_neq c (ch "#"))) by (cbn; lia); reflexivity). rewrite Y.
  unfold p. eapply does_bind; [rewrite text_one, app_nil_r; exact G|]. eapply does_last; [apply skip_last; exact F|]. apply does_ret.
Qed.
(** ** Keys and values *)
Definition after_colon (node : nat -> nat -> M (list nat) unit) (line_indent : nat) : M (list nat) bool :=
    let! r := get_rem in
    when (starts_with_ch r 32) (advance 1) ;;
    yaml_inline_space ;;
    let! r := get_rem in
    if starts_with r (bs "- ") || starts_with r (bs "? ") then
      yaml_skip_line ;;
      yaml_blank_lines ;;
      let! r := get_rem in
      when (match r with [] => false | c :: _ => negb (c =? 13)%N && negb (c =? 10)%N && (line_indent <? yaml_indent r) end)
        (node line_indent 0) ;;
      ret true
    else
      let block := starts_with_ch r (ch "|") || starts_with_ch r (ch ">") in
      when (match r with [] => false | c :: _ => negb (yaml_at_break r) && negb (c =? ch "#")%N end) (yaml_flow line_indent false) ;;
      if block then ret true
      else
        yaml_skip_line ;;
        yaml_blank_lines ;;
        let! r := get_rem in
        when (match r with [] => false | _ => negb (yaml_at_break r) && (line_indent <? yaml_indent r) end)
          (node line_indent 0) ;;
        ret true.
(** The key [k] ends [n] characters before the colon; the character [b] gets the token of the colon. *)
Lemma key_exact node k b n p rest : yaml_colon None (k ++ b :: text p ++ rest) = Some n -> yaml_trim (k ++ b :: text p ++ rest) n = length k -> k <> [] ->
  does (after_colon node 0) [] p rest true [] -> does (yaml_key node 0) [] ((k, Some hl_markup_attr) :: punctuation b :: p) rest true [].
Proof.
  intros C T Ne H. unfold yaml_key, punctuation. apply does_get. rewrite text_cons, text_cons. cbn [app]. rewrite <- app_assoc. cbn [app]. rewrite C. apply does_cons with (x := tt) (s1 := []).
  { unfold yaml_content. apply does_get. rewrite text_one, text_cons, <- app_assoc. cbn [app]. cbv zeta. rewrite T. destruct k; [congruence|]. apply does_emit; [reflexivity|discriminate]. }
  apply does_cons with (x := tt) (s1 := []); [apply does_emit; [reflexivity|discriminate]|]. exact H.
Qed.
Lemma below_last node s c : same_line c -> does (yaml_skip_line ;; yaml_blank_lines ;; (let! r := get_rem in
          when (match r with [] => false | _ => negb (yaml_at_break r) && (0 <? yaml_indent r) end) (node 0 0) ;; ret true)) s [(c, None)] [] true s.
Proof.
  intros F. eapply does_last; [apply skip_last; exact F|]. eapply does_nil; [apply does_stop; apply does_get; apply does_ret|]. apply does_get. cbn. eapply does_nil; [apply does_ret|]. apply does_ret.
Qed.
(** A value and text that is skipped *)
Lemma value_then node b q c t r : spaces b -> text q = c :: t -> node_char c \/ c = 58%N -> same_line r -> does (yaml_flow 0 false) [] q r tt [] -> does (after_colon node 0) [] ((32%N :: b, None) :: q ++ [(r, None)]) [] true [].
Proof.
  intros Hb E Hc F H. assert (C1 : (c = 34 \/ c = 39 \/ 47 <= c)%N /\ ~ In c (bs ";<=>?@]\^`|}")) by (destruct Hc as [Hc| ->]; [apply node_char_cases in Hc; split; [intuition|]; intros I; apply (proj2 Hc); cbn in I |- *; tauto|split; [lia|cbn; intuition discriminate]]). destruct C1 as [C1 C2].
  assert (Fr : forall u, fresh (c :: u)). { intros u. apply fresh_char; try lia. destruct (is_yaml_whitespace c) eqn:X; [|reflexivity]. unfold is_yaml_whitespace in X. apply mem_In in X. cbn in X. lia. }
  unfold after_colon. apply does_get. rewrite text_cons. cbn [app starts_with_ch]. apply (does_join _ _ [32%N] b). apply does_cons with (x := tt) (s1 := []); [apply does_advance; reflexivity|].
  apply does_cons with (x := tt) (s1 := []).
  { unfold yaml_inline_space. apply does_get. rewrite text_one, app_nil_r. rewrite white_exact; [apply does_advance; reflexivity|eapply Forall_impl; [|exact Hb]; cbn beta; auto|]. rewrite text_app, E. apply fresh_white, Fr. }
  apply does_get. rewrite app_nil_r, text_app, E, text_one. cbn [app].
  assert (S1 : forall x u v, In x (bs "-?|>") -> starts_with (c :: v) (x :: u) = false) by (intros x u v Hx; cbn [starts_with]; rewrite (proj2 (N.eqb_neq c x)); [reflexivity|]; intros ->; cbn in Hx; cbn in C2; intuition lia).
  assert (S2 : starts_with (c :: t ++ r) (bs "- ") || starts_with (c :: t ++ r) (bs "? ") = false) by (change (bs "- ") with [45; 32]%N; change (bs "? ") with [63; 32]%N; rewrite !S1 by (cbn; tauto); reflexivity). rewrite S2.
  assert (S3 : starts_with_ch (c :: t ++ r) (ch "|") || starts_with_ch (c :: t ++ r) (ch ">") = false) by (cbn [starts_with_ch]; rewrite (proj2 (N.eqb_neq c (ch "|"))), (proj2 (N.eqb_neq c (ch ">"))); [reflexivity|intros ->; apply C2; cbn; tauto|intros ->; apply C2; cbn; tauto]). rewrite S3. cbv zeta.
  assert (S4 : negb (yaml_at_break (c :: t ++ r)) && negb (c =? ch "#")%N = true) by (rewrite (fresh_no_break (c :: t ++ r)) by apply Fr; rewrite (proj2 (N.eqb_neq c (ch "#"))) by (cbn; lia); reflexivity). rewrite S4. cbv iota.
  eapply does_bind; [rewrite text_one, app_nil_r; exact H|]. apply below_last. exact F.
Qed.
Ltac refute_ H := specialize (H false); vm_compute in H; discriminate H.
Definition key_of (k : str) : piece := (k, Some hl_markup_attr).
Definition skipped (w : str) : piece := (w, None).
Lemma block_key_ne k : block_key k -> k <> [].
Proof. intros H ->. destruct (key_head_char [] H) as (c & t & E & _). discriminate. Qed.
(** A document of one line with a key, a value and text that is skipped *)
Lemma value_line k q c t r : block_key k -> text q = c :: t -> node_char c \/ c = 58%N -> same_line r -> does (yaml_flow 0 false) [] q r tt [] -> tokenizes highlight_yaml (key_of k :: punctuation 58 :: skipped [32%N] :: q ++ [skipped r]).
Proof.
  intros Hk E Hc F H. destruct (key_head_char k Hk) as (x & u & Ek & Hx). eapply key_line; [unfold key_of; rewrite text_cons, Ek; reflexivity|left; exact Hx|]. intros node. eapply key_exact; [apply colon_key; [exact Hk|reflexivity]|apply trim_key; exact Hk|apply block_key_ne; exact Hk|]. eapply value_then; try eassumption. constructor.
Qed.
Lemma single_key c : (97 <= c <= 122)%N -> block_key [c].
Proof.
  intros H. apply key_plain; [left; left; unfold letter; lia|constructor; [unfold key_char; lia|constructor]| |].
  - intros a b E. destruct a as [|x [|y a]]; cbn in E; [injection E; intros; lia|discriminate|discriminate].
  - intros a E. destruct a as [|x [|y a]]; cbn in E; [injection E; intros; lia|discriminate|discriminate].
Qed.
Lemma key_a : block_key (bs "a"). Proof. apply single_key. cbn. lia. Qed.
Lemma plain_b : plain_text (bs "b"). Proof. apply plain_letter. cbn. lia. Qed.
Ltac line_ := repeat (apply Forall_cons; [unfold line_break; cbn; lia|]); apply Forall_nil.

(** ** C183: a comment after a value is highlighted as a comment. *)
Definition quoted (p : list piece) : Prop :=
  (exists body, string_body hl_string double_plain yaml_escape [34%N] true body /\ p = quote 34 :: body ++ [quote 34]) \/ exists t, single_text t /\ p = quote 39 :: opt_piece t hl_string ++ [quote 39].
Definition commented (k : str) (p : list piece) (c : str) : list piece :=
  key_of k :: punctuation 58 :: skipped [32%N] :: p ++ skipped [32%N] :: (bs "#", Some hl_comment_delim) :: opt_piece c hl_comment.
Lemma quoted_scalar p : quoted p -> yaml_scalar p.
Proof. intros [(b & H & ->)|(t & H & ->)]; constructor; exact H. Qed.
Theorem C183_yaml_comment_refuted : ~ (forall k p c, block_key k -> quoted p -> same_line c -> tokenizes highlight_yaml (commented k p c)).
Proof.
  intros H. specialize (H (bs "a") (quote 39 :: opt_piece (bs "b") hl_string ++ [quote 39]) (bs " c") key_a). assert (Q : quoted (quote 39 :: opt_piece (bs "b") hl_string ++ [quote 39])) by (right; exists (bs "b"); split; [|reflexivity]; apply single_char; [unfold line_break; cbn; lia|discriminate|constructor]).
  specialize (H Q ltac:(line_)). refute_ H.
Qed.
Print Assumptions C183_yaml_comment_refuted.
(** It gets no token. *)
Theorem C183_yaml_comment_tokens : forall k p c, block_key k -> quoted p -> same_line c -> tokenizes highlight_yaml (key_of k :: punctuation 58 :: skipped [32%N] :: p ++ [skipped (bs " #" ++ c)]).
Proof.
  intros k p c Hk Hp Hc. destruct (scalar_head p (quoted_scalar p Hp)) as (x & t & E & Hx). assert (F : same_line (bs " #" ++ c)) by (apply Forall_app; split; [line_|exact Hc]).
  eapply value_line; [exact Hk|exact E|left; left; exact Hx|exact F|]. unfold yaml_flow. apply does_get. rewrite Nat.add_1_r.
  assert (Q : x = 34%N \/ x = 39%N) by (destruct Hp as [(b & H & ->)|(u & H & ->)]; injection E as <- _; auto).
  eapply does_leaf; [exact E|left; exact Hx|lia|lia|]. unfold yaml_flow_scalar. apply does_get. destruct Hp as [(b & H & ->)|(u & H & ->)].
  - apply does_double. exact H.
  - apply does_single; [exact H|]. apply not_before_cons. cbn. lia.
Qed.
Print Assumptions C183_yaml_comment_tokens.
Example C183_case : quoted (quote 39 :: opt_piece (bs "b") hl_string ++ [quote 39]) /\ text (commented (bs "a") (quote 39 :: opt_piece (bs "b") hl_string ++ [quote 39]) (bs " c")) = bs "a: 'b' # c".
Proof. split; [|reflexivity]. right. exists (bs "b"). split; [|reflexivity]. apply single_char; [unfold line_break; cbn; lia|discriminate|constructor]. Qed.

(** ** C184: plain text with a comma is one string. *)
Definition with_comma (k w r : str) : list piece := [key_of k; punctuation 58; skipped [32%N]; (w ++ bs "," ++ r, Some hl_string)].
Theorem C184_yaml_comma_refuted : ~ (forall k w r, block_key k -> plain_text w -> plain_text r -> tokenizes highlight_yaml (with_comma k w r)).
Proof. intros H. specialize (H (bs "a") (bs "b") (bs "b") key_a plain_b plain_b). refute_ H. Qed.
Print Assumptions C184_yaml_comma_refuted.
(** The text from the comma on gets no token. *)
Theorem C184_yaml_comma_tokens : forall k w r, block_key k -> plain_text w -> same_line r -> tokenizes highlight_yaml [key_of k; punctuation 58; skipped [32%N]; (w, Some hl_string); skipped (bs "," ++ r)].
Proof.
  intros k w r Hk Hw Hr. destruct (proj1 Hw) as (c & t & E & Hc). eapply (value_line k [(w, Some hl_string)]); [exact Hk|rewrite text_one; exact E|left; left; left; exact Hc|apply Forall_app; split; [line_|exact Hr]|].
  apply does_value; [apply value_scalar, scalar_plain; exact Hw|]. intros x [= <-] H. apply H. cbn. tauto.
Qed.
Print Assumptions C184_yaml_comma_tokens.
Example C184_case : block_key (bs "a") /\ plain_text (bs "b") /\ text (with_comma (bs "a") (bs "b") (bs "b")) = bs "a: b,b".
Proof. split; [exact key_a|]. split; [exact plain_b|reflexivity]. Qed.

(** ** C185: plain text that begins with the word of a constant is one string. *)
Definition with_constant (k w r : str) : list piece := [key_of k; punctuation 58; skipped [32%N]; (w ++ r, Some hl_string)].
Definition more_words (r : str) : Prop := exists c t, (c = 32%N \/ c = 45%N) /\ plain_text t /\ r = c :: t.
Theorem C185_yaml_constant_refuted : ~ (forall k w h r, block_key k -> In (w, h) yaml_constants -> more_words r -> tokenizes highlight_yaml (with_constant k w r)).
Proof. intros H. specialize (H (bs "a") (bs "on") hl_bool (bs "-b") key_a ltac:(cbn; tauto)). assert (R : more_words (bs "-b")) by (exists 45%N, (bs "b"); split; [auto|split; [exact plain_b|reflexivity]]). specialize (H R). refute_ H. Qed.
Print Assumptions C185_yaml_constant_refuted.
(** The word gets the token of the constant and the rest gets no token. *)
Lemma constant_before w h c t : In (w, h) yaml_words -> c = 32%N \/ c = 45%N -> yaml_match_word (w ++ c :: t) = Some (w, h).
Proof. intros H [-> | ->]; cbn in H; repeat (destruct H as [[= <- <-]|H]; [reflexivity|]); contradiction. Qed.
Theorem C185_yaml_constant_tokens : forall k w h r, block_key k -> In (w, h) yaml_constants -> (exists c t, (c = 32%N \/ c = 45%N) /\ same_line t /\ r = c :: t) ->
  tokenizes highlight_yaml [key_of k; punctuation 58; skipped [32%N]; (w, Some h); skipped r].
Proof.
  intros k w h r Hk Hw (x & u & Hx & Hu & ->). destruct (constant_head w h Hw) as (c & t & E & Hc). assert (Hn : node_char c) by (left; unfold head_char, word_start; tauto).
  eapply (value_line k [(w, Some h)]); [exact Hk|rewrite text_one; exact E|left; exact Hn|constructor; [unfold line_break; lia|exact Hu]|].
  unfold yaml_flow. apply does_get. rewrite Nat.add_1_r. unfold letter in Hc. eapply does_leaf; [rewrite text_one; exact E|exact Hn|lia|lia|]. unfold yaml_flow_scalar. apply does_get. rewrite text_one, E. cbn [app]. rewrite (proj2 (N.eqb_neq c 34)), (proj2 (N.eqb_neq c 39)), (proj2 (N.eqb_neq c (ch "*"))) by (cbn; lia).
  unfold yaml_plain. apply does_get. rewrite text_one. cbv zeta. assert (D : (bs "~", hl_null) = (w, h) \/ In (w, h) yaml_words) by (cbn in Hw; cbn; tauto). rewrite <- E. destruct D as [[= <- <-]|D].
  - cbn [app bs starts_with_ch]. apply does_emit; [reflexivity|discriminate].
  - destruct (words_letters _ _ D) as (_ & F & _). assert (T : starts_with_ch (w ++ x :: u) (ch "~") = false). { rewrite E in *. cbn [app starts_with_ch]. inversion F as [|? ? Hl _]; subst. apply N.eqb_neq. unfold letter in Hl. intros ->. cbn in Hl. lia. } rewrite T.
    rewrite (constant_before w h x u D Hx). rewrite skipn_app_exact.
    match goal with |- does (if ?b then _ else _) _ _ _ _ _ => assert (b = true) as -> by (destruct Hx as [-> | ->]; [reflexivity|rewrite orb_true_r; reflexivity]) end. apply does_emit; [reflexivity|rewrite E; discriminate].
Qed.
Print Assumptions C185_yaml_constant_tokens.
Example C185_case : In (bs "on", hl_bool) yaml_constants /\ more_words (bs "-b") /\ text (with_constant (bs "a") (bs "on") (bs "-b")) = bs "a: on-b".
Proof. split; [cbn; tauto|]. split; [|reflexivity]. exists 45%N, (bs "b"). split; [auto|]. split; [exact plain_b|reflexivity]. Qed.

(** ** C186: white space before the colon after a key gets no token, the colon is punctuation, and the value is highlighted. *)
Definition simple_key (k : str) : Prop := exists c t, k = c :: t /\ letter c /\ Forall ident_char t.
Definition spaced_colon (k v : str) : list piece := [key_of k; skipped [32%N]; punctuation 58; skipped [32%N]; (v, Some hl_string)].
Lemma simple_a : simple_key (bs "a").
Proof. exists 97%N, []. split; [reflexivity|]. split; [unfold letter; lia|constructor]. Qed.
Lemma simple_chars k : simple_key k -> Forall (fun c => (48 <= c)%N /\ c <> 58%N) k.
Proof. intros (c & t & -> & Hc & Ht). constructor; [unfold letter in Hc; lia|]. eapply Forall_impl; [|exact Ht]. cbn beta. unfold ident_char, letter, digit. intros; lia. Qed.
Lemma simple_key_chars k : simple_key k -> Forall key_char k.
Proof. intros H. eapply Forall_impl; [|apply simple_chars; exact H]. cbn beta. unfold key_char. intros; lia. Qed.
Lemma no_colon_separates w : Forall (fun c => c <> 58%N) w -> no_separator_inside w.
Proof. intros F a b ->. apply Forall_app in F as [_ F]. inversion F. congruence. Qed.
Theorem C186_yaml_colon_refuted : ~ (forall k v, simple_key k -> plain_text v -> tokenizes highlight_yaml (spaced_colon k v)).
Proof. intros H. specialize (H (bs "a") (bs "b") simple_a plain_b). refute_ H. Qed.
Print Assumptions C186_yaml_colon_refuted.
(** The space gets the token of the colon, and the colon belongs to the value. *)
Lemma after_key_here node q c t : text q = c :: t -> (c = 34 \/ c = 39 \/ 47 <= c)%N -> ~ In c (bs ">?|") -> does (yaml_flow 0 false) [] q [] tt [] -> does (after_colon node 0) [] q [] true [].
Proof.
  intros E C1 C2 H. assert (Fr : fresh (c :: t)). { apply fresh_char; try lia. destruct (is_yaml_whitespace c) eqn:X; [|reflexivity]. unfold is_yaml_whitespace in X. apply mem_In in X. cbn in X. lia. }
  unfold after_colon. apply does_get. rewrite app_nil_r, E. cbn [starts_with_ch]. rewrite (proj2 (N.eqb_neq c 32)) by lia. eapply does_nil; [apply does_ret|]. apply does_nil with (x := tt) (s1 := []).
  { unfold yaml_inline_space. apply does_get. rewrite app_nil_r, E. cbn [text map concat app]. change (length_if (c :: t) is_yaml_whitespace) with (length_if ([] ++ c :: t) is_yaml_whitespace). rewrite white_exact; [apply does_add; apply does_advance; reflexivity|constructor|apply fresh_white; exact Fr]. }
  apply does_get. rewrite app_nil_r, E.
  assert (S1 : forall x u, In x (bs "-?|>") -> starts_with (c :: t) (x :: u) = false) by (intros x u Hx; cbn [starts_with]; rewrite (proj2 (N.eqb_neq c x)); [reflexivity|]; intros ->; cbn in Hx; cbn in C2; intuition lia).
  assert (S2 : starts_with (c :: t) (bs "- ") || starts_with (c :: t) (bs "? ") = false) by (change (bs "- ") with [45; 32]%N; change (bs "? ") with [63; 32]%N; rewrite !S1 by (cbn; tauto); reflexivity). rewrite S2.
  assert (S3 : starts_with_ch (c :: t) (ch "|") || starts_with_ch (c :: t) (ch ">") = false) by (cbn [starts_with_ch]; rewrite (proj2 (N.eqb_neq c (ch "|"))), (proj2 (N.eqb_neq c (ch ">"))); [reflexivity|intros ->; apply C2; cbn; tauto|intros ->; apply C2; cbn; tauto]). rewrite S3. cbv zeta.
  assert (S4 : negb (yaml_at_break (c :: t)) && negb (c =? ch "#")%N = true) by (rewrite fresh_no_break by exact Fr; rewrite (proj2 (N.eqb_neq c (ch "#"))) by (cbn; lia); reflexivity). rewrite S4. cbv iota.
  eapply does_last; [exact H|]. apply does_add. apply (below_last node [] []). constructor.
Qed.
Theorem C186_yaml_colon_tokens : forall k v, simple_key k -> plain_text v -> tokenizes highlight_yaml [key_of k; punctuation 32; (bs ": " ++ v, Some hl_string)].
Proof.
  intros k v Hk Hv. pose proof (simple_chars k Hk) as Fk. destruct Hk as (x & u & Ek & Hx & Hu). assert (Fs : Forall key_char (k ++ [32%N])) by (apply Forall_app; split; [eapply Forall_impl; [|exact Fk]; cbn beta; unfold key_char; intros; lia|constructor; [unfold key_char; lia|constructor]]).
  assert (Sp : no_separator_inside (k ++ [32%N])) by (apply no_colon_separates, Forall_app; split; [eapply Forall_impl; [|exact Fk]; cbn beta; tauto|constructor; [discriminate|constructor]]).
  eapply (key_line _ x); [unfold key_of; rewrite text_cons, Ek; reflexivity|left; left; left; exact Hx|]. intros node. eapply key_exact with (n := length (k ++ [32%N])).
  - rewrite text_one, app_nil_r. change (k ++ 32%N :: bs ": " ++ v) with (k ++ [32%N] ++ 58%N :: 32%N :: v). rewrite app_assoc. apply colon_chars; [exact Fs|exact Sp|reflexivity].
  - rewrite app_length, Nat.add_1_r. cbn [yaml_trim]. rewrite app_nth2, Nat.sub_diag by lia. cbn [nth]. change (is_yaml_whitespace 32) with true. cbv iota. destruct (@exists_last _ k) as (a & y & Ea); [rewrite Ek; discriminate|]. rewrite Ea in *. rewrite app_length, Nat.add_1_r. cbn [yaml_trim]. rewrite <- app_assoc, app_nth2, Nat.sub_diag by lia. cbn [app nth].
    apply Forall_app in Fk as [_ Fk]. inversion Fk as [|? ? Hy _]; subst. destruct (is_yaml_whitespace y) eqn:W; [unfold is_yaml_whitespace in W; apply mem_In in W; cbn in W; lia|reflexivity].
  - rewrite Ek. discriminate.
  - eapply (after_key_here node _ 58 (32%N :: v)); [rewrite text_one; reflexivity|lia|cbn; intuition discriminate|]. unfold yaml_flow. apply does_get. rewrite app_nil_r, text_one, Nat.add_1_r. cbn [yaml_flow_node].
    apply does_no_space; [apply fresh_char; [reflexivity|discriminate..]|]. apply does_get. rewrite app_nil_r, text_one. cbn [length app bs Nat.eqb orb]. change (bs ": " ++ v) with (58%N :: 32%N :: v). rewrite breaks. change ((58 =? 13)%N || (58 =? 10)%N) with false. cbn [length Nat.eqb orb]. cbv iota.
    eapply does_nil; [unfold yaml_properties; apply does_stop; unfold yaml_properties_body; apply does_get; rewrite text_one; cbn; eapply does_nil; [apply does_ret|]; apply does_get; cbn; eapply does_nil; [apply does_ret|]; apply does_ret|].
    apply does_get. rewrite text_one. cbn [app starts_with_ch]. change (58 =? ch "[")%N with false. change (58 =? ch "{")%N with false. change (58 =? ch "|")%N with false. change (58 =? ch ">")%N with false. cbn [orb]. cbv iota. unfold yaml_flow_scalar. apply does_get. rewrite text_one. cbn [app].
    change (58 =? 34)%N with false. change (58 =? 39)%N with false. change (58 =? ch "*")%N with false. cbv iota. unfold yaml_plain. apply does_get. rewrite text_one, app_nil_r. cbn [starts_with_ch]. change (58 =? ch "~")%N with false. cbv iota zeta.
    assert (L : yaml_plain_length true (58%N :: 32%N :: v) = S (S (length v))).
    { cbn [yaml_plain_length]. change (is_yaml_plain_terminator 58) with false. change (is_yaml_plain_terminator 32) with false. cbn [negb andb]. rewrite andb_false_r. cbn [andb]. cbv iota. destruct (proj1 Hv) as (y & w & Ev & Hy). destruct Hv as (_ & Fv & Sv & _).
      assert (A : starts_with_ch v (ch "#") = false) by (rewrite Ev; cbn [starts_with_ch]; apply N.eqb_neq; unfold word_start, letter in Hy; cbn; lia). rewrite A. rewrite andb_false_r. change (32 =? ch ":")%N with false. cbn [andb]. cbn [andb]. cbv iota. f_equal. cbn [N.eqb Pos.eqb andb]. cbv iota. f_equal. rewrite <- (app_nil_r v) at 1. apply plain_length; auto. left. intros z; discriminate. }
    rewrite L. destruct (yaml_match_word (58%N :: 32%N :: v)) as [[z ty]|] eqn:W.
    { exfalso. apply word_in in W as [W1 W2]. destruct (words_letters _ _ W1) as ((a & b & ->) & F & _). inversion F as [|? ? Ha _]; subst. cbn [starts_with] in W2. apply andb_prop in W2 as [W2 _]. apply N.eqb_eq in W2. subst. unfold letter in Ha. lia. }
    eapply does_lift; [apply number_none; right; reflexivity|]. cbn [no_number nr_length Nat.eqb negb andb Nat.ltb Nat.leb when]. apply does_emit; [reflexivity|discriminate].
Qed.
Print Assumptions C186_yaml_colon_tokens.
Example C186_case : simple_key (bs "a") /\ plain_text (bs "b") /\ text (spaced_colon (bs "a") (bs "b")) = bs "a : b".
Proof. split; [exact simple_a|]. split; [exact plain_b|reflexivity]. Qed.

(** ** C187: a flow mapping that is the whole document is highlighted like a flow mapping that is a value. *)
Definition whole_mapping (k : str) (p : list piece) : list piece :=
  (bs "{", Some hl_symbol_brace) :: key_of k :: punctuation 58 :: skipped [32%N] :: p ++ [(bs "}", Some hl_symbol_brace)].
Theorem C187_yaml_mapping_refuted : ~ (forall k p, simple_key k -> yaml_scalar p -> tokenizes highlight_yaml (whole_mapping k p)).
Proof. intros H. specialize (H (bs "a") [(bs "b", Some hl_string)] simple_a (scalar_plain _ plain_b)). refute_ H. Qed.
Print Assumptions C187_yaml_mapping_refuted.
(** The opening brace belongs to the key, and the closing brace gets no token. *)
Theorem C187_yaml_mapping_tokens : forall k p, simple_key k -> yaml_scalar p -> tokenizes highlight_yaml (key_of (bs "{" ++ k) :: punctuation 58 :: skipped [32%N] :: p ++ [skipped (bs "}")]).
Proof.
  intros k p Hk Hp. pose proof (simple_chars k Hk) as Fk. destruct Hk as (x & u & Ek & Hx & Hu). destruct (scalar_head p Hp) as (c & t & E & Hc). eapply (key_line _ 123%N); [reflexivity|right; auto|]. intros node. eapply key_exact with (n := length (bs "{" ++ k)).
  - rewrite app_nil_r. apply colon_chars; [apply Forall_app; split; [constructor; [unfold key_char; cbn; lia|constructor]|eapply Forall_impl; [|exact Fk]; cbn beta; unfold key_char; intros; lia]|apply no_colon_separates, Forall_app; split; [constructor; [discriminate|constructor]|eapply Forall_impl; [|exact Fk]; cbn beta; tauto]|reflexivity].
  - destruct (@exists_last _ k) as (a & y & Ea); [rewrite Ek; discriminate|]. rewrite Ea in *. rewrite app_assoc, app_length, Nat.add_1_r. cbn [yaml_trim]. rewrite <- app_assoc, app_nth2, Nat.sub_diag by lia. cbn [app nth].
    apply Forall_app in Fk as [_ Fk]. inversion Fk as [|? ? Hy _]; subst. destruct (is_yaml_whitespace y) eqn:W; [unfold is_yaml_whitespace in W; apply mem_In in W; cbn in W; lia|reflexivity].
  - discriminate.
  - eapply value_then; [constructor|exact E|left; left; exact Hc|line_|]. apply does_value; [constructor; exact Hp|]. intros y [= <-] G. apply G. cbn. tauto.
Qed.
Print Assumptions C187_yaml_mapping_tokens.
Example C187_case : simple_key (bs "a") /\ yaml_scalar [(bs "b", Some hl_string)] /\ text (whole_mapping (bs "a") [(bs "b", Some hl_string)]) = bs "{a: b}".
Proof. split; [exact simple_a|]. split; [exact (scalar_plain _ plain_b)|reflexivity]. Qed.

(** ** C188: a key may contain an apostrophe. *)
Definition apostrophe (a b v : str) : list piece := [key_of (a ++ 39%N :: b); punctuation 58; skipped [32%N]; (v, Some hl_string)].
Definition no_quote (w : str) : Prop := Forall (fun c => c <> 39%N) w.
Theorem C188_yaml_apostrophe_refuted : ~ (forall a b v, plain_text (a ++ 39%N :: b) -> no_quote a -> no_quote b -> plain_text v -> no_quote v -> tokenizes highlight_yaml (apostrophe a b v)).
Proof.
  intros H. specialize (H (bs "it") (bs "s") (bs "b")). assert (P : plain_text (bs "it" ++ 39%N :: bs "s")).
  { split; [exists 105%N, (116%N :: 39%N :: bs "s"); split; [reflexivity|left; unfold letter; lia]|]. split; [|split; [|split]].
    - repeat (apply Forall_cons; [split; [cbn; lia|cbn; intuition discriminate]|]). apply Forall_nil.
    - apply no_colon_separates. repeat (apply Forall_cons; [discriminate|]). apply Forall_nil.
    - intros a E. cbn in E. repeat (destruct a as [|? a]; cbn in E; [discriminate E|injection E as _ E]). destruct a; discriminate E.
    - intros k h t I E. cbn in I. repeat (destruct I as [[= <- <-]|I]; [discriminate E|]). contradiction. }
  specialize (H P ltac:(repeat (apply Forall_cons; [discriminate|]); apply Forall_nil) ltac:(repeat (apply Forall_cons; [discriminate|]); apply Forall_nil) plain_b ltac:(repeat (apply Forall_cons; [discriminate|]); apply Forall_nil)). refute_ H.
Qed.
Print Assumptions C188_yaml_apostrophe_refuted.
(** The key is a string, and the colon and the value get no token. *)
Lemma colon_in_quote w : Forall (fun c => c <> 39%N) w -> yaml_colon (Some 39%N) w = None.
Proof. induction 1 as [|c w Hc F IH]; [reflexivity|]. cbn [yaml_colon]. destruct ((c =? 13)%N || (c =? 10)%N); [reflexivity|]. rewrite (proj2 (N.eqb_neq c 39)) by assumption. change (39 =? 34)%N with false. rewrite andb_false_r, IH. reflexivity. Qed.
Lemma colon_apostrophe a w : Forall plain_char a -> no_separator_inside (a ++ [39%N]) -> no_quote a -> no_quote w -> yaml_colon None (a ++ 39%N :: w) = None.
Proof.
  intros F. induction F as [|c a (H1 & H2) F IH]; intros S Qa Qw; cbn [app yaml_colon].
  - change ((39 =? 13)%N || (39 =? 10)%N) with false. change ((39 =? 34)%N || (39 =? 39)%N) with true. cbv iota. rewrite colon_in_quote by exact Qw. reflexivity.
  - inversion Qa as [|? ? Q1 Q2]; subst. assert (c <> 34%N) by (intros ->; apply H2; cbn; tauto). rewrite (proj2 (N.eqb_neq c 13)), (proj2 (N.eqb_neq c 10)), (proj2 (N.eqb_neq c 34)), (proj2 (N.eqb_neq c 39)) by (try assumption; lia). cbn [orb]. destruct (c =? ch "#")%N; [reflexivity|].
    assert (X : (c =? ch ":")%N && yaml_separates (a ++ 39%N :: w) = false).
    { destruct (N.eqb_spec c (ch ":")) as [->|]; [|reflexivity]. destruct (S [] (a ++ [39%N]) eq_refl) as [_ S2]. destruct a as [|x a]; [reflexivity|]. inversion F as [|? ? (Hx & _) _]; subst. cbn [app hd_error] in S2. cbn [app yaml_separates]. rewrite breaks, (proj2 (N.eqb_neq x 32)), (proj2 (N.eqb_neq x 13)), (proj2 (N.eqb_neq x 10)) by (try lia; congruence). reflexivity. }
    rewrite X, IH; [reflexivity| |exact Q2|exact Qw]. intros p q E. apply (S (c :: p) q). cbn [app]. rewrite E. reflexivity.
Qed.
Theorem C188_yaml_apostrophe_tokens : forall a b v, plain_text (a ++ 39%N :: b) -> no_quote a -> no_quote b -> same_line v -> no_quote v ->
  tokenizes highlight_yaml [(a ++ 39%N :: b, Some hl_string); skipped (bs ": " ++ v)].
Proof.
  intros a b v Hk Qa Qb Hv Qv. destruct (proj1 Hk) as (c & t & E & Hc). assert (Hn : node_char c) by (left; left; exact Hc).
  apply (plain_line [(a ++ 39%N :: b, Some hl_string)] (bs ": " ++ v) c t); [rewrite text_one; exact E|exact Hn|apply Forall_app; split; [line_|exact Hv]| |].
  - intros node. unfold yaml_key. apply does_get. cbn [text map concat app fst]. rewrite app_nil_r, <- app_assoc. cbn [app]. rewrite colon_apostrophe; [apply does_ret| | |exact Qa|].
    + destruct Hk as (_ & F & _). apply Forall_app in F. tauto.
    + intros p q Ep. destruct Hk as (_ & _ & S & _). destruct (S p (q ++ b)) as [_ S2]; [rewrite app_comm_cons, app_assoc, <- Ep, <- app_assoc; reflexivity|]. destruct q as [|y q]; [|split; [discriminate|exact S2]]. exfalso. apply app_inj_tail in Ep as [_ Ep]. discriminate.
    + apply Forall_app. split; [exact Qb|]. apply Forall_app. split; [repeat (apply Forall_cons; [discriminate|]); apply Forall_nil|exact Qv].
  - unfold yaml_flow. apply does_get. rewrite Nat.add_1_r. unfold word_start, letter in Hc. eapply does_leaf; [rewrite text_one; exact E|exact Hn|lia|lia|]. unfold yaml_flow_scalar. apply does_get. rewrite text_one, E. cbn [app]. rewrite (proj2 (N.eqb_neq c 34)), (proj2 (N.eqb_neq c 39)), (proj2 (N.eqb_neq c (ch "*"))) by (cbn; lia).
    rewrite <- E. apply (does_plain [] false _ _ (plain_is_word _ Hk)). right. exists v. reflexivity.
Qed.
Print Assumptions C188_yaml_apostrophe_tokens.
Example C188_case : text (apostrophe (bs "it") (bs "s") (bs "b")) = bs "it's: b" /\ no_quote (bs "it") /\ plain_text (bs "b").
Proof. split; [reflexivity|]. split; [repeat (apply Forall_cons; [discriminate|]); apply Forall_nil|exact plain_b]. Qed.

(** ** C189: white space after plain text does not belong to its token. *)
Definition trailing (k v b : str) : list piece := [key_of k; punctuation 58; skipped [32%N]; (v, Some hl_string); skipped b].
Theorem C189_yaml_trailing_refuted : ~ (forall k v b, block_key k -> plain_text v -> spaces b -> tokenizes highlight_yaml (trailing k v b)).
Proof. intros H. specialize (H (bs "a") (bs "b") (bs " ") key_a plain_b ltac:(repeat constructor)). refute_ H. Qed.
Print Assumptions C189_yaml_trailing_refuted.
(** The token ends at the end of the line. *)
Lemma word_spaces v b : plain_text v -> spaces b -> plain_word (v ++ b).
Proof.
  intros ((c & t & -> & Hc) & F & S & E & K) Hb. split; [exists c, (t ++ b); split; [reflexivity|exact Hc]|]. split; [|split].
  - apply Forall_app. split; [exact F|]. eapply Forall_impl; [|exact Hb]. cbn beta. intros x ->. split; [lia|cbn; intuition discriminate].
  - clear - S Hb. generalize dependent (c :: t). clear c t. intros w S a r Er. revert a Er. induction w as [|x w IH]; intros a Er.
    + exfalso. cbn [app] in Er. subst b. apply Forall_app in Hb as [_ Hb]. inversion Hb; discriminate.
    + destruct a as [|y a]; cbn [app] in Er.
      * injection Er as -> <-. destruct (S [] w eq_refl) as [S1 S2]. destruct w as [|y w]; [congruence|]. split; [discriminate|exact S2].
      * injection Er as -> Er. apply (IH (fun p q Ep => S (y :: p) q (f_equal (cons y) Ep)) a Er).
  - intros k h u I Eu. assert (L : In (k, h) yaml_words \/ k = bs "~") by (cbn in I; repeat (destruct I as [[= <- <-]|I]; [first [right; reflexivity|left; cbn; tauto]|]); contradiction). destruct L as [L| ->]; [|exfalso; cbn in Eu; injection Eu as -> _; unfold word_start, letter in Hc; lia].
    destruct (words_letters _ _ L) as (_ & Fk & _). destruct (letters_prefix k (c :: t) b Fk) as (u' & Eu').
    + intros x Ex. destruct b as [|y b]; [discriminate|]. injection Ex as <-. inversion Hb; subst. unfold letter. lia.
    + rewrite Eu. clear. induction k as [|x k IH]; [destruct u; reflexivity|]. cbn [app starts_with]. rewrite N.eqb_refl. exact IH.
    + destruct (K k h u' I Eu') as (x & w & -> & Hx). exists x, (w ++ b). split; [|exact Hx]. rewrite Eu', <- app_assoc in Eu. apply app_inv_head in Eu. symmetry. exact Eu.
Qed.
Theorem C189_yaml_trailing_tokens : forall k v b, block_key k -> plain_text v -> spaces b -> tokenizes highlight_yaml [key_of k; punctuation 58; skipped [32%N]; (v ++ b, Some hl_string)].
Proof.
  intros k v b Hk Hv Hb strict. pose proof (word_spaces v b Hv Hb) as W. destruct (proj1 W) as (c & t & E & Hc). assert (Hn : node_char c) by (left; left; exact Hc).
  assert (T : tokenizes highlight_yaml (key_of k :: punctuation 58 :: skipped [32%N] :: [(v ++ b, Some hl_string)] ++ [skipped []])).
  { eapply value_line; [exact Hk|rewrite text_one; exact E|left; exact Hn|constructor|]. unfold yaml_flow. apply does_get. rewrite Nat.add_1_r. unfold word_start, letter in Hc. eapply does_leaf; [rewrite text_one; exact E|exact Hn|lia|lia|]. unfold yaml_flow_scalar. apply does_get. rewrite text_one, E. cbn [app]. rewrite (proj2 (N.eqb_neq c 34)), (proj2 (N.eqb_neq c 39)), (proj2 (N.eqb_neq c (ch "*"))) by (cbn; lia).
    rewrite <- E. apply (does_plain [] false _ _ W). left. intros z; discriminate. }
  exact (T strict).
Qed.
Print Assumptions C189_yaml_trailing_tokens.
Example C189_case : spaces (bs "  ") /\ text (trailing (bs "a") (bs "b") (bs "  ")) = bs "a: b  ".
Proof. split; [repeat constructor|reflexivity]. Qed.

(** ** C190: text after the marker that begins a document is highlighted. *)
Definition after_marker (v : str) : list piece := [(bs "---", Some hl_symbol_punc); skipped [32%N]; (v, Some hl_string)].
Theorem C190_yaml_marker_refuted : ~ (forall v, plain_text v -> tokenizes highlight_yaml (after_marker v)).
Proof. intros H. specialize (H (bs "b") plain_b). refute_ H. Qed.
Print Assumptions C190_yaml_marker_refuted.
(** It gets no token. *)
Theorem C190_yaml_marker_tokens : forall v, same_line v -> tokenizes highlight_yaml [(bs "---", Some hl_symbol_punc); skipped v].
Proof.
  intros v Hv strict. unfold highlight_yaml. eapply does_run with (s' := []); [reflexivity|]. set (p := [(bs "---", Some hl_symbol_punc); skipped v]). assert (E : text p = 45%N :: 45%N :: 45%N :: v) by (unfold p, skipped; rewrite text_cons, text_one; reflexivity).
  assert (Ne : text p <> []) by (rewrite E; discriminate). assert (F : fresh (text p)) by (rewrite E; apply fresh_char; [reflexivity|discriminate..]). apply does_nil with (x := tt) (s1 := []).
  { rewrite app_nil_r. apply does_add. apply (does_prefix [] [([], None)]); [constructor; [constructor|exact F]|exact Ne]. }
  eapply does_last; [|apply does_ret]. unfold while_rem. rewrite <- (app_nil_r p). eapply does_unroll; [|exact Ne|apply does_stop; apply does_eof_end; apply does_ret]. apply does_eof; [rewrite app_nil_r; exact Ne|]. eapply does_last; [|apply does_ret]. eapply does_last; [|apply does_eof_end; apply does_ret].
  cbn [text map concat app]. unfold yaml_document. apply does_set_loc. apply does_no_space; [rewrite app_nil_r; exact F|]. apply does_eof; [rewrite app_nil_r; exact Ne|]. apply does_get. rewrite app_nil_r, E.
  change (yaml_indent (45%N :: 45%N :: 45%N :: v)) with 0. change (starts_with (45%N :: 45%N :: 45%N :: v) (bs "---")) with (starts_with v []). assert (Sv : starts_with v [] = true) by (destruct v; reflexivity). rewrite Sv. cbn [Nat.eqb andb when].
  eapply does_last.
  { unfold p. apply does_cons with (x := tt) (s1 := []); [apply does_emit; [reflexivity|discriminate]|]. eapply does_last; [apply skip_last; exact Hv|]. apply does_add. apply does_gap; [constructor|intros x y; discriminate]. }
  apply does_get. cbn. eapply does_nil; [apply does_ret|]. unfold yaml_body. apply does_eof_end. apply does_ret.
Qed.
Print Assumptions C190_yaml_marker_tokens.
Example C190_case : same_line (bs " b") /\ text (after_marker (bs "b")) = bs "--- b".
Proof. split; [line_|reflexivity]. Qed.
