(** * Where COWEL line splices end *)
From Coq Require Import List NArith ZArith Bool Arith Lia.
From Verif Require Import M_Base L_Base S_Tokens M_Utf8 L_Utf8 M_Types M_Chars M_Parse M_Emit M_Api M_Highlighter S_Highlight L_Highlighter S_Json S_Lexemes L_Lexemes L_Number L_Does M_LangCowel S_LangCowel P_LangCowelLexemes P_LangCowelDocument P_LangCowelExact P_LangCowelCase.
Import ListNotations.

(** A line splice and then text without a backslash. *)
Definition splice_then (l : list piece) (w : str) : list piece := ((bs "\ ", Some hl_string_interpolation_delim) :: l) ++ [(w, None)].
Definition plain_text (w : str) : Prop := w <> [] /\ ~ In 92%N w.
Lemma plain_document w : ~ In 92%N w -> cowel_plain in_document 0 w 0.
Proof.
  induction w as [|c w IH]; intros H; [constructor|]. apply plain_char; [intros ->; apply H; left; reflexivity|discriminate|intros [X|X]; discriminate X|]. apply IH. intros X. apply H. right. exact X.
Qed.
Lemma splice_document l w : cowel_line l w -> plain_text w -> cowel_pieces (splice_then l w).
Proof.
  intros H [W1 W2]. apply content_item; [discriminate|rewrite text_one; cbn [text map concat]; rewrite app_nil_r; apply item_line; exact H|].
  apply (content_text in_document 0 w 0); [exact W1|apply plain_document; exact W2|left; reflexivity|]. apply content_end. reflexivity.
Qed.
(** ** C129: white space at the end of the line *)
(** The splice ends with its line if no white space comes before the line break and its expressions are on that line. *)
Theorem C129_cowel_line_splice_ends_partial : forall l w, cowel_line l w -> plain_text w -> tokenizes highlight_cowel (splice_then l w).
Proof. intros l w H W. apply C128_cowel_document. apply splice_document; assumption. Qed.
Print Assumptions C129_cowel_line_splice_ends_partial.
Lemma splice_case : cowel_line ([(bs "x", Some hl_name_var)] ++ [([10%N], None)]) (bs "foo") /\ plain_text (bs "foo").
Proof.
  split; [|split; [discriminate|no]]. apply line_expression; [|repeat (apply Forall_cons; [no|]); constructor|apply line_end; left; reflexivity].
  apply word_x; [right; no|no|start|]. exists [([10%N], None)], (bs "foo"). split; [reflexivity|]. split; [apply blanks_space; [repeat constructor; right; no|constructor]|]. split; [solid|start].
Qed.
Example C129_case : exists l w, cowel_line l w /\ plain_text w.
Proof. eexists _, _. exact splice_case. Qed.
(** With a space before the line break, the splice goes on in the next line: its text is highlighted as a variable. *)
Theorem C129_cowel_line_splice_ends_refuted : exists l s w, cowel_line (l ++ [([10%N], None)]) w /\ plain_text w /\ s <> [] /\ Forall cowel_horizontal s
  /\ highlight_cowel (text (splice_then (l ++ [(s, None); ([10%N], None)]) w)) false
     = Ok (true, [OEmit 0 2 hl_string_interpolation_delim false; OEmit 2 1 hl_name_var false; OEmit 5 3 hl_name_var false])
  /\ ~ tokenizes highlight_cowel (splice_then (l ++ [(s, None); ([10%N], None)]) w).
Proof.
  exists [(bs "x", Some hl_name_var)], (bs " "), (bs "foo"). split; [apply splice_case|]. split; [apply splice_case|]. split; [discriminate|]. split; [repeat constructor; no|]. split; [vm_compute; reflexivity|].
  intros K. specialize (K false). vm_compute in K. discriminate.
Qed.
Print Assumptions C129_cowel_line_splice_ends_refuted.

(** ** C130: a call at the end of the line *)
Definition call_then (n : str) (g b : list piece) (w : str) : list piece := splice_then (((n, Some hl_markup_tag) :: g ++ b) ++ [([10%N], None)]) w.
(** The splice ends with its line after a call with a block. *)
Theorem C130_cowel_line_call_partial : forall n g b w, identifier n -> cowel_group g (text b ++ [10%N] ++ w) -> S_LangCowel.cowel_block b ([10%N] ++ w) ->
  Forall (fun c => ~ cowel_newline c) (n ++ text g ++ text b) -> plain_text w -> tokenizes highlight_cowel (call_then n g b w).
Proof.
  intros n g b w Hn Hg Hb F W. apply C129_cowel_line_splice_ends_partial; [|exact W]. apply line_expression; [|rewrite text_cons, text_app; exact F|apply line_end; left; reflexivity].
  apply (expression_call n [] g [] b); [exact Hn|constructor| |apply arguments_some|constructor| |apply block_some; exact Hb].
  - destruct Hg as [b0 m r _ _]. rewrite text_cons. eexists _, _. split; [reflexivity|left; reflexivity].
  - exact Hg.
  - destruct Hb as [c r _]. rewrite text_cons. apply solid_member. left. right. right. cbn. auto.
Qed.
Print Assumptions C130_cowel_line_call_partial.
Lemma empty_block rest : S_LangCowel.cowel_block [(bs "{", Some hl_symbol_brace); (bs "}", Some hl_symbol_brace)] rest.
Proof. apply (block_ [] rest). apply content_end. eexists _, _. split; reflexivity. Qed.
Lemma empty_group rest : cowel_group [(bs "(", Some hl_symbol_parens); (bs ")", Some hl_symbol_parens)] rest.
Proof. apply (group_ [] _ rest); [constructor|apply members_end]. Qed.
Example C130_case : exists n g b w, identifier n /\ cowel_group g (text b ++ [10%N] ++ w) /\ S_LangCowel.cowel_block b ([10%N] ++ w) /\ Forall (fun c => ~ cowel_newline c) (n ++ text g ++ text b) /\ plain_text w.
Proof.
  eexists (bs "f"), _, _, (bs "foo"). split; [ident|]. split; [apply empty_group|]. split; [apply empty_block|]. split; [repeat (apply Forall_cons; [no|]); constructor|apply splice_case].
Qed.
(** Without a block, the call takes the line break, and the next line is highlighted as an expression. *)
Theorem C130_cowel_line_call_refuted : exists n g w, identifier n /\ cowel_group g ([10%N] ++ w) /\ Forall (fun c => ~ cowel_newline c) (n ++ text g) /\ plain_text w
  /\ highlight_cowel (text (call_then n g [] w)) false
     = Ok (true, [OEmit 0 2 hl_string_interpolation_delim false; OEmit 2 1 hl_markup_tag false; OEmit 3 1 hl_symbol_parens false; OEmit 4 1 hl_symbol_parens false; OEmit 6 3 hl_name_var false])
  /\ ~ tokenizes highlight_cowel (call_then n g [] w).
Proof.
  eexists (bs "f"), _, (bs "foo"). split; [ident|]. split; [apply empty_group|]. split; [repeat (apply Forall_cons; [no|]); constructor|]. split; [apply splice_case|]. split; [vm_compute; reflexivity|].
  intros K. specialize (K false). vm_compute in K. discriminate.
Qed.
Print Assumptions C130_cowel_line_call_refuted.

(** ** C131: a line splice in the last line *)
(** Without a line break after it, a line splice is not recognised, and nothing after it is highlighted. *)
Theorem C131_cowel_last_line_refuted : forall s strict, Forall (fun c => ~ cowel_newline c) s -> highlight_cowel (bs "\ " ++ s) strict = Ok (true, []).
Proof.
  intros s strict F. unfold highlight_cowel. set (r := bs "\ " ++ s). rewrite Nat.add_1_r. cbn [cowel_nested snd]. fold (grp (length r)). fold (seq (length r)).
  assert (Nf : find_first_of r [13; 10]%N 2 = None).
  { unfold r, find_first_of, find_if_from. change (skipn 2 (bs "\ " ++ s)) with s. replace (find_if (fun c => mem c [13; 10]%N) s) with (@None nat); [reflexivity|]. symmetry. clear r. induction F as [|c s Hc F IH]; [reflexivity|]. cbn [find_if].
    replace (mem c [13; 10]%N) with false; [rewrite IH; reflexivity|]. symmetry. destruct (mem c [13; 10]%N) eqn:M; [|reflexivity]. elim Hc. apply mem_In in M. unfold cowel_newline. cbn [In] in *. tauto. }
  assert (E : forall x o, wp (cowel_sequence_round (grp (length r)) (seq (length r)) cowel_document 0) (fun b st => b = inr tt /\ rops st = o) (mk_hst r x o tt)).
  { intros x o. unfold cowel_sequence_round. change (0 <? 0)%Z with false. cbv iota. unfold cowel_expect_content.
    assert (D : does (cowel_expect_content (grp (length r)) (seq (length r)) cowel_document 0) tt [] r (false, 0%Z) tt).
    { apply content_start; [lia|apply (item_no_escape 32%N); auto|]. skip_ no_directive; [intros c t [= <- _]; unfold ident_start, letter; lia|]. skip_ no_splice; [intros c t [= <- _]; discriminate|].
      eapply does_nil; [instantiate (1 := tt); instantiate (1 := false); unfold cowel_expect_line_splice; apply does_get; cbn [text map concat app]; change (starts_with r [92; 32]%N) with true; rewrite Nf; apply does_ret|].
      cbv iota. apply skip_comments; [intros c t [= <- _]; no|]. unfold cowel_expect_text. apply does_check; [reflexivity|]. apply does_get. cbn [text map concat app]. change (cowel_text cowel_document r 0) with (0, 0%Z). cbv iota beta. cbn [Nat.eqb]. apply does_ret. }
    apply wp_bind. eapply wp_mono; [exact (D x o)|]. cbn beta. intros ? ? [-> ->]. apply wp_ret. split; reflexivity. }
  assert (L : wp (cowel_sequence_body (grp (length r)) (seq (length r)) cowel_document ;; ret true) (fun b st => b = true /\ rops st = []) (mk_hst r 0 [] tt)).
  { apply wp_bind. eapply wp_mono.
    - unfold cowel_sequence_body. apply (wp_hloop 1 _ (fun z st => z = 0%Z /\ st = mk_hst r 0 [] tt) (fun _ st => length (rem st)) (fun _ st => rops st = [])); [split; reflexivity|cbn [rem]; lia|].
      intros z st [-> ->]. eapply wp_mono; [apply E|]. cbn beta. intros b st' [-> Eo]. exact Eo.
    - cbn beta. intros ? st Eo. apply wp_ret. split; [reflexivity|exact Eo]. }
  unfold run. unfold wp in L. destruct ((_ ;; _) _) as [[b st]|]; [|contradiction]. destruct L as [-> ->]. reflexivity.
Qed.
Print Assumptions C131_cowel_last_line_refuted.
(** With a line break at the end of the source, it is highlighted. *)
Theorem C131_cowel_last_line_partial : forall l, cowel_line l [] -> tokenizes highlight_cowel ((bs "\ ", Some hl_string_interpolation_delim) :: l).
Proof.
  intros l H. rewrite <- (app_nil_r l). apply C128_cowel_document. apply (content_item in_document 0 ((bs "\ ", Some hl_string_interpolation_delim) :: l) []); [discriminate|apply item_line; exact H|apply content_end; reflexivity].
Qed.
Print Assumptions C131_cowel_last_line_partial.
Example C131_case : exists l, cowel_line l [] /\ length (text l) = 2.
Proof.
  exists ([(bs "x", Some hl_name_var)] ++ [([10%N], None)]). split; [|reflexivity]. apply line_expression; [|repeat (apply Forall_cons; [no|]); constructor|apply line_end; left; reflexivity].
  apply word_x; [right; no|no|start|]. exists [([10%N], None)], []. split; [reflexivity|]. split; [apply blanks_space; [repeat constructor; right; no|constructor]|]. split; [split; [intros y E; discriminate E|intros ? ? [=]]|intros y E; discriminate E].
Qed.
