(** * C191-C193: the tokens of TeX and LaTeX documents *)
From Coq Require Import List NArith ZArith Bool Arith Lia.
From Verif Require Import M_Base L_Base M_Emit S_Ops L_Emit M_Types M_Chars M_Parse L_Parse S_Utf8 M_Api M_Highlighter L_Highlighter L_Auto S_Lexemes L_Lexemes L_Does M_LangSmall.
Import ListNotations.

(** ** Specification: the lexemes of TeX. [tex_lexeme p rest] says that the pieces [p] form a lexeme if [rest] follows. *)
Definition tex_special_char (c : N) : Prop := In c (bs "~%$#&^_@").
Inductive tex_lexeme : list piece -> str -> Prop :=
| tex_text c rest : ~ In c (bs "[]{}\") -> ~ tex_special_char c -> tex_lexeme [([c], None)] rest
| tex_square c rest : In c (bs "[]") -> tex_lexeme [([c], Some hl_symbol_square)] rest
| tex_brace c rest : In c (bs "{}") -> tex_lexeme [([c], Some hl_symbol_brace)] rest
| tex_operator c rest : tex_special_char c -> tex_lexeme [([c], Some hl_symbol_op)] rest
| tex_command w rest : w <> [] -> Forall letter w -> not_before letter rest -> tex_lexeme [(92%N :: w, Some hl_markup_tag)] rest
| tex_escape c rest : ~ letter c -> tex_lexeme [([92; c]%N, Some hl_string_escape)] rest
| tex_lone : tex_lexeme [([92%N], Some hl_error)] [].
Definition tex_document : list piece -> Prop := program (fun _ => False) tex_lexeme.

(** ** C191: every source is a sequence of these lexemes, and gets exactly their tokens. *)
Lemma special_mem c : is_tex_special c = true <-> c = 92%N \/ tex_special_char c.
Proof. unfold is_tex_special. rewrite mem_In. unfold tex_special_char. cbn. intuition. Qed.
Lemma alpha_letter c : is_ascii_alpha c = true <-> letter c.
Proof. unfold is_ascii_alpha, is_ascii_lower_alpha, is_ascii_upper_alpha, between, letter. rewrite orb_true_iff, !andb_true_iff, !N.leb_le. tauto. Qed.
Lemma letters_length w rest : Forall letter w -> not_before letter rest -> length_if (w ++ rest) is_ascii_alpha = length w.
Proof.
  intros F R. rewrite length_if_eq. induction F as [|c w Hc F IH]; cbn [app prefix_len length].
  - destruct rest as [|c rest]; [reflexivity|]. cbn [prefix_len]. destruct (is_ascii_alpha c) eqn:E; [|reflexivity]. apply alpha_letter in E. elim (R c eq_refl E).
  - apply alpha_letter in Hc. rewrite Hc, IH. reflexivity.
Qed.
(** One step before a token: the text [w] before it has been looked at. *)
Lemma tex_flush_does w rest : does (tex_flush (length w)) tt [(w, None)] rest tt tt.
Proof. unfold tex_flush. destruct w as [|c w]; [|apply does_advance; reflexivity]. cbn [length Nat.eqb negb when]. eapply does_same; [| |apply does_ret]; [reflexivity|]. intros i. reflexivity. Qed.
Lemma tex_step w p rest : tex_lexeme p rest -> (exists t, p = [(t, None)]) \/ does (tex_body (length w)) tt ((w, None) :: p) rest (inl 0) tt.
Proof.
  intros H. destruct H as [c rest H1 H2|c rest H|c rest H|c rest H|v rest N F R|c rest H|].
  1: { left. eauto. }
  all: right; unfold tex_body; apply does_get; rewrite text_cons, <- app_assoc.
  all: match goal with |- context [if negb (length ?v <? length ?r) then _ else _] => assert (L : negb (length v <? length r) = false) by (apply Bool.negb_false_iff, Nat.ltb_lt; rewrite app_length; cbn; lia) end; rewrite L.
  all: eapply does_at; [rewrite nth_error_app2 by lia; rewrite Nat.sub_diag; reflexivity|]; cbv beta.
  - assert (E : mem c (bs "[]") = true) by (apply mem_In; exact H). rewrite E. eapply does_cons; [apply tex_flush_does|]. eapply does_last; [apply does_emit; [reflexivity|discriminate]|apply does_ret].
  - assert (E : mem c (bs "[]") = false) by (destruct (mem c (bs "[]")) eqn:E; [|reflexivity]; apply mem_In in E; cbn in E, H; lia). rewrite E. assert (E' : mem c (bs "{}") = true) by (apply mem_In; exact H). rewrite E'. eapply does_cons; [apply tex_flush_does|]. eapply does_last; [apply does_emit; [reflexivity|discriminate]|apply does_ret].
  - assert (E : mem c (bs "[]") = false) by (destruct (mem c (bs "[]")) eqn:E; [|reflexivity]; apply mem_In in E; unfold tex_special_char in H; cbn in E, H; lia). rewrite E.
    assert (E' : mem c (bs "{}") = false) by (destruct (mem c (bs "{}")) eqn:E'; [|reflexivity]; apply mem_In in E'; unfold tex_special_char in H; cbn in E', H; lia). rewrite E'.
    assert (E2 : (c =? ch "\")%N = false) by (apply N.eqb_neq; intros ->; unfold tex_special_char in H; cbn in H; lia). rewrite E2. assert (E3 : is_tex_special c = true) by (apply special_mem; tauto). rewrite E3. eapply does_cons; [apply tex_flush_does|]. eapply does_last; [apply does_emit; [reflexivity|discriminate]|apply does_ret].
  - change (mem 92 (bs "[]")) with false. change (mem 92 (bs "{}")) with false. change (92 =? ch "\")%N with true. cbv iota. eapply does_cons; [apply tex_flush_does|]. apply does_get. rewrite text_cons. cbn [app text map concat]. rewrite app_nil_r. apply does_check; [reflexivity|]. cbn [length Nat.eqb skipn].
    assert (L1 : (length (v ++ rest) =? 0) = false) by (apply Nat.eqb_neq; rewrite app_length; destruct v; [congruence|cbn; lia]). rewrite L1. rewrite letters_length by assumption. cbv zeta. apply does_check; [reflexivity|]. assert (L2 : (1 + length v =? 1) = false) by (apply Nat.eqb_neq; destruct v; [congruence|cbn; lia]). rewrite L2. eapply does_last; [apply does_emit; [reflexivity|discriminate]|apply does_ret].
  - change (mem 92 (bs "[]")) with false. change (mem 92 (bs "{}")) with false. change (92 =? ch "\")%N with true. cbv iota. eapply does_cons; [apply tex_flush_does|]. apply does_get. cbn [app text map concat fst length Nat.eqb skipn]. apply does_check; [reflexivity|]. cbv iota. rewrite length_if_eq. cbn [prefix_len]. destruct (is_ascii_alpha c) eqn:E; [apply alpha_letter in E; contradiction|]. cbv zeta. apply does_check; [reflexivity|]. cbn [Nat.add Nat.eqb]. eapply does_last; [apply does_emit; [reflexivity|discriminate]|apply does_ret].
  - change (mem 92 (bs "[]")) with false. change (mem 92 (bs "{}")) with false. change (92 =? ch "\")%N with true. cbv iota. eapply does_cons; [apply tex_flush_does|]. apply does_get. cbn [app text map concat fst length Nat.eqb skipn]. apply does_check; [reflexivity|]. cbv iota. eapply does_last; [apply does_emit; [reflexivity|discriminate]|apply does_ret].
Qed.
Lemma tex_cases l : tex_document l -> (forall i, text l = [] /\ tokens i l = []) \/ exists p q, text l = text p ++ text q /\ (forall i, tokens i l = tokens i p ++ tokens (i + length (text p)) q) /\ tex_lexeme p (text q) /\ tex_document q.
Proof.
  intros P. induction P as [|b l F H IH|p q Hp H IH].
  - left. split; reflexivity.
  - destruct F as [|x b F _]; [|contradiction]. rewrite text_cons. cbn [app]. destruct IH as [IH|(p & q & I1 & I2 & I3)].
    + left. intros i. cbn [tokens]. split; [exact (proj1 (IH 0))|]. apply IH.
    + right. exists p, q. split; [exact I1|]. split; [|exact I3]. intros i. cbn [tokens length]. rewrite Nat.add_0_r. apply I2.
  - right. exists p, q. rewrite text_app. split; [reflexivity|]. split; [|auto]. intros i. apply tokens_app.
Qed.
Lemma lexeme_nonempty p rest : tex_lexeme p rest -> 0 < length (text p).
Proof. intros []; cbn; lia. Qed.
Theorem C191_tex_lexemes : forall l, tex_document l -> tokenizes highlight_tex l /\ tokenizes highlight_latex l.
Proof.
  assert (G : forall l, tex_document l -> tokenizes highlight_tex l); [|intros l H; split; apply G; exact H]. intros l Hl strict. unfold highlight_tex, run.
  assert (W : wp (hloop 1 tex_body 0) (fun b st' => b = true /\ rops st' = rev (tokens 0 l)) (mk_hst (text l) 0 [] tt)).
  { apply wp_hloop with (mu := fun a st' => length (rem st') - a)
      (Inv := fun a st' => exists w l1, tex_document l1 /\ a = length w /\ rem st' = w ++ text l1 /\ rev (rops st') ++ tokens (idx st' + length w) l1 = tokens 0 l).
    - exists [], l. repeat split. exact Hl.
    - cbn [rem]. lia.
    - intros a [r i o []] (w & l1 & D & -> & R & T). cbn [rem idx rops loc] in *. subst r. destruct (tex_cases l1 D) as [C|(p & q & C1 & C2 & Hp & Dq)].
      + destruct (C (i + length w)) as [C1 C2]. rewrite C1, app_nil_r. rewrite C2, app_nil_r in T. unfold tex_body. apply wp_bind, wp_get_rem. cbn [rem]. rewrite Nat.ltb_irrefl. cbn [negb]. apply wp_bind. rewrite <- (app_nil_r w). pose proof (tex_flush_does w [] i o) as F. rewrite text_cons in F. cbn [text map concat] in F. rewrite !app_nil_r in F. rewrite !app_nil_r. eapply wp_mono; [exact F|]. cbn beta. intros _ st' [_ ->]. apply wp_ret. split; [reflexivity|]. cbn [rops tokens rev app]. rewrite <- T, rev_involutive. reflexivity.
      + rewrite C1, C2 in *. destruct (tex_step w p (text q) Hp) as [(t & ->)|S].
        * inversion Hp as [c ? H1 H2| | | | | |]; subst. cbn [text map concat fst app] in *. unfold tex_body. apply wp_bind, wp_get_rem. cbn [rem].
          match goal with |- context [negb (length w <? length ?r)] => assert (L : negb (length w <? length r) = false) by (apply Bool.negb_false_iff, Nat.ltb_lt; rewrite app_length; cbn; lia); rewrite L end. apply wp_bind. eapply wp_at_is; [rewrite nth_error_app2 by lia; rewrite Nat.sub_diag; reflexivity|].
          assert (E : mem c (bs "[]") = false) by (destruct (mem c (bs "[]")) eqn:E; [|reflexivity]; apply mem_In in E; exfalso; apply H1; cbn in *; tauto). rewrite E.
          assert (E' : mem c (bs "{}") = false) by (destruct (mem c (bs "{}")) eqn:E'; [|reflexivity]; apply mem_In in E'; exfalso; apply H1; cbn in *; tauto). rewrite E'.
          assert (E2 : (c =? ch "\")%N = false) by (apply N.eqb_neq; intros ->; apply H1; cbn; tauto). rewrite E2. assert (E3 : is_tex_special c = false) by (destruct (is_tex_special c) eqn:E3; [|reflexivity]; apply special_mem in E3 as [->|E3]; [elim H1; cbn; tauto|contradiction]). rewrite E3. apply wp_ret. cbn [rem idx rops loc]. split; [|rewrite app_length; cbn; lia].
          exists (w ++ [c]), q. rewrite app_length. cbn [length]. split; [exact Dq|]. split; [reflexivity|]. split; [rewrite <- app_assoc; reflexivity|]. rewrite <- T. cbn [tokens app length]. f_equal. f_equal. lia.
        * specialize (S i o). rewrite text_cons in S. rewrite <- app_assoc in S. eapply wp_mono; [exact S|]. cbn beta. intros ? ? [-> ->]. cbn [rem idx rops loc]. split.
          -- exists [], q. split; [exact Dq|]. split; [reflexivity|]. split; [reflexivity|]. cbn [length tokens]. rewrite rev_app_distr, rev_involutive, <- app_assoc, <- T, app_length. do 2 f_equal. f_equal. lia.
          -- rewrite !app_length. pose proof (lexeme_nonempty p _ Hp). lia. }
  unfold wp in W. destruct (hloop 1 tex_body 0 (mk_hst (text l) 0 [] tt)) as [[b st']|]; [|contradiction]. destruct W as [-> ->]. rewrite rev_involutive. reflexivity.
Qed.
Print Assumptions C191_tex_lexemes.
(** The lexemes cover every source. *)
Lemma letters_split s : exists w rest, s = w ++ rest /\ Forall letter w /\ not_before letter rest.
Proof.
  induction s as [|c s (w & rest & -> & F & R)]; [exists [], []; repeat split; [constructor|intros c; discriminate]|].
  destruct (is_ascii_alpha c) eqn:E.
  - exists (c :: w), rest. repeat split; [|exact R]. constructor; [apply alpha_letter; exact E|exact F].
  - exists [], (c :: w ++ rest). repeat split; [constructor|]. intros x [= <-] H. apply alpha_letter in H. congruence.
Qed.
Theorem C191_tex_every_source : forall src, exists l, tex_document l /\ text l = src.
Proof.
  intros src. remember (length src) as n eqn:En. assert (L : length src <= n) by lia. clear En. revert src L. induction n as [|n IH]; intros src L.
  { destruct src; [|cbn in L; lia]. exists []. split; [constructor|reflexivity]. }
  destruct src as [|c s]; [exists []; split; [constructor|reflexivity]|]. cbn [length] in L.
  assert (G : forall p rest, c :: s = text p ++ rest -> tex_lexeme p rest -> exists l, tex_document l /\ text l = c :: s).
  { intros p rest E H. pose proof (lexeme_nonempty p rest H) as P. assert (Lr : length rest <= n) by (apply (f_equal (@length N)) in E; rewrite app_length in E; cbn [length] in E; lia). destruct (IH rest Lr) as (l & D & T). exists (p ++ l). rewrite text_app, T. split; [|symmetry; exact E]. apply program_lexeme; [rewrite T; exact H|exact D]. }
  destruct (in_dec N.eq_dec c (bs "[]")) as [I|N1]; [apply (G [([c], Some hl_symbol_square)] s eq_refl); constructor; exact I|].
  destruct (in_dec N.eq_dec c (bs "{}")) as [I|N2]; [apply (G [([c], Some hl_symbol_brace)] s eq_refl); constructor; exact I|].
  destruct (in_dec N.eq_dec c (bs "~%$#&^_@")) as [I|N3]; [apply (G [([c], Some hl_symbol_op)] s eq_refl); constructor; exact I|].
  destruct (N.eq_dec c 92) as [->|N4]; [|apply (G [([c], None)] s eq_refl); constructor; [|exact N3]; cbn in *; intuition].
  destruct (letters_split s) as ([|x w] & rest & -> & F & R).
  - destruct rest as [|c rest]; [apply (G [([92%N], Some hl_error)] [] eq_refl); constructor|]. apply (G [([92; c]%N, Some hl_string_escape)] rest eq_refl). constructor. apply R. reflexivity.
  - apply (G [(92%N :: x :: w, Some hl_markup_tag)] rest); [cbn; rewrite app_nil_r; reflexivity|]. constructor; [discriminate|exact F|exact R].
Qed.
Print Assumptions C191_tex_every_source.
Example C191_case : tex_document [(bs "\section", Some hl_markup_tag); (bs "{", Some hl_symbol_brace); (bs "A", None); (bs "\&", Some hl_string_escape); (bs "}", Some hl_symbol_brace)].
Proof.
  apply (program_lexeme _ _ [_]); [apply (tex_command (bs "section")); [discriminate|apply Forall_forall; intros x Hx; cbn in Hx; unfold letter; lia|intros c [= <-]; unfold letter; lia]|].
  apply (program_lexeme _ _ [_]); [apply tex_brace; cbn; tauto|]. apply (program_lexeme _ _ [_]); [apply (tex_text 65); unfold tex_special_char; cbn; intuition discriminate|]. apply (program_lexeme _ _ [_]); [apply (tex_escape 38); unfold letter; lia|]. apply (program_lexeme _ _ [_]); [apply tex_brace; cbn; tauto|constructor].
Qed.

(** ** C192: text from a percent sign to the end of its line is a comment. *)
Definition comment_token (o : out_op) : Prop := match o with OEmit _ _ ty _ => ty = hl_comment \/ ty = hl_comment_delim | ONested _ _ _ _ => False end.
Theorem C192_tex_comment_refuted : ~ (forall t, Forall (fun c => c <> 10 /\ c <> 13)%N t -> exists ops, highlight_tex (bs "%" ++ t) false = Ok (true, ops) /\ Forall comment_token ops).
Proof.
  intros H. destruct (H (bs "\a")) as (ops & E & F); [repeat (apply Forall_cons; [split; discriminate|]); apply Forall_nil|]. vm_compute in E. injection E as <-. inversion F as [|? ? C _]. destruct C as [C|C]; discriminate C.
Qed.
Print Assumptions C192_tex_comment_refuted.
(** The percent sign is an operator, and what follows is highlighted as if it were no comment. *)
Theorem C192_tex_comment_tokens : forall l, tex_document l -> tokenizes highlight_tex ((bs "%", Some hl_symbol_op) :: l).
Proof. intros l H. apply C191_tex_lexemes. apply (program_lexeme _ _ [_]); [|exact H]. apply (tex_operator 37). unfold tex_special_char. cbn. tauto. Qed.
Print Assumptions C192_tex_comment_tokens.
Example C192_case : tex_document [(bs "\a", Some hl_markup_tag)].
Proof. apply (program_lexeme _ _ [_]); [apply (tex_command (bs "a")); [discriminate|apply Forall_forall; intros x Hx; cbn in Hx; unfold letter; lia|intros c; discriminate]|constructor]. Qed.

(** ** C193: an escape covers the whole character after the backslash. *)
Theorem C193_tex_escape_refuted : ~ (forall c, scalar_value c -> ~ letter c -> tokenizes highlight_tex [(92%N :: utf8_encoding c, Some hl_string_escape)]).
Proof. intros H. specialize (H 233%N ltac:(unfold scalar_value; lia) ltac:(unfold letter; lia) false). vm_compute in H. discriminate H. Qed.
Print Assumptions C193_tex_escape_refuted.
(** The token ends after the first byte of the character, so it holds only the ASCII characters. *)
Theorem C193_tex_escape_tokens : forall c, scalar_value c -> ~ letter c -> exists b t, utf8_encoding c = b :: t /\ (t = [] <-> (c < 128)%N) /\ tokenizes highlight_tex [([92%N; b], Some hl_string_escape); (t, None)].
Proof.
  intros c Hc Hl.
  assert (G : forall b t, ~ letter b -> Forall (fun x => 128 <= x)%N t -> tokenizes highlight_tex [([92%N; b], Some hl_string_escape); (t, None)]).
  { intros b t Hb Ht strict. destruct (C191_tex_lexemes (([92%N; b], Some hl_string_escape) :: map (fun x => ([x], None)) t)) as [H _].
    - apply (program_lexeme _ _ [_]); [constructor; exact Hb|]. induction Ht as [|x t Hx Ht IH]; [constructor|]. apply (program_lexeme _ _ [_]); [|exact IH]. constructor; unfold tex_special_char; cbn; lia.
    - assert (E1 : text (map (fun x => ([x], @None N)) t) = t) by (clear; induction t as [|x t IH]; [reflexivity|cbn [map]; rewrite text_cons, IH; reflexivity]).
      assert (E2 : forall i, tokens i (map (fun x => ([x], @None N)) t) = []) by (clear; induction t as [|x t IH]; intros i; [reflexivity|apply IH]).
      specialize (H strict). rewrite text_cons, E1 in H. cbn [tokens] in H. rewrite E2 in H. unfold text. cbn [map concat fst tokens]. rewrite app_nil_r. exact H. }
  unfold utf8_encoding. destruct (N.ltb_spec c 0x80); [exists c, []; split; [reflexivity|]; split; [tauto|]; apply G; [exact Hl|constructor]|].
  destruct (N.ltb_spec c 0x800); [|destruct (N.ltb_spec c 0x10000)]; (eexists; eexists; split; [reflexivity|]; split; [split; [discriminate|lia]|]; apply G; [unfold letter; lia|repeat (constructor; [lia|]); constructor]).
Qed.
Print Assumptions C193_tex_escape_tokens.
Example C193_case : scalar_value 233 /\ ~ letter 233 /\ utf8_encoding 233 = [195; 169]%N.
Proof. split; [unfold scalar_value; lia|]. split; [unfold letter; lia|reflexivity]. Qed.
