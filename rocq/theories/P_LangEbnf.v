(** * C194: the tokens of EBNF grammars *)
From Coq Require Import List NArith ZArith Bool Arith Lia.
From Verif Require Import M_Base L_Base S_Tokens M_Emit S_Ops L_Emit M_Types M_Chars M_Parse L_Parse M_Api M_Highlighter L_Highlighter L_Auto
  S_Json L_JsonText S_Lexemes L_Lexemes S_LexemesForced L_FDoes M_LangSmall.
Import ListNotations.

(** ** Specification: grammars of EBNF (ISO 14977, with hyphens and underscores in names) as sequences of pieces. *)
Definition ebnf_white (c : N) : Prop := In c [32; 9; 13; 10; 11]%N.
Definition ebnf_name_char (c : N) : Prop := letter c \/ digit c \/ c = 45%N \/ c = 95%N.
(** Names begin with a letter or underscore; after a name and space, a further part of the name may begin with a digit. *)
Definition ebnf_name (named : bool) (w : str) : Prop := exists c t, w = c :: t /\ (letter c \/ c = 95%N \/ named = true /\ digit c) /\ Forall ebnf_name_char t.
(** The symbols of a definition *)
Definition ebnf_symbols : list (str * N) :=
  [(bs "=", hl_symbol_punc); (bs ",", hl_symbol_op); (bs "|", hl_symbol_op); (bs "!", hl_symbol_op); (bs "/", hl_symbol_op);
   (bs ":", hl_symbol_op); (bs "*", hl_symbol_op); (bs "-", hl_symbol_op); (bs "(", hl_symbol_parens); (bs ")", hl_symbol_parens);
   (bs "[", hl_symbol_square); (bs "]", hl_symbol_square); (bs "(/", hl_symbol_parens); (bs "/)", hl_symbol_parens);
   (bs "{", hl_symbol_brace); (bs "}", hl_symbol_brace); (bs "(:", hl_symbol_brace); (bs ":)", hl_symbol_brace)].
Definition ebnf_comment_symbols : list (str * N) := [(bs "(*", hl_comment_delim); (bs "*)", hl_comment_delim)].
(** Characters that have no place in a grammar *)
Definition ebnf_foreign (c : N) : Prop := ~ ebnf_name_char c /\ ~ ebnf_white c /\ ~ In c (bs "=,|!/:*()[]{};.?") /\ ~ In c [39; 34; 96]%N.
(** [ebnf_pieces left named l]: the rest of a grammar. [left] says that names are being declared, that is, a rule begins or has
    begun, and [named] that there has been a name since the last symbol, so that digits belong to the name. *)
Inductive ebnf_pieces : bool -> bool -> list piece -> Prop :=
| ebnf_end left named : ebnf_pieces left named []
| ebnf_space left named c l : ebnf_white c -> ebnf_pieces left named l -> ebnf_pieces left named (([c], None) :: l)
| ebnf_comment left named t l : ~ contains t (bs "*)") -> ebnf_pieces left named l ->
    ebnf_pieces left named ((bs "(*", Some hl_comment_delim) :: opt_piece t hl_comment ++ (bs "*)", Some hl_comment_delim) :: l)
| ebnf_declared named w l : ebnf_name named w -> not_before ebnf_name_char (text l) -> ebnf_pieces true true l ->
    ebnf_pieces true named ((w, Some hl_name_nonterminal_decl) :: l)
| ebnf_used named w l : ebnf_name named w -> not_before ebnf_name_char (text l) -> ebnf_pieces false true l ->
    ebnf_pieces false named ((w, Some hl_name_nonterminal) :: l)
| ebnf_number left w l : w <> [] -> Forall digit w -> not_before digit (text l) -> ebnf_pieces left false l ->
    ebnf_pieces left false ((w, Some hl_number) :: l)
| ebnf_symbol left named w h l : In (w, h) ebnf_symbols -> longest (ebnf_symbols ++ ebnf_comment_symbols) w (text l) -> ebnf_pieces false false l ->
    ebnf_pieces left named ((w, Some h) :: l)
| ebnf_string left named q t l : In q [39; 34; 96]%N -> ~ In q t -> ebnf_pieces false false l ->
    ebnf_pieces left named (([q], Some hl_string_delim) :: opt_piece t hl_string ++ ([q], Some hl_string_delim) :: l)
| ebnf_special left named t l : ~ In 63%N t -> ebnf_pieces false false l ->
    ebnf_pieces left named ((63%N :: t ++ [63%N], Some hl_name_macro) :: l)
| ebnf_terminator left named c l : In c (bs ";.") -> ebnf_pieces true false l ->
    ebnf_pieces left named (([c], Some hl_symbol_punc) :: l)
(** The end symbol of a comment outside of comments, and characters that have no place in a grammar, which change nothing else *)
| ebnf_stray left named l : ebnf_pieces left named l -> ebnf_pieces left named ((bs "*)", Some hl_comment_delim) :: l)
| ebnf_error left named w l : w <> [] -> Forall ebnf_foreign w -> not_before ebnf_foreign (text l) -> ebnf_pieces left named l ->
    ebnf_pieces left named ((w, Some hl_error) :: l)
(** At the end, a comment, string or special sequence may be unfinished. *)
| ebnf_open_comment left named t : ~ contains t (bs "*)") -> ebnf_pieces left named ((bs "(*", Some hl_comment_delim) :: opt_piece t hl_comment)
| ebnf_open_string left named q t : In q [39; 34; 96]%N -> ~ In q t -> ebnf_pieces left named (([q], Some hl_string_delim) :: opt_piece t hl_string)
| ebnf_open_special left named t : ~ In 63%N t -> ebnf_pieces left named [(63%N :: t, Some hl_name_macro)].
Definition ebnf_grammar : list piece -> Prop := ebnf_pieces true false.
(** The tokens a user gets *)
Fixpoint user_tokens (i : nat) (l : list piece) : list token :=
  match l with
  | [] => []
  | (t, Some h) :: l => mk_token i (length t) h :: user_tokens (i + length t) l
  | (t, None) :: l => user_tokens (i + length t) l
  end.

(** ** How names and numbers are given: character by character, joined *)
Definition spelled (h : N) : Prop := h = hl_name_nonterminal_decl \/ h = hl_name_nonterminal \/ h = hl_number \/ h = hl_error.
Definition own (h : N) : N -> Prop := if (h =? hl_number)%N then digit else if (h =? hl_error)%N then ebnf_foreign else ebnf_name_char.
Inductive expands : list piece -> list fpiece -> Prop :=
| expands_end : expands [] []
| expands_keep t h l f : t <> [] -> ~ spelled h -> expands l f -> expands ((t, Some h) :: l) (alone t h :: f)
| expands_bare t l f : expands l f -> expands ((t, None) :: l) (bare t :: f)
| expands_spell c t h b l f : spelled h -> expands l f -> expands ((c :: t, Some h) :: l) (([c], Some (h, b)) :: map (fun x => joined [x] h) t ++ f).
Lemma spell_text h t : ftext (map (fun x => joined [x] h) t) = t.
Proof. induction t as [|c t IH]; [reflexivity|]. cbn [map]. unfold joined at 1. rewrite ftext_cons, IH. reflexivity. Qed.
Lemma expands_text l f : expands l f -> ftext f = text l.
Proof.
  induction 1 as [|t h l f Nt H E IH|t l f E IH|c t h b l f H E IH]; [reflexivity|..].
  - unfold alone. rewrite ftext_cons, text_cons, IH. reflexivity.
  - unfold bare. rewrite ftext_cons, text_cons, IH. reflexivity.
  - rewrite ftext_cons, text_cons, ftext_app, spell_text, IH. reflexivity.
Qed.
Lemma expands_app p l q f : expands p q -> expands l f -> expands (p ++ l) (q ++ f).
Proof. induction 1; intros; cbn [app]; rewrite <- ?app_assoc; try (constructor; auto); auto. Qed.

(** ** The tokens after joining *)
Lemma spell_rtokens h t : forall i b n acc, b + n = i -> rtokens false (mk_token b n h :: acc) (ftokens i (map (fun x => joined [x] h) t)) = mk_token b (n + length t) h :: acc.
Proof.
  induction t as [|c t IH]; intros i b n acc E; cbn [map ftokens rtokens length]; [rewrite Nat.add_0_r; reflexivity|].
  unfold joined at 1. cbn [ftokens length rtokens out_op_rtokens add_token tk_type tk_begin tk_len]. rewrite N.eqb_refl, (proj2 (Nat.eqb_eq _ _) E). cbn [orb andb]. rewrite IH by lia. do 2 f_equal. lia.
Qed.
(** The last token so far is not continued by the text that follows. *)
Definition apart (acc : list token) (i : nat) (rest : str) : Prop :=
  forall t acc', acc = t :: acc' -> tk_begin t + tk_len t <= i /\ (tk_begin t + tk_len t = i -> spelled (tk_type t) -> not_before (own (tk_type t)) rest).
Lemma spell_first b h c t i acc f : spelled h -> apart acc i (c :: t ++ ftext f) -> own h c ->
  rtokens false acc (ftokens i (([c], Some (h, b)) :: map (fun x => joined [x] h) t ++ f)) = rtokens false (mk_token i (length (c :: t)) h :: acc) (ftokens (i + length (c :: t)) f).
Proof.
  intros Hs A D. cbn [ftokens rtokens length]. rewrite ftokens_app, spell_text.
  assert (E : out_op_rtokens false acc (OEmit i 1 h b) = mk_token i 1 h :: acc).
  { cbn [out_op_rtokens]. unfold add_token. destruct acc as [|u acc]; [reflexivity|]. destruct ((b || false) && (tk_type u =? h)%N && (tk_begin u + tk_len u =? i)) eqn:E; [|reflexivity]. exfalso. apply andb_prop in E as [E E3]. apply andb_prop in E as [_ E2]. apply N.eqb_eq in E2. apply Nat.eqb_eq in E3. subst h. exact (proj2 (A u acc eq_refl) E3 Hs c eq_refl D). }
  rewrite E. assert (Ra : forall a b acc, rtokens false acc (a ++ b) = rtokens false (rtokens false acc a) b) by (intros a; induction a as [|x a IH]; intros; [reflexivity|]; cbn [app rtokens]; apply IH). rewrite Ra, spell_rtokens by reflexivity.
  replace (i + 1 + length t) with (i + S (length t)) by lia. reflexivity.
Qed.

(** Names and numbers are not followed by their own characters. *)
Fixpoint fine (l : list piece) : Prop :=
  match l with
  | [] => True
  | (w, Some h) :: l => (spelled h -> (exists c t, w = c :: t /\ own h c) /\ not_before (own h) (text l)) /\ fine l
  | (w, None) :: l => w <> [] /\ fine l
  end.
Lemma joined_tokens l f : expands l f -> fine l -> forall i acc, apart acc i (text l) -> rtokens false acc (ftokens i f) = rev (user_tokens i l) ++ acc.
Proof.
  induction 1 as [|t h l f Nt H E IH|t l f E IH|c t h b l f H E IH]; intros F i acc A.
  - reflexivity.
  - cbn [ftokens user_tokens rtokens out_op_rtokens alone]. destruct F as [_ F]. assert (X : add_token false false acc i (length t) h = mk_token i (length t) h :: acc) by (destruct acc; reflexivity). rewrite X, IH; [cbn [rev]; rewrite <- app_assoc; reflexivity|exact F|]. intros u acc' [= <- <-]. cbn [tk_begin tk_len tk_type]. split; [lia|]. intros _ X1. elim (H X1).
  - cbn [ftokens user_tokens bare]. destruct F as [Nt F]. apply IH; [exact F|]. intros u acc' Eu. destruct (A u acc' Eu) as [A1 _]. assert (0 < length t) by (destruct t; [congruence|cbn; lia]). split; [lia|]. intros Eq. lia.
  - destruct F as [F1 F2]. destruct (F1 H) as ((c' & t' & [= <- <-] & D) & N). rewrite (spell_first b h c t i acc f H); [|rewrite (expands_text l f E); rewrite text_cons in A; exact A|exact D]. rewrite IH; [cbn [user_tokens rev]; rewrite <- app_assoc; reflexivity|exact F2|].
    intros u acc' [= <- <-]. cbn [tk_begin tk_len tk_type]. split; [apply Nat.le_refl|]. intros _ _. exact N.
Qed.
Lemma table_not_spelled w h : In (w, h) ebnf_symbols -> ~ spelled h.
Proof. intros I. cbn in I. unfold spelled. repeat (destruct I as [[= <- <-]|I]; [intros [H|[H|[H|H]]]; discriminate H|]). contradiction. Qed.
Ltac other := let X := fresh in intros [X|[X|[X|X]]]; discriminate X.
Lemma pieces_fine left named l : ebnf_pieces left named l -> fine l.
Proof.
  induction 1 as [| left named c l H P IH|left named t l H P IH|named w l (c & t & -> & Hc & Ht) R P IH|named w l (c & t & -> & Hc & Ht) R P IH|left w l N F R P IH|left named w h l I L P IH|left named q t l I Nq P IH|left named t l Nq P IH|left named c l I P IH|left named l P IH|left named w l N F R P IH|left named t H|left named q t I Nq|left named t Nq]; cbn [fine].
  - exact I.
  - split; [discriminate|exact IH].
  - split; [other|]. destruct t as [|x t]; cbn [opt_piece app fine]; repeat (split; [other|]); exact IH.
  - split; [|exact IH]. intros _. split; [exists c, t; split; [reflexivity|]; change (ebnf_name_char c); unfold ebnf_name_char; tauto|exact R].
  - split; [|exact IH]. intros _. split; [exists c, t; split; [reflexivity|]; change (ebnf_name_char c); unfold ebnf_name_char; tauto|exact R].
  - split; [|exact IH]. intros _. split; [|exact R]. destruct F as [|c t Hc F]; [congruence|]. exists c, t. split; [reflexivity|exact Hc].
  - split; [|exact IH]. intros S. elim (table_not_spelled _ _ I S).
  - split; [other|]. destruct t as [|x t]; cbn [opt_piece app fine]; repeat (split; [other|]); exact IH.
  - split; [other|exact IH].
  - split; [other|exact IH].
  - split; [other|exact IH].
  - split; [|exact IH]. intros _. split; [|exact R]. destruct F as [|c t Hc F]; [congruence|]. exists c, t. split; [reflexivity|exact Hc].
  - split; [other|]. destruct t as [|x t]; cbn [opt_piece fine]; repeat (split; [other|]); exact Logic.I.
  - split; [other|]. destruct t as [|x t]; cbn [opt_piece fine]; repeat (split; [other|]); exact Logic.I.
  - split; [other|exact Logic.I].
Qed.

(** ** One round of the highlighter *)
Definition in_state (left named : bool) : ebnf_state :=
  match left, named with true, false => left_before_name | true, true => left_in_name | false, false => right_before_name | false, true => right_in_name end.
Lemma fdoes_set {S} (s s1 : S) rest : fdoes (set_loc s1) s [] rest tt s1.
Proof. intros i o. apply wp_set_loc_exact. split; [reflexivity|]. cbn. rewrite Nat.add_0_r. reflexivity. Qed.
Lemma does_ebnf_set st s p rest : fdoes (ebnf_set st) (s, p) [] rest tt (st, p).
Proof. unfold ebnf_set. apply fdoes_get_loc. apply fdoes_set. Qed.
Lemma finish st prev (c : N) rest : fdoes (let! l := get_loc in set_loc (fst l, c)) (st, prev : N) [] rest tt (st : ebnf_state, c).
Proof. apply fdoes_get_loc. apply fdoes_set. Qed.
Ltac no_mem c := repeat match goal with
  | |- context [mem c ?s] => let E := fresh in assert (E : mem c s = false) by (destruct (mem c s) eqn:E; [|reflexivity]; exfalso; apply mem_In in E; cbn in E; lia); rewrite E; clear E
  | |- context [(c =? ch ?x)%N] => let E := fresh in assert (E : (c =? ch x)%N = false) by (apply N.eqb_neq; cbn; lia); rewrite E; clear E
  end.
Lemma round_letter left named prev c rest : letter c \/ c = 95%N ->
  fdoes ebnf_body (in_state left named, prev) [([c], Some (if left then hl_name_nonterminal_decl else hl_name_nonterminal, named))] rest tt (in_state left true, c).
Proof.
  intros Hc. unfold letter in Hc. unfold ebnf_body. apply fdoes_get. rewrite ftext_cons. cbn [app]. eapply fdoes_at; [reflexivity|]. apply fdoes_get_loc. cbv zeta beta. eapply fdoes_last; [|apply finish]. no_mem c.
  assert (D : is_ascii_digit c = false) by (destruct (is_ascii_digit c) eqn:D; [|reflexivity]; apply digit_iff in D; unfold digit in D; lia). rewrite D.
  assert (X : is_ascii_alpha c || (c =? ch "_")%N = true) by (unfold is_ascii_alpha, is_ascii_lower_alpha, is_ascii_upper_alpha, between; rewrite !orb_true_iff, !andb_true_iff, !N.leb_le, N.eqb_eq; cbn; lia). rewrite X. cbn [fst].
  destruct left, named; cbn [in_state]; try (eapply fdoes_nil; [apply does_ebnf_set|]); apply fdoes_emit_c; (reflexivity || discriminate).
Qed.
Lemma round_name left prev c rest : ebnf_name_char c -> is_ebnf_relaxed_meta_identifier prev = true ->
  fdoes ebnf_body (in_state left true, prev) [joined [c] (if left then hl_name_nonterminal_decl else hl_name_nonterminal)] rest tt (in_state left true, c).
Proof.
  intros Hc Hp. destruct Hc as [Hc|[Hc|[->|Hc]]]; [apply (round_letter left true); tauto| | |apply (round_letter left true); tauto].
  - unfold ebnf_body. apply fdoes_get. unfold joined. rewrite ftext_cons. cbn [app]. eapply fdoes_at; [reflexivity|]. apply fdoes_get_loc. cbv zeta beta. eapply fdoes_last; [|apply finish]. pose proof Hc as Hd. unfold digit in Hc. no_mem c. rewrite (proj2 (digit_iff c) Hd). cbn [fst]. destruct left; cbn [in_state]; apply fdoes_emit_c; (reflexivity || discriminate).
  - unfold ebnf_body. apply fdoes_get. unfold joined. rewrite ftext_cons. cbn [app]. eapply fdoes_at; [reflexivity|]. apply fdoes_get_loc. cbv zeta beta. eapply fdoes_last; [|apply finish]. cbn [mem existsb bs]. destruct left; cbn [in_state fst snd]; rewrite Hp; apply fdoes_emit_c; (reflexivity || discriminate).
Qed.
Lemma round_first left named prev c rest : letter c \/ c = 95%N \/ named = true /\ digit c ->
  fdoes ebnf_body (in_state left named, prev) [([c], Some (if left then hl_name_nonterminal_decl else hl_name_nonterminal, named))] rest tt (in_state left true, c).
Proof.
  intros [Hc|[Hc|[-> Hc]]]; [apply round_letter; tauto|apply round_letter; tauto|].
  unfold ebnf_body. apply fdoes_get. rewrite ftext_cons. cbn [app]. eapply fdoes_at; [reflexivity|]. apply fdoes_get_loc. cbv zeta beta. eapply fdoes_last; [|apply finish]. pose proof Hc as Hd. unfold digit in Hc. no_mem c. rewrite (proj2 (digit_iff c) Hd). cbn [fst]. destruct left; cbn [in_state]; apply fdoes_emit_c; (reflexivity || discriminate).
Qed.
Lemma first_name named c : letter c \/ c = 95%N \/ named = true /\ digit c -> is_ebnf_relaxed_meta_identifier c = true.
Proof.
  unfold is_ebnf_relaxed_meta_identifier, is_ascii_alphanumeric. rewrite !orb_true_iff, digit_iff, mem_In. unfold letter, is_ascii_alpha, is_ascii_lower_alpha, is_ascii_upper_alpha, between. rewrite !orb_true_iff, !andb_true_iff, !N.leb_le. cbn. intuition lia.
Qed.
Lemma round_digit left prev c rest : digit c -> fdoes ebnf_body (in_state left false, prev) [joined [c] hl_number] rest tt (in_state left false, c).
Proof.
  intros Hc. unfold ebnf_body. apply fdoes_get. unfold joined. rewrite ftext_cons. cbn [app]. eapply fdoes_at; [reflexivity|]. apply fdoes_get_loc. cbv zeta beta. eapply fdoes_last; [|apply finish]. pose proof Hc as Hd. unfold digit in Hc. no_mem c. rewrite (proj2 (digit_iff c) Hd). cbn [fst]. destruct left; cbn [in_state]; apply fdoes_emit_c; (reflexivity || discriminate).
Qed.
Lemma round_space s prev c rest : ebnf_white c -> fdoes ebnf_body (s, prev) [bare [c]] rest tt (s, c).
Proof.
  intros Hc. unfold ebnf_body. apply fdoes_get. unfold bare. rewrite ftext_cons. cbn [app]. eapply fdoes_at; [reflexivity|]. apply fdoes_get_loc. cbv zeta beta. eapply fdoes_last; [|apply finish]. cbn in Hc. repeat (destruct Hc as [<-|Hc]; [apply fdoes_advance; reflexivity|]). contradiction.
Qed.
Lemma delimited open close t t1 t2 t3 s rest : open <> [] -> close <> [] -> find_sub (t ++ close ++ rest) close = Some (length t) ->
  fdoes (ebnf_consume_delimited open close t1 t2 t3) s (alone open t1 :: fopt t t2 ++ [alone close t3]) rest tt s.
Proof.
  intros No Nc F. unfold ebnf_consume_delimited. apply fdoes_get. assert (E : ftext (alone open t1 :: fopt t t2 ++ [alone close t3]) ++ rest = open ++ t ++ close ++ rest).
  { unfold alone at 1. rewrite ftext_cons, ftext_app. assert (X : ftext (fopt t t2) = t) by (destruct t; [reflexivity|cbn; rewrite app_nil_r; reflexivity]). rewrite X. unfold alone. rewrite ftext_cons. cbn [ftext map concat]. rewrite app_nil_r, <- !app_assoc. reflexivity. }
  rewrite E. apply fdoes_check; [apply starts_with_app; eauto|]. cbv zeta. unfold find_str. rewrite (proj2 (Nat.ltb_ge _ _)) by (rewrite app_length; lia). rewrite skipn_app_exact, F. cbn [option_map].
  eapply fdoes_cons; [apply fdoes_emit; [reflexivity|exact No]|]. eapply fdoes_bind; [|apply fdoes_emit; [reflexivity|exact Nc]].
  assert (X : (length open <? length open + length t) = negb (length open + length t - length open =? 0)) by (destruct t; cbn [length]; [rewrite Nat.add_0_r, Nat.sub_diag, Nat.ltb_irrefl; reflexivity|]; rewrite (proj2 (Nat.ltb_lt _ _)) by lia; symmetry; apply Bool.negb_true_iff, Nat.eqb_neq; lia). rewrite X. apply fdoes_opt. lia.
Qed.
Lemma find_star t rest : ~ contains t (bs "*)") -> find_sub (t ++ bs "*)" ++ rest) (bs "*)") = Some (length t).
Proof.
  change (bs "*)") with [42; 41]%N. induction t as [|c t IH]; intros H; [reflexivity|]. cbn [app find_sub starts_with].
  assert (X : (c =? 42)%N && starts_with (t ++ 42%N :: 41%N :: rest) [41%N] = false).
  { destruct (N.eqb_spec c 42) as [->|]; [|reflexivity]. destruct t as [|d t]; [reflexivity|]. cbn [app starts_with]. destruct (N.eqb_spec d 41) as [->|]; [|reflexivity]. elim H. exists [], t. reflexivity. }
  cbn [starts_with] in X. change (t ++ [42; 41]%N ++ rest) with (t ++ 42%N :: 41%N :: rest) in IH. rewrite X, IH; [reflexivity|]. intros (a & b & E). apply H. exists (c :: a), b. rewrite E. reflexivity.
Qed.
Lemma find_quote q t rest : ~ In q t -> find_sub (t ++ [q] ++ rest) [q] = Some (length t).
Proof.
  induction t as [|c t IH]; intros H.
  - cbn [app find_sub starts_with]. rewrite N.eqb_refl. destruct rest; reflexivity.
  - cbn [app find_sub starts_with]. rewrite (proj2 (N.eqb_neq c q)) by (intros ->; apply H; left; reflexivity). cbn [andb]. change (q :: rest) with ([q] ++ rest). rewrite IH; [reflexivity|]. intros X. apply H. right. exact X.
Qed.
Lemma round_comment st prev t rest : ~ contains t (bs "*)") -> fdoes ebnf_body (st, prev) (alone (bs "(*") hl_comment_delim :: fopt t hl_comment ++ [alone (bs "*)") hl_comment_delim]) rest tt (st, 40%N).
Proof.
  intros H. unfold ebnf_body. apply fdoes_get. eapply fdoes_at; [reflexivity|]. apply fdoes_get_loc. cbv zeta beta. eapply fdoes_last; [|apply finish]. change (mem 40 (bs ",!|")) with false. change (mem 40 (bs "[]")) with false. change (mem 40 (bs "{}")) with false. change (mem 40 [39; 34; 96]%N) with false. change (mem 40 (bs ";.")) with false. change (mem 40 [32; 9; 13; 10; 11]%N) with false.
  change (40 =? ch "*")%N with false. change (40 =? ch "/")%N with false. change (40 =? ch ":")%N with false. change (40 =? ch "=")%N with false. change (40 =? ch "(")%N with true. cbv iota.
  match goal with |- context [starts_with ?r (bs "(*")] => assert (S : starts_with r (bs "(*") = true) by (apply starts_with_app; unfold alone at 1; rewrite ftext_cons, <- app_assoc; eauto) end. rewrite S. unfold ebnf_consume_comment. apply delimited; [discriminate|discriminate|]. apply find_star. exact H.
Qed.
Lemma round_string st prev q t rest : In q [39; 34; 96]%N -> ~ In q t -> fdoes ebnf_body (st, prev) (alone [q] hl_string_delim :: fopt t hl_string ++ [alone [q] hl_string_delim]) rest tt (right_before_name, q).
Proof.
  intros I H. unfold ebnf_body. apply fdoes_get. eapply fdoes_at; [reflexivity|]. apply fdoes_get_loc. cbv zeta beta. eapply fdoes_last; [|apply finish].
  assert (X : mem q (bs ",!|") = false /\ mem q (bs "[]") = false /\ mem q (bs "{}") = false /\ (q =? ch "*")%N = false /\ (q =? ch "/")%N = false /\ (q =? ch ":")%N = false /\ mem q [39; 34; 96]%N = true) by (cbn in I; repeat (destruct I as [<-|I]; [repeat split; reflexivity|]); contradiction).
  destruct X as (-> & -> & -> & -> & -> & -> & ->). cbv iota. eapply fdoes_nil; [apply does_ebnf_set|]. unfold ebnf_consume_string. apply delimited; [discriminate|discriminate|]. apply find_quote. exact H.
Qed.
Lemma round_special st prev t rest : ~ In 63%N t -> fdoes ebnf_body (st, prev) [alone (63%N :: t ++ [63%N]) hl_name_macro] rest tt (right_before_name, 63%N).
Proof.
  intros H. unfold ebnf_body. apply fdoes_get. eapply fdoes_at; [reflexivity|]. apply fdoes_get_loc. cbv zeta beta. eapply fdoes_last; [|apply finish].
  change (mem 63 (bs ",!|")) with false. change (mem 63 (bs "[]")) with false. change (mem 63 (bs "{}")) with false. change (mem 63 [39; 34; 96]%N) with false. change (mem 63 (bs ";.")) with false. change (mem 63 [32; 9; 13; 10; 11]%N) with false.
  change (63 =? ch "*")%N with false. change (63 =? ch "/")%N with false. change (63 =? ch ":")%N with false. change (63 =? ch "=")%N with false. change (63 =? ch "(")%N with false. change (63 =? ch ")")%N with false. change (63 =? ch "?")%N with true. cbv iota.
  eapply fdoes_nil; [apply does_ebnf_set|]. unfold ebnf_consume_special_sequence. apply fdoes_get. apply fdoes_check; [reflexivity|]. apply fdoes_emit; [|discriminate]. unfold alone, length_until, find_ch, find_if_from. rewrite ftext_cons. cbn [ftext map concat app skipn]. rewrite app_nil_r, <- app_assoc.
  assert (E : find_if (fun x => (x =? 63)%N) (t ++ [63%N] ++ rest) = Some (length t)).
  { clear - H. induction t as [|c t IH]; [reflexivity|]. cbn [app find_if]. rewrite (proj2 (N.eqb_neq c 63)) by (intros ->; apply H; left; reflexivity). cbn [app] in IH. rewrite IH; [reflexivity|]. intros X. apply H. right. exact X. }
  change (ch "?") with 63%N. rewrite E. cbn [option_map length]. rewrite app_length. cbn [length]. lia.
Qed.
Lemma round_stray st prev rest : fdoes ebnf_body (st, prev) [alone (bs "*)") hl_comment_delim] rest tt (st, 42%N).
Proof.
  unfold ebnf_body. apply fdoes_get. eapply fdoes_at; [reflexivity|]. apply fdoes_get_loc. cbv zeta beta. eapply fdoes_last; [|apply finish].
  change (mem 42 (bs ",!|")) with false. change (42 =? ch "*")%N with true. cbv iota.
  match goal with |- context [starts_with ?r (bs "*)")] => assert (S : starts_with r (bs "*)") = true) by (apply starts_with_app; unfold alone; rewrite ftext_cons, <- app_assoc; eauto) end. rewrite S. apply fdoes_emit; [reflexivity|discriminate].
Qed.
Lemma round_foreign st prev c rest : ebnf_foreign c -> fdoes ebnf_body (st, prev) [joined [c] hl_error] rest tt (st, c).
Proof.
  intros (F1 & F2 & F3 & F4). unfold ebnf_name_char, letter, digit in F1. unfold ebnf_white in F2. cbn in F2, F3, F4. unfold ebnf_body. apply fdoes_get. unfold joined. rewrite ftext_cons. cbn [app]. eapply fdoes_at; [reflexivity|]. apply fdoes_get_loc. cbv zeta beta. eapply fdoes_last; [|apply finish]. no_mem c.
  assert (D : is_ascii_digit c = false) by (destruct (is_ascii_digit c) eqn:D; [|reflexivity]; apply digit_iff in D; unfold digit in D; lia). rewrite D.
  assert (X : is_ascii_alpha c = false) by (destruct (is_ascii_alpha c) eqn:X; [|reflexivity]; exfalso; revert X; unfold is_ascii_alpha, is_ascii_lower_alpha, is_ascii_upper_alpha, between; rewrite !orb_true_iff, !andb_true_iff, !N.leb_le; cbn; lia). rewrite X. cbn [orb].
  no_mem c. apply fdoes_emit_c; [reflexivity|discriminate].
Qed.
(** The same, unfinished, at the end *)
Lemma delimited_open open close t t1 t2 t3 s : open <> [] -> find_sub t close = None ->
  fdoes (ebnf_consume_delimited open close t1 t2 t3) s (alone open t1 :: fopt t t2) [] tt s.
Proof.
  intros No F. unfold ebnf_consume_delimited. apply fdoes_get. assert (X : ftext (fopt t t2) = t) by (destruct t; [reflexivity|cbn; rewrite app_nil_r; reflexivity]).
  assert (E : ftext (alone open t1 :: fopt t t2) ++ [] = open ++ t) by (unfold alone; rewrite ftext_cons, X, app_nil_r; reflexivity).
  rewrite E. apply fdoes_check; [apply starts_with_app; eauto|]. cbv zeta. unfold find_str. rewrite (proj2 (Nat.ltb_ge _ _)) by (rewrite app_length; lia). rewrite skipn_app_exact, F. cbn [option_map].
  eapply fdoes_cons; [apply fdoes_emit; [reflexivity|exact No]|]. apply fdoes_get. rewrite app_nil_r, X. apply fdoes_opt. reflexivity.
Qed.
Lemma find_no_quote q t : ~ In q t -> find_sub t [q] = None.
Proof. intros H. destruct (find_sub t [q]) as [i|] eqn:E; [|reflexivity]. destruct (find_sub_split _ _ _ E) as (a & b & -> & _). elim H. apply in_or_app. right. left. reflexivity. Qed.
Lemma find_no_star t : ~ contains t (bs "*)") -> find_sub t (bs "*)") = None.
Proof. intros H. destruct (find_sub t (bs "*)")) as [i|] eqn:E; [|reflexivity]. destruct (find_sub_split _ _ _ E) as (a & b & -> & _). elim H. exists a, b. reflexivity. Qed.
Lemma round_open_comment st prev t : ~ contains t (bs "*)") -> fdoes ebnf_body (st, prev) (alone (bs "(*") hl_comment_delim :: fopt t hl_comment) [] tt (st, 40%N).
Proof.
  intros H. unfold ebnf_body. apply fdoes_get. eapply fdoes_at; [reflexivity|]. apply fdoes_get_loc. cbv zeta beta. eapply fdoes_last; [|apply finish]. change (mem 40 (bs ",!|")) with false. change (mem 40 (bs "[]")) with false. change (mem 40 (bs "{}")) with false. change (mem 40 [39; 34; 96]%N) with false. change (mem 40 (bs ";.")) with false. change (mem 40 [32; 9; 13; 10; 11]%N) with false.
  change (40 =? ch "*")%N with false. change (40 =? ch "/")%N with false. change (40 =? ch ":")%N with false. change (40 =? ch "=")%N with false. change (40 =? ch "(")%N with true. cbv iota.
  match goal with |- context [starts_with ?r (bs "(*")] => assert (S : starts_with r (bs "(*") = true) by (apply starts_with_app; unfold alone at 1; rewrite ftext_cons, <- app_assoc; eauto) end. rewrite S. unfold ebnf_consume_comment. apply delimited_open; [discriminate|]. apply find_no_star. exact H.
Qed.
Lemma round_open_string st prev q t : In q [39; 34; 96]%N -> ~ In q t -> fdoes ebnf_body (st, prev) (alone [q] hl_string_delim :: fopt t hl_string) [] tt (right_before_name, q).
Proof.
  intros I H. unfold ebnf_body. apply fdoes_get. eapply fdoes_at; [reflexivity|]. apply fdoes_get_loc. cbv zeta beta. eapply fdoes_last; [|apply finish].
  assert (X : mem q (bs ",!|") = false /\ mem q (bs "[]") = false /\ mem q (bs "{}") = false /\ (q =? ch "*")%N = false /\ (q =? ch "/")%N = false /\ (q =? ch ":")%N = false /\ mem q [39; 34; 96]%N = true) by (cbn in I; repeat (destruct I as [<-|I]; [repeat split; reflexivity|]); contradiction).
  destruct X as (-> & -> & -> & -> & -> & -> & ->). cbv iota. eapply fdoes_nil; [apply does_ebnf_set|]. unfold ebnf_consume_string. apply delimited_open; [discriminate|]. apply find_no_quote. exact H.
Qed.
Lemma round_open_special st prev t : ~ In 63%N t -> fdoes ebnf_body (st, prev) [alone (63%N :: t) hl_name_macro] [] tt (right_before_name, 63%N).
Proof.
  intros H. unfold ebnf_body. apply fdoes_get. eapply fdoes_at; [reflexivity|]. apply fdoes_get_loc. cbv zeta beta. eapply fdoes_last; [|apply finish].
  change (mem 63 (bs ",!|")) with false. change (mem 63 (bs "[]")) with false. change (mem 63 (bs "{}")) with false. change (mem 63 [39; 34; 96]%N) with false. change (mem 63 (bs ";.")) with false. change (mem 63 [32; 9; 13; 10; 11]%N) with false.
  change (63 =? ch "*")%N with false. change (63 =? ch "/")%N with false. change (63 =? ch ":")%N with false. change (63 =? ch "=")%N with false. change (63 =? ch "(")%N with false. change (63 =? ch ")")%N with false. change (63 =? ch "?")%N with true. cbv iota.
  eapply fdoes_nil; [apply does_ebnf_set|]. unfold ebnf_consume_special_sequence. apply fdoes_get. apply fdoes_check; [reflexivity|]. apply fdoes_emit; [|discriminate]. unfold alone, length_until, find_ch, find_if_from. rewrite ftext_cons. cbn [ftext map concat app skipn]. rewrite !app_nil_r.
  assert (E : find_if (fun x => (x =? 63)%N) t = None).
  { clear - H. induction t as [|c t IH]; [reflexivity|]. cbn [find_if]. rewrite (proj2 (N.eqb_neq c 63)) by (intros ->; apply H; left; reflexivity). rewrite IH; [reflexivity|]. intros X. apply H. right. exact X. }
  change (ch "?") with 63%N. rewrite E. reflexivity.
Qed.
Lemma round_terminator st prev c rest : In c (bs ";.") -> fdoes ebnf_body (st, prev) [alone [c] hl_symbol_punc] rest tt (left_before_name, c).
Proof.
  intros I. unfold ebnf_body. apply fdoes_get. eapply fdoes_at; [reflexivity|]. apply fdoes_get_loc. cbv zeta beta. eapply fdoes_last; [|apply finish]. cbn in I. repeat (destruct I as [<-|I]; [eapply fdoes_nil; [apply does_ebnf_set|]; apply fdoes_emit; [reflexivity|discriminate]|]). contradiction.
Qed.
Ltac fin := eapply fdoes_nil; [apply does_ebnf_set|]; apply fdoes_emit; [reflexivity|discriminate].
Lemma round_symbol st prev w h rest : In (w, h) ebnf_symbols -> longest (ebnf_symbols ++ ebnf_comment_symbols) w rest -> (w = bs "-" -> st = right_in_name \/ st = left_in_name -> is_ebnf_relaxed_meta_identifier prev = false) ->
  exists x, fdoes ebnf_body (st, prev) [alone w h] rest tt (right_before_name, x).
Proof.
  intros I L M.
  assert (Q : forall c d z, w = [c] -> In ([c; d], z) (ebnf_symbols ++ ebnf_comment_symbols) -> starts_with ([c] ++ rest) [c; d] = false).
  { intros c d z -> Iz. destruct (starts_with ([c] ++ rest) [c; d]) eqn:E; [|reflexivity]. apply starts_with_app in E as [v E]. specialize (L [c; d] z v Iz E). cbn in L. lia. }
  cbn in I. repeat (destruct I as [[= <- <-]|I]; [eexists; unfold ebnf_body; apply fdoes_get; eapply fdoes_at; [reflexivity|]; apply fdoes_get_loc; cbv zeta beta; eapply fdoes_last; [|apply finish]|]); [..|contradiction].
  all: try solve [fin].
  - assert (E : starts_with ([47%N] ++ rest) (bs "/)") = false) by (apply (Q 47%N 41%N hl_symbol_parens); [reflexivity|cbn; tauto]). change (ftext [alone [47%N] hl_symbol_op]) with [47%N]. rewrite E. fin.
  - assert (E : starts_with ([58%N] ++ rest) (bs ":)") = false) by (apply (Q 58%N 41%N hl_symbol_brace); [reflexivity|cbn; tauto]). change (ftext [alone [58%N] hl_symbol_op]) with [58%N]. rewrite E. fin.
  - assert (E : starts_with ([42%N] ++ rest) (bs "*)") = false) by (apply (Q 42%N 41%N hl_comment_delim); [reflexivity|cbn; tauto]). change (ftext [alone [42%N] hl_symbol_op]) with [42%N]. rewrite E. fin.
  - assert (X : fdoes ebnf_minus (st, prev) [alone [45%N] hl_symbol_op] rest tt (right_before_name, prev)) by (unfold ebnf_minus; fin). specialize (M eq_refl). destruct st; cbn [fst snd]; try exact X; match goal with |- fdoes ?m _ _ _ _ _ => change m with (if is_ebnf_relaxed_meta_identifier prev then emit_and_advance_c true 1 hl_name_nonterminal_decl else ebnf_minus) || change m with (if is_ebnf_relaxed_meta_identifier prev then emit_and_advance_c true 1 hl_name_nonterminal else ebnf_minus) end; rewrite M by tauto; exact X.
  - assert (E1 : starts_with ([40%N] ++ rest) (bs "(*") = false) by (apply (Q 40%N 42%N hl_comment_delim); [reflexivity|cbn; tauto]). assert (E2 : starts_with ([40%N] ++ rest) (bs "(:") = false) by (apply (Q 40%N 58%N hl_symbol_brace); [reflexivity|cbn; tauto]). assert (E3 : starts_with ([40%N] ++ rest) (bs "(/") = false) by (apply (Q 40%N 47%N hl_symbol_parens); [reflexivity|cbn; tauto]).
    change (ftext [alone [40%N] hl_symbol_parens]) with [40%N]. rewrite E1, E2, E3. fin.
Qed.

(** ** C194: a grammar gets exactly the tokens of its pieces. *)
Definition ebnf_loop (_ : unit) : M ebnf_loc (unit + unit) := let! e := eof in if e then ret (inr tt) else ebnf_body ;; ret (inl tt).
Definition goes (s : ebnf_loc) (f : list fpiece) : Prop := exists s', fiterates ebnf_loop tt [] s' tt s f.
Lemma goes_end s : goes s [].
Proof. exists s. apply fiterates_end. unfold ebnf_loop. apply fdoes_eof_end. apply fdoes_ret. Qed.
Lemma goes_step s s1 p f : ftext p <> [] -> fdoes ebnf_body s p (ftext f) tt s1 -> goes s1 f -> goes s (p ++ f).
Proof.
  intros N H (s' & G). exists s'. eapply fiterates_more; [|exact N|exact G]. rewrite app_nil_r. unfold ebnf_loop. apply fdoes_eof; [intros E; apply app_eq_nil in E; tauto|]. eapply fdoes_last; [exact H|apply fdoes_ret].
Qed.
Lemma goes_name left t f : forall prev, Forall ebnf_name_char t -> is_ebnf_relaxed_meta_identifier prev = true -> (forall x, goes (in_state left true, x) f) ->
  goes (in_state left true, prev) (map (fun x => joined [x] (if left then hl_name_nonterminal_decl else hl_name_nonterminal)) t ++ f).
Proof.
  induction t as [|c t IH]; intros prev F P G; [apply G|]. inversion F as [|? ? Hc Ht]; subst. cbn [map app]. apply (goes_step _ (in_state left true, c) [_]); [discriminate|apply round_name; assumption|]. apply IH; [exact Ht| |exact G].
  unfold is_ebnf_relaxed_meta_identifier, is_ascii_alphanumeric, is_ascii_alpha, is_ascii_lower_alpha, is_ascii_upper_alpha, between. destruct Hc as [Hc|[Hc|[->| ->]]]; [| |reflexivity|reflexivity].
  - unfold letter in Hc. rewrite !orb_true_iff, !andb_true_iff, !N.leb_le. lia.
  - rewrite (proj2 (digit_iff c) Hc), !orb_true_r. reflexivity.
Qed.
Lemma goes_number left t f : forall prev, Forall digit t -> (forall x, goes (in_state left false, x) f) -> goes (in_state left false, prev) (map (fun x => joined [x] hl_number) t ++ f).
Proof.
  induction t as [|c t IH]; intros prev F G; [apply G|]. inversion F as [|? ? Hc Ht]; subst. cbn [map app]. apply (goes_step _ (in_state left false, c) [_]); [discriminate|apply round_digit; assumption|]. apply IH; assumption.
Qed.
Lemma goes_foreign st t f : forall prev, Forall ebnf_foreign t -> (t = [] -> goes (st, prev) f) -> (forall x, ebnf_foreign x -> goes (st, x) f) -> goes (st, prev) (map (fun x => joined [x] hl_error) t ++ f).
Proof.
  induction t as [|c t IH]; intros prev F G0 G; [apply G0; reflexivity|]. inversion F as [|? ? Hc Ht]; subst. cbn [map app]. apply (goes_step _ (st, c) [_]); [discriminate|apply round_foreign; assumption|]. apply IH; [assumption|intros _; apply G; exact Hc|exact G].
Qed.
Lemma foreign_not_name c : ebnf_foreign c -> is_ebnf_relaxed_meta_identifier c = true -> False.
Proof.
  intros (F & _) X. apply F. revert X. unfold is_ebnf_relaxed_meta_identifier, is_ascii_alphanumeric. rewrite !orb_true_iff, digit_iff, mem_In. unfold ebnf_name_char, letter, is_ascii_alpha, is_ascii_lower_alpha, is_ascii_upper_alpha, between. rewrite !orb_true_iff, !andb_true_iff, !N.leb_le. cbn. intuition lia.
Qed.
Lemma table_nonempty w h : In (w, h) ebnf_symbols -> w <> [].
Proof. intros I. cbn in I. repeat (destruct I as [[= <- <-]|I]; [discriminate|]). contradiction. Qed.
Lemma expands_opt t h l f : ~ spelled h -> expands l f -> expands (opt_piece t h ++ l) (fopt t h ++ f).
Proof. intros H E. destruct t; [exact E|]. cbn [opt_piece fopt app]. constructor; [discriminate|assumption|assumption]. Qed.
Lemma grammar_goes left named l : ebnf_pieces left named l -> exists f, expands l f
  /\ forall prev, (named = true -> is_ebnf_relaxed_meta_identifier prev = true -> not_before (fun c => c = 45%N) (text l)) -> goes (in_state left named, prev) f.
Proof.
  induction 1 as [left named|left named c l H P (f & E & G)|left named t l H P (f & E & G)|named w l (c & t & -> & Hc & Ht) R P (f & E & G)|named w l (c & t & -> & Hc & Ht) R P (f & E & G)|left w l N F R P (f & E & G)|left named w h l I L P (f & E & G)|left named q t l I Nq P (f & E & G)|left named t l Nq P (f & E & G)|left named c l I P (f & E & G)|left named l P (f & E & G)|left named w l N F R P (f & E & G)|left named t H|left named q t I Nq|left named t Nq].
  - exists []. split; [constructor|]. intros. apply goes_end.
  - exists (bare [c] :: f). split; [constructor; exact E|]. intros prev _. apply (goes_step _ (in_state left named, c) [_]); [discriminate|apply round_space; exact H|]. apply G. intros _ X. exfalso. cbn in H. repeat (destruct H as [<-|H]; [discriminate X|]). contradiction.
  - exists (alone (bs "(*") hl_comment_delim :: fopt t hl_comment ++ alone (bs "*)") hl_comment_delim :: f). split; [constructor; [discriminate|other|]; apply expands_opt; [other|]; constructor; [discriminate|other|exact E]|]. intros prev _. replace (alone (bs "(*") hl_comment_delim :: fopt t hl_comment ++ alone (bs "*)") hl_comment_delim :: f) with ((alone (bs "(*") hl_comment_delim :: fopt t hl_comment ++ [alone (bs "*)") hl_comment_delim]) ++ f) by (cbn [app]; rewrite <- app_assoc; reflexivity).
    eapply goes_step; [discriminate|apply round_comment; exact H|]. apply G. discriminate.
  - exists (([c], Some (hl_name_nonterminal_decl, named)) :: map (fun x => joined [x] hl_name_nonterminal_decl) t ++ f). split; [constructor; [left; reflexivity|exact E]|]. intros prev _. apply (goes_step _ (in_state true true, c) [_]); [discriminate|apply (round_first true); exact Hc|]. apply (goes_name true); [exact Ht| |intros x; apply G; intros _ _; intros y Ey ->; apply (R _ Ey); unfold ebnf_name_char; tauto].
    eapply first_name; exact Hc.
  - exists (([c], Some (hl_name_nonterminal, named)) :: map (fun x => joined [x] hl_name_nonterminal) t ++ f). split; [constructor; [right; left; reflexivity|exact E]|]. intros prev _. apply (goes_step _ (in_state false true, c) [_]); [discriminate|apply (round_first false); exact Hc|]. apply (goes_name false); [exact Ht| |intros x; apply G; intros _ _; intros y Ey ->; apply (R _ Ey); unfold ebnf_name_char; tauto].
    eapply first_name; exact Hc.
  - destruct F as [|c t Hc F]; [congruence|]. exists (([c], Some (hl_number, true)) :: map (fun x => joined [x] hl_number) t ++ f). split; [constructor; [right; right; left; reflexivity|exact E]|]. intros prev _. apply (goes_step _ (in_state left false, c) [_]); [discriminate|apply (round_digit left); exact Hc|]. apply goes_number; [exact F|]. intros x. apply G. discriminate.
  - exists (alone w h :: f). split; [constructor; [eapply table_nonempty; exact I|eapply table_not_spelled; exact I|exact E]|]. intros prev Hm. destruct (round_symbol (in_state left named) prev w h (text l) I L) as (x & X).
    { intros -> S. destruct (is_ebnf_relaxed_meta_identifier prev) eqn:Er; [|reflexivity]. destruct named; [|destruct left; cbn in S; destruct S; discriminate]. elim (Hm eq_refl eq_refl 45%N); reflexivity. }
    apply (goes_step _ (right_before_name, x) [_]); [|rewrite (expands_text l f E); exact X|apply (G x); discriminate]. unfold alone. rewrite ftext_cons. intros X1. apply app_eq_nil in X1 as [X1 _]. exact (table_nonempty _ _ I X1).
  - exists (alone [q] hl_string_delim :: fopt t hl_string ++ alone [q] hl_string_delim :: f). split; [constructor; [discriminate|other|]; apply expands_opt; [other|]; constructor; [discriminate|other|exact E]|]. intros prev _. replace (alone [q] hl_string_delim :: fopt t hl_string ++ alone [q] hl_string_delim :: f) with ((alone [q] hl_string_delim :: fopt t hl_string ++ [alone [q] hl_string_delim]) ++ f) by (cbn [app]; rewrite <- app_assoc; reflexivity).
    eapply goes_step; [discriminate|apply round_string; [exact I|exact Nq]|]. apply G. discriminate.
  - exists (alone (63%N :: t ++ [63%N]) hl_name_macro :: f). split; [constructor; [discriminate|other|exact E]|]. intros prev _. eapply (goes_step _ _ [_]); [discriminate|apply round_special; exact Nq|]. apply G. discriminate.
  - exists (alone [c] hl_symbol_punc :: f). split; [constructor; [discriminate|other|exact E]|]. intros prev _. eapply (goes_step _ _ [_]); [discriminate|apply round_terminator; exact I|]. apply G. discriminate.
  - exists (alone (bs "*)") hl_comment_delim :: f). split; [constructor; [discriminate|other|exact E]|]. intros prev _. eapply (goes_step _ _ [_]); [discriminate|apply round_stray|]. apply G. discriminate.
  - destruct F as [|c t Hc F]; [congruence|]. exists (([c], Some (hl_error, true)) :: map (fun x => joined [x] hl_error) t ++ f). split; [constructor; [right; right; right; reflexivity|exact E]|]. intros prev _. apply (goes_step _ (in_state left named, c) [_]); [discriminate|apply round_foreign; exact Hc|].
    assert (G' : forall x, ebnf_foreign x -> goes (in_state left named, x) f) by (intros x Hx; apply G; intros _ Y; elim (foreign_not_name x Hx Y)). apply goes_foreign; [exact F|intros _; apply G'; exact Hc|exact G'].
  - exists (alone (bs "(*") hl_comment_delim :: fopt t hl_comment). split; [constructor; [discriminate|other|]; rewrite <- (app_nil_r (opt_piece _ _)), <- (app_nil_r (fopt _ _)); apply expands_opt; [other|constructor]|]. intros prev _. rewrite <- (app_nil_r (_ :: _)). eapply goes_step; [discriminate|apply round_open_comment; exact H|apply goes_end].
  - exists (alone [q] hl_string_delim :: fopt t hl_string). split; [constructor; [discriminate|other|]; rewrite <- (app_nil_r (opt_piece _ _)), <- (app_nil_r (fopt _ _)); apply expands_opt; [other|constructor]|]. intros prev _. rewrite <- (app_nil_r (_ :: _)). eapply goes_step; [discriminate|apply round_open_string; [exact I|exact Nq]|apply goes_end].
  - exists [alone (63%N :: t) hl_name_macro]. split; [constructor; [discriminate|other|constructor]|]. intros prev _. apply (goes_step _ (right_before_name, 63%N) [_] []); [discriminate|apply round_open_special; exact Nq|apply goes_end].
Qed.
Theorem C194_ebnf_lexemes : forall l, ebnf_grammar l -> forall strict cap, 0 < cap ->
  exists ops chunks, highlight_ebnf (text l) strict = Ok (true, ops) /\ token_output false cap (length (text l)) ops = Ok chunks /\ concat chunks = user_tokens 0 l.
Proof.
  intros l Hl strict cap Hc. destruct (grammar_goes _ _ _ Hl) as (f & E & G). destruct (G 0%N) as (s' & I); [discriminate|]. apply (fdoes_loop 0) in I. specialize (I 0 []). rewrite !app_nil_r, (expands_text l f E) in I.
  assert (R : highlight_ebnf (text l) strict = Ok (true, ftokens 0 f)).
  { unfold highlight_ebnf, run, bindM. unfold wp in I. unfold while_rem. fold ebnf_loop. change (fun _ : unit => let! e := eof in if e then ret (inr tt) else ebnf_body;; ret (inl tt)) with ebnf_loop. cbn [in_state] in I. destruct (hloop 1 ebnf_loop tt _) as [[[] st']|]; [|contradiction]. destruct I as [_ ->]. cbn [rops ret]. rewrite rev_involutive. reflexivity. }
  destruct (token_output_spec false cap (length (text l)) (ftokens 0 f) Hc) as (cs & E2 & Ht & _).
  { assert (B : forall f i n, i + length (ftext f) <= n -> Forall (fun p => snd p <> None -> fst p <> []) f -> Forall (op_bounds n) (ftokens i f)).
    { clear. induction f as [|[t [[h b]|]] f IH]; intros i n L F; cbn [ftokens]; [constructor| |]; rewrite ftext_cons, app_length in L; inversion F as [|? ? F1 F2]; subst.
      - constructor; [|apply IH; [lia|exact F2]]. cbn. assert (0 < length t) by (destruct t; [elim F1; [discriminate|reflexivity]|cbn; lia]). lia.
      - apply IH; [lia|exact F2]. }
    apply B; [rewrite (expands_text l f E); lia|]. clear - E. induction E as [|t h l f Nt H E IH|t l f E IH|c t h b l f H E IH]; [constructor|constructor; [cbn; auto|exact IH]|constructor; [cbn; congruence|exact IH]|constructor; [discriminate|]]. apply Forall_app. split; [|exact IH]. clear. induction t; constructor; [discriminate|assumption]. }
  exists (ftokens 0 f), cs. split; [exact R|]. split; [exact E2|]. rewrite Ht. unfold tokens_of. rewrite (joined_tokens l f E (pieces_fine _ _ _ Hl)); [rewrite app_nil_r, rev_involutive; reflexivity|]. intros t acc'; discriminate.
Qed.
Print Assumptions C194_ebnf_lexemes.
(** A rule with an alternative, a repetition and a comment: [a-1 = 2*b|'c'; (*d*)] *)
Example C194_case : ebnf_grammar [(bs "a-1", Some hl_name_nonterminal_decl); (bs " ", None); (bs "=", Some hl_symbol_punc); (bs " ", None); (bs "2", Some hl_number); (bs "*", Some hl_symbol_op);
  (bs "b", Some hl_name_nonterminal); (bs "|", Some hl_symbol_op); (bs "'", Some hl_string_delim); (bs "c", Some hl_string); (bs "'", Some hl_string_delim); (bs ";", Some hl_symbol_punc); (bs " ", None);
  (bs "(*", Some hl_comment_delim); (bs "d", Some hl_comment); (bs "*)", Some hl_comment_delim)].
Proof.
  assert (W : ebnf_white 32) by (cbn; tauto).
  apply ebnf_declared; [exists 97%N, (bs "-1"); split; [reflexivity|]; split; [left; unfold letter; lia|]; apply Forall_forall; intros x Hx; cbn in Hx; unfold ebnf_name_char, digit; lia|intros c [= <-]; unfold ebnf_name_char, letter, digit; lia|].
  apply (ebnf_space _ _ 32); [exact W|]. apply ebnf_symbol; [cbn; tauto|intros u h v I E; cbn in I; repeat (destruct I as [[= <- <-]|I]; [first [discriminate E|cbn; lia]|]); contradiction|].
  apply (ebnf_space _ _ 32); [exact W|]. apply ebnf_number; [discriminate|apply Forall_forall; intros x Hx; cbn in Hx; unfold digit; lia|intros c [= <-]; unfold digit; lia|].
  apply ebnf_symbol; [cbn; tauto|intros u h v I E; cbn in I; repeat (destruct I as [[= <- <-]|I]; [first [discriminate E|cbn; lia]|]); contradiction|].
  apply ebnf_used; [exists 98%N, []; split; [reflexivity|]; split; [left; unfold letter; lia|constructor]|intros c [= <-]; unfold ebnf_name_char, letter, digit; lia|].
  apply ebnf_symbol; [cbn; tauto|intros u h v I E; cbn in I; repeat (destruct I as [[= <- <-]|I]; [first [discriminate E|cbn; lia]|]); contradiction|].
  apply (ebnf_string false false 39 (bs "c")); [cbn; tauto|cbn; intuition discriminate|]. apply (ebnf_terminator _ _ 59); [cbn; tauto|]. apply (ebnf_space _ _ 32); [exact W|].
  apply (ebnf_comment true false (bs "d") []); [|constructor]. intros (a & b & E). destruct a as [|x [|y a]]; discriminate E.
Qed.

(** Every text is such a grammar, so that the theorem gives the tokens of every text. *)
Lemma find_sub_cases nd s : (exists a b, s = a ++ nd ++ b /\ (forall a' b', s = a' ++ nd ++ b' -> length a <= length a')) \/ ~ contains s nd.
Proof. destruct (find_sub s nd) as [i|] eqn:E; [left|right; exact (find_sub_None _ _ E)]. destruct (find_sub_split _ _ _ E) as (a & b & -> & <- & H). exists a, b. auto. Qed.
Lemma take_while (P : N -> Prop) (d : forall c, P c \/ ~ P c) s : exists t u, s = t ++ u /\ Forall P t /\ not_before P u.
Proof.
  induction s as [|c s (t & u & -> & F & R)]; [exists [], []; split; [reflexivity|]; split; [constructor|intros c E; discriminate E]|].
  destruct (d c) as [H|H]; [exists (c :: t), u; split; [reflexivity|]; split; [constructor; assumption|exact R]|]. exists [], (c :: t ++ u). split; [reflexivity|]. split; [constructor|]. intros x [= <-]. exact H.
Qed.
Lemma name_char_dec c : ebnf_name_char c \/ ~ ebnf_name_char c.
Proof. unfold ebnf_name_char, letter, digit. lia. Qed.
Lemma digit_dec c : digit c \/ ~ digit c.
Proof. unfold digit. lia. Qed.
Lemma foreign_dec c : ebnf_foreign c \/ ~ ebnf_foreign c.
Proof.
  unfold ebnf_foreign, ebnf_white. destruct (name_char_dec c); [tauto|]. destruct (in_dec N.eq_dec c [32; 9; 13; 10; 11]%N); [tauto|]. destruct (in_dec N.eq_dec c (bs "=,|!/:*()[]{};.?")); [tauto|]. destruct (in_dec N.eq_dec c [39; 34; 96]%N); tauto.
Qed.
Lemma symbol_pieces left named w h u l : In (w, h) ebnf_symbols -> longest (ebnf_symbols ++ ebnf_comment_symbols) w u -> text l = u -> ebnf_pieces false false l -> exists l', text l' = w ++ u /\ ebnf_pieces left named l'.
Proof. intros I L <- G. exists ((w, Some h) :: l). split; [apply text_cons|]. apply ebnf_symbol; assumption. Qed.
Lemma opt_text t h : text (opt_piece t h) = t.
Proof. destruct t; [reflexivity|]. cbn. rewrite app_nil_r. reflexivity. Qed.
Lemma all_grammars n : forall s left named, length s <= n -> exists l, text l = s /\ ebnf_pieces left named l.
Proof.
  induction n as [|n IH]; intros s left named L; (destruct s as [|c s]; [exists []; split; [reflexivity|constructor]|]); [cbn in L; lia|]. cbn [length] in L.
  destruct (in_dec N.eq_dec c [32; 9; 13; 10; 11]%N) as [Hw|Hw].
  { destruct (IH s left named ltac:(lia)) as (l & <- & G). exists (([c], None) :: l). split; [apply text_cons|]. apply ebnf_space; assumption. }
  destruct (in_dec N.eq_dec c [39; 34; 96]%N) as [Hq|Hq].
  { destruct (find_sub_cases [c] s) as [(a & b & -> & M)|M].
    - destruct (IH b false false) as (l & <- & G); [rewrite !app_length in L; cbn in L; lia|]. exists (([c], Some hl_string_delim) :: opt_piece a hl_string ++ ([c], Some hl_string_delim) :: l). split; [rewrite text_cons, text_app, opt_text, text_cons; reflexivity|]. apply ebnf_string; [exact Hq| |exact G].
      intros X. apply in_split in X as (x & y & ->). specialize (M x (y ++ [c] ++ text l)). rewrite <- app_assoc in M. specialize (M eq_refl). rewrite app_length in M. cbn in M. lia.
    - exists (([c], Some hl_string_delim) :: opt_piece s hl_string). split; [rewrite text_cons, opt_text; reflexivity|]. apply ebnf_open_string; [exact Hq|]. intros X. apply in_split in X as (x & y & ->). apply M. exists x, y. reflexivity. }
  destruct (N.eq_dec c 63) as [->|H63].
  { destruct (find_sub_cases [63%N] s) as [(a & b & -> & M)|M].
    - destruct (IH b false false) as (l & <- & G); [rewrite !app_length in L; cbn in L; lia|]. exists ((63%N :: a ++ [63%N], Some hl_name_macro) :: l). split; [rewrite text_cons; cbn [app]; rewrite <- app_assoc; reflexivity|]. apply ebnf_special; [|exact G].
      intros X. apply in_split in X as (x & y & ->). specialize (M x (y ++ [63%N] ++ text l)). rewrite <- app_assoc in M. specialize (M eq_refl). rewrite app_length in M. cbn in M. lia.
    - exists [(63%N :: s, Some hl_name_macro)]. split; [cbn; rewrite app_nil_r; reflexivity|]. apply ebnf_open_special. intros X. apply in_split in X as (x & y & ->). apply M. exists x, y. reflexivity. }
  destruct (in_dec N.eq_dec c (bs ";.")) as [Ht|Ht].
  { destruct (IH s true false ltac:(lia)) as (l & <- & G). exists (([c], Some hl_symbol_punc) :: l). split; [apply text_cons|]. apply ebnf_terminator; assumption. }
  destruct (foreign_dec c) as [Hf|Hf].
  { destruct (take_while _ foreign_dec s) as (t & u & -> & F & R). destruct (IH u left named) as (l & <- & G); [rewrite app_length in L; lia|]. exists ((c :: t, Some hl_error) :: l). split; [apply text_cons|]. apply ebnf_error; [discriminate|constructor; assumption|exact R|exact G]. }
  assert (Word : letter c \/ c = 95%N \/ named = true /\ digit c -> exists l, text l = c :: s /\ ebnf_pieces left named l).
  { intros Hc. destruct (take_while _ name_char_dec s) as (t & u & -> & F & R). destruct (IH u left true) as (l & <- & G); [rewrite app_length in L; lia|].
    destruct left; [exists ((c :: t, Some hl_name_nonterminal_decl) :: l)|exists ((c :: t, Some hl_name_nonterminal) :: l)]; (split; [apply text_cons|]); [apply ebnf_declared|apply ebnf_used]; (exact R || exact G || (exists c, t; auto)). }
  destruct (digit_dec c) as [Hd|Hd].
  { destruct named; [apply Word; tauto|]. destruct (take_while _ digit_dec s) as (t & u & -> & F & R). destruct (IH u left false) as (l & <- & G); [rewrite app_length in L; lia|]. exists ((c :: t, Some hl_number) :: l). split; [apply text_cons|]. apply ebnf_number; [discriminate|constructor; assumption|exact R|exact G]. }
  destruct (in_dec N.eq_dec c (bs "=,|!/:*()[]{}-")) as [Hs|Hs].
  2: { apply Word. destruct (name_char_dec c) as [X|X]; [unfold ebnf_name_char in X; cbn in Hs; destruct X as [X|[X|[X|X]]]; [tauto|tauto| |tauto]; exfalso; apply Hs; rewrite X; tauto|]. elim Hf. split; [exact X|]. split; [exact Hw|]. split; [|exact Hq]. intros Y. cbn in Y, Hs, Ht. intuition lia. }
  clear Word Hw Hq H63 Ht Hf Hd.
  (* comments *)
  destruct (starts_with (c :: s) (bs "(*")) eqn:Ec.
  { apply starts_with_app in Ec as [v Ev]. injection Ev as -> ->. destruct (find_sub_cases (bs "*)") v) as [(a & b & -> & M)|M].
    - destruct (IH b left named) as (l & <- & G); [cbn in L; rewrite app_length in L; cbn in L; lia|]. exists ((bs "(*", Some hl_comment_delim) :: opt_piece a hl_comment ++ (bs "*)", Some hl_comment_delim) :: l). split; [rewrite text_cons, text_app, opt_text, text_cons; reflexivity|]. apply ebnf_comment; [|exact G].
      intros (x & y & ->). specialize (M x (y ++ bs "*)" ++ text l)). rewrite <- !app_assoc in M. specialize (M eq_refl). rewrite !app_length in M. cbn in M. lia.
    - exists ((bs "(*", Some hl_comment_delim) :: opt_piece v hl_comment). split; [rewrite text_cons, opt_text; reflexivity|]. apply ebnf_open_comment. exact M. }
  destruct (starts_with (c :: s) (bs "*)")) eqn:Es.
  { apply starts_with_app in Es as [v Ev]. injection Ev as -> ->. destruct (IH v left named) as (l & <- & G); [cbn in L; lia|]. exists ((bs "*)", Some hl_comment_delim) :: l). split; [apply text_cons|]. apply ebnf_stray. exact G. }
  (* symbols of two characters *)
  assert (Two : forall w h, In (w, h) ebnf_symbols -> length w = 2 -> starts_with (c :: s) w = true -> exists l, text l = c :: s /\ ebnf_pieces left named l).
  { intros w h I Lw E. apply starts_with_app in E as [v E]. destruct (IH v false false) as (l & El & G); [assert (X : length (c :: s) = length w + length v) by (rewrite E, app_length; reflexivity); cbn in X; lia|]. rewrite E. eapply symbol_pieces; [exact I| |exact El|exact G].
    intros x h' y Ix Ex. rewrite Lw. clear - Ix. cbn in Ix. repeat (destruct Ix as [[= <- <-]|Ix]; [cbn; lia|]). contradiction. }
  destruct (starts_with (c :: s) (bs "(/")) eqn:E1; [eapply Two; [| |exact E1]; [cbn; tauto|reflexivity]|].
  destruct (starts_with (c :: s) (bs "/)")) eqn:E2; [eapply Two; [| |exact E2]; [cbn; tauto|reflexivity]|].
  destruct (starts_with (c :: s) (bs "(:")) eqn:E3; [eapply Two; [| |exact E3]; [cbn; tauto|reflexivity]|].
  destruct (starts_with (c :: s) (bs ":)")) eqn:E4; [eapply Two; [| |exact E4]; [cbn; tauto|reflexivity]|].
  destruct (IH s false false ltac:(lia)) as (l & El & G).
  assert (Lo : longest (ebnf_symbols ++ ebnf_comment_symbols) [c] s).
  { intros x h' y Ix Ex. assert (X : starts_with (c :: s) x = true) by (apply starts_with_app; exists y; exact Ex). clear - X Ix Ec Es E1 E2 E3 E4. cbn in Ix. repeat (destruct Ix as [[= <- <-]|Ix]; [first [cbn; lia|discriminate (eq_trans (eq_sym X) Ec)|discriminate (eq_trans (eq_sym X) Es)|discriminate (eq_trans (eq_sym X) E1)|discriminate (eq_trans (eq_sym X) E2)|discriminate (eq_trans (eq_sym X) E3)|discriminate (eq_trans (eq_sym X) E4)]|]). contradiction. }
  assert (I : exists h, In ([c], h) ebnf_symbols) by (clear - Hs; cbn in Hs; repeat (destruct Hs as [<-|Hs]; [eexists; cbn; tauto|]); contradiction). destruct I as (h & I).
  exact (symbol_pieces left named [c] h s l I Lo El G).
Qed.
Theorem C194_ebnf_every_text : forall src strict cap, 0 < cap ->
  exists l, ebnf_grammar l /\ text l = src /\
  exists ops chunks, highlight_ebnf src strict = Ok (true, ops) /\ token_output false cap (length src) ops = Ok chunks /\ concat chunks = user_tokens 0 l.
Proof. intros src strict cap Hc. destruct (all_grammars (length src) src true false (Nat.le_refl _)) as (l & <- & G). exists l. split; [exact G|]. split; [reflexivity|]. apply C194_ebnf_lexemes; assumption. Qed.
Print Assumptions C194_ebnf_every_text.

(** ** C195: comments nest, as in ISO 14977. *)
Definition ebnf_comment_token (t : token) : Prop := tk_type t = hl_comment \/ tk_type t = hl_comment_delim.
Theorem C195_ebnf_nested_comment_refuted : ~ (forall a b c, (forall w, In w [a; b; c] -> ~ contains w (bs "(*") /\ ~ contains w (bs "*)")) ->
  exists ops chunks, highlight_ebnf (bs "(*" ++ a ++ bs "(*" ++ b ++ bs "*)" ++ c ++ bs "*)") false = Ok (true, ops) /\ token_output false 16 (length a + length b + length c + 8) ops = Ok chunks /\ Forall ebnf_comment_token (concat chunks)).
Proof.
  intros H. destruct (H (bs "a") (bs "b") (bs "c")) as (ops & chunks & E1 & E2 & F).
  - intros w Hw. cbn in Hw. assert (X : forall x y z : N, ~ contains [x] [y; z]) by (intros x y z (u & v & E); destruct u as [|? [|? u]]; discriminate E). repeat (destruct Hw as [<-|Hw]; [split; apply X|]). contradiction.
  - vm_compute in E1. injection E1 as <-. vm_compute in E2. injection E2 as <-. cbn [concat app] in F. inversion F as [|? ? _ F1]. inversion F1 as [|? ? _ F2]. inversion F2 as [|? ? _ F3]. inversion F3 as [|? ? C _]. destruct C as [C|C]; discriminate C.
Qed.
Print Assumptions C195_ebnf_nested_comment_refuted.
(** A comment ends at the first end symbol, and what follows is highlighted as part of the grammar. *)
Theorem C195_ebnf_nested_comment_tokens : forall a b l, ~ contains (a ++ bs "(*" ++ b) (bs "*)") -> ebnf_grammar l -> forall strict cap, 0 < cap ->
  let p := (bs "(*", Some hl_comment_delim) :: (a ++ bs "(*" ++ b, Some hl_comment) :: (bs "*)", Some hl_comment_delim) :: l in
  exists ops chunks, highlight_ebnf (text p) strict = Ok (true, ops) /\ token_output false cap (length (text p)) ops = Ok chunks /\ concat chunks = user_tokens 0 p.
Proof.
  intros a b l H G strict cap Hc. apply C194_ebnf_lexemes; [|exact Hc]. assert (X : exists x t, a ++ bs "(*" ++ b = x :: t) by (destruct a; eexists; eexists; reflexivity). destruct X as (x & t & X).
  pose proof (ebnf_comment true false _ l H G) as Y. rewrite X in *. exact Y.
Qed.
Print Assumptions C195_ebnf_nested_comment_tokens.
Example C195_case : ~ contains (bs "a" ++ bs "(*" ++ bs "b") (bs "*)") /\ ebnf_grammar [(bs "c", Some hl_name_nonterminal_decl)].
Proof.
  split; [intros (u & v & E); destruct u as [|? [|? [|? [|? [|? u]]]]]; discriminate E|]. apply ebnf_declared; [exists 99%N, []; split; [reflexivity|]; split; [left; unfold letter; lia|constructor]|intros c; discriminate|constructor].
Qed.

(** ** C215: the gap separators of ISO 14977 (4.15: space, horizontal tabulation, new line, vertical tabulation, form feed) are not highlighted. *)
Definition gap_separator (c : N) : Prop := In c [32; 9; 10; 13; 11; 12]%N.
Definition gets_tokens (src : str) (tks : list token) : Prop := forall strict cap, 0 < cap ->
  exists ops chunks, highlight_ebnf src strict = Ok (true, ops) /\ token_output false cap (length src) ops = Ok chunks /\ concat chunks = tks.
Theorem C215_ebnf_gap_refuted : ~ (forall c l, gap_separator c -> ebnf_grammar l -> gets_tokens (c :: text l) (user_tokens 1 l)).
Proof.
  intros H. destruct (H 12%N [] ltac:(cbn; tauto) ltac:(constructor) false 1 ltac:(lia)) as (ops & chunks & E1 & E2 & E3). vm_compute in E1. injection E1 as <-. vm_compute in E2. injection E2 as <-. discriminate E3.
Qed.
Print Assumptions C215_ebnf_gap_refuted.
(** It holds for the others. *)
Theorem C215_ebnf_gap_partial : forall c l, gap_separator c -> c <> 12%N -> ebnf_grammar l -> gets_tokens (c :: text l) (user_tokens 1 l).
Proof.
  intros c l Hc N G strict cap Hp. assert (W : ebnf_white c) by (unfold gap_separator in Hc; unfold ebnf_white; cbn in *; intuition).
  exact (C194_ebnf_lexemes (([c], None) :: l) (ebnf_space true false c l W G) strict cap Hp).
Qed.
Print Assumptions C215_ebnf_gap_partial.
(** Form feeds are highlighted as errors, wherever a grammar follows them. *)
Theorem C215_ebnf_form_feed : forall n l, 0 < n -> not_before ebnf_foreign (text l) -> ebnf_grammar l -> gets_tokens (repeat 12%N n ++ text l) (mk_token 0 n hl_error :: user_tokens n l).
Proof.
  intros n l Hn R G strict cap Hp. pose proof (C194_ebnf_lexemes ((repeat 12%N n, Some hl_error) :: l)) as H. rewrite text_cons in H. cbn [user_tokens] in H. rewrite repeat_length in H. apply H; [|exact Hp].
  apply ebnf_error; [destruct n; [lia|discriminate]|apply Forall_forall; intros x Hx; apply repeat_spec in Hx; subst x|exact R|exact G].
  unfold ebnf_foreign, ebnf_name_char, letter, digit, ebnf_white. cbn. intuition lia.
Qed.
Print Assumptions C215_ebnf_form_feed.
Example C215_case : gap_separator 11 /\ not_before ebnf_foreign (text [(bs "c", Some hl_name_nonterminal_decl)]) /\ ebnf_grammar [(bs "c", Some hl_name_nonterminal_decl)].
Proof.
  split; [cbn; tauto|]. split; [intros c [= <-] (F & _); apply F; left; unfold letter; lia|exact (proj2 C195_case)].
Qed.
