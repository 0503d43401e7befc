(** What the Rust highlighter makes of the tokens of the Rust reference. *)
From Coq Require Import List NArith ZArith Bool Arith Lia.
From Verif Require Import M_Base L_Base S_Tokens M_Emit S_Ops L_Emit M_Types M_Chars M_Parse S_Parse L_Parse P_Parse M_Utf8 S_Utf8 L_Utf8 L_Utf8b P_Utf8 L_Any
  M_Api M_Table L_Table M_LangCpp M_Highlighter S_Highlight L_Highlighter P_LangCpp L_Auto M_TokenLoop M_Json S_Json L_WfSteps
  S_Lexemes L_Lexemes L_Number L_Number2 L_Scan L_Symbols L_Escapes S_Comments L_Comments S_Utf8Lexemes L_Utf8Loop M_LangRust S_LangRust.
From Verif Require Import P_LangRust.
Import ListNotations.

(** Strings *)
Example C100_case2 : exists l, program_utf8 rust_space rust_lexeme l /\ text l = [34; 97; 92; 110; 34; 32; 98; 114; 35; 34; 97; 34; 98; 34; 35]%N.
Proof.
  exists ((opt_piece [] hl_string_decor ++ rust_double :: [(bs "a", Some hl_string); (bs "\n", Some hl_string_escape)] ++ [rust_double])
    ++ (bs " ", None) :: ((bs "br", Some hl_string_decor) :: (hashes 1 ++ [34]%N, Some hl_string_delim) :: opt_piece [97; 34; 98]%N hl_string ++ [(34%N :: hashes 1, Some hl_string_delim)]) ++ []).
  split; [|reflexivity]. apply program8_lexeme.
  { apply rust_str; [|nb]. apply (rust_string_literal [] [(bs "a", Some hl_string); (bs "\n", Some hl_string_escape)] [rust_double]); [left; reflexivity|apply rust_closed|]. apply (string_text hl_string _ _ _ (bs "a") [(bs "\n", Some hl_string_escape)]); [discriminate|fa|].
    apply (string_item hl_string _ _ _ _ [(bs "\n", Some hl_string_escape)] []); [|apply string_end]. constructor. apply (rust_esc_simple true true 110). vm_compute. tauto. }
  apply program8_space; [exists [32]%N; split; [repeat constructor; vm_compute; tauto|reflexivity]|]. apply program8_lexeme; [|apply program8_end].
  apply rust_str; [|nb]. apply (rust_raw_literal (bs "br") 1 [97; 34; 98]%N [(34%N :: hashes 1, Some hl_string_delim)]); [right; left; reflexivity|apply rust_closed| |intros _; nb]. intros (a & b & E). destruct a as [|? [|? [|? [|? ?]]]]; discriminate E.
Qed.

(** ** C101: identifiers. Those that begin with an underscore and raw identifiers are not highlighted as names. *)
Theorem C101_rust_identifiers_refuted debug : ~ (forall w, identifier w -> (forall h, ~ In (w, h) rust_words) -> tokenizes (highlight_rust debug) [(w, Some hl_name)])
  /\ ~ (forall w, identifier w -> tokenizes (highlight_rust debug) (rust_raw_name w)).
Proof.
  assert (W : forall w h, table_find rust_tokens w = None -> ~ In (w, h) rust_words) by (intros w h E H; apply (word_hit _ _ _ _ rust_words_ok) in H as [H _]; congruence).
  split; intros H.
  - specialize (H (bs "_x")). enough (K : tokenizes (highlight_rust debug) [(bs "_x", Some hl_name)]) by (specialize (K false); destruct debug; vm_compute in K; discriminate K).
    apply H; [apply identb_iff; reflexivity|intros h; apply W; vm_compute; reflexivity].
  - specialize (H (bs "match") ltac:(apply identb_iff; reflexivity) false). destruct debug; vm_compute in H; discriminate H.
Qed.
Theorem C101_rust_identifiers_partial debug w : identifier w -> rust_no_underscore w ->
  ((forall h, ~ In (w, h) rust_words) -> tokenizes (highlight_rust debug) [(w, Some hl_name)]) /\ (forall h, In (w, h) rust_words -> tokenizes (highlight_rust debug) [(w, Some h)]).
Proof.
  intros H1 H2. assert (B : forall h : option N, bytes (text [(w, h)])).
  { intros h. rewrite text_one. destruct H1 as (c & t & -> & Hc & F). constructor; [unfold ident_start, letter in Hc; lia|]. eapply Forall_impl; [|exact F]. unfold ident_char, letter, digit. cbn beta. lia. }
  split; [intros H3|intros h H3]; (apply C100_rust_lexemes; [apply B|]); [change [(w, Some hl_name)] with ([(w, Some hl_name)] ++ [])|change [(w, Some h)] with ([(w, Some h)] ++ [])]; (apply program8_lexeme; [|apply program8_end]).
  - apply rust_name; [exact H1|exact H2|exact H3|intros _; apply not_before_nil|apply not_before_nil].
  - apply rust_word; [exact H3|apply not_before_nil].
Qed.
Print Assumptions C101_rust_identifiers_refuted.
Print Assumptions C101_rust_identifiers_partial.
Example C101_case : identifier (bs "a_1") /\ rust_no_underscore (bs "a_1").
Proof. split; [apply identb_iff; reflexivity|nb]. Qed.

(** ** C102: number literals. Separators are not accepted everywhere, and ranges and methods of integers are not taken apart. *)
Theorem C102_rust_numbers_refuted debug : ~ (forall w, rust_dec_literal w -> exists l, text l = w /\ tokenizes (highlight_rust debug) l /\ rust_number_colors l)
  /\ ~ tokenizes (highlight_rust debug) [(bs "0", Some hl_number); (bs "..", Some hl_symbol_op); (bs "9", Some hl_number)]
  /\ ~ tokenizes (highlight_rust debug) [(bs "1", Some hl_number); (bs ".", Some hl_symbol_punc); (bs "max", Some hl_name)]
  /\ ~ tokenizes (highlight_rust debug) [(bs "t", Some hl_name); (bs ".", Some hl_symbol_punc); (bs "0", Some hl_number)].
Proof.
  split; [intros H|repeat split; intros H; specialize (H false); destruct debug; vm_compute in H; discriminate H].
  destruct (H (bs "1__0")) as (l & E & T & F).
  { exists 49%N, (bs "__0"). split; [reflexivity|]. split; [unfold digit; lia|]. constructor; [right; reflexivity|]. constructor; [right; reflexivity|]. constructor; [left; unfold digit; vm_compute; intuition discriminate|constructor]. }
  specialize (T false). rewrite E in T. assert (T2 : [OEmit 0 4 hl_error false] = tokens 0 l) by (remember (tokens 0 l) as tl eqn:Etl; destruct debug; vm_compute in T; injection T as <-; reflexivity). clear T E H.
  assert (K : forall i, ~ In hl_error (map (fun o => match o with OEmit _ _ h _ => h | ONested _ _ _ _ => 0%N end) (tokens i l))).
  { clear T2. induction F as [|[t [h|]] l Hh F IH]; intros i; cbn [tokens map In]; [tauto| |apply IH]. intros [K|K]; [|exact (IH _ K)]. cbn in Hh. rewrite K in Hh. vm_compute in Hh. intuition discriminate. }
  apply (K 0). rewrite <- T2. left. reflexivity.
Qed.
Theorem C102_rust_numbers_partial debug n : rust_number n [] -> bytes (text n) -> tokenizes (highlight_rust debug) n.
Proof. intros H B. apply C100_rust_lexemes; [exact B|]. rewrite <- (app_nil_r n). apply program8_lexeme; [|apply program8_end]. apply rust_num. exact H. Qed.
Print Assumptions C102_rust_numbers_refuted.
Print Assumptions C102_rust_numbers_partial.
Example C102_case : rust_number (number_pieces [] [(bs "1", Some hl_number); (bs "_", Some hl_number_delim); (bs "000", Some hl_number)] None None (bs "u32")) [].
Proof.
  apply rust_decimal; [|discriminate|right; split; [apply identb_iff; reflexivity|nb]|discriminate|split; [nb|discriminate]].
  apply (grouped_more digit 95 (bs "1") [(bs "000", Some hl_number)]); [discriminate|fa|]. apply grouped_one; [discriminate|fa].
Qed.

(** ** C103: raw string literals. Those for C strings are read with escape sequences and without hashes. *)
Theorem C103_rust_raw_strings_refuted debug : ~ (forall n body, ~ contains body (34%N :: hashes n) -> tokenizes (highlight_rust debug) (rust_raw_string (bs "cr") n body))
  /\ ~ tokenizes (highlight_rust debug) (rust_raw_string (bs "cr") 1 (bs "a")).
Proof.
  split; intros H.
  - specialize (H 0 (bs "\")). enough (K : tokenizes (highlight_rust debug) (rust_raw_string (bs "cr") 0 (bs "\"))) by (specialize (K false); destruct debug; vm_compute in K; discriminate K).
    apply H. intros (a & b & E). destruct a as [|? [|? ?]]; discriminate E.
  - specialize (H false). destruct debug; vm_compute in H; discriminate H.
Qed.
Theorem C103_rust_raw_strings_partial debug prefix n body : In prefix [bs "r"; bs "br"] -> bytes body -> ~ contains body (34%N :: hashes n) -> tokenizes (highlight_rust debug) (rust_raw_string prefix n body).
Proof.
  intros Hp Hb Hc. apply C100_rust_lexemes.
  - unfold rust_raw_string. rewrite !text_cons, text_app, opt_piece_text, text_one. assert (Bh : bytes (hashes n)) by (apply Forall_forall; intros c K; apply repeat_spec in K; subst c; reflexivity).
    unfold bytes in *. rewrite !Forall_app. repeat split; try assumption; try (repeat constructor; fail); [cbn [In] in Hp; destruct Hp as [<-|[<-|[]]]; repeat constructor|constructor; [reflexivity|exact Bh]].
  - rewrite <- (app_nil_r (rust_raw_string prefix n body)). apply program8_lexeme; [|apply program8_end]. apply rust_str; [|apply not_before_nil]. apply rust_raw_literal; [exact Hp|apply rust_closed|exact Hc|]. intros _. apply not_before_nil.
Qed.
Print Assumptions C103_rust_raw_strings_refuted.
Print Assumptions C103_rust_raw_strings_partial.
Example C103_case : ~ contains [97; 34; 98; 92]%N (34%N :: hashes 2).
Proof. intros (a & b & E). destruct a as [|? [|? [|? [|? [|? ?]]]]]; discriminate E. Qed.

(** ** C104: block comments. They do not nest. *)
Theorem C104_rust_comments_refuted debug : ~ (forall t, rust_nested t -> tokenizes (highlight_rust debug) ((bs "/*", Some hl_comment_delim) :: opt_piece t hl_comment ++ [(bs "*/", Some hl_comment_delim)])).
Proof.
  intros H. specialize (H (bs "/**/") ltac:(apply (nested_comment [] [] []); constructor; intros (a & b & E); destruct a as [|? [|? ?]]; discriminate E) false). destruct debug; vm_compute in H; discriminate H.
Qed.
Theorem C104_rust_comments_partial debug t : bytes t -> ~ contains (t ++ bs "*") (bs "/*") -> ~ contains (t ++ bs "*") (bs "*/") ->
  tokenizes (highlight_rust debug) ((bs "/*", Some hl_comment_delim) :: opt_piece t hl_comment ++ [(bs "*/", Some hl_comment_delim)]).
Proof.
  intros Hb H1 H2. apply C100_rust_lexemes.
  - rewrite text_cons, text_app, opt_piece_text, text_one. unfold bytes in *. rewrite !Forall_app. repeat split; try assumption; repeat constructor.
  - match goal with |- program_utf8 _ _ ?l => rewrite <- (app_nil_r l) end. apply program8_lexeme; [|apply program8_end]. apply rust_comm. split; [apply c_block; exact H2|].
    intros u [Hu|Hu]; [injection Hu as _ Hu; discriminate Hu|]. apply in_app_or in Hu as [Hu|[Hu|[]]]; [|injection Hu as _ Hu; discriminate Hu]. unfold opt_piece in Hu. destruct t; [contradiction|]. destruct Hu as [Hu|[]]. injection Hu as <-. exact H1.
Qed.
Print Assumptions C104_rust_comments_refuted.
Print Assumptions C104_rust_comments_partial.
Example C104_case : ~ contains (bs "a" ++ bs "*") (bs "/*") /\ ~ contains (bs "a" ++ bs "*") (bs "*/").
Proof. split; intros (a & b & E); destruct a as [|? [|? [|? ?]]]; discriminate E. Qed.

(** ** C105: punctuation. The marks of attributes and macros are errors. *)
Theorem C105_rust_punctuation_refuted debug : ~ (forall t, In t rust_punctuation -> exists h, h <> hl_error /\ tokenizes (highlight_rust debug) [(t, Some h)]).
Proof.
  intros H. destruct (H (bs "#") ltac:(vm_compute; tauto)) as (h & Nh & T). specialize (T false). destruct debug; vm_compute in T; discriminate T.
Qed.
Theorem C105_rust_punctuation_partial debug t h : In (t, h) rust_symbols -> tokenizes (highlight_rust debug) [(t, Some h)].
Proof.
  intros H. apply C100_rust_lexemes.
  - rewrite text_one. assert (F : forallb (fun e => forallb (fun c => (c <? 256)%N) (fst e)) rust_symbols = true) by (vm_compute; reflexivity). rewrite forallb_forall in F. specialize (F _ H). cbn [fst] in F.
    apply Forall_forall. rewrite forallb_forall in F. intros c Hc. specialize (F c Hc). apply N.ltb_lt in F. exact F.
  - change [(t, Some h)] with ([(t, Some h)] ++ []). apply program8_lexeme; [|apply program8_end]. apply rust_symbol; [exact H| |intros _; apply not_before_nil|intros _; apply not_before_nil].
    intros u h' v _ E. change (text []) with (@nil N) in E. rewrite app_nil_r in E. rewrite E, app_length. lia.
Qed.
Print Assumptions C105_rust_punctuation_refuted.
Print Assumptions C105_rust_punctuation_partial.
Example C105_case : In (bs "..=", hl_symbol_op) rust_symbols /\ In (bs "..=") rust_punctuation.
Proof. split; vm_compute; tauto. Qed.
