(** * C and C++: an example program (C145), and properties a user may expect (C146-C150) *)
From Coq Require Import List NArith ZArith Bool Arith Lia.
From Verif Require Import M_Base L_Base S_Tokens M_Emit S_Ops L_Emit M_Types M_Chars S_Chars P_Chars M_Parse S_Parse L_Parse S_Utf8 M_Utf8 L_Utf8 P_Utf8 M_Table L_Table
  M_Api M_Highlighter S_Highlight L_Highlighter M_LangCpp S_LangCpp P_LangCpp P_CppMatch L_Auto S_Lexemes L_Lexemes L_Number S_States S_LangCppLexemes L_LangCppLexemes P_LangCppLexemes.
Import ListNotations.

Ltac step_ p s := refine (sequence_lexeme (cpp_lexeme _ _) _ p s _ _ _).
Ltac nb_ := let c := fresh "c" in let H := fresh "H" in intros c H; vm_compute in H; first [discriminate H | injection H as <-; vm_compute; intuition discriminate].
Ltac fa_ := repeat (apply Forall_cons; [vm_compute; intuition discriminate|]); apply Forall_nil.
Ltac id_ := match goal with |- identifier ?w => let H := fresh in assert (H : w = [] \/ identifier w) by (apply prefix_identifier; vm_compute; reflexivity); destruct H as [H|H]; [discriminate H|exact H] end.
Lemma word_by (e : str * N) l : existsb (fun x => str_eqb (fst e) (fst x) && (snd e =? snd x)%N) l = true -> In e l.
Proof. intros H. apply existsb_exists in H as (y & H & E). apply andb_true_iff in E as [E1 E2]. apply str_eqb_eq in E1. apply N.eqb_eq in E2. destruct e, y; cbn in *; subst. exact H. Qed.
Lemma no_word_by w l : existsb (fun x => str_eqb w (fst x)) l = false -> forall h : N, ~ In (w, h) l.
Proof. intros H h I. rewrite (proj2 (existsb_exists _ _)) in H; [discriminate|]. exists (w, h). split; [exact I|]. apply str_eqb_eq. reflexivity. Qed.
Lemma next_by is_cpp s t : known_wrong is_cpp s = false -> match_preprocessing_op_or_punc is_cpp s = Some t -> next_punctuator is_cpp s t.
Proof. intros K E. pose proof (op_correct is_cpp s K) as C. rewrite E in C. exact C. Qed.
Ltac word_ w h f := step_ [(w, Some h)] false; [apply cpp_word; [apply word_by; vm_compute; reflexivity|nb_]|].
Ltac sym_ w h := step_ [(w, Some h)] false; [apply cpp_symbol; [apply word_by; vm_compute; reflexivity|apply next_by; vm_compute; reflexivity|discriminate|discriminate|first [discriminate|split; discriminate]|first [discriminate|intros _; nb_]|first [discriminate|intros _; nb_]]|].
Ltac name_ w h := step_ [(w, Some h)] false; [apply cpp_name; [id_|apply no_word_by; vm_compute; reflexivity| |nb_]|].
Ltac space_ g w f := step_ [(w, None : option N)] f; [apply (cpp_white _ _ g w); [discriminate|fa_|nb_]|].
Definition cpp_example : list piece :=
  [(bs "#", Some hl_name_macro_delim); ([], None); (bs "include", Some hl_name_macro); (bs " ", None); (bs "<", Some hl_string_delim); (bs "a", Some hl_string); (bs ">", Some hl_string_delim); ([10]%N, None);
   (bs "class", Some hl_keyword); (bs " ", None); (bs "x_t", Some hl_name_type); (bs "{", Some hl_symbol_brace); (bs "int", Some hl_keyword_type); (bs " ", None); (bs "y", Some hl_name); (bs "=", Some hl_symbol_op);
   (bs "0x", Some hl_number_decor); (bs "1F", Some hl_number); ([39]%N, Some hl_number_delim); (bs "0", Some hl_number); (bs "u", Some hl_number_decor); (bs "<=>", Some hl_symbol_op);
   (bs "u8", Some hl_string_decor); ([34]%N, Some hl_string_delim); (bs "a", Some hl_string); (bs "\u0041", Some hl_string_escape); ([34]%N, Some hl_string_delim); (bs "s", Some hl_string_decor); (bs ",", Some hl_symbol_punc);
   (bs "R", Some hl_string_decor); (34%N :: bs "d(", Some hl_string_delim); (bs ")e", Some hl_string); (bs ")d" ++ [34]%N, Some hl_string_delim); (bs "/*", Some hl_comment_delim); (bs "*", Some hl_comment); (bs "*/", Some hl_comment_delim);
   (bs "}", Some hl_symbol_brace); (bs ";", Some hl_symbol_punc)].
Example C145_case : sequence (cpp_lexeme true true) true cpp_example.
Proof.
  unfold cpp_example.
  step_ [(bs "#", Some hl_name_macro_delim); ([], None); (bs "include", Some hl_name_macro); (bs " ", None); (bs "<", Some hl_string_delim); (bs "a", Some hl_string); (bs ">", Some hl_string_delim)] true.
  { apply cpp_direct. apply (cpp_directive_include (bs "#") [] (bs " ")); [cbn; tauto|constructor|fa_| |nb_]. apply (cpp_header_angle (bs "a")). fa_. }
  space_ true [10%N] true. word_ (bs "class") hl_keyword false. space_ false [32%N] false. name_ (bs "x_t") hl_name_type. { left. split; [reflexivity|]. exists (bs "x"). reflexivity. }
  sym_ (bs "{") hl_symbol_brace. word_ (bs "int") hl_keyword_type false. space_ false [32%N] false. name_ (bs "y") hl_name. { right. split; [reflexivity|]. intros [[|a [|b v]] E]; discriminate. }
  sym_ (bs "=") hl_symbol_op.
  step_ (number_pieces (bs "0x") [(bs "1F", Some hl_number); ([39]%N, Some hl_number_delim); (bs "0", Some hl_number)] None None (bs "u")) false.
  { apply cpp_num.
    - apply cpp_hex; [cbn; tauto| |]. { apply grouped_more; [discriminate|fa_|]. apply grouped_one; [discriminate|fa_]. } right. exists (ch "u"), []. split; [reflexivity|]. split; [|constructor]. split; [left; vm_compute; intuition discriminate|]. split; vm_compute; intuition discriminate.
    - split; [nb_|]. intros v c E. vm_compute in E. change [48; 120; 49; 70; 39; 48; 117]%N with ([48; 120; 49; 70; 39; 48] ++ [117])%N in E. apply app_inj_tail in E as [_ <-]. vm_compute. intuition discriminate. }
  sym_ (bs "<=>") hl_symbol_op.
  step_ (opt_piece (bs "u8") hl_string_decor ++ ([34]%N, Some hl_string_delim) :: [(bs "a", Some hl_string); (bs "\u0041", Some hl_string_escape)] ++ [([34]%N, Some hl_string_delim); (bs "s", Some hl_string_decor)]) false.
  { apply cpp_lit, cpp_quoted; [vm_compute; tauto| |].
    - apply cpp_closed, cpp_a_suffix; [id_|apply no_word_by; vm_compute; reflexivity|nb_].
    - apply (string_text _ _ _ _ (bs "a")); [discriminate| |].
      + apply (cpp_plain_text 34 97 [97]%N []); [vm_compute; intuition discriminate|reflexivity|vm_compute; intuition discriminate|constructor].
      + apply (string_item _ _ _ _ false [(bs "\u0041", Some hl_string_escape)]); [apply cpp_item_escape, (cpp_esc_u (bs "0041"))|apply string_end]. split; [reflexivity|fa_]. }
  sym_ (bs ",") hl_symbol_punc.
  step_ [(bs "R", Some hl_string_decor); (34%N :: bs "d(", Some hl_string_delim); (bs ")e", Some hl_string); (bs ")d" ++ [34]%N, Some hl_string_delim)] false.
  { apply cpp_lit, (cpp_raw true true (bs "R") (bs "d") (bs ")e") []); [cbn; tauto|fa_| |apply cpp_no_suffix; nb_].
    intros a b E. assert (L := f_equal (@length N) E). rewrite !app_length in L. cbn in L. destruct b as [|y b]; [reflexivity|exfalso]. cbn [length] in L. destruct a as [|x1 [|x2 a]]; [discriminate E|discriminate E|cbn [length] in L; lia]. }
  step_ [(bs "/*", Some hl_comment_delim); (bs "*", Some hl_comment); (bs "*/", Some hl_comment_delim)] false.
  { apply (cpp_block_comment _ _ false (bs "*")). intros a b E. apply (f_equal (@length N)) in E. rewrite !app_length in E. cbn in E. lia. }
  sym_ (bs "}") hl_symbol_brace. sym_ (bs ";") hl_symbol_punc. apply sequence_end.
Qed.

(** ** C146: words directly before literals *)
Lemma string_error is_cpp strict f w quote body close rest f' : identifier w -> (quote = 34 /\ w <> bs "operator" /\ is_string_literal_prefix w = false /\ (forall v, w <> v ++ bs "R")
    \/ quote = 39 /\ ~ In w [bs "u8"; bs "u"; bs "U"; bs "L"])%N ->
  cpp_closing is_cpp strict quote close rest f' -> string_body hl_string (cpp_plain quote) cpp_item (text close ++ rest) true body ->
  does (cpp_body is_cpp strict) f ((w, Some hl_error) :: ([quote], Some hl_string_delim) :: body ++ close) rest tt f'.
Proof.
  intros W Hq Hc Hb. assert (Z : w <> []) by (apply ident_nonempty, W).
  assert (EO : [(w, Some hl_error)] = opt_piece w hl_error) by (destruct w; [congruence|reflexivity]).
  change ((w, Some hl_error) :: ?l) with ([(w, Some hl_error)] ++ l). rewrite EO. destruct Hq as [(-> & O & P & R)|[-> P]].
  - eapply string_yes; [right; exact W|reflexivity| |].
    + intros _. rewrite P. destruct (str_eqb w (bs "operator")) eqn:E; [apply str_eqb_eq in E; contradiction|reflexivity].
    + assert (ends_with w (bs "R") = false) as ->; [|rewrite andb_false_r; apply quote_yes; auto]. apply not_true_iff_false. rewrite ends_with_iff. intros [v E]. exact (R v E).
  - match goal with |- does _ _ ?p _ _ _ => assert (ET : text p ++ rest = w ++ 39%N :: text (body ++ close) ++ rest) by (rewrite text_app, opt_piece_text, text_cons, <- app_assoc; reflexivity) end.
    apply body_check. eapply to_literal; [right; exact W|right; reflexivity|exact ET|].
    apply or_no. { eapply no_string; rewrite ET; [apply prefix_match; auto|]. rewrite skipn_app_exact. discriminate. }
    apply or_yes. unfold cpp_expect_character_literal. apply does_rem. rewrite ET. eapply does_lift; [apply prefix_match; auto|]. rewrite skipn_app_exact. cbn [starts_with_ch]. rewrite N.eqb_refl. cbn [negb].
    cbv zeta. rewrite firstn_app_exact. apply (does_bind _ _ _ _ _ _ tt f).
    + assert (existsb (str_eqb w) [bs "u8"; bs "u"; bs "U"; bs "L"] = false) as ->; [|rewrite <- EO; apply does_when; [intros _; apply does_emit; [reflexivity|exact Z]|destruct w; [congruence|discriminate]]].
      apply not_true_iff_false. intros X. apply existsb_exists in X as (y & I & X). apply str_eqb_eq in X. subst y. contradiction.
    + apply does_get. apply does_check; [reflexivity|]. eapply does_cons; [apply does_emit; [reflexivity|discriminate]|]. eapply does_last; [eapply chars_yes; [auto|exact Hc|exact Hb]|]. apply does_ret.
Qed.
Lemma program_one is_cpp strict p f' : text p <> [] -> does (cpp_body is_cpp strict) true p [] tt f' -> highlight_c_or_cpp is_cpp (text p) strict = Ok (true, tokens 0 p).
Proof. intros Ne H. apply program_exact. rewrite <- (app_nil_r p). eapply sequence_lexeme; [split; [exact Ne|exact H]|apply sequence_end]. Qed.
(** Every keyword except operator becomes an error. *)
Theorem C146_cpp_word_before_literal_refuted : forall is_cpp strict w h quote body, In (w, h) (cpp_words is_cpp strict) -> w <> bs "operator" -> (quote = 34 \/ quote = 39)%N ->
  string_body hl_string (cpp_plain quote) cpp_item [quote] true body ->
  highlight_c_or_cpp is_cpp (w ++ [quote] ++ text body ++ [quote]) strict =
  Ok (true, tokens 0 ((w, Some hl_error) :: ([quote], Some hl_string_delim) :: body ++ [([quote], Some hl_string_delim)])).
Proof.
  intros is_cpp strict w h quote body Hw O Hq Hb. assert (W := word_identifier _ _ _ _ Hw).
  replace (w ++ [quote] ++ text body ++ [quote]) with (text ((w, Some hl_error) :: ([quote], Some hl_string_delim) :: body ++ [([quote], Some hl_string_delim)])) by (rewrite !text_cons, text_app, text_one; reflexivity).
  assert (H := cpp_closed is_cpp strict quote [] [] (cpp_no_suffix is_cpp strict [] ltac:(intros c E; discriminate E))).
  eapply program_one; [rewrite text_cons; intros E; apply app_eq_nil in E as [E _]; exact (ident_nonempty w W E)|]. eapply string_error; [exact W| |exact H|exact Hb].
  assert (C : forallb (fun e => negb (is_string_literal_prefix (fst e)) && negb (ends_with (fst e) (bs "R")) && negb (existsb (str_eqb (fst e)) [bs "u8"; bs "u"; bs "U"; bs "L"])) (cpp_words is_cpp strict) = true) by (destruct is_cpp, strict; vm_compute; reflexivity).
  rewrite forallb_forall in C. specialize (C _ Hw). cbn [fst] in C. rewrite !andb_true_iff, !negb_true_iff in C. destruct C as [[C1 C2] C3]. destruct Hq as [->| ->]; [left|right].
  - repeat split; [exact O|exact C1|]. intros v E. assert (X : ends_with w (bs "R") = true) by (apply ends_with_iff; eauto). congruence.
  - split; [reflexivity|]. intros X. rewrite (proj2 (existsb_exists _ _)) in C3; [discriminate|]. exists w. split; [exact X|]. apply str_eqb_eq. reflexivity.
Qed.
Print Assumptions C146_cpp_word_before_literal_refuted.
Lemma literal_start is_cpp strict lit rest f' : cpp_literal is_cpp strict lit rest f' -> not_before cpp_space (text lit).
Proof.
  assert (Q : forall prefix q t, forallb (fun c => negb (is_cpp_whitespace c)) (prefix ++ [q]) = true -> not_before cpp_space (prefix ++ q :: t)).
  { intros prefix q t F c Ec. rewrite forallb_forall in F. assert (I : In c (prefix ++ [q])) by (destruct prefix; cbn in Ec; injection Ec as ->; left; reflexivity). specialize (F c I). apply negb_true_iff in F. intros S. apply space_iff in S. congruence. }
  intros [quote prefix body close rest' f1 Hi Hc Hs|body close rest' f1 Hc Hs|prefix d body s rest' Hi Hd Hb' Hs].
  - rewrite text_app, opt_piece_text, text_cons. apply Q. apply in_app_or in Hi as [Hi|Hi]; apply in_map_iff in Hi as (x & [= <- ->] & Hi); cbn [In] in Hi; repeat destruct Hi as [<-|Hi]; try contradiction; reflexivity.
  - rewrite !text_cons. apply Q. reflexivity.
  - rewrite !text_cons. apply Q. cbn [In] in Hi; repeat destruct Hi as [<-|Hi]; try contradiction; reflexivity.
Qed.
(** With white space in between, the word keeps its highlight. *)
Theorem C146_cpp_word_before_literal_partial : forall is_cpp strict w h b lit f', In (w, h) (cpp_words is_cpp strict) -> b <> [] -> Forall cpp_space b -> cpp_literal is_cpp strict lit [] f' ->
  highlight_c_or_cpp is_cpp (w ++ b ++ text lit) strict = Ok (true, tokens 0 ((w, Some h) :: (b, None) :: lit)).
Proof.
  intros is_cpp strict w h b lit f' Hw Hb Fb Hl. replace (w ++ b ++ text lit) with (text ((w, Some h) :: (b, None) :: lit)) by reflexivity. apply C145_cpp_lexemes.
  change ((w, Some h) :: (b, None) :: lit) with ([(w, Some h)] ++ [(b, None)] ++ lit). eapply sequence_lexeme; [apply cpp_word; [exact Hw|]|].
  - destruct Fb as [|c b Hc Fb]; [congruence|]. apply not_before_cons. unfold cpp_space in Hc. cbn [In] in Hc. unfold ident_or_non_ascii, ident_char, letter, digit. cbn [In]. lia.
  - eapply sequence_lexeme; [apply cpp_white; [exact Hb|exact Fb|]|].
    + apply (literal_start _ _ _ _ _ Hl).
    + rewrite <- (app_nil_r lit). eapply sequence_lexeme; [apply cpp_lit; exact Hl|apply sequence_end].
Qed.
Print Assumptions C146_cpp_word_before_literal_partial.
Example C146_case : highlight_cpp (bs "return" ++ 34%N :: bs "x" ++ [34]%N) true = Ok (true, tokens 0 [(bs "return", Some hl_error); ([34]%N, Some hl_string_delim); (bs "x", Some hl_string); ([34]%N, Some hl_string_delim)])
  /\ highlight_cpp (bs "return " ++ 34%N :: bs "x" ++ [34]%N) true = Ok (true, tokens 0 [(bs "return", Some hl_keyword_control); (bs " ", None); ([34]%N, Some hl_string_delim); (bs "x", Some hl_string); ([34]%N, Some hl_string_delim)]).
Proof. split; vm_compute; reflexivity. Qed.

(** ** C147: a directive without a name ends with its line *)
Theorem C147_cpp_null_directive_refuted : forall is_cpp strict w h, In (w, h) (cpp_words is_cpp strict) ->
  highlight_c_or_cpp is_cpp (bs "#" ++ [10]%N ++ w) strict = Ok (true, tokens 0 [(bs "#", Some hl_name_macro_delim); ([10]%N, None); (w, Some hl_name_macro)]).
Proof.
  intros is_cpp strict w h Hw. assert (W := word_identifier _ _ _ _ Hw).
  replace (bs "#" ++ [10]%N ++ w) with (text [(bs "#", Some hl_name_macro_delim); ([10]%N, None); (w, Some hl_name_macro)]) by (rewrite !text_cons; cbn [text map concat]; rewrite app_nil_r; reflexivity).
  eapply program_one; [discriminate|]. apply directive_head; [cbn; tauto|fa_|exact W|intros c E; discriminate E|].
  assert (str_eqb w (bs "include") = false) as ->; [|apply does_ret].
  assert (C : forallb (fun e => negb (str_eqb (fst e) (bs "include"))) (cpp_words is_cpp strict) = true) by (destruct is_cpp, strict; vm_compute; reflexivity).
  rewrite forallb_forall in C. specialize (C _ Hw). apply negb_true_iff, C.
Qed.
Print Assumptions C147_cpp_null_directive_refuted.
(** It does if the next line does not begin with a word or white space. *)
Theorem C147_cpp_null_directive_partial : forall is_cpp strict l, sequence (cpp_lexeme is_cpp strict) true l -> not_before (fun c => cpp_space c \/ ident_or_non_ascii c) (text l) ->
  highlight_c_or_cpp is_cpp (bs "#" ++ [10]%N ++ text l) strict = Ok (true, tokens 0 ((bs "#", Some hl_name_macro_delim) :: ([10]%N, None) :: l)).
Proof.
  intros is_cpp strict l Hl R. change (bs "#" ++ [10]%N ++ text l) with (text ((bs "#", Some hl_name_macro_delim) :: ([10]%N, None) :: l)). apply program_exact.
  change ((bs "#", Some hl_name_macro_delim) :: ([10]%N, None) :: l) with ([(bs "#", Some hl_name_macro_delim); ([10]%N, None)] ++ l). apply sequence_lexeme with (s' := true).
  - split; [discriminate|]. apply body_check. eapply to_directive; [reflexivity|unfold cpp_space; cbn [In]; vm_compute; intuition discriminate|discriminate|]. apply or_yes. unfold cpp_expect_directive.
    apply does_line. intros n. cbn [cl_fresh_line negb]. apply does_rem. rewrite !text_cons. cbn [text map concat]. rewrite app_nil_r.
    pose proof (hash_op is_cpp (bs "#") (10%N :: text l) ltac:(cbn; tauto) ltac:(intros c [= <-]; lia)) as O. change ((bs "#" ++ [10]%N) ++ text l) with (bs "#" ++ 10%N :: text l). rewrite O. cbv zeta. change (is_pound (Some (bs "#"))) with true. cbn [negb].
    eapply does_cons; [apply does_emit; [reflexivity|discriminate]|]. apply does_rem. rewrite text_one.
    eapply does_cons; [apply does_advance; apply (white_len [10]%N); [fa_|eapply not_before_impl; [|exact R]; cbv beta; tauto]|].
    apply does_rem. cbn [text map concat app]. eapply does_lift with (a := 0); [|apply does_ret].
    destruct (text l) as [|c t] eqn:E; [reflexivity|]. specialize (R c eq_refl). cbv beta in R. apply not_identifier; unfold ident_or_non_ascii, ident_char, ident_start in *; [|tauto]. destruct (N.lt_ge_cases c 128); [assumption|tauto].
  - clear R. induction Hl as [s|s p s' l' H Hl IH]; [apply sequence_end|]. eapply sequence_lexeme; [split; [eapply lexeme_nonempty; exact H|apply lexeme_case; exact H]|exact IH].
Qed.
Print Assumptions C147_cpp_null_directive_partial.
Example C147_case : highlight_cpp (bs "#" ++ 10%N :: bs "int x") true = Ok (true, tokens 0 [(bs "#", Some hl_name_macro_delim); ([10]%N, None); (bs "int", Some hl_name_macro); (bs " ", None); (bs "x", Some hl_name)])
  /\ highlight_cpp (bs "#" ++ 10%N :: bs "{") true = Ok (true, tokens 0 [(bs "#", Some hl_name_macro_delim); ([10]%N, None); (bs "{", Some hl_symbol_brace)]).
Proof. split; vm_compute; reflexivity. Qed.

(** ** C148: a macro definition may be continued on the next line *)
Lemma name_words is_cpp strict x : (forall h, ~ In (x, h) (cpp_words is_cpp strict)) -> exists h, name_highlight x h.
Proof.
  intros _. destruct (ends_with x (bs "_t")) eqn:E; [exists hl_name_type; left; split; [reflexivity|apply ends_with_iff, E]|exists hl_name; right; split; [reflexivity|]]. rewrite <- ends_with_iff. congruence.
Qed.
(** The beginning of a macro definition *)
Definition macro_head (x : str) (h : N) : list piece :=
  [(bs "#", Some hl_name_macro_delim); ([], None); (bs "define", Some hl_name_macro); (bs " ", None); (bs "S", Some hl_name); (bs "(", Some hl_symbol_parens); (x, Some h); (bs ")", Some hl_symbol_parens); (bs " ", None)].
Lemma macro_head_text x h b : text (macro_head x h ++ b) = bs "#define S(" ++ x ++ bs ") " ++ text b.
Proof. unfold macro_head. rewrite text_app, !text_cons. cbn [text map concat]. rewrite !app_nil_r. rewrite <- !app_assoc. reflexivity. Qed.
Lemma ident_rest x t (p : N -> Prop) : identifier x -> (forall c, ident_start c -> ~ p c) -> not_before p (x ++ t).
Proof. apply ident_not_before. Qed.
Lemma simple_symbol is_cpp strict f c h t : In ([c], h) cpp_symbols -> In c (bs "()") -> cpp_lexeme is_cpp strict f [([c], Some h)] t false.
Proof.
  intros I Hc. apply cpp_symbol; [exact I| | | | | |]; try (destruct Hc as [<-|[<-|[]]]; first [discriminate|intros _; split; discriminate]).
  - apply next_by; destruct Hc as [<-|[<-|[]]]; destruct is_cpp; reflexivity.
  - intros _ (_ & [r B] & _). destruct Hc as [<-|[<-|[]]]; discriminate B.
Qed.
Lemma hash_symbol is_cpp strict x t : identifier x -> cpp_lexeme is_cpp strict false [(bs "#", Some hl_name_macro_delim)] (x ++ t) false.
Proof.
  intros W. apply cpp_symbol; try discriminate.
  - apply word_by. vm_compute. reflexivity.
  - apply next_by; [destruct is_cpp; reflexivity|]. apply hash_op; [cbn; tauto|]. apply ident_not_before; [exact W|]. unfold ident_start, letter. lia.
  - intros _ (_ & [r B] & _). discriminate B.
Qed.
Ltac nb2_ := let c := fresh "c" in let H := fresh "H" in intros c H; vm_compute in H; injection H as <-; vm_compute; tauto.
Lemma macro_sequence is_cpp strict x h b : identifier x -> (forall h, ~ In (x, h) (cpp_words is_cpp strict)) -> name_highlight x h -> not_before cpp_space (text b) ->
  sequence (cpp_lexeme is_cpp strict) false b -> sequence (cpp_lexeme is_cpp strict) true (macro_head x h ++ b).
Proof.
  intros W Nw Nh B Hb. change (macro_head x h ++ b) with ([(bs "#", Some hl_name_macro_delim); ([], None); (bs "define", Some hl_name_macro)] ++ [(bs " ", None)] ++ [(bs "S", Some hl_name)] ++ [(bs "(", Some hl_symbol_parens)] ++ [(x, Some h)]
    ++ [(bs ")", Some hl_symbol_parens)] ++ [(bs " ", None)] ++ b).
  apply sequence_lexeme with (s' := true). { apply cpp_direct, cpp_directive_name; [cbn; tauto|constructor|id_|discriminate|]. nb_. }
  apply sequence_lexeme with (s' := true). { apply (cpp_white _ _ true (bs " ")); [discriminate|fa_|]. nb_. }
  apply sequence_lexeme with (s' := false). { apply cpp_name; [id_|destruct is_cpp, strict; apply no_word_by; vm_compute; reflexivity| |]. { right. split; [reflexivity|]. intros [[|a [|c v]] E]; discriminate. } nb_. }
  apply sequence_lexeme with (s' := false). { apply (simple_symbol is_cpp strict false 40%N); [apply word_by; vm_compute; reflexivity|cbn; tauto]. }
  apply sequence_lexeme with (s' := false). { apply cpp_name; [exact W|exact Nw|exact Nh|]. nb_. }
  apply sequence_lexeme with (s' := false). { apply (simple_symbol is_cpp strict false 41%N); [apply word_by; vm_compute; reflexivity|cbn; tauto]. }
  apply sequence_lexeme with (s' := false). { apply (cpp_white _ _ false (bs " ")); [discriminate|fa_|exact B]. }
  exact Hb.
Qed.
(** Stringizing the parameter [x] with [#x]: on the next line, [#x] is taken for a directive named [x]. *)
Theorem C148_cpp_continued_macro_refuted : forall is_cpp strict x h, identifier x -> x <> bs "include" -> (forall h, ~ In (x, h) (cpp_words is_cpp strict)) -> name_highlight x h ->
  highlight_c_or_cpp is_cpp (bs "#define S(" ++ x ++ bs ") \" ++ [10]%N ++ bs "#" ++ x) strict =
  Ok (true, tokens 0 (macro_head x h ++ [(bs "\", None); ([10]%N, None); (bs "#", Some hl_name_macro_delim); (x, Some hl_name_macro)])).
Proof.
  intros is_cpp strict x h W NI Nw Nh. set (b := [(bs "\", None)] ++ [([10]%N, None)] ++ [(bs "#", Some hl_name_macro_delim); ([], None); (x, Some hl_name_macro)] ++ [] : list piece).
  assert (E : tokens 0 (macro_head x h ++ [(bs "\", None); ([10]%N, None); (bs "#", Some hl_name_macro_delim); (x, Some hl_name_macro)]) = tokens 0 (macro_head x h ++ b)) by (rewrite !(tokens_app (macro_head x h)); f_equal; unfold b; cbn [app tokens length]; rewrite Nat.add_0_r; reflexivity).
  rewrite E. replace (bs "#define S(" ++ x ++ bs ") \" ++ [10]%N ++ bs "#" ++ x) with (text (macro_head x h ++ b)) by (rewrite macro_head_text; unfold b; rewrite !text_app, !text_cons; cbn [text map concat]; rewrite !app_nil_r; reflexivity).
  apply C145_cpp_lexemes, macro_sequence; try assumption; [nb_|]. unfold b.
  apply sequence_lexeme with (s' := false). { apply (cpp_other _ _ false (ch "\") []); [cbn; tauto|constructor|]. nb2_. }
  apply sequence_lexeme with (s' := true). { apply (cpp_white _ _ false [10]%N); [discriminate|fa_|]. nb_. }
  apply sequence_lexeme with (s' := true); [|apply sequence_end]. apply cpp_direct, cpp_directive_name; [cbn; tauto|constructor|exact W|exact NI|intros c E'; discriminate E'].
Qed.
Print Assumptions C148_cpp_continued_macro_refuted.
(** On the same line, [x] is a name. *)
Theorem C148_cpp_continued_macro_partial : forall is_cpp strict x h, identifier x -> (forall h, ~ In (x, h) (cpp_words is_cpp strict)) -> name_highlight x h ->
  highlight_c_or_cpp is_cpp (bs "#define S(" ++ x ++ bs ") #" ++ x) strict = Ok (true, tokens 0 (macro_head x h ++ [(bs "#", Some hl_name_macro_delim); (x, Some h)])).
Proof.
  intros is_cpp strict x h W Nw Nh. replace (bs "#define S(" ++ x ++ bs ") #" ++ x) with (text (macro_head x h ++ [(bs "#", Some hl_name_macro_delim); (x, Some h)])) by (rewrite macro_head_text, !text_cons; cbn [text map concat]; rewrite app_nil_r; reflexivity).
  apply C145_cpp_lexemes, macro_sequence; try assumption; [nb_|].
  change [(bs "#", Some hl_name_macro_delim); (x, Some h)] with ([(bs "#", Some hl_name_macro_delim)] ++ [(x, Some h)] ++ []).
  apply sequence_lexeme with (s' := false). { apply (hash_symbol is_cpp strict x []), W. }
  apply sequence_lexeme with (s' := false); [|apply sequence_end]. apply cpp_name; try assumption. intros c E; discriminate E.
Qed.
Print Assumptions C148_cpp_continued_macro_partial.
Example C148_case : highlight_c (bs "#define S(a) \" ++ 10%N :: bs "#a") true = Ok (true, tokens 0 (macro_head (bs "a") hl_name ++ [(bs "\", None); ([10]%N, None); (bs "#", Some hl_name_macro_delim); (bs "a", Some hl_name_macro)])).
Proof. vm_compute. reflexivity. Qed.

(** ** C149: the suffix of a floating-point number *)
Lemma hex_float_token base n e d c : In base [bs "0x"; bs "0X"] -> n <> [] -> Forall hex_digit n -> In e (bs "pP") -> d <> [] -> Forall digit d -> In c (bs "fF") ->
  let p := [(base, Some hl_number_decor); (n, Some hl_number); ([e], Some hl_number_delim); (d ++ [c], Some hl_number)] in
  pp_text (text p) /\ forall f rest, does (cpp_highlight_pp_number (text p)) f p rest tt f.
Proof.
  intros Hb Nn Fn He Nd Fd Hc p.
  assert (E : p = number_pieces base [(n, Some hl_number)] None (Some ([e], d ++ [c])) []) by (unfold p, number_pieces; destruct Hb as [<-|[<-|[]]]; reflexivity).
  assert (Hx : hex_digit c) by (vm_compute in Hc; unfold hex_digit; lia). assert (Fd' : Forall (digit_like true) (d ++ [c])).
  { apply Forall_app. split; [|constructor; [exact Hx|constructor]]. eapply Forall_impl; [|exact Fd]. intros y. unfold digit, digit_like, hex_digit. lia. }
  split.
  - unfold p. rewrite !text_cons. cbn [text map concat]. rewrite app_nil_r. left.
    assert (T : pp_tail (n ++ [e] ++ d ++ [c])).
    { apply pp_app; [apply pp_ident; eapply Forall_impl; [|exact Fn]; exact hex_char|]. apply pp_ident. apply Forall_cons; [unfold ident_char, letter; vm_compute in He; lia|].
      eapply Forall_impl; [|exact Fd']. exact hex_char. }
    destruct Hb as [<-|[<-|[]]]; (eexists _, _; split; [reflexivity|]; split; [unfold digit; vm_compute; intuition discriminate|]); (apply pp_char; [left; left; vm_compute; intuition discriminate|exact T]).
  - intros f rest. rewrite E. apply (number_highlight base true).
    + intros _. destruct Hb as [<-|[<-|[]]]; cbn; tauto.
    + destruct Hb as [<-|[<-|[]]]; reflexivity.
    + intros ->. destruct Hb as [Hb|[Hb|[]]]; discriminate Hb.
    + destruct Hb as [<-|[<-|[]]]; discriminate.
    + clear f rest. intros f rest. unfold number_pieces. cbn [opt_piece app frac_text exp_text]. rewrite app_nil_r. eapply (loop_grouped true hex_digit [(n, Some hl_number)]); [auto|apply grouped_one; assumption|].
      intros g f' rest'. cbn [app].
      assert (L : cpp_pp_number_loop true (e :: d ++ [c]) (length g) = (cpp_flush_digits (length g) ;; cpp_emit_and_advance 1 hl_number_delim ;; cpp_pp_number_loop true (d ++ [c]) 0)).
      { cbn [cpp_pp_number_loop]. destruct d as [|y d]; [congruence|]. cbn [app]. apply Forall_cons_iff in Fd as [Fy _]. apply digit_iff in Fy. rewrite Fy, orb_true_r. destruct He as [<-|[<-|[]]]; reflexivity. }
      rewrite L. eapply does_bind; [apply does_flush; reflexivity|]. eapply does_cons; [apply does_emit; [reflexivity|discriminate]|].
      rewrite <- (app_nil_r (d ++ [c])) at 1. rewrite loop_digits by exact Fd'. cbn [Nat.add]. assert (X : forall k, k = length (d ++ [c]) -> does (cpp_pp_number_loop true [] k) f' [(d ++ [c], Some hl_number)] rest' tt f').
      { intros k Ek. cbn [cpp_pp_number_loop]. pose proof (does_flush (d ++ [c]) k f' rest' Ek) as Y. destruct (d ++ [c]) eqn:Z; [destruct d; discriminate Z|exact Y]. }
      apply X. reflexivity.
Qed.
Theorem C149_cpp_float_suffix_refuted : forall is_cpp strict base n e d c, In base [bs "0x"; bs "0X"] -> n <> [] -> Forall hex_digit n -> In e (bs "pP") -> d <> [] -> Forall digit d -> In c (bs "fF") ->
  highlight_c_or_cpp is_cpp (base ++ n ++ [e] ++ d ++ [c]) strict =
  Ok (true, tokens 0 [(base, Some hl_number_decor); (n, Some hl_number); ([e], Some hl_number_delim); (d ++ [c], Some hl_number)]).
Proof.
  intros is_cpp strict base n e d c Hb Nn Fn He Nd Fd Hc. destruct (hex_float_token base n e d c Hb Nn Fn He Nd Fd Hc) as [T H].
  set (p := [(base, Some hl_number_decor); (n, Some hl_number); ([e], Some hl_number_delim); (d ++ [c], Some hl_number)]) in *.
  assert (E : text p = base ++ n ++ [e] ++ d ++ [c]) by (unfold p; rewrite !text_cons; cbn [text map concat]; rewrite app_nil_r; reflexivity).
  rewrite <- E. eapply program_one.
  - rewrite E. destruct Hb as [<-|[<-|[]]]; discriminate.
  - apply number_token; [exact T|exact H|]. split; [intros x X; discriminate X|intros v x _ _ y Y; discriminate Y].
Qed.
Print Assumptions C149_cpp_float_suffix_refuted.
(** Suffixes of decimal numbers, and other suffixes of hexadecimal numbers *)
Theorem C149_cpp_float_suffix_partial : forall is_cpp strict,
  (forall n e s d c, n <> [] -> Forall digit n -> In e (bs "eE") -> In s [[]; bs "+"; bs "-"] -> d <> [] -> Forall digit d -> In c (bs "fFlL") ->
    highlight_c_or_cpp is_cpp (n ++ [e] ++ (s ++ d) ++ [c]) strict = Ok (true, tokens 0 [(n, Some hl_number); ([e], Some hl_number_delim); (s ++ d, Some hl_number); ([c], Some hl_number_decor)]))
  /\ (forall base n e s d c, In base [bs "0x"; bs "0X"] -> n <> [] -> Forall hex_digit n -> In e (bs "pP") -> In s [[]; bs "+"; bs "-"] -> d <> [] -> Forall digit d -> In c (bs "lL") ->
    highlight_c_or_cpp is_cpp (base ++ n ++ [e] ++ (s ++ d) ++ [c]) strict =
    Ok (true, tokens 0 [(base, Some hl_number_decor); (n, Some hl_number); ([e], Some hl_number_delim); (s ++ d, Some hl_number); ([c], Some hl_number_decor)])).
Proof.
  intros is_cpp strict.
  assert (AN : forall v c, In c (bs "fFlL") -> after_number v [] ) by (intros; split; [intros x X; discriminate X|intros ? ? _ _ y Y; discriminate Y]).
  split.
  - intros n e s d c Nn Fn He Hs Nd Fd Hc. set (p := number_pieces [] [(n, Some hl_number)] None (Some ([e], s ++ d)) [c]).
    assert (E : text p = n ++ [e] ++ (s ++ d) ++ [c]) by (unfold p; rewrite number_pieces_text; cbn [frac_text exp_text app]; rewrite text_one; reflexivity).
    change (highlight_c_or_cpp is_cpp (n ++ [e] ++ (s ++ d) ++ [c]) strict = Ok (true, tokens 0 p)). rewrite <- E. apply C145_cpp_lexemes. rewrite <- (app_nil_r p). eapply sequence_lexeme; [apply cpp_num|apply sequence_end]; [|apply (AN p c Hc)].
    apply cpp_decimal.
    + right. apply grouped_one; assumption.
    + discriminate.
    + discriminate.
    + intros e' d' [= <- <-]. exists e, s, d. repeat split; auto.
    + right. exists c, []. split; [reflexivity|]. split; [|constructor]. split; [left; vm_compute in Hc; unfold letter; lia|]. vm_compute in *. lia.
    + discriminate.
  - intros base n e s d c Hb Nn Fn He Hs Nd Fd Hc. set (p := number_pieces base [(n, Some hl_number)] None (Some ([e], s ++ d)) [c]).
    assert (E : text p = base ++ n ++ [e] ++ (s ++ d) ++ [c]) by (unfold p; rewrite number_pieces_text; cbn [frac_text exp_text app]; rewrite text_one; reflexivity).
    assert (E2 : p = [(base, Some hl_number_decor); (n, Some hl_number); ([e], Some hl_number_delim); (s ++ d, Some hl_number); ([c], Some hl_number_decor)]) by (unfold p, number_pieces; destruct Hb as [<-|[<-|[]]]; reflexivity).
    rewrite <- E, <- E2. apply C145_cpp_lexemes. rewrite <- (app_nil_r p). eapply sequence_lexeme; [apply cpp_num|apply sequence_end]; [|apply (AN p c); vm_compute in *; lia].
    apply cpp_hex_float; try assumption.
    + right. apply grouped_one; assumption.
    + discriminate.
    + discriminate.
    + discriminate.
    + intros e' d' [= <- <-]. exists e, s, d. repeat split; auto.
    + right. exists c, []. split; [reflexivity|]. split; [|constructor]. split; [left; vm_compute in Hc; unfold letter; lia|]. unfold hex_digit. vm_compute in Hc. split; [lia|vm_compute; lia].
Qed.
Print Assumptions C149_cpp_float_suffix_partial.
Example C149_case : highlight_cpp (bs "0x1p3f") true = Ok (true, tokens 0 [(bs "0x", Some hl_number_decor); (bs "1", Some hl_number); (bs "p", Some hl_number_delim); (bs "3f", Some hl_number)])
  /\ highlight_cpp (bs "1e3f") true = Ok (true, tokens 0 [(bs "1", Some hl_number); (bs "e", Some hl_number_delim); (bs "3", Some hl_number); (bs "f", Some hl_number_decor)]).
Proof. split; vm_compute; reflexivity. Qed.

(** ** C150: the message of an error directive *)
(** An apostrophe begins a character literal: the word before it becomes an error, the rest of the message a string. *)
Theorem C150_cpp_error_message_refuted : forall is_cpp strict w t, identifier w -> ~ In w [bs "u8"; bs "u"; bs "U"; bs "L"] -> t <> [] -> Forall (fun c => 32 <= c < 127 /\ ~ In c [39; 92])%N t ->
  highlight_c_or_cpp is_cpp (bs "#error " ++ w ++ [39]%N ++ t) strict =
  Ok (true, tokens 0 [(bs "#", Some hl_name_macro_delim); (bs "error", Some hl_name_macro); (bs " ", None); (w, Some hl_error); ([39]%N, Some hl_string_delim); (t, Some hl_string)]).
Proof.
  intros is_cpp strict w t W Nw Nt Ft. set (lit := (w, Some hl_error) :: ([39]%N, Some hl_string_delim) :: [(t, Some hl_string)] ++ [] : list piece).
  set (l := [(bs "#", Some hl_name_macro_delim); ([], None); (bs "error", Some hl_name_macro)] ++ [(bs " ", None)] ++ lit ++ [] : list piece).
  change (tokens 0 [(bs "#", Some hl_name_macro_delim); (bs "error", Some hl_name_macro); (bs " ", None); (w, Some hl_error); ([39]%N, Some hl_string_delim); (t, Some hl_string)]) with (tokens 0 l).
  replace (bs "#error " ++ w ++ [39]%N ++ t) with (text l) by (unfold l, lit; cbn [app]; rewrite !text_cons; cbn [text map concat]; rewrite !app_nil_r; reflexivity).
  apply program_exact. unfold l.
  assert (Z : not_before cpp_space (text (lit ++ []))).
  { unfold lit. rewrite text_app, text_cons, <- app_assoc. apply ident_not_before; [exact W|exact ident_start_not_space]. }
  apply sequence_lexeme with (s' := true). { split; [discriminate|]. apply lexeme_case, cpp_direct, cpp_directive_name; [cbn; tauto|constructor|id_|discriminate|nb_]. }
  apply sequence_lexeme with (s' := true). { split; [discriminate|]. apply lexeme_case, (cpp_white _ _ true (bs " ")); [discriminate|fa_|exact Z]. }
  apply sequence_lexeme with (s' := false); [|apply sequence_end]. split.
  - unfold lit. rewrite text_cons. intros E. apply app_eq_nil in E as [E _]. exact (ident_nonempty w W E).
  - apply (string_error is_cpp strict true w 39 [(t, Some hl_string)] [] [] false W); [right; auto|apply cpp_unclosed|].
    apply (string_text _ _ _ _ t []); [exact Nt| |apply string_end]. clear - Ft. induction t as [|c t IH]; [constructor|]. apply Forall_cons_iff in Ft as [[Hc Hi] Ft]. apply (cpp_plain_text 39 c [c] t).
    + unfold scalar_value. lia.
    + unfold utf8_encoding. destruct (N.ltb_spec c 128); [reflexivity|lia].
    + cbn [In] in *. lia.
    + apply IH, Ft.
Qed.
Print Assumptions C150_cpp_error_message_refuted.
(** Messages of words that are not keywords *)
Theorem C150_cpp_error_message_partial : forall is_cpp strict (ws : list (str * N)),
  Forall (fun e => identifier (fst e) /\ name_highlight (fst e) (snd e) /\ forall h, ~ In (fst e, h) (cpp_words is_cpp strict)) ws ->
  highlight_c_or_cpp is_cpp (bs "#error" ++ concat (map (fun e => bs " " ++ fst e) ws)) strict =
  Ok (true, tokens 0 ((bs "#", Some hl_name_macro_delim) :: (bs "error", Some hl_name_macro) :: concat (map (fun e => [(bs " ", None); (fst e, Some (snd e))]) ws))).
Proof.
  intros is_cpp strict ws F. set (m := concat (map (fun e => [(bs " ", None); (fst e, Some (snd e))]) ws) : list piece).
  assert (T : text m = concat (map (fun e => bs " " ++ fst e) ws)).
  { unfold m. clear. induction ws as [|e ws IH]; [reflexivity|]. cbn [map concat]. rewrite text_app, IH. cbn [text map concat fst]. rewrite app_nil_r. reflexivity. }
  set (l := [(bs "#", Some hl_name_macro_delim); ([], None); (bs "error", Some hl_name_macro)] ++ m : list piece).
  change (Ok (true, tokens 0 ((bs "#", Some hl_name_macro_delim) :: (bs "error", Some hl_name_macro) :: m))) with (Ok (true, tokens 0 l)). rewrite <- T. change (bs "#error" ++ text m) with (text l).
  assert (R : not_before (fun c => ident_or_non_ascii c \/ In c [34; 39]%N) (text m)) by (rewrite T; clear; destruct ws; nb_).
  apply C145_cpp_lexemes. apply sequence_lexeme with (s' := true).
  { apply cpp_direct, cpp_directive_name; [cbn; tauto|constructor|id_|discriminate|eapply not_before_impl; [|exact R]; cbv beta; tauto]. }
  clear l R T. subst m. assert (X : forall f, sequence (cpp_lexeme is_cpp strict) f (concat (map (fun e => [(bs " ", None); (fst e, Some (snd e))]) ws))); [|apply X]. induction F as [|[w h] ws (W & Nh & Nw) F IH]; intros f; cbn [map concat fst snd] in *; [apply sequence_end|].
  change ([(bs " ", None); (w, Some h)] ++ ?l) with ([(bs " ", None)] ++ [(w, Some h)] ++ l).
  eapply sequence_lexeme. { apply (cpp_white _ _ f (bs " ")); [discriminate|fa_|]. rewrite text_app, text_one. apply ident_not_before; [exact W|exact ident_start_not_space]. }
  eapply sequence_lexeme; [apply cpp_name; try assumption|apply IH].
  clear. destruct ws; nb_.
Qed.
Print Assumptions C150_cpp_error_message_partial.
Example C150_case : highlight_c (bs "#error don't") true = Ok (true, tokens 0 [(bs "#", Some hl_name_macro_delim); (bs "error", Some hl_name_macro); (bs " ", None); (bs "don", Some hl_error); ([39]%N, Some hl_string_delim); (bs "t", Some hl_string)])
  /\ highlight_c (bs "#error no good") true = Ok (true, tokens 0 [(bs "#", Some hl_name_macro_delim); (bs "error", Some hl_name_macro); (bs " ", None); (bs "no", Some hl_name); (bs " ", None); (bs "good", Some hl_name)]).
Proof. split; vm_compute; reflexivity. Qed.
