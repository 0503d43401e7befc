(** * JavaScript and TypeScript: an example program (C151), and properties a user may expect (C152-C160) *)
From Coq Require Import List NArith ZArith Bool Arith Lia.
From Verif Require Import M_Base L_Base M_Emit S_Ops M_Types M_Highlighter M_LangJs S_Json S_Lexemes L_Lexemes L_Symbols L_Number S_Comments L_Comments L_Does S_LangJsLexemes L_LangJsLexemes P_LangJsLexemes.
Import ListNotations.

(** ** C151: an example *)
Ltac nb_ := let c := fresh "c" in let H := fresh "H" in intros c H; vm_compute in H; first [discriminate H | injection H as <-; vm_compute; intuition discriminate].
Ltac fa_ := repeat (apply Forall_cons; [vm_compute; intuition discriminate|]); apply Forall_nil.
Lemma in_by (e : str * N) l : existsb (fun x => str_eqb (fst e) (fst x) && (snd e =? snd x)%N) l = true -> In e l.
Proof. intros H. apply existsb_exists in H as (y & H & E). apply andb_true_iff in E as [E1 E2]. apply str_eqb_eq in E1. apply N.eqb_eq in E2. destruct e, y; cbn in *; subst. exact H. Qed.
Lemma not_in_by w l : existsb (fun x => str_eqb w (fst x)) l = false -> forall h : N, ~ In (w, h) l.
Proof. intros H h I. rewrite (proj2 (existsb_exists _ _)) in H; [discriminate|]. exists (w, h). split; [exact I|]. apply str_eqb_eq. reflexivity. Qed.
Lemma longest_by table t rest : forallb (fun e => negb (starts_with (t ++ rest) (fst e)) || (length (fst e) <=? length t)) table = true -> longest table t rest.
Proof.
  intros H u h v Hu E. rewrite forallb_forall in H. specialize (H _ Hu). cbn [fst] in H. rewrite (proj2 (starts_with_app _ _)) in H by (exists v; exact E). apply Nat.leb_le. exact H.
Qed.
Ltac step_ p := refine (js_code_lexeme _ _ _ _ _ p _ _ _ _ _).
Ltac space_ := step_ [([32%N], None : option N)]; [apply js_white; [discriminate|fa_|nb_]|].
Ltac word_ w h c := step_ [(w, Some h)]; [apply js_word; [apply in_by; vm_compute; reflexivity|nb_|apply c; first [reflexivity|vm_compute; intuition discriminate]]|].
Ltac name_ c t := step_ [(c :: t, Some hl_name)]; [apply js_identifier; [exists c, t; split; [reflexivity|]; split; [left; vm_compute; intuition discriminate|fa_]|nb_|apply not_in_by; vm_compute; reflexivity|nb_]|].
Ltac sym_ w h c := step_ [(w, Some h)]; [apply js_symbol; [apply in_by; vm_compute; reflexivity|apply longest_by; vm_compute; reflexivity|apply c; vm_compute; intuition discriminate
  |first [intros _; nb_|intros [X|X]; discriminate X]|first [discriminate|intros _; vm_compute; intuition discriminate]|first [intros _; reflexivity|intros [X|X]; discriminate X]|first [discriminate|intros _; nb_]]|].
Definition js_example : list piece :=
  [(bs "let", Some hl_keyword); (bs " ", None); (bs "a", Some hl_name); (bs "=", Some hl_symbol_op);
   ([96]%N, Some hl_string_delim); (bs "v$", Some hl_string); (bs "${", Some hl_string_interpolation_delim); (bs "b", Some hl_name); (bs "<=", Some hl_symbol_op); (bs "{", Some hl_symbol_brace); (bs "x", Some hl_name); (bs "}", Some hl_symbol_brace);
   (bs "}", Some hl_string_interpolation_delim); (bs "\n", Some hl_string_escape); ([96]%N, Some hl_string_delim); (bs "/", Some hl_symbol_op); (bs "1", Some hl_number); (bs ".", Some hl_number_delim); (bs "5", Some hl_number); (bs ";", Some hl_symbol_punc);
   (bs "//", Some hl_comment_delim); (bs "!", Some hl_comment); ([10]%N, None);
   (bs "return", Some hl_keyword_control); (bs " ", None); (bs "/", Some hl_string_delim); (bs "r\/", Some hl_string); (bs "/", Some hl_string_delim); (bs "g", Some hl_string_decor)].
Example C151_case : javascript_program js_example.
Proof.
  exists 1. unfold js_example. word_ (bs "let") hl_keyword after_other. space_. name_ (ch "a") (@nil N). sym_ (bs "=") hl_symbol_op after_open.
  refine (js_code_template _ _ _ _ _ (js_quote 96 :: ((bs "v$", Some hl_string) :: [(bs "${", Some hl_string_interpolation_delim); (bs "b", Some hl_name); (bs "<=", Some hl_symbol_op); (bs "{", Some hl_symbol_brace); (bs "x", Some hl_name); (bs "}", Some hl_symbol_brace);
   (bs "}", Some hl_string_interpolation_delim)] ++ [(bs "\n", Some hl_string_escape)] ++ []) ++ [js_quote 96]) _ _ _ _).
  { apply js_template_of. apply string_text; [discriminate| |].
    - split; [fa_|]. intros a b t E Nb. destruct a as [|x a]; [cbn in E; subst b; discriminate|]. destruct a as [|y a]; [injection E as _ <-; discriminate|]. injection E as _ _ E. symmetry in E. apply app_eq_nil in E as [_ ->]. congruence.
    - apply string_item.
      + apply (js_template_code _ [(bs "b", Some hl_name); (bs "<=", Some hl_symbol_op); (bs "{", Some hl_symbol_brace); (bs "x", Some hl_name); (bs "}", Some hl_symbol_brace)]).
        cbn [js_code]. name_ (ch "b") (@nil N). sym_ (bs "<=") hl_symbol_op after_open. apply (js_code_braces _ _ _ _ _ [(bs "x", Some hl_name)] []); [|apply js_code_end]. name_ (ch "x") (@nil N). apply js_code_end.
      + apply string_item; [apply js_template_escape; [apply js_escape_char; vm_compute; intuition discriminate|nb_]|apply string_end]. }
  sym_ (bs "/") hl_symbol_op after_open.
  step_ (number_pieces [] [(bs "1", Some hl_number)] (Some [(bs "5", Some hl_number)]) None []).
  { apply js_num; [|nb_]. apply js_float; [split; [apply grouped_one; [discriminate|fa_]|right; nb_]| |discriminate]. intros f [= <-]. split; [apply grouped_one; [discriminate|fa_]|discriminate]. }
  sym_ (bs ";") hl_symbol_punc after_open.
  step_ (slash_comment :: opt_piece (bs "!") hl_comment).
  { apply js_comment, c_line; [|nb_]. intros l Hl (a & b & E). cbn in Hl. repeat (destruct Hl as [<-|Hl]; [repeat (destruct a as [|? a]; try discriminate E)|]). contradiction. }
  step_ [([10%N], None : option N)]. { apply js_white; [discriminate|fa_|nb_]. }
  word_ (bs "return") hl_keyword_control after_prefix. space_.
  step_ ((bs "/", Some hl_string_delim) :: (bs "r\/", Some hl_string) :: (bs "/", Some hl_string_delim) :: opt_piece (bs "g") hl_string_decor).
  { apply js_regex; [right; right; reflexivity|discriminate|nb_| | |fa_|nb_].
    - apply js_regex_char; [vm_compute; intuition discriminate|]. apply js_regex_escape. apply js_regex_end.
    - intros l Hl (a & b & E). cbn in Hl. repeat (destruct Hl as [<-|Hl]; [repeat (destruct a as [|? a]; try discriminate E)|]). contradiction. }
  apply js_code_end.
Qed.

(** ** Programs without templates *)
Notation code mode := (js_code_of (the_words mode) (the_symbols mode) (the_after_less mode) (fun _ _ => False)).
Lemma simple_exact mode strict l src : code mode js_begin l [] -> text l = src -> js_highlight mode src strict = Ok (true, tokens 0 l).
Proof. intros H <-. apply highlight_exact. exists 0. exact H. Qed.
Lemma longest_next table t rest s :
  forallb (fun e => negb (starts_with (fst e) t) || match skipn (length t) (fst e) with x :: _ => mem x s | [] => true end) table = true -> not_before (fun c => In c s) rest -> longest table t rest.
Proof.
  intros H R u h v Hu E. rewrite forallb_forall in H. specialize (H _ Hu). cbn [fst] in H. destruct (app_eq_app t rest u v) as [w [[E1 E2]|[E1 E2]]]; [exact E|rewrite E1, app_length; lia|].
  subst u. rewrite (proj2 (starts_with_app _ _)), skipn_app_exact in H by eauto. cbn [negb orb] in H. destruct w as [|x w]; [rewrite app_nil_r; lia|]. exfalso. apply (R x); [rewrite E2; reflexivity|apply mem_In; exact H].
Qed.
Lemma name_start w c : js_name w -> hd_error w = Some c -> js_name_start c.
Proof. intros (x & t & -> & H & _) [= <-]. exact H. Qed.
Lemma name_first w r c : js_name w -> hd_error (w ++ r) = Some c -> js_name_start c.
Proof. intros (x & t & -> & H & _) [= <-]. exact H. Qed.
(** A name that is not a keyword and does not start with an underscore *)
Definition plain_name (mode : js_mode) (w : str) : Prop := js_name w /\ not_before (fun c => c = ch "_") w /\ forall h, ~ In (w, h) (the_words mode).
Ltac ascii := unfold js_name_start, js_name_char, ident_start, ident_char, letter, digit, js_space in *; change (ch "$") with 36%N in *; change (ch "_") with 95%N in *; change (ch "/") with 47%N in *; change (ch "*") with 42%N in *; change (ch ".") with 46%N in *; cbn [In] in *; lia.

(** ** C152: every identifier is one name *)
Theorem C152_js_identifier_refuted : forall mode, ~ (forall w strict, js_name w -> (forall h, ~ In (w, h) (the_words mode)) -> js_highlight mode w strict = Ok (true, tokens 0 [(w, Some hl_name)])).
Proof.
  intros mode H. specialize (H (bs "_id") false). assert (N : js_name (bs "_id")) by (exists (ch "_"), (bs "id"); split; [reflexivity|]; split; [left; vm_compute; intuition discriminate|fa_]).
  specialize (H N ltac:(apply not_in_by; destruct mode; vm_compute; reflexivity)). destruct mode; vm_compute in H; discriminate.
Qed.
Print Assumptions C152_js_identifier_refuted.
Theorem C152_js_identifier_partial : forall mode w strict, js_name w -> not_before (fun c => c = ch "_") w -> (forall h, ~ In (w, h) (the_words mode)) -> js_highlight mode w strict = Ok (true, tokens 0 [(w, Some hl_name)]).
Proof.
  intros mode w strict Hw U Hn. apply simple_exact; [|apply text_one]. rewrite <- (app_nil_r [(w, Some hl_name)]). eapply js_code_lexeme; [|apply js_code_end]. apply js_identifier; auto. intros c E. discriminate E.
Qed.
Print Assumptions C152_js_identifier_partial.
Example C152_case : js_name (bs "id$1") /\ not_before (fun c => c = ch "_") (bs "id$1") /\ forall h, ~ In (bs "id$1", h) javascript_words.
Proof. split; [exists (ch "i"), (bs "d$1"); split; [reflexivity|]; split; [left; vm_compute; intuition discriminate|fa_]|]. split; [nb_|apply not_in_by; vm_compute; reflexivity]. Qed.

(** ** C153: a slash after an operand is a division, even after a comment *)
Definition quotient (a : str) (between : list piece) (b : str) : list piece := (a, Some hl_name) :: between ++ [(bs "/", Some hl_symbol_op); (b, Some hl_name)].
Theorem C153_js_division_refuted : forall mode, ~ (forall a b t strict, plain_name mode a -> plain_name mode b -> ~ contains (t ++ bs "*") (bs "*/") ->
  let l := quotient a ((bs "/*", Some hl_comment_delim) :: opt_piece t hl_comment ++ [(bs "*/", Some hl_comment_delim)]) b ++ [(bs "/", Some hl_symbol_op); (b, Some hl_name)] in
  js_highlight mode (text l) strict = Ok (true, tokens 0 l)).
Proof.
  intros mode H. assert (P : forall c, In c (bs "ab") -> plain_name mode [c]).
  { intros c Hc. split; [|split]; [exists c, []; split; [reflexivity|]; split; [left; cbn in Hc; destruct Hc as [<-|[<-|[]]]; vm_compute; intuition discriminate|constructor]|cbn in Hc; destruct Hc as [<-|[<-|[]]]; nb_|].
    cbn in Hc; destruct Hc as [<-|[<-|[]]]; apply not_in_by; destruct mode; vm_compute; reflexivity. }
  specialize (H (bs "a") (bs "b") (bs "c") false (P 97%N ltac:(cbn; tauto)) (P 98%N ltac:(cbn; tauto))). cbv zeta in H.
  assert (~ contains (bs "c" ++ bs "*") (bs "*/")) as N by (intros (x & y & E); destruct x as [|? [|? [|? x]]]; discriminate E). specialize (H N). destruct mode; vm_compute in H; discriminate.
Qed.
Print Assumptions C153_js_division_refuted.
Theorem C153_js_division_partial : forall mode a b sp strict, plain_name mode a -> plain_name mode b -> sp <> [] -> Forall js_space sp ->
  js_highlight mode (a ++ sp ++ bs "/" ++ b ++ bs "/" ++ b) strict = Ok (true, tokens 0 (quotient a [(sp, None)] b ++ [(bs "/", Some hl_symbol_op); (b, Some hl_name)])).
Proof.
  intros mode a b sp strict (A1 & A2 & A3) (B1 & B2 & B3) Ns Fs. apply simple_exact; [|unfold quotient; rewrite text_app, text_cons, !text_app, !text_cons; cbn [text map concat]; rewrite !app_nil_r, <- !app_assoc; reflexivity].
  assert (L : forall r, longest (the_symbols mode) (bs "/") (b ++ r)).
  { intros r. apply (longest_next _ _ _ [61%N]); [destruct mode; vm_compute; reflexivity|]. intros c E. apply name_first in E; [|exact B1]. ascii. }
  assert (S0 : forall r, not_before (fun c => c = ch "/" \/ c = ch "*") (b ++ r)) by (intros r c E; apply name_first in E; [|exact B1]; ascii).
  assert (I : In (bs "/", hl_symbol_op) (the_symbols mode)) by (apply in_by; destruct mode; vm_compute; reflexivity).
  assert (Sl : forall r, js_lexeme (the_words mode) (the_symbols mode) (the_after_less mode) js_operator [(bs "/", Some hl_symbol_op)] (b ++ r) js_operand).
  { intros r. apply js_symbol; auto; [apply after_open; vm_compute; intuition discriminate|intros [X|X]; discriminate X|discriminate]. }
  assert (Nb : forall g r, after_name r -> js_lexeme (the_words mode) (the_symbols mode) (the_after_less mode) g [(b, Some hl_name)] r js_operator) by (intros g r R; apply js_identifier; auto).
  unfold quotient. change (code mode js_begin ([(a, Some hl_name)] ++ [(sp, None)] ++ [(bs "/", Some hl_symbol_op)] ++ [(b, Some hl_name)] ++ [(bs "/", Some hl_symbol_op)] ++ [(b, Some hl_name)] ++ []) []).
  eapply js_code_lexeme; [apply js_identifier; auto|].
  { rewrite text_app, text_one. destruct Fs as [|c sp Hc Fs]; [congruence|]. intros x [= <-]. ascii. }
  eapply js_code_lexeme; [apply js_white; auto; intros c [= <-]; vm_compute; intuition discriminate|]. cbn [after_space].
  eapply js_code_lexeme; [rewrite text_app, text_one, <- app_assoc; apply Sl|]. eapply js_code_lexeme; [apply Nb; intros c [= <-]; vm_compute; intuition discriminate|].
  eapply js_code_lexeme; [rewrite text_app, text_one, <- app_assoc; apply Sl|]. eapply js_code_lexeme; [apply Nb; intros c E; discriminate E|]. apply js_code_end.
Qed.
Print Assumptions C153_js_division_partial.
Example C153_case : plain_name javascript (bs "a") /\ Forall js_space [32; 10]%N.
Proof. split; [|fa_]. split; [exists (ch "a"), []; split; [reflexivity|]; split; [left; vm_compute; intuition discriminate|fa_]|]. split; [nb_|apply not_in_by; vm_compute; reflexivity]. Qed.

(** ** C154: the end of a regular expression *)
(** The text of a regular expression: in a class in brackets, a slash needs no escape. *)
Inductive regex_body : bool -> str -> Prop :=
| regex_body_end : regex_body false []
| regex_body_escape f c t : ~ In c [10; 13]%N -> regex_body f t -> regex_body f (92%N :: c :: t)
| regex_body_open t : regex_body true t -> regex_body false (91%N :: t)
| regex_body_close t : regex_body false t -> regex_body true (93%N :: t)
| regex_body_class c t : ~ In c [92; 93; 10; 13]%N -> regex_body true t -> regex_body true (c :: t)
| regex_body_char c t : ~ In c [47; 91; 92; 10; 13]%N -> regex_body false t -> regex_body false (c :: t).
Definition regex_pieces (t : str) : list piece := [(bs "/", Some hl_string_delim); (t, Some hl_string); (bs "/", Some hl_string_delim)].
Theorem C154_js_regex_refuted : forall mode, ~ (forall t strict, t <> [] -> not_before (fun c => c = ch "*") t -> regex_body false t -> js_line t -> js_highlight mode (bs "/" ++ t ++ bs "/") strict = Ok (true, tokens 0 (regex_pieces t))).
Proof.
  intros mode H. specialize (H (bs "[/]") false ltac:(discriminate) ltac:(nb_)). assert (R : regex_body false (bs "[/]")) by (apply regex_body_open, regex_body_class; [vm_compute; intuition discriminate|]; apply regex_body_close, regex_body_end).
  assert (L : js_line (bs "[/]")) by (intros l Hl (a & b & E); cbn in Hl; repeat (destruct Hl as [<-|Hl]; [repeat (destruct a as [|? a]; try discriminate E)|]); contradiction).
  specialize (H R L). destruct mode; vm_compute in H; discriminate.
Qed.
Print Assumptions C154_js_regex_refuted.
Theorem C154_js_regex_partial : forall mode t strict, t <> [] -> not_before (fun c => c = ch "*") t -> js_regex_text t -> js_line t -> js_highlight mode (bs "/" ++ t ++ bs "/") strict = Ok (true, tokens 0 (regex_pieces t)).
Proof.
  intros mode t strict Nt Ns Ht HL. apply simple_exact; [|unfold regex_pieces; rewrite !text_cons; reflexivity]. unfold regex_pieces.
  change [(bs "/", Some hl_string_delim); (t, Some hl_string); (bs "/", Some hl_string_delim)] with (((bs "/", Some hl_string_delim) :: (t, Some hl_string) :: (bs "/", Some hl_string_delim) :: opt_piece [] hl_string_decor) ++ []).
  eapply js_code_lexeme; [|apply js_code_end]. apply js_regex; auto; [left; reflexivity|intros c E; discriminate E].
Qed.
Print Assumptions C154_js_regex_partial.
Example C154_case : js_regex_text (bs "[a-z]\/") /\ regex_body false (bs "[a-z]\/").
Proof.
  split; [repeat (apply js_regex_char; [vm_compute; intuition discriminate|]); apply js_regex_escape, js_regex_end|].
  apply regex_body_open. do 3 (apply regex_body_class; [vm_compute; intuition discriminate|]). apply regex_body_close, regex_body_escape; [vm_compute; intuition discriminate|]. apply regex_body_end.
Qed.

(** ** C155: lines of a string continued with a backslash *)
Theorem C155_js_continuation_refuted : forall mode, ~ (forall a b nl strict, Forall (fun c => letter c) a -> Forall (fun c => letter c) b -> In nl [[10]; [13; 10]]%N ->
  let l := js_quote 34 :: opt_piece a hl_string ++ [(92%N :: nl, Some hl_string_escape)] ++ opt_piece b hl_string ++ [js_quote 34] in
  js_highlight mode (text l) strict = Ok (true, tokens 0 l)).
Proof. intros mode H. specialize (H [] [] [13; 10]%N false ltac:(constructor) ltac:(constructor) ltac:(cbn; tauto)). cbv zeta in H. destruct mode; vm_compute in H; discriminate. Qed.
Print Assumptions C155_js_continuation_refuted.
Theorem C155_js_continuation_partial : forall mode a b strict, Forall (fun c => letter c) a -> Forall (fun c => letter c) b ->
  let l := js_quote 34 :: opt_piece a hl_string ++ [([92; 10]%N, Some hl_string_escape)] ++ opt_piece b hl_string ++ [js_quote 34] in
  js_highlight mode (text l) strict = Ok (true, tokens 0 l).
Proof.
  intros mode a b strict Fa Fb l. apply simple_exact; [|reflexivity].
  replace l with ((js_quote 34 :: (opt_piece a hl_string ++ [([92; 10]%N, Some hl_string_escape)] ++ opt_piece b hl_string) ++ [js_quote 34]) ++ []) by (unfold l; rewrite app_nil_r, <- !app_assoc; reflexivity).
  eapply js_code_lexeme; [|apply js_code_end]. apply js_string; [auto|apply js_closed|].
  assert (P : forall w r, Forall letter w -> js_string_plain 34 w r) by (intros w r F; eapply Forall_impl; [|exact F]; unfold letter; cbn [In]; lia).
  assert (Hb : string_body hl_string (js_string_plain 34) js_escape_item (text [js_quote 34] ++ text [] ++ []) true (opt_piece b hl_string)).
  { destruct b as [|x b]; [apply string_end|]. cbn [opt_piece]. apply string_text; [discriminate|apply P; exact Fb|apply string_end]. }
  assert (He : forall f, string_body hl_string (js_string_plain 34) js_escape_item (text [js_quote 34] ++ text [] ++ []) f ([([92; 10]%N, Some hl_string_escape)] ++ opt_piece b hl_string)).
  { intros f. apply string_item; [|exact Hb]. apply js_item_escape, js_escape_char; vm_compute; intuition discriminate. }
  destruct a as [|x a]; [apply He|]. cbn [opt_piece]. apply (string_text hl_string (js_string_plain 34) js_escape_item _ (x :: a)); [discriminate|apply P; exact Fa|apply He].
Qed.
Print Assumptions C155_js_continuation_partial.
Example C155_case : Forall (fun c => letter c) (bs "ab").
Proof. repeat constructor; vm_compute; intuition discriminate. Qed.

(** ** C156: decimal literals *)
(** A decimal literal: an integer without leading zeros, a fraction which may be empty, an exponent *)
Theorem C156_js_decimal_refuted : forall mode, ~ (forall n frac exp strict, js_decimal n -> (forall f, frac = Some f -> grouped digit 95 f) -> js_exp exp ->
  let l := number_pieces [] n frac exp [] in js_highlight mode (text l) strict = Ok (true, tokens 0 l)).
Proof.
  intros mode H. specialize (H [(bs "0", Some hl_number)] (Some [(bs "19", Some hl_number)]) None false). cbv zeta in H.
  assert (D : js_decimal [(bs "0", Some hl_number)]) by (split; [apply grouped_one; [discriminate|fa_]|left; reflexivity]).
  assert (F : forall f, Some [(bs "19", Some hl_number)] = Some f -> grouped digit 95 f) by (intros f [= <-]; apply grouped_one; [discriminate|fa_]).
  specialize (H D F ltac:(discriminate)). destruct mode; vm_compute in H; discriminate.
Qed.
Print Assumptions C156_js_decimal_refuted.
Theorem C156_js_empty_fraction_refuted : forall mode, ~ (forall n strict, js_decimal n -> let l := n ++ [(bs ".", Some hl_number_delim)] in js_highlight mode (text l) strict = Ok (true, tokens 0 l)).
Proof.
  intros mode H. specialize (H [(bs "1", Some hl_number)] false). cbv zeta in H.
  assert (D : js_decimal [(bs "1", Some hl_number)]) by (split; [apply grouped_one; [discriminate|fa_]|right; nb_]). specialize (H D). destruct mode; vm_compute in H; discriminate.
Qed.
Print Assumptions C156_js_empty_fraction_refuted.
Theorem C156_js_number_partial : forall mode n strict, js_number n -> js_highlight mode (text n) strict = Ok (true, tokens 0 n).
Proof. intros mode n strict H. apply simple_exact; [|reflexivity]. rewrite <- (app_nil_r n). eapply js_code_lexeme; [|apply js_code_end]. apply js_num; [exact H|]. intros c E. discriminate E. Qed.
Print Assumptions C156_js_number_partial.
Example C156_case : js_number (number_pieces [] [(bs "12", Some hl_number); ([95]%N, Some hl_number_delim); (bs "9", Some hl_number)] (Some [(bs "19", Some hl_number)]) (Some (bs "e-", bs "3")) []).
Proof.
  apply js_float; [split; [apply grouped_more; [discriminate|fa_|]; apply grouped_one; [discriminate|fa_]|right; nb_]| |].
  - intros f [= <-]. split; [apply grouped_one; [discriminate|fa_]|discriminate].
  - intros e d [= <- <-]. split; [vm_compute; tauto|]. split; [discriminate|fa_].
Qed.

(** ** C157: a question mark before a number *)
Definition conditional (a : str) (gap : list piece) (f : str) : list piece := (a, Some hl_name) :: (bs "?", Some hl_symbol_op) :: gap ++ [(bs ".", Some hl_number_delim); (f, Some hl_number)].
Theorem C157_js_question_refuted : forall mode, ~ (forall a f strict, plain_name mode a -> f <> [] -> Forall digit f -> js_highlight mode (text (conditional a [] f)) strict = Ok (true, tokens 0 (conditional a [] f))).
Proof.
  intros mode H. specialize (H (bs "a") (bs "5") false). assert (P : plain_name mode (bs "a")).
  { split; [exists (ch "a"), []; split; [reflexivity|]; split; [left; vm_compute; intuition discriminate|constructor]|]. split; [nb_|apply not_in_by; destruct mode; vm_compute; reflexivity]. }
  specialize (H P ltac:(discriminate) ltac:(fa_)). destruct mode; vm_compute in H; discriminate.
Qed.
Print Assumptions C157_js_question_refuted.
Theorem C157_js_question_partial : forall mode a f sp strict, plain_name mode a -> f <> [] -> Forall digit f -> sp <> [] -> Forall js_space sp ->
  js_highlight mode (text (conditional a [(sp, None)] f)) strict = Ok (true, tokens 0 (conditional a [(sp, None)] f)).
Proof.
  intros mode a f sp strict (A1 & A2 & A3) Nf Ff Ns Fs. apply simple_exact; [|reflexivity]. unfold conditional.
  change (code mode js_begin ([(a, Some hl_name)] ++ [(bs "?", Some hl_symbol_op)] ++ [(sp, None)] ++ number_pieces [] [] (Some [(f, Some hl_number)]) None [] ++ []) []).
  eapply js_code_lexeme; [apply js_identifier; auto; intros c [= <-]; vm_compute; intuition discriminate|].
  assert (Sp : forall r c, hd_error (sp ++ r) = Some c -> js_space c) by (intros r c E; destruct Fs as [|x sp Hx Fs]; [congruence|]; injection E as <-; exact Hx).
  eapply js_code_lexeme.
  { apply js_symbol; [apply in_by; destruct mode; vm_compute; reflexivity| |apply after_open; vm_compute; intuition discriminate|intros [X|X]; discriminate X|discriminate|intros [X|X]; discriminate X|discriminate].
    apply (longest_next _ _ _ [46; 63]%N); [destruct mode; vm_compute; reflexivity|]. rewrite text_app, text_one, <- app_assoc. intros c E. apply Sp in E. ascii. }
  eapply js_code_lexeme; [apply js_white; auto; intros c [= <-]; vm_compute; intuition discriminate|].
  eapply js_code_lexeme; [|apply js_code_end]. apply js_num; [|intros c E; discriminate E]. apply js_point; [apply grouped_one; assumption|discriminate].
Qed.
Print Assumptions C157_js_question_partial.
Example C157_case : plain_name typescript (bs "a") /\ Forall digit (bs "5").
Proof. split; [|fa_]. split; [exists (ch "a"), []; split; [reflexivity|]; split; [left; vm_compute; intuition discriminate|fa_]|]. split; [nb_|apply not_in_by; vm_compute; reflexivity]. Qed.

(** ** C158: comparisons *)
Definition comparison (a b c : str) : list piece := [(a, Some hl_name); (bs "<", Some hl_symbol_op); (b, Some hl_name); (bs ">", Some hl_symbol_op); (c, Some hl_name)].
Theorem C158_javascript_comparison_refuted : ~ (forall a b c strict, plain_name javascript a -> plain_name javascript b -> plain_name javascript c ->
  highlight_javascript (text (comparison a b c)) strict = Ok (true, tokens 0 (comparison a b c))).
Proof.
  intros H. assert (P : plain_name javascript (bs "a")) by (split; [exists (ch "a"), []; split; [reflexivity|]; split; [left; vm_compute; intuition discriminate|constructor]|]; split; [nb_|apply not_in_by; vm_compute; reflexivity]).
  specialize (H _ _ _ false P P P). vm_compute in H. discriminate.
Qed.
Print Assumptions C158_javascript_comparison_refuted.
Theorem C158_typescript_comparison_partial : forall a b c strict, plain_name typescript a -> plain_name typescript b -> plain_name typescript c ->
  highlight_typescript (text (comparison a b c)) strict = Ok (true, tokens 0 (comparison a b c)).
Proof.
  intros a b c strict (A1 & A2 & A3) (B1 & B2 & B3) (C1 & C2 & C3). apply (simple_exact typescript); [|reflexivity]. unfold comparison.
  change (code typescript js_begin ([(a, Some hl_name)] ++ [(bs "<", Some hl_symbol_op)] ++ [(b, Some hl_name)] ++ [(bs ">", Some hl_symbol_op)] ++ [(c, Some hl_name)] ++ []) []).
  eapply js_code_lexeme; [apply js_identifier; auto; intros x [= <-]; vm_compute; intuition discriminate|]. eapply js_code_lexeme.
  { apply js_symbol; [apply in_by; vm_compute; reflexivity| |apply after_open; vm_compute; intuition discriminate|intros [X|X]; discriminate X|intros _; exact I|intros [X|X]; discriminate X|discriminate].
    apply (longest_next _ _ _ [60; 61]%N); [vm_compute; reflexivity|]. rewrite text_app, text_one, <- app_assoc. intros x E. apply name_first in E; [|exact B1]. ascii. }
  eapply js_code_lexeme; [apply js_identifier; auto; intros x [= <-]; vm_compute; intuition discriminate|]. eapply js_code_lexeme.
  { apply js_symbol; [apply in_by; vm_compute; reflexivity| |apply after_open; vm_compute; intuition discriminate|intros [X|X]; discriminate X|discriminate|intros [X|X]; discriminate X|discriminate].
    apply (longest_next _ _ _ [62; 61]%N); [vm_compute; reflexivity|]. rewrite text_app, text_one, <- app_assoc. intros x E. apply name_first in E; [|exact C1]. ascii. }
  eapply js_code_lexeme; [apply js_identifier; auto; intros x E; discriminate E|apply js_code_end].
Qed.
Print Assumptions C158_typescript_comparison_partial.
Example C158_case : plain_name typescript (bs "b").
Proof. split; [exists (ch "b"), []; split; [reflexivity|]; split; [left; vm_compute; intuition discriminate|fa_]|]. split; [nb_|apply not_in_by; vm_compute; reflexivity]. Qed.

(** ** C159: regular expressions after keywords *)
(** Keywords after which an expression starts *)
Definition expression_words : list str := [bs "else"; bs "do"] ++ prefix_words.
Theorem C159_js_keyword_regex_refuted : forall mode, ~ (forall w h t strict, In (w, h) (the_words mode) -> In w expression_words -> t <> [] -> not_before (fun c => c = ch "*") t -> js_regex_text t -> js_line t ->
  js_highlight mode (w ++ bs " /" ++ t ++ bs "/") strict = Ok (true, tokens 0 ((w, Some h) :: (bs " ", None) :: regex_pieces t))).
Proof.
  intros mode H. specialize (H (bs "else") hl_keyword_control (bs "a") false ltac:(apply in_by; destruct mode; vm_compute; reflexivity) ltac:(cbn; tauto) ltac:(discriminate) ltac:(nb_)).
  assert (R : js_regex_text (bs "a")) by (apply js_regex_char; [vm_compute; intuition discriminate|apply js_regex_end]).
  assert (L : js_line (bs "a")) by (intros l Hl (a & b & E); cbn in Hl; repeat (destruct Hl as [<-|Hl]; [repeat (destruct a as [|? a]; try discriminate E)|]); contradiction).
  specialize (H R L). destruct mode; vm_compute in H; discriminate.
Qed.
Print Assumptions C159_js_keyword_regex_refuted.
Theorem C159_js_keyword_regex_partial : forall mode w h t strict, In (w, h) (the_words mode) -> In w prefix_words -> t <> [] -> not_before (fun c => c = ch "*") t -> js_regex_text t -> js_line t ->
  js_highlight mode (w ++ bs " /" ++ t ++ bs "/") strict = Ok (true, tokens 0 ((w, Some h) :: (bs " ", None) :: regex_pieces t)).
Proof.
  intros mode w h t strict Hw Hp Nt Ns Ht HL. apply simple_exact; [|unfold regex_pieces; rewrite !text_cons; reflexivity]. unfold regex_pieces.
  change (code mode js_begin ([(w, Some h)] ++ [(bs " ", None)] ++ ((bs "/", Some hl_string_delim) :: (t, Some hl_string) :: (bs "/", Some hl_string_delim) :: opt_piece [] hl_string_decor) ++ []) []).
  eapply js_code_lexeme; [apply js_word; [exact Hw|intros c [= <-]; vm_compute; intuition discriminate|apply after_prefix; exact Hp]|].
  eapply js_code_lexeme; [apply js_white; [discriminate|fa_|intros c [= <-]; vm_compute; intuition discriminate]|].
  eapply js_code_lexeme; [|apply js_code_end]. apply js_regex; auto; [right; right; reflexivity|intros c E; discriminate E].
Qed.
Print Assumptions C159_js_keyword_regex_partial.
Example C159_case : In (bs "typeof", hl_keyword) (the_words javascript) /\ In (bs "typeof") prefix_words.
Proof. split; [apply in_by; vm_compute; reflexivity|cbn; tauto]. Qed.

(** ** C160: only the first two characters of a script can start a hashbang comment *)
Theorem C160_js_hashbang_refuted : forall mode, ~ (forall sp t strict i n f, sp <> [] -> Forall js_space sp -> js_line t ->
  forall ops, js_highlight mode (sp ++ bs "#!" ++ t) strict = Ok (true, ops) -> ~ In (OEmit i n hl_comment_delim f) ops).
Proof.
  intros mode H. assert (L : js_line (bs "a")) by (intros l Hl (a & b & E); cbn in Hl; repeat (destruct Hl as [<-|Hl]; [repeat (destruct a as [|? a]; try discriminate E)|]); contradiction).
  apply (H (bs " ") (bs "a") false 1 2 false ltac:(discriminate) ltac:(fa_) L [OEmit 1 2 hl_comment_delim false; OEmit 3 1 hl_comment false]); [destruct mode; vm_compute; reflexivity|left; reflexivity].
Qed.
Print Assumptions C160_js_hashbang_refuted.
Theorem C160_js_hashbang_partial : forall mode t strict, js_line t -> js_highlight mode (bs "#!" ++ t) strict = Ok (true, tokens 0 ((bs "#!", Some hl_comment_delim) :: opt_piece t hl_comment)).
Proof.
  intros mode t strict L. apply simple_exact; [|rewrite text_cons, opt_piece_text; reflexivity]. rewrite <- (app_nil_r (_ :: _)). eapply js_code_lexeme; [|apply js_code_end]. apply js_hashbang; [exact L|intros c E; discriminate E].
Qed.
Print Assumptions C160_js_hashbang_partial.
Example C160_case : js_line (bs "/bin/js").
Proof. intros l Hl (a & b & E). cbn in Hl. repeat (destruct Hl as [<-|Hl]; [repeat (destruct a as [|? a]; try discriminate E)|]). contradiction. Qed.
