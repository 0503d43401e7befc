(** * JavaScript and TypeScript: members (C214) *)
From Coq Require Import List NArith ZArith Bool Arith Lia.
From Verif Require Import M_Base L_Base M_Emit S_Ops M_Types M_Chars M_Highlighter M_LangJs S_Json S_Lexemes L_Lexemes L_Symbols L_Number S_Comments L_Comments L_Does S_LangJsLexemes L_LangJsLexemes P_LangJsLexemes P_LangJsClaims.
Import ListNotations.

(** A member of an object, divided by a name: the member's name is a name like others. *)
Definition member_quotient (a m b : str) : list piece := [(a, Some hl_name); (bs ".", Some hl_symbol_op); (m, Some hl_name); (bs "/", Some hl_symbol_op); (b, Some hl_name)].

Lemma dot_lexeme mode g rest : (forall c, hd_error rest = Some c -> js_name_start c) ->
  js_lexeme (the_words mode) (the_symbols mode) (the_after_less mode) g [(bs ".", Some hl_symbol_op)] rest js_operand.
Proof.
  intros H. apply js_symbol; [apply in_by; destruct mode; vm_compute; reflexivity| |apply after_open; vm_compute; intuition discriminate| |discriminate|intros [X|X]; discriminate X|discriminate].
  - apply (longest_next _ _ _ [46%N]); [destruct mode; vm_compute; reflexivity|]. intros c E. apply H in E. ascii.
  - intros _ c E. apply H in E. ascii.
Qed.
Lemma slash_lexeme mode rest : (forall c, hd_error rest = Some c -> js_name_start c) ->
  js_lexeme (the_words mode) (the_symbols mode) (the_after_less mode) js_operator [(bs "/", Some hl_symbol_op)] rest js_operand.
Proof.
  intros H. apply js_symbol; [apply in_by; destruct mode; vm_compute; reflexivity| |apply after_open; vm_compute; intuition discriminate|intros [X|X]; discriminate X|discriminate|intros _; reflexivity|].
  - apply (longest_next _ _ _ [61%N]); [destruct mode; vm_compute; reflexivity|]. intros c E. apply H in E. ascii.
  - intros _ c E. apply H in E. ascii.
Qed.
Lemma word_first mode w h : In (w, h) (the_words mode) -> exists c t, w = c :: t /\ is_ascii_lower_alpha c = true.
Proof.
  intros H. assert (F : forallb (fun e => match fst e with c :: _ => is_ascii_lower_alpha c | [] => false end) (the_words mode) = true) by (destruct mode; vm_compute; reflexivity).
  rewrite forallb_forall in F. specialize (F _ H). cbn in F. destruct w as [|c t]; [discriminate|]. exists c, t. auto.
Qed.

Theorem C214_js_member_partial : forall mode a m b strict, plain_name mode a -> plain_name mode m -> plain_name mode b ->
  js_highlight mode (a ++ bs "." ++ m ++ bs "/" ++ b) strict = Ok (true, tokens 0 (member_quotient a m b)).
Proof.
  intros mode a m b strict (A1 & A2 & A3) (M1 & M2 & M3) (B1 & B2 & B3). apply simple_exact; [|unfold member_quotient; rewrite !text_cons; cbn [text map concat]; rewrite app_nil_r; reflexivity].
  unfold member_quotient.
  change (code mode js_begin ([(a, Some hl_name)] ++ [(bs ".", Some hl_symbol_op)] ++ [(m, Some hl_name)] ++ [(bs "/", Some hl_symbol_op)] ++ [(b, Some hl_name)] ++ []) []).
  eapply js_code_lexeme; [apply js_identifier; auto; intros x [= <-]; vm_compute; intuition discriminate|].
  eapply js_code_lexeme; [apply dot_lexeme; rewrite text_app, text_one, <- app_assoc; intros c E; apply name_first in E; auto|].
  eapply js_code_lexeme; [apply js_identifier; auto; intros x [= <-]; vm_compute; intuition discriminate|].
  eapply js_code_lexeme; [apply slash_lexeme; rewrite text_app, text_one, <- app_assoc; intros c E; apply name_first in E; auto|].
  eapply js_code_lexeme; [apply js_identifier; auto; intros x E; discriminate E|apply js_code_end].
Qed.
Print Assumptions C214_js_member_partial.

(** Members may be named like keywords (ECMAScript, MemberExpression: IdentifierName); then they are not names, and the slash begins a regular expression. *)
Theorem C214_js_member_refuted : forall mode, ~ (forall a m b strict, plain_name mode a -> js_name m -> not_before (fun c => c = ch "_") m -> plain_name mode b ->
  js_highlight mode (a ++ bs "." ++ m ++ bs "/" ++ b) strict = Ok (true, tokens 0 (member_quotient a m b))).
Proof.
  intros mode H. assert (P : plain_name mode (bs "x")).
  { split; [exists (ch "x"), []; split; [reflexivity|]; split; [left; vm_compute; intuition discriminate|fa_]|]. split; [nb_|apply not_in_by; destruct mode; vm_compute; reflexivity]. }
  assert (N : js_name (bs "delete")) by (exists (ch "d"), (bs "elete"); split; [reflexivity|]; split; [left; vm_compute; intuition discriminate|fa_]).
  specialize (H (bs "x") (bs "delete") (bs "x") false P N ltac:(nb_) P). destruct mode; vm_compute in H; discriminate.
Qed.
Print Assumptions C214_js_member_refuted.
(** The exact tokens for each of these keywords and everything between two slashes *)
Theorem C214_js_member_regex : forall mode a w h t strict, plain_name mode a -> In (w, h) (the_words mode) -> In w prefix_words ->
  t <> [] -> not_before (fun c => c = ch "*") t -> js_regex_text t -> js_line t ->
  js_highlight mode (a ++ bs "." ++ w ++ bs "/" ++ t ++ bs "/") strict
    = Ok (true, tokens 0 ([(a, Some hl_name); (bs ".", Some hl_symbol_op); (w, Some h)] ++ regex_pieces t)).
Proof.
  intros mode a w h t strict (A1 & A2 & A3) Hw Hp Nt Ns Ht HL. apply simple_exact; [|unfold regex_pieces; rewrite text_app, !text_cons; cbn [text map concat]; rewrite !app_nil_r, <- !app_assoc; reflexivity].
  unfold regex_pieces.
  change (code mode js_begin ([(a, Some hl_name)] ++ [(bs ".", Some hl_symbol_op)] ++ [(w, Some h)] ++ ((bs "/", Some hl_string_delim) :: (t, Some hl_string) :: (bs "/", Some hl_string_delim) :: opt_piece [] hl_string_decor) ++ []) []).
  eapply js_code_lexeme; [apply js_identifier; auto; intros x [= <-]; vm_compute; intuition discriminate|].
  eapply js_code_lexeme.
  { apply dot_lexeme. rewrite text_app, text_one, <- app_assoc. destruct (word_first mode w h Hw) as (c & u & -> & Hc). intros x [= <-]. left. unfold is_ascii_lower_alpha, between in Hc. apply andb_true_iff in Hc as [H1 H2]. apply N.leb_le in H1, H2. change (ch "a") with 97%N in H1. change (ch "z") with 122%N in H2. ascii. }
  eapply js_code_lexeme; [apply js_word; [exact Hw|intros c [= <-]; vm_compute; intuition discriminate|apply after_prefix; exact Hp]|].
  eapply js_code_lexeme; [|apply js_code_end]. apply js_regex; auto; [right; right; reflexivity|intros c E; discriminate E].
Qed.
Print Assumptions C214_js_member_regex.
Example C214_case : plain_name typescript (bs "m") /\ In (bs "delete", hl_keyword) (the_words typescript) /\ In (bs "delete") prefix_words.
Proof.
  split; [|split; [apply in_by; vm_compute; reflexivity|cbn; tauto]].
  split; [exists (ch "m"), []; split; [reflexivity|]; split; [left; vm_compute; intuition discriminate|fa_]|]. split; [nb_|apply not_in_by; vm_compute; reflexivity].
Qed.
