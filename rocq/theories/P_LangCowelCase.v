(** * A COWEL document that meets the hypothesis of C128 *)
From Coq Require Import List NArith ZArith Bool Arith Lia.
From Verif Require Import M_Base L_Base S_Tokens M_Utf8 L_Utf8 M_Types M_Chars M_Parse M_Api M_Highlighter S_Highlight S_Json S_Lexemes L_Lexemes M_LangCowel S_LangCowel P_LangCowelExact.
Import ListNotations.

Definition space_piece : piece := (bs " ", None).
Definition argument_pieces : list piece :=
  (bs "(", Some hl_symbol_parens) :: [] ++
  ((bs "x", Some hl_markup_attr) :: [space_piece] ++ (bs "=", Some hl_symbol_punc) :: [space_piece] ++ [(bs "1", Some hl_number)]) ++ [] ++
  (bs ",", Some hl_symbol_punc) :: [space_piece] ++ [(bs "y", Some hl_name_var)] ++ [] ++ [(bs ")", Some hl_symbol_parens)].
Definition splice_pieces : list piece :=
  (bs "\(", Some hl_string_interpolation_delim) :: [] ++ [(bs "a", Some hl_name_var)] ++ [space_piece] ++
  [(bs "+", Some hl_symbol_op)] ++ [space_piece] ++ [(bs "2", Some hl_number)] ++ [] ++ [(bs ")", Some hl_string_interpolation_delim)].
Definition line_pieces : list piece :=
  (bs "\ ", Some hl_string_interpolation_delim) :: [(bs "let", Some hl_keyword)] ++ space_piece :: [(bs "x", Some hl_name_var)] ++ [(bs "=", Some hl_symbol_punc)] ++ [(bs "7", Some hl_number)] ++ [([10%N], None)].
(** Hi \b(x = 1, y){{}u \(a + 2)}\{\:c and then, on a new line, \ let x=7 *)
Definition case_document : list piece :=
  (bs "Hi ", None) ::
  ((bs "\b", Some hl_markup_tag) :: argument_pieces ++
    ((bs "{", Some hl_symbol_brace) :: ((bs "{}u ", None) :: splice_pieces ++ []) ++ [(bs "}", Some hl_symbol_brace)])) ++
  [(bs "\{", Some hl_string_escape)] ++
  ((bs "\:", Some hl_comment_delim) :: opt_piece (bs "c") hl_comment) ++
  ([10%N], None) :: line_pieces ++ [].
Ltac no := vm_compute; intuition congruence.
Ltac start := intros ? [= <-]; no.
Lemma space_blank rest : cowel_blank [space_piece] rest.
Proof. apply blanks_space; [repeat constructor; no|constructor]. Qed.
Lemma no_blank rest : cowel_blank [] rest. Proof. constructor. Qed.
Ltac ident := eexists _, _; split; [reflexivity|]; split; [left; no|repeat (apply Forall_cons; [left; no|]); constructor].
Ltac solid := split; [start|intros ? ? [=]].
Lemma word_x (c : N) h rest : cowel_word [c] h -> letter c -> not_before ident_char rest -> after_blank (not_before (fun c => In c (bs "({"))) rest -> cowel_expression [([c], Some h)] rest.
Proof. intros H L R A. apply expression_word; [exists c, []; split; [reflexivity|split; [left; exact L|constructor]]|exact H|exact R|exact A]. Qed.
Lemma digit_expression c rest : digit c -> not_before (fun c => letter c \/ digit c \/ c = ch ".") rest -> cowel_expression [([c], Some hl_number)] rest.
Proof.
  intros D R. apply expression_number; [apply (cowel_decimal [c] None None); [split; [discriminate|repeat constructor; apply D]|exact I|exact I]|exact R|].
  intros X. exfalso. rewrite (text_one ([c])) in X || (change (text [([c], Some hl_number)]) with [c] in X). cbn in X. unfold digit in D. lia.
Qed.
Lemma argument_group rest : cowel_group argument_pieces rest.
Proof.
  apply group_; [apply no_blank|]. apply members_more; [|apply no_blank|].
  - apply member_named; [ident|apply space_blank|apply space_blank|]. apply digit_expression; [no|start].
  - apply members_comma; [apply space_blank|]. apply members_more; [|apply no_blank|apply members_end]. apply member_expression.
    + apply word_x; [right; no|no|start|]. exists [], (bs ")" ++ rest). split; [reflexivity|]. split; [apply no_blank|]. split; [solid|start].
    + exists [], (bs ")" ++ rest). split; [reflexivity|]. split; [apply no_blank|]. split; [solid|]. intros u [=].
Qed.
Ltac op := apply cowel_operator_; [cbn; tauto| |discriminate || (intros _ r [=])]; intros u h v H E; cbn [cowel_operators map In] in H;
  repeat (destruct H as [H|H]; [injection H as <- <-; first [cbn; lia|discriminate E]|]); contradiction.
Lemma plus_operator rest : cowel_operator [(bs "+", Some hl_symbol_op)] rest.
Proof. op. Qed.
Lemma splice_item rest : cowel_item splice_pieces rest.
Proof.
  apply item_splice; [apply no_blank|]. apply operand_some; [|apply space_blank|].
  - apply word_x; [right; no|no|start|]. eexists [space_piece], _. split; [reflexivity|]. split; [apply space_blank|]. split; [solid|start].
  - apply operation_more; [apply plus_operator|apply space_blank|]. apply operand_some; [|apply no_blank|apply operation_end]. apply digit_expression; [no|start].
Qed.
Lemma line_item rest : cowel_item line_pieces rest.
Proof.
  apply item_line. apply line_expression; [|repeat (apply Forall_cons; [no|]); constructor|].
  - apply expression_word; [ident|left; cbn; tauto|start|]. eexists [space_piece], _. split; [reflexivity|]. split; [apply space_blank|]. split; [solid|start].
  - apply line_space; [discriminate|repeat constructor; no|start|]. apply line_expression; [|repeat (apply Forall_cons; [no|]); constructor|].
    + apply word_x; [right; no|no|start|]. eexists [], _. split; [reflexivity|]. split; [apply no_blank|]. split; [solid|start].
    + apply line_operator; [op|]. apply line_expression; [|repeat (apply Forall_cons; [no|]); constructor|apply line_end; left; reflexivity]. apply digit_expression; [no|start].
Qed.
Example C128_case : cowel_pieces case_document.
Proof.
  unfold cowel_pieces, case_document. apply (content_text in_document 0 (bs "Hi ") 0); [discriminate|repeat (apply plain_char; [no|discriminate|intros [X|X]; discriminate X|]); constructor|right; eexists _, _; split; reflexivity|].
  apply content_item; [discriminate| |].
  - apply item_directive; [ident|start|apply arguments_some, argument_group|]. apply block_some. apply block_. apply (content_text in_braces 0 (bs "{}u ") 0); [discriminate| |right; eexists _, _; split; reflexivity|].
    + apply plain_open, plain_close. repeat (apply plain_char; [no|no|intros [X|X]; discriminate X|]). constructor.
    + apply content_item; [discriminate|apply splice_item|]. apply content_end. eexists _, _. split; reflexivity.
  - apply content_escape; [apply escape_char; cbn; auto|]. apply content_comment; [apply cowel_line_comment; [repeat (apply Forall_cons; [no|]); constructor|right; eexists _, _; split; [reflexivity|no]]|].
    apply (content_text in_document 0 [10%N] 0); [discriminate|repeat (apply plain_char; [no|discriminate|intros [X|X]; discriminate X|]); constructor|right; eexists _, _; split; reflexivity|].
    apply content_item; [discriminate|apply line_item|]. apply content_end. reflexivity.
Qed.
