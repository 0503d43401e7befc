(** * NASM: an example program (C111), and properties a user may expect (C112-C119) *)
From Coq Require Import List NArith ZArith Bool Arith Lia.
From Verif Require Import M_Base L_Base M_Chars M_Types M_Emit S_Chars S_Lexemes L_Lexemes L_Parse S_States S_LangNasm M_LangNasm P_LangNasm P_LangNasmLexemes.
Import ListNotations.

Lemma in_by (x : str) l : existsb (str_eqb x) l = true -> In x l.
Proof. intros H. apply existsb_exists in H as (y & H & E). apply str_eqb_eq in E. subst. exact H. Qed.
Lemma not_in_by (x : str) l : existsb (str_eqb x) l = false -> ~ In x l.
Proof. intros H Hi. rewrite (proj2 (existsb_exists _ _)) in H; [discriminate|]. exists x. split; [exact Hi|]. apply str_eqb_eq. reflexivity. Qed.
Ltac in_ := first [apply in_by; vm_compute; reflexivity | vm_compute; tauto].
Ltac out_ := apply not_in_by; vm_compute; reflexivity.
Ltac nb_ := let c := fresh "c" in let H := fresh "H" in intros c H; vm_compute in H; first [discriminate H | injection H as <-; vm_compute; intuition discriminate].
Ltac fa_ := repeat (apply Forall_cons; [vm_compute; intuition discriminate|]); apply Forall_nil.
Ltac step_ p s := refine (sequence_lexeme nasm_lexeme _ p s _ _ _).
Ltac name_ c t := exists c, t; split; [reflexivity|]; split; [left; vm_compute; intuition discriminate|]; split; [fa_|discriminate].
Ltac not_hex_ := let d := fresh in let E := fresh in let F := fresh in intros (d & ? & ? & E & ? & F & _); destruct d as [|? d]; [contradiction|]; injection E as <- _; apply Forall_cons_iff in F as [F _]; unfold hex_digit in F; lia.
Ltac blank_ s := step_ [([32%N], None : option N)] s; [apply nasm_blank; left; reflexivity|].
Definition nasm_example : list piece :=
  [(bs "go:", Some hl_name_label_decl); (bs " ", None); (bs "mov", Some hl_name_instruction); (bs " ", None); (bs "rax", Some hl_name_var); (bs ",", Some hl_symbol_punc);
   (bs "0ff", Some hl_number); (bs "h", Some hl_number_decor); (bs " ", None); (bs ";", Some hl_comment_delim); (bs "ok", Some hl_comment); ([10%N], None);
   (bs "jmp", Some hl_name_instruction); (bs " ", None); (bs "go", Some hl_name_label); ([10%N], None); (bs "say", Some hl_name_instruction); (bs " ", None);
   (bs "`", Some hl_string_delim); (bs "a", Some hl_string); (bs "\x41", Some hl_string_escape); (bs "`", Some hl_string_delim)].
Example C111_case : sequence nasm_lexeme nasm_mnemonic nasm_example.
Proof.
  unfold nasm_example.
  step_ [(bs "go" ++ bs ":", Some hl_name_label_decl)] nasm_mnemonic; [apply nasm_word, nasm_label; [name_ 103%N (bs "o")|not_hex_|out_]|].
  blank_ nasm_mnemonic.
  step_ [(bs "mov", Some hl_name_instruction)] nasm_operand; [apply nasm_word; apply (nasm_plain_name nasm_mnemonic (bs "mov")); [name_ 109%N (bs "ov")|not_hex_|discriminate|out_|nb_]|].
  blank_ nasm_operand.
  step_ [(bs "rax", Some hl_name_var)] nasm_operand; [apply nasm_word, nasm_register; [in_|out_|nb_]|].
  step_ [(bs ",", Some hl_symbol_punc)] nasm_operand; [apply nasm_symbol; [in_|]|].
  { intros t h u Hi E. vm_compute in E. revert Hi E. vm_compute. intuition (match goal with H : (_, _) = (_, _) |- _ => injection H as <- <- end; try discriminate). cbn. lia. }
  step_ [(bs "0ff", Some hl_number); (bs "h", Some hl_number_decor)] nasm_operand; [apply nasm_numeric; eapply (nasm_suffixed 48%N (bs "ff") 104%N hex_digit); [in_|vm_compute; intuition discriminate|fa_|nb_]|].
  blank_ nasm_operand.
  step_ ((bs ";", Some hl_comment_delim) :: opt_piece (bs "ok") hl_comment ++ [([10%N], None)]) nasm_mnemonic; [apply nasm_comment; [fa_|left; left; reflexivity]|].
  step_ [(bs "jmp", Some hl_name_instruction)] nasm_target; [apply nasm_word, nasm_jump; [in_|nb_]|].
  blank_ nasm_target.
  step_ [(bs "go", Some hl_name_label)] nasm_target; [apply nasm_word; apply (nasm_plain_name nasm_target (bs "go")); [name_ 103%N (bs "o")|not_hex_|discriminate|out_|nb_]|].
  step_ [([10%N], None : option N)] nasm_mnemonic; [apply nasm_line_break; right; reflexivity|].
  step_ [(bs "say", Some hl_name_instruction)] nasm_operand; [apply nasm_word; apply (nasm_plain_name nasm_mnemonic (bs "say")); [name_ 115%N (bs "ay")|not_hex_|discriminate|out_|nb_]|].
  blank_ nasm_operand.
  step_ (([96%N], Some hl_string_delim) :: [(bs "a", Some hl_string); (bs "\x41", Some hl_string_escape)] ++ [([96%N], Some hl_string_delim)]) nasm_operand; [|apply sequence_end].
  apply nasm_text, nasm_backquote; [|left; reflexivity].
  apply (string_text _ _ _ _ (bs "a")); [discriminate|unfold nasm_plain; fa_|].
  apply (string_item _ _ _ _ false [(bs "\x41", Some hl_string_escape)]); [|apply string_end].
  apply nasm_item_escape. apply (nasm_escape_hex (bs "41")); [discriminate|fa_|cbn; lia|cbn; lia].
Qed.

(** A lexeme and a program after it *)
Lemma nasm_begin p s l : nasm_lexeme nasm_mnemonic p (text l) s -> sequence nasm_lexeme s l -> tokenizes highlight_nasm (p ++ l).
Proof. intros Hp Hl. apply C111_nasm_lexemes. exact (sequence_lexeme nasm_lexeme _ p s l Hp Hl). Qed.

(** ** C112: numbers with a suffix *)
Theorem C112_nasm_suffixes_refuted : ~ (forall x (d : N -> Prop) c t n, In (x, d) nasm_suffixes -> grouped d 95%N n -> text n = c :: t -> digit c ->
  tokenizes highlight_nasm (n ++ [([x], Some hl_number_decor)])).
Proof.
  intros H. specialize (H 104%N hex_digit 48%N (bs "f_0f") [(bs "0f", Some hl_number); ([95%N], Some hl_number_delim); (bs "0f", Some hl_number)] ltac:(in_)).
  assert (G : grouped hex_digit 95%N [(bs "0f", Some hl_number); ([95%N], Some hl_number_delim); (bs "0f", Some hl_number)]) by (apply grouped_more; [discriminate|fa_|apply grouped_one; [discriminate|fa_]]).
  specialize (H G eq_refl ltac:(vm_compute; intuition discriminate) false). vm_compute in H. discriminate.
Qed.
Theorem C112_nasm_suffixes_partial : forall x (d : N -> Prop) c n l, In (x, d) nasm_suffixes -> digit c -> Forall d (c :: n) ->
  sequence nasm_lexeme nasm_mnemonic l -> not_before ident_char (text l) -> tokenizes highlight_nasm ([(c :: n, Some hl_number); ([x], Some hl_number_decor)] ++ l).
Proof. intros x d c n l Hx Hc F Hl R. apply nasm_begin with nasm_mnemonic; [|exact Hl]. apply nasm_numeric. eapply nasm_suffixed; eassumption. Qed.
Print Assumptions C112_nasm_suffixes_refuted.
Print Assumptions C112_nasm_suffixes_partial.
Example C112_case : In (120%N, hex_digit) nasm_suffixes /\ digit 48%N /\ Forall hex_digit (48%N :: bs "dEaD").
Proof. split; [in_|]. split; [vm_compute; intuition discriminate|fa_]. Qed.

(** ** C113: numbers with a prefix *)
Theorem C113_nasm_prefixes_refuted : ~ (forall p (d : N -> Prop) n, In (p, d) nasm_prefixes -> grouped d 95%N n -> tokenizes highlight_nasm (number_pieces p n None None [])).
Proof.
  intros H. specialize (H (bs "0x") hex_digit [(bs "1d", Some hl_number)] ltac:(in_) ltac:(apply grouped_one; [discriminate|fa_]) false). vm_compute in H. discriminate.
Qed.
Theorem C113_nasm_prefixes_partial : forall p (d : N -> Prop) n l, In (p, d) nasm_prefixes -> grouped d 95%N n ->
  (forall a, text n <> a ++ bs "b" /\ text n <> a ++ bs "B" /\ text n <> a ++ bs "d" /\ text n <> a ++ bs "D") ->
  sequence nasm_lexeme nasm_mnemonic l -> not_before (fun c => ident_char c \/ c = ch ".") (text l) -> tokenizes highlight_nasm (number_pieces p n None None [] ++ l).
Proof. intros p d n l Hp G HN Hl R. apply nasm_begin with nasm_mnemonic; [|exact Hl]. apply nasm_numeric. eapply nasm_prefixed; eassumption. Qed.
Print Assumptions C113_nasm_prefixes_refuted.
Print Assumptions C113_nasm_prefixes_partial.
Example C113_case : In (bs "0x", hex_digit) nasm_prefixes /\ grouped hex_digit 95%N [(bs "bd", Some hl_number); ([95%N], Some hl_number_delim); (bs "1f", Some hl_number)] /\
  (forall a, bs "bd_1f" <> a ++ bs "b" /\ bs "bd_1f" <> a ++ bs "B" /\ bs "bd_1f" <> a ++ bs "d" /\ bs "bd_1f" <> a ++ bs "D").
Proof.
  split; [in_|]. split; [apply grouped_more; [discriminate|fa_|apply grouped_one; [discriminate|fa_]]|].
  intros a. change (bs "bd_1f") with (bs "bd_1" ++ bs "f"). repeat split; intros E; apply app_inj_tail in E as [_ E]; discriminate.
Qed.

(** ** C114: pseudo-instructions *)
Theorem C114_nasm_pseudo_refuted : ~ (forall w, one_of nasm_pseudo_instructions w -> tokenizes highlight_nasm [(w, Some hl_name_instruction_pseudo)]).
Proof. intros H. specialize (H (bs "db") ltac:(in_) false). vm_compute in H. discriminate. Qed.
Lemma lower_letters w : Forall letter (map lower w) -> Forall letter w.
Proof. rewrite Forall_map. apply Forall_impl. intros c. unfold lower, letter. destruct ((65 <=? c)%N && (c <=? 90)%N) eqn:E; [apply andb_true_iff in E as [A B]; apply N.leb_le in A, B; lia|tauto]. Qed.
Definition letterb (c : N) : bool := (65 <=? c)%N && (c <=? 90)%N || (97 <=? c)%N && (c <=? 122)%N.
Lemma letterb_iff c : letterb c = true <-> letter c.
Proof. unfold letterb, letter. rewrite orb_true_iff, !andb_true_iff, !N.leb_le. tauto. Qed.
Lemma letters_name w : w <> [] -> Forall letter w -> nasm_name w.
Proof.
  intros Hn F. destruct w as [|c t]; [contradiction|]. apply Forall_cons_iff in F as [Fc F]. exists c, t. split; [reflexivity|]. split; [left; exact Fc|]. split; [eapply Forall_impl; [|exact F]; cbn beta; unfold nasm_name_char; tauto|].
  intros ->. unfold letter in Fc. vm_compute in Fc. intuition discriminate.
Qed.
Lemma pseudo_words : forallb (fun w => negb (length w =? 0) && forallb (fun c => letterb c && negb ((c =? 104)%N || (c =? 120)%N)) w && negb (existsb (str_eqb w) (nasm_operator_names ++ nasm_type_names ++ nasm_all_registers ++ nasm_extra_registers ++ nasm_jumps))) nasm_pseudo_instructions = true.
Proof. vm_compute. reflexivity. Qed.
Theorem C114_nasm_pseudo_partial : forall w l, one_of nasm_pseudo_instructions w -> sequence nasm_lexeme nasm_operand l -> not_before (fun c => nasm_follow c \/ c = ch ":") (text l) ->
  tokenizes highlight_nasm ([(w, Some hl_name_instruction)] ++ l).
Proof.
  intros w l Hw Hl R. apply nasm_begin with nasm_operand; [|exact Hl]. apply nasm_word. pose proof pseudo_words as K. rewrite forallb_forall in K. specialize (K _ Hw). apply andb_true_iff in K as [K K3]. apply andb_true_iff in K as [K1 K2].
  rewrite forallb_forall in K2. assert (Fl : Forall letter (map lower w)) by (apply Forall_forall; intros c Hc; specialize (K2 _ Hc); apply andb_true_iff in K2 as [K2 _]; now apply letterb_iff).
  pose proof (lower_letters _ Fl) as F. apply (nasm_plain_name nasm_mnemonic w); [apply letters_name; [|exact F]| | | |exact R].
  - intros ->. discriminate K1.
  - intros (d & x & v & -> & _ & _ & Hx & _). rewrite map_app in K2. specialize (K2 (lower x)). rewrite in_app_iff in K2. cbn [map In] in K2. specialize (K2 (or_intror (or_introl eq_refl))).
    revert Hx K2. change (bs "hHxX") with [104; 72; 120; 88]%N. cbn [In]. intros [<-|[<-|[<-|[<-|[]]]]]; vm_compute; discriminate.
  - intros E. destruct w as [|c t]; [discriminate|]. injection E as ->. apply Forall_cons_iff in F as [F _]. vm_compute in F. intuition discriminate.
  - apply not_in_by. apply negb_true_iff. exact K3.
Qed.
Print Assumptions C114_nasm_pseudo_refuted.
Print Assumptions C114_nasm_pseudo_partial.
Example C114_case : one_of nasm_pseudo_instructions (bs "DB") /\ not_before (fun c => nasm_follow c \/ c = ch ":") (bs " 1").
Proof. split; [in_|nb_]. Qed.

(** ** C115: registers *)
Theorem C115_nasm_registers_refuted : ~ (forall w, one_of nasm_all_registers w -> tokenizes highlight_nasm [(w, Some hl_name_var)]).
Proof. intros H. specialize (H (bs "xmm30") ltac:(in_) false). vm_compute in H. discriminate. Qed.
Theorem C115_nasm_registers_partial : forall w l, one_of nasm_all_registers w -> ~ one_of nasm_missed_registers w -> (forall s, sequence nasm_lexeme s l) ->
  not_before (fun c => nasm_follow c \/ c = ch ":") (text l) -> tokenizes highlight_nasm ([(w, Some hl_name_var)] ++ l).
Proof.
  intros w l Hw Hm Hl R. unfold one_of, nasm_all_registers in Hw. apply in_app_iff in Hw as [Hw|Hw].
  - apply nasm_begin with nasm_mnemonic; [|apply Hl]. apply nasm_word, nasm_hex_register; [exact Hw|]. intros c E. specialize (R c E). unfold nasm_follow in R. tauto.
  - apply nasm_begin with nasm_operand; [|apply Hl]. apply nasm_word, nasm_register; assumption.
Qed.
Print Assumptions C115_nasm_registers_refuted.
Print Assumptions C115_nasm_registers_partial.
Example C115_case : one_of nasm_all_registers (bs "R31d") /\ ~ one_of nasm_missed_registers (bs "R31d") /\ forall s, sequence nasm_lexeme s [([32%N], None)].
Proof. split; [in_|]. split; [out_|]. intros s. blank_ s. apply sequence_end. Qed.

(** ** C116: strings in backquotes *)
Theorem C116_nasm_backquote_refuted : ~ (forall body close, string_body hl_string nasm_plain nasm_item (text close) true body -> close = [([96%N], Some hl_string_delim)] \/ close = [] ->
  tokenizes highlight_nasm (([96%N], Some hl_string_delim) :: body ++ close)).
Proof.
  intros H. specialize (H [(bs "1", Some hl_string)] []). assert (B : string_body hl_string nasm_plain nasm_item [] true [(bs "1", Some hl_string)]) by (apply string_text; [discriminate|unfold nasm_plain; fa_|apply string_end]).
  specialize (H B (or_intror eq_refl) false). vm_compute in H. discriminate.
Qed.
Theorem C116_nasm_backquote_partial : forall body close l, string_body hl_string nasm_plain nasm_item (text close ++ text l) true body ->
  close = [([96%N], Some hl_string_delim)] \/ close = [] /\ (exists t, text l = 10%N :: t \/ text l = 13%N :: t) ->
  sequence nasm_lexeme nasm_mnemonic l -> tokenizes highlight_nasm ((([96%N], Some hl_string_delim) :: body ++ close) ++ l).
Proof. intros body close l B C Hl. apply nasm_begin with nasm_mnemonic; [|exact Hl]. apply nasm_text, nasm_backquote; assumption. Qed.
Print Assumptions C116_nasm_backquote_refuted.
Print Assumptions C116_nasm_backquote_partial.
Example C116_case : string_body hl_string nasm_plain nasm_item (bs "` x") true [(bs "a ", Some hl_string); (bs "\n", Some hl_string_escape); (bs "\012", Some hl_string_escape)].
Proof.
  apply string_text; [discriminate|unfold nasm_plain; fa_|]. apply (string_item _ _ _ _ false [(bs "\n", Some hl_string_escape)]); [apply nasm_item_escape, (nasm_escape_simple 110%N); in_|].
  apply (string_item _ _ _ _ true [(bs "\012", Some hl_string_escape)]); [apply nasm_item_escape; apply (nasm_escape_octal 48%N (bs "12")); [vm_compute; intuition discriminate|discriminate|fa_|cbn; lia|cbn; lia]|apply string_end].
Qed.

(** ** C117: names *)
Theorem C117_nasm_names_refuted : ~ (forall w, nasm_name w -> hd_error w <> Some (ch ".") ->
  ~ one_of (nasm_operator_names ++ nasm_type_names ++ nasm_all_registers ++ nasm_extra_registers ++ nasm_jumps ++ nasm_pseudo_instructions) w -> tokenizes highlight_nasm [(w, Some hl_name_instruction)]).
Proof.
  intros H. specialize (H (bs "each") ltac:(name_ 101%N (bs "ach")) ltac:(discriminate) ltac:(out_) false). vm_compute in H. discriminate.
Qed.
Theorem C117_nasm_names_partial : forall w l, nasm_name w -> hd_error w <> Some (ch ".") -> ~ nasm_number_like w ->
  ~ one_of (nasm_operator_names ++ nasm_type_names ++ nasm_all_registers ++ nasm_extra_registers ++ nasm_jumps) w ->
  not_before (fun c => nasm_follow c \/ c = ch ":") (text l) -> sequence nasm_lexeme nasm_operand l -> tokenizes highlight_nasm ([(w, Some hl_name_instruction)] ++ l).
Proof. intros w l H1 H2 H3 H4 R Hl. apply nasm_begin with nasm_operand; [|exact Hl]. apply nasm_word. apply (nasm_plain_name nasm_mnemonic w); assumption. Qed.
Print Assumptions C117_nasm_names_refuted.
Print Assumptions C117_nasm_names_partial.
Example C117_case : nasm_name (bs "mov") /\ ~ nasm_number_like (bs "mov") /\ ~ one_of (nasm_operator_names ++ nasm_type_names ++ nasm_all_registers ++ nasm_extra_registers ++ nasm_jumps) (bs "mov").
Proof. split; [name_ 109%N (bs "ov")|]. split; [not_hex_|out_]. Qed.

(** ** C118: octal escapes *)
Theorem C118_nasm_octal_refuted : ~ (forall w, w <> [] -> length w <= 3 -> Forall octal_digit w ->
  tokenizes highlight_nasm [([96%N], Some hl_string_delim); (ch "\" :: w, Some hl_string_escape); ([96%N], Some hl_string_delim)]).
Proof. intros H. specialize (H (bs "0") ltac:(discriminate) ltac:(cbn; lia) ltac:(fa_) false). vm_compute in H. discriminate. Qed.
Theorem C118_nasm_octal_partial : forall w l, 2 <= length w <= 3 -> Forall octal_digit w -> sequence nasm_lexeme nasm_mnemonic l ->
  tokenizes highlight_nasm ([([96%N], Some hl_string_delim); (ch "\" :: w, Some hl_string_escape); ([96%N], Some hl_string_delim)] ++ l).
Proof.
  intros w l L F Hl. apply (nasm_begin (([96%N], Some hl_string_delim) :: [(ch "\" :: w, Some hl_string_escape)] ++ [([96%N], Some hl_string_delim)]) nasm_mnemonic l); [|exact Hl].
  apply nasm_text, nasm_backquote; [|left; reflexivity]. apply (string_item _ _ _ _ true [(ch "\" :: w, Some hl_string_escape)]); [|apply string_end].
  destruct w as [|c w]; [cbn in L; lia|]. cbn [length] in L. apply Forall_cons_iff in F as [Fc F]. apply nasm_item_escape, nasm_escape_octal; [exact Fc|destruct w; [cbn in L; lia|discriminate]|exact F|lia|]. intros _. nb_.
Qed.
Print Assumptions C118_nasm_octal_refuted.
Print Assumptions C118_nasm_octal_partial.
Example C118_case : 2 <= length (bs "33") <= 3 /\ Forall octal_digit (bs "33").
Proof. split; [cbn; lia|fa_]. Qed.

(** ** C119: a name ends before an operator *)
Theorem C119_nasm_operators_refuted : ~ (forall w t, one_of nasm_other_registers w -> ~ one_of nasm_missed_registers w -> In (t, hl_symbol_op) nasm_symbols -> hd_error t <> Some (ch ":") ->
  tokenizes highlight_nasm [(w, Some hl_name_var); (t, Some hl_symbol_op); (bs "8", Some hl_number)]).
Proof. intros H. specialize (H (bs "rsp") (bs "-") ltac:(in_) ltac:(out_) ltac:(in_) ltac:(discriminate) false). vm_compute in H. discriminate. Qed.
Definition one_op (t : str) : bool := forallb (fun e => negb (starts_with (t ++ bs "8") (fst e)) || (length (fst e) <=? length t)) nasm_symbols.
Lemma ops_longest : forallb (fun e => one_op (fst e)) nasm_symbols = true.
Proof. vm_compute. reflexivity. Qed.
Lemma op_heads : forallb (fun e : str * N => negb (snd e =? hl_symbol_op)%N || match fst e with c :: _ => mem c (bs ":?-+~!|&^<>/") | [] => false end) nasm_symbols = true.
Proof. vm_compute. reflexivity. Qed.
Theorem C119_nasm_operators_partial : forall w t, one_of nasm_other_registers w -> ~ one_of nasm_missed_registers w -> In (t, hl_symbol_op) nasm_symbols ->
  ~ In (hd_error t) [Some (ch ":"); Some (ch "?"); Some (ch "-")] -> tokenizes highlight_nasm [(w, Some hl_name_var); (t, Some hl_symbol_op); (bs "8", Some hl_number)].
Proof.
  intros w t Hw Hm Ht Hh. apply (nasm_begin [(w, Some hl_name_var)] nasm_operand).
  - apply nasm_word, nasm_register; [exact Hw|exact Hm|]. pose proof op_heads as K. rewrite forallb_forall in K. specialize (K _ Ht). cbn [fst snd] in K. rewrite N.eqb_refl in K. cbn [negb orb] in K.
    destruct t as [|c t]; [discriminate K|]. apply mem_In in K. cbn [hd_error In] in Hh. intros d E. rewrite text_cons in E. cbn [hd_error app] in E. injection E as <-.
    unfold nasm_follow, nasm_name_char, letter, digit. change (bs ":?-+~!|&^<>/") with [58; 63; 45; 43; 126; 33; 124; 38; 94; 60; 62; 47]%N in K. change (bs "_$@.?") with [95; 36; 64; 46; 63]%N. change (ch "-") with 45%N in *. change (ch ":") with 58%N in *. change (ch "?") with 63%N in *. cbn [In] in *.
    assert (c <> 58 /\ c <> 63 /\ c <> 45)%N by (repeat split; intros ->; tauto). clear Hh. lia.
  - refine (sequence_lexeme nasm_lexeme _ [(t, Some hl_symbol_op)] nasm_operand _ _ _).
    + apply nasm_symbol; [exact Ht|]. pose proof ops_longest as K. rewrite forallb_forall in K. specialize (K _ Ht). cbn [fst] in K. unfold one_op in K. rewrite forallb_forall in K.
      intros t' h' u Hi E. specialize (K _ Hi). cbn [fst] in K. rewrite (proj2 (starts_with_app _ _)) in K; [cbn [negb orb] in K; apply Nat.leb_le; exact K|]. exists u. exact E.
    + refine (sequence_lexeme nasm_lexeme _ [(bs "8", Some hl_number)] nasm_operand [] _ (sequence_end _ _)). apply nasm_numeric. apply (nasm_decimal [(bs "8", Some hl_number)] None None []).
      * apply grouped_one; [discriminate|fa_].
      * discriminate.
      * discriminate.
      * nb_.
Qed.
Print Assumptions C119_nasm_operators_refuted.
Print Assumptions C119_nasm_operators_partial.
Example C119_case : one_of nasm_other_registers (bs "RSP") /\ In (bs "+", hl_symbol_op) nasm_symbols /\ ~ In (hd_error (bs "+")) [Some (ch ":"); Some (ch "?"); Some (ch "-")].
Proof. split; [in_|]. split; [in_|]. vm_compute. intuition discriminate. Qed.
