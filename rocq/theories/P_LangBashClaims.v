(** * The Bash highlighter: properties a user may expect (C163-C172) *)
From Coq Require Import List NArith ZArith Bool Arith Lia.
From Verif Require Import M_Base L_Base M_Emit S_Ops M_Types M_Chars M_Api M_Highlighter S_Highlight L_Highlighter L_Auto S_Json S_Lexemes L_Lexemes L_Does L_Number M_LangBash S_LangBash P_LangBash S_LangBashLexemes P_LangBashLexemes.
Import ListNotations.

(** ** Rounds by states *)
Definition none (_ : bool) (_ : bash_role) (_ : list piece) (_ : str) (_ : bash_role) : Prop := False.
Lemma none_in nested p r q tail e : none p r q tail e -> forall ctx close rest s, tail = text close ++ rest -> is_parameter_sub ctx = p -> good p r ->
  closes ctx close rest -> fits r s -> length (text (q ++ close)) < 0 -> exists s', fits e s' /\ does (nested ctx) s (q ++ close) rest tt s'.
Proof. intros []. Qed.
Definition a_word nested := round_word none nested 0 (none_in nested).
Definition a_comment nested := round_comment none nested 0 (none_in nested).
Definition a_operator nested := round_operator none nested 0 (none_in nested).
Definition a_single nested := round_single none nested 0 (none_in nested).
Definition seen (s : bash_state) (w : str) : N :=
  match s with
  | bs_before_command | bs_in_command => hl_name_shell_command
  | bs_before_argument => if (hd 0 w =? ch "-")%N then hl_name_shell_option else hl_string
  | bs_in_argument => hl_string
  | bs_parameter_sub => hl_string_interpolation
  end.
Definition word_state (s : bash_state) : bash_state :=
  match s with bs_before_command | bs_in_command => bs_in_command | bs_before_argument | bs_in_argument => bs_in_argument | bs_parameter_sub => bs_parameter_sub end.
Definition blank_state (s : bash_state) : bash_state := match s with bs_in_command | bs_in_argument => bs_before_argument | s => s end.

Section rounds.
Variable nested : bash_context -> M bash_state unit.
Variable ctx : bash_context.
Notation body := (bash_commands_body nested ctx).
Variables (rest0 : str) (sf : bash_state).
Notation its := (iterates body tt rest0 sf tt).

Lemma it_word s w k : bash_word (is_parameter_sub ctx) w (text k ++ rest0) -> its (word_state s) k -> its s ((w, Some (seen s w)) :: k).
Proof.
  intros H I. apply (iterates_more _ _ _ _ tt s [(w, Some (seen s w))] tt (word_state s) k); [|rewrite text_one; exact (word_nonempty _ _ _ H)|exact I].
  assert (X : exists r r', fits r s /\ bash_word_highlight r w = Some (seen s w, r') /\ forall s', fits r' s' -> s' = word_state s).
  { destruct s; [exists at_command, in_command|exists in_command, in_command|exists at_argument, in_argument|exists in_argument, in_argument|exists in_parameter, in_parameter]; repeat split; auto. }
  destruct X as (r & r' & F & E & U). destruct (a_word nested ctx r s w _ r' (text k ++ rest0) F H E) as (s' & F' & D). rewrite (U s' F') in D. exact D.
Qed.
Lemma it_blank s k : not_before bash_blank (text k ++ rest0) -> its (blank_state s) k -> its s ((bs " ", None) :: k).
Proof.
  intros H I. apply (iterates_more _ _ _ _ tt s [(bs " ", None)] tt (blank_state s) k); [|discriminate|exact I].
  assert (X : exists r, fits r s /\ forall s', fits (after_blank r) s' -> s' = blank_state s).
  { destruct s; [exists at_command|exists in_command|exists at_argument|exists in_argument|exists in_parameter]; (split; [reflexivity|intros s' X; exact X]). }
  destruct X as (r & F & U). destruct (round_blank nested ctx r s (bs " ") (text k ++ rest0) F ltac:(discriminate) ltac:(repeat constructor) H) as (s' & F' & D). rewrite (U s' F') in D. exact D.
Qed.
Lemma it_round s s1 p k : does (body tt) s p (text k ++ rest0) (inl tt) s1 -> text p <> [] -> its s1 k -> its s (p ++ k).
Proof. intros D N I. eapply iterates_more; eassumption. Qed.
End rounds.
Lemma it_end nested s : iterates (bash_commands_body nested cx_file) tt [] s tt s [].
Proof. apply iterates_end. apply does_ret. Qed.
Lemma script_exact l strict sf : iterates (bash_commands_body (bash_commands (length (text l))) cx_file) tt [] sf tt bs_before_command l -> highlight_bash (text l) strict = Ok (true, tokens 0 l).
Proof.
  intros H. apply (does_loop 0) in H. specialize (H 0 []). unfold wp in H. rewrite app_nil_r in H. unfold highlight_bash, run, bindM. cbn [bash_commands].
  destruct (hloop 1 _ tt _) as [[[] st]|]; [|contradiction]. destruct H as [_ ->]. unfold ret. cbn [rops]. rewrite app_nil_r, rev_involutive. reflexivity.
Qed.

Lemma plain_exact w rest : plain_word w -> rest = [] \/ (exists c t, rest = c :: t /\ bash_special c) \/ (exists d t, rest = ch "$" :: d :: t /\ bash_expandable d) -> bash_word false w rest.
Proof.
  intros (Nw & F & Hd) R. split; [exact Nw|]. split.
  { intros c Hc [E|E]; subst c; destruct w as [|x w]; try discriminate Hc; injection Hc as ->; apply Hd; cbn; auto. }
  split.
  - intros a c t E L. assert (Hc : In c w). { apply (f_equal (fun x => nth_error x (length a))) in E. rewrite nth_error_app1, nth_error_app2, Nat.sub_diag in E by lia. cbn in E. eapply nth_error_In; exact E. }
    rewrite Forall_forall in F. destruct (F c Hc) as [H1 H2]. split; [|split; [|discriminate]].
    + intros X. unfold bash_special, bash_blank, bash_line_break in X. change (bs "\'" ++ [34%N]) with [92; 39; 34]%N in X. change (bs "|&;()<>") with [124; 38; 59; 40; 41; 60; 62]%N in X. change (bs "\'$ |&;()<>") with [92; 39; 36; 32; 124; 38; 59; 40; 41; 60; 62]%N in H1. cbn [In] in *. tauto.
    + intros ->. elim H1. cbn. auto.
  - intros c t ->. destruct R as [R|[(x & u & E & X)|(d & u & E & X)]]; [discriminate R|injection E as -> ->; auto|]. injection E as -> ->. right. left. split; [reflexivity|]. intros Z. exact (Z d eq_refl X).
Qed.
Ltac spec_ := right; left; eexists _, _; split; [reflexivity|unfold bash_special, bash_blank, bash_line_break; cbn; tauto].
Lemma plain_not_blank w t : plain_word w -> not_before bash_blank (w ++ t).
Proof.
  intros (Nw & F & _) c Hc X. destruct w as [|x w]; [congruence|]. injection Hc as ->. inversion F as [|? ? [H1 H2] _]. subst. destruct X as [<-|[<-|[]]]; [apply H1; cbn; tauto|apply H2; cbn; tauto].
Qed.
(** [ops] has a token for the word [w] at offset [i]. *)
Notation marks src i w h := (exists ops, highlight_bash src false = Ok (true, ops) /\ In (OEmit i (length w) h false) ops).
Ltac refute_ H := let ops := fresh in let E := fresh in let I := fresh in destruct H as (ops & E & I); vm_compute in E; injection E as <-; cbn in I; intuition discriminate.
Lemma plain_by w : match w with [] => false | c :: _ => negb (mem c (bs "#}")) && forallb (fun c => negb (mem c (bs "\'$ |&;()<>")) && negb (mem c [34; 9; 10; 11; 13]%N)) w end = true -> plain_word w.
Proof.
  intros H. destruct w as [|c w]; [discriminate|]. apply andb_true_iff in H as [H1 H2]. split; [discriminate|]. split.
  - apply Forall_forall. intros x Hx. rewrite forallb_forall in H2. specialize (H2 x Hx). apply andb_true_iff in H2 as [H2 H3]. split; intros X; apply mem_In in X; rewrite X in *; discriminate.
  - intros X. apply mem_In in X. cbn [hd] in X. rewrite X in H1. discriminate.
Qed.
Ltac plain_ := apply plain_by; vm_compute; reflexivity.
Definition argument (w : str) : N := if (hd 0 w =? ch "-")%N then hl_name_shell_option else hl_string.

(** ** C163: the words after a quoted name of a command are arguments. *)
Theorem C163_bash_quoted_command_refuted :
  ~ (forall name w, ~ In 39%N name -> plain_word w -> marks ([39%N] ++ name ++ [39%N] ++ bs " " ++ w) (length name + 3) w (argument w)).
Proof. intros H. specialize (H (bs "ls") (bs "-l") ltac:(vm_compute; intuition discriminate) ltac:(plain_)). refute_ H. Qed.
Print Assumptions C163_bash_quoted_command_refuted.
(** They are highlighted as commands, whatever they are; so is the word after an escaped name. *)
Theorem C163_bash_quoted_command_tokens : forall name w strict, ~ In 39%N name -> plain_word w ->
  tokenizes highlight_bash (([39%N], Some hl_string_delim) :: opt_piece name hl_string ++ [([39%N], Some hl_string_delim); (bs " ", None); (w, Some hl_name_shell_command)])
  /\ (forall c, c <> 10%N -> highlight_bash ([92%N; c] ++ bs " " ++ w) strict = Ok (true, [OEmit 0 2 hl_string_escape false; OEmit 3 (length w) hl_name_shell_command false])).
Proof.
  intros name w strict Hn Hw.
  assert (K : forall nested s, s = bs_before_command -> iterates (bash_commands_body nested cx_file) tt [] bs_in_command tt s [(bs " ", None); (w, Some hl_name_shell_command)]).
  { intros nested s ->. apply it_blank; [rewrite text_one; apply plain_not_blank; exact Hw|]. apply (it_word nested cx_file [] bs_in_command bs_before_command w []); [|apply it_end]. apply plain_exact; auto. }
  split.
  - intros st. apply (script_exact _ _ bs_in_command). set (n := bash_commands _).
    change ([([39%N], Some hl_string_delim); (bs " ", None); (w, Some hl_name_shell_command)]) with ([([39%N], Some hl_string_delim)] ++ [(bs " ", None); (w, Some hl_name_shell_command)]). rewrite app_assoc.
    apply (it_round _ _ _ _ _ bs_before_command (([39%N], Some hl_string_delim) :: opt_piece name hl_string ++ [([39%N], Some hl_string_delim)])); [|discriminate|apply K; reflexivity].
    apply a_single; [exact Hn|left; reflexivity].
  - intros c Hc. pose proof (script_exact [([92%N; c], Some hl_string_escape); (bs " ", None); (w, Some hl_name_shell_command)] strict bs_in_command) as X.
    cbn [text map fst concat app tokens length Nat.add] in X. rewrite app_nil_r in X. apply X.
    match goal with |- context [bash_commands ?f] => set (n := bash_commands f) end.
    apply (it_round n cx_file [] bs_in_command bs_before_command bs_before_command [([92%N; c], Some hl_string_escape)] [(bs " ", None); (w, Some hl_name_shell_command)]); [apply round_escape; exact Hc|discriminate|apply K; reflexivity].
Qed.
Print Assumptions C163_bash_quoted_command_tokens.
Example C163_case : ~ In 39%N (bs "my tool") /\ plain_word (bs "--help").
Proof. split; [vm_compute; intuition discriminate|plain_]. Qed.

(** ** C164: an argument after a parameter expansion in braces is highlighted as an argument. *)
Theorem C164_bash_after_braces_refuted :
  ~ (forall c x w, plain_word c -> identifier x -> plain_word w -> marks (c ++ bs " ${" ++ x ++ bs "} " ++ w) (length c + length x + 5) w (argument w)).
Proof.
  intros H. specialize (H (bs "cp") (bs "a") (bs "b") ltac:(plain_)). assert (I : identifier (bs "a")) by (exists (ch "a"), []; repeat split; [left; vm_compute; intuition discriminate|constructor]).
  specialize (H I ltac:(plain_)). refute_ H.
Qed.
Print Assumptions C164_bash_after_braces_refuted.
Lemma plain_identifier x rest : identifier x -> bash_word true x (ch "}" :: rest).
Proof.
  intros (c & t & -> & Hc & Ht).
  assert (F : Forall ident_char (c :: t)) by (constructor; [unfold ident_start, ident_char in *; tauto|exact Ht]).
  split; [discriminate|]. split; [intros y [= <-]; change (ch "#") with 35%N; change (ch "}") with 125%N; unfold ident_start, letter in Hc; lia|]. split.
  - intros a y u E L. assert (Hy : In y (c :: t)). { apply (f_equal (fun x => nth_error x (length a))) in E. rewrite nth_error_app1, nth_error_app2, Nat.sub_diag in E by lia. cbn [nth_error] in E. eapply nth_error_In; exact E. }
    rewrite Forall_forall in F. specialize (F y Hy). unfold ident_char, letter, digit in F. repeat split.
    + unfold bash_special, bash_blank, bash_line_break. change (bs "\'" ++ [34%N]) with [92; 39; 34]%N. change (bs "|&;()<>") with [124; 38; 59; 40; 41; 60; 62]%N. cbn [In]. lia.
    + change (ch "$") with 36%N. lia.
    + change (ch "}") with 125%N. lia.
  - intros y u [= <- <-]. auto.
Qed.
(** It is highlighted as part of the expansion. *)
Theorem C164_bash_after_braces_tokens : forall c x w, plain_word c -> identifier x -> plain_word w ->
  tokenizes highlight_bash [(c, Some hl_name_shell_command); (bs " ", None); (bs "${", Some hl_string_interpolation_delim); (x, Some hl_string_interpolation); (bs "}", Some hl_string_interpolation_delim);
    (bs " ", None); (w, Some hl_string_interpolation)].
Proof.
  intros c x w Hc Hx Hw st. apply (script_exact _ _ bs_parameter_sub). set (l := text _). 
  apply (it_word _ cx_file [] bs_parameter_sub bs_before_command c); [apply plain_exact; [exact Hc|spec_]|]. apply it_blank; [intros y [= <-] [Y|[Y|[]]]; discriminate Y|].
  apply (it_round _ _ _ _ _ bs_parameter_sub ([(bs "${", Some hl_string_interpolation_delim); (x, Some hl_string_interpolation); (bs "}", Some hl_string_interpolation_delim)])); [|discriminate|].
  - unfold bash_commands_body. apply does_get. apply again_does. cbn [text map fst concat app].
    match goal with |- does ?m _ _ _ _ _ => change m with (bash_consume_substitution (bash_commands (length l))) end.
    unfold bash_consume_substitution. apply does_get. apply does_check; [reflexivity|]. eapply does_at; [reflexivity|]. eapply does_cons; [apply does_emit; [reflexivity|discriminate]|]. apply does_set_loc.
    destruct l as [|y l'] eqn:El; [destruct c; discriminate El|]. cbn [length bash_commands]. apply does_loop.
    apply (it_word _ cx_parameter_sub _ bs_parameter_sub bs_parameter_sub x); [exact (plain_identifier x _ Hx)|].
    apply iterates_end. apply (round_close (bash_commands (length l')) cx_parameter_sub). left. reflexivity.
  - apply it_blank; [rewrite text_one; apply plain_not_blank; exact Hw|]. apply (it_word _ cx_file [] bs_parameter_sub bs_parameter_sub w []); [|apply it_end]. apply plain_exact; auto.
Qed.
Print Assumptions C164_bash_after_braces_tokens.
Example C164_case : plain_word (bs "cp") /\ identifier (bs "src") /\ plain_word (bs "-r").
Proof. split; [plain_|]. split; [|plain_]. exists (ch "s"), (bs "rc"). split; [reflexivity|]. split; [left; vm_compute; intuition discriminate|]. repeat (apply Forall_cons; [left; vm_compute; intuition discriminate|]). apply Forall_nil. Qed.

(** ** C165: text directly after a command substitution belongs to the argument. *)
Theorem C165_bash_after_substitution_refuted :
  ~ (forall c a w, plain_word c -> plain_word a -> plain_word w -> marks (c ++ bs " $(" ++ a ++ bs ")" ++ w) (length c + length a + 4) w hl_string).
Proof. intros H. specialize (H (bs "echo") (bs "date") (bs ".log") ltac:(plain_) ltac:(plain_) ltac:(plain_)). refute_ H. Qed.
Print Assumptions C165_bash_after_substitution_refuted.
(** It is highlighted as a command. *)
Theorem C165_bash_after_substitution_tokens : forall c a w, plain_word c -> plain_word a -> plain_word w ->
  tokenizes highlight_bash [(c, Some hl_name_shell_command); (bs " ", None); (bs "$(", Some hl_string_interpolation_delim); (a, Some hl_name_shell_command); (bs ")", Some hl_string_interpolation_delim);
    (w, Some hl_name_shell_command)].
Proof.
  intros c a w Hc Ha Hw st. apply (script_exact _ _ bs_in_command). set (l := text _).
  apply (it_word _ cx_file [] bs_in_command bs_before_command c); [apply plain_exact; [exact Hc|spec_]|]. apply it_blank; [intros y [= <-] [Y|[Y|[]]]; discriminate Y|].
  apply (it_round _ _ _ _ _ bs_in_command ([(bs "$(", Some hl_string_interpolation_delim); (a, Some hl_name_shell_command); (bs ")", Some hl_string_interpolation_delim)])); [|discriminate|].
  - unfold bash_commands_body. apply does_get. apply again_does. cbn [text map fst concat app].
    match goal with |- does ?m _ _ _ _ _ => change m with (bash_consume_substitution (bash_commands (length l))) end.
    unfold bash_consume_substitution. apply does_get. apply does_check; [reflexivity|]. eapply does_at; [reflexivity|]. cbn [text map fst concat app]. change (ch "(" =? ch "{")%N with false. change (ch "(" =? ch "(")%N with true. cbv iota.
    assert (G : forall t, (3 <=? length (bs "$(" ++ a ++ t)) && (nth 2 (bs "$(" ++ a ++ t) 0 =? ch "(")%N = false).
    { intros t. destruct Ha as (Na & Fa & _). destruct a as [|y a]; [congruence|]. change (bs "$(") with [36; 40]%N. cbn [app nth]. inversion Fa as [|? ? [Y _] _]. subst. destruct (N.eqb_spec y (ch "(")) as [->|]; [elim Y; cbn; tauto|apply andb_false_r]. }
    rewrite <- !app_assoc, G. eapply does_cons; [apply does_emit; [reflexivity|discriminate]|]. apply does_set_loc.
    destruct l as [|y l'] eqn:El; [destruct c; discriminate El|]. cbn [length bash_commands]. apply does_loop.
    apply (it_word _ cx_command_sub _ bs_in_command bs_before_command a); [apply plain_exact; [exact Ha|spec_]|].
    apply iterates_end. apply (round_close (bash_commands (length l')) cx_command_sub). left. reflexivity.
  - apply (it_word _ cx_file [] bs_in_command bs_in_command w []); [|apply it_end]. apply plain_exact; auto.
Qed.
Print Assumptions C165_bash_after_substitution_tokens.
Example C165_case : plain_word (bs "tar") /\ plain_word (bs "date") /\ plain_word (bs ".tgz").
Proof. split; [plain_|]. split; plain_. Qed.

(** ** C166: text directly after a quoted string belongs to the argument, whatever it begins with. *)
Theorem C166_bash_after_quote_refuted :
  ~ (forall c a w, plain_word c -> ~ In 39%N a -> plain_word w -> marks (c ++ bs " '" ++ a ++ bs "'" ++ w) (length c + length a + 3) w hl_string).
Proof. intros H. specialize (H (bs "cat") (bs "my file") (bs "-1.txt") ltac:(plain_) ltac:(vm_compute; intuition discriminate) ltac:(plain_)). refute_ H. Qed.
Print Assumptions C166_bash_after_quote_refuted.
(** It is, unless it begins with a dash: then it is highlighted as an option. *)
Theorem C166_bash_after_quote_partial : forall c a w, plain_word c -> ~ In 39%N a -> plain_word w ->
  tokenizes highlight_bash ([(c, Some hl_name_shell_command); (bs " ", None)] ++ (bs "'", Some hl_string_delim) :: opt_piece a hl_string ++ [(bs "'", Some hl_string_delim); (w, Some (argument w))]).
Proof.
  intros c a w Hc Ha Hw st. apply (script_exact _ _ bs_in_argument). set (n := bash_commands _).
  apply (it_word _ cx_file [] bs_in_argument bs_before_command c); [apply plain_exact; [exact Hc|spec_]|]. apply it_blank; [intros y [= <-] [Y|[Y|[]]]; discriminate Y|].
  change ([(bs "'", Some hl_string_delim); (w, Some (argument w))]) with ([(bs "'", Some hl_string_delim)] ++ [(w, Some (argument w))]). rewrite app_assoc.
  apply (it_round n cx_file [] bs_in_argument _ bs_before_argument ((bs "'", Some hl_string_delim) :: opt_piece a hl_string ++ [(bs "'", Some hl_string_delim)])); [apply a_single; [exact Ha|left; reflexivity]|discriminate|].
  apply (it_word _ cx_file [] bs_in_argument bs_before_argument w []); [|apply it_end]. apply plain_exact; auto.
Qed.
Print Assumptions C166_bash_after_quote_partial.
Example C166_case : plain_word (bs "cat") /\ ~ In 39%N (bs "a b") /\ plain_word (bs ".txt") /\ argument (bs ".txt") = hl_string.
Proof. split; [plain_|]. split; [vm_compute; intuition discriminate|]. split; [plain_|reflexivity]. Qed.

(** ** C167: the positional parameters are expansions. *)
Theorem C167_bash_positional_refuted :
  ~ (forall c d, plain_word c -> digit d -> marks (c ++ bs " $" ++ [d]) (length c + 1) [ch "$"; d] hl_string_interpolation).
Proof. intros H. specialize (H (bs "echo") (ch "1") ltac:(plain_) ltac:(vm_compute; intuition discriminate)). refute_ H. Qed.
Print Assumptions C167_bash_positional_refuted.
(** Only the parameter 0 is; the others are plain text. *)
Theorem C167_bash_positional_partial : forall c d, plain_word c -> digit d ->
  tokenizes highlight_bash [(c, Some hl_name_shell_command); (bs " ", None); ([ch "$"; d], Some (if (d =? 48)%N then hl_string_interpolation else hl_string))].
Proof.
  intros c d Hc Hd st. destruct (N.eqb_spec d 48) as [->|Hn].
  - apply (script_exact _ _ bs_in_argument). set (n := bash_commands _). apply (it_word _ cx_file [] bs_in_argument bs_before_command c); [apply plain_exact; [exact Hc|spec_]|]. apply it_blank; [intros y [= <-] [Y|[Y|[]]]; discriminate Y|].
    apply (it_round n cx_file [] bs_in_argument _ bs_in_argument [(bs "$0", Some hl_string_interpolation)] []); [|discriminate|apply it_end].
    destruct (round_expansion none n 2 (fun p r q t e X => match X with end) cx_file at_argument [(bs "$0", Some hl_string_interpolation)] [] in_argument bs_before_argument) as (s' & -> & D); [apply (bash_parameter none at_argument 48%N); cbn; tauto|reflexivity|cbn; lia|exact D].
  - apply (script_exact _ _ bs_in_argument). set (n := bash_commands _). apply (it_word _ cx_file [] bs_in_argument bs_before_command c); [apply plain_exact; [exact Hc|spec_]|]. apply it_blank; [intros y [= <-] [Y|[Y|[]]]; discriminate Y|].
    apply (it_word _ cx_file [] bs_in_argument bs_before_argument [ch "$"; d] []); [|apply it_end].
    assert (X : In d [49; 50; 51; 52; 53; 54; 55; 56; 57]%N) by (unfold digit in Hd; cbn [In]; lia). cbn [In] in X. repeat (destruct X as [<-|X]; [apply word_by; vm_compute; reflexivity|]). contradiction.
Qed.
Print Assumptions C167_bash_positional_partial.
Example C167_case : plain_word (bs "echo") /\ digit (ch "0") /\ digit (ch "9").
Proof. split; [plain_|]. split; vm_compute; intuition discriminate. Qed.

(** ** C168: an arithmetic expansion runs no command. *)
Theorem C168_bash_arithmetic_refuted :
  ~ (forall c w, plain_word c -> plain_word w -> exists ops, highlight_bash (c ++ bs " $((" ++ w ++ bs "))") false = Ok (true, ops) /\ ~ In (OEmit (length c + 4) (length w) hl_name_shell_command false) ops).
Proof. intros H. destruct (H (bs "echo") (bs "1+x") ltac:(plain_) ltac:(plain_)) as (ops & E & I). vm_compute in E. injection E as <-. apply I. cbn. tauto. Qed.
Print Assumptions C168_bash_arithmetic_refuted.
(** Every expression of one word is highlighted as a command. *)
Theorem C168_bash_arithmetic_tokens : forall c w, plain_word c -> plain_word w ->
  tokenizes highlight_bash [(c, Some hl_name_shell_command); (bs " ", None); (bs "$((", Some hl_string_interpolation_delim); (w, Some hl_name_shell_command); (bs "))", Some hl_string_interpolation_delim)].
Proof.
  intros c w Hc Hw st. apply (script_exact _ _ bs_in_command). set (l := text _).
  apply (it_word _ cx_file [] bs_in_command bs_before_command c); [apply plain_exact; [exact Hc|spec_]|]. apply it_blank; [intros y [= <-] [Y|[Y|[]]]; discriminate Y|].
  apply (it_round _ _ _ _ _ bs_in_command ([(bs "$((", Some hl_string_interpolation_delim); (w, Some hl_name_shell_command); (bs "))", Some hl_string_interpolation_delim)]) []); [|discriminate|apply it_end].
  unfold bash_commands_body. apply does_get. apply again_does. cbn [text map fst concat app].
  match goal with |- does ?m _ _ _ _ _ => change m with (bash_consume_substitution (bash_commands (length l))) end.
  unfold bash_consume_substitution. apply does_get. apply does_check; [reflexivity|]. eapply does_at; [reflexivity|]. cbn [text map fst concat app]. 
  match goal with |- does ?m _ _ _ _ _ => change m with (emit_and_advance 3 hl_string_interpolation_delim ;; set_loc bs_before_command ;; bash_commands (length l) cx_arith_sub) end.
  eapply does_cons; [apply does_emit; [reflexivity|discriminate]|]. apply does_set_loc.
  destruct l as [|y l'] eqn:El; [destruct c; discriminate El|]. cbn [length bash_commands]. apply does_loop.
  apply (it_word _ cx_arith_sub _ bs_in_command bs_before_command w); [apply plain_exact; [exact Hw|spec_]|].
  apply iterates_end. unfold bash_commands_body. apply does_get. eapply does_last; [apply does_emit; [reflexivity|discriminate]|]. apply does_ret.
Qed.
Print Assumptions C168_bash_arithmetic_tokens.
Example C168_case : plain_word (bs "echo") /\ plain_word (bs "x*2+1").
Proof. split; plain_. Qed.

(** ** C169: a comment sign inside a word does not begin a comment. *)
Theorem C169_bash_comment_in_word_refuted :
  ~ (forall c x y, plain_word c -> identifier x -> Forall plain_char y -> marks (c ++ bs " $" ++ x ++ bs "#" ++ y) (length c + length x + 2) (bs "#" ++ y) hl_string).
Proof.
  intros H. assert (I : identifier (bs "a")) by (exists (ch "a"), []; repeat split; [left; vm_compute; intuition discriminate|constructor]).
  specialize (H (bs "cp") (bs "a") (bs "b") ltac:(plain_) I). assert (F : Forall plain_char (bs "b")) by (repeat constructor; vm_compute; intuition discriminate). specialize (H F). refute_ H.
Qed.
Print Assumptions C169_bash_comment_in_word_refuted.
(** The rest of the line is highlighted as a comment. *)
Theorem C169_bash_comment_in_word_tokens : forall c x y, plain_word c -> identifier x -> ~ In 10%N y ->
  tokenizes highlight_bash ([(c, Some hl_name_shell_command); (bs " ", None); (bs "$" ++ x, Some hl_string_interpolation); (bs "#", Some hl_comment_delim)] ++ opt_piece y hl_comment).
Proof.
  intros c x y Hc Hx Hy st. apply (script_exact _ _ bs_in_argument). set (n := bash_commands _).
  apply (it_word _ cx_file [] bs_in_argument bs_before_command c); [apply plain_exact; [exact Hc|spec_]|]. apply it_blank; [intros z [= <-] [Y|[Y|[]]]; discriminate Y|].
  apply (it_round n cx_file [] bs_in_argument _ bs_in_argument [(bs "$" ++ x, Some hl_string_interpolation)]); [|discriminate|].
  - set (rest := text _ ++ []). destruct (round_expansion none n (length (bs "$" ++ x)) (fun p r q t e X => match X with end) cx_file at_argument [(bs "$" ++ x, Some hl_string_interpolation)] rest in_argument bs_before_argument) as (s' & -> & D); [|reflexivity|rewrite text_one; lia|exact D].
    apply (bash_name none at_argument x rest Hx). intros z [= <-]. vm_compute. intuition discriminate.
  - pose proof (iterates_more (bash_commands_body n cx_file) tt [] bs_in_argument tt bs_in_argument ((bs "#", Some hl_comment_delim) :: opt_piece y hl_comment) tt bs_in_argument []) as K. rewrite !app_nil_r in K. apply K; [|discriminate|apply it_end].
    apply a_comment; [exact Hy|left; reflexivity].
Qed.
Print Assumptions C169_bash_comment_in_word_tokens.
Example C169_case : plain_word (bs "open") /\ identifier (bs "x") /\ ~ In 10%N (bs "anchor").
Proof. split; [plain_|]. split; [|vm_compute; intuition discriminate]. exists (ch "x"), []. repeat split; [left; vm_compute; intuition discriminate|constructor]. Qed.

(** ** C170: the text of a here document is not a command. *)
Theorem C170_bash_here_document_refuted :
  ~ (forall c d w, plain_word c -> plain_word d -> plain_word w -> exists ops, highlight_bash (c ++ bs " <<" ++ d ++ [10%N] ++ w ++ [10%N] ++ d) false = Ok (true, ops)
      /\ ~ In (OEmit (length c + length d + 4) (length w) hl_name_shell_command false) ops).
Proof. intros H. destruct (H (bs "cat") (bs "EOF") (bs "Hello") ltac:(plain_) ltac:(plain_) ltac:(plain_)) as (ops & E & I). vm_compute in E. injection E as <-. apply I. cbn. tauto. Qed.
Print Assumptions C170_bash_here_document_refuted.
Lemma here_round n s d t : plain_word d -> does (bash_commands_body n cx_file tt) s [(bs "<<", Some hl_symbol_op)] (d ++ t) (inl tt) s.
Proof.
  intros Hd. assert (E : bash_match_operator (60%N :: 60%N :: d ++ t) = Some (bs "<<")).
  { destruct Hd as (Nd & Fd & _). destruct d as [|y d]; [congruence|]. inversion Fd as [|? ? [Y _] _]. subst. unfold bash_match_operator. cbn [app].
    repeat match goal with |- context [(60 =? ch ?x)%N] => let v := eval vm_compute in (60 =? ch x)%N in change (60 =? ch x)%N with v; cbv iota end.
    change (bs "<<<") with [60; 60; 60]%N. change (bs "<<") with [60; 60]%N. cbn [starts_with]. change (60 =? 60)%N with true. cbn [andb]. destruct (N.eqb_spec y 60) as [->|]; [elim Y; cbn; tauto|]. reflexivity. }
  unfold bash_commands_body. apply does_get. rewrite text_one. change (bs "<<" ++ d ++ t) with (60%N :: 60%N :: d ++ t). cbv zeta iota. rewrite E. apply again_does. apply does_emit; [reflexivity|discriminate].
Qed.
Theorem C170_bash_here_document_tokens : forall c d w, plain_word c -> plain_word d -> plain_word w ->
  tokenizes highlight_bash [(c, Some hl_name_shell_command); (bs " ", None); (bs "<<", Some hl_symbol_op); (d, Some (argument d)); ([10%N], None); (w, Some hl_name_shell_command); ([10%N], None); (d, Some hl_name_shell_command)].
Proof.
  intros c d w Hc Hd Hw st. apply (script_exact _ _ bs_in_command). set (n := bash_commands _).
  apply (it_word _ cx_file [] bs_in_command bs_before_command c); [apply plain_exact; [exact Hc|spec_]|]. apply it_blank; [intros z [= <-] [Y|[Y|[]]]; discriminate Y|].
  apply (it_round n cx_file [] bs_in_command bs_before_argument bs_before_argument [(bs "<<", Some hl_symbol_op)]); [|discriminate|].
  { cbn [text map fst concat]. rewrite <- app_assoc. apply here_round. exact Hd. }
  assert (N10 : forall t, [10%N] ++ t = [] \/ (exists c t0, [10%N] ++ t = c :: t0 /\ bash_special c) \/ (exists e t0, [10%N] ++ t = ch "$" :: e :: t0 /\ bash_expandable e)) by (intros t; spec_).
  apply (it_word _ cx_file [] bs_in_command bs_before_argument d); [apply plain_exact; [exact Hd|apply N10]|].
  apply (it_round n cx_file [] bs_in_command bs_in_argument bs_before_command [([10%N], None)]); [apply round_newline; cbn; tauto|discriminate|].
  apply (it_word _ cx_file [] bs_in_command bs_before_command w); [apply plain_exact; [exact Hw|apply N10]|].
  apply (it_round n cx_file [] bs_in_command bs_in_command bs_before_command [([10%N], None)]); [apply round_newline; cbn; tauto|discriminate|].
  apply (it_word _ cx_file [] bs_in_command bs_before_command d []); [apply plain_exact; auto|]. apply it_end.
Qed.
Print Assumptions C170_bash_here_document_tokens.
Example C170_case : plain_word (bs "cat") /\ plain_word (bs "EOF") /\ plain_word (bs "Hello!").
Proof. split; [plain_|]. split; plain_. Qed.

(** ** C171: after the arguments of a command and a separator, a command follows. *)
Theorem C171_bash_next_command_refuted :
  ~ (forall c a sep b d, plain_word c -> plain_word a -> In sep bash_separators -> plain_word d -> In b [[]; bs " "] ->
     marks (c ++ bs " " ++ a ++ sep ++ b ++ d) (length c + length a + length sep + length b + 1) d hl_name_shell_command).
Proof. intros H. specialize (H (bs "cd") (bs "x") (bs ";") (bs " ") (bs "ls") ltac:(plain_) ltac:(plain_) ltac:(cbn; tauto) ltac:(plain_) ltac:(cbn; tauto)). refute_ H. Qed.
Print Assumptions C171_bash_next_command_refuted.
(** It is highlighted as a string or an option. *)
Theorem C171_bash_next_command_tokens : forall c a sep d, plain_word c -> plain_word a -> In sep bash_separators -> plain_word d ->
  tokenizes highlight_bash [(c, Some hl_name_shell_command); (bs " ", None); (a, Some (argument a)); (sep, Some hl_symbol_op); (bs " ", None); (d, Some (argument d))]
  /\ tokenizes highlight_bash [(c, Some hl_name_shell_command); (bs " ", None); (a, Some (argument a)); (sep, Some hl_symbol_op); (d, Some hl_string)].
Proof.
  intros c a sep d Hc Ha Hs Hd.
  assert (Sp : forall t, sep ++ t = [] \/ (exists c t0, sep ++ t = c :: t0 /\ bash_special c) \/ (exists e t0, sep ++ t = ch "$" :: e :: t0 /\ bash_expandable e)).
  { intros t. cbn in Hs. repeat (destruct Hs as [<-|Hs]; [right; left; eexists _, _; split; [reflexivity|right; right; right; cbn; tauto]|]). contradiction. }
  assert (Ns : text [(sep, Some hl_symbol_op)] <> []) by (rewrite text_one; cbn in Hs; repeat (destruct Hs as [<-|Hs]; [discriminate|]); contradiction).
  assert (Fd : exists y t, d = y :: t /\ ~ In y (bs "&|<>")).
  { destruct Hd as (Nd & Fd & _). destruct d as [|y t]; [congruence|]. exists y, t. split; [reflexivity|]. inversion Fd as [|? ? [Y _] _]. subst. intros Z. apply Y. cbn in Z. cbn. tauto. }
  split; intros st; apply (script_exact _ _ bs_in_argument); set (n := bash_commands _);
    (apply (it_word _ cx_file [] bs_in_argument bs_before_command c); [apply plain_exact; [exact Hc|spec_]|]); (apply it_blank; [cbn [text map fst concat]; rewrite <- app_assoc; apply plain_not_blank; exact Ha|]);
    (apply (it_word _ cx_file [] bs_in_argument bs_before_argument a); [apply plain_exact; [exact Ha|cbn [text map fst concat]; rewrite <- app_assoc; apply Sp]|]).
  - apply (it_round n cx_file [] bs_in_argument bs_in_argument bs_in_argument [(sep, Some hl_symbol_op)]); [|exact Ns|].
    { apply a_operator; [apply in_or_app; auto|]. apply (longest_last none n 0 (none_in n) cx_file sep); [exact Hs|]. right. eexists _, _. split; [reflexivity|cbn; intuition discriminate]. }
    apply it_blank; [rewrite text_one; apply plain_not_blank; exact Hd|]. apply (it_word _ cx_file [] bs_in_argument bs_before_argument d []); [apply plain_exact; auto|]. apply it_end.
  - apply (it_round n cx_file [] bs_in_argument bs_in_argument bs_in_argument [(sep, Some hl_symbol_op)]); [|exact Ns|].
    { apply a_operator; [apply in_or_app; auto|]. apply (longest_last none n 0 (none_in n) cx_file sep); [exact Hs|]. right. destruct Fd as (y & t & -> & Y). eexists _, _. split; [reflexivity|exact Y]. }
    apply (it_word _ cx_file [] bs_in_argument bs_in_argument d []); [apply plain_exact; auto|]. apply it_end.
Qed.
Print Assumptions C171_bash_next_command_tokens.
Example C171_case : plain_word (bs "cd") /\ plain_word (bs "build") /\ In (bs "&&") bash_separators /\ plain_word (bs "make").
Proof. split; [plain_|]. split; [plain_|]. split; [cbn; tauto|plain_]. Qed.

(** ** C172: the word after an assignment is the command. *)
Theorem C172_bash_assignment_refuted :
  ~ (forall x v c, identifier x -> plain_word v -> plain_word c -> marks (x ++ bs "=" ++ v ++ bs " " ++ c) (length x + length v + 2) c hl_name_shell_command).
Proof.
  intros H. assert (I : identifier (bs "CC")) by (exists (ch "C"), (bs "C"); repeat split; [left; vm_compute; intuition discriminate|repeat constructor; vm_compute; intuition discriminate]).
  specialize (H (bs "CC") (bs "gcc") (bs "make") I ltac:(plain_) ltac:(plain_)). refute_ H.
Qed.
Print Assumptions C172_bash_assignment_refuted.
(** The assignment is highlighted as the command. *)
Theorem C172_bash_assignment_tokens : forall x v c, identifier x -> plain_word v -> plain_word c ->
  tokenizes highlight_bash [(x ++ bs "=" ++ v, Some hl_name_shell_command); (bs " ", None); (c, Some (argument c))].
Proof.
  intros x v c Hx Hv Hc st. apply (script_exact _ _ bs_in_argument). set (n := bash_commands _).
  assert (P : plain_word (x ++ bs "=" ++ v)).
  { destruct Hx as (y & t & -> & Hy & Ht). destruct Hv as (_ & Fv & _).
    assert (I : forall z, ident_char z -> plain_char z).
    { intros z Hz. unfold ident_char, letter, digit in Hz. unfold plain_char. change (bs "\'$ |&;()<>") with [92; 39; 36; 32; 124; 38; 59; 40; 41; 60; 62]%N. cbn [In]. lia. }
    split; [discriminate|]. split.
    - apply Forall_app. split; [constructor; [apply I; unfold ident_start, ident_char in *; tauto|eapply Forall_impl; [exact I|exact Ht]]|]. apply Forall_app. split; [|exact Fv]. repeat constructor; vm_compute; intuition discriminate.
    - cbn [hd app]. change (bs "#}") with [35; 125]%N. unfold ident_start, letter in Hy. cbn [In]. lia. }
  apply (it_word _ cx_file [] bs_in_argument bs_before_command); [apply plain_exact; [exact P|spec_]|]. apply it_blank; [rewrite text_one; apply plain_not_blank; exact Hc|].
  apply (it_word _ cx_file [] bs_in_argument bs_before_argument c []); [apply plain_exact; auto|]. apply it_end.
Qed.
Print Assumptions C172_bash_assignment_tokens.
Example C172_case : identifier (bs "x") /\ plain_word (bs "/usr/bin/cc") /\ plain_word (bs "make").
Proof. split; [|split; plain_]. exists (ch "x"), []. repeat split; [left; vm_compute; intuition discriminate|constructor]. Qed.
