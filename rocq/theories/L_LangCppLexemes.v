(** * The C and C++ highlighters: steps with exact tokens *)
From Coq Require Import List NArith ZArith Bool Arith Lia.
From Verif Require Import M_Base L_Base S_Tokens M_Emit S_Ops L_Emit M_Types M_Chars S_Chars P_Chars M_Parse S_Parse L_Parse S_Utf8 M_Utf8 L_Utf8 L_Utf8b L_Wf8 P_Utf8 L_Any L_Utf8Ascii M_Table L_Table
  M_Api M_Highlighter S_Highlight L_Highlighter M_LangCpp S_LangCpp P_LangCpp P_CppMatch L_Auto S_Lexemes L_Lexemes L_Number S_States S_LangCppLexemes.
From Verif Require P_Parse.
Import ListNotations.

(** In a state [f], before the text of [p] and then [rest], the step [m] consumes the text of [p], emits its tokens, and gives [x] and
    state [f']. *)
Definition does {A} (m : M cpp_loc A) (f : bool) (p : list piece) (rest : str) (x : A) (f' : bool) : Prop :=
  forall i o n, i + length (text p ++ rest) = n ->
    wp m (fun b st' => b = x /\ st' = mk_hst rest (i + length (text p)) (rev (tokens i p) ++ o) (mk_cpp_loc f' n)) (mk_hst (text p ++ rest) i o (mk_cpp_loc f n)).

Lemma does_bind {A B} (m : M cpp_loc A) (k : A -> M cpp_loc B) f p q rest x f1 y f2 :
  does m f p (text q ++ rest) x f1 -> does (k x) f1 q rest y f2 -> does (bindM m k) f (p ++ q) rest y f2.
Proof.
  intros H1 H2 i o n Hn. rewrite text_app, <- app_assoc in *. apply wp_bind. eapply wp_mono; [apply H1; exact Hn|]. cbn beta. intros ? ? [-> ->].
  eapply wp_mono; [apply H2; rewrite app_length in Hn; lia|]. cbn beta. intros ? ? [-> ->].
  split; [reflexivity|]. rewrite tokens_app, rev_app_distr, app_length, Nat.add_assoc, <- app_assoc. reflexivity.
Qed.
Lemma does_cons {A B} (m : M cpp_loc A) (k : A -> M cpp_loc B) f t q rest x f1 y f2 :
  does m f [t] (text q ++ rest) x f1 -> does (k x) f1 q rest y f2 -> does (bindM m k) f (t :: q) rest y f2.
Proof. apply (does_bind m k f [t] q). Qed.
Lemma does_nil {A B} (m : M cpp_loc A) (k : A -> M cpp_loc B) f q rest x f1 y f2 :
  does m f [] (text q ++ rest) x f1 -> does (k x) f1 q rest y f2 -> does (bindM m k) f q rest y f2.
Proof. apply (does_bind m k f [] q). Qed.
Lemma does_last {A B} (m : M cpp_loc A) (k : A -> M cpp_loc B) f p rest x f1 y f2 :
  does m f p rest x f1 -> does (k x) f1 [] rest y f2 -> does (bindM m k) f p rest y f2.
Proof. intros H1 H2. rewrite <- (app_nil_r p). eapply does_bind; [|exact H2]. exact H1. Qed.
Lemma does_ret {A} (x : A) f rest : does (ret x) f [] rest x f.
Proof. intros i o n Hn. apply wp_ret. cbn [text map concat length tokens rev app]. rewrite Nat.add_0_r. split; reflexivity. Qed.
Lemma does_rem {B} (k : str -> M cpp_loc B) f p rest y f' : does (k (text p ++ rest)) f p rest y f' -> does (bindM cpp_remainder k) f p rest y f'.
Proof.
  intros H i o n Hn. apply wp_bind. unfold wp, cpp_remainder. cbn [idx loc cl_size rem]. rewrite (proj2 (Nat.leb_le i n)) by lia. apply (H i o n Hn).
Qed.
Lemma does_get {B} (k : str -> M cpp_loc B) f p rest y f' : does (k (text p ++ rest)) f p rest y f' -> does (bindM get_rem k) f p rest y f'.
Proof. intros H i o n Hn. apply wp_bind, wp_get_rem. cbn [rem]. apply H. exact Hn. Qed.
Lemma does_eof {B} (k : bool -> M cpp_loc B) f p rest y f' : text p ++ rest <> [] -> does (k false) f p rest y f' -> does (bindM eof k) f p rest y f'.
Proof. intros N H i o n Hn. apply wp_bind. apply wp_eof; cbn [rem]; [contradiction|]. intros _. apply H. exact Hn. Qed.
Lemma does_eof_end {B} (k : bool -> M cpp_loc B) f y f' : does (k true) f [] [] y f' -> does (bindM eof k) f [] [] y f'.
Proof. intros H i o n Hn. apply wp_bind. apply wp_eof; cbn [rem]; [|intros E; elim E; reflexivity]. intros _. apply H. exact Hn. Qed.
Lemma does_lift {A B} (r : res A) (a : A) (k : A -> M cpp_loc B) f p rest y f' : r = Ok a -> does (k a) f p rest y f' -> does (bindM (lift r) k) f p rest y f'.
Proof. intros E H i o n Hn. apply wp_bind. eapply wp_lift; [exact E|]. apply H. exact Hn. Qed.
Lemma does_check {B} b e (k : unit -> M cpp_loc B) f p rest y f' : b = true -> does (k tt) f p rest y f' -> does (bindM (checkM b e) k) f p rest y f'.
Proof. intros E H i o n Hn. apply wp_bind, wp_check; [exact E|]. apply H. exact Hn. Qed.
Lemma does_at {B} r k0 c (k : N -> M cpp_loc B) f p rest y f' : nth_error r k0 = Some c -> does (k c) f p rest y f' -> does (bindM (at_ r k0) k) f p rest y f'.
Proof. intros E H i o n Hn. apply wp_bind. eapply wp_at_is; [exact E|]. apply H. exact Hn. Qed.
Lemma does_fresh {B} (k : unit -> M cpp_loc B) f f1 p rest y f' : does (k tt) f1 p rest y f' -> does (bindM (set_fresh_line f1) k) f p rest y f'.
Proof. intros H i o n Hn. apply (H i o n Hn). Qed.
Lemma does_fresh_of {B} (g : cpp_loc -> bool) (k : unit -> M cpp_loc B) f f1 p rest y f' : (forall n, g (mk_cpp_loc f n) = f1) -> does (k tt) f1 p rest y f' ->
  does (bindM get_loc (fun l => bindM (set_fresh_line (g l)) k)) f p rest y f'.
Proof. intros E H i o n Hn. specialize (H i o n Hn). unfold wp, bindM in *. cbn [get_loc]. unfold set_fresh_line, bindM, get_loc, set_loc. cbn [loc cl_size]. rewrite E. exact H. Qed.
Lemma does_line {B} (k : cpp_loc -> M cpp_loc B) f p rest y f' : (forall n, does (k (mk_cpp_loc f n)) f p rest y f') -> does (bindM get_loc k) f p rest y f'.
Proof. intros H i o n Hn. exact (H n i o n Hn). Qed.
Lemma does_emit w n h f rest : n = length w -> w <> [] -> does (cpp_emit_and_advance n h) f [(w, Some h)] rest tt f.
Proof.
  intros -> L i o n0 Hn. assert (text [(w, Some h)] = w) as E by (cbn; apply app_nil_r). rewrite E in *. unfold wp. rewrite emit_adv_ok by (destruct w; [congruence|discriminate]).
  cbn [rem idx rops loc]. rewrite skipn_app_exact. split; reflexivity.
Qed.
Lemma does_advance w n f rest : n = length w -> does (cpp_advance n) f [(w, None)] rest tt f.
Proof.
  intros -> i o n0 Hn. assert (text [(w, @None N)] = w) as E by (cbn; apply app_nil_r). rewrite E in *. unfold wp, cpp_advance. cbn [rem idx rops loc]. rewrite skipn_app_exact. split; reflexivity.
Qed.
Lemma does_when {b} (m : M cpp_loc unit) f p rest f' : (b = true -> does m f p rest tt f') -> (b = false -> p = [] /\ f' = f) -> does (when b m) f p rest tt f'.
Proof. intros H1 H2. destruct b; [apply H1; reflexivity|]. destruct (H2 eq_refl) as [-> ->]. apply does_ret. Qed.
Lemma does_opt w n h f rest : n = length w -> does (when (negb (n =? 0)) (cpp_emit_and_advance n h)) f (opt_piece w h) rest tt f.
Proof. intros ->. destruct w as [|c w]; [apply does_ret|]. cbn [length Nat.eqb negb when opt_piece]. apply does_emit; [reflexivity|discriminate]. Qed.
Lemma does_same {A} (m : M cpp_loc A) f p q rest x f' : text p = text q -> (forall i, tokens i p = tokens i q) -> does m f p rest x f' -> does m f q rest x f'.
Proof. intros E1 E2 H i o n Hn. rewrite <- E1, <- E2 in *. apply H. exact Hn. Qed.
Lemma or_no (m k : M cpp_loc bool) f p rest x f' : does m f [] (text p ++ rest) false f -> does k f p rest x f' -> does (or_else m k) f p rest x f'.
Proof. intros H1 H2. unfold or_else. eapply does_nil; [exact H1|]. exact H2. Qed.
Lemma or_yes (m k : M cpp_loc bool) f p rest f' : does m f p rest true f' -> does (or_else m k) f p rest true f'.
Proof. intros H1. unfold or_else. eapply does_last; [exact H1|]. apply does_ret. Qed.

(** Programs *)
Section states.
Context (lexeme : bool -> list piece -> str -> bool -> Prop) (token : M cpp_loc unit).
Hypothesis Hhead : forall f p r f', lexeme f p r f' -> text p <> [].
Hypothesis Htoken : forall f p r f', lexeme f p r f' -> does token f p r tt f'.
Lemma while_exact l f : sequence lexeme f l -> run (mk_cpp_loc f (length (text l))) (while_rem token ;; ret true) (text l) = Ok (true, tokens 0 l).
Proof.
  intros Hl. set (n := length (text l)). set (st0 := mk_hst (text l) 0 [] (mk_cpp_loc f n)).
  assert (W : wp (while_rem token) (fun _ st' => rops st' = rev (tokens 0 l)) st0).
  { unfold while_rem. apply wp_hloop with (mu := fun _ st' => length (rem st'))
      (Inv := fun _ st' => exists s1 l1, sequence lexeme s1 l1 /\ rem st' = text l1 /\ rev (tokens (idx st') l1) ++ rops st' = rev (tokens 0 l)
         /\ loc st' = mk_cpp_loc s1 n /\ idx st' + length (text l1) = n).
    - exists f, l. repeat split; [exact Hl|]. cbn. apply app_nil_r.
    - cbn [rem]. lia.
    - intros _ [r i o x] (s1 & l1 & P1 & R1 & T1 & L1 & I1). cbn [rem idx rops loc] in *. subst r x. apply wp_bind. destruct P1 as [s1|s1 p s2 q Hp Hq].
      + apply wp_eof; cbn [rem]; intros He; [|elim He; reflexivity]. apply wp_ret. cbn [rops tokens rev app] in *. exact T1.
      + pose proof (Hhead _ _ _ _ Hp) as Hne. rewrite text_app, tokens_app in *. apply wp_eof; cbn [rem]; intros He; [apply app_eq_nil in He; tauto|].
        apply wp_bind. eapply wp_mono; [apply (Htoken _ _ _ _ Hp); exact I1|]. cbn beta. intros _ st' [_ ->]. apply wp_ret. cbn [rem idx rops loc]. split.
        * exists s2, q. repeat split; try assumption; [rewrite <- T1, rev_app_distr, <- app_assoc; reflexivity|rewrite app_length in I1; lia].
        * rewrite app_length. destruct (text p); [contradiction|]. cbn [length]. lia. }
  unfold run, bindM. fold st0. unfold wp in W. destruct (while_rem token st0) as [[[] st']|]; [|contradiction]. unfold ret. rewrite W, rev_involutive. reflexivity.
Qed.
End states.

(** ** White space and comments *)
Lemma space_iff c : is_cpp_whitespace c = true <-> cpp_space c.
Proof. unfold is_cpp_whitespace, cpp_space. rewrite mem_In. cbn [In]. tauto. Qed.
Lemma white_len w rest : Forall cpp_space w -> not_before cpp_space rest -> cpp_match_whitespace (w ++ rest) = length w.
Proof.
  intros F R. unfold cpp_match_whitespace. rewrite length_if_eq. apply prefix_len_exact.
  - eapply Forall_impl; [|exact F]. intros c. apply space_iff.
  - eapply not_before_impl; [|exact R]. intros c. apply space_iff.
Qed.
Lemma no_white s f : not_before cpp_space s -> does cpp_expect_whitespace f [] s false f.
Proof. intros H. unfold cpp_expect_whitespace. apply does_rem. cbn [text map concat app]. cbv zeta. pose proof (white_len [] s (Forall_nil _) H) as E. cbn [app] in E. rewrite E. cbn [length Nat.eqb]. apply does_ret. Qed.
Lemma white_yes f w rest : w <> [] -> Forall cpp_space w -> not_before cpp_space rest -> does cpp_expect_whitespace f [(w, None)] rest true (f || existsb (N.eqb 10) w).
Proof.
  intros Hw F R. unfold cpp_expect_whitespace. apply does_rem. rewrite text_one. cbv zeta. rewrite (white_len w rest F R). destruct w as [|c w]; [congruence|]. cbn [length Nat.eqb].
  change (S (length w)) with (length (c :: w)). rewrite firstn_app_exact. assert (EM : mem 10 (c :: w) = existsb (N.eqb 10) (c :: w)) by (apply eq_true_iff_eq; rewrite mem_In, existsb_exists; split; [intros I; exists 10%N; auto|intros (x & I & E); apply N.eqb_eq in E; subst; exact I]).
  rewrite EM.
  apply (does_fresh_of (fun l => cl_fresh_line l || existsb (N.eqb 10) (c :: w)) _ f (f || existsb (N.eqb 10) (c :: w))); [reflexivity|].
  eapply does_last; [apply does_advance; reflexivity|]. apply does_ret.
Qed.
Lemma no_line s f : ~ begins s (bs "//") -> does cpp_expect_line_comment f [] s false f.
Proof.
  intros H. unfold cpp_expect_line_comment. apply does_rem. cbn [text map concat app]. destruct (C64_line_comment s) as (n & E & Z & _). apply Z in H. subst n.
  eapply does_lift; [exact E|]. cbn [Nat.eqb]. apply does_ret.
Qed.
Lemma line_yes f t rest : logical_line_end (bs "//" ++ t ++ rest) (2 + length t) ->
  does cpp_expect_line_comment f ((bs "//", Some hl_comment_delim) :: opt_piece t hl_comment) rest true true.
Proof.
  intros H. unfold cpp_expect_line_comment. apply does_rem. rewrite text_cons, opt_piece_text, <- app_assoc.
  destruct (C64_line_comment (bs "//" ++ t ++ rest)) as (n & E & Z & Y). assert (B : begins (bs "//" ++ t ++ rest) (bs "//")) by (exists (t ++ rest); reflexivity).
  assert (n = 2 + length t) as -> by (symmetry; apply Y; assumption). eapply does_lift; [exact E|]. cbn [Nat.add Nat.eqb].
  eapply does_cons; [apply does_emit; [reflexivity|discriminate]|].
  eapply does_last; [|apply does_fresh, does_ret]. apply does_when.
  - intros L. apply Nat.ltb_lt in L. destruct t as [|c t]; [cbn in L; lia|]. apply does_emit; [cbn; lia|discriminate].
  - intros L. apply Nat.ltb_ge in L. destruct t; [split; reflexivity|cbn in L; lia].
Qed.
Lemma no_block s f : ~ begins s (bs "/*") -> does cpp_expect_block_comment f [] s false f.
Proof.
  intros H. unfold cpp_expect_block_comment. apply does_rem. cbn [text map concat app]. unfold cpp_match_block_comment.
  destruct (starts_with s (bs "/*")) eqn:E; [exfalso; apply H, begins_iff, E|]. apply does_ret.
Qed.
Lemma wp_emit_at b n ty (Q : unit -> hst cpp_loc -> Prop) r i o l : n <> 0 -> Q tt (mk_hst r i (OEmit b n ty false :: o) l) -> wp (cpp_emit b n ty) Q (mk_hst r i o l).
Proof. intros H HQ. unfold wp, cpp_emit. apply Nat.eqb_neq in H. rewrite H. exact HQ. Qed.
Definition block_end (closed : bool) : str := if closed then bs "*/" else [].
Lemma block_len t (closed : bool) rest : (forall a b, t <> a ++ bs "*/" ++ b) -> (closed = false -> rest = []) ->
  cpp_match_block_comment (bs "/*" ++ t ++ block_end closed ++ rest) = mk_enclosed (2 + length t + if closed then 2 else 0) closed.
Proof.
  intros H R. unfold block_end. destruct closed.
  - destruct (C64_block_comment (bs "/*" ++ t ++ bs "*/" ++ rest) (4 + length t)) as [_ X]. destruct X as [X1 X2]; [exists t, rest; auto|].
    destruct (cpp_match_block_comment _) as [l c]. cbn in *. subst. f_equal. lia.
  - rewrite (R eq_refl), app_nil_r. cbn [app]. destruct (C64_block_comment (bs "/*" ++ t) (en_length (cpp_match_block_comment (bs "/*" ++ t)))) as [X _].
    unfold cpp_match_block_comment in *. cbn [app bs starts_with] in *. change (starts_with (bs "/*" ++ t) (bs "/*")) with true in *. cbn [negb] in *.
    destruct (find_str (bs "/*" ++ t) (bs "*/") 2) as [k|] eqn:E.
    + exfalso. destruct X as (u & v & E1 & E2 & _); [split; reflexivity|]. change (bs "/*" ++ t) with (47 :: 42 :: t)%N in E1. injection E1 as E1. apply (H u v E1).
    + f_equal. change (bs "/*" ++ t) with (47 :: 42 :: t)%N. cbn [length]. lia.
Qed.
Lemma block_yes f t (closed : bool) rest : (forall a b, t <> a ++ bs "*/" ++ b) -> (closed = false -> rest = []) ->
  does cpp_expect_block_comment f ((bs "/*", Some hl_comment_delim) :: opt_piece t hl_comment ++ if closed then [(bs "*/", Some hl_comment_delim)] else []) rest true f.
Proof.
  intros H R. unfold cpp_expect_block_comment. apply does_rem. rewrite text_cons, text_app, opt_piece_text.
  assert (E : text (if closed then [(bs "*/", Some hl_comment_delim)] else []) = block_end closed) by (destruct closed; reflexivity).
  rewrite E, <- !app_assoc. cbv zeta. pose proof (block_len t closed rest H R) as EB. rewrite EB. cbn [en_length en_terminated Nat.add Nat.eqb].
  intros i o n Hn. rewrite !text_cons, !text_app, opt_piece_text, E, <- !app_assoc in *. apply wp_bind. unfold get_idx at 1, wp at 1. cbn [idx].
  apply wp_bind, wp_emit_at; [discriminate|]. apply wp_bind.
  replace (S (S (length t + (if closed then 2 else 0))) - 2 - (if closed then 2 else 0)) with (length t) by (destruct closed; lia).
  assert (X : forall (Q : unit -> hst cpp_loc -> Prop) o', Q tt (mk_hst (bs "/*" ++ t ++ block_end closed ++ rest) i (rev (tokens (i + 2) (opt_piece t hl_comment)) ++ o') (mk_cpp_loc f n)) ->
    wp (when (negb (length t =? 0)) (cpp_emit (i + 2) (length t) hl_comment)) Q (mk_hst (bs "/*" ++ t ++ block_end closed ++ rest) i o' (mk_cpp_loc f n))).
  { intros Q o' HQ. destruct t as [|c t]; [apply wp_ret; exact HQ|]. cbn [length Nat.eqb negb when]. apply wp_emit_at; [discriminate|]. exact HQ. }
  apply X. apply wp_bind. clear X. unfold block_end in *. destruct closed.
  - cbn [when]. apply wp_emit_at; [discriminate|]. apply wp_bind. unfold cpp_advance at 1, wp at 1. cbn [rem idx rops loc]. apply wp_ret. split; [reflexivity|].
    f_equal.
    + replace (S (S (length t + 2))) with (length (bs "/*" ++ t ++ bs "*/")) by (rewrite !app_length; cbn [length bs]; change (length (bs "/*")) with 2; change (length (bs "*/")) with 2; lia).
      replace (bs "/*" ++ t ++ bs "*/" ++ rest) with ((bs "/*" ++ t ++ bs "*/") ++ rest) by (rewrite <- !app_assoc; reflexivity). apply skipn_app_exact.
    + rewrite !app_length. change (length (bs "/*")) with 2. change (length (bs "*/")) with 2. lia.
    + cbn [tokens]. rewrite tokens_app. cbn [tokens rev]. rewrite rev_app_distr. cbn [rev app]. rewrite opt_piece_text. rewrite <- !app_assoc. cbn [app].
      change (length (bs "/*")) with 2. change (length (bs "*/")) with 2. replace (i + S (S (length t + 2)) - 2) with (i + 2 + length t) by lia. reflexivity.
  - cbn [when]. apply wp_ret. apply wp_bind. unfold cpp_advance at 1, wp at 1. cbn [rem idx rops loc]. apply wp_ret. split; [reflexivity|].
    rewrite (R eq_refl). f_equal.
    + cbn [app]. rewrite app_nil_r. apply skipn_all2. change (bs "/*" ++ t) with (47 :: 42 :: t)%N. cbn [length]. lia.
    + rewrite app_nil_r. change (bs "/*" ++ t) with (47 :: 42 :: t)%N. cbn [length]. lia.
    + cbn [tokens]. rewrite app_nil_r. cbn [rev]. rewrite <- !app_assoc. reflexivity.
Qed.

(** ** What does not match *)
Lemma no_directive is_cpp s f : f = false \/ is_pound (match_preprocessing_op_or_punc is_cpp s) = false -> does (cpp_expect_directive is_cpp) f [] s false f.
Proof.
  intros H. unfold cpp_expect_directive. apply does_line. intros n. cbn [cl_fresh_line]. destruct f; [|apply does_ret]. cbn [negb]. destruct H as [H|H]; [discriminate|].
  apply does_rem. cbn [text map concat app]. cbv zeta. rewrite H. apply does_ret.
Qed.
Lemma no_string is_cpp strict s f n : cpp_match_identifier s = Ok n -> hd_error (skipn n s) <> Some 34%N -> does (cpp_expect_string_literal is_cpp strict) f [] s false f.
Proof.
  intros H Q. unfold cpp_expect_string_literal. apply does_rem. cbn [text map concat app]. eapply does_lift; [exact H|].
  destruct (skipn n s) as [|c t]; [apply does_ret|]. cbn [starts_with_ch]. destruct (N.eqb_spec c 34) as [->|]; [elim Q; reflexivity|]. apply does_ret.
Qed.
Lemma no_char is_cpp strict s f n : cpp_match_identifier s = Ok n -> hd_error (skipn n s) <> Some 39%N -> does (cpp_expect_character_literal is_cpp strict) f [] s false f.
Proof.
  intros H Q. unfold cpp_expect_character_literal. apply does_rem. cbn [text map concat app]. eapply does_lift; [exact H|].
  destruct (skipn n s) as [|c t]; [apply does_ret|]. cbn [starts_with_ch]. destruct (N.eqb_spec c 39) as [->|]; [elim Q; reflexivity|]. apply does_ret.
Qed.
Lemma no_number s f : not_before digit s -> (forall t, s = 46%N :: t -> not_before digit t) -> does cpp_expect_pp_number f [] s false f.
Proof.
  intros H1 H2. unfold cpp_expect_pp_number. apply does_rem. cbn [text map concat app]. assert (E : match_pp_number s = Ok 0).
  { unfold match_pp_number. destruct s as [|c s]; [reflexivity|]. assert (is_ascii_digit c = false) as ->.
    { apply not_true_iff_false. rewrite digit_iff. apply (H1 c eq_refl). }
    destruct (N.eqb_spec c (ch ".")) as [->|]; [|reflexivity]. destruct s as [|d s]; [reflexivity|]. cbn [andb].
    destruct (is_ascii_digit d) eqn:E; [|reflexivity]. apply digit_iff in E. elim (H2 _ eq_refl d eq_refl E). }
  eapply does_lift; [exact E|]. apply does_ret.
Qed.
Lemma no_name is_cpp strict fb s f : cpp_match_identifier s = Ok 0 -> does (cpp_expect_identifier_or_keyword is_cpp strict fb) f [] s false f.
Proof. intros H. unfold cpp_expect_identifier_or_keyword. apply does_rem. cbn [text map concat app]. eapply does_lift; [exact H|]. apply does_ret. Qed.
Lemma no_op_none is_cpp c s : ~ In c (bs "!%&*+-./:<=>?^|~#{}(),;[]") -> match_preprocessing_op_or_punc is_cpp (c :: s) = None.
Proof.
  intros H. unfold match_preprocessing_op_or_punc.
  repeat match goal with |- (if (c =? ?k)%N then _ else _) = None => destruct (N.eqb_spec c k) as [->|]; [exfalso; apply H; vm_compute; intuition reflexivity|] end. reflexivity.
Qed.

(** ** Words and names *)
Lemma ident_ascii c : ident_char c -> (c < 128)%N.
Proof. unfold ident_char, letter, digit. lia. Qed.
Lemma ident_start_char c : ident_start c -> ident_char c.
Proof. unfold ident_start, ident_char. tauto. Qed.
Definition all_words : list (str * (N * feature_source)) := map (fun x => (fst x, (snd x, src_c_cpp))) words_common ++ map (fun x => (fst x, (snd x, src_c))) words_c
  ++ map (fun x => (fst x, (snd x, src_cpp))) words_cpp ++ map (fun x => (fst x, (snd x, src_ext))) words_ext.
Definition source_eqb (a b : feature_source) : bool := match a, b with src_ext, src_ext | src_c, src_c | src_cpp, src_cpp | src_c_cpp, src_c_cpp => true | _, _ => false end.
Definition entry_eqb (a b : str * (N * feature_source)) : bool := str_eqb (fst a) (fst b) && (fst (snd a) =? fst (snd b))%N && source_eqb (snd (snd a)) (snd (snd b)).
Lemma entry_eq a b : entry_eqb a b = true -> a = b.
Proof.
  destruct a as [a [b1 b2]], b as [c [d1 d2]]. unfold entry_eqb. cbn [fst snd]. rewrite !andb_true_iff. intros [[H1 H2] H3]. apply str_eqb_eq in H1. apply N.eqb_eq in H2. subst.
  destruct b2, d2; try discriminate; reflexivity.
Qed.
Lemma tokens_known c u e : ident_start c -> In (c :: u, e) cpp_tokens -> In (c :: u, e) all_words.
Proof.
  assert (C : forallb (fun e => existsb (entry_eqb e) all_words || negb (match fst e with c :: _ => is_cpp_ascii_identifier_start c | [] => false end)) cpp_tokens = true) by (vm_compute; reflexivity).
  rewrite forallb_forall in C. intros Hc H. specialize (C _ H). cbn [fst] in C. apply ident_start_iff in Hc. rewrite Hc, orb_false_r in C.
  apply existsb_exists in C as (x & I & E). apply entry_eq in E. subst. exact I.
Qed.
Lemma words_known e : In e all_words -> In e cpp_tokens.
Proof.
  assert (C : forallb (fun e => existsb (entry_eqb e) cpp_tokens) all_words = true) by (vm_compute; reflexivity).
  rewrite forallb_forall in C. intros H. specialize (C e H). apply existsb_exists in C as (x & I & E). apply entry_eq in E. subst. exact I.
Qed.
Definition op_chars : list N := bs "!%&*+-./:<=>?^|~#{}(),;[]".
Lemma symbol_first t h : In (t, h) cpp_symbols -> exists c u, t = c :: u /\ In c op_chars.
Proof.
  assert (C : forallb (fun e => match fst e with c :: _ => mem c op_chars | [] => false end) cpp_symbols = true) by (vm_compute; reflexivity).
  rewrite forallb_forall in C. intros H. specialize (C _ H). cbn [fst] in C. destruct t as [|c u]; [discriminate|]. exists c, u. split; [reflexivity|]. apply mem_In. exact C.
Qed.
Lemma op_not_ident c : In c op_chars -> ~ ident_start c.
Proof.
  assert (C : forallb (fun c => negb (is_cpp_ascii_identifier_start c)) op_chars = true) by (vm_compute; reflexivity).
  rewrite forallb_forall in C. intros H X. specialize (C _ H). apply ident_start_iff in X. rewrite X in C. discriminate.
Qed.
Lemma word_lookup is_cpp strict w fb : identifier w ->
  (forall h, In (w, h) (cpp_words is_cpp strict) -> match cpp_token_type_by_code w with Some (h, f) => if feature_in_mask is_cpp strict f then h else fb | None => fb end = h)
  /\ ((forall h, ~ In (w, h) (cpp_words is_cpp strict)) -> match cpp_token_type_by_code w with Some (h, f) => if feature_in_mask is_cpp strict f then h else fb | None => fb end = fb).
Proof.
  intros (c & u & -> & Hc & _). set (w := c :: u) in *.
  assert (A : forall h f, cpp_token_type_by_code w = Some (h, f) <-> In (w, (h, f)) all_words).
  { intros h f. rewrite C63_cpp_names. split; [apply tokens_known, Hc|apply words_known]. }
  assert (B : forall h f, In (w, (h, f)) all_words -> feature_in_mask is_cpp strict f = true -> In (w, h) (cpp_words is_cpp strict)).
  { intros h f H Hf. unfold all_words in H. rewrite !in_app_iff, !in_map_iff in H. unfold cpp_words. rewrite !in_app_iff.
    destruct H as [(x & E & I)|[(x & E & I)|[(x & E & I)|(x & E & I)]]]; injection E; intros; subst h f; destruct x as [x y]; cbn [fst snd] in *; subst x.
    - tauto.
    - cbn [feature_in_mask] in Hf. apply negb_true_iff in Hf. rewrite Hf. tauto.
    - cbn [feature_in_mask] in Hf. rewrite Hf. tauto.
    - cbn [feature_in_mask] in Hf. apply negb_true_iff in Hf. rewrite Hf. tauto. }
  assert (D : forall h, In (w, h) (cpp_words is_cpp strict) -> exists f, In (w, (h, f)) all_words /\ feature_in_mask is_cpp strict f = true).
  { intros h H. unfold cpp_words in H. rewrite !in_app_iff in H. unfold all_words.
    assert (X : forall l (f : feature_source), In (w, h) l -> In (w, (h, f)) (map (fun x => (fst x, (snd x, f))) l)) by (intros l f I; apply in_map_iff; exists (w, h); auto).
    destruct H as [H|[H|[H|H]]].
    - exists src_c_cpp. split; [|reflexivity]. rewrite !in_app_iff. left. apply X, H.
    - destruct is_cpp eqn:E; [|destruct H]. exists src_cpp. split; [|reflexivity]. rewrite !in_app_iff. right. right. left. apply X, H.
    - destruct (is_cpp && strict) eqn:E; [destruct H|]. exists src_c. split; [|cbn; rewrite E; reflexivity]. rewrite !in_app_iff. right. left. apply X, H.
    - destruct strict eqn:E; [destruct H|]. exists src_ext. split; [|reflexivity]. rewrite !in_app_iff. right. right. right. apply X, H. }
  split.
  - intros h H. destruct (D h H) as (f & I & Hf). apply A in I. rewrite I, Hf. reflexivity.
  - intros H. destruct (cpp_token_type_by_code w) as [[h f]|] eqn:E; [|reflexivity]. pose proof (proj1 (A h f) eq_refl) as E'. destruct (feature_in_mask is_cpp strict f) eqn:Hf; [|reflexivity].
    elim (H h). eapply B; eassumption.
Qed.
Lemma word_identifier is_cpp strict w h : In (w, h) (cpp_words is_cpp strict) -> identifier w.
Proof.
  assert (C : forallb (fun e => match fst e with c :: t => is_cpp_ascii_identifier_start c && forallb is_cpp_ascii_identifier_continue t | [] => false end)
    (words_common ++ words_cpp ++ words_c ++ words_ext) = true) by (vm_compute; reflexivity).
  rewrite forallb_forall in C. intros H. assert (I : In (w, h) (words_common ++ words_cpp ++ words_c ++ words_ext)).
  { unfold cpp_words in H. rewrite !in_app_iff in *. destruct is_cpp, strict; cbn [andb In] in H; tauto. }
  specialize (C _ I). cbn [fst] in C. destruct w as [|c t]; [discriminate|]. apply andb_true_iff in C as [C1 C2]. exists c, t. split; [reflexivity|]. split; [apply ident_start_iff, C1|].
  apply Forall_forall. intros x Hx. apply ident_char_iff. rewrite forallb_forall in C2. auto.
Qed.
Lemma name_yes is_cpp strict fb f w h rest : identifier w -> not_before ident_or_non_ascii rest ->
  In (w, h) (cpp_words is_cpp strict) \/ (h = fb w /\ forall h, ~ In (w, h) (cpp_words is_cpp strict)) ->
  does (cpp_expect_identifier_or_keyword is_cpp strict fb) f [(w, Some h)] rest true false.
Proof.
  intros Hw R H. unfold cpp_expect_identifier_or_keyword. apply does_rem. rewrite text_one. eapply does_lift; [apply identifier_exact; assumption|].
  assert (L : w <> []) by (destruct Hw as (c & t & -> & _); discriminate).
  destruct (length w =? 0) eqn:E; [destruct w; [congruence|discriminate]|]. cbv zeta. rewrite firstn_app_exact.
  destruct (word_lookup is_cpp strict w (fb w) Hw) as [A B]. eapply does_last; [|apply does_fresh, does_ret].
  assert (X : match cpp_token_type_by_code w with Some (h, f) => if feature_in_mask is_cpp strict f then h else fb w | None => fb w end = h).
  { destruct H as [H|[-> H]]; [apply A, H|apply B, H]. }
  rewrite X. apply does_emit; [reflexivity|exact L].
Qed.
Lemma ident_first w rest : identifier w -> exists c t, w ++ rest = c :: t /\ ident_start c.
Proof. intros (c & t & -> & H & _). exists c, (t ++ rest). auto. Qed.
Lemma ident_not_special c : ident_start c -> ~ In c (34 :: 39 :: 47 :: 9 :: 10 :: 11 :: 12 :: 13 :: 32 :: 46 :: op_chars)%N.
Proof.
  intros H I. repeat (destruct I as [<-|I]; [revert H; unfold ident_start, letter; lia|]). elim (op_not_ident _ I H).
Qed.
Lemma ident_start_not_digit c : ident_start c -> ~ digit c.
Proof. unfold ident_start, letter, digit. lia. Qed.

(** The alternatives that fail, by the first character *)
Lemma to_directive c s f p rest x f' (k : M cpp_loc bool) : text p ++ rest = c :: s -> ~ cpp_space c -> (c = 47%N -> not_before (fun d => In d (bs "/*")) s) ->
  does k f p rest x f' -> does (or_else cpp_expect_whitespace (or_else cpp_expect_line_comment (or_else cpp_expect_block_comment k))) f p rest x f'.
Proof.
  intros E Hs Hc H. apply or_no; [apply no_white; rewrite E; apply not_before_cons, Hs|].
  apply or_no. { apply no_line. intros [r B]. rewrite E in B. injection B as -> ->. apply (Hc eq_refl 47%N eq_refl). cbn. tauto. }
  apply or_no. { apply no_block. intros [r B]. rewrite E in B. injection B as -> ->. apply (Hc eq_refl 42%N eq_refl). cbn. tauto. }
  exact H.
Qed.
Lemma to_string is_cpp c s f p rest x f' (k : M cpp_loc bool) : text p ++ rest = c :: s -> ~ cpp_space c -> ~ In c op_chars ->
  does k f p rest x f' -> does (or_else cpp_expect_whitespace (or_else cpp_expect_line_comment (or_else cpp_expect_block_comment (or_else (cpp_expect_directive is_cpp) k)))) f p rest x f'.
Proof.
  intros E Hs Ho H. eapply to_directive; [exact E|exact Hs|intros ->; elim Ho; cbn; tauto|]. apply or_no; [|exact H]. apply no_directive. right. rewrite E. rewrite no_op_none by exact Ho. reflexivity.
Qed.
Lemma ident_literal_free w rest : identifier w -> not_before (fun c => ident_or_non_ascii c \/ In c [34; 39]%N) rest ->
  cpp_match_identifier (w ++ rest) = Ok (length w) /\ hd_error (skipn (length w) (w ++ rest)) <> Some 34%N /\ hd_error (skipn (length w) (w ++ rest)) <> Some 39%N.
Proof.
  intros Hw R. split; [apply identifier_exact; [exact Hw|eapply not_before_impl; [|exact R]; cbv beta; tauto]|]. rewrite skipn_app_exact.
  split; intros E; apply (R _ E); cbn; tauto.
Qed.
Lemma body_check (m : M cpp_loc bool) f p rest f' : does m f p rest true f' -> does (let! any_matched := m in checkM any_matched FAssert) f p rest tt f'.
Proof. intros H. eapply does_last; [exact H|]. apply does_ret. Qed.
Lemma word_case is_cpp strict f w h rest : identifier w -> not_before (fun c => ident_or_non_ascii c \/ In c [34; 39]%N) rest ->
  In (w, h) (cpp_words is_cpp strict) \/ (h = usual_fallback_highlight w /\ forall h, ~ In (w, h) (cpp_words is_cpp strict)) ->
  does (cpp_body is_cpp strict) f [(w, Some h)] rest tt false.
Proof.
  intros Hw R H. destruct (ident_first w rest Hw) as (c & t & E & Hc). pose proof (ident_not_special c Hc) as S. pose proof (ident_start_not_digit c Hc) as D.
  destruct (ident_literal_free w rest Hw R) as (I1 & I2 & I3). apply body_check.
  eapply to_string; [rewrite text_one; exact E|intros X; apply S; revert X; unfold cpp_space; cbn [In]; tauto|intros X; apply S; cbn [In]; tauto|].
  apply or_no; [eapply no_string; rewrite text_one; eassumption|]. apply or_no; [eapply no_char; rewrite text_one; eassumption|].
  apply or_no. { apply no_number; rewrite text_one, E; [apply not_before_cons, D|]. intros t' [= -> ->]. exfalso. apply S. cbn; tauto. }
  apply or_yes. apply name_yes; [exact Hw|eapply not_before_impl; [|exact R]; cbv beta; tauto|exact H].
Qed.
Lemma ends_with_iff s u : ends_with s u = true <-> exists v, s = v ++ u.
Proof.
  unfold ends_with. rewrite andb_true_iff, Nat.leb_le, str_eqb_eq. split.
  - intros [L E]. exists (firstn (length s - length u) s). rewrite <- E at 2. symmetry. apply firstn_skipn.
  - intros [v ->]. rewrite app_length. replace (length v + length u - length u) with (length v) by lia. rewrite skipn_app_exact. split; [lia|reflexivity].
Qed.
Lemma name_fallback w h : name_highlight w h -> h = usual_fallback_highlight w.
Proof.
  unfold usual_fallback_highlight. intros [[-> H]|[-> H]].
  - apply ends_with_iff in H. rewrite H. reflexivity.
  - destruct (ends_with w (bs "_t")) eqn:E; [|reflexivity]. apply ends_with_iff in E. contradiction.
Qed.

(** ** Operators and punctuation; other characters *)
Lemma symbol_highlight t h : In (t, h) cpp_symbols -> cpp_token_type_highlight t = h.
Proof.
  assert (C : forallb (fun e => (cpp_token_type_highlight (fst e) =? snd e)%N) cpp_symbols = true) by (vm_compute; reflexivity).
  rewrite forallb_forall in C. intros H. specialize (C _ H). cbn [fst snd] in C. apply N.eqb_eq in C. exact C.
Qed.
Lemma symbol_case is_cpp strict f t h rest : In (t, h) cpp_symbols -> next_punctuator is_cpp (t ++ rest) t -> t <> bs "%>" ->
  (is_cpp = false -> ~ lone_less true (t ++ rest)) -> (f = true -> t <> bs "#" /\ t <> bs "%:") ->
  (t = bs "." -> not_before digit rest) -> (t = bs "/" -> not_before (fun c => In c (bs "/*")) rest) ->
  does (cpp_body is_cpp strict) f [(t, Some h)] rest tt false.
Proof.
  intros I N1 N2 N3 Hf Hdot Hslash. destruct (symbol_first t h I) as (c & u & E & Hc). pose proof (op_not_ident c Hc) as S.
  assert (A : (c < 128)%N). { clear - Hc. assert (C : forallb (fun c => (c <? 128)%N) op_chars = true) by reflexivity. rewrite forallb_forall in C. apply N.ltb_lt, C, Hc. }
  assert (Sp : ~ cpp_space c) by (intros X; revert Hc; unfold cpp_space in X; repeat (destruct X as [<-|X]; [intros X; vm_compute in X; intuition discriminate|]); destruct X).
  assert (NQ : c <> 34%N /\ c <> 39%N) by (split; intros ->; vm_compute in Hc; intuition discriminate).
  assert (ND : ~ digit c). { clear - Hc. assert (C : forallb (fun c => negb (is_ascii_digit c)) op_chars = true) by reflexivity. rewrite forallb_forall in C. specialize (C c Hc). intros X. apply digit_iff in X. rewrite X in C. discriminate. }
  assert (O : match_preprocessing_op_or_punc is_cpp (t ++ rest) = Some t).
  { apply C62_operators_partial; [|intros [X Y]; exact (N3 X Y)|exact N1]. intros B. destruct N1 as [[(_ & X & _) _]|(_ & X1 & X2 & X3)].
    - destruct X as [r X], B as [r' B]. rewrite X in B. discriminate.
    - assert (L : length (bs "%>") <= length t) by (apply X3; [destruct is_cpp; vm_compute; tauto|exact B]). destruct B as [r B]. rewrite E in *. destruct u as [|d u]; [cbn in L; lia|]. cbn [app] in B. injection B as -> -> B.
      assert (C : forallb (fun e => match fst e with 37 :: 62 :: _ :: _ => false | _ => true end)%N cpp_symbols = true) by reflexivity. rewrite forallb_forall in C. specialize (C _ I). cbn [fst] in C.
      destruct u; [|discriminate C]. elim N2. reflexivity. }
  assert (P2 : f = false \/ is_pound (Some t) = false).
  { destruct f; [|auto]. right. destruct (Hf eq_refl) as [P1 P2]. unfold is_pound. destruct (str_eqb t (bs "#")) eqn:X1; [apply str_eqb_eq in X1; contradiction|].
    destruct (str_eqb t (bs "%:")) eqn:X2; [apply str_eqb_eq in X2; contradiction|]. reflexivity. }
  assert (U : u <> [] -> forall x, hd_error u = Some x -> (c = 47%N -> ~ In x (bs "/*")) /\ (c = 46%N -> ~ digit x)).
  { intros _ x Hx. destruct u as [|y u]; [discriminate|]. injection Hx as ->. subst t.
    assert (C : forallb (fun e => match fst e with c :: x :: _ => (negb (c =? 47) || negb (mem x (bs "/*"))) && (negb (c =? 46) || negb (is_ascii_digit x)) | _ => true end)%N cpp_symbols = true) by reflexivity.
    rewrite forallb_forall in C. specialize (C _ I). cbn [fst] in C. apply andb_true_iff in C as [C1 C2]. split; intros ->; cbn [N.eqb Pos.eqb negb orb] in *; intros X.
    - apply mem_In in X. rewrite X in C1. discriminate.
    - apply digit_iff in X. rewrite X in C2. discriminate. }
  apply body_check. eapply to_directive; [rewrite text_one, E; reflexivity|exact Sp| |].
  { intros ->. destruct u as [|y u]; [apply Hslash; exact E|]. apply not_before_cons. apply (U ltac:(discriminate) y eq_refl). reflexivity. }
  apply or_no; [apply no_directive; rewrite text_one, O; exact P2|].
  assert (NI : cpp_match_identifier (t ++ rest) = Ok 0) by (rewrite E; apply not_identifier; assumption).
  apply or_no; [eapply no_string; rewrite text_one; [exact NI|]; rewrite E; cbn; intros [= X]; tauto|].
  apply or_no; [eapply no_char; rewrite text_one; [exact NI|]; rewrite E; cbn; intros [= X]; tauto|].
  apply or_no. { apply no_number; rewrite text_one, E; [apply not_before_cons, ND|]. intros t' [= -> <-]. destruct u as [|y u]; [apply Hdot; exact E|].
    apply not_before_cons. apply (U ltac:(discriminate) y eq_refl). reflexivity. }
  apply or_no; [apply no_name; rewrite text_one; exact NI|]. apply or_yes. unfold cpp_expect_preprocessing_op_or_punc. apply does_rem. rewrite text_one, O.
  apply does_line. intros n. apply does_check; [cbn [cl_fresh_line]; destruct P2 as [->| ->]; [reflexivity|apply orb_true_r]|].
  eapply does_last; [|apply does_fresh, does_ret]. rewrite (symbol_highlight t h I). apply does_emit; [reflexivity|rewrite E; discriminate].
Qed.
Lemma other_case is_cpp strict f c t rest : In c (bs "@$`\") -> Forall (fun c => ~ cpp_space c) t -> not_before (fun c => ~ cpp_space c) rest ->
  does (cpp_body is_cpp strict) f [(c :: t, None)] rest tt false.
Proof.
  intros Hc F R. assert (X : (c < 128)%N /\ ~ ident_start c /\ ~ cpp_space c /\ ~ In c op_chars /\ c <> 34%N /\ c <> 39%N /\ c <> 46%N /\ ~ digit c).
  { assert (C : forallb (fun c => (c <? 128)%N && negb (is_cpp_ascii_identifier_start c) && negb (is_cpp_whitespace c) && negb (mem c op_chars) && negb (mem c [34; 39; 46]%N) && negb (is_ascii_digit c)) (bs "@$`\") = true) by reflexivity.
    rewrite forallb_forall in C. specialize (C c Hc). rewrite !andb_true_iff, !negb_true_iff, <- !not_true_iff_false, ident_start_iff, space_iff, !mem_In, digit_iff, N.ltb_lt in C. cbn [In] in C. intuition congruence. }
  destruct X as (A & S & Sp & O & Q1 & Q2 & Q3 & D). assert (NI : cpp_match_identifier (c :: t ++ rest) = Ok 0) by (apply not_identifier; assumption).
  apply body_check. eapply to_string; [rewrite text_one; reflexivity|exact Sp|exact O|].
  apply or_no; [eapply no_string; rewrite text_one; [exact NI|]; cbn; intros [= X]; tauto|].
  apply or_no; [eapply no_char; rewrite text_one; [exact NI|]; cbn; intros [= X]; tauto|].
  apply or_no. { apply no_number; rewrite text_one; [apply not_before_cons, D|]. intros t' [= -> <-]. tauto. }
  apply or_no; [apply no_name; rewrite text_one; exact NI|]. apply or_no.
  { unfold cpp_expect_preprocessing_op_or_punc. apply does_rem. rewrite text_one. change (text [] ++ (c :: t) ++ rest) with (c :: t ++ rest). rewrite no_op_none by exact O. apply does_ret. }
  unfold cpp_expect_non_whitespace. apply does_rem. rewrite text_one. cbv zeta. assert (E : cpp_match_non_whitespace ((c :: t) ++ rest) = length (c :: t)).
  { unfold cpp_match_non_whitespace. rewrite length_if_not_eq. apply prefix_len_exact.
    - constructor; [apply negb_true_iff, not_true_iff_false; rewrite space_iff; exact Sp|]. eapply Forall_impl; [|exact F]. intros x Hx. apply negb_true_iff, not_true_iff_false. rewrite space_iff. exact Hx.
    - eapply not_before_impl; [|exact R]. cbv beta. intros x Hx. apply negb_true_iff, not_true_iff_false in Hx. rewrite space_iff in Hx. exact Hx. }
  rewrite E. cbn [length Nat.eqb]. apply does_fresh. eapply does_last; [apply does_advance; reflexivity|]. apply does_ret.
Qed.
