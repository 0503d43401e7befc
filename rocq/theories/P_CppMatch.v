(** * C and C++ lexical elements are recognised exactly (C62-C65). *)
From Coq Require Import List NArith ZArith Bool Arith Lia.
From Verif Require Import M_Base L_Base M_Chars M_Types S_Parse M_Parse L_Parse M_Utf8 L_Any M_Table L_Table
  M_Xid S_Chars P_Chars S_Utf8 L_Utf8b L_Wf8 M_Emit S_Ops M_Highlighter L_Highlighter M_LangCpp S_LangCpp P_LangCpp.
From Verif Require P_Parse.
Import ListNotations.

Lemma begins_iff s p : starts_with s p = true <-> begins s p.
Proof. rewrite starts_with_app. unfold begins. split; intros [r E]; exists r; exact E. Qed.

(** ** C62: operators *)
(** The matcher looks at no more than four characters, and only compares them with characters of
    operators: it is enough to examine the strings of up to four of those. *)
Definition alphabets : list (list N) :=
  [bs "#%{}[]()<;:.?->~!+*/^&|=,"; bs "#:=>%<.*-+^&|"; bs ">=.*%:"; bs ":>"].
Definition norm (al : list N) (c : N) : N := if mem c al then c else 0%N.
Fixpoint view_of (als : list (list N)) (s : str) : str :=
  match als, s with
  | al :: als', c :: s' => norm al c :: view_of als' s'
  | _, _ => []
  end.
Definition view : str -> str := view_of alphabets.
Fixpoint in_alphabets (als : list (list N)) (p : str) : bool :=
  match p, als with
  | [], _ => true
  | c :: p', al :: als' => mem c al && negb (c =? 0)%N && in_alphabets als' p'
  | _ :: _, [] => false
  end.
Definition op_string (p : str) : Prop := in_alphabets alphabets p = true.

Lemma norm_eqb al c d : mem c al = true -> c <> 0%N -> (d =? c)%N = (norm al d =? c)%N.
Proof.
  intros M Z. unfold norm. destruct (mem d al) eqn:E; [reflexivity|].
  destruct (N.eqb_spec d c) as [->|_]; [congruence|]. symmetry. apply N.eqb_neq. congruence.
Qed.
Lemma view_gen p : forall als s, in_alphabets als p = true -> starts_with s p = starts_with (view_of als s) p.
Proof.
  induction p as [|c p IH]; intros als s F; [destruct s, als; reflexivity|].
  destruct als as [|al als]; [discriminate|]. cbn [in_alphabets] in F.
  apply andb_true_iff in F as [F F2]. apply andb_true_iff in F as [F1 F0]. apply negb_true_iff, N.eqb_neq in F0.
  destruct s as [|d s]; [reflexivity|]. cbn [view_of starts_with].
  rewrite (IH als s F2). f_equal. apply norm_eqb; assumption.
Qed.
Lemma view_sw p s : op_string p -> starts_with s p = starts_with (view s) p.
Proof. apply view_gen. Qed.

Ltac op_str := vm_compute; reflexivity.

Lemma match_view is_cpp s : match_preprocessing_op_or_punc is_cpp s = match_preprocessing_op_or_punc is_cpp (view s).
Proof.
  destruct s as [|d s]; [reflexivity|].
  assert (SW : forall p, op_string p -> starts_with (d :: s) p = starts_with (view (d :: s)) p) by (intros; apply view_sw; assumption).
  set (al := bs "#%{}[]()<;:.?->~!+*/^&|=,").
  assert (HD : forall c, mem c al && negb (c =? 0)%N = true -> (d =? c)%N = (norm al d =? c)%N).
  { intros c M. apply andb_true_iff in M as [M1 M2]. apply negb_true_iff, N.eqb_neq in M2. apply norm_eqb; assumption. }
  assert (EV : view (d :: s) = norm al d :: view_of (tl alphabets) s) by reflexivity.
  unfold match_preprocessing_op_or_punc. rewrite EV. cbv zeta. rewrite <- EV.
  repeat match goal with |- context [starts_with (d :: s) ?p] => rewrite (SW p) by op_str end.
  repeat match goal with |- context [(d =? ?c)%N] => rewrite (HD c) by (vm_compute; reflexivity) end.
  reflexivity.
Qed.

(** The decidable form of the specification. *)
Definition lone_less_b (is_cpp : bool) (s : str) : bool :=
  is_cpp && starts_with s (bs "<::") && negb (starts_with s (bs "<:::")) && negb (starts_with s (bs "<::>")).
Definition ok_answer (is_cpp : bool) (s : str) (r : option str) : bool :=
  if lone_less_b is_cpp s then match r with Some t => str_eqb t (bs "<") | None => false end
  else match r with
       | Some t => existsb (str_eqb t) (punctuators is_cpp) && starts_with s t
           && forallb (fun u => negb (starts_with s u) || (length u <=? length t)) (punctuators is_cpp)
       | None => forallb (fun u => negb (starts_with s u)) (punctuators is_cpp)
       end.
Definition known_wrong (is_cpp : bool) (s : str) : bool :=
  starts_with s (bs "%>")
  || (negb is_cpp && starts_with s (bs "<::") && negb (starts_with s (bs "<:::")) && negb (starts_with s (bs "<::>"))).

Fixpoint all_views (als : list (list N)) (p : str -> bool) : bool :=
  p [] && match als with [] => true | al :: als' => forallb (fun c => all_views als' (fun s => p (c :: s))) (0%N :: al) end.
Lemma all_views_sound als : forall p s, all_views als p = true -> p (view_of als s) = true.
Proof.
  induction als as [|al als IH]; intros p s A; cbn [all_views] in A; apply andb_true_iff in A as [A1 A2]; [exact A1|].
  destruct s as [|c s]; [exact A1|]. cbn [view_of]. rewrite forallb_forall in A2.
  apply (IH (fun s => p (norm al c :: s))), A2. unfold norm.
  destruct (mem c al) eqn:E; [right; apply mem_In; exact E|left; reflexivity].
Qed.

Lemma all_checked : forall is_cpp : bool,
  all_views alphabets (fun s => known_wrong is_cpp s || ok_answer is_cpp s (match_preprocessing_op_or_punc is_cpp s)) = true.
Proof. intros []; vm_cast_no_check (eq_refl true). Qed.

Lemma punct_op is_cpp u : In u (punctuators is_cpp) -> op_string u.
Proof.
  assert (C : forallb (fun u => in_alphabets alphabets u) (punctuators is_cpp) = true) by (destruct is_cpp; vm_compute; reflexivity).
  rewrite forallb_forall in C. intros H. apply C in H. exact H.
Qed.
Lemma lone_iff is_cpp s : lone_less_b is_cpp s = true <-> lone_less is_cpp s.
Proof.
  unfold lone_less_b, lone_less. rewrite !andb_true_iff, !negb_true_iff, <- !begins_iff, <- !not_true_iff_false. tauto.
Qed.
Lemma prefix_eq (s t u : str) : begins s t -> begins s u -> length t = length u -> t = u.
Proof.
  intros [a Ha] [b Hb] L. rewrite Ha in Hb. clear Ha.
  apply (f_equal (firstn (length t))) in Hb. rewrite firstn_app_exact, L, firstn_app_exact in Hb. exact Hb.
Qed.
Lemma next_unique is_cpp s t u : next_punctuator is_cpp s t -> next_punctuator is_cpp s u -> t = u.
Proof.
  intros [(A & ->)|(A & A1 & A2 & A3)] [(B & ->)|(B & B1 & B2 & B3)]; try reflexivity; try contradiction.
  apply (prefix_eq s); try assumption. apply Nat.le_antisymm; auto.
Qed.

Lemma op_correct is_cpp s : known_wrong is_cpp s = false ->
  match match_preprocessing_op_or_punc is_cpp s with
  | Some t => next_punctuator is_cpp s t
  | None => forall t, ~ next_punctuator is_cpp s t
  end.
Proof.
  intros K. pose proof (all_views_sound _ _ s (all_checked is_cpp)) as C. cbn beta in C. fold (view s) in C.
  assert (SW : forall p, op_string p -> starts_with (view s) p = starts_with s p) by (intros; symmetry; apply view_sw; assumption).
  assert (K2 : known_wrong is_cpp (view s) = false).
  { rewrite <- K. unfold known_wrong. rewrite !SW by op_str. reflexivity. }
  rewrite K2 in C. cbn [orb] in C. rewrite <- match_view in C. unfold ok_answer in C.
  assert (L : lone_less_b is_cpp (view s) = lone_less_b is_cpp s).
  { unfold lone_less_b. rewrite !SW by op_str. reflexivity. }
  rewrite L in C. destruct (lone_less_b is_cpp s) eqn:EL.
  - apply lone_iff in EL. destruct (match_preprocessing_op_or_punc is_cpp s) as [t|]; [|discriminate].
    apply str_eqb_eq in C. left. auto.
  - assert (NL : ~ lone_less is_cpp s) by (rewrite <- lone_iff; congruence).
    destruct (match_preprocessing_op_or_punc is_cpp s) as [t|].
    + apply andb_true_iff in C as [C C3]. apply andb_true_iff in C as [C1 C2].
      apply existsb_exists in C1 as (t' & I & E). apply str_eqb_eq in E. subst t'.
      right. split; [exact NL|]. split; [exact I|]. split.
      { apply begins_iff. rewrite <- SW; [exact C2|eapply punct_op; exact I]. }
      intros u Iu Bu. rewrite forallb_forall in C3. specialize (C3 u Iu). apply orb_true_iff in C3 as [C3|C3].
      * rewrite SW in C3 by (eapply punct_op; exact Iu). apply begins_iff in Bu. rewrite Bu in C3. discriminate.
      * apply Nat.leb_le in C3. exact C3.
    + intros t [(A & _)|(_ & I & B & _)]; [contradiction|]. rewrite forallb_forall in C. specialize (C t I).
      rewrite SW in C by (eapply punct_op; exact I). apply begins_iff in B. rewrite B in C. discriminate.
Qed.

Lemma known_wrong_iff is_cpp s : known_wrong is_cpp s = true <->
  begins s (bs "%>") \/ (is_cpp = false /\ lone_less true s).
Proof.
  unfold known_wrong, lone_less. rewrite orb_true_iff, !andb_true_iff, !negb_true_iff, <- !begins_iff, <- !not_true_iff_false.
  destruct is_cpp; intuition congruence.
Qed.

(** The digraph [%>] and, in C, [<::]. *)
Theorem C62_operators_refuted :
  (next_punctuator true (bs "%>") (bs "%>") /\ match_preprocessing_op_or_punc true (bs "%>") = Some (bs ":>"))
  /\ (next_punctuator false (bs "<::") (bs "<:") /\ match_preprocessing_op_or_punc false (bs "<::") = Some (bs "<")).
Proof.
  assert (P : forall is_cpp s t, ~ lone_less is_cpp s -> existsb (str_eqb t) (punctuators is_cpp) = true -> starts_with s t = true ->
    forallb (fun u => negb (starts_with s u) || (length u <=? length t)) (punctuators is_cpp) = true -> next_punctuator is_cpp s t).
  { intros is_cpp s t H1 H2 H3 H4. right. split; [exact H1|]. apply existsb_exists in H2 as (u & I & E). apply str_eqb_eq in E. subst u.
    split; [exact I|]. split; [apply begins_iff; exact H3|]. intros u Iu Bu. rewrite forallb_forall in H4. specialize (H4 u Iu).
    apply begins_iff in Bu. rewrite Bu in H4. apply Nat.leb_le. exact H4. }
  split; (split; [apply P; try (vm_compute; reflexivity); rewrite <- lone_iff; vm_compute; discriminate|vm_compute; reflexivity]).
Qed.
Print Assumptions C62_operators_refuted.

Theorem C62_operators_partial : forall is_cpp s t,
  ~ begins s (bs "%>") -> ~ (is_cpp = false /\ lone_less true s) ->
  (match_preprocessing_op_or_punc is_cpp s = Some t <-> next_punctuator is_cpp s t).
Proof.
  intros is_cpp s t H1 H2.
  assert (K : known_wrong is_cpp s = false) by (apply not_true_iff_false; rewrite known_wrong_iff; tauto).
  pose proof (op_correct is_cpp s K) as C. destruct (match_preprocessing_op_or_punc is_cpp s) as [u|]; split.
  - injection 1 as <-. exact C.
  - intros H. f_equal. eapply next_unique; eassumption.
  - discriminate.
  - intros H. destruct (C t H).
Qed.
Print Assumptions C62_operators_partial.
Example C62_case : match_preprocessing_op_or_punc true (bs "<=>x") = Some (bs "<=>")
  /\ match_preprocessing_op_or_punc false (bs "<=>x") = Some (bs "<=")
  /\ match_preprocessing_op_or_punc true (bs "<::a") = Some (bs "<").
Proof. vm_compute. auto. Qed.

(** ** C63: names are looked up exactly *)
Lemma cpp_sorted : table_sorted cpp_tokens = true. Proof. vm_compute. reflexivity. Qed.
Theorem C63_cpp_names : forall code v, cpp_token_type_by_code code = Some v <-> In (code, v) cpp_tokens.
Proof. intros code v. apply table_find_iff, cpp_sorted. Qed.
Print Assumptions C63_cpp_names.
Example C63_case : cpp_token_type_by_code (bs "while") = Some (hl_keyword_control, src_c_cpp)
  /\ cpp_token_type_by_code (bs "whil") = None.
Proof. vm_compute. auto. Qed.

(** ** C64: comments *)
(** A spliced line break from a backslash on, ending after [k + 1] characters. *)
Lemma escape_loop_spec s : forall len, 0 < len ->
  (newline_escape_loop s len = 0
    /\ forall k, nth_error s k = Some 10%N -> ~ (forall i c, i < k -> nth_error s i = Some c -> cpp_space c /\ c <> 10%N))
  \/ (exists k, newline_escape_loop s len = len + k + 1 /\ nth_error s k = Some 10%N
      /\ forall i c, i < k -> nth_error s i = Some c -> cpp_space c /\ c <> 10%N).
Proof.
  induction s as [|c s IH]; intros len L; cbn [newline_escape_loop].
  - left. split; [reflexivity|]. intros [|k] E; discriminate.
  - destruct (N.eqb_spec c 10) as [->|N].
    + right. exists 0. split; [lia|]. split; [reflexivity|]. intros; lia.
    + assert (W : is_cpp_whitespace c = true <-> cpp_space c).
      { unfold is_cpp_whitespace, cpp_space. rewrite mem_In. cbn [In]. tauto. }
      destruct (is_cpp_whitespace c) eqn:Ew; cbn [negb].
      * destruct (IH (len + 1) ltac:(lia)) as [[E H]|(k & E & H1 & H2)].
        -- left. split; [exact E|]. intros [|k] Hk G; cbn in Hk; [congruence|].
           apply (H k Hk). intros i d Hi Hd. apply (G (S i) d); [lia|exact Hd].
        -- right. exists (S k). split; [lia|]. split; [exact H1|]. intros [|i] d Hi Hd.
           ++ cbn in Hd. injection Hd as <-. split; [apply W; reflexivity|exact N].
           ++ cbn in Hd. apply (H2 i d); [lia|exact Hd].
      * left. split; [reflexivity|]. intros [|k] Hk G; cbn in Hk; [congruence|].
        destruct (G 0 c ltac:(lia) eq_refl) as [G1 _]. apply W in G1. congruence.
Qed.

Lemma newline_escape_spec s j :
  (match_newline_escape (skipn j s) = 0 /\ forall k, j < k -> nth_error s j = Some 92%N -> nth_error s k = Some 10%N ->
     ~ (forall i c, j < i < k -> nth_error s i = Some c -> cpp_space c /\ c <> 10%N))
  \/ (exists k, j < k /\ match_newline_escape (skipn j s) = k - j + 1 /\ nth_error s j = Some 92%N /\ nth_error s k = Some 10%N
      /\ forall i c, j < i < k -> nth_error s i = Some c -> cpp_space c /\ c <> 10%N).
Proof.
  unfold match_newline_escape. destruct (skipn j s) as [|c t] eqn:E.
  { left. split; [reflexivity|]. intros k _ H. rewrite <- (Nat.add_0_r j), <- nth_error_skipn, E in H. discriminate. }
  assert (Hn : forall i, nth_error s (j + i) = nth_error (c :: t) i) by (intros; rewrite <- nth_error_skipn, E; reflexivity).
  assert (Hj : nth_error s j = Some c) by (rewrite <- (Nat.add_0_r j), Hn; reflexivity).
  change (ch "\") with 92%N. destruct (N.eqb_spec c 92) as [->|N].
  2: { left. split; [reflexivity|]. intros k _ H. congruence. }
  destruct (escape_loop_spec t 1 ltac:(lia)) as [[H1 H2]|(k & H1 & H2 & H3)].
  - left. split; [exact H1|]. intros k Hk _ Hl G. apply (H2 (k - j - 1)).
    + specialize (Hn (k - j)). replace (j + (k - j)) with k in Hn by lia. rewrite Hn in Hl.
      replace (k - j) with (S (k - j - 1)) in Hl by lia. exact Hl.
    + intros i d Hi Hd. apply (G (j + (S i))); [lia|]. rewrite Hn. exact Hd.
  - right. exists (j + S k). split; [lia|]. split; [rewrite H1; lia|]. split; [exact Hj|]. split; [rewrite Hn; exact H2|].
    intros i d Hi Hd. apply (H3 (i - j - 1)); [lia|]. specialize (Hn (i - j)). replace (j + (i - j)) with i in Hn by lia.
    rewrite Hn in Hd. replace (i - j) with (S (i - j - 1)) in Hd by lia. exact Hd.
Qed.

Lemma begins_lf s k : begins (skipn k s) [10]%N <-> nth_error s k = Some 10%N.
Proof.
  rewrite <- (Nat.add_0_r k) at 2. rewrite <- nth_error_skipn. destruct (skipn k s) as [|c t]; cbn; split.
  - intros [r E]. discriminate.
  - discriminate.
  - intros [r E]. injection E as -> _. reflexivity.
  - injection 1 as ->. exists t. reflexivity.
Qed.
Lemma begins_crlf s k : begins (skipn k s) [13; 10]%N <-> nth_error s k = Some 13%N /\ nth_error s (k + 1) = Some 10%N.
Proof.
  rewrite <- (Nat.add_0_r k) at 2. rewrite <- !nth_error_skipn. destruct (skipn k s) as [|c [|d t]]; cbn; split.
  - intros [r E]. discriminate.
  - intros [H _]. discriminate.
  - intros [r E]. discriminate.
  - intros [_ H]. discriminate.
  - intros [r E]. injection E as -> -> _. auto.
  - intros [H1 H2]. injection H1 as ->. injection H2 as ->. exists t. reflexivity.
Qed.
Lemma break_test s k : (starts_with_ch (skipn k s) 10 || starts_with (skipn k s) [13; 10]%N) = true <-> line_break s k.
Proof.
  unfold line_break. rewrite orb_true_iff, begins_iff. assert (E : starts_with_ch (skipn k s) 10 = true <-> begins (skipn k s) [10]%N); [|tauto].
  rewrite <- begins_iff. destruct (skipn k s) as [|c t]; cbn; [split; discriminate|]. destruct t; rewrite andb_true_r; tauto.
Qed.

(** Every splice that starts before [n] ends before or at [n]. *)
Definition settled (s : str) (n : nat) : Prop := forall j, j < n -> j + match_newline_escape (skipn j s) <= n.

Lemma settled_not_spliced s n : settled s n -> line_break s n -> ~ spliced s n.
Proof.
  intros H B (j & Hj & Hb & G). destruct (newline_escape_spec s j) as [[_ N]|(k & Hk & E & _ & Hl & G2)].
  - destruct B as [B|B].
    + apply begins_lf in B. exact (N n Hj Hb B G).
    + apply begins_crlf in B as [B1 B2]. apply (N (n + 1) ltac:(lia) Hb B2). intros i c Hi Hc.
      destruct (Nat.eq_dec i n) as [->|]; [|apply (G i c); [lia|exact Hc]]. rewrite B1 in Hc. injection Hc as <-.
      split; [unfold cpp_space; cbn; tauto|discriminate].
  - specialize (H j Hj). rewrite E in H. assert (Hkn : k < n) by lia. destruct (G k _ ltac:(lia) Hl) as [_ X]. congruence.
Qed.

Lemma line_loop_spec s fuel : forall n, length s - n <= fuel -> 2 <= n <= length s -> settled s n ->
  (forall k, 2 <= k < n -> line_break s k -> spliced s k) ->
  exists m, line_comment_loop fuel (skipn n s) n = Ok m /\ logical_line_end s m.
Proof.
  induction fuel as [|fuel IH]; intros n F L HS HB.
  - assert (n = length s) by lia. subst n. rewrite skipn_all. exists (length s). split; [reflexivity|].
    split; [lia|]. split; [left; reflexivity|exact HB].
  - cbn [line_comment_loop]. destruct (skipn n s) as [|c t] eqn:E.
    + assert (Ln : length (skipn n s) = 0) by (rewrite E; reflexivity). rewrite skipn_length in Ln. assert (n = length s) by lia. subst n.
      exists (length s). split; [reflexivity|]. split; [lia|]. split; [left; reflexivity|exact HB].
    + assert (Ln : length (skipn n s) = S (length t)) by (rewrite E; reflexivity). rewrite skipn_length in Ln.
      assert (Et : t = skipn (n + 1) s) by (rewrite <- skipn_skipn, E; reflexivity).
      rewrite <- E. pose proof (break_test s n) as BT.
      destruct (starts_with_ch (skipn n s) 10 || starts_with (skipn n s) [13; 10]%N).
      * assert (B : line_break s n) by (apply BT; reflexivity). exists n. split; [reflexivity|]. split; [lia|]. split; [|exact HB].
        right. split; [exact B|]. apply settled_not_spliced; assumption.
      * assert (NB : ~ line_break s n) by (rewrite <- BT; discriminate). clear BT.
        destruct (newline_escape_spec s n) as [[E0 N]|(k & Hk & E0 & Hb & Hl & G)].
        -- rewrite E0. cbn [Nat.eqb negb]. rewrite Et. apply IH; [lia|lia| |].
           ++ intros j Hj. destruct (Nat.eq_dec j n) as [->|]; [lia|]. specialize (HS j ltac:(lia)). lia.
           ++ intros k Hk B. destruct (Nat.eq_dec k n) as [->|]; [contradiction|]. apply HB; [lia|exact B].
        -- rewrite E0. assert (E1 : (k - n + 1 =? 0) = false) by (apply Nat.eqb_neq; lia). rewrite E1. cbn [negb].
           rewrite skipn_skipn. assert (Lk : k < length s) by (apply nth_error_Some; congruence).
           replace (n + (k - n + 1)) with (k + 1) by lia. apply IH; [lia|lia| |].
           ++ intros j Hj. destruct (Nat.lt_ge_cases j n) as [Hjn|Hjn]; [specialize (HS j Hjn); lia|].
              destruct (Nat.eq_dec j n) as [->|]; [lia|].
              destruct (newline_escape_spec s j) as [[-> _]|(k2 & _ & _ & Hb2 & _)]; [lia|].
              destruct (Nat.eq_dec j k) as [->|]; [congruence|].
              destruct (G j _ ltac:(lia) Hb2) as [X _]. unfold cpp_space in X. cbn in X. intuition discriminate.
           ++ intros i Hi B. destruct (Nat.lt_ge_cases i n) as [Hin|Hin]; [apply HB; [lia|exact B]|].
              destruct (Nat.eq_dec i n) as [->|]; [contradiction|].
              exists n. split; [lia|]. split; [exact Hb|]. intros a c0 Ha. apply G. lia.
Qed.

Lemma line_end_unique s n m : logical_line_end s n -> logical_line_end s m -> n = m.
Proof.
  assert (A : forall n m, logical_line_end s n -> logical_line_end s m -> ~ n < m).
  { intros a b (H1 & H2 & H3) (G1 & G2 & G3) L. destruct H2 as [H2|[H2 H4]]; [lia|]. apply H4, G3; [lia|exact H2]. }
  intros H G. pose proof (A n m H G). pose proof (A m n G H). lia.
Qed.

Theorem C64_line_comment : forall s, exists n, cpp_match_line_comment s = Ok n
  /\ (n = 0 <-> ~ begins s (bs "//"))
  /\ (begins s (bs "//") -> forall m, logical_line_end s m <-> m = n).
Proof.
  intros s. unfold cpp_match_line_comment. pose proof (begins_iff s (bs "//")) as B.
  destruct (starts_with s (bs "//")) eqn:E; cbn [negb].
  - assert (L : 2 <= length s) by (apply starts_with_len in E; exact E).
    assert (H0 : nth_error s 0 = Some 47%N /\ nth_error s 1 = Some 47%N).
    { apply starts_with_app in E as [t ->]. split; reflexivity. }
    destruct (line_loop_spec s (length s) 2) as (m & E1 & E2); [lia|lia| | |].
    + intros j Hj. destruct (newline_escape_spec s j) as [[-> _]|(k & _ & _ & Hb & _)]; [lia|].
      destruct j as [|[|j]]; [| |lia]; destruct H0; congruence.
    + intros; lia.
    + exists m. split; [exact E1|]. split.
      * split; [destruct E2; lia|]. intros H. exfalso. apply H, B. reflexivity.
      * intros _ k. split; [intros H; eapply line_end_unique; eassumption|intros ->; exact E2].
  - exists 0. split; [reflexivity|]. split.
    + split; [|reflexivity]. intros _ H. apply B in H. discriminate.
    + intros H. apply B in H. discriminate.
Qed.
Print Assumptions C64_line_comment.

Theorem C64_block_comment : forall s n,
  (n = en_length (cpp_match_block_comment s) /\ en_terminated (cpp_match_block_comment s) = true)
  <-> exists text rest, s = bs "/*" ++ text ++ bs "*/" ++ rest /\ n = 4 + length text
       /\ forall a b, text <> a ++ bs "*/" ++ b.
Proof.
  intros s n. unfold cpp_match_block_comment. destruct (starts_with s (bs "/*")) eqn:E; cbn [negb].
  - apply starts_with_app in E as [t ->].
    assert (EF : find_str (bs "/*" ++ t) (bs "*/") 2 = option_map (fun i => 2 + i) (find_sub t (bs "*/"))).
    { unfold find_str. cbn [Nat.leb length app bs]. reflexivity. }
    rewrite EF. destruct (find_sub t (bs "*/")) as [i|] eqn:F; cbn [option_map en_length en_terminated].
    + apply P_Parse.find_sub_first in F as (a & b & Et & La & Min). split.
      * intros [-> _]. exists a, b. split; [rewrite Et; reflexivity|]. split; [lia|]. intros x y X.
        assert (i <= length x).
        { apply (Min x (y ++ bs "*/" ++ b)). rewrite Et, X, <- !app_assoc. reflexivity. }
        subst i. rewrite X, app_length in H. change (bs "*/" ++ y) with (42 :: 47 :: y)%N in H. cbn [length] in H. lia.
      * intros (x & y & X & -> & NX). split; [|reflexivity]. apply app_inv_head in X. rewrite Et in X.
        assert (L1 : i <= length x) by (apply (Min x y); rewrite Et; exact X).
        destruct (Nat.eq_dec i (length x)) as [->|]; [lia|]. exfalso.
        (* a is shorter than x: the terminator after a lies in x or straddles its end *)
        assert (P : x ++ bs "*/" ++ y = a ++ bs "*/" ++ b) by congruence. clear X.
        assert (L2 : length a < length x) by lia.
        assert (Ex : exists x2, x = a ++ x2 /\ x2 <> []).
        { exists (skipn (length a) x). split.
          - rewrite <- (firstn_skipn (length a) x) at 1. f_equal.
            apply (f_equal (firstn (length a))) in P. rewrite firstn_app_exact in P. rewrite <- P at 2.
            rewrite firstn_app. replace (length a - length x) with 0 by lia. rewrite firstn_O, app_nil_r. reflexivity.
          - intros Z. apply (f_equal (@length N)) in Z. rewrite skipn_length in Z. cbn in Z. lia. }
        destruct Ex as (x2 & -> & Nx2). rewrite <- !app_assoc in P. apply app_inv_head in P.
        destruct x2 as [|c1 [|c2 x2]]; [congruence| |].
        -- cbn in P. injection P as -> P. discriminate.
        -- change (bs "*/" ++ b) with (42 :: 47 :: b)%N in P. cbn [app] in P. injection P as -> -> _.
           apply (NX a x2). reflexivity.
    + split; [intros [_ H]; discriminate|]. intros (x & y & X & _ & _). apply app_inv_head in X. subst t.
      exfalso. eapply P_Parse.find_sub_none; [exact F|reflexivity].
  - cbn [en_length en_terminated]. split; [intros [_ H]; discriminate|]. intros (x & y & -> & _). cbn in E. discriminate.
Qed.
Print Assumptions C64_block_comment.
Example C64_case : cpp_match_line_comment (bs "//a\" ++ [32; 13; 10]%N ++ bs "b" ++ [13; 10]%N ++ bs "c") = Ok 8
  /\ cpp_match_block_comment (bs "/***/x*/") = mk_enclosed 5 true.
Proof. vm_compute. auto. Qed.

(** ** C65: identifiers *)
Lemma start_iff c : is_identifier_start_likely_ascii c = true <-> id_start c.
Proof.
  destruct (C23_xid c) as (H1 & _ & H3 & _). unfold is_identifier_start_likely_ascii, id_start, is_cpp_identifier_start, is_cpp_ascii_identifier_start.
  assert (E : (if is_ascii c then is_ascii_xid_start c || (c =? 95)%N else (c =? 95)%N || is_xid_start c) = ((c =? 95)%N || is_xid_start c)).
  { destruct (is_ascii c) eqn:Ea; [|reflexivity]. unfold is_ascii in Ea. apply N.leb_le in Ea. destruct (H3 ltac:(lia)) as [-> _]. apply orb_comm. }
  rewrite E, orb_true_iff, N.eqb_eq. tauto.
Qed.
Lemma continue_iff c : is_identifier_continue_likely_ascii c = true <-> id_continue c.
Proof.
  destruct (C23_xid c) as (_ & H2 & H3 & _). unfold is_identifier_continue_likely_ascii, id_continue, is_cpp_identifier_continue, is_cpp_ascii_identifier_continue.
  destruct (is_ascii c) eqn:Ea.
  - unfold is_ascii in Ea. apply N.leb_le in Ea. destruct (H3 ltac:(lia)) as [_ <-]. rewrite <- H2.
    split; [tauto|]. intros [->|H]; [vm_compute; reflexivity|exact H].
  - rewrite orb_true_iff, N.eqb_eq. tauto.
Qed.

Definition enc (cs : list N) : str := concat (map utf8_encoding cs).

Lemma identifier_loop_spec cs : Forall scalar_value cs -> (Z.of_nat (length (enc cs)) < 2147483648)%Z ->
  forall fuel len, length (enc cs) <= fuel ->
  exists ids rest, cs = ids ++ rest /\ Forall id_continue ids /\ (rest = [] \/ exists c r, rest = c :: r /\ ~ id_continue c)
    /\ identifier_loop fuel (enc cs) len = Ok (len + length (enc ids)).
Proof.
  induction cs as [|c cs IH]; intros F L fuel len Hf.
  - exists [], []. repeat split; auto. destruct fuel; cbn; f_equal; lia.
  - inversion F as [|x l F1 F2]; subst. unfold enc in *. cbn [map concat] in *. pose proof (encoding_nonempty c) as [N1 _].
    rewrite app_length in Hf. destruct fuel as [|fuel]; [lia|].
    destruct (utf8_encoding c ++ concat (map utf8_encoding cs)) as [|b t] eqn:E.
    { apply app_eq_nil in E as [E _]. rewrite E in N1. cbn in N1. lia. }
    cbn [identifier_loop]. rewrite <- E in *. clear E b t. rewrite repl_encoding; [|exact F1|apply concat_bytes; exact F2|exact L]. cbn [bind].
    pose proof (continue_iff c) as CI. destruct (is_identifier_continue_likely_ascii c); cbn [negb].
    + rewrite remove_prefix_ok by (rewrite app_length; lia). cbn [bind]. rewrite skipn_app_exact.
      destruct (IH F2 ltac:(rewrite app_length in L; lia) fuel (len + length (utf8_encoding c)) ltac:(lia)) as (ids & rest & -> & A & B & C).
      exists (c :: ids), rest. split; [reflexivity|]. split; [constructor; [apply CI; reflexivity|exact A]|]. split; [exact B|].
      rewrite C. cbn [map concat]. rewrite app_length. f_equal. lia.
    + exists [], (c :: cs). split; [reflexivity|]. split; [constructor|]. split.
      * right. exists c, cs. split; [reflexivity|]. intros H. apply CI in H. discriminate.
      * cbn. f_equal. lia.
Qed.

(** The identifier found in a UTF-8 text (up to 2 GiB) is the longest one. *)
Theorem C65_identifier : forall cs, Forall scalar_value cs ->
  (Z.of_nat (length (concat (map utf8_encoding cs))) < 2 ^ 31)%Z ->
  exists ids, identifier_at cs ids
    /\ cpp_match_identifier (concat (map utf8_encoding cs)) = Ok (length (concat (map utf8_encoding ids))).
Proof.
  intros cs F L. change (2 ^ 31)%Z with 2147483648%Z in L. fold (enc cs) in *.
  destruct cs as [|c cs].
  { exists []. split; [|reflexivity]. exists []. split; [reflexivity|]. split; [auto|]. intros [|x i] r E (c & t & X & _); discriminate. }
  inversion F as [|x l F1 F2]; subst. unfold enc in *. cbn [map concat] in *. pose proof (encoding_nonempty c) as [N1 _].
  destruct (utf8_encoding c ++ concat (map utf8_encoding cs)) as [|b t] eqn:E.
  { apply app_eq_nil in E as [E _]. rewrite E in N1. cbn in N1. lia. }
  unfold cpp_match_identifier. rewrite <- E in *. clear E b t. rewrite repl_encoding; [|exact F1|apply concat_bytes; exact F2|exact L]. cbn [bind].
  pose proof (start_iff c) as CI. destruct (is_identifier_start_likely_ascii c); cbn [negb].
  - rewrite remove_prefix_ok by (rewrite app_length; lia). cbn [bind]. rewrite skipn_app_exact.
    destruct (identifier_loop_spec cs F2 ltac:(unfold enc; rewrite app_length in L; lia) (length (utf8_encoding c ++ concat (map utf8_encoding cs)))
      (length (utf8_encoding c)) ltac:(unfold enc; rewrite app_length; lia)) as (ids & rest & -> & A & B & C).
    exists (c :: ids). split.
    + exists rest. split; [reflexivity|]. split; [right; exists c, ids; repeat split; [apply CI; reflexivity|exact A]|].
      intros ids' rest' E' (c2 & r2 & -> & S2 & A2). cbn [app] in E'. injection E' as -> E'. cbn [length].
      destruct (Nat.le_gt_cases (length r2) (length ids)) as [|G]; [lia|]. exfalso.
      destruct B as [->|(d & r & -> & Nd)].
      * apply (f_equal (@length N)) in E'. rewrite !app_length in E'. cbn in E'. lia.
      * assert (D : nth_error (ids ++ d :: r) (length ids) = Some d) by (rewrite nth_error_app2 by lia; rewrite Nat.sub_diag; reflexivity).
        rewrite E', nth_error_app1 in D by exact G. apply nth_error_In in D. rewrite Forall_forall in A2. auto.
    + unfold enc in C. rewrite C. cbn [map concat]. rewrite app_length. reflexivity.
  - exists []. split; [|reflexivity]. exists (c :: cs). split; [reflexivity|]. split; [auto|].
    intros ids' rest' E' (c2 & r2 & -> & S2 & A2). cbn [app] in E'. injection E' as -> E'. apply CI in S2. discriminate.
Qed.
Print Assumptions C65_identifier.
Example C65_case : cpp_match_identifier (concat (map utf8_encoding [0x61; 0x4E2D; 0x300; 0x20]%N)) = Ok 6.
Proof. vm_compute. reflexivity. Qed.

(** ** C66: raw strings *)
Lemma d_char_iff c : is_cpp_d_char c = true <-> d_char c.
Proof.
  unfold is_cpp_d_char, d_char, is_ascii, is_cpp_whitespace. change (bs "()\") with [40; 41; 92]%N.
  rewrite !andb_true_iff, !negb_true_iff, <- !not_true_iff_false, !mem_In, N.leb_le. cbn [In].
  assert (c <= 127 <-> c < 128)%N by lia. tauto.
Qed.

Lemma ident_R t : cpp_match_identifier (82 :: 34 :: t)%N = Ok 1.
Proof.
  unfold cpp_match_identifier. rewrite repl_ascii by lia. cbn [bind].
  change (is_identifier_start_likely_ascii 82) with true. cbn [negb].
  rewrite remove_prefix_ok by (cbn; lia). cbn [bind skipn length identifier_loop]. rewrite repl_ascii by lia. reflexivity.
Qed.

Lemma raw_match_iff d s : match_raw_terminator d s = true <-> exists b, s = raw_end d ++ b.
Proof.
  unfold match_raw_terminator, raw_end. split.
  - intros H. apply andb_true_iff in H as [H H3]. apply andb_true_iff in H as [H1 H2].
    destruct s as [|c s]; [discriminate|]. apply N.eqb_eq in H1. subst c. cbn [skipn Nat.add] in *.
    apply starts_with_app in H2 as [t ->]. rewrite skipn_app_exact in H3. destruct t as [|c t]; [discriminate|].
    apply N.eqb_eq in H3. subst c. exists t. rewrite <- !app_assoc. reflexivity.
  - intros [b ->]. change ((bs ")" ++ d ++ [34]%N) ++ b) with (41%N :: (d ++ [34]%N) ++ b). rewrite <- app_assoc. cbn [skipn Nat.add].
    change (starts_with_ch (41%N :: d ++ [34]%N ++ b) (ch ")")) with true. rewrite skipn_app_exact.
    replace (starts_with (d ++ [34]%N ++ b) d) with true by (symmetry; apply starts_with_app; eauto). reflexivity.
Qed.

Lemma find_raw_body d body : raw_body d body -> find_raw_terminator d (body ++ raw_end d) = Some (length body).
Proof.
  unfold raw_body. induction body as [|c body IH]; intros H.
  - cbn [app length]. assert (E : match_raw_terminator d (raw_end d) = true) by (apply raw_match_iff; exists []; rewrite app_nil_r; reflexivity).
    destruct (raw_end d) eqn:X; [discriminate X|]. cbn [find_raw_terminator]. rewrite E. reflexivity.
  - cbn [app find_raw_terminator]. destruct (match_raw_terminator d (c :: body ++ raw_end d)) eqn:E.
    + exfalso. apply raw_match_iff in E as [b E]. specialize (H [] b E). subst b. apply (f_equal (@length N)) in E.
      cbn [length] in E. rewrite !app_length in E. cbn in E. lia.
    + rewrite IH; [reflexivity|]. intros a b X. apply (H (c :: a) b). cbn [app]. f_equal. exact X.
Qed.

Lemma bind_ok {S A B} (m : M S A) (k : A -> M S B) st a st' : m st = Ok (a, st') -> bindM m k st = k a st'.
Proof. intros H. unfold bindM. rewrite H. reflexivity. Qed.
Lemma emit_adv_ok n ty st : n <> 0 -> cpp_emit_and_advance n ty st =
  Ok (tt, mk_hst (skipn n (rem st)) (idx st + n) (OEmit (idx st) n ty false :: rops st) (loc st)).
Proof.
  intros H. unfold cpp_emit_and_advance, bindM, get_idx, cpp_emit, cpp_advance. apply Nat.eqb_neq in H. rewrite H. reflexivity.
Qed.
Lemma remainder_ok st : idx st <= cl_size (loc st) -> cpp_remainder st = Ok (rem st, st).
Proof. intros H. unfold cpp_remainder. apply Nat.leb_le in H. rewrite H. reflexivity. Qed.

Section Raw.
Context (is_cpp strict : bool) (d body : str) (Hd : Forall d_char d) (Hb : raw_body d body).
Let tail := body ++ raw_end d.
Let lit : str := (34 :: d ++ 40 :: tail)%N.
Let src : str := (82 :: lit)%N.
Definition raw_ops : list out_op :=
  [OEmit 0 1 hl_string_decor false; OEmit 1 (length d + 2) hl_string_delim false]
  ++ (if length body =? 0 then [] else [OEmit (length d + 3) (length body) hl_string false])
  ++ [OEmit (length d + 3 + length body) (length d + 2) hl_string_delim false].

Lemma lit_len : length lit = length d + 2 + (length body + (length d + 2)).
Proof. subst lit tail. cbn [length]. rewrite !app_length. cbn [length]. rewrite !app_length. cbn [length]. unfold raw_end. rewrite !app_length. cbn [length bs]. change (length (bs ")")) with 1. lia. Qed.

Lemma suffix_nil st : rem st = [] -> idx st <= cl_size (loc st) -> cpp_consume_string_suffix is_cpp strict st = Ok (tt, st).
Proof.
  intros H L. unfold cpp_consume_string_suffix. erewrite bind_ok; [reflexivity|].
  unfold cpp_expect_identifier_or_keyword. erewrite bind_ok by (apply remainder_ok; exact L). rewrite H.
  erewrite bind_ok by reflexivity. reflexivity.
Qed.

Lemma raw_consume st : rem st = lit -> idx st = 1 -> rops st = [OEmit 0 1 hl_string_decor false] -> cl_size (loc st) = length src ->
  exists l, cpp_consume_raw_string_and_suffix is_cpp strict st = Ok (tt, mk_hst [] (length src) (rev raw_ops) l).
Proof.
  intros H1 H2 H3 H4. pose proof lit_len as LL. assert (LS : length src = 1 + length lit) by reflexivity.
  unfold cpp_consume_raw_string_and_suffix.
  erewrite bind_ok by (apply remainder_ok; rewrite H2, H4, LS; lia). rewrite H1.
  erewrite bind_ok by reflexivity. erewrite bind_ok by reflexivity. cbv zeta.
  change (skipn 1 lit) with (d ++ 40%N :: tail).
  assert (EN : length_if (d ++ 40%N :: tail) is_cpp_d_char = length d).
  { rewrite length_if_eq, prefix_len_app_all; [cbn; lia|].
    apply Forall_forall. intros c Hc. apply d_char_iff. rewrite Forall_forall in Hd. auto. }
  rewrite EN. assert (ED : substr lit 1 (length d) = d) by (unfold substr; apply firstn_app_exact). rewrite ED.
  assert (EL : (length lit <=? length d + 1) = false) by (apply Nat.leb_gt; lia). rewrite EL.
  assert (EA : nth_error lit (length d + 1) = Some 40%N).
  { rewrite Nat.add_comm. change (nth_error lit (1 + length d)) with (nth_error (d ++ 40%N :: tail) (length d)).
    rewrite nth_error_app2, Nat.sub_diag by lia. reflexivity. }
  set (st1 := {| rem := rem st; idx := _; rops := _; loc := _ |}).
  erewrite bind_ok by (unfold at_; rewrite EA; reflexivity). change (negb (40 =? ch "(")%N) with false. cbv iota.
  assert (ER : skipn (length d + 2) lit = tail).
  { replace (length d + 2) with (1 + (length d + 1)) by lia. rewrite <- skipn_skipn. change (skipn 1 lit) with (d ++ 40%N :: tail).
    rewrite <- skipn_skipn, skipn_app_exact. reflexivity. }
  erewrite bind_ok by (unfold lift; rewrite remove_prefix_ok by lia; rewrite ER; reflexivity).
  erewrite bind_ok by (apply emit_adv_ok; lia). subst st1. cbn [rem idx rops loc]. rewrite H1, H2, H3, ER.
  unfold tail at 1. rewrite find_raw_body by exact Hb.
  assert (EB : skipn (length body) tail = raw_end d) by (unfold tail; apply skipn_app_exact).
  assert (EE : skipn (length d + 2) (raw_end d) = []).
  { apply skipn_all2. unfold raw_end. rewrite !app_length. cbn. lia. }
  unfold raw_ops, when. destruct (Nat.eqb_spec (length body) 0) as [Z|Z]; cbn [negb].
  - rewrite Z in *. erewrite bind_ok by reflexivity. erewrite bind_ok by (apply emit_adv_ok; lia). cbn [rem idx rops loc].
    cbn [skipn] in EB. rewrite EB, EE. eexists. rewrite suffix_nil.
    + f_equal. f_equal. f_equal; [rewrite LS; lia|]. cbn [rev app]. replace (1 + (length d + 2)) with (length d + 3 + 0) by lia. reflexivity.
    + reflexivity.
    + cbn [idx loc cl_size]. rewrite H4, LS. lia.
  - erewrite bind_ok by (apply emit_adv_ok; lia). erewrite bind_ok by (apply emit_adv_ok; lia). cbn [rem idx rops loc].
    rewrite EB, EE. eexists. rewrite suffix_nil.
    + f_equal. f_equal. f_equal; [rewrite LS; lia|]. cbn [rev app]. replace (1 + (length d + 2)) with (length d + 3) by lia. reflexivity.
    + reflexivity.
    + cbn [idx loc cl_size]. rewrite H4, LS. lia.
Qed.

Lemma raw_highlight : highlight_c_or_cpp is_cpp src strict = Ok (true, raw_ops).
Proof.
  assert (LS : length src = 1 + length lit) by reflexivity.
  unfold highlight_c_or_cpp, run. set (st0 := mk_hst src 0 [] (mk_cpp_loc true (length src))).
  assert (W : exists l, cpp_body is_cpp strict st0 = Ok (tt, mk_hst [] (length src) (rev raw_ops) l)).
  { assert (R0 : cpp_remainder st0 = Ok (src, st0)) by reflexivity.
    assert (OR : forall (m k : M cpp_loc bool), m st0 = Ok (false, st0) -> or_else m k st0 = k st0).
    { intros m k H. unfold or_else. erewrite bind_ok by exact H. reflexivity. }
    assert (RC : exists l, cpp_expect_string_literal is_cpp strict st0 = Ok (true, mk_hst [] (length src) (rev raw_ops) l)).
    { unfold cpp_expect_string_literal. erewrite bind_ok by exact R0.
      erewrite bind_ok by (unfold lift; unfold src, lit; rewrite ident_R; reflexivity).
      change (starts_with_ch (skipn 1 src) 34) with true. cbn [negb]. cbv iota zeta.
      erewrite bind_ok by (unfold when; cbn [Nat.eqb negb]; apply emit_adv_ok; lia).
      erewrite bind_ok by reflexivity. erewrite bind_ok by reflexivity.
      change (negb (1 =? 0) && ends_with (firstn 1 src) (bs "R")) with true. cbv iota.
      destruct (raw_consume (mk_hst (skipn 1 (rem st0)) (idx st0 + 1) (OEmit (idx st0) 1 hl_string_decor false :: rops st0) (loc st0))) as [l E];
        [reflexivity|reflexivity|reflexivity|reflexivity|].
      exists l. erewrite bind_ok by exact E. reflexivity. }
    destruct RC as [l RC]. exists l. unfold cpp_body.
    rewrite (bind_ok _ _ _ true (mk_hst [] (length src) (rev raw_ops) l)); [reflexivity|].
    rewrite OR by (unfold cpp_expect_whitespace; erewrite bind_ok by exact R0; reflexivity).
    rewrite OR by (unfold cpp_expect_line_comment; erewrite bind_ok by exact R0; reflexivity).
    rewrite OR by (unfold cpp_expect_block_comment; erewrite bind_ok by exact R0; reflexivity).
    rewrite OR by (unfold cpp_expect_directive; erewrite bind_ok by reflexivity; change (negb (cl_fresh_line (loc st0))) with false; cbv iota;
      erewrite bind_ok by exact R0; reflexivity).
    unfold or_else at 1. erewrite bind_ok by exact RC. reflexivity. }
  destruct W as [l W].
  rewrite (bind_ok _ _ _ tt (mk_hst [] (length src) (rev raw_ops) l)); [cbn [ret rops]; rewrite rev_involutive; reflexivity|].
  unfold while_rem, hloop. change (rem st0) with src. rewrite LS. replace (1 * (1 + length lit) + 1) with (S (S (length lit))) by lia.
  cbn [iter]. rewrite (bind_ok _ _ _ (inl tt) (mk_hst [] (length src) (rev raw_ops) l)).
  - reflexivity.
  - rewrite (bind_ok eof _ _ false st0) by reflexivity. cbv iota.
    rewrite (bind_ok _ _ _ tt (mk_hst [] (length src) (rev raw_ops) l)) by exact W. reflexivity.
Qed.
End Raw.

(** A raw string literal: its prefix, delimiters and contents get one token each, whatever the
    contents. *)
Theorem C66_raw_string : forall is_cpp strict d body, Forall d_char d -> raw_body d body ->
  highlight_c_or_cpp is_cpp (bs "R" ++ [34%N] ++ d ++ bs "(" ++ body ++ raw_end d) strict
  = Ok (true, [OEmit 0 1 hl_string_decor false; OEmit 1 (length d + 2) hl_string_delim false]
        ++ (if length body =? 0 then [] else [OEmit (length d + 3) (length body) hl_string false])
        ++ [OEmit (length d + 3 + length body) (length d + 2) hl_string_delim false]).
Proof. intros is_cpp strict d body H1 H2. exact (raw_highlight is_cpp strict d body H1 H2). Qed.
Print Assumptions C66_raw_string.
Example C66_case : Forall d_char (bs "ab") /\ raw_body (bs "ab") (bs ")a//" ++ [34; 0xC3]%N).
Proof.
  split; [repeat constructor; try (cbn; intuition discriminate)|].
  intros a b E. do 7 (destruct a as [|? a]; [vm_compute in E; try discriminate; injection E as <-; reflexivity|cbn [app] in E; injection E as _ E]).
  exfalso. apply (f_equal (@length N)) in E. rewrite !app_length in E. cbn in E. lia.
Qed.

