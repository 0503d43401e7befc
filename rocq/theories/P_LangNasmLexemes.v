(** * The NASM highlighter: exact tokens *)
From Coq Require Import List NArith ZArith Bool Arith Lia.
From Verif Require Import M_Base L_Base S_Tokens M_Emit S_Ops L_Emit M_Types M_Chars S_Chars P_Chars M_Parse S_Parse L_Parse P_Parse M_Lang L_Lang
  M_Api M_Highlighter S_Highlight L_Highlighter P_LangCpp L_Auto S_Lexemes L_Lexemes L_Number L_Number2 L_Symbols L_Escapes L_Scan L_Comments S_States L_States M_LangNasm S_LangNasm P_LangNasm.
Import ListNotations.

(** ** Search in the tables *)
Lemma nasm_less_eq x : forall y, nasm_less x y = str_ltb (map lower x) (map lower y).
Proof.
  unfold nasm_less. induction x as [|a x IH]; intros [|b y]; cbn [compare_to_lower map str_ltb]; try reflexivity.
  rewrite !to_lower_eq. destruct (N.eqb_spec (lower a) (lower b)) as [E|E]; cbn [negb].
  - rewrite E, N.ltb_irrefl. cbn [orb andb]. apply IH.
  - cbn [andb]. rewrite orb_false_r. unfold N.ltb. destruct (lower a ?= lower b)%N; reflexivity.
Qed.
Fixpoint weakly_sorted (l : list str) : bool :=
  match l with
  | [] => true
  | a :: t => match t with [] => true | b :: _ => negb (str_ltb b a) end && weakly_sorted t
  end.
Lemma weakly_sorted_head l : forall a, weakly_sorted (a :: l) = true -> forall b, In b l -> str_ltb b a = false.
Proof.
  induction l as [|b l IH]; intros a H x Hx; [destruct Hx|]. cbn [weakly_sorted] in H. apply andb_true_iff in H as [H1 H2]. rewrite negb_true_iff in H1. destruct Hx as [<-|Hx]; [exact H1|].
  specialize (IH b H2 x Hx). destruct (str_ltb x a) eqn:E; [|reflexivity]. exfalso. destruct (str_ltb_total b x) as [K|[K|K]]; [|subst; congruence|congruence]. rewrite (str_ltb_trans b x a) in H1 by assumption. discriminate.
Qed.
Lemma weakly_sorted_nth l : forall i j x y, weakly_sorted l = true -> i <= j -> nth_error l i = Some x -> nth_error l j = Some y -> str_ltb y x = false.
Proof.
  induction l as [|a l IH]; intros i j x y Hs Hij Hx Hy; [destruct i; discriminate|]. destruct i as [|i].
  - injection Hx as ->. destruct j as [|j]; [injection Hy as ->; apply str_ltb_irrefl|]. apply (weakly_sorted_head l x Hs). eapply nth_error_In. exact Hy.
  - destruct j as [|j]; [lia|]. cbn [nth_error] in *. apply (IH i j); auto; try lia. cbn [weakly_sorted] in Hs. apply andb_true_iff in Hs. tauto.
Qed.
Definition lower_sorted (l : list str) : bool := forallb (fun x => str_eqb (map lower x) x) l && weakly_sorted l.
Lemma nasm_search_iff l name : lower_sorted l = true -> (nasm_search l name = true <-> In (map lower name) l).
Proof.
  unfold lower_sorted. intros H. apply andb_true_iff in H as [Hl Hs]. rewrite forallb_forall in Hl.
  assert (Hn : forall i x, nth_error l i = Some x -> map lower x = x) by (intros i x Hx; apply str_eqb_eq, Hl; eapply nth_error_In; exact Hx).
  assert (P : partitioned (fun x => nasm_less x name) l).
  { intros i j x y Hij Hx Hy. rewrite !nasm_less_eq, (Hn _ _ Hx), (Hn _ _ Hy). intros K. pose proof (weakly_sorted_nth l i j x y Hs Hij Hx Hy) as W.
    destruct (str_ltb_total x y) as [T|[T|T]]; [eapply str_ltb_trans; eassumption|subst; exact K|congruence]. }
  destruct (lower_bound_spec _ _ P) as (Hb & Hlo & Hhi). unfold nasm_search. set (r := lower_bound _ l) in *. split.
  - destruct (nth_error l r) as [x|] eqn:E; [|discriminate]. intros K. rewrite negb_true_iff, nasm_less_eq, (Hn _ _ E) in K. pose proof (Hhi r x (le_n _) E) as K2. rewrite nasm_less_eq, (Hn _ _ E) in K2.
    destruct (str_ltb_total x (map lower name)) as [T|[T|T]]; try congruence. rewrite <- T. eapply nth_error_In. exact E.
  - intros Hi. apply In_nth_error in Hi as (k & Hk). assert (Hr : r <= k).
    { destruct (Nat.le_gt_cases r k) as [|L]; [assumption|]. pose proof (Hlo k _ L Hk) as K. cbn beta in K. rewrite nasm_less_eq, (Hn _ _ Hk), str_ltb_irrefl in K. discriminate. }
    destruct (nth_error l r) as [x|] eqn:E; [|apply nth_error_None in E; assert (k < length l) by (apply (proj1 (nth_error_Some l k)); intros Z; pose proof (eq_trans (eq_sym Hk) Z); discriminate); lia].
    rewrite negb_true_iff, nasm_less_eq, (Hn _ _ E). exact (weakly_sorted_nth l r k x _ Hs Hr E Hk).
Qed.
Lemma nasm_tables_sorted : forallb lower_sorted [nasm_pseudo; nasm_types; nasm_operators; nasm_registers; nasm_label_instructions] = true.
Proof. vm_compute. reflexivity. Qed.
Definition included (a b : list str) : bool := forallb (fun x => existsb (str_eqb x) b) a.
Lemma included_In a b x : included a b = true -> In x a -> In x b.
Proof. unfold included. rewrite forallb_forall. intros H Hx. specialize (H x Hx). apply existsb_exists in H as (y & Hy & E). apply str_eqb_eq in E. subst. exact Hy. Qed.
Lemma search_hit tbl l w : lower_sorted tbl = true -> included l tbl = true -> one_of l w -> nasm_search tbl w = true.
Proof. intros H1 H2 H3. apply nasm_search_iff; [exact H1|]. eapply included_In; eassumption. Qed.
Lemma search_miss tbl l w : lower_sorted tbl = true -> included tbl l = true -> ~ one_of l w -> nasm_search tbl w = false.
Proof. intros H1 H2 H3. destruct (nasm_search tbl w) eqn:E; [|reflexivity]. apply nasm_search_iff in E; [|exact H1]. elim H3. eapply included_In; eassumption. Qed.

(** ** Numbers with suffix *)
Lemma run_char c : (95 =? 0)%N || (c =? 95)%N || is_ascii_alphanumeric c = true <-> ident_char c.
Proof.
  unfold is_ascii_alphanumeric, is_ascii_digit, is_ascii_alpha, is_ascii_upper_alpha, is_ascii_lower_alpha, between, ident_char, letter, digit. rewrite !orb_true_iff, !andb_true_iff, !N.leb_le, !N.eqb_eq. lia.
Qed.
Lemma nasm_suffix_eq a x rest : Forall ident_char (a ++ [x]) -> not_before ident_char rest ->
  match_suffix_number ((a ++ [x]) ++ rest) nasm_determine_suffix 95 =
  match a with
  | [] => no_suffix_number
  | c :: _ => if (nasm_base_of_suffix x <=? 0)%Z then no_suffix_number else
    let bad := suffix_digits_bad a None 95 (nasm_base_of_suffix x) in
    if bad && negb (is_ascii_digit c) then no_suffix_number else mk_suffix_number (length a) 1 (nasm_base_of_suffix x) bad
  end.
Proof.
  intros F R. unfold match_suffix_number. rewrite length_if_eq, prefix_len_exact.
  2:{ eapply Forall_impl; [|exact F]. intros c. apply run_char. }
  2:{ eapply not_before_impl; [|exact R]. intros c. apply run_char. }
  rewrite firstn_app_exact. cbv zeta. unfold nasm_determine_suffix. rewrite rev_app_distr. cbn [rev app]. rewrite app_length. cbn [length].
  destruct a as [|c a]; [reflexivity|]. replace (length (c :: a) + 1 <=? 1) with false by (symmetry; apply Nat.leb_gt; cbn; lia).
  destruct (nasm_base_of_suffix x <=? 0)%Z; [reflexivity|]. replace ((1 =? 0) || (length (c :: a) + 1 =? 1)) with false by (symmetry; apply orb_false_iff; split; [reflexivity|]; apply Nat.eqb_neq; cbn; lia).
  replace (length (c :: a) + 1 - 1) with (length (c :: a)) by lia. rewrite firstn_app_exact. cbn [app nth]. reflexivity.
Qed.
Lemma suffix_digits_good base a : forall prev, (base <= 16)%Z -> (2 <= base)%Z -> Forall (fun c => is_ascii_digit_base c base = true) a -> suffix_digits_bad a prev 95 base = false.
Proof.
  induction a as [|c a IH]; intros prev B1 B2 F; [reflexivity|]. apply Forall_cons_iff in F as [F1 F]. cbn [suffix_digits_bad]. cbv zeta.
  assert (K : ((base <=? if between 65 90 c then Z.of_N c - 65 + 10 else if between 97 122 c then Z.of_N c - 97 + 10 else Z.of_N c - 48)%Z = false) /\ (c =? 95)%N = false).
  { unfold is_ascii_digit_base, is_ascii_digit, between in *. destruct (Z.ltb_spec base 10);
      rewrite ?orb_true_iff, ?andb_true_iff, ?N.leb_le, ?Z.ltb_lt in F1; (split; [|apply N.eqb_neq; lia]);
      destruct (N.leb_spec 65 c), (N.leb_spec c 90), (N.leb_spec 97 c), (N.leb_spec c 122); cbn [andb]; apply Z.leb_gt; lia. }
  destruct K as [-> ->]. rewrite andb_false_r. apply IH; assumption.
Qed.
Lemma suffix_digits_hex a : forall prev, Forall ident_char a -> suffix_digits_bad a prev 95 16 = false -> Forall hex_digit a.
Proof.
  induction a as [|c a IH]; intros prev F H; [constructor|]. apply Forall_cons_iff in F as [F1 F]. cbn [suffix_digits_bad] in H. cbv zeta in H. destruct (_ <=? _)%Z eqn:E in H; [discriminate|]. destruct (_ && _) in H; [discriminate|].
  constructor; [|eapply IH; eassumption]. unfold ident_char, letter, digit, hex_digit, between in *. apply Z.leb_gt in E.
  destruct (N.leb_spec 65 c), (N.leb_spec c 90), (N.leb_spec 97 c), (N.leb_spec c 122); cbn [andb] in E; lia.
Qed.
Lemma suffix_digits_letter c a prev base : letter c \/ c = 95%N -> (base <= 10)%Z -> suffix_digits_bad (c :: a) prev 95 base = true.
Proof.
  intros L B. cbn [suffix_digits_bad]. cbv zeta. destruct (_ <=? _)%Z eqn:E; [reflexivity|]. exfalso. apply Z.leb_gt in E. unfold letter, between in *.
  destruct (N.leb_spec 65 c), (N.leb_spec c 90), (N.leb_spec 97 c), (N.leb_spec c 122); cbn [andb] in E; lia.
Qed.
Lemma base_of_suffix_cases x : (nasm_base_of_suffix x = 16%Z /\ In x (bs "hHxX")) \/ (nasm_base_of_suffix x <= 10)%Z.
Proof.
  unfold nasm_base_of_suffix. destruct (mem x (bs "bByY")); [lia|]. destruct (mem x (bs "qQoO")); [lia|]. destruct (mem x (bs "dDtT")); [lia|]. destruct (mem x (bs "hHxX")) eqn:E; [|lia]. left. split; [reflexivity|]. apply mem_In. exact E.
Qed.
Lemma split_run w : exists r v, w = r ++ v /\ Forall ident_char r /\ not_before ident_char v.
Proof.
  induction w as [|c w (r & v & -> & F & R)]; [exists [], []; repeat split; [constructor|apply not_before_nil]|].
  destruct (M_LangCpp.is_cpp_ascii_identifier_continue c) eqn:E.
  - exists (c :: r), v. split; [reflexivity|]. split; [constructor; [apply ident_char_iff; exact E|exact F]|exact R].
  - exists [], (c :: r ++ v). split; [reflexivity|]. split; [constructor|]. apply not_before_cons. rewrite <- ident_char_iff. congruence.
Qed.
(** A name that does not look like a number *)
Lemma nasm_suffix_name w rest : not_before digit w -> ~ nasm_number_like w -> not_before ident_char rest -> sn_digits (match_suffix_number (w ++ rest) nasm_determine_suffix 95) = 0.
Proof.
  intros H1 H2 R. destruct (split_run w) as (r & v & -> & F & Rv). destruct r as [|c r] using rev_ind.
  - cbn [app]. unfold match_suffix_number. replace (length_if (v ++ rest) _) with 0; [reflexivity|]. rewrite length_if_eq. symmetry. apply (prefix_len_exact _ []); [constructor|].
    destruct v as [|c v]; cbn [app]; [|apply not_before_cons; rewrite run_char; apply Rv; reflexivity]. eapply not_before_impl; [|exact R]. intros c. apply run_char.
  - clear IHr. rewrite <- app_assoc with (n := rest). rewrite nasm_suffix_eq; [|exact F|].
    2:{ destruct v as [|d v]; [exact R|]. apply not_before_cons. apply Rv. reflexivity. }
    destruct r as [|d r]; [reflexivity|]. destruct (_ <=? 0)%Z; [reflexivity|]. cbv zeta. apply Forall_app in F as [F _].
    assert (Nd : ~ digit d) by (apply H1; reflexivity). replace (is_ascii_digit d) with false by (symmetry; destruct (is_ascii_digit d) eqn:E; [apply digit_iff in E; contradiction|reflexivity]).
    destruct (suffix_digits_bad _ _ _ _) eqn:B; [reflexivity|]. exfalso. destruct (base_of_suffix_cases c) as [[Eb Hc]|Hb].
    + apply H2. exists (d :: r), c, v. split; [rewrite <- app_assoc; reflexivity|]. split; [discriminate|]. split; [|auto]. eapply suffix_digits_hex; [exact F|]. rewrite Eb in B. exact B.
    + rewrite suffix_digits_letter in B; [discriminate| |exact Hb]. apply Forall_inv in F. unfold ident_char in F. tauto.
Qed.
(** A name that does *)
Lemma nasm_suffix_hex a x rest : a <> [] -> Forall hex_digit a -> In x (bs "hHxX") -> not_before ident_char rest ->
  match_suffix_number ((a ++ [x]) ++ rest) nasm_determine_suffix 95 = mk_suffix_number (length a) 1 16 false.
Proof.
  intros Ha F Hx R. assert (Eb : nasm_base_of_suffix x = 16%Z /\ letter x) by (cbn in Hx; repeat (destruct Hx as [<-|Hx]; [split; [reflexivity|unfold letter; lia]|]); contradiction). destruct Eb as [Eb Lx].
  rewrite nasm_suffix_eq; [|apply Forall_app; split; [eapply Forall_impl; [|exact F]; unfold hex_digit, ident_char, letter, digit; intros; lia|constructor; [left; exact Lx|constructor]]|exact R].
  rewrite Eb. destruct a as [|c a]; [congruence|]. change (16 <=? 0)%Z with false. cbv iota zeta. rewrite suffix_digits_good; [reflexivity|lia|lia|]. eapply Forall_impl; [|exact F]. intros d. apply digit_16.
Qed.

(** ** Names *)
Definition nasm_does (s : nasm_place) (p : list piece) (rest : str) (s' : nasm_place) : Prop := forall i o,
  wp nasm_consume_anything (fun _ st' => st' = mk_hst rest (i + length (text p)) (rev (tokens i p) ++ o) (nasm_role s')) (mk_hst (text p ++ rest) i o (nasm_role s)).
Ltac nomem c := repeat match goal with |- context [mem c ?l] =>
  let E := fresh in assert (E : mem c l = false) by (apply not_true_is_false; rewrite mem_In; let v := eval vm_compute in l in change l with v; cbn [In]; lia); rewrite E; clear E; cbn [orb] end.
Ltac noeq c := repeat match goal with |- context [(c =? ?k)%N] =>
  let E := fresh in assert (E : (c =? k)%N = false) by (apply N.eqb_neq; let v := eval vm_compute in k in change k with v; lia); rewrite E; clear E end.
Definition name_start (c : N) : Prop := letter c \/ c = 95%N \/ c = 46%N.
Lemma dispatch_name c t i o s Q : name_start c ->
  wp (let! b := nasm_expect_number in if b then ret tt else nasm_consume_identifier) Q (mk_hst (c :: t) i o s) -> wp nasm_consume_anything Q (mk_hst (c :: t) i o s).
Proof.
  intros Hc H. unfold nasm_consume_anything. apply wp_bind, wp_get_rem. cbn [rem]. apply wp_bind. eapply wp_at_is; [reflexivity|]. unfold name_start, letter in Hc. nomem c. noeq c.
  replace (is_ascii_digit c) with false by (symmetry; apply not_true_is_false; rewrite digit_iff; unfold digit; lia).
  replace (nasm_match_operator (c :: t)) with 0 by (symmetry; unfold nasm_match_operator; nomem c; noeq c; reflexivity). cbn [Nat.eqb negb].
  assert (E : is_nasm_identifier_start c = true).
  { unfold is_nasm_identifier_start. apply orb_true_iff. rewrite mem_In. unfold is_ascii_alpha, is_ascii_upper_alpha, is_ascii_lower_alpha, between. rewrite orb_true_iff, !andb_true_iff, !N.leb_le. change (bs "._?$") with [46; 95; 63; 36]%N. cbn [In]. lia. }
  rewrite E. exact H.
Qed.
Lemma number_no c t rest i o s (Q : bool -> hst N -> Prop) : name_start c -> not_before ident_char rest -> ~ nasm_number_like (c :: t) -> (c = 46%N -> not_before digit (t ++ rest)) ->
  Q false (mk_hst (c :: t ++ rest) i o s) -> wp nasm_expect_number Q (mk_hst (c :: t ++ rest) i o s).
Proof.
  intros Hc R HL Dot H. unfold nasm_expect_number. apply wp_bind, wp_get_rem. cbn [rem starts_with_ch]. destruct (c =? 95)%N eqn:E; [apply wp_ret; exact H|]. apply N.eqb_neq in E.
  unfold name_start, letter in Hc. apply wp_bind. unfold nasm_expect_suffixed_number. apply wp_bind, wp_get_rem. cbn [rem]. cbv zeta.
  change (c :: t ++ rest) with ((c :: t) ++ rest) at 1. rewrite nasm_suffix_name; [|apply not_before_cons; unfold digit; lia|exact HL|exact R]. apply wp_ret. cbn iota. unfold nasm_expect_common_number. apply wp_bind, wp_get_rem. cbn [rem].
  apply wp_bind. eapply wp_lift.
  - apply no_number_match; try reflexivity; try discriminate; [| |cbn; lia|lia|exact Dot].
    + intros p Hp. unfold nasm_number_options in Hp. cbn [no_prefixes map fst snd In] in Hp. repeat (destruct Hp as [<-|Hp]; [first [exists 48%N; eexists; split; [reflexivity|lia]|exists 36%N; eexists; split; [reflexivity|lia]]|]). contradiction.
    + apply not_true_is_false. change (no_base nasm_number_options) with 10%Z. rewrite digit_10. unfold digit. lia.
  - apply wp_ret. exact H.
Qed.
Lemma nasm_ident_char c : is_nasm_identifier c = true <-> nasm_follow c.
Proof.
  unfold is_nasm_identifier, nasm_follow, nasm_name_char. rewrite orb_true_iff, mem_In. unfold is_ascii_alphanumeric, is_ascii_digit, is_ascii_alpha, is_ascii_upper_alpha, is_ascii_lower_alpha, between, letter, digit. rewrite !orb_true_iff, !andb_true_iff, !N.leb_le.
  change (bs "_$@-.?") with [95; 36; 64; 45; 46; 63]%N. change (bs "_$@.?") with [95; 36; 64; 46; 63]%N. change (ch "-") with 45%N. cbn [In]. lia.
Qed.
Lemma nasm_ident_exact w rest : nasm_name w -> not_before nasm_follow rest -> nasm_match_identifier (w ++ rest) = length w.
Proof.
  intros (c & t & -> & Hc & Ht & _) R. unfold nasm_match_identifier. cbn [app]. rewrite length_if_head_tail_eq.
  assert (E : is_nasm_identifier_start c = true).
  { unfold is_nasm_identifier_start. apply orb_true_iff. rewrite mem_In. unfold is_ascii_alpha, is_ascii_upper_alpha, is_ascii_lower_alpha, between. rewrite orb_true_iff, !andb_true_iff, !N.leb_le. unfold letter in Hc. change (bs "._?$") with [46; 95; 63; 36]%N. change (bs "_.") with [95; 46]%N in Hc. cbn [In] in *. lia. }
  rewrite E. cbn [length]. rewrite prefix_len_exact; [lia| |].
  - eapply Forall_impl; [|exact Ht]. intros x Hx. apply nasm_ident_char. left. exact Hx.
  - eapply not_before_impl; [|exact R]. intros x. apply nasm_ident_char.
Qed.
(** From the dispatch to the branches of consume_identifier *)
Definition nasm_branches (id r : str) (len : nat) : nm unit :=
  if equals_ignore_case id (bs "seg") || equals_ignore_case id (bs "wrt") then emit_and_advance len hl_keyword_op
  else if (len <? length r) && (nth len r 0 =? ch ":")%N then
    emit_and_advance (len + 1) hl_name_label_decl ;; set_loc hl_name_instruction
  else if starts_with_ch r (ch ".") then emit_and_advance len hl_name_label_decl ;; set_loc hl_name_instruction
  else if nasm_search nasm_types id then emit_and_advance len hl_keyword_type ;; set_loc hl_name_var
  else if nasm_search nasm_operators id then emit_and_advance len hl_keyword_op ;; set_loc hl_name_var
  else if nasm_search nasm_registers id then emit_and_advance len hl_name_var ;; set_loc hl_name_var
  else if nasm_search nasm_label_instructions id then emit_and_advance len hl_name_instruction ;; set_loc hl_name_label
  else if starts_with_ch id (ch "$") then emit_and_advance len hl_name ;; set_loc hl_name_var
  else
    let! h := get_loc in
    emit_and_advance len h ;;
    when (h =? hl_name_instruction)%N (set_loc hl_name_var).
Lemma dispatch_word w rest i o s Q : nasm_name w -> ~ nasm_number_like w -> not_before nasm_follow rest ->
  wp (nasm_branches w (w ++ rest) (length w)) Q (mk_hst (w ++ rest) i o s) -> wp nasm_consume_anything Q (mk_hst (w ++ rest) i o s).
Proof.
  intros Hw HL R H. pose proof (nasm_ident_exact w rest Hw R) as L. destruct Hw as (c & t & -> & Hc & Ht & Dot). cbn [app].
  assert (Hs : name_start c) by (unfold name_start; change (bs "_.") with [95; 46]%N in Hc; cbn [In] in Hc; intuition auto).
  apply dispatch_name; [exact Hs|]. apply wp_bind. apply number_no; [exact Hs| |exact HL| |].
  - eapply not_before_impl; [|exact R]. intros x Hx. left. unfold ident_char, nasm_name_char in *. change (bs "_$@.?") with [95; 36; 64; 46; 63]%N. cbn [In]. intuition auto.
  - intros E. specialize (Dot E). destruct t as [|d t]; [|apply not_before_cons; apply Dot; reflexivity]. eapply not_before_impl; [|exact R]. intros x Hx. left. right. left. exact Hx.
  - cbn iota. unfold nasm_consume_identifier. apply wp_bind, wp_get_rem. cbn [rem]. cbv zeta. cbn [app] in L. rewrite L. cbn [length Nat.eqb negb]. apply wp_bind, wp_check; [reflexivity|].
    change (S (length t)) with (length (c :: t)). change (c :: t ++ rest) with ((c :: t) ++ rest). rewrite firstn_app_exact. exact H.
Qed.
(** Words of the tables *)
Lemma lower_letter c : letter (lower c) <-> letter c.
Proof. unfold lower, letter. destruct (N.leb_spec 65 c), (N.leb_spec c 90); cbn [andb]; lia. Qed.
Lemma lower_cases c : lower c = c /\ ~ (65 <= c <= 90)%N \/ lower c = (c + 32)%N /\ (65 <= c <= 90)%N.
Proof. unfold lower. destruct (N.leb_spec 65 c), (N.leb_spec c 90); cbn [andb]; lia. Qed.
Lemma lower_name w : nasm_name (map lower w) -> nasm_name w.
Proof.
  intros (c & t & E & Hc & Ht & Dot). destruct w as [|x w]; [discriminate|]. cbn [map] in E. injection E as <- <-. exists x, w. split; [reflexivity|].
  assert (K : forall y l, ((forall z, In z l -> ~ letter z) -> In (lower y) l -> In y l)).
  { intros y l Hl Hy. destruct (lower_cases y) as [[E _]|[E L]]; [rewrite <- E; exact Hy|]. elim (Hl _ Hy). apply lower_letter. unfold letter. lia. }
  split; [|split].
  - destruct Hc as [Hc|Hc]; [left; apply lower_letter; exact Hc|right]. apply K; [|exact Hc]. change (bs "_.") with [95; 46]%N. unfold letter. cbn [In]. lia.
  - rewrite Forall_map in Ht. eapply Forall_impl; [|exact Ht]. unfold nasm_name_char. intros y [Hy|[Hy|Hy]]; [left; apply lower_letter; exact Hy|right; left|right; right].
    + unfold digit in *. destruct (lower_cases y) as [[E _]|[E L]]; lia.
    + apply K; [|exact Hy]. change (bs "_$@.?") with [95; 36; 64; 46; 63]%N. unfold letter. cbn [In]. lia.
  - intros ->. specialize (Dot eq_refl). destruct w as [|d w]; [apply not_before_nil|]. apply not_before_cons. specialize (Dot (lower d) eq_refl). unfold digit in *. destruct (lower_cases d) as [[E _]|[E L]]; lia.
Qed.
Lemma lower_number_like w : nasm_number_like w -> nasm_number_like (map lower w).
Proof.
  intros (d & x & v & -> & Hd & F & Hx & R). exists (map lower d), (lower x), (map lower v). rewrite map_app. split; [reflexivity|]. split; [destruct d; [congruence|discriminate]|]. split; [|split].
  - apply Forall_map. eapply Forall_impl; [|exact F]. intros c. unfold hex_digit. destruct (lower_cases c) as [[E _]|[E L]]; lia.
  - cbn in Hx. repeat (destruct Hx as [<-|Hx]; [cbn; tauto|]). contradiction.
  - destruct v as [|c v]; [apply not_before_nil|]. apply not_before_cons. specialize (R c eq_refl). unfold ident_char, letter, digit in *. destruct (lower_cases c) as [[E _]|[E L]]; lia.
Qed.
Definition word_like (w : str) : bool := mem (last w 0%N) (bs "hHxX") && forallb is_ascii_hex_digit (removelast w).
Definition wordb (w : str) : bool := match w with c :: t => is_ascii_alpha c && forallb is_ascii_alphanumeric t | [] => false end.
Lemma alpha_iff c : is_ascii_alpha c = true <-> letter c.
Proof. unfold is_ascii_alpha, is_ascii_upper_alpha, is_ascii_lower_alpha, between, letter. rewrite orb_true_iff, !andb_true_iff, !N.leb_le. lia. Qed.
Lemma alnum_iff c : is_ascii_alphanumeric c = true <-> letter c \/ digit c.
Proof. unfold is_ascii_alphanumeric. rewrite orb_true_iff, alpha_iff, digit_iff. tauto. Qed.
Lemma wordb_name w : wordb w = true -> nasm_name w.
Proof.
  destruct w as [|c t]; [discriminate|]. cbn [wordb]. rewrite andb_true_iff, alpha_iff, forallb_forall. intros [H1 H2]. exists c, t. split; [reflexivity|]. split; [auto|]. split.
  - apply Forall_forall. intros x Hx. unfold nasm_name_char. specialize (H2 x Hx). apply alnum_iff in H2. tauto.
  - intros ->. exfalso. unfold letter in H1. change (ch ".") with 46%N in H1. lia.
Qed.
Lemma word_like_ok w : wordb w = true -> nasm_number_like w -> word_like w = true.
Proof.
  intros Hw (d & x & v & -> & Hd & F & Hx & R). assert (V : v = []).
  { destruct v as [|c v]; [reflexivity|]. elim (R c eq_refl). destruct d as [|e d]; [congruence|]. cbn [wordb app] in Hw. apply andb_true_iff in Hw as [_ Hw]. rewrite forallb_forall in Hw.
    assert (K : In c (d ++ x :: c :: v)) by (apply in_or_app; right; right; left; reflexivity). apply Hw in K. apply alnum_iff in K. unfold ident_char. tauto. }
  subst v. unfold word_like. rewrite last_last, removelast_last. apply andb_true_iff. split; [apply mem_In; exact Hx|]. apply forallb_forall. intros c Hc. rewrite Forall_forall in F. apply hex_digit_iff. auto.
Qed.
Definition class_ok (l : list str) : bool := forallb (fun w => wordb w && negb (word_like w)) l.
Lemma class_word l w : class_ok l = true -> one_of l w -> nasm_name w /\ ~ nasm_number_like w.
Proof.
  unfold class_ok, one_of. rewrite forallb_forall. intros H Hi. specialize (H _ Hi). apply andb_true_iff in H as [H1 H2]. split; [apply lower_name, wordb_name; exact H1|]. intros K. apply lower_number_like in K. apply word_like_ok in K; [|exact H1]. rewrite K in H2. discriminate.
Qed.
Definition disjoint (a b : list str) : bool := forallb (fun x => negb (existsb (str_eqb x) b)) a.
Lemma search_other tbl l w : lower_sorted tbl = true -> disjoint l tbl = true -> one_of l w -> nasm_search tbl w = false.
Proof.
  intros H1 H2 H3. destruct (nasm_search tbl w) eqn:E; [|reflexivity]. apply nasm_search_iff in E; [|exact H1]. unfold disjoint in H2. rewrite forallb_forall in H2. specialize (H2 _ H3). rewrite negb_true_iff in H2. exfalso.
  assert (K : existsb (str_eqb (map lower w)) tbl = true) by (apply existsb_exists; exists (map lower w); split; [exact E|apply str_eqb_refl]). congruence.
Qed.
Lemma seg_wrt w : equals_ignore_case w (bs "seg") || equals_ignore_case w (bs "wrt") = true <-> one_of nasm_operator_names w.
Proof. rewrite orb_true_iff, !equals_ignore_case_spec. unfold one_of, nasm_operator_names. cbn [In]. change (map lower (bs "seg")) with (bs "seg"). change (map lower (bs "wrt")) with (bs "wrt"). intuition auto. Qed.
Lemma no_colon w rest : not_before (fun c => nasm_follow c \/ c = ch ":") rest -> (length w <? length (w ++ rest)) && (nth (length w) (w ++ rest) 0 =? ch ":")%N = false.
Proof.
  intros R. rewrite app_nth2, Nat.sub_diag by lia. destruct rest as [|c rest]; [rewrite app_nil_r, Nat.ltb_irrefl; reflexivity|]. cbn [nth]. specialize (R c eq_refl). cbn beta in R. rewrite (proj2 (N.eqb_neq _ _)) by tauto. apply andb_false_r.
Qed.
Lemma class_first l w rest : class_ok l = true -> one_of l w -> starts_with_ch (w ++ rest) (ch ".") = false /\ 0 < length w.
Proof.
  unfold class_ok, one_of. rewrite forallb_forall. intros H Hi. specialize (H _ Hi). apply andb_true_iff in H as [H1 _]. destruct w as [|c w]; [discriminate|]. cbn [map wordb] in H1. apply andb_true_iff in H1 as [H1 _]. apply alpha_iff in H1. apply (proj1 (lower_letter c)) in H1.
  split; [|cbn; lia]. cbn [app starts_with_ch]. apply N.eqb_neq. unfold letter in H1. change (ch ".") with 46%N. lia.
Qed.
Lemma emit_word w rest i o s ty (Q : unit -> hst N -> Prop) : 0 < length w -> Q tt (mk_hst rest (i + length w) (OEmit i (length w) ty false :: o) s) -> wp (emit_and_advance (length w) ty) Q (mk_hst (w ++ rest) i o s).
Proof. intros L H. apply wp_emit_exact; [rewrite app_length; lia|]. rewrite skipn_app_exact. exact H. Qed.
Lemma colon_free rest : not_before (fun c => nasm_follow c \/ c = ch ":") rest -> not_before nasm_follow rest.
Proof. apply not_before_impl. tauto. Qed.
Ltac sorted_ := vm_compute; reflexivity.
Definition without (m l : list str) : list str := filter (fun w => negb (existsb (str_eqb w) m)) l.
Definition known_registers : list str := without nasm_missed_registers nasm_other_registers.
Lemma one_of_filter l m w : one_of l w -> ~ one_of m w -> one_of (without m l) w.
Proof.
  unfold one_of, without. intros H1 H2. apply filter_In. split; [exact H1|]. apply negb_true_iff. apply not_true_is_false. intros K. apply existsb_exists in K as (y & Hy & E). apply str_eqb_eq in E. subst y. contradiction.
Qed.
Lemma one_of_app l m w : one_of (l ++ m) w <-> one_of l w \/ one_of m w.
Proof. unfold one_of. apply in_app_iff. Qed.
Lemma nasm_do_word l (tbl : list str) ty s s' w rest : class_ok l = true -> one_of l w -> not_before (fun c => nasm_follow c \/ c = ch ":") rest ->
  disjoint l nasm_operator_names = true ->
  (forall i o, wp (if nasm_search nasm_types w then emit_and_advance (length w) hl_keyword_type ;; set_loc hl_name_var
    else if nasm_search nasm_operators w then emit_and_advance (length w) hl_keyword_op ;; set_loc hl_name_var
    else if nasm_search nasm_registers w then emit_and_advance (length w) hl_name_var ;; set_loc hl_name_var
    else if nasm_search nasm_label_instructions w then emit_and_advance (length w) hl_name_instruction ;; set_loc hl_name_label
    else if starts_with_ch w (ch "$") then emit_and_advance (length w) hl_name ;; set_loc hl_name_var
    else let! h := get_loc in emit_and_advance (length w) h ;; when (h =? hl_name_instruction)%N (set_loc hl_name_var))
    (fun _ st' => st' = mk_hst rest (i + length w) (OEmit i (length w) ty false :: o) (nasm_role s')) (mk_hst (w ++ rest) i o (nasm_role s))) ->
  nasm_does s [(w, Some ty)] rest s'.
Proof.
  intros H1 H2 R H3 H i o. rewrite text_one. destruct (class_word l w H1 H2) as [N1 N2]. apply dispatch_word; [exact N1|exact N2|apply colon_free; exact R|]. unfold nasm_branches. destruct (class_first l w rest H1 H2) as [F1 F2].
  replace (equals_ignore_case w (bs "seg") || equals_ignore_case w (bs "wrt")) with false.
  2:{ symmetry. apply not_true_is_false. rewrite seg_wrt. intros K. unfold disjoint in H3. rewrite forallb_forall in H3. specialize (H3 _ H2). rewrite negb_true_iff in H3. assert (K2 : existsb (str_eqb (map lower w)) nasm_operator_names = true) by (apply existsb_exists; exists (map lower w); split; [exact K|apply str_eqb_refl]). congruence. }
  rewrite no_colon by exact R. rewrite F1. cbn [tokens rev app]. apply H.
Qed.
Definition hex_wordb (w : str) : bool := wordb w && word_like w && (2 <=? length w).
Lemma hex_word_split w : forallb hex_wordb nasm_hex_registers = true -> one_of nasm_hex_registers w -> exists c t x, w = (c :: t) ++ [x] /\ letter c /\ Forall hex_digit (c :: t) /\ In x (bs "hHxX").
Proof.
  unfold one_of. rewrite forallb_forall. intros H Hi. specialize (H _ Hi). clear Hi. unfold hex_wordb in H. apply andb_true_iff in H as [H L]. apply andb_true_iff in H as [H1 H2]. apply Nat.leb_le in L. rewrite map_length in L.
  destruct w as [|x w _] using rev_ind; [cbn in L; lia|]. destruct w as [|c t]; [cbn in L; lia|]. exists c, t, x. split; [reflexivity|]. unfold word_like in H2. rewrite map_app in H1, H2. cbn [map app] in H1, H2. cbn [wordb] in H1. apply andb_true_iff in H1 as [H1 _]. apply alpha_iff in H1.
  change (lower c :: map lower t ++ [lower x]) with ((lower c :: map lower t) ++ [lower x]) in H2. rewrite last_last, removelast_last in H2. apply andb_true_iff in H2 as [H2 H3]. split; [apply lower_letter; exact H1|]. split.
  - change (lower c :: map lower t) with (map lower (c :: t)) in H3. rewrite forallb_forall in H3. apply Forall_forall. intros y Hy. specialize (H3 _ (in_map lower _ _ Hy)). apply hex_digit_iff in H3. unfold hex_digit in *. destruct (lower_cases y) as [[E _]|[E Ly]]; lia.
  - apply mem_In in H2. change (bs "hHxX") with [104; 72; 120; 88]%N in *. cbn [In] in *. destruct (lower_cases x) as [[E _]|[E Ly]]; lia.
Qed.
Lemma nasm_do_hex_register s w rest : one_of nasm_hex_registers w -> not_before ident_char rest -> nasm_does s [(w, Some hl_name_var)] rest s.
Proof.
  intros H R i o. rewrite text_one. destruct (hex_word_split w ltac:(sorted_) H) as (c & t & x & -> & Hc & F & Hx). cbn [app]. apply dispatch_name; [left; exact Hc|]. apply wp_bind. unfold nasm_expect_number. apply wp_bind, wp_get_rem. cbn [rem starts_with_ch].
  rewrite (proj2 (N.eqb_neq c 95)) by (unfold letter in Hc; lia). apply wp_bind. unfold nasm_expect_suffixed_number. apply wp_bind, wp_get_rem. cbn [rem]. cbv zeta.
  change (c :: (t ++ [x]) ++ rest) with (((c :: t) ++ [x]) ++ rest). rewrite nasm_suffix_hex by (assumption || discriminate). cbn [sn_digits sn_base]. replace (length (c :: t) =? 0) with false by reflexivity.
  replace (length (c :: t) + 1) with (length ((c :: t) ++ [x])) by (rewrite app_length; reflexivity). rewrite firstn_app_exact. change (16 =? 16)%Z with true. cbn [andb].
  rewrite (search_other nasm_pseudo nasm_hex_registers _ ltac:(sorted_) ltac:(sorted_) H), (search_hit nasm_registers nasm_hex_registers _ ltac:(sorted_) ltac:(sorted_) H). apply wp_bind, emit_word; [cbn; lia|]. apply wp_ret. cbn iota. apply wp_ret. cbn iota. apply wp_ret. reflexivity.
Qed.
Lemma nasm_do_named s p rest s' : nasm_named s p rest s' -> nasm_does s p rest s'.
Proof.
  intros [s0 w r H R|s0 w r H HL HO|s0 w r H R|s0 w r H R|s0 w r H HM R|s0 w r H R|s0 w r H R|s0 w r H HL HD HO R].
  - intros i o. rewrite text_one. destruct (class_word nasm_operator_names w) as [N1 N2]; [sorted_|exact H|]. destruct (class_first nasm_operator_names w r) as [F1 F2]; [sorted_|exact H|]. apply dispatch_word; [exact N1|exact N2|exact R|]. unfold nasm_branches.
    rewrite (proj2 (seg_wrt w) H). apply emit_word; [exact F2|]. reflexivity.
  - intros i o. rewrite text_one, <- app_assoc. assert (R : not_before nasm_follow (bs ":" ++ r)).
    { apply not_before_cons. unfold nasm_follow, nasm_name_char, letter, digit. change (bs "_$@.?") with [95; 36; 64; 46; 63]%N. change (ch "-") with 45%N. cbn [In]. cbn. lia. }
    apply dispatch_word; [exact H|exact HL|exact R|]. unfold nasm_branches. replace (equals_ignore_case w (bs "seg") || equals_ignore_case w (bs "wrt")) with false by (symmetry; apply not_true_is_false; rewrite seg_wrt; exact HO).
    assert (0 < length w) by (destruct H as (c & t & -> & _); cbn; lia). rewrite app_nth2, Nat.sub_diag by lia. change (nth 0 (bs ":" ++ r) 0%N =? ch ":")%N with true. rewrite andb_true_r, (proj2 (Nat.ltb_lt _ _)) by (rewrite app_length; cbn; lia).
    apply wp_bind. rewrite app_assoc. replace (length w + 1) with (length (w ++ bs ":")) by (rewrite app_length; reflexivity). apply emit_word; [rewrite app_length; lia|]. apply wp_set_loc_exact. reflexivity.
  - intros i o. rewrite text_one. apply dispatch_word; [exact H| |apply colon_free; exact R|].
    { intros (d & x & v & E & Hd & F & _). destruct d as [|c d]; [congruence|]. injection E as <- E. apply Forall_inv in F. unfold hex_digit in F. change (ch ".") with 46%N in F. lia. }
    unfold nasm_branches. replace (equals_ignore_case _ (bs "seg") || equals_ignore_case _ (bs "wrt")) with false.
    2:{ symmetry. apply not_true_is_false. rewrite seg_wrt. unfold one_of. cbn [map In nasm_operator_names]. intros [K|[K|[]]]; discriminate K. }
    rewrite no_colon by exact R. change (starts_with_ch ((ch "." :: w) ++ r) (ch ".")) with true. apply wp_bind, emit_word; [cbn; lia|]. apply wp_set_loc_exact. reflexivity.
  - apply (nasm_do_word nasm_type_names []); [sorted_|exact H|exact R|sorted_|]. intros i o. rewrite (search_hit nasm_types nasm_type_names w ltac:(sorted_) ltac:(sorted_) H). apply wp_bind, emit_word; [exact (proj2 (class_first nasm_type_names w [] ltac:(sorted_) H))|]. apply wp_set_loc_exact. reflexivity.
  - assert (K : one_of known_registers w) by (exact (one_of_filter _ _ _ H HM)). apply (nasm_do_word known_registers []); [sorted_|exact K|exact R|sorted_|]. intros i o.
    rewrite (search_other nasm_types known_registers w ltac:(sorted_) ltac:(sorted_) K), (search_other nasm_operators known_registers w ltac:(sorted_) ltac:(sorted_) K), (search_hit nasm_registers known_registers w ltac:(sorted_) ltac:(sorted_) K). apply wp_bind, emit_word; [exact (proj2 (class_first known_registers w [] ltac:(sorted_) K))|]. apply wp_set_loc_exact. reflexivity.
  - apply nasm_do_hex_register; [exact H|]. eapply not_before_impl; [|exact R]. intros c. unfold ident_char, nasm_name_char. change (bs "_$@.?") with [95; 36; 64; 46; 63]%N. cbn [In]. intuition auto.
  - apply (nasm_do_word nasm_jumps []); [sorted_|exact H|exact R|sorted_|]. intros i o.
    rewrite (search_other nasm_types nasm_jumps w ltac:(sorted_) ltac:(sorted_) H), (search_other nasm_operators nasm_jumps w ltac:(sorted_) ltac:(sorted_) H), (search_other nasm_registers nasm_jumps w ltac:(sorted_) ltac:(sorted_) H), (search_hit nasm_label_instructions nasm_jumps w ltac:(sorted_) ltac:(sorted_) H). apply wp_bind, emit_word; [exact (proj2 (class_first nasm_jumps w [] ltac:(sorted_) H))|]. apply wp_set_loc_exact. reflexivity.
  - rewrite !one_of_app in HO. intros i o. rewrite text_one. apply dispatch_word; [exact H|exact HL|apply colon_free; exact R|]. unfold nasm_branches.
    replace (equals_ignore_case w (bs "seg") || equals_ignore_case w (bs "wrt")) with false by (symmetry; apply not_true_is_false; rewrite seg_wrt; tauto). rewrite no_colon by exact R.
    destruct H as (c & t & -> & Hc & Ht & Dot). replace (starts_with_ch ((c :: t) ++ r) (ch ".")) with false by (symmetry; apply N.eqb_neq; intros E; apply HD; rewrite E; reflexivity).
    rewrite (search_miss nasm_types nasm_type_names), (search_miss nasm_operators nasm_operator_names), (search_miss nasm_registers (nasm_all_registers ++ nasm_extra_registers)), (search_miss nasm_label_instructions nasm_jumps) by (sorted_ || tauto || (rewrite one_of_app; tauto)).
    replace (starts_with_ch (c :: t) (ch "$")) with false by (symmetry; apply N.eqb_neq; intros ->; destruct Hc as [Hc|Hc]; [unfold letter in Hc; change (ch "$") with 36%N in Hc; lia|cbn in Hc; intuition discriminate]).
    apply wp_bind, wp_get_loc. cbn [loc]. apply wp_bind, emit_word; [cbn; lia|]. destruct s0; reflexivity.
Qed.

(** ** Numbers *)
Lemma grouped_last (d : N -> Prop) sep l : grouped d sep l -> exists a x, text l = a ++ [x] /\ d x /\ Forall (fun c => d c \/ c = sep) (a ++ [x]).
Proof.
  assert (K : forall g, g <> [] -> Forall d g -> exists a x, g = a ++ [x] /\ d x /\ Forall (fun c => d c \/ c = sep) (a ++ [x])).
  { intros g Hg F. destruct g as [|x g _] using rev_ind; [congruence|]. exists g, x. split; [reflexivity|]. split; [apply Forall_app in F as [_ F]; inversion F; assumption|]. eapply Forall_impl; [|exact F]. auto. }
  induction 1 as [g Hg F|g l Hg F Hl (a & x & E & Hx & Fx)].
  - rewrite text_one. auto.
  - rewrite !text_cons, E. exists (g ++ sep :: a), x. split; [rewrite <- app_assoc; reflexivity|]. split; [exact Hx|]. rewrite <- app_assoc. apply Forall_app. split; [eapply Forall_impl; [|exact F]; auto|]. cbn [app]. constructor; [auto|exact Fx].
Qed.
Lemma no_suffix s a x v : s = (a ++ [x]) ++ v -> Forall ident_char (a ++ [x]) -> not_before ident_char v -> nasm_base_of_suffix x = 0%Z -> sn_digits (match_suffix_number s nasm_determine_suffix 95) = 0.
Proof. intros -> F R E. rewrite nasm_suffix_eq by assumption. rewrite E. destruct a; reflexivity. Qed.
Lemma no_suffix_here c s : ~ ident_char c -> sn_digits (match_suffix_number (c :: s) nasm_determine_suffix 95) = 0.
Proof. intros H. unfold match_suffix_number. rewrite length_if_eq. cbn [prefix_len]. destruct ((95 =? 0)%N || (c =? 95)%N || is_ascii_alphanumeric c) eqn:E; [apply run_char in E; contradiction|]. reflexivity. Qed.
Definition nasm_number_result (p : str) (I : list piece) (f : option (list piece)) (e : option (str * str)) : number_result :=
  mk_number (length p + length (text I) + length (frac_text f) + length (exp_text e) + length (@nil N))
    0 (length p) (length (text I)) (match f with None => 0 | Some _ => 1 end) (match f with None => 0 | Some f => length (text f) end)
    (match e with None => 0 | Some (e, _) => length e end) (match e with None => 0 | Some (_, d) => length d end) (length (@nil N)) false.
Lemma nasm_expect_exact (d : N -> Prop) p I f e rest i o s (Q : bool -> hst N -> Prop) : let n := number_pieces p I f e [] in
  (exists c t, text n = c :: t /\ c <> 95%N) -> ~ d 95%N -> grouped d 95 I -> (forall f', f = Some f' -> f' = [] \/ grouped d 95 f') ->
  match e with Some (es, ed) => es <> [] /\ ed <> [] /\ Forall digit ed | None => True end ->
  sn_digits (match_suffix_number (text n ++ rest) nasm_determine_suffix 95) = 0 ->
  match_common_number (text n ++ rest) nasm_number_options = Ok (nasm_number_result p I f e) ->
  Q true (mk_hst rest (i + length (text n)) (rev (tokens i n) ++ o) s) -> wp nasm_expect_number Q (mk_hst (text n ++ rest) i o s).
Proof.
  intros n (c & t & En & Hc) Hd GI GF GE HS HM H. assert (LI : 0 < length (text I)) by (apply grouped_ne in GI; destruct (text I); [congruence|cbn; lia]).
  unfold nasm_expect_number. apply wp_bind, wp_get_rem. cbn [rem]. rewrite En at 1. cbn [app starts_with_ch]. rewrite (proj2 (N.eqb_neq c 95)) by exact Hc.
  apply wp_bind. unfold nasm_expect_suffixed_number. apply wp_bind, wp_get_rem. cbn [rem]. cbv zeta. rewrite HS. cbn [Nat.eqb]. apply wp_ret. cbn iota. unfold nasm_expect_common_number. apply wp_bind, wp_get_rem. cbn [rem]. apply wp_bind. eapply wp_lift; [exact HM|]. unfold nasm_number_result. cbn [nr_length].
  match goal with |- context [?a =? 0] => rewrite (proj2 (Nat.eqb_neq a 0)) by lia end. apply wp_bind. unfold n. apply (highlight_sep_exact d); try assumption; try discriminate.
  2:{ right. exact GI. }
  unfold digit. lia.
Qed.
Lemma dispatch_digit c t i o s Q : digit c -> wp (let! b := nasm_expect_number in checkM b FAssert) Q (mk_hst (c :: t) i o s) -> wp nasm_consume_anything Q (mk_hst (c :: t) i o s).
Proof.
  intros Hc H. unfold nasm_consume_anything. apply wp_bind, wp_get_rem. cbn [rem]. apply wp_bind. eapply wp_at_is; [reflexivity|]. pose proof Hc as Hd. unfold digit in Hc. nomem c. rewrite (proj2 (digit_iff c) Hd). exact H.
Qed.
Lemma nasm_prefixed_base p d : In (p, d) nasm_prefixes -> exists c x b, p = [c; x] /\ c = 48%N /\ letter x /\ (forall c, is_ascii_digit_base c b = true <-> d c) /\ (forall c, d c -> hex_digit c)
  /\ forall t, number_base nasm_number_options (p ++ t) (no_prefixes nasm_number_options) = Ok (length p, false, b).
Proof.
  unfold nasm_prefixes. rewrite !in_app_iff, !in_map_iff.
  intros [(q & [= <- <-] & H)|[(q & [= <- <-] & H)|[(q & [= <- <-] & H)|(q & [= <- <-] & H)]]]; cbn [In] in H; repeat (destruct H as [<-|H]; [eexists _, _|]); try contradiction;
    (first [exists 2%Z; split; [reflexivity|]; split; [reflexivity|]; split; [cbn; unfold letter; lia|]; split; [exact digit_2|]|exists 8%Z; split; [reflexivity|]; split; [reflexivity|]; split; [cbn; unfold letter; lia|]; split; [exact digit_8|]
      |exists 10%Z; split; [reflexivity|]; split; [reflexivity|]; split; [cbn; unfold letter; lia|]; split; [exact digit_10|]|exists 16%Z; split; [reflexivity|]; split; [reflexivity|]; split; [cbn; unfold letter; lia|]; split; [exact digit_16|]];
     split; [unfold binary_digit, octal_digit, digit, hex_digit; intros; lia|]; intros t; reflexivity).
Qed.
Lemma nasm_decimal_base c s : digit c -> not_before (fun x => letter x /\ x <> 101 /\ x <> 69)%N s -> number_base nasm_number_options (c :: s) (no_prefixes nasm_number_options) = Ok (0, true, 10%Z).
Proof.
  intros Hc R. rewrite number_base_none.
  - change (no_base nasm_number_options) with 10%Z. change (no_zero_base nasm_number_options) with 10%Z. destruct (starts_with_ch _ _); reflexivity.
  - apply Forall_forall. intros p Hp. unfold nasm_number_options in Hp. cbn [no_prefixes map fst snd In] in Hp. unfold digit in Hc.
    repeat (destruct Hp as [<-|Hp]; [cbn [np_str]; split; [discriminate|]; match goal with |- starts_with _ ?w = false => let v := eval vm_compute in w in change w with v end; cbn [starts_with];
      first [rewrite (proj2 (N.eqb_neq c 36)) by lia; reflexivity | destruct (c =? 48)%N; [|reflexivity]; destruct s as [|x s]; [reflexivity|]; specialize (R x eq_refl); unfold letter in R; cbn [starts_with]; match goal with |- context [(x =? ?k)%N] => rewrite (proj2 (N.eqb_neq x k)) by lia end; reflexivity]|]).
    contradiction.
Qed.
Lemma nasm_stop rest : not_before (fun c => ident_char c \/ c = ch ".") rest -> not_before ident_char rest.
Proof. apply not_before_impl. tauto. Qed.
Lemma digit_no_suffix c : digit c -> nasm_base_of_suffix c = 0%Z.
Proof. unfold digit, nasm_base_of_suffix. intros H. nomem c. reflexivity. Qed.
Lemma digits_ident (d : N -> Prop) l : (forall c, d c -> hex_digit c) -> Forall (fun c => d c \/ c = 95%N) l -> Forall ident_char l.
Proof. intros H F. eapply Forall_impl; [|exact F]. intros c [K|K]; [apply H in K; unfold hex_digit, ident_char, letter, digit in *; lia|unfold ident_char; auto]. Qed.
Lemma nasm_decimal_suffix I f e rest : grouped digit 95 I -> (forall es ed, e = Some (es, ed) -> In es [bs "e"; bs "E"; bs "e+"; bs "E+"; bs "e-"; bs "E-"] /\ ed <> [] /\ Forall digit ed) ->
  not_before ident_char rest -> sn_digits (match_suffix_number (text I ++ frac_text f ++ exp_text e ++ rest) nasm_determine_suffix 95) = 0.
Proof.
  intros GI GE R. destruct (grouped_last _ _ _ GI) as (a & x & E & Hx & F). apply (digits_ident digit) in F; [|unfold digit, hex_digit; intros; lia].
  destruct f as [f|]; [|destruct e as [[es ed]|]].
  - apply (no_suffix _ a x (frac_text (Some f) ++ exp_text e ++ rest)); [rewrite E; reflexivity|exact F| |apply digit_no_suffix; exact Hx]. cbn [frac_text app]. apply not_before_cons. unfold ident_char, letter, digit. lia.
  - destruct (GE es ed eq_refl) as (H1 & H2 & H3). cbn [frac_text exp_text app].
    assert (K : (exists c, es = [c] /\ letter c) \/ exists c k, es = [c; k] /\ letter c /\ ~ ident_char k /\ nasm_base_of_suffix c = 0%Z).
    { cbn [In] in H1. destruct H1 as [<-|[<-|H1]]; [left; eexists; split; [reflexivity|cbn; unfold letter; lia]|left; eexists; split; [reflexivity|cbn; unfold letter; lia]|].
      right. repeat (destruct H1 as [<-|H1]; [eexists _, _; split; [reflexivity|]; split; [cbn; unfold letter; lia|]; split; [cbn; unfold ident_char, letter, digit; lia|reflexivity]|]). contradiction. }
    destruct K as [(c & -> & Hc)|(c & k & -> & Hc & Hk & Hb)].
    + destruct ed as [|y ed _] using rev_ind; [congruence|]. apply Forall_app in H3 as [H3 H4]. apply Forall_inv in H4. apply (no_suffix _ (text I ++ [c] ++ ed) y rest).
      * rewrite <- !app_assoc. reflexivity.
      * rewrite E, <- !app_assoc, app_assoc. apply Forall_app. split; [exact F|]. cbn [app]. constructor; [left; exact Hc|]. apply Forall_app. split; [eapply Forall_impl; [|exact H3]; intros z Hz; right; left; exact Hz|constructor; [right; left; exact H4|constructor]].
      * exact R.
      * apply digit_no_suffix. exact H4.
    + apply (no_suffix _ (text I) c (k :: ed ++ rest)); [rewrite <- !app_assoc; reflexivity| |apply not_before_cons; exact Hk|exact Hb]. rewrite E. apply Forall_app. split; [exact F|]. constructor; [left; exact Hc|constructor].
  - apply (no_suffix _ a x rest); [rewrite E; reflexivity|exact F|exact R|apply digit_no_suffix; exact Hx].
Qed.
Lemma nasm_do_digit s n rest : (exists c t, text n = c :: t /\ digit c) -> (forall i o (Q : bool -> hst N -> Prop), Q true (mk_hst rest (i + length (text n)) (rev (tokens i n) ++ o) (nasm_role s)) -> wp nasm_expect_number Q (mk_hst (text n ++ rest) i o (nasm_role s))) ->
  nasm_does s n rest s.
Proof.
  intros (c & t & E & Hc) H i o. assert (K : wp (let! b := nasm_expect_number in checkM b FAssert) (fun _ st' => st' = mk_hst rest (i + length (text n)) (rev (tokens i n) ++ o) (nasm_role s)) (mk_hst (text n ++ rest) i o (nasm_role s))).
  { apply wp_bind. apply H. apply wp_check; reflexivity. }
  rewrite E in *. cbn [app] in *. apply dispatch_digit; [exact Hc|exact K].
Qed.
Lemma nasm_based_common p (d : N -> Prop) allow base n rest : (forall t, number_base nasm_number_options (p ++ t) (no_prefixes nasm_number_options) = Ok (length p, allow, base)) ->
  (forall c, is_ascii_digit_base c base = true <-> d c) -> (forall c, d c -> hex_digit c) -> grouped d 95 n -> not_before (fun c => ident_char c \/ c = ch ".") rest ->
  match_common_number (text (number_pieces p n None None []) ++ rest) nasm_number_options = Ok (nasm_number_result p n None None).
Proof.
  intros HB Hd Hx G R. rewrite number_pieces_text, <- !app_assoc. unfold nasm_number_result. apply (literal_exact nasm_number_options p d allow base n None None [] rest); try reflexivity; try discriminate; try assumption.
  - intros K. apply Hx in K. unfold hex_digit in K. cbn in K. lia.
  - intros K. apply Hx in K. unfold hex_digit in K. lia.
  - apply HB.
  - left. exact G.
  - intros _. apply no_exponent; [reflexivity|]. cbn [app]. eapply not_before_impl; [|exact R]. intros c Hc. left. vm_compute in Hc. unfold ident_char, letter. cbn in Hc. lia.
  - cbn [app]. eapply not_before_impl; [|exact R]. cbn beta. intros c [K|[K|K]]; [left; apply Hx in K; unfold hex_digit, ident_char, letter, digit in *; lia|left; unfold ident_char; right; right; exact K|right; exact K].
Qed.
Lemma nasm_do_number s n rest : nasm_number n rest -> nasm_does s n rest s.
Proof.
  intros [I f e r G GF GE R|p d I r Hp G R HL|c t I r G E Hc R|c t x d r Hx Hc F R].
  - apply nasm_do_digit.
    { destruct (grouped_second _ _ _ G) as (c & t & Ec & Hc & _). exists c. rewrite number_pieces_text, Ec. cbn [app]. eauto. }
    intros i o Q H. destruct (grouped_second _ _ _ G) as (c & t & Ec & Hc & Ht).
    assert (GE' : forall es ed, e = Some (es, ed) -> In es (map fst (no_exponents nasm_number_options)) /\ fst (fst (number_exponent es (no_exponents nasm_number_options))) = length es /\ ed <> [] /\ Forall digit ed /\ es <> [] /\ not_before (fun c => digit c \/ c = 95%N) es).
    { intros es ed E. destruct (GE es ed E) as (H1 & H2 & H3). cbn [In] in H1. destruct H1 as [<-|[<-|[<-|[<-|[<-|[<-|[]]]]]]]; (split; [cbn; tauto|]; split; [vm_compute; reflexivity|]; split; [exact H2|]; split; [exact H3|]; split; [discriminate|]; apply not_before_cons; unfold digit; cbn; lia). }
    apply (nasm_expect_exact digit); try assumption.
    + exists c. rewrite number_pieces_text, Ec. cbn [app]. eexists. split; [reflexivity|]. unfold digit in Hc. lia.
    + unfold digit. lia.
    + intros f' ->. destruct (GF f' eq_refl) as [[K _]|K]; auto.
    + destruct e as [[es ed]|]; [|exact Logic.I]. destruct (GE' es ed eq_refl) as (_ & _ & H1 & H2 & H3 & _). auto.
    + rewrite number_pieces_text. cbn [app]. rewrite app_nil_r, <- !app_assoc. apply nasm_decimal_suffix; [exact G|exact GE|apply nasm_stop; exact R].
    + rewrite number_pieces_text, <- !app_assoc. apply (literal_exact nasm_number_options [] digit true 10%Z I f e [] r); try reflexivity; try discriminate.
      * unfold digit. cbn. lia.
      * unfold digit. lia.
      * exact digit_10.
      * cbn [app]. rewrite Ec. cbn [app]. apply nasm_decimal_base; [exact Hc|]. destruct t as [|y t]; cbn [app].
        -- destruct f as [f|]; [apply not_before_cons; unfold letter; lia|]. cbn [frac_text app].
           destruct e as [[es ed]|].
           ++ destruct (GE es ed eq_refl) as (H1 & _). cbn [In] in H1. repeat (destruct H1 as [<-|H1]; [apply not_before_cons; cbn; lia|]). contradiction.
           ++ cbn [exp_text app]. eapply not_before_impl; [|exact R]. unfold ident_char. tauto.
        -- apply not_before_cons. specialize (Ht y eq_refl). unfold digit, letter in *. lia.
      * left. exact G.
      * intros f' ->. split; [reflexivity|]. destruct (GF f' eq_refl) as [[-> K]|K]; [left|right; exact K]. split; [reflexivity|]. split; [|reflexivity]. cbn [app]. destruct K as [K|K]; [|destruct (exp_text e); [exact K|discriminate]]. destruct e as [[es ed]|]; [|congruence]. destruct (GE' es ed eq_refl) as (_ & _ & _ & _ & K2 & _). destruct es; [congruence|discriminate].
      * destruct e as [[es ed]|]; [destruct (GE' es ed eq_refl) as (H0 & H1 & H2 & H3 & _ & H4); repeat split; assumption|]. intros _. apply no_exponent; [reflexivity|]. cbn [app]. eapply not_before_impl; [|exact R]. intros z Hz. left. vm_compute in Hz. unfold ident_char, letter. cbn in Hz. lia.
      * cbn [app]. eapply not_before_impl; [|exact R]. cbn beta. intros z. destruct e; [intros K; left; right; left; exact K|]. intros [K|[K|K]]; [left; right; left; exact K|left; right; right; exact K|right; exact K].
  - destruct (nasm_prefixed_base p d Hp) as (c & x & b & -> & -> & Hx & Hb & Hh & HB). apply nasm_do_digit; [exists 48%N; rewrite number_pieces_text; eexists; split; [reflexivity|unfold digit; lia]|].
    intros i o Q H. apply (nasm_expect_exact d); try assumption; try discriminate; try exact Logic.I.
    + rewrite number_pieces_text. exists 48%N. eexists. split; [reflexivity|lia].
    + intros K. apply Hh in K. unfold hex_digit in K. lia.
    + rewrite number_pieces_text. cbn [frac_text exp_text]. rewrite !app_nil_r. destruct (grouped_last _ _ _ G) as (a & y & E & Hy & F). apply (no_suffix _ ([48%N; x] ++ a) y r); [rewrite E, <- !app_assoc; reflexivity| |apply nasm_stop; exact R|].
      * rewrite <- app_assoc. cbn [app]. constructor; [right; left; unfold digit; lia|]. constructor; [left; exact Hx|]. eapply digits_ident; [exact Hh|exact F].
      * destruct (HL a) as (L1 & L2 & L3 & L4). rewrite E in *. apply Hh in Hy. unfold nasm_base_of_suffix, hex_digit in *.
        assert (y <> 98 /\ y <> 66 /\ y <> 100 /\ y <> 68)%N by (repeat split; intros ->; [apply L1|apply L2|apply L3|apply L4]; reflexivity). nomem y. reflexivity.
    + eapply nasm_based_common; eassumption.
  - intros i o. assert (K : wp (let! b := nasm_expect_number in if b then ret tt else nasm_consume_identifier) (fun _ st' => st' = mk_hst r (i + length (text (number_pieces (bs "$") I None None []))) (rev (tokens i (number_pieces (bs "$") I None None [])) ++ o) (nasm_role s))
      (mk_hst (text (number_pieces (bs "$") I None None []) ++ r) i o (nasm_role s))).
    { apply wp_bind. apply (nasm_expect_exact hex_digit); try assumption; try discriminate; try exact Logic.I.
      - rewrite number_pieces_text. exists 36%N. eexists. split; [reflexivity|lia].
      - unfold hex_digit. lia.
      - rewrite number_pieces_text. cbn [app]. apply no_suffix_here. change (ch "$") with 36%N. unfold ident_char, letter, digit. cbn. lia.
      - eapply (nasm_based_common (bs "$") hex_digit false 16%Z); try assumption; [|exact digit_16|auto]. intros u. reflexivity.
      - apply wp_ret. reflexivity. }
    revert K. generalize (fun (_ : unit) st' => st' = mk_hst r (i + length (text (number_pieces (bs "$") I None None []))) (rev (tokens i (number_pieces (bs "$") I None None [])) ++ o) (nasm_role s)). intros Q K.
    rewrite number_pieces_text in *. cbn [frac_text exp_text] in *. rewrite !app_nil_r in *. change ((bs "$" ++ text I) ++ r) with (36%N :: text I ++ r) in *.
    unfold nasm_consume_anything. apply wp_bind, wp_get_rem. cbn [rem]. apply wp_bind. eapply wp_at_is; [reflexivity|].
    match goal with |- wp ?m _ _ => change m with (let! b := nasm_expect_number in if b then ret tt else nasm_consume_identifier) end. exact K.
  - assert (Eb : exists b, nasm_base_of_suffix x = b /\ (2 <= b <= 16)%Z /\ letter x /\ (forall c, is_ascii_digit_base c b = true <-> d c) /\ (forall c, d c -> hex_digit c)).
    { unfold nasm_suffixes in Hx. rewrite !in_app_iff, !in_map_iff in Hx. destruct Hx as [(q & [= <- <-] & H)|[(q & [= <- <-] & H)|[(q & [= <- <-] & H)|(q & [= <- <-] & H)]]]; cbn in H; repeat (destruct H as [<-|H]; [eexists; split; [reflexivity|]|]); try contradiction;
        (split; [cbn; lia|]; split; [unfold letter; lia|]; split; [first [exact digit_2|exact digit_8|exact digit_10|exact digit_16]|]; unfold binary_digit, octal_digit, digit, hex_digit; intros; lia). }
    destruct Eb as (b & Eb & B & Lx & Hb & Hh). assert (Et : text [(c :: t, Some hl_number); ([x], Some hl_number_decor)] = (c :: t) ++ [x]) by (rewrite text_cons, text_one; reflexivity).
    apply nasm_do_digit; [exists c; rewrite Et; eexists; split; [reflexivity|exact Hc]|]. intros i o Q H. rewrite Et in *.
    unfold nasm_expect_number. apply wp_bind, wp_get_rem. cbn [rem app starts_with_ch]. rewrite (proj2 (N.eqb_neq c 95)) by (unfold digit in Hc; lia). apply wp_bind. unfold nasm_expect_suffixed_number. apply wp_bind, wp_get_rem. cbn [rem]. cbv zeta.
    change (c :: (t ++ [x]) ++ r) with (((c :: t) ++ [x]) ++ r). rewrite nasm_suffix_eq; [|apply Forall_app; split; [eapply Forall_impl; [|exact F]; intros z Hz; apply Hh in Hz; unfold hex_digit, ident_char, letter, digit in *; lia|constructor; [left; exact Lx|constructor]]|exact R].
    rewrite Eb. replace (b <=? 0)%Z with false by (symmetry; apply Z.leb_gt; lia). cbv zeta. rewrite suffix_digits_good; [|lia|lia|eapply Forall_impl; [|exact F]; intros z; apply Hb]. cbn [andb sn_digits sn_base sn_suffix sn_erroneous].
    replace (length (c :: t) =? 0) with false by reflexivity. replace (length (c :: t) + 1) with (length ((c :: t) ++ [x])) by (rewrite app_length; reflexivity). rewrite firstn_app_exact.
    assert (NS : forall tbl, lower_sorted tbl = true -> forallb (fun w => match w with y :: _ => negb (is_ascii_digit y) | [] => true end) tbl = true -> nasm_search tbl ((c :: t) ++ [x]) = false).
    { intros tbl T1 T2. apply not_true_is_false. rewrite nasm_search_iff by exact T1. rewrite forallb_forall in T2. intros K. specialize (T2 _ K). cbn [map app] in T2. rewrite negb_true_iff in T2. apply digit_iff in Hc. replace (lower c) with c in T2; [congruence|]. apply digit_iff in Hc. destruct (lower_cases c) as [[E _]|[_ L]]; [congruence|unfold digit in Hc; lia]. }
    rewrite (NS nasm_pseudo), (NS nasm_registers) by sorted_. rewrite !andb_false_r.
    apply wp_bind. rewrite <- app_assoc, firstn_app_exact.
    pose proof (highlight_grouped (S := N) d 95 [(c :: t, Some hl_number)]) as HG. rewrite text_one in HG. apply HG; clear HG.
    + intros K. apply Hh in K. unfold hex_digit in K. lia.
    + discriminate.
    + constructor; [discriminate|exact F].
    + apply wp_bind. apply (emit_word [x]); [cbn; lia|]. apply wp_ret. cbn iota. apply wp_ret. revert H. rewrite app_length. cbn [tokens rev app length]. rewrite Nat.add_assoc. auto.
Qed.

(** ** Strings *)
Lemma dispatch_quote q t i o s Q : In q [34; 39; 96]%N -> wp (nasm_consume_string q) Q (mk_hst (q :: t) i o s) -> wp nasm_consume_anything Q (mk_hst (q :: t) i o s).
Proof.
  intros Hq H. unfold nasm_consume_anything. apply wp_bind, wp_get_rem. cbn [rem]. apply wp_bind. eapply wp_at_is; [reflexivity|]. cbn [In] in Hq. destruct Hq as [<-|[<-|[<-|[]]]]; exact H.
Qed.
Lemma open_quote q t i o s Q : In q [34; 39; 96]%N -> wp (if (q =? 39)%N || (q =? 34)%N then nasm_verbatim_content q else nasm_backquote_content) Q (mk_hst t (i + 1) (OEmit i 1 hl_string_delim false :: o) s) ->
  wp nasm_consume_anything Q (mk_hst (q :: t) i o s).
Proof.
  intros Hq H. apply dispatch_quote; [exact Hq|]. unfold nasm_consume_string. apply wp_bind, wp_get_rem. cbn [rem starts_with_ch]. apply wp_bind, wp_check; [apply N.eqb_refl|]. apply wp_bind. apply (emit_word [q]); [cbn; lia|]. exact H.
Qed.
Lemma nasm_escape_exact e rest : nasm_escape e rest -> nasm_match_escape (e ++ rest) = Ok (mk_escape (length e) false) /\ exists t, e = 92%N :: t.
Proof.
  intros H. split; [|destruct H; eexists; reflexivity].
  assert (L2 : forall e', e = ch "\" :: e' -> e' <> [] -> nasm_match_escape (e ++ rest) = let c := hd 0%N e' in
    if mem c (bs "'`\?abtnvfre") || (c =? 34)%N then Ok (mk_escape 2 false)
    else if mem c (bs "01234567") then match_common_escape_at octal_1_to_2 (e ++ rest) 2
    else if (c =? ch "x")%N then match_common_escape_at hex_1_to_2 (e ++ rest) 2
    else if (c =? ch "u")%N then match_common_escape_at hex_4 (e ++ rest) 2
    else if (c =? ch "U")%N then match_common_escape_at hex_8 (e ++ rest) 2
    else Ok (mk_escape 2 true)).
  { intros e' -> He. unfold nasm_match_escape. destruct e' as [|c e']; [congruence|]. cbn [app length hd]. cbn [Nat.ltb Nat.leb nth]. rewrite N.eqb_refl. reflexivity. }
  destruct H as [c rest Hc|c w rest Hc Hw F L R|w rest Hw F L R|w rest [L F]|w rest [L F]].
  - rewrite (L2 [c]) by (reflexivity || discriminate). cbn [hd]. cbv zeta. cbn [In] in Hc. replace (mem c (bs "'`\?abtnvfre") || (c =? 34)%N) with true; [reflexivity|]. symmetry. apply orb_true_iff. destruct Hc as [<-|Hc]; [right; reflexivity|left; apply mem_In; exact Hc].
  - rewrite (L2 (c :: w)) by (reflexivity || discriminate). cbn [hd]. cbv zeta. unfold octal_digit in Hc. replace (mem c (bs "'`\?abtnvfre") || (c =? 34)%N) with false.
    2:{ symmetry. nomem c. noeq c. reflexivity. }
    replace (mem c (bs "01234567")) with true by (symmetry; apply mem_In; change (bs "01234567") with [48; 49; 50; 51; 52; 53; 54; 55]%N; cbn [In]; lia).
    change ((ch "\" :: c :: w) ++ rest) with ([ch "\"; c] ++ w ++ rest). change 2 with (length [ch "\"; c]) at 1. rewrite escape_at; [cbn [length]; do 2 f_equal; lia|]. apply (escape_octal_1_to _ 2); [auto|]. split; [exact Hw|]. split; [exact L|]. split; [exact F|]. destruct (Nat.eq_dec (length w) 2); [auto|right; apply R; lia].
  - rewrite (L2 (ch "x" :: w)) by (reflexivity || discriminate). cbn [hd]. change (match_common_escape_at hex_1_to_2 ((bs "\x" ++ w) ++ rest) 2 = Ok (mk_escape (length (bs "\x" ++ w)) false)).
    rewrite <- app_assoc. change 2 with (length (bs "\x")) at 1. rewrite escape_at; [rewrite app_length; do 2 f_equal; lia|]. apply escape_hex_1_to_2. split; [exact Hw|]. split; [exact L|]. split; [exact F|]. destruct (Nat.eq_dec (length w) 2); [auto|right; apply R; lia].
  - rewrite (L2 (ch "u" :: w)) by (reflexivity || discriminate). cbn [hd]. change (match_common_escape_at hex_4 ((bs "\u" ++ w) ++ rest) 2 = Ok (mk_escape (length (bs "\u" ++ w)) false)).
    rewrite <- app_assoc. change 2 with (length (bs "\u")) at 1. rewrite escape_at; [rewrite app_length; do 2 f_equal; lia|]. apply (escape_hex _ 4); [auto|split; assumption].
  - rewrite (L2 (ch "U" :: w)) by (reflexivity || discriminate). cbn [hd]. change (match_common_escape_at hex_8 ((bs "\U" ++ w) ++ rest) 2 = Ok (mk_escape (length (bs "\U" ++ w)) false)).
    rewrite <- app_assoc. change 2 with (length (bs "\U")) at 1. rewrite escape_at; [rewrite app_length; do 2 f_equal; lia|]. apply (escape_hex _ 8); [auto|split; assumption].
Qed.
Ltac fine_ := rewrite ?text_cons, ?text_app, ?opt_piece_text, ?text_one; cbn [tokens]; rewrite ?tokens_app, ?opt_piece_text; cbn [tokens rev]; rewrite ?rev_app_distr; cbn [rev app]; rewrite <- ?app_assoc; cbn [app]; rewrite ?app_length; cbn [length];
  repeat (f_equal; try (rewrite ?app_length; cbn [length]; lia)).
Lemma nasm_do_string s p rest : nasm_string p rest -> nasm_does s p rest s.
Proof.
  intros [q body close r Hq F Hc|body close r Hb Hc] i o.
  - rewrite text_cons. cbn [app]. apply open_quote; [cbn [In]; intuition auto|]. replace ((q =? 39)%N || (q =? 34)%N) with true by (destruct Hq as [->| ->]; reflexivity).
    unfold nasm_verbatim_content. apply wp_bind, wp_get_rem. cbn [rem]. cbv zeta. rewrite text_app, opt_piece_text, <- app_assoc. rewrite length_if_not_eq, prefix_len_exact.
    + apply flush_run. apply wp_bind, wp_get_rem. cbn [rem].
      destruct Hc as [->|[-> Hr]].
      * rewrite text_one. change (starts_with_ch ([q] ++ r) q) with (q =? q)%N. rewrite N.eqb_refl. cbn [when]. apply (emit_word [q]); [cbn; lia|]. fine_.
      * change (text [] ++ r) with r. replace (starts_with_ch r q) with false.
        2:{ symmetry. destruct Hr as [->|(t & [->| ->])]; [reflexivity| |]; destruct Hq as [->| ->]; reflexivity. }
        apply wp_ret. rewrite app_nil_r. fine_.
    + eapply Forall_impl; [|exact F]. intros c (H1 & H2 & H3). apply N.eqb_neq in H1, H2, H3. rewrite H1, H2, H3. reflexivity.
    + destruct Hc as [->|[-> Hr]]; [rewrite text_one; apply not_before_cons; rewrite N.eqb_refl, orb_true_r; discriminate|]. change (text [] ++ r) with r. destruct Hr as [->|(t & [->| ->])]; [apply not_before_nil| |]; apply not_before_cons; discriminate.
  - rewrite text_cons, text_app. change ([96%N] ++ text body ++ text close) with (96%N :: text body ++ text close). cbn [app]. apply open_quote; [cbn [In]; auto|]. change ((96 =? 39)%N || (96 =? 34)%N) with false. cbv iota.
    rewrite <- app_assoc. unfold nasm_backquote_content. eapply wp_mono.
    { apply (scan_body (nasm_role s) nasm_backquote_body hl_string nasm_plain nasm_item (text close ++ r) (fun j o' _ st' => st' = mk_hst r (j + length (text close)) (rev (tokens j close) ++ o') (nasm_role s))) with (f := true); [| | | |exact Hb].
      - intros p' r' [e re He]. rewrite text_one. destruct (nasm_escape_exact _ _ He) as (_ & t & ->). discriminate.
      - intros run r' len j o' Hp L. unfold nasm_backquote_body. apply wp_bind, wp_get_rem. cbn [rem]. cbv zeta. rewrite (proj2 (Nat.ltb_lt _ _)) by (rewrite app_length; lia). cbn [negb].
        destruct (nth_error run len) as [c|] eqn:E; [|apply nth_error_None in E; lia]. apply wp_bind. apply (wp_at_is _ len c); [rewrite nth_error_app1 by exact L; exact E|]. unfold nasm_plain in Hp. rewrite Forall_forall in Hp. apply nth_error_In in E. specialize (Hp c E). cbn [In] in Hp. nomem c. noeq c. apply wp_ret. auto.
      - intros run p' r' j o' _ [e re He]. rewrite text_one. destruct (nasm_escape_exact _ _ He) as (Ee & t & Et). unfold nasm_backquote_body. apply wp_bind, wp_get_rem. cbn [rem]. cbv zeta.
        rewrite (proj2 (Nat.ltb_lt _ _)) by (rewrite !app_length, Et; cbn; lia). cbn [negb]. apply wp_bind. apply (wp_at_is _ (length run) 92%N); [rewrite nth_error_app2, Nat.sub_diag, Et by lia; reflexivity|].
        change (mem 92%N [10; 13; 11]%N) with false. change (92 =? 96)%N with false. change (92 =? ch "\")%N with true. cbv iota. apply flush_run. apply wp_bind. unfold nasm_expect_escape. apply wp_bind, wp_get_rem. cbn [rem]. apply wp_bind. eapply wp_lift; [exact Ee|]. cbn [es_length es_erroneous].
        rewrite (proj2 (Nat.eqb_neq _ _)) by (rewrite Et; cbn; lia). apply wp_bind. apply emit_word; [rewrite Et; cbn; lia|]. apply wp_ret. cbn iota. apply wp_ret. split; [reflexivity|]. rewrite tokens_app, opt_piece_text, rev_app_distr. reflexivity.
      - intros run j o' _. unfold nasm_backquote_body. apply wp_bind, wp_get_rem. cbn [rem]. cbv zeta. destruct Hc as [->|[-> (t & Ht)]].
        + rewrite text_one. rewrite (proj2 (Nat.ltb_lt _ _)) by (rewrite !app_length; cbn; lia). cbn [negb]. apply wp_bind. apply (wp_at_is _ (length run) 96%N); [rewrite nth_error_app2, Nat.sub_diag by lia; reflexivity|].
          change (mem 96%N [10; 13; 11]%N) with false. change (96 =? 96)%N with true. cbv iota. apply flush_run. apply wp_bind. apply (emit_word [96%N]); [cbn; lia|]. apply wp_ret. reflexivity.
        + change (text [] ++ r) with r. rewrite (proj2 (Nat.ltb_lt _ _)) by (rewrite app_length; destruct Ht as [->| ->]; cbn; lia). cbn [negb]. apply wp_bind.
          destruct Ht as [->| ->]; [apply (wp_at_is _ (length run) 10%N)|apply (wp_at_is _ (length run) 13%N)]; try (rewrite nth_error_app2, Nat.sub_diag by lia; reflexivity);
            (match goal with |- context [mem ?a ?b] => change (mem a b) with true end; cbv iota; apply flush_run; apply wp_ret; cbn [text map concat length tokens rev app]; rewrite Nat.add_0_r; reflexivity). }
    cbn beta. intros _ st' ->. fine_.
Qed.

(** ** Comments, macro lines, symbols *)
Lemma crlf_line_exact t w rest : Forall (fun c => c <> 10%N /\ c <> 13%N) t -> nasm_line_end w rest -> match_crlf_line (t ++ w ++ rest) = (length t, length w).
Proof.
  intros F H. pose proof (C56_line (t ++ w ++ rest)) as K. destruct (match_crlf_line (t ++ w ++ rest)) as [n k]. destruct K as (co & te & re & E & <- & <- & N1 & N2 & T).
  enough (X : t = co /\ length w = length te) by (destruct X; subst; congruence).
  assert (F2 : Forall (fun c => c <> 10%N /\ c <> 13%N) co) by (apply Forall_forall; intros c Hc; split; intros ->; contradiction).
  assert (Stop : forall v r, nasm_line_end v r -> v ++ r = [] \/ exists c u, v ++ r = c :: u /\ (c = 10%N \/ c = 13%N)).
  { intros v r [[->|[->|[-> _]]]|[-> ->]]; [right|right|right|left; reflexivity]; cbn [app]; eauto. }
  assert (HT : nasm_line_end te re).
  { destruct T as [[->|[->|[-> T]]]|T]; [left; right; left; reflexivity|left; left; reflexivity| |right; exact T]. left; right; right. split; [reflexivity|]. intros c Hc. destruct re as [|d re]; [discriminate|]. injection Hc as ->. intros ->. exact (T re eq_refl). }
  assert (Et : t = co /\ w ++ rest = te ++ re).
  { clear - E F F2 Stop H HT. pose proof (Stop _ _ H) as S1'. pose proof (Stop _ _ HT) as S2. clear Stop H HT. revert co E F2. induction F as [|c t [Hc1 Hc2] F IH]; intros co E F2.
    - destruct co as [|d co]; [auto|]. exfalso. cbn [app] in E. apply Forall_inv in F2. destruct S1' as [S|(c & u & S & Hc)]; rewrite S in E; [discriminate|]. injection E as -> _. tauto.
    - destruct co as [|d co]; [exfalso; cbn [app] in E; destruct S2 as [S|(x & u & S & Hx)]; rewrite S in E; [discriminate|injection E as -> _; tauto]|].
      cbn [app] in E. injection E as -> E. apply Forall_cons_iff in F2 as [_ F2]. destruct (IH co E F2) as [-> X]. auto. }
  destruct Et as [-> Et]. split; [reflexivity|]. clear - Et H HT.
  destruct H as [[->|[->|[-> H]]]|[-> ->]], HT as [[->|[->|[-> HT]]]|[-> ->]]; cbn [app] in Et; try discriminate; try reflexivity; injection Et as Et; subst.
  - exact (False_rect _ (HT 10%N eq_refl eq_refl)).
  - exact (False_rect _ (H 10%N eq_refl eq_refl)).
Qed.
Lemma nasm_do_comment s t w rest : Forall (fun c => c <> 10%N /\ c <> 13%N) t -> nasm_line_end w rest -> nasm_does s ((bs ";", Some hl_comment_delim) :: opt_piece t hl_comment ++ [(w, None)]) rest nasm_mnemonic.
Proof.
  intros F H i o. rewrite text_cons, text_app, opt_piece_text, text_one. change (bs ";" ++ t ++ w) with (59%N :: t ++ w). cbn [app]. unfold nasm_consume_anything. apply wp_bind, wp_get_rem. cbn [rem]. apply wp_bind. eapply wp_at_is; [reflexivity|].
  match goal with |- wp ?m _ _ => change m with nasm_consume_comment end. unfold nasm_consume_comment. apply wp_bind, wp_get_rem. apply wp_bind, wp_check; [reflexivity|]. apply wp_bind. apply (emit_word [59%N]); [cbn; lia|]. apply wp_bind, wp_get_rem. cbn [rem]. cbv zeta.
  rewrite <- app_assoc, crlf_line_exact by assumption. cbn [fst snd]. apply flush_run. apply wp_bind, wp_advance_exact; [rewrite app_length; lia|]. rewrite skipn_app_exact. apply wp_set_loc_exact. cbn [tokens length]. rewrite tokens_app. cbn [tokens]. rewrite app_nil_r. cbn [rev]. rewrite <- app_assoc. cbn [app]. f_equal; cbn [app length]; rewrite ?app_length; lia.
Qed.
Lemma nasm_do_macro s t w rest : Forall (fun c => c <> 10%N /\ c <> 13%N) t -> nasm_line_end w rest -> nasm_does s [(ch "%" :: t, Some hl_name_macro); (w, None)] rest nasm_mnemonic.
Proof.
  intros F H i o. rewrite text_cons, text_one. change ((ch "%" :: t) ++ w) with (37%N :: t ++ w). cbn [app]. unfold nasm_consume_anything. apply wp_bind, wp_get_rem. cbn [rem]. apply wp_bind. eapply wp_at_is; [reflexivity|].
  match goal with |- wp ?m _ _ => change m with nasm_consume_macro end. unfold nasm_consume_macro. apply wp_bind, wp_get_rem. apply wp_bind, wp_check; [reflexivity|]. cbn [rem]. apply wp_bind. apply wp_substr_from; [cbn; lia|]. cbn [skipn].
  rewrite <- app_assoc, crlf_line_exact by assumption. cbn [fst snd]. cbv zeta. cbn [fst snd]. apply wp_bind. change (37%N :: t ++ w ++ rest) with ((37%N :: t) ++ w ++ rest). replace (length t + 1) with (length (37%N :: t)) by (cbn; lia). apply emit_word; [cbn; lia|]. apply wp_bind, wp_advance_exact; [rewrite app_length; lia|]. rewrite skipn_app_exact. apply wp_set_loc_exact. cbn [tokens rev app]. f_equal. cbn [length]. rewrite app_length. lia.
Qed.
Definition nasm_operator_symbols : list str := map fst (filter (fun e => (snd e =? hl_symbol_op)%N) nasm_symbols).
Lemma operator_max u s : In u nasm_operator_symbols -> length u <= nasm_match_operator (u ++ s).
Proof.
  intros Hu. let l := eval vm_compute in nasm_operator_symbols in change nasm_operator_symbols with l in Hu. cbn [In] in Hu.
  repeat (destruct Hu as [<-|Hu]; [cbn [app]; unfold nasm_match_operator;
    repeat match goal with |- context [mem ?a ?b] => let v := eval vm_compute in (mem a b) in change (mem a b) with v; cbv iota end;
    repeat match goal with |- context [(?a =? ?b)%N] => let v := eval vm_compute in (a =? b)%N in change (a =? b)%N with v; cbv iota end;
    repeat match goal with |- context [starts_with ?a (bs ?b)] => let E := fresh in destruct (starts_with a (bs b)) eqn:E; [cbn [length]; lia|try discriminate E] end; cbn [length]; lia|]).
  contradiction.
Qed.
Lemma operator_known c s : c <> 37%N -> nasm_match_operator (c :: s) <> 0 -> In (firstn (nasm_match_operator (c :: s)) (c :: s)) nasm_operator_symbols.
Proof.
  intros Hc. unfold nasm_match_operator.
  assert (K : forall u n, starts_with (c :: s) u = true -> length u = n -> In u nasm_operator_symbols -> In (firstn n (c :: s)) nasm_operator_symbols).
  { intros u n E <- Hi. apply starts_with_app in E as (v & ->). rewrite firstn_app_exact. exact Hi. }
  repeat match goal with
  | |- context [if mem ?a ?b then _ else _] => let E := fresh "E" in destruct (mem a b) eqn:E; [intros _; apply mem_In in E; cbn in E; repeat (destruct E as [<-|E]; [vm_compute; tauto|]); contradiction|]
  | |- context [if (?a =? ?b)%N then _ else _] => let E := fresh "E" in destruct (a =? b)%N eqn:E; [apply N.eqb_eq in E; subst a|]
  | |- context [if starts_with ?a ?b then _ else _] => let E := fresh "E" in destruct (starts_with a b) eqn:E; [intros _; first [elim Hc; reflexivity|apply (K b); [exact E|reflexivity|vm_compute; tauto]]|]
  end; intros Z; try (elim Z; reflexivity); first [elim Hc; reflexivity|vm_compute; tauto].
Qed.
Ltac one_symbol_ := unfold nasm_consume_anything; apply wp_bind, wp_get_rem; cbn [rem app]; apply wp_bind; eapply wp_at_is; [reflexivity|];
  repeat match goal with |- context [mem ?a ?b] => let v := eval vm_compute in (mem a b) in change (mem a b) with v; cbv iota end;
  repeat match goal with |- context [(?a =? ch ?b)%N] => let v := eval vm_compute in (a =? ch b)%N in change (a =? ch b)%N with v; cbv iota end;
  repeat match goal with |- context [is_ascii_digit ?a] => change (is_ascii_digit a) with false; cbv iota end; apply (wp_emit_exact false 1); [cbn; lia|]; reflexivity.
Lemma operator_head t : In t nasm_operator_symbols -> exists c u, t = c :: u /\ In c [63; 58; 43; 45; 126; 33; 124; 38; 94; 62; 60; 47]%N.
Proof.
  let l := eval vm_compute in nasm_operator_symbols in change nasm_operator_symbols with l. cbn [In]. intros Ht. repeat (destruct Ht as [<-|Ht]; [eexists _, _; split; [reflexivity|tauto]|]). contradiction.
Qed.
Lemma operator_in t : In (t, hl_symbol_op) nasm_symbols <-> In t nasm_operator_symbols.
Proof.
  unfold nasm_operator_symbols. rewrite in_map_iff. split.
  - intros H. exists (t, hl_symbol_op). split; [reflexivity|]. apply filter_In. split; [exact H|]. apply N.eqb_refl.
  - intros ([w k] & E & H). apply filter_In in H as [H K]. cbn [fst snd] in *. apply N.eqb_eq in K. subst. exact H.
Qed.
Lemma operator_len c u rest : c <> 37%N -> In (c :: u) nasm_operator_symbols -> longest nasm_symbols (c :: u) rest -> nasm_match_operator (c :: u ++ rest) = length (c :: u).
Proof.
  intros Hc Ht HL. pose proof (operator_max _ rest Ht) as M. pose proof (nasm_operator_le (c :: u ++ rest)) as Ln. cbn [app] in M. pose proof (operator_known c (u ++ rest) Hc) as K. revert M Ln K. generalize (nasm_match_operator (c :: u ++ rest)). intros n M Ln K.
  assert (K2 : In (firstn n (c :: u ++ rest)) nasm_operator_symbols) by (apply K; cbn [length] in M; lia). apply operator_in in K2. specialize (HL _ _ (skipn n (c :: u ++ rest)) K2 (eq_sym (firstn_skipn n (c :: u ++ rest)))). rewrite firstn_length, Nat.min_l in HL by exact Ln. lia.
Qed.
Lemma nasm_do_operator s t rest : In (t, hl_symbol_op) nasm_symbols -> longest nasm_symbols t rest -> nasm_does s [(t, Some hl_symbol_op)] rest s.
Proof.
  intros Hi HL i o. rewrite text_one. apply operator_in in Hi. destruct (operator_head t Hi) as (c & u & -> & Hc). cbn [In] in Hc. pose proof (operator_len c u rest ltac:(lia) Hi HL) as L. clear Hi HL.
  cbn [app]. unfold nasm_consume_anything. apply wp_bind, wp_get_rem. cbn [rem]. apply wp_bind. eapply wp_at_is; [reflexivity|]. rewrite L. clear L. nomem c. noeq c. replace (is_ascii_digit c) with false by (symmetry; apply not_true_is_false; rewrite digit_iff; unfold digit; lia).
  cbn [length Nat.eqb negb]. apply (emit_word (c :: u)); [cbn; lia|]. reflexivity.
Qed.
Definition nasm_marks : list (N * N) := [(40, hl_symbol_parens); (41, hl_symbol_parens); (91, hl_symbol_square); (93, hl_symbol_square); (123, hl_symbol_brace); (125, hl_symbol_brace); (44, hl_symbol_punc)]%N.
Lemma nasm_do_mark s c h rest : In (c, h) nasm_marks -> nasm_does s [([c], Some h)] rest s.
Proof.
  intros Hi i o. rewrite text_one. cbn [nasm_marks In] in Hi. repeat (destruct Hi as [[= <- <-]|Hi]; [one_symbol_|]). contradiction.
Qed.
Lemma nasm_symbols_cases : forallb (fun e => (snd e =? hl_symbol_op)%N || existsb (fun m => str_eqb (fst e) [fst m] && (snd e =? snd m)%N) nasm_marks) nasm_symbols = true.
Proof. vm_compute. reflexivity. Qed.
Lemma nasm_do_symbol s t h rest : In (t, h) nasm_symbols -> longest nasm_symbols t rest -> nasm_does s [(t, Some h)] rest s.
Proof.
  intros Hi HL. pose proof nasm_symbols_cases as K. rewrite forallb_forall in K. specialize (K _ Hi). cbn [fst snd] in K. apply orb_true_iff in K as [K|K].
  - apply N.eqb_eq in K. subst h. apply nasm_do_operator; assumption.
  - apply existsb_exists in K as ([c k] & Hm & K). cbn [fst snd] in K. apply andb_true_iff in K as [K1 K2]. apply str_eqb_eq in K1. apply N.eqb_eq in K2. subst t h. apply nasm_do_mark. exact Hm.
Qed.

(** ** C111 *)
Lemma nasm_do s p rest s' : nasm_lexeme s p rest s' -> nasm_does s p rest s'.
Proof.
  intros [s0 c r Hc|s0 c r Hc|s0 t w r F H|s0 t w r F H|s0 q r s1 H|s0 q r H|s0 q r H|s0 t h r H1 H2].
  - intros i o. rewrite text_one. unfold nasm_consume_anything. apply wp_bind, wp_get_rem. cbn [rem app]. apply wp_bind. eapply wp_at_is; [reflexivity|]. replace (mem c [32; 9]%N) with true by (destruct Hc as [->| ->]; reflexivity). apply wp_advance_exact; [cbn; lia|]. reflexivity.
  - intros i o. rewrite text_one. unfold nasm_consume_anything. apply wp_bind, wp_get_rem. cbn [rem app]. apply wp_bind. eapply wp_at_is; [reflexivity|]. replace (mem c [32; 9]%N) with false by (destruct Hc as [->| ->]; reflexivity). replace (mem c [13; 10]%N) with true by (destruct Hc as [->| ->]; reflexivity).
    apply wp_bind, wp_set_loc_exact, wp_advance_exact; [cbn; lia|]. reflexivity.
  - apply nasm_do_comment; assumption.
  - apply nasm_do_macro; assumption.
  - apply nasm_do_named. exact H.
  - apply nasm_do_number. exact H.
  - apply nasm_do_string. exact H.
  - apply nasm_do_symbol; assumption.
Qed.
Lemma nasm_head s p rest s' : nasm_lexeme s p rest s' -> text p <> [].
Proof.
  assert (KN : forall w, nasm_name w -> w <> []) by (intros w (c & t & -> & _); discriminate).
  assert (KC : forall l w, forallb (fun v => negb (length v =? 0)) l = true -> one_of l w -> w <> []) by (intros l w H1 H2 ->; rewrite forallb_forall in H1; specialize (H1 _ H2); discriminate).
  assert (KG : forall d I pre, grouped d 95%N I -> pre ++ text I <> []) by (intros d I q G E; apply app_eq_nil in E as [_ E]; apply grouped_ne in G; congruence).
  intros [s0 c r Hc|s0 c r Hc|s0 t w r F H|s0 t w r F H|s0 q r s1 H|s0 q r H|s0 q r H|s0 t h r H1 H2]; try (rewrite ?text_cons; discriminate).
  - destruct H as [s2 w r H R|s2 w r H HL HO|s2 w r H R|s2 w r H R|s2 w r H HM R|s2 w r H R|s2 w r H R|s2 w r H HL HD HO R]; rewrite text_one;
      first [eapply KC; [|exact H]; vm_compute; reflexivity | apply KN; exact H | intros E; apply app_eq_nil in E as [_ E]; discriminate E].
  - destruct H as [I f e r G GF GE R|pre d I r Hp G R HL|c t I r G E Hc R|c t x d r Hx Hc F R]; [| | |rewrite text_cons; discriminate]; rewrite number_pieces_text; intros E0; rewrite app_assoc in E0; apply app_eq_nil in E0 as [E0 _]; exact (KG _ _ _ G E0).
  - destruct H; rewrite text_cons; discriminate.
  - rewrite text_one. intros ->. revert H1. let l := eval vm_compute in nasm_symbols in change nasm_symbols with l. cbn [In]. intuition discriminate.
Qed.
Theorem C111_nasm_lexemes : forall l, sequence nasm_lexeme nasm_mnemonic l -> tokenizes highlight_nasm l.
Proof.
  intros l Hl. unfold tokenizes, highlight_nasm. intros strict. apply (while_states_exact nasm_role nasm_lexeme nasm_consume_anything nasm_head (fun s p r s' i o H => nasm_do s p r s' H i o) l nasm_mnemonic Hl).
Qed.
Print Assumptions C111_nasm_lexemes.
