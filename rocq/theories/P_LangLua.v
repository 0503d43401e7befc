(** * The Lua highlighter *)
From Coq Require Import List NArith Bool Arith Lia.
From Verif Require L_JsonText.
From Verif Require Import M_Base L_Base M_Buffer L_Buffer S_Tokens M_Emit S_Ops L_Emit M_Types M_Chars M_Parse L_Parse M_Api M_Utf8 S_Utf8 L_Utf8 L_Any M_Table S_Json S_Lexemes
  M_Highlighter S_Highlight L_Highlighter L_Lexemes L_Number L_Symbols L_WfSteps M_LangLua S_LangLua.
Import ListNotations.

(** ** Output *)
Lemma lua_emit_spec coal b acc begin len ty : tb_ok b acc -> tb_ok (lua_emit coal b begin len ty) (add_token coal false acc begin len ty).
Proof.
  intros Hb. pose proof (tb_ok_last _ _ Hb) as Hl. unfold lua_emit, add_token. destruct (rev (cells b)) as [|t r] eqn:E.
  - subst acc. now apply tb_push.
  - destruct Hl as (r' & ->). cbn [orb]. destruct (coal && _ && _) eqn:C.
    + eapply tb_set_back; eauto.
    + now apply tb_push.
Qed.

(** The operations follow each other from [i] to [j]; only comments and strings may be empty. *)
Fixpoint chain (i : nat) (ops : list out_op) (j : nat) : Prop :=
  match ops with
  | [] => i = j
  | OEmit b n ty f :: r => b = i /\ f = false /\ (n = 0 -> ty = hl_comment \/ ty = hl_string) /\ chain (i + n) r j
  | ONested _ _ _ _ :: _ => False
  end.
(** The same with gaps, from [i] on *)
Fixpoint rising (i : nat) (ops : list out_op) (j : nat) : Prop :=
  match ops with
  | [] => i <= j
  | OEmit b n ty f :: r => i <= b /\ f = false /\ (n = 0 -> ty = hl_comment \/ ty = hl_string) /\ rising (b + n) r j
  | ONested _ _ _ _ :: _ => False
  end.
Lemma chain_rising i ops j : forall more k, chain i ops j -> rising j more k -> rising i (ops ++ more) k.
Proof.
  revert i. induction ops as [|[b n ty f|] ops IH]; intros i more k; cbn [chain rising app]; [intros ->; auto| |tauto].
  intros (-> & H2 & H3 & H4) H5. repeat split; try assumption; try lia. apply IH; assumption.
Qed.
Lemma rising_weaken i ops k : forall i', i' <= i -> rising i ops k -> rising i' ops k.
Proof. destruct ops as [|[b n ty f|] ops]; cbn [rising]; [lia| |tauto]. intros i' L (H & R). split; [lia|exact R]. Qed.

(** Tokens so far, most recent first, all before [hi] *)
Fixpoint rseq (hi : nat) (acc : list token) : Prop :=
  match acc with
  | [] => True
  | t :: r => tk_end t <= hi /\ (tk_len t = 0 -> tk_type t = hl_comment \/ tk_type t = hl_string) /\ rseq (tk_begin t) r
  end.
Lemma rseq_le hi acc : forall hi', hi <= hi' -> rseq hi acc -> rseq hi' acc.
Proof. destruct acc; cbn [rseq]; [tauto|]. intros hi' L (H & R). split; [lia|exact R]. Qed.
Lemma rseq_add coal acc hi begin len ty : hi <= begin -> (len = 0 -> ty = hl_comment \/ ty = hl_string) -> rseq hi acc -> rseq (begin + len) (add_token coal false acc begin len ty).
Proof.
  intros L E H. assert (N : rseq (begin + len) (mk_token begin len ty :: acc)) by (cbn [rseq tk_end tk_begin tk_len tk_type]; unfold tk_end; cbn [tk_begin tk_len]; repeat split; [lia|exact E|eapply rseq_le; [exact L|exact H]]).
  unfold add_token. destruct acc as [|t r]; [exact N|]. destruct (_ && _ && _) eqn:C; [|exact N].
  apply andb_true_iff in C as [C C3]. apply Nat.eqb_eq in C3. cbn [rseq] in *. unfold tk_end in *. cbn [tk_begin tk_len tk_type]. destruct H as (H1 & H2 & H3).
  repeat split; [lia| |exact H3]. intros Z. apply H2. lia.
Qed.
Lemma rseq_tokens coal ops : forall i j acc, rising i ops j -> rseq i acc -> rseq j (rtokens coal acc ops).
Proof.
  induction ops as [|[b n ty f|] ops IH]; intros i j acc; cbn [rising rtokens].
  - apply rseq_le.
  - intros (H1 & -> & H3 & H4) H5. eapply IH; [exact H4|]. cbn [out_op_rtokens]. eapply rseq_add; eassumption.
  - tauto.
Qed.
Lemma rseq_In hi acc : rseq hi acc -> forall t, In t acc -> tk_end t <= hi /\ (tk_len t = 0 -> tk_type t = hl_comment \/ tk_type t = hl_string).
Proof.
  revert hi. induction acc as [|u acc IH]; intros hi; cbn [rseq In]; [tauto|]. intros (H1 & H2 & H3) t [<-|Ht]; [auto|]. destruct (IH _ H3 t Ht) as [H4 H5]. split; [unfold tk_end in *; lia|exact H5].
Qed.
Lemma rseq_order acc : forall hi, rseq hi acc -> forall i j t u, i < j -> nth_error (rev acc) i = Some t -> nth_error (rev acc) j = Some u -> tk_end t <= tk_begin u.
Proof.
  induction acc as [|x acc IH]; intros hi H i j t u L Hi Hj; [destruct i; discriminate|]. cbn [rseq rev] in *. destruct H as (H1 & _ & H3).
  assert (Lj : j < length (rev acc ++ [x])) by (apply nth_error_Some; congruence). rewrite app_length in Lj. cbn [length] in Lj.
  rewrite nth_error_app1 in Hi by lia. destruct (Nat.lt_ge_cases j (length (rev acc))) as [Lj2|Lj2].
  - rewrite nth_error_app1 in Hj by lia. exact (IH _ H3 i j t u L Hi Hj).
  - rewrite nth_error_app2 in Hj by lia. replace (j - length (rev acc)) with 0 in Hj by lia. injection Hj as <-. apply nth_error_In in Hi. apply in_rev in Hi. eapply rseq_In in Hi; [|exact H3]. tauto.
Qed.
Lemma rising_emits i ops j : rising i ops j -> Forall (fun o => match o with OEmit _ _ _ f => f = false | ONested _ _ _ _ => False end) ops.
Proof. revert i. induction ops as [|[b n ty f|] ops IH]; intros i; cbn [rising]; [constructor| |tauto]. intros (H1 & H2 & H3 & H4). constructor; [exact H2|]. eapply IH. exact H4. Qed.
Lemma lua_replay_spec coal ops : Forall (fun o => match o with OEmit _ _ _ f => f = false | ONested _ _ _ _ => False end) ops -> forall b acc, tb_ok b acc ->
  exists b', lua_replay coal b ops = Ok b' /\ tb_ok b' (rtokens coal acc ops).
Proof.
  induction 1 as [|o ops Ho _ IH]; intros b acc Hb; cbn [lua_replay rtokens]; [eauto|].
  destruct o as [begin len ty f|]; [|destruct Ho]. subst f. cbn [out_op_rtokens]. apply IH. now apply lua_emit_spec.
Qed.
Lemma lua_output_spec coal cap n ops : 0 < cap -> rising 0 ops n ->
  exists chunks, lua_output coal cap ops = Ok chunks /\ concat chunks = tokens_of coal ops /\ in_sequence n (concat chunks)
    /\ forall t, In t (concat chunks) -> tk_len t = 0 -> tk_type t = hl_comment \/ tk_type t = hl_string.
Proof.
  intros Hc Hr. unfold lua_output. destruct (new_tb_ok cap Hc) as (b & -> & Hb). cbn [bind].
  destruct (lua_replay_spec coal ops (rising_emits _ _ _ Hr) b [] Hb) as (b' & -> & Hb'). cbn [bind]. eexists. split; [reflexivity|].
  rewrite (calls_flush _ _ Hb'). split; [reflexivity|]. pose proof (rseq_tokens coal ops 0 n [] Hr Logic.I) as R. split; [split|].
  - intros t Ht. apply in_rev in Ht. eapply rseq_In in Ht; [|exact R]. tauto.
  - eapply rseq_order. exact R.
  - intros t Ht. apply in_rev in Ht. eapply rseq_In in Ht; [|exact R]. tauto.
Qed.

(** ** Each round makes progress inside the source. *)
Definition lua_ok (i : nat) (s : str) (r : res (nat * list out_op)) : Prop :=
  exists k ops, r = Ok (k, ops) /\ 0 < k <= length s /\ (chain i ops (i + k) \/ ops = [] /\ Forall lua_space (firstn k s)).
Lemma find_close_len eq s : forall k, lua_find_close eq s = Some k -> k + 2 + eq <= length s.
Proof.
  induction s as [|c s IH]; intros k; cbn [lua_find_close]; [discriminate|]. destruct (_ && _) eqn:E.
  - intros [= <-]. apply andb_true_iff in E as [_ E]. cbn [length]. enough (eq + 1 <= length s) by lia. clear IH. revert eq E. induction s as [|d s IH]; intros eq E; destruct eq; cbn [lua_closes] in E; try discriminate; cbn [length]; [lia|].
    apply andb_true_iff in E as [_ E]. apply IH in E. lia.
  - destruct (lua_find_close eq s) as [j|]; [|discriminate]. cbn [option_map]. intros [= <-]. specialize (IH j eq_refl). cbn [length]. lia.
Qed.
Lemma lua_long_len s open eq : open <= length s -> let r := lua_long s open eq in fst r <= length s /\ open + (if snd r then 2 + eq else 0) <= fst r.
Proof.
  intros L. unfold lua_long. destruct (lua_find_close eq (skipn open s)) as [k|] eqn:E; cbn [fst snd]; [|lia].
  apply find_close_len in E. rewrite skipn_length in E. lia.
Qed.
Lemma lua_digits_le p s n : n <= length s -> n <= lua_digits p s n <= length s.
Proof. intros L. unfold lua_digits. pose proof (prefix_len_le p (skipn n s)) as H. rewrite skipn_length in H. lia. Qed.
Lemma lua_at_lt n s cs : lua_at n s cs = true -> n < length s.
Proof. unfold lua_at. destruct (nth_error s n) eqn:E; [|discriminate]. intros _. apply nth_error_Some. congruence. Qed.
Lemma lua_fraction_le p s n : n <= length s -> n <= lua_fraction p s n <= length s.
Proof. intros L. unfold lua_fraction. destruct (lua_at n s _) eqn:E; [|lia]. apply lua_at_lt in E. pose proof (lua_digits_le p s (n + 1)). lia. Qed.
Lemma lua_sign_le s n : n <= length s -> n <= lua_sign s n <= length s.
Proof. intros L. unfold lua_sign. destruct (lua_at n s _) eqn:E; [|lia]. apply lua_at_lt in E. lia. Qed.
Lemma lua_number_le s : lua_match_number s <= length s.
Proof.
  unfold lua_match_number. destruct (_ && _ && _) eqn:E.
  - apply andb_true_iff in E as [E _]. apply andb_true_iff in E as [E _]. apply Nat.leb_le in E.
    pose proof (lua_digits_le is_ascii_hex_digit s 2 E) as H1. pose proof (lua_fraction_le is_ascii_hex_digit s _ (proj2 H1)) as H2. cbv zeta. destruct (lua_at _ s [112; 80]%N) eqn:E2; [|lia]. apply lua_at_lt in E2.
    set (n := lua_fraction _ _ _) in *. pose proof (lua_sign_le s (n + 1)) as H3. pose proof (lua_digits_le is_ascii_digit s (lua_sign s (n + 1))). lia.
  - clear E. cbv zeta. pose proof (lua_digits_le is_ascii_digit s 0) as H1. set (n := lua_digits is_ascii_digit s 0) in *.
    set (m := if _ && _ && _ && _ then _ else _). assert (Hm : m <= length s).
    { unfold m. destruct (_ && _ && _ && _) eqn:E; [|destruct (0 <? n); [apply lua_fraction_le; lia|lia]]. apply andb_true_iff in E as [E _]. apply andb_true_iff in E as [E _]. apply andb_true_iff in E as [_ E]. apply Nat.leb_le in E. apply lua_digits_le. lia. }
    clearbody m. destruct (_ || _); [lia|]. destruct (lua_at m s _) eqn:E2; [|lia]. apply lua_at_lt in E2. destruct (_ =? _); [lia|]. pose proof (lua_sign_le s (m + 1)). apply lua_digits_le. lia.
Qed.
Lemma lua_identifier_loop_ok s : forall fuel len, length s - len < fuel -> len <= length s -> exists n, lua_identifier_loop fuel s len = Ok n /\ len <= n <= length s.
Proof.
  induction fuel as [|fuel IH]; intros len L1 L2; [lia|]. cbn [lua_identifier_loop]. destruct (len <? length s) eqn:E; [|exists len; split; [reflexivity|lia]]. apply Nat.ltb_lt in E.
  destruct (replacement_any (skipn len s)) as (c & n & -> & B & _); [intros Z; apply (f_equal (@length N)) in Z; rewrite skipn_length in Z; cbn in Z; lia|]. cbn [bind fst snd]. rewrite skipn_length in B.
  destruct (negb _); [exists len; split; [reflexivity|lia]|]. destruct (IH (len + n)) as (m & -> & Hm); [lia|lia|]. exists m. split; [reflexivity|lia].
Qed.
Lemma lua_identifier_ok s : exists n, lua_match_identifier s = Ok n /\ n <= length s.
Proof.
  destruct s as [|c s]; [exists 0; split; [reflexivity|lia]|]. unfold lua_match_identifier. destruct (replacement_any (c :: s)) as (d & n & -> & B & _); [discriminate|]. cbn [bind fst snd].
  destruct (negb _); [exists 0; split; [reflexivity|lia]|]. destruct (lua_identifier_loop_ok (c :: s) (S (length (c :: s))) n) as (m & -> & Hm); [lia|lia|]. exists m. split; [reflexivity|lia].
Qed.
Lemma lua_symbol_ok s t : lua_match_symbol s = Some t -> good_symbol lua_tokens s t.
Proof.
  destruct s as [|c s]; cbn [lua_match_symbol]; [discriminate|]. intros H.
  destruct (mem c _) eqn:E; [injection H as <-; eapply good_mem; [eassumption|vm_compute; reflexivity]|clear E].
  repeat match type of H with (if (?c =? ?x)%N then _ else _) = _ => let E := fresh "E" in destruct (c =? x)%N eqn:E; [apply N.eqb_eq in E; subst c|clear E] end; try discriminate H.
  all: injection H as <-; destruct s as [|d [|e s]];
    repeat match goal with |- context [(?d =? ?x)%N] => is_var d; let E := fresh "E" in destruct (d =? x)%N eqn:E; [apply N.eqb_eq in E; subst d|clear E]; cbn [andb] end;
    (split; [reflexivity|split; [discriminate|vm_compute; reflexivity]]).
Qed.
Lemma lua_sub_ok a b : b <= a -> lua_sub a b = Ok (a - b).
Proof. intros H. unfold lua_sub. apply Nat.leb_le in H. rewrite H. reflexivity. Qed.
Lemma lua_read_ok s i : i < length s -> lua_read s i = Ok (nth i s 0%N).
Proof. intros H. unfold lua_read. rewrite (nth_error_nth' s 0%N H). reflexivity. Qed.
Lemma lua_equals_le i s : i <= length s -> i + lua_equals i s <= length s.
Proof. intros H. unfold lua_equals. pose proof (prefix_len_le (N.eqb 61) (skipn i s)) as L. rewrite skipn_length in L. lia. Qed.
Lemma lua_quoted_le q s : forall e, fst (lua_quoted q e s) <= length s.
Proof.
  induction s as [|c s IH]; intros e; cbn [lua_quoted]; [cbn; lia|]. cbn [length]. pose proof (IH true). pose proof (IH false).
  destruct e; [cbn [fst]; lia|]. destruct (c =? 92)%N; [cbn [fst]; lia|]. destruct (c =? q)%N; [cbn [fst]; lia|]. destruct (c =? 10)%N; cbn [fst]; lia.
Qed.
Lemma starts_nth s p i : starts_with s p = true -> i < length p -> nth i s 0%N = nth i p 0%N.
Proof. intros H L. apply starts_with_app in H as (v & ->). apply app_nth1. exact L. Qed.
(** The character after the equals signs, if there is a count of them *)
Lemma lua_equals_first i s : lua_equals i s <> 0 -> nth i s 0%N = 61%N.
Proof.
  unfold lua_equals. revert i. induction s as [|c s IH]; intros i H; [destruct i; elim H; reflexivity|]. destruct i as [|i]; [|apply IH; exact H]. cbn [skipn prefix_len] in H. destruct (61 =? c)%N eqn:E; [|elim H; reflexivity]. apply N.eqb_eq in E. subst c. reflexivity.
Qed.
Ltac chn := cbn [chain]; repeat split; try lia; try (intros ?; auto; lia).
Lemma lua_step_ok i s : s <> [] -> lua_ok i s (lua_step i s).
Proof.
  intros Hne. unfold lua_step. destruct ((7 <=? length s) && _) eqn:E0.
  { apply andb_true_iff in E0 as [E0 _]. apply Nat.leb_le in E0. eexists _, _. split; [reflexivity|]. split; [lia|]. left. chn. }
  clear E0. destruct (lua_match_whitespace s =? 0) eqn:E1; cbn [negb].
  2: { apply Nat.eqb_neq in E1. unfold lua_match_whitespace in *. pose proof (length_if_le s is_lua_whitespace). eexists _, _. split; [reflexivity|]. split; [lia|]. right. split; [reflexivity|].
       rewrite length_if_eq. apply Forall_prefix_len. intros c Hc. apply mem_In in Hc. unfold lua_space. cbn [In] in *. tauto. }
  clear E1. destruct (lua_match_line_comment s =? 0) eqn:E2; cbn [negb].
  2: { apply Nat.eqb_neq in E2. revert E2. unfold lua_match_line_comment. destruct (starts_with s (bs "--")) eqn:S1; cbn [negb]; [|congruence]. destruct (_ && str_eqb _ _); [congruence|]. destruct (_ && _ && _); [congruence|]. intros _.
       apply starts_with_length in S1. cbn in S1. pose proof (prefix_len_le (fun c => negb (c =? 10)%N) (skipn 2 s)) as L. rewrite skipn_length in L. rewrite lua_sub_ok by lia. cbn [bind]. eexists _, _. split; [reflexivity|]. split; [lia|]. left. chn. }
  clear E2. destruct (lc_length (lua_match_block_comment s) =? 0) eqn:E3; cbn [negb].
  2: { apply Nat.eqb_neq in E3. revert E3. unfold lua_match_block_comment. destruct ((length s <? 4) || _) eqn:B1.
    - destruct ((length s <? 5) || _) eqn:B2; [cbn [lc_length]; congruence|]. cbv zeta. destruct (_ || _ || _) eqn:B3; [cbn [lc_length]; congruence|]. cbn [lc_length lc_terminated]. intros _.
      apply orb_false_iff in B2 as [B2 B4]. apply Nat.ltb_ge in B2. apply negb_false_iff in B4. apply orb_false_iff in B3 as [B3 B5]. apply orb_false_iff in B3 as [B3 B6]. apply Nat.eqb_neq in B3. apply Nat.leb_gt in B6.
      rewrite !lua_read_ok by lia. cbn [bind]. rewrite (lua_equals_first 3 s B3). rewrite (starts_nth _ _ 2 B4) by (cbn; lia). cbn [nth bs]. change ((nth 2 (bs "--[") 0 =? 91)%N && negb (61 =? 91)%N) with true. cbv iota.
      set (eq := lua_equals 3 s) in *. destruct (lua_long_len s (3 + eq + 1) eq) as [L1 L2]; [lia|]. destruct (lua_long s (3 + eq + 1) eq) as [n b]. cbn [fst snd] in *.
      destruct b; rewrite !lua_sub_ok by lia; cbn [bind]; rewrite !lua_sub_ok by lia; cbn [bind]; rewrite ?lua_sub_ok by lia; cbn [bind]; (eexists _, _; split; [reflexivity|]; split; [lia|]; left); chn.
    - apply orb_false_iff in B1 as [B1 B2]. apply Nat.ltb_ge in B1. apply negb_false_iff in B2. cbv zeta. cbn [lc_length lc_terminated]. intros _. rewrite !lua_read_ok by lia. cbn [bind].
      rewrite (starts_nth _ _ 2 B2), (starts_nth _ _ 3 B2) by (cbn; lia). change ((nth 2 (bs "--[[") 0 =? 91)%N && negb (nth 3 (bs "--[[") 0 =? 91)%N) with false. cbv iota.
      destruct (lua_long_len s 4 0) as [L1 L2]; [lia|]. destruct (lua_long s 4 0) as [n b]. cbn [fst snd] in *.
      destruct b; rewrite !lua_sub_ok by lia; cbn [bind]; rewrite !lua_sub_ok by lia; cbn [bind]; rewrite ?lua_sub_ok by lia; cbn [bind]; (eexists _, _; split; [reflexivity|]; split; [lia|]; left); chn. }
  clear E3. destruct (ls_length (lua_match_string s) =? 0) eqn:E4; cbn [negb].
  2: { apply Nat.eqb_neq in E4. revert E4. unfold lua_match_string. destruct s as [|c t] eqn:Es; [congruence|]. rewrite <- Es in *. destruct ((c =? 34)%N || (c =? 39)%N) eqn:Q.
    - cbv zeta. cbn [ls_length ls_long]. intros _. pose proof (lua_quoted_le c t false) as L. eexists _, _. split; [reflexivity|]. split; [subst s; cbn [length]; lia|]. left. chn.
    - destruct (starts_with s (bs "[[")) eqn:B1.
      + cbv zeta. cbn [ls_length ls_long ls_terminated]. intros _. pose proof (starts_with_length _ _ B1) as L0. cbn in L0. rewrite lua_read_ok by lia. cbn [bind].
        rewrite (starts_nth _ _ 0 B1), (starts_nth _ _ 1 B1) by (cbn; lia). change (nth 1 (bs "[[") 0 =? 61)%N with false. rewrite andb_false_r.
        destruct (lua_long_len s 2 0) as [L1 L2]; [lia|]. destruct (lua_long s 2 0) as [n b]. cbn [fst snd] in *.
        destruct b; rewrite !lua_sub_ok by lia; cbn [bind]; rewrite !lua_sub_ok by lia; cbn [bind]; rewrite ?lua_sub_ok by lia; cbn [bind]; (eexists _, _; split; [reflexivity|]; split; [lia|]; left); chn.
      + destruct (starts_with s (bs "[") && _) eqn:B2; [|cbn [ls_length]; congruence]. cbv zeta. destruct (_ || _ || _) eqn:B3; [cbn [ls_length]; congruence|]. cbn [ls_length ls_long ls_terminated]. intros _.
        apply andb_true_iff in B2 as [B4 B2]. apply orb_false_iff in B3 as [B3 B5]. apply orb_false_iff in B3 as [B3 B6]. apply Nat.eqb_neq in B3. apply Nat.leb_gt in B6.
        pose proof (Nat.leb_le 3 (length s)) as L0. rewrite B2 in L0. assert (3 <= length s) by tauto. rewrite lua_read_ok by lia. cbn [bind]. rewrite (starts_nth _ _ 0 B4) by (cbn; lia). rewrite (lua_equals_first 1 s B3), B2. change ((nth 0 (bs "[") 0 =? 91)%N && true && (61 =? 61)%N) with true. cbv iota.
        set (eq := lua_equals 1 s) in *. destruct (lua_long_len s (1 + eq + 1) eq) as [L1 L2]; [lia|]. destruct (lua_long s (1 + eq + 1) eq) as [n b]. cbn [fst snd] in *.
        destruct b; rewrite !lua_sub_ok by lia; cbn [bind]; rewrite !lua_sub_ok by lia; cbn [bind]; rewrite ?lua_sub_ok by lia; cbn [bind]; (eexists _, _; split; [reflexivity|]; split; [lia|]; left); chn. }
  clear E4. destruct (lua_match_number s =? 0) eqn:E5; cbn [negb].
  2: { apply Nat.eqb_neq in E5. pose proof (lua_number_le s). eexists _, _. split; [reflexivity|]. split; [lia|]. left. chn. }
  clear E5. destruct (lua_identifier_ok s) as (n & -> & Ln). cbn [bind]. destruct (n =? 0) eqn:E6; cbn [negb].
  2: { apply Nat.eqb_neq in E6. eexists _, _. split; [reflexivity|]. split; [lia|]. left. chn. }
  clear E6 n Ln. destruct (lua_match_symbol s) as [t|] eqn:E7.
  - apply lua_symbol_ok in E7. pose proof (good_symbol_len _ _ _ E7). destruct (good_symbol_find _ _ _ E7) as (h & Hh). unfold lua_token_by_code. rewrite Hh. eexists _, _. split; [reflexivity|]. split; [lia|]. left. chn.
  - eexists _, _. split; [reflexivity|]. split; [destruct s; [congruence|cbn; lia]|]. left. chn.
Qed.

Lemma lua_loop_ok : forall fuel i s, length s < fuel -> exists ops, lua_loop fuel i s = Ok ops /\ rising i ops (i + length s)
  /\ forall pos c, nth_error s pos = Some c -> lua_space c \/ covered (i + pos) ops.
Proof.
  induction fuel as [|fuel IH]; intros i s L; [lia|]. cbn [lua_loop]. destruct s as [|c0 t] eqn:Es.
  { exists []. split; [reflexivity|]. split; [cbn; lia|]. intros pos c H. destruct pos; discriminate. }
  rewrite <- Es in *. assert (Hne : s <> []) by (subst; discriminate). clear Es c0 t.
  destruct (lua_step_ok i s Hne) as (k & ops & -> & Hk & Hc). cbn [bind fst snd]. rewrite (proj2 (Nat.leb_le _ _) (proj2 Hk)).
  destruct (IH (i + k) (skipn k s)) as (more & -> & R & C); [rewrite skipn_length; lia|]. cbn [bind]. rewrite skipn_length in R. replace (i + k + (length s - k)) with (i + length s) in R by lia.
  exists (ops ++ more). split; [reflexivity|]. split.
  - destruct Hc as [Hc|[-> _]]; [eapply chain_rising; eassumption|]. eapply rising_weaken; [|exact R]. lia.
  - intros pos c Hp. destruct (Nat.lt_ge_cases pos k) as [Lp|Lp].
    + destruct Hc as [Hc|[-> F]].
      * right. enough (K : covered (i + pos) ops) by (destruct K as (o & Ho & Co); exists o; split; [apply in_or_app; left; exact Ho|exact Co]).
        clear - Hc Lp. assert (B : i <= i + pos < i + k) by lia. revert Hc B. generalize (i + k) as j. generalize (i + pos) as p. clear. revert i. induction ops as [|[b n ty f|] ops IH]; intros i p j; cbn [chain]; [lia| |tauto].
        intros (-> & -> & _ & H) B. destruct (Nat.lt_ge_cases p (i + n)) as [Lp|Lp]; [eexists; split; [left; reflexivity|cbn; lia]|]. destruct (IH (i + n) p j H) as (o & Ho & Co); [lia|]. exists o. split; [right; exact Ho|exact Co].
      * left. rewrite Forall_forall in F. apply F. apply (nth_error_In _ pos). rewrite <- Hp. transitivity (nth_error (firstn k s ++ skipn k s) pos); [rewrite nth_error_app1; [reflexivity|rewrite firstn_length; lia]|rewrite firstn_skipn; reflexivity].
    + destruct (C (pos - k) c) as [H|(o & Ho & Co)]; [rewrite nth_error_skipn; replace (k + (pos - k)) with pos by lia; exact Hp|left; exact H|].
      right. exists o. split; [apply in_or_app; right; exact Ho|]. replace (i + pos) with (i + k + (pos - k)) by lia. exact Co.
Qed.

(** ** C106: success, order and coverage. Tokens can be empty. *)
Theorem C106_lua_refuted : ~ (forall src strict coal cap, 0 < cap -> exists ops chunks, highlight_lua src strict = Ok (true, ops)
    /\ lua_output coal cap ops = Ok chunks /\ well_formed (length src) (concat chunks)).
Proof.
  intros H. destruct (H (bs "--") false true 1 ltac:(lia)) as (ops & chunks & E & O & W & _). vm_compute in E. injection E as <-. vm_compute in O. injection O as <-.
  destruct (W (mk_token 2 0 hl_comment)) as [W1 _]; [right; left; reflexivity|]. cbn in W1. lia.
Qed.
Theorem C106_lua_partial : forall src strict coal cap, 0 < cap -> exists ops chunks, highlight_lua src strict = Ok (true, ops)
    /\ lua_output coal cap ops = Ok chunks /\ in_sequence (length src) (concat chunks)
    /\ (forall t, In t (concat chunks) -> tk_len t = 0 -> tk_type t = hl_comment \/ tk_type t = hl_string)
    /\ forall pos c, nth_error src pos = Some c -> ~ lua_space c -> exists ty, highlighted (concat chunks) pos ty.
Proof.
  intros src strict coal cap Hc. destruct (lua_loop_ok (S (length src)) 0 src) as (ops & E & R & C); [lia|]. destruct (lua_output_spec coal cap (length src) ops Hc R) as (chunks & O & T & Q & Z).
  exists ops, chunks. split; [unfold highlight_lua; rewrite E; reflexivity|]. split; [exact O|]. split; [exact Q|]. split; [exact Z|].
  intros pos c Hp Hn. destruct (C pos c Hp) as [K|K]; [contradiction|]. destruct (covered_highlighted _ _ K) as (ty & Hx). exists ty. rewrite T. now apply tokens_of_highlighted.
Qed.
Print Assumptions C106_lua_refuted.
Print Assumptions C106_lua_partial.
Example C106_case : highlighted [mk_token 0 2 hl_comment_delim; mk_token 2 1 hl_comment] 2 hl_comment /\ in_sequence 3 [mk_token 0 2 hl_comment_delim; mk_token 2 0 hl_comment].
Proof.
  split; [exists (mk_token 2 1 hl_comment); split; [right; left; reflexivity|cbn; lia]|]. split.
  - intros t [<-|[<-|[]]]; cbn; lia.
  - intros [|[|i]] [|[|j]] t u L; cbn; intros H1 H2; try lia; try (destruct i; discriminate); try (destruct j; discriminate). injection H1 as <-. injection H2 as <-. cbn. lia.
Qed.

(** ** Exact tokens *)
Definition lua_does (p : list piece) (rest : str) : Prop := forall i, lua_step i (text p ++ rest) = Ok (length (text p), tokens i p).

Lemma no_const c t : c <> 60%N -> (7 <=? length (c :: t)) && str_eqb (firstn 7 (c :: t)) (bs "<const>") = false.
Proof.
  intros H. destruct (str_eqb _ _) eqn:E; [|apply andb_false_r]. apply str_eqb_eq in E. cbn [firstn] in E. change (bs "<const>") with (60%N :: bs "const>") in E. injection E as E _. contradiction.
Qed.
Lemma no_space c t : ~ lua_space c -> lua_match_whitespace (c :: t) = 0.
Proof.
  intros H. unfold lua_match_whitespace. rewrite length_if_eq. cbn [prefix_len]. destruct (is_lua_whitespace c) eqn:E; [|reflexivity]. apply mem_In in E. elim H. unfold lua_space. cbn [In] in *. tauto.
Qed.
Lemma no_line s : starts_with s (bs "--") = false -> lua_match_line_comment s = 0.
Proof. intros H. unfold lua_match_line_comment. rewrite H. reflexivity. Qed.
Lemma no_block s : starts_with s (bs "--") = false -> lua_match_block_comment s = mk_lua_comment 0 false.
Proof.
  intros H. assert (K : forall p, starts_with s (bs "--" ++ p) = false).
  { intros p. destruct (starts_with s (bs "--" ++ p)) eqn:E; [|reflexivity]. apply starts_with_app in E as (v & ->). rewrite <- app_assoc in H. rewrite (proj2 (starts_with_app _ _)) in H; [discriminate|eauto]. }
  unfold lua_match_block_comment. change (bs "--[[") with (bs "--" ++ bs "[["). change (bs "--[") with (bs "--" ++ bs "["). rewrite !K. rewrite !orb_true_r. reflexivity.
Qed.
Lemma no_string c t : c <> 34%N -> c <> 39%N -> c <> 91%N -> lua_match_string (c :: t) = mk_lua_string 0 false false.
Proof.
  intros H1 H2 H3. unfold lua_match_string. apply N.eqb_neq in H1, H2, H3. rewrite H1, H2. cbn [orb]. change (bs "[[") with [91; 91]%N. change (bs "[") with [91]%N. cbn [starts_with]. rewrite H3. reflexivity.
Qed.
Lemma is_digit c : is_ascii_digit c = true <-> digit c.
Proof. unfold is_ascii_digit, between, digit. rewrite andb_true_iff, !N.leb_le. reflexivity. Qed.
Lemma no_number c t : ~ digit c -> c <> 46%N \/ not_before digit t -> lua_match_number (c :: t) = 0.
Proof.
  intros H1 H2. unfold lua_match_number. assert (c <> 48%N) by (intros ->; apply H1; unfold digit; lia). cbn [nth]. rewrite (proj2 (N.eqb_neq c 48)) by assumption. rewrite andb_false_r. cbn [andb].
  assert (E : lua_digits is_ascii_digit (c :: t) 0 = 0). { unfold lua_digits. cbn [skipn prefix_len]. destruct (is_ascii_digit c) eqn:E; [apply is_digit in E; contradiction|reflexivity]. }
  rewrite E. cbv zeta. cbn [Nat.eqb Nat.ltb Nat.leb]. replace (_ && _ && _ && _) with false; [reflexivity|].
  symmetry. destruct H2 as [H2|H2]; [apply N.eqb_neq in H2; rewrite H2, andb_false_r; reflexivity|]. destruct t as [|d t]; [reflexivity|]. cbn [nth]. destruct (is_ascii_digit d) eqn:D; [apply is_digit in D; elim (H2 d eq_refl D)|apply andb_false_r].
Qed.
Lemma no_ident c t : (c < 128)%N -> ~ ident_start c -> lua_match_identifier (c :: t) = Ok 0.
Proof.
  intros L H. unfold lua_match_identifier. rewrite decode_ascii by assumption. cbn [bind fst]. destruct (is_lua_identifier_start c) eqn:E; [|reflexivity]. change (is_lua_identifier_start c) with (M_LangCpp.is_cpp_ascii_identifier_start c) in E. apply ident_start_iff in E. contradiction.
Qed.
Lemma lua_ident_loop w rest : forall fuel a, Forall ident_char w -> not_before ident_or_non_ascii rest -> length w < fuel -> lua_identifier_loop fuel (a ++ w ++ rest) (length a) = Ok (length a + length w).
Proof.
  induction w as [|c w IH]; intros fuel a F R L; (destruct fuel as [|fuel]; [cbn in L; lia|]); cbn [lua_identifier_loop]; rewrite app_length.
  - cbn [app length] in *. destruct (length a <? length a + length rest) eqn:E; [|f_equal; lia]. apply Nat.ltb_lt in E. rewrite skipn_app_exact. destruct rest as [|c rest]; [cbn in E; lia|]. specialize (R c eq_refl).
    unfold ident_or_non_ascii in R. rewrite decode_ascii by lia. cbn [bind fst]. destruct (is_lua_identifier_continue c) eqn:Ec; [change (is_lua_identifier_continue c) with (M_LangCpp.is_cpp_ascii_identifier_continue c) in Ec; apply ident_char_iff in Ec; tauto|]. cbn [negb]. f_equal. lia.
  - apply Forall_cons_iff in F as [Fc F]. rewrite (proj2 (Nat.ltb_lt _ _)) by (cbn [app length]; lia). rewrite skipn_app_exact. cbn [app]. rewrite decode_ascii by (unfold ident_char, letter, digit in Fc; lia). cbn [bind fst snd].
    change (is_lua_identifier_continue c) with (M_LangCpp.is_cpp_ascii_identifier_continue c). rewrite (proj2 (ident_char_iff c) Fc). cbn [negb]. cbn [length] in *.
    replace (a ++ c :: w ++ rest) with ((a ++ [c]) ++ w ++ rest) by (rewrite <- app_assoc; reflexivity). replace (length a + 1) with (length (a ++ [c])) by (rewrite app_length; reflexivity). rewrite IH by (try assumption; lia). rewrite app_length. cbn [length]. f_equal. lia.
Qed.
Lemma lua_ident_exact w rest : identifier w -> not_before ident_or_non_ascii rest -> lua_match_identifier (w ++ rest) = Ok (length w).
Proof.
  intros (c & t & -> & Hc & F) R. unfold lua_match_identifier. cbn [app]. assert (c < 128)%N by (unfold ident_start, letter in Hc; lia). rewrite decode_ascii by assumption. cbn [bind fst snd].
  change (is_lua_identifier_start c) with (M_LangCpp.is_cpp_ascii_identifier_start c). rewrite (proj2 (ident_start_iff c) Hc). cbn [negb].
  pose proof (lua_ident_loop t rest (S (length (c :: t ++ rest))) [c] F R) as H1. cbn [app length] in *. rewrite H1; [reflexivity|rewrite app_length; lia].
Qed.
Lemma starts_first c t d p : c <> d -> starts_with (c :: t) (d :: p) = false.
Proof. intros H. cbn [starts_with]. apply N.eqb_neq in H. rewrite H. reflexivity. Qed.

Lemma lua_words_ok : words_ok lua_tokens lua_words = true.
Proof. vm_compute. reflexivity. Qed.
Lemma do_word w h rest : identifier w -> match lua_token_by_code w with Some h => h | None => hl_name end = h -> not_before ident_or_non_ascii rest -> lua_does [(w, Some h)] rest.
Proof.
  intros Hw E R i. rewrite text_one. pose proof (lua_ident_exact w rest Hw R) as Ei. pose proof Hw as (c & t & Ew & Hc & _). unfold ident_start, letter in Hc.
  unfold lua_step. rewrite Ew at 1 2. cbn [app]. rewrite no_const by (intros ->; lia). rewrite Ew at 1. cbn [app]. rewrite no_space by (unfold lua_space; cbn [In]; lia). cbn [Nat.eqb negb].
  assert (S : starts_with (w ++ rest) (bs "--") = false) by (rewrite Ew; change (bs "--") with [45; 45]%N; apply starts_first; intros ->; lia). rewrite no_line, no_block by exact S. cbn [Nat.eqb negb lc_length].
  rewrite Ew at 1. cbn [app]. rewrite no_string by (intros ->; lia). cbn [ls_length Nat.eqb negb]. rewrite Ew at 1. cbn [app]. rewrite no_number by (unfold digit; try left; intros; lia). cbn [Nat.eqb negb].
  rewrite Ei. cbn [bind]. rewrite firstn_app_exact, E. replace (negb (length w =? 0)) with true by (rewrite Ew; reflexivity). cbn [tokens]. rewrite Nat.add_0_r. reflexivity.
Qed.

(** *** Numbers *)
Lemma lua_digits_exact (p : N -> bool) (d : N -> Prop) a ds r : (forall c, p c = true <-> d c) -> Forall d ds -> not_before d r -> lua_digits p (a ++ ds ++ r) (length a) = length (a ++ ds).
Proof.
  intros Hp F R. unfold lua_digits. rewrite skipn_app_exact, app_length. f_equal. apply prefix_len_exact.
  - eapply Forall_impl; [|exact F]. intros c Hc. apply Hp. exact Hc.
  - eapply not_before_impl; [|exact R]. intros c Hc. apply Hp. exact Hc.
Qed.
Lemma lua_at_exact a r cs : lua_at (length a) (a ++ r) cs = match r with [] => false | c :: _ => mem c cs end.
Proof. unfold lua_at. rewrite nth_error_app2 by lia. rewrite Nat.sub_diag. destruct r; reflexivity. Qed.
Lemma lua_at_no a r cs : not_before (fun c => In c cs) r -> lua_at (length a) (a ++ r) cs = false.
Proof. intros H. rewrite lua_at_exact. destruct r as [|c r]; [reflexivity|]. destruct (mem c cs) eqn:E; [|reflexivity]. apply mem_In in E. elim (H c eq_refl E). Qed.
Lemma is_hex c : is_ascii_hex_digit c = true <-> hex_digit c.
Proof. unfold is_ascii_hex_digit, is_ascii_lower_hex_digit, is_ascii_upper_hex_digit, is_ascii_digit, between, hex_digit. rewrite ?orb_true_iff, ?andb_true_iff, ?N.leb_le. lia. Qed.
Lemma lua_sign_exact a sign r : In sign [[]; bs "+"; bs "-"] -> not_before (fun c => c = 43%N \/ c = 45%N) r -> lua_sign (a ++ sign ++ r) (length a) = length (a ++ sign).
Proof.
  intros H R. unfold lua_sign. rewrite lua_at_exact, app_length. cbn [In] in H. destruct H as [<-|[<-|[<-|[]]]]; cbn [app length]; [|reflexivity..].
  rewrite Nat.add_0_r. destruct r as [|c r]; [reflexivity|]. destruct (mem c _) eqn:E; [|reflexivity]. apply mem_In in E. cbn [In] in E. elim (R c eq_refl). intuition congruence.
Qed.
Lemma lua_exponent_exact a marks e rest : lua_exponent marks e -> not_before (fun c => ident_char c \/ c = 46%N) rest -> (forall c, In c marks -> letter c) ->
  let s := a ++ e ++ rest in
  if lua_at (length a) s marks then e <> [] /\ lua_digits is_ascii_digit s (lua_sign s (length a + 1)) = length (a ++ e) /\ lua_sign s (length a + 1) < length (a ++ e) else e = [].
Proof.
  intros He R Hm s. unfold s. destruct He as [|x sign ds Hx Hs Hd F].
  - cbn [app]. rewrite lua_at_no; [reflexivity|]. intros c E K. apply Hm in K. apply (R c E). left. left. exact K.
  - rewrite lua_at_exact. cbn [app]. rewrite (proj2 (mem_In _ _) Hx). split; [discriminate|].
    replace (a ++ x :: (sign ++ ds) ++ rest) with ((a ++ [x]) ++ sign ++ ds ++ rest) by (rewrite <- !app_assoc; reflexivity). replace (length a + 1) with (length (a ++ [x])) by (rewrite app_length; reflexivity).
    assert (S : not_before (fun c => c = 43%N \/ c = 45%N) (ds ++ rest)). { destruct ds as [|y ds]; [congruence|]. apply Forall_cons_iff in F as [Fy _]. intros c E. injection E as <-. unfold digit in Fy. lia. }
    rewrite lua_sign_exact by assumption. rewrite (app_assoc (a ++ [x]) sign). rewrite (lua_digits_exact _ digit); [|exact is_digit|exact F|].
    + rewrite !app_length. cbn [length]. rewrite !app_length. destruct ds; [congruence|]. cbn [length]. lia.
    + eapply not_before_impl; [|exact R]. intros c Hc. left. right. left. exact Hc.
Qed.
Lemma lua_fraction_exact (p : N -> bool) (d : N -> Prop) a x b r : (forall c, p c = true <-> d c) -> ~ d 46%N -> Forall d x -> Forall d b -> not_before d r ->
  lua_fraction p (a ++ (x ++ 46%N :: b) ++ r) (lua_digits p (a ++ (x ++ 46%N :: b) ++ r) (length a)) = length (a ++ x ++ 46%N :: b).
Proof.
  intros Hp Hd Fx Fb R. rewrite <- app_assoc. rewrite (lua_digits_exact p d); [|exact Hp|exact Fx|intros c [= <-]; exact Hd]. unfold lua_fraction. rewrite app_assoc. rewrite lua_at_exact. cbn [app mem existsb]. rewrite N.eqb_refl. cbn [orb].
  replace (a ++ x) with (a ++ x) by reflexivity. replace ((a ++ x) ++ 46%N :: b ++ r) with (((a ++ x) ++ [46%N]) ++ b ++ r) by (rewrite <- !app_assoc; reflexivity). replace (length (a ++ x) + 1) with (length ((a ++ x) ++ [46%N])) by (rewrite (app_length (a ++ x)); reflexivity).
  rewrite (lua_digits_exact p d) by assumption. rewrite <- !app_assoc. reflexivity.
Qed.
Lemma lua_whole_exact (p : N -> bool) (d : N -> Prop) a x r : (forall c, p c = true <-> d c) -> Forall d x -> not_before d r -> not_before (fun c => c = 46%N) r ->
  lua_digits p (a ++ x ++ r) (length a) = length (a ++ x) /\ lua_fraction p (a ++ x ++ r) (length (a ++ x)) = length (a ++ x).
Proof.
  intros Hp Fx R1 R2. split; [apply (lua_digits_exact p d); assumption|]. unfold lua_fraction. rewrite app_assoc, lua_at_no; [reflexivity|]. intros c E [K|[]]. elim (R2 c E). congruence.
Qed.
Lemma lua_number_exact w rest : lua_numeral w -> not_before (fun c => ident_char c \/ c = 46%N) rest -> lua_match_number (w ++ rest) = length w /\ exists c t, w = c :: t /\ (digit c \/ c = 46%N /\ exists d u, t = d :: u /\ digit d).
Proof.
  intros H R. assert (R10 : not_before digit rest) by (eapply not_before_impl; [|exact R]; intros c Hc; left; right; left; exact Hc).
  assert (Rdot : not_before (fun c => c = 46%N) rest) by (eapply not_before_impl; [|exact R]; intros c Hc; right; exact Hc).
  destruct H as [m e Hm He|x m e Hx Hm He].
  - assert (Hmark : forall c, In c (bs "eE") -> letter c) by (intros c [<-|[<-|[]]]; unfold letter; cbn; lia).
    pose proof (fun a => lua_exponent_exact a (bs "eE") e rest He R Hmark) as EX. cbv zeta in EX.
    assert (R1 : not_before digit (e ++ rest)). { destruct He as [|y sign ds Hy]; [exact R10|]. apply Hmark in Hy. intros c [= <-]. unfold letter, digit in *. lia. }
    assert (R2 : not_before (fun c => c = 46%N) (e ++ rest)). { destruct He as [|y sign ds Hy]; [exact Rdot|]. apply Hmark in Hy. intros c [= <-]. unfold letter in *. lia. }
    assert (R3 : forall c u, e ++ rest = c :: u -> ~ In c [120; 88]%N).
    { intros c u E. destruct He as [|y sign ds Hy]; [destruct rest as [|z rest]; [discriminate|]; injection E as -> _; intros K; apply (R c eq_refl); left; left; cbn [In] in K; unfold letter; lia|]. injection E as -> _. cbn [In]. destruct Hy as [<-|[<-|[]]]; intuition discriminate. }
    unfold lua_match_number. rewrite <- app_assoc.
    assert (Hmn : exists c t, m = c :: t /\ (digit c \/ c = 46%N /\ exists d u, t = d :: u /\ digit d)).
    { destruct Hm as [m Hn F|a b Hn Fa Fb]; [destruct m as [|c t]; [congruence|]; apply Forall_cons_iff in F as [F _]; eauto|]. destruct a as [|c t]; [|apply Forall_cons_iff in Fa as [F _]; cbn [app]; eauto].
      destruct b as [|d u]; [elim Hn; reflexivity|]. apply Forall_cons_iff in Fb as [F _]. eexists _, _. split; [reflexivity|]. right. split; [reflexivity|]. eauto. }
    assert (Hpre : (2 <=? length (m ++ e ++ rest)) && (nth 0 (m ++ e ++ rest) 0 =? 48)%N && mem (nth 1 (m ++ e ++ rest) 0%N) [120; 88]%N = false).
    { destruct (mem _ _) eqn:M; [|apply andb_false_r]. rewrite andb_true_r. apply mem_In in M. destruct Hmn as (c & t & -> & Hc). cbn [app nth] in *. destruct t as [|d t].
      - cbn [app] in *. destruct (e ++ rest) as [|z u] eqn:E; [reflexivity|]. cbn [nth] in M. elim (R3 z u eq_refl M).
      - cbn [app nth] in M. cbn [In] in M. exfalso. assert (Hd : d = 46%N \/ digit d \/ c = 46%N /\ digit d).
        { inversion Hm as [m' Hn F E1|a b Hn Fa Fb E1]. { apply Forall_cons_iff in F as [_ F]. apply Forall_cons_iff in F as [F _]. auto. }
          destruct a as [|c' [|d' a]]; cbn [app] in E1; [injection E1 as E1 E2; subst c b; apply Forall_cons_iff in Fb as [Fb _]; auto|injection E1 as _ E1 _; subst d; left; reflexivity|]. injection E1 as _ E1 _. subst d'. apply Forall_cons_iff in Fa as [_ Fa]. apply Forall_cons_iff in Fa as [Fa _]. auto. }
        unfold digit in Hd. lia. }
    rewrite Hpre. cbv zeta. split; [|destruct Hmn as (c & t & -> & Hc); exists c, (t ++ e); split; [reflexivity|]; destruct Hc as [Hc|(Hc & d & u & -> & Hd)]; [left; exact Hc|right; split; [exact Hc|]; exists d, (u ++ e); split; [reflexivity|exact Hd]]].
    match goal with |- context [if ?b then 0 else _] => set (cond := b) end. revert cond. set (n := if _ && _ && _ && _ then _ else _). intros cond.
    assert (En : n = length m).
    { unfold n. clear n cond. destruct Hm as [m Hn F|a b Hn Fa Fb].
      - destruct (lua_whole_exact is_ascii_digit digit [] m (e ++ rest) is_digit F R1 R2) as [E1 E2]. cbn [app length] in E1, E2. rewrite E1. destruct m as [|c m]; [congruence|]. cbn [length Nat.eqb andb Nat.ltb Nat.leb]. exact E2.
      - pose proof (lua_fraction_exact is_ascii_digit digit [] a b (e ++ rest) is_digit ltac:(unfold digit; lia) Fa Fb R1) as E1. cbn [app length] in E1.
        destruct a as [|c a].
        + cbn [app] in *. destruct b as [|y b]; [elim Hn; reflexivity|]. pose proof (lua_digits_exact is_ascii_digit digit [46%N] (y :: b) (e ++ rest) is_digit Fb R1) as E2. change (length [46%N]) with 1 in E2. cbn [app] in E2.
          replace (lua_digits is_ascii_digit (ch "." :: (y :: b) ++ e ++ rest) 0) with 0 by reflexivity. cbn [Nat.eqb andb nth app]. apply Forall_cons_iff in Fb as [Fy _]. rewrite (proj2 (is_digit y) Fy). cbn [length Nat.leb andb N.eqb]. exact E2.
        + assert (E2 : lua_digits is_ascii_digit (((c :: a) ++ ch "." :: b) ++ e ++ rest) 0 = length (c :: a)).
          { pose proof (lua_digits_exact is_ascii_digit digit [] (c :: a) ((ch "." :: b) ++ e ++ rest) is_digit Fa) as E3. cbn [app length] in E3. cbn [app]. rewrite <- !app_assoc. cbn [app]. apply E3. intros z [= <-]. unfold digit. cbn. lia. }
          change 46%N with (ch ".") in E1. rewrite E2 in *. cbn [length Nat.eqb andb Nat.ltb Nat.leb]. exact E1. }
    clearbody n. subst n. assert (Hc : cond = false).
    { unfold cond. clear cond. destruct Hmn as (c & t & -> & Hc). cbn [length Nat.eqb orb]. destruct t as [|d t]; [|reflexivity]. cbn [length Nat.eqb app nth andb]. destruct Hc as [Hc|(_ & d & u & E & _)]; [|discriminate]. apply N.eqb_neq. unfold digit in Hc. lia. }
    rewrite Hc. clear Hc cond. specialize (EX m). change (bs "eE") with [101; 69]%N in EX. destruct (lua_at (length m) (m ++ e ++ rest) [101; 69]%N).
    + destruct EX as (_ & EX & EL). rewrite EX. destruct (_ =? _) eqn:Z; [apply Nat.eqb_eq in Z; lia|reflexivity].
    + subst e. rewrite app_nil_r. reflexivity.
  - assert (Hmark : forall c, In c (bs "pP") -> letter c) by (intros c [<-|[<-|[]]]; unfold letter; cbn; lia).
    pose proof (fun a => lua_exponent_exact a (bs "pP") e rest He R Hmark) as EX. cbv zeta in EX.
    assert (R1 : not_before hex_digit (e ++ rest)). { destruct He as [|y sign ds Hy]; [eapply not_before_impl; [|exact R]; intros c Hc; left; unfold hex_digit, ident_char, letter, digit in *; lia|]. intros c [= <-]. destruct Hy as [<-|[<-|[]]]; unfold hex_digit; cbn; lia. }
    assert (R2 : not_before (fun c => c = 46%N) (e ++ rest)). { destruct He as [|y sign ds Hy]; [exact Rdot|]. apply Hmark in Hy. intros c [= <-]. unfold letter in *. lia. }
    split; [|exists 48%N, (x :: m ++ e); split; [reflexivity|]; left; unfold digit; lia].
    unfold lua_match_number. cbn [app length Nat.leb nth andb]. change (ch "0" =? 48)%N with true. change [120; 88]%N with (bs "xX"). rewrite (proj2 (mem_In _ _) Hx). cbn [andb]. cbv zeta.
    assert (En : lua_fraction is_ascii_hex_digit (ch "0" :: x :: (m ++ e) ++ rest) (lua_digits is_ascii_hex_digit (ch "0" :: x :: (m ++ e) ++ rest) 2) = length ([ch "0"; x] ++ m)).
    { rewrite <- app_assoc. change (ch "0" :: x :: m ++ e ++ rest) with ([ch "0"; x] ++ m ++ e ++ rest). change 2 with (length [ch "0"; x]). destruct Hm as [m Hn F|a b Hn Fa Fb].
      - destruct (lua_whole_exact is_ascii_hex_digit hex_digit [ch "0"; x] m (e ++ rest) is_hex F R1 R2) as [E1 E2]. rewrite E1. exact E2.
      - apply (lua_fraction_exact is_ascii_hex_digit hex_digit); [exact is_hex|unfold hex_digit; lia|exact Fa|exact Fb|exact R1]. }
    rewrite En. specialize (EX ([ch "0"; x] ++ m)). replace (([ch "0"; x] ++ m) ++ e ++ rest) with (ch "0" :: x :: (m ++ e) ++ rest) in EX by (cbn [app]; rewrite <- app_assoc; reflexivity). change (bs "pP") with [112; 80]%N in EX.
    destruct (lua_at _ _ _).
    + destruct EX as (_ & EX & _). rewrite EX. rewrite <- app_assoc. reflexivity.
    + subst e. rewrite app_nil_r. reflexivity.
Qed.
Lemma do_number w rest : lua_numeral w -> not_before (fun c => ident_char c \/ c = ch ".") rest -> lua_does [(w, Some hl_number)] rest.
Proof.
  intros Hw R i. rewrite text_one. destruct (lua_number_exact w rest Hw R) as (En & c & t & Ew & Hc). assert (Hc2 : digit c \/ c = 46%N) by tauto. unfold digit in Hc2. unfold lua_step.
  replace (w ++ rest) with (c :: t ++ rest) in * by (rewrite Ew; reflexivity). rewrite no_const, no_space by (unfold lua_space; cbn [In]; lia). cbn [Nat.eqb negb].
  assert (S : starts_with (c :: t ++ rest) (bs "--") = false) by (change (bs "--") with [45; 45]%N; apply starts_first; intros ->; lia). rewrite no_line, no_block by exact S. cbn [Nat.eqb negb lc_length].
  rewrite no_string by lia. cbn [ls_length Nat.eqb negb]. rewrite En. replace (negb (length w =? 0)) with true by (rewrite Ew; reflexivity). cbn [tokens]. rewrite Nat.add_0_r. reflexivity.
Qed.

(** *** Symbols *)
Lemma lua_symbol_known s u : lua_match_symbol s = Some u -> exists h, In (u, h) lua_symbols.
Proof.
  intros H. enough (K : known lua_symbols [u] = true) by (apply (known_In _ _ K); left; reflexivity). revert H.
  destruct s as [|c s]; cbn [lua_match_symbol]; [discriminate|]. intros H.
  destruct (mem c _) eqn:E; [injection H as <-; apply mem_In in E; cbv in E; repeat (destruct E as [<-|E]; [vm_compute; reflexivity|]); contradiction|clear E].
  repeat match type of H with (if (?c =? ?x)%N then _ else _) = _ => let E := fresh "E" in destruct (c =? x)%N eqn:E; [apply N.eqb_eq in E; subst c|clear E] end; try discriminate H.
  all: injection H as <-; destruct s as [|d [|e s]];
    repeat match goal with |- context [(?d =? ?x)%N] => is_var d; let E := fresh "E" in destruct (d =? x)%N eqn:E; [apply N.eqb_eq in E; subst d|clear E]; cbn [andb] end;
    vm_compute; reflexivity.
Qed.
Lemma lua_symbol_least t h rest u : In (t, h) lua_symbols -> lua_match_symbol (t ++ rest) = Some u -> length t <= length u.
Proof.
  intros H E. destruct (lua_symbol_ok _ _ E) as (_ & Hu & _). assert (Hu1 : 1 <= length u) by (destruct u; [congruence|cbn; lia]). clear Hu. revert E.
  assert (K : length t <= 1 \/ In t [bs ".."; bs "..."; bs "//"; bs "::"; bs "<<"; bs "<="; bs "=="; bs ">="; bs ">>"; bs "~="]).
  { cbv in H. repeat (destruct H as [H|H]; [injection H as <- <-; first [left; cbn; lia | right; cbv; tauto]|]). contradiction. }
  destruct K as [K|K]; [intros _; lia|]. clear H. cbv in K. repeat (destruct K as [K|K]; [subst t; destruct rest as [|d rest]; cbn; try (destruct d as [|d]; cbn); intros [= <-]; cbn; try lia; repeat match goal with |- context [if ?b then _ else _] => destruct b end; cbn; lia|]). contradiction.
Qed.
Lemma lua_symbol_exact t h rest : In (t, h) lua_symbols -> longest lua_symbols t rest -> lua_match_symbol (t ++ rest) = Some t /\ lua_token_by_code t = Some h /\ exists c u, t = c :: u /\ (c < 128)%N /\ ~ ident_start c /\ ~ digit c /\ ~ lua_space c /\ c <> 34%N /\ c <> 39%N.
Proof.
  intros H L.
  assert (G : lua_token_by_code t = Some h /\ lua_match_symbol t = Some t /\ exists c u, t = c :: u /\ (c < 128)%N /\ ~ ident_start c /\ ~ digit c /\ ~ lua_space c /\ c <> 34%N /\ c <> 39%N).
  { clear L. cbv in H. repeat (destruct H as [H|H]; [injection H as <- <-; split; [vm_compute; reflexivity|]; split; [vm_compute; reflexivity|]; eexists _, _; split; [reflexivity|]; unfold ident_start, letter, digit, lua_space; cbn [In]; repeat split; lia|]). contradiction. }
  destruct G as (G1 & G2 & c & u & Et & Gc). split; [|split; [exact G1|eauto]].
  assert (S : lua_match_symbol (t ++ rest) <> None).
  { intros Z. rewrite Et in Z, G2. cbn [app lua_match_symbol] in Z, G2. destruct (mem c _); [discriminate|]. repeat match type of Z with (if ?b then _ else _) = _ => destruct b; [discriminate|] end. discriminate G2. }
  destruct (lua_match_symbol (t ++ rest)) as [v|] eqn:E; [|congruence]. pose proof (lua_symbol_least _ _ _ _ H E) as L1. destruct (lua_symbol_known _ _ E) as (h' & Hv). destruct (lua_symbol_ok _ _ E) as (Sv & _). apply starts_with_app in Sv as (x & Ex).
  specialize (L v h' x Hv Ex). f_equal. assert (Lv : length v = length t) by lia. apply (f_equal (firstn (length t))) in Ex. rewrite firstn_app_exact in Ex. rewrite <- Lv in Ex. rewrite firstn_app_exact in Ex. symmetry. exact Ex.
Qed.
Lemma lua_equals_prefix i s : skipn i s = repeat 61%N (lua_equals i s) ++ skipn (i + lua_equals i s) s.
Proof.
  unfold lua_equals. rewrite <- skipn_skipn. generalize (skipn i s) as r. clear. induction r as [|c r IH]; [reflexivity|]. cbn [prefix_len]. destruct (61 =? c)%N eqn:E; [|reflexivity]. apply N.eqb_eq in E. subst c. cbn [repeat app skipn]. rewrite <- IH. reflexivity.
Qed.
Lemma skipn_nth i s : i < length s -> skipn i s = nth i s 0%N :: skipn (S i) s.
Proof. revert i. induction s as [|c s IH]; intros i L; [cbn in L; lia|]. destruct i as [|i]; [reflexivity|]. cbn [skipn nth]. rewrite IH by (cbn in L; lia). reflexivity. Qed.
(** The bracket from position [i - 1] on *)
Lemma lua_bracket_cases i s : (i + lua_equals i s <? length s) && (nth (i + lua_equals i s) s 0 =? 91)%N = true -> exists v, skipn i s = repeat 61%N (lua_equals i s) ++ 91%N :: v.
Proof.
  intros H. apply andb_true_iff in H as [H1 H2]. apply Nat.ltb_lt in H1. apply N.eqb_eq in H2. pose proof (lua_equals_prefix i s) as E. rewrite (skipn_nth _ _ H1), H2 in E. eauto.
Qed.
Lemma no_long_string rest : no_long_bracket (91%N :: rest) -> lua_match_string (91%N :: rest) = mk_lua_string 0 false false.
Proof.
  intros H. unfold lua_match_string. change ((91 =? 34)%N || (91 =? 39)%N) with false. cbv iota. set (s := 91%N :: rest) in *. destruct (starts_with s (bs "[[")) eqn:E.
  { apply starts_with_app in E as (v & E). elim (H 0 v). exact E. }
  destruct (_ && _); [|reflexivity]. cbv zeta. destruct (_ || _ || _) eqn:B; [reflexivity|]. exfalso. apply orb_false_iff in B as [B B3]. apply orb_false_iff in B as [_ B2]. apply negb_false_iff in B3. apply Nat.leb_gt in B2.
  destruct (lua_bracket_cases 1 s) as (v & Ev); [apply andb_true_iff; split; [apply Nat.ltb_lt; exact B2|exact B3]|]. apply (H (lua_equals 1 s) v). unfold s at 1. cbn [skipn] in Ev. unfold s in Ev at 1. cbn [skipn] in Ev. rewrite Ev. unfold lua_open. rewrite <- !app_assoc. reflexivity.
Qed.
Lemma do_symbol t h rest : In (t, h) lua_symbols -> longest lua_symbols t rest ->
    (t = bs "-" -> not_before (fun c => c = ch "-") rest) -> (t = bs "." -> not_before digit rest) ->
    (t = bs "[" -> no_long_bracket (t ++ rest)) -> (t = bs "<" -> forall v, rest <> bs "const>" ++ v) -> lua_does [(t, Some h)] rest.
Proof.
  intros H L C1 C2 C3 C4 i. rewrite text_one. destruct (lua_symbol_exact t h rest H L) as (E1 & E2 & c & u & Et & Hc & H1 & H2 & H3 & H4 & H5). unfold lua_step.
  assert (F : forall c', c = c' -> In (c' :: u, h) lua_symbols) by (intros c' <-; rewrite <- Et; exact H).
  assert (K1 : c = 60%N -> u = [] \/ u = [60]%N \/ u = [61]%N). { intros E. apply F in E. clear - E. cbv in E. repeat (destruct E as [E|E]; [first [discriminate E|injection E as <- _; auto]|]). contradiction. }
  assert (K2 : c = 45%N -> u = []). { intros E. apply F in E. clear - E. cbv in E. repeat (destruct E as [E|E]; [first [discriminate E|injection E as <- _; auto]|]). contradiction. }
  assert (K3 : c = 46%N -> u = [] \/ u = [46]%N \/ u = [46; 46]%N). { intros E. apply F in E. clear - E. cbv in E. repeat (destruct E as [E|E]; [first [discriminate E|injection E as <- _; auto]|]). contradiction. }
  assert (K4 : c = 91%N -> u = []). { intros E. apply F in E. clear - E. cbv in E. repeat (destruct E as [E|E]; [first [discriminate E|injection E as <- _; auto]|]). contradiction. }
  clear F H. replace (t ++ rest) with (c :: u ++ rest) in * by (rewrite Et; reflexivity).
  replace ((7 <=? length (c :: u ++ rest)) && str_eqb (firstn 7 (c :: u ++ rest)) (bs "<const>")) with false.
  2: { destruct (N.eq_dec c 60) as [->|Nc]; [|symmetry; apply no_const; exact Nc]. symmetry. destruct (str_eqb _ _) eqn:E; [|apply andb_false_r]. exfalso. apply str_eqb_eq in E. destruct (K1 eq_refl) as [->|[->| ->]]; [|discriminate E..].
       cbn [app firstn] in E. change (bs "<const>") with (60%N :: bs "const>") in E. injection E as E. apply (C4 Et (skipn 6 rest)). rewrite <- (firstn_skipn 6 rest) at 1. f_equal. exact E. }
  rewrite no_space by exact H3. cbn [Nat.eqb negb].
  assert (S : starts_with (c :: u ++ rest) (bs "--") = false).
  { change (bs "--") with [45; 45]%N. destruct (N.eq_dec c 45) as [->|Nc]; [|apply starts_first; exact Nc]. rewrite (K2 eq_refl) in *. cbn [app]. specialize (C1 Et). destruct rest as [|d rest]; [reflexivity|]. cbn [starts_with]. rewrite N.eqb_refl. destruct (d =? 45)%N eqn:Ed; [|reflexivity]. apply N.eqb_eq in Ed. elim (C1 d eq_refl). exact Ed. }
  rewrite no_line, no_block by exact S. cbn [Nat.eqb negb lc_length].
  assert (Q : lua_match_string (c :: u ++ rest) = mk_lua_string 0 false false).
  { destruct (N.eq_dec c 91) as [->|Nc]; [|apply no_string; assumption]. rewrite (K4 eq_refl) in *. cbn [app]. apply no_long_string. subst t. exact (C3 eq_refl). }
  rewrite Q. cbn [ls_length Nat.eqb negb]. rewrite no_number; [|exact H2|].
  2: { destruct (N.eq_dec c 46) as [->|Nc]; [right|left; exact Nc]. destruct (K3 eq_refl) as [->|[->| ->]]; [apply C2; exact Et| |]; intros x [= <-]; unfold digit; lia. }
  cbn [Nat.eqb negb]. rewrite no_ident by assumption. cbn [bind Nat.eqb negb]. rewrite E1, E2. cbn [tokens]. rewrite Nat.add_0_r. reflexivity.
Qed.
Lemma do_attribute rest : lua_does [(bs "<", Some hl_name_attr_delim); (bs "const", Some hl_name_attr); (bs ">", Some hl_name_attr_delim)] rest.
Proof. intros i. unfold lua_step. cbn [text map fst concat bs app length Nat.leb]. cbn. rewrite Nat.add_0_r, <- !Nat.add_assoc. reflexivity. Qed.

(** *** Strings *)
Lemma lua_quoted_closed q body rest : q <> 92%N -> lua_contents q body -> lua_quoted q false (body ++ q :: rest) = (length body + 1, true).
Proof.
  intros Hq. induction 1 as [|c b H1 H2 H3 _ IH|c b _ IH]; cbn [app lua_quoted length].
  - apply N.eqb_neq in Hq. rewrite Hq, N.eqb_refl. reflexivity.
  - apply N.eqb_neq in H1, H3. rewrite (proj2 (N.eqb_neq c 92) H2), H1, H3, IH. reflexivity.
  - change (ch "\" =? 92)%N with true. cbv iota. rewrite IH. reflexivity.
Qed.
Lemma lua_quoted_open q body rest : q = 34%N \/ q = 39%N -> lua_contents q body -> rest = [] \/ hd_error rest = Some 10%N -> lua_quoted q false (body ++ rest) = (length body, false).
Proof.
  intros Hq H R. induction H as [|c b H1 H2 H3 _ IH|c b _ IH]; cbn [app lua_quoted length].
  - destruct R as [->|R]; [reflexivity|]. destruct rest as [|c rest]; [reflexivity|]. injection R as ->. cbn [lua_quoted]. replace (10 =? q)%N with false by (destruct Hq; subst q; reflexivity). reflexivity.
  - apply N.eqb_neq in H1, H3. rewrite (proj2 (N.eqb_neq c 92) H2), H1, H3, IH. reflexivity.
  - change (ch "\" =? 92)%N with true. cbv iota. rewrite IH. reflexivity.
Qed.
Ltac before_string c t :=
  unfold lua_step; rewrite (no_const c), (no_space c) by (unfold lua_space; cbn [In]; lia); cbn [Nat.eqb negb];
  let S := fresh in assert (S : starts_with (c :: t) (bs "--") = false) by (change (bs "--") with [45; 45]%N; apply starts_first; lia);
  rewrite (no_line (c :: t)), (no_block (c :: t)) by exact S; clear S; cbn [Nat.eqb negb lc_length].
Lemma do_quoted q w rest b : q = 34%N \/ q = 39%N -> lua_quoted q false (w ++ rest) = (length w, b) -> lua_does [(q :: w, Some hl_string)] rest.
Proof.
  intros Hq E i. rewrite text_one. cbn [app]. before_string q (w ++ rest).
  assert (M : lua_match_string (q :: w ++ rest) = mk_lua_string (S (length w)) false b). { unfold lua_match_string. replace ((q =? 34)%N || (q =? 39)%N) with true by (destruct Hq; subst q; reflexivity). rewrite E. reflexivity. }
  rewrite M. cbn [ls_length ls_long Nat.eqb negb tokens]. rewrite Nat.add_0_r. reflexivity.
Qed.

(** *** Long brackets *)
Lemma lua_closes_iff n s : lua_closes n s = true <-> exists v, s = repeat 61%N n ++ 93%N :: v.
Proof.
  revert s. induction n as [|n IH]; intros s; cbn [lua_closes repeat app].
  - destruct s as [|c s]; [split; [discriminate|intros (v & [=])]|]. rewrite N.eqb_eq. split; [intros ->; eauto|intros (v & [= -> _]); reflexivity].
  - destruct s as [|c s]; [split; [discriminate|intros (v & [=])]|]. rewrite andb_true_iff, N.eqb_eq, IH. split; [intros (-> & v & ->); eauto|intros (v & [= -> ->]); eauto].
Qed.
Lemma lua_close_cons n : lua_close n = 93%N :: repeat 61%N n ++ [93%N].
Proof. reflexivity. Qed.
Lemma app_prefix (x y p v : list N) : x ++ y = p ++ v -> length p <= length x -> exists w, x = p ++ w.
Proof.
  intros E L. exists (skipn (length p) x). apply (f_equal (firstn (length p))) in E. rewrite firstn_app_exact, firstn_app in E. replace (length p - length x) with 0 in E by lia. cbn [firstn] in E. rewrite app_nil_r in E.
  rewrite <- E at 1. symmetry. apply firstn_skipn.
Qed.
Lemma find_close_exact n body rest : lua_between n body -> lua_find_close n (body ++ lua_close n ++ rest) = Some (length body).
Proof.
  unfold lua_between. induction body as [|c body IH]; intros H.
  - rewrite lua_close_cons. cbn [app lua_find_close length]. rewrite (proj2 (lua_closes_iff n _)); [reflexivity|]. exists rest. rewrite <- app_assoc. reflexivity.
  - cbn [app lua_find_close length]. destruct (_ && _) eqn:E.
    + exfalso. apply H. apply andb_true_iff in E as [Ec E]. apply N.eqb_eq in Ec. subst c. apply lua_closes_iff in E as (v & E).
      assert (Ex : ((93%N :: body) ++ 93%N :: repeat 61%N n) ++ 93%N :: rest = lua_close n ++ v).
      { rewrite lua_close_cons. cbn [app]. f_equal. rewrite lua_close_cons in E. rewrite <- !app_assoc. cbn [app] in *. rewrite <- app_assoc in E. cbn [app] in E. exact E. }
      apply app_prefix in Ex as (w & Ew); [|rewrite lua_close_cons; cbn [app length]; rewrite !app_length; cbn [length]; lia]. exists [], w. exact Ew.
    + rewrite IH; [reflexivity|]. intros (a & b & K). apply H. exists (c :: a), b. cbn [app]. f_equal. exact K.
Qed.
Lemma find_close_none n body : ~ contains body (lua_close n) -> lua_find_close n body = None.
Proof.
  induction body as [|c body IH]; intros H; [reflexivity|]. cbn [lua_find_close]. destruct (_ && _) eqn:E.
  - exfalso. apply H. apply andb_true_iff in E as [Ec E]. apply N.eqb_eq in Ec. subst c. apply lua_closes_iff in E as (v & ->). exists [], v. rewrite lua_close_cons. cbn [app]. rewrite <- app_assoc. reflexivity.
  - rewrite IH; [reflexivity|]. intros (a & b & K). apply H. exists (c :: a), b. cbn [app]. f_equal. exact K.
Qed.
Lemma lua_long_closed_exact pre n body rest : lua_between n body -> lua_long (pre ++ body ++ lua_close n ++ rest) (length pre) n = (length (pre ++ body ++ lua_close n), true).
Proof.
  intros H. unfold lua_long. rewrite skipn_app_exact, find_close_exact by exact H. f_equal. rewrite !app_length. rewrite lua_close_cons. cbn [length]. rewrite app_length, repeat_length. cbn [length]. lia.
Qed.
Lemma lua_long_open_exact pre n body : ~ contains body (lua_close n) -> lua_long (pre ++ body) (length pre) n = (length (pre ++ body), false).
Proof. intros H. unfold lua_long. rewrite skipn_app_exact, find_close_none by exact H. reflexivity. Qed.
Lemma lua_equals_exact pre n v : lua_equals (length pre) (pre ++ repeat 61%N n ++ 91%N :: v) = n.
Proof. unfold lua_equals. rewrite skipn_app_exact. rewrite <- (repeat_length 61%N n) at 2. apply prefix_len_exact; [apply Forall_forall; intros c Hc; apply repeat_spec in Hc; subst; reflexivity|intros c [= <-]; discriminate]. Qed.
Lemma lua_open_cons n : lua_open n = 91%N :: repeat 61%N n ++ [91%N].
Proof. reflexivity. Qed.
Lemma lua_open_length n : length (lua_open n) = n + 2.
Proof. rewrite lua_open_cons. cbn [length]. rewrite app_length, repeat_length. cbn [length]. lia. Qed.
Lemma lua_close_length n : length (lua_close n) = n + 2.
Proof. rewrite lua_close_cons. cbn [length]. rewrite app_length, repeat_length. cbn [length]. lia. Qed.

Lemma lua_string_long n s : exists r, r = lua_long (lua_open n ++ s) (length (lua_open n)) n /\ lua_match_string (lua_open n ++ s) = mk_lua_string (fst r) true (snd r).
Proof.
  eexists. split; [reflexivity|]. rewrite lua_open_length. destruct n as [|n].
  - change (lua_open 0 ++ s) with (91%N :: 91%N :: s). cbn [lua_match_string]. change (starts_with (91%N :: 91%N :: s) (bs "[[")) with (starts_with (91%N :: 91%N :: s) [91; 91]%N). cbn [starts_with N.eqb Pos.eqb orb]. destruct s; reflexivity.
  - rewrite lua_open_cons. set (t := (91%N :: repeat 61%N (S n) ++ [91%N]) ++ s). assert (Et : t = [91%N] ++ repeat 61%N (S n) ++ 91%N :: s) by (unfold t; cbn [app]; rewrite <- app_assoc; reflexivity).
    assert (Eq : lua_equals 1 t = S n) by (rewrite Et; apply (lua_equals_exact [91%N])).
    assert (L : 3 <= length t) by (rewrite Et; rewrite !app_length; cbn [length]; rewrite repeat_length; lia).
    unfold lua_match_string. change t with (91%N :: (repeat 61%N (S n) ++ [91%N]) ++ s) at 1. change ((91 =? 34)%N || (91 =? 39)%N) with false. cbv iota.
    replace (91%N :: (repeat 61%N (S n) ++ [91%N]) ++ s) with t by reflexivity.
    replace (starts_with t (bs "[[")) with false by reflexivity. replace (starts_with t (bs "[")) with true by reflexivity. rewrite (proj2 (Nat.leb_le _ _) L). cbn [andb]. rewrite Eq. cbv zeta.
    assert (En : nth (1 + S n) t 0%N = 91%N) by (rewrite Et, app_assoc; rewrite app_nth2; rewrite app_length, repeat_length; [cbn [length]; replace (1 + S n - (1 + S n)) with 0 by lia; reflexivity|cbn [length]; lia]).
    rewrite En. rewrite (proj2 (Nat.leb_gt (length t) (1 + S n))) by (rewrite Et, !app_length, repeat_length; cbn [length]; lia). cbn [Nat.eqb orb negb N.eqb Pos.eqb]. replace (1 + S n + 1) with (S n + 2) by lia. reflexivity.
Qed.
Lemma lua_open_sizes n s : let eqs := (91 =? 91)%N && (3 <=? length (lua_open n ++ s)) && (nth 1 (lua_open n ++ s) 0 =? 61)%N in
  (if eqs then 1 + lua_equals 1 (lua_open n ++ s) + 1 else 2) = n + 2 /\ forall b, (if b : bool then if eqs then (if eqs then 1 + lua_equals 1 (lua_open n ++ s) + 1 else 2) else 2 else 0) = if b then n + 2 else 0.
Proof.
  destruct n as [|n].
  - change (lua_open 0 ++ s) with (91%N :: 91%N :: s). cbn [nth]. change (91 =? 61)%N with false. rewrite andb_false_r. split; [reflexivity|]. intros []; reflexivity.
  - assert (L : 3 <=? length (lua_open (S n) ++ s) = true) by (apply Nat.leb_le; rewrite app_length, lua_open_length; lia). rewrite L.
    assert (E : lua_equals 1 (lua_open (S n) ++ s) = S n) by (rewrite lua_open_cons; cbn [app]; rewrite <- app_assoc; apply (lua_equals_exact [91%N])). rewrite E.
    replace (nth 1 (lua_open (S n) ++ s) 0%N) with 61%N by reflexivity. cbn [N.eqb Pos.eqb andb]. split; [lia|]. intros []; lia.
Qed.
Lemma do_long_string p rest : lua_long_text [] hl_string hl_string p rest -> lua_does p rest.
Proof.
  intros H i. assert (G : exists n s b, text p ++ rest = lua_open n ++ s /\ lua_long (lua_open n ++ s) (length (lua_open n)) n = (length (text p), b)
    /\ tokens i p = OEmit i (n + 2) hl_string false :: OEmit (i + (n + 2)) (length (text p) - (n + 2) - (if b then n + 2 else 0)) hl_string false :: (if b then [OEmit (i + (length (text p) - (n + 2))) (n + 2) hl_string false] else [])
    /\ n + 2 + (if b then n + 2 else 0) <= length (text p)).
  { destruct H as [n body rest H|n body H]; cbn [app]; rewrite ?text_cons, ?text_app.
    - exists n, (body ++ lua_close n ++ rest), true. change (text []) with (@nil N). rewrite app_nil_r. split; [rewrite <- !app_assoc; reflexivity|]. split; [apply lua_long_closed_exact; exact H|]. cbn [tokens]. rewrite !app_length, lua_open_length, lua_close_length. split; [|lia].
      f_equal. f_equal; [f_equal; lia|]. f_equal. f_equal; lia.
    - exists n, body, false. change (text []) with (@nil N). rewrite !app_nil_r. split; [reflexivity|]. split; [apply lua_long_open_exact; exact H|]. cbn [tokens]. rewrite !app_length, lua_open_length. split; [|lia].
      f_equal. f_equal. f_equal; lia. }
  clear H. destruct G as (n & s & b & -> & El & -> & Lb). destruct (lua_string_long n s) as (r & Er & Em). rewrite El in Er. subst r. cbn [fst snd] in Em. destruct (lua_open_sizes n s) as [E1 E2]. specialize (E2 b).
  set (src := lua_open n ++ s) in *. assert (Ls : length (text p) <= length src) by (pose proof (lua_long_len src (length (lua_open n)) n) as K; rewrite El in K; apply K; unfold src; rewrite app_length; lia).
  assert (Hs : src = 91%N :: (repeat 61%N n ++ [91%N]) ++ s) by reflexivity. clearbody src. rewrite Hs. before_string 91%N ((repeat 61%N n ++ [91%N]) ++ s). rewrite <- Hs. rewrite Em. cbn [ls_length ls_long ls_terminated]. rewrite (proj2 (Nat.eqb_neq (length (text p)) 0)) by lia. cbn [negb].
  replace (lua_read src 0) with (@Ok N 91%N) by (rewrite Hs; reflexivity). cbn [bind]. rewrite E2, E1. rewrite !lua_sub_ok by lia. cbn [bind]. rewrite !lua_sub_ok by (destruct b; lia). cbn [bind]. rewrite Nat.add_0_r.
  destruct b; rewrite ?lua_sub_ok by lia; cbn [bind]; reflexivity.
Qed.

(** *** Comments *)
Lemma do_line_comment t rest : Forall (fun c => c <> 10%N) t -> rest = [] \/ hd_error rest = Some 10%N -> no_long_bracket (t ++ rest) -> lua_does [(bs "--", Some hl_comment_delim); (t, Some hl_comment)] rest.
Proof.
  intros F R B i. rewrite text_cons, text_one. change (bs "--") with [45; 45]%N. cbn [app]. set (s := t ++ rest) in *.
  assert (E : lua_match_line_comment (45%N :: 45%N :: s) = 2 + length t).
  { unfold lua_match_line_comment. replace (starts_with (45%N :: 45%N :: s) (bs "--")) with true by (change (bs "--") with [45; 45]%N; destruct s; reflexivity). cbn [negb].
    destruct (_ && str_eqb _ _) eqn:E1.
    { exfalso. apply andb_true_iff in E1 as [_ E1]. apply str_eqb_eq in E1. cbn [firstn] in E1. change (bs "--[[") with (45%N :: 45%N :: [91; 91]%N) in E1. injection E1 as E1. apply (B 0 (skipn 2 s)). rewrite <- (firstn_skipn 2 s) at 1. f_equal. exact E1. }
    destruct (_ && _ && _) eqn:E2.
    { exfalso. apply andb_true_iff in E2 as [E2 E3]. apply andb_true_iff in E2 as [E2 E4]. cbn [nth] in E4. apply N.eqb_eq in E4. apply lua_bracket_cases in E3 as (v & E3). cbn [skipn] in E3. clearbody s. destruct s as [|c s]; [discriminate E2|]. cbn [nth skipn] in E3, E4. subst c. apply (B (lua_equals 3 (45%N :: 45%N :: 91%N :: s)) v).
      rewrite E3 at 1. unfold lua_open. rewrite <- !app_assoc. reflexivity. }
    cbn [skipn]. f_equal. unfold s. apply prefix_len_exact.
    - eapply Forall_impl; [|exact F]. intros c Hc. cbn beta in *. apply N.eqb_neq in Hc. rewrite Hc. reflexivity.
    - destruct R as [->|R]; [apply not_before_nil|]. intros c Hc. rewrite R in Hc. injection Hc as <-. discriminate. }
  unfold lua_step. rewrite no_const, no_space by (unfold lua_space; cbn [In]; lia). cbn [Nat.eqb negb]. rewrite E. cbn [Nat.eqb Nat.add negb]. rewrite lua_sub_ok by lia. cbn [bind]. cbn [length app tokens]. rewrite Nat.add_0_r. replace (S (S (length t)) - 2) with (length t) by lia. reflexivity.
Qed.
Lemma lua_block_long n s : exists r, r = lua_long ((bs "--" ++ lua_open n) ++ s) (length (bs "--" ++ lua_open n)) n /\ lua_match_block_comment ((bs "--" ++ lua_open n) ++ s) = mk_lua_comment (fst r) (snd r)
  /\ lua_match_line_comment ((bs "--" ++ lua_open n) ++ s) = 0
  /\ let src := (bs "--" ++ lua_open n) ++ s in let eqs := (nth 2 src 0 =? 91)%N && negb (nth 3 src 0 =? 91)%N in let prefix := if eqs then 3 + lua_equals 3 src + 1 else 4 in
     prefix = n + 4 /\ forall b, (if b : bool then if eqs then 2 + (prefix - 4) else 2 else 0) = if b then n + 2 else 0.
Proof.
  eexists. split; [reflexivity|]. rewrite app_length, lua_open_length. change (length (bs "--")) with 2. destruct n as [|n].
  - change ((bs "--" ++ lua_open 0) ++ s) with (bs "--[[" ++ s). assert (S : starts_with (bs "--[[" ++ s) (bs "--[[") = true) by (apply starts_with_app; eauto). split; [|split].
    + unfold lua_match_block_comment. rewrite S. cbn [negb]. rewrite orb_false_r. rewrite (proj2 (Nat.ltb_ge _ _)) by (rewrite app_length; cbn; lia). reflexivity.
    + unfold lua_match_line_comment. replace (starts_with (bs "--[[" ++ s) (bs "--")) with true by (symmetry; apply starts_with_app; exists (bs "[[" ++ s); reflexivity). cbn [negb]. change 4 with (length (bs "--[[")) at 2. rewrite firstn_app_exact. rewrite (proj2 (str_eqb_eq _ _) eq_refl), andb_true_r. rewrite (proj2 (Nat.leb_le _ _)) by (rewrite app_length; cbn; lia). reflexivity.
    + cbn. split; [reflexivity|]. intros []; reflexivity.
  - rewrite lua_open_cons. set (src := (bs "--" ++ 91%N :: repeat 61%N (S n) ++ [91%N]) ++ s).
    assert (Et : src = [45; 45; 91]%N ++ repeat 61%N (S n) ++ 91%N :: s) by (unfold src; rewrite <- !app_assoc; cbn [app]; rewrite <- app_assoc; reflexivity).
    assert (Eq : lua_equals 3 src = S n) by (rewrite Et; apply (lua_equals_exact [45; 45; 91]%N)).
    assert (L : length src = 5 + n + length s) by (rewrite Et; rewrite !app_length; cbn [length]; rewrite repeat_length; lia).
    assert (En : nth (3 + S n) src 0%N = 91%N) by (rewrite Et, app_assoc; rewrite app_nth2; rewrite app_length, repeat_length; [cbn [length]; replace (3 + S n - (3 + S n)) with 0 by lia; reflexivity|cbn [length]; lia]).
    assert (S2 : starts_with src (bs "--[") = true) by (rewrite Et; apply starts_with_app; eexists; reflexivity).
    assert (S4 : starts_with src (bs "--[[") = false) by (rewrite Et; reflexivity).
    split; [|split].
    + unfold lua_match_block_comment. rewrite S4, orb_true_r, S2, orb_false_r. rewrite (proj2 (Nat.ltb_ge _ _)) by lia. cbv zeta. rewrite Eq, En. rewrite (proj2 (Nat.leb_gt (length src) (3 + S n))) by lia. cbn [Nat.eqb orb negb N.eqb Pos.eqb]. replace (2 + (S n + 2)) with (3 + S n + 1) by lia. reflexivity.
    + unfold lua_match_line_comment. replace (starts_with src (bs "--")) with true by (rewrite Et; symmetry; apply starts_with_app; eexists; reflexivity). cbn [negb].
      replace (str_eqb (firstn 4 src) (bs "--[[")) with false by (rewrite Et; reflexivity). rewrite andb_false_r. rewrite (proj2 (Nat.leb_le 3 _)) by lia. replace (nth 2 src 0%N) with 91%N by (rewrite Et; reflexivity). cbv zeta. rewrite Eq, En. rewrite (proj2 (Nat.ltb_lt _ _)) by lia. reflexivity.
    + cbv zeta. replace (nth 2 src 0%N) with 91%N by (rewrite Et; reflexivity). replace (nth 3 src 0%N) with 61%N by (rewrite Et; reflexivity). change ((91 =? 91)%N && negb (61 =? 91)%N) with true. cbv iota. rewrite Eq. split; [lia|]. intros []; lia.
Qed.
Lemma do_block_comment p rest : lua_long_text (bs "--") hl_comment_delim hl_comment p rest -> lua_does p rest.
Proof.
  intros H i. assert (G : exists n s b, text p ++ rest = (bs "--" ++ lua_open n) ++ s /\ lua_long ((bs "--" ++ lua_open n) ++ s) (length (bs "--" ++ lua_open n)) n = (length (text p), b)
    /\ tokens i p = OEmit i (n + 4) hl_comment_delim false :: OEmit (i + (n + 4)) (length (text p) - (n + 4) - (if b then n + 2 else 0)) hl_comment false :: (if b then [OEmit (i + (length (text p) - (n + 2))) (n + 2) hl_comment_delim false] else [])
    /\ n + 4 + (if b then n + 2 else 0) <= length (text p)).
  { assert (Lo : forall n, length (bs "--" ++ lua_open n) = n + 4) by (intros n; rewrite app_length, lua_open_length; change (length (bs "--")) with 2; lia). destruct H as [n body rest H|n body H]; rewrite ?text_cons, ?text_app.
    - exists n, (body ++ lua_close n ++ rest), true. change (text []) with (@nil N). rewrite app_nil_r. split; [rewrite <- !app_assoc; reflexivity|]. split; [apply lua_long_closed_exact; exact H|]. cbn [tokens]. rewrite !(app_length (_ ++ _)), (app_length body), Lo, lua_close_length. split; [|lia].
      f_equal. f_equal; [f_equal; lia|]. f_equal. f_equal; lia.
    - exists n, body, false. change (text []) with (@nil N). rewrite !app_nil_r. split; [reflexivity|]. split; [apply lua_long_open_exact; exact H|]. cbn [tokens]. rewrite !(app_length (_ ++ _)), Lo. split; [|lia].
      f_equal. f_equal. f_equal; lia. }
  clear H. destruct G as (n & s & b & -> & El & -> & Lb). destruct (lua_block_long n s) as (r & Er & Em & Eline & E1 & E2). rewrite El in Er. subst r. cbn [fst snd] in Em. specialize (E2 b). cbv zeta in E1, E2.
  set (src := (bs "--" ++ lua_open n) ++ s) in *. assert (Ls : length (text p) <= length src) by (pose proof (lua_long_len src (length (bs "--" ++ lua_open n)) n) as K; rewrite El in K; apply K; unfold src; rewrite (app_length (_ ++ _)); lia).
  assert (Hs : src = 45%N :: bs "-" ++ lua_open n ++ s) by reflexivity. clearbody src.
  assert (A0 : (7 <=? length src) && str_eqb (firstn 7 src) (bs "<const>") = false) by (rewrite Hs; apply no_const; lia). assert (A1 : lua_match_whitespace src = 0) by (rewrite Hs; apply no_space; unfold lua_space; cbn [In]; lia).
  unfold lua_step. rewrite A0, A1. cbn [Nat.eqb negb].
  rewrite Eline. cbn [Nat.eqb negb]. rewrite Em. cbn [lc_length lc_terminated]. rewrite (proj2 (Nat.eqb_neq (length (text p)) 0)) by lia. cbn [negb]. rewrite !lua_read_ok by lia. cbn [bind]. cbv zeta. rewrite E2, E1. rewrite !lua_sub_ok by lia. cbn [bind]. rewrite !lua_sub_ok by (destruct b; lia). cbn [bind]. rewrite Nat.add_0_r.
  destruct b; rewrite ?lua_sub_ok by lia; cbn [bind]; reflexivity.
Qed.

Lemma lexeme_does p rest : lua_lexeme p rest -> lua_does p rest.
Proof.
  intros [w h r H R|w r H1 H2 R|w r H R|t h r H L C1 C2 C3 C4|r|q body r Hq Hb|q body r Hq Hb R|p' r H|t r F R B|p' r H].
  - apply (word_hit _ _ _ _ lua_words_ok) in H as [H1 H2]. apply do_word; [exact H2| |exact R]. unfold lua_token_by_code. rewrite H1. reflexivity.
  - apply do_word; [exact H1| |exact R]. unfold lua_token_by_code. rewrite (word_miss _ _ _ lua_words_ok H1 H2). reflexivity.
  - apply do_number; assumption.
  - apply do_symbol; assumption.
  - apply do_attribute.
  - apply (do_quoted q (body ++ [q]) r true Hq). rewrite <- app_assoc. cbn [app]. rewrite lua_quoted_closed; [rewrite app_length; reflexivity|destruct Hq; lia|exact Hb].
  - apply (do_quoted q body r false Hq). apply lua_quoted_open; assumption.
  - apply do_long_string. exact H.
  - apply do_line_comment; assumption.
  - apply do_block_comment. exact H.
Qed.
Lemma lexeme_head p r : lua_lexeme p r -> exists c t, text p = c :: t /\ ~ lua_space c.
Proof.
  intros [w h r' H R|w r' H1 H2 R|w r' H R|t h r' H L C1 C2 C3 C4|r'|q body r' Hq Hb|q body r' Hq Hb R|p' r' H|t r' F R B|p' r' H].
  - apply (word_hit _ _ _ _ lua_words_ok) in H as [_ (c & t & -> & Hc & _)]. exists c, t. rewrite text_one. split; [reflexivity|]. unfold ident_start, letter, lua_space in *. cbn [In]. lia.
  - destruct H1 as (c & t & -> & Hc & _). exists c, t. rewrite text_one. split; [reflexivity|]. unfold ident_start, letter, lua_space in *. cbn [In]. lia.
  - destruct (lua_number_exact _ _ H R) as (_ & c & t & -> & Hc). exists c, t. rewrite text_one. split; [reflexivity|]. assert (K : digit c \/ c = 46%N) by tauto. unfold digit, lua_space in *. cbn [In]. lia.
  - destruct (lua_symbol_exact _ _ _ H L) as (_ & _ & c & u & -> & _ & _ & _ & Hc & _). exists c, u. rewrite text_one. auto.
  - eexists _, _. split; [reflexivity|]. unfold lua_space. cbn. lia.
  - eexists _, _. rewrite text_one. split; [reflexivity|]. unfold lua_space. cbn [In]. lia.
  - eexists _, _. rewrite text_one. split; [reflexivity|]. unfold lua_space. cbn [In]. lia.
  - destruct H; (eexists _, _; split; [reflexivity|]); unfold lua_space; cbn; lia.
  - eexists _, _. split; [reflexivity|]. unfold lua_space. cbn. lia.
  - destruct H; (eexists _, _; split; [reflexivity|]); unfold lua_space; cbn; lia.
Qed.
Lemma lua_loop_exact : forall fuel l i, program lua_space lua_lexeme l -> length (text l) < fuel -> lua_loop fuel i (text l) = Ok (tokens i l).
Proof.
  assert (Hws : forall c, is_lua_whitespace c = true <-> lua_space c) by (intros c; unfold is_lua_whitespace, lua_space; rewrite mem_In; cbn [In]; tauto).
  assert (Hhead : forall p r, lua_lexeme p r -> exists c t, text p = c :: t /\ ~ lua_space c) by exact lexeme_head.
  induction fuel as [|fuel IH]; intros l i P L; [lia|]. destruct (program_skip is_lua_whitespace lua_space lua_lexeme Hws Hhead l P i) as (n & l' & P' & En & Ln & Es & Et & C).
  cbn [lua_loop]. destruct (text l) as [|c0 t0] eqn:El.
  - assert (n = 0) by (cbn in Ln; lia). subst n. rewrite skipn_O in Es. destruct C as [->|(p & q & -> & Hp & _)]; [rewrite Et; reflexivity|]. destruct (Hhead _ _ Hp) as (c & t & Ep & _). rewrite text_app, Ep in Es. discriminate.
  - rewrite <- El in *. destruct n as [|n].
    + rewrite skipn_O in Es. destruct C as [->|(p & q & -> & Hp & Hq)]; [rewrite Es in El; discriminate|]. rewrite Es, text_app. rewrite (lexeme_does _ _ Hp). cbn [bind fst snd]. rewrite app_length, (proj2 (Nat.leb_le _ _)) by lia. rewrite skipn_app_exact.
      destruct (Hhead _ _ Hp) as (c & t & Ep & _). rewrite IH; [|exact Hq|rewrite Es, text_app, app_length, Ep in L; cbn [length] in L; lia]. cbn [bind]. rewrite Et, Nat.add_0_r, tokens_app. reflexivity.
    + assert (St : lua_step i (text l) = Ok (S n, [])).
      { unfold lua_step. assert (Hc0 : lua_space c0) by (apply Hws; rewrite El, length_if_eq in En; cbn [prefix_len] in En; destruct (is_lua_whitespace c0); [reflexivity|discriminate]).
        replace ((7 <=? length (text l)) && str_eqb (firstn 7 (text l)) (bs "<const>")) with false by (rewrite El; symmetry; apply no_const; intros ->; cbv in Hc0; intuition discriminate).
        unfold lua_match_whitespace. rewrite En. reflexivity. }
      rewrite St. cbn [bind fst snd]. rewrite (proj2 (Nat.leb_le _ _) Ln), Es. rewrite IH; [|exact P'|rewrite <- Es, skipn_length; lia]. cbn [bind app]. rewrite Et. reflexivity.
Qed.

(** ** C107: exact tokens for programs *)
Theorem C107_lua_lexemes : forall l, program lua_space lua_lexeme l -> tokenizes highlight_lua l.
Proof. intros l P strict. unfold highlight_lua. rewrite (lua_loop_exact _ l 0 P) by lia. reflexivity. Qed.
Print Assumptions C107_lua_lexemes.
Example C107_case : exists l, program lua_space lua_lexeme l /\ 15 < length l
  /\ text l = bs "local x <const> = 0x1p-3 -- c" ++ [10%N] ++ bs "--[==[ ]] ]==]s = [[a]]..'\''".
Proof.
  pose (l11 := [(bs "'\''", Some hl_string)] ++ []).
  pose (l10 := [(bs "..", Some hl_symbol_op)] ++ l11).
  pose (l9 := (bs " ", None) :: [(bs "[[", Some hl_string); (bs "a", Some hl_string); (bs "]]", Some hl_string)] ++ l10).
  pose (l8 := (bs " ", None) :: [(bs "=", Some hl_symbol_op)] ++ l9).
  pose (l7 := [(bs "s", Some hl_name)] ++ l8).
  pose (l6 := ([10%N], None) :: [(bs "--[==[", Some hl_comment_delim); (bs " ]] ", Some hl_comment); (bs "]==]", Some hl_comment_delim)] ++ l7).
  pose (l5 := (bs " ", None) :: [(bs "--", Some hl_comment_delim); (bs " c", Some hl_comment)] ++ l6).
  pose (l4 := (bs " ", None) :: [(bs "0x1p-3", Some hl_number)] ++ l5).
  pose (l3 := (bs " ", None) :: [(bs "=", Some hl_symbol_op)] ++ l4).
  pose (l2 := (bs " ", None) :: [(bs "<", Some hl_name_attr_delim); (bs "const", Some hl_name_attr); (bs ">", Some hl_name_attr_delim)] ++ l3).
  pose (l1 := (bs " ", None) :: [(bs "x", Some hl_name)] ++ l2).
  exists ([(bs "local", Some hl_keyword)] ++ l1). split; [|split; [cbn; lia|reflexivity]].
  apply program_lexeme; [apply lua_word; [vm_compute; tauto|nb]|].
  unfold l1. apply program_space; [apply Forall_cons; [vm_compute; tauto|apply Forall_nil]|]. apply program_lexeme.
  { apply lua_name; [apply identb_iff; reflexivity| |nb]. intros h H. apply (word_hit _ _ _ _ lua_words_ok) in H as [H _]. vm_compute in H. discriminate. }
  unfold l2. apply program_space; [apply Forall_cons; [vm_compute; tauto|apply Forall_nil]|]. apply program_lexeme; [apply lua_attribute|].
  unfold l3. apply program_space; [apply Forall_cons; [vm_compute; tauto|apply Forall_nil]|]. apply program_lexeme; [apply lua_symbol; [vm_compute; tauto|sym_longest|discriminate..]|].
  unfold l4. apply program_space; [apply Forall_cons; [vm_compute; tauto|apply Forall_nil]|]. apply program_lexeme.
  { apply lua_number; [|nb]. apply (lua_hexadecimal (ch "x") (bs "1") (bs "p-3")); [cbn; tauto|apply lua_whole; [discriminate|fa]|].
    apply (lua_with_exponent _ (ch "p") (bs "-") (bs "3")); [cbn; tauto|cbn; tauto|discriminate|fa]. }
  unfold l5. apply program_space; [apply Forall_cons; [vm_compute; tauto|apply Forall_nil]|]. apply program_lexeme.
  { apply lua_line_comment; [fa|right; reflexivity|]. intros n v E. discriminate E. }
  unfold l6. apply program_space; [apply Forall_cons; [vm_compute; tauto|apply Forall_nil]|]. apply program_lexeme.
  { apply lua_block_comment. apply (lua_long_closed (bs "--") _ _ 2 (bs " ]] ")). apply L_JsonText.find_sub_None. vm_compute. reflexivity. }
  unfold l7. apply program_lexeme.
  { apply lua_name; [apply identb_iff; reflexivity| |nb]. intros h H. apply (word_hit _ _ _ _ lua_words_ok) in H as [H _]. vm_compute in H. discriminate. }
  unfold l8. apply program_space; [apply Forall_cons; [vm_compute; tauto|apply Forall_nil]|]. apply program_lexeme; [apply lua_symbol; [vm_compute; tauto|sym_longest|discriminate..]|].
  unfold l9. apply program_space; [apply Forall_cons; [vm_compute; tauto|apply Forall_nil]|]. apply program_lexeme.
  { apply lua_long_string. apply (lua_long_closed [] _ _ 0 (bs "a")). apply L_JsonText.find_sub_None. vm_compute. reflexivity. }
  unfold l10. apply program_lexeme; [apply lua_symbol; [vm_compute; tauto|sym_longest|discriminate..]|].
  unfold l11. apply program_lexeme; [|apply program_end].
  apply (lua_quoted_string 39%N (bs "\'")); [tauto|]. apply lua_contents_escape, lua_contents_end.
Qed.

(** ** C108: quoted strings *)
Lemma single_line_contents q b : lua_single_line_contents q b -> q = 34%N \/ q = 39%N -> lua_contents q b.
Proof.
  assert (Hp : forall w b (P : N -> Prop), (forall c, P c -> c <> 34%N /\ c <> 39%N /\ c <> ch "\" /\ c <> 10%N) -> Forall P w -> q = 34%N \/ q = 39%N -> lua_contents q b -> lua_contents q (w ++ b)).
  { intros w b' P HP F Hq H. induction F as [|c w Hc F IH]; [exact H|]. specialize (HP c Hc) as (A & B & C & D). apply lua_contents_plain; [lia|exact C|exact D|exact IH]. }
  change (ch "\") with 92%N in Hp.
  induction 1 as [|c b A B C D H IH|c b A H IH|w b F H IH|x y b A B H IH|ds b L F H IH|ds b L F H IH]; intros Hq; try specialize (IH Hq).
  - constructor.
  - now apply lua_contents_plain.
  - now apply lua_contents_escape.
  - apply lua_contents_escape. apply (Hp w b _) with (2 := F); [|exact Hq|exact IH]. unfold lua_space. cbn [In]. lia.
  - apply lua_contents_escape. apply (Hp [x; y] b hex_digit); [unfold hex_digit, digit; lia|apply Forall_cons; [exact A|apply Forall_cons; [exact B|apply Forall_nil]]|exact Hq|exact IH].
  - destruct ds as [|d ds]; [cbn in L; lia|]. apply lua_contents_escape. inversion F; subst. apply (Hp ds b digit); [unfold digit; lia|assumption|exact Hq|exact IH].
  - change (bs "u{") with [117; 123]%N. cbn [app]. apply (lua_contents_escape q 117%N). change (ch "\") with 92%N in *. apply lua_contents_plain; [lia|discriminate|discriminate|]. change (lua_contents q (ds ++ [125%N] ++ b)).
    apply (Hp ds _ hex_digit); [unfold hex_digit, digit; lia|exact F|exact Hq|]. cbn [app]. apply lua_contents_plain; [lia|discriminate|discriminate|exact IH].
Qed.
Lemma lua_loop_first src strict p rest : src = text p ++ rest -> lua_lexeme p rest -> exists more, highlight_lua src strict = Ok (true, tokens 0 p ++ more).
Proof.
  intros -> H. unfold highlight_lua. destruct (lexeme_head _ _ H) as (c & t & E & _). cbn [lua_loop]. rewrite (lexeme_does _ _ H).
  destruct (text p ++ rest) as [|c0 t0] eqn:Es; [rewrite E in Es; discriminate|]. rewrite <- Es. cbn [bind fst snd]. rewrite app_length, (proj2 (Nat.leb_le _ _)) by lia. rewrite skipn_app_exact.
  destruct (lua_loop_ok (length (text p) + length rest) (0 + length (text p)) rest) as (ops & O & _); [rewrite E; cbn [length]; lia|]. rewrite O. cbn [bind]. exists ops. reflexivity.
Qed.
Theorem C108_lua_strings_refuted : ~ (forall q body rest strict, q = 34%N \/ q = 39%N -> lua_valid_contents q body ->
  exists more, highlight_lua (q :: body ++ [q] ++ rest) strict = Ok (true, OEmit 0 (2 + length body) hl_string false :: more)).
Proof.
  intros H. destruct (H 34%N (bs "a\z" ++ [10%N] ++ bs " b") [] false) as (more & E); [tauto| |vm_compute in E; discriminate].
  cbn. apply lua_valid_plain; [discriminate..|]. apply (lua_valid_skip 34%N [10; 32]%N (bs "b")); [repeat (apply Forall_cons; [vm_compute; tauto|]); apply Forall_nil|]. apply lua_valid_plain; [discriminate..|]. constructor.
Qed.
Theorem C108_lua_strings_partial : forall q body rest strict, q = 34%N \/ q = 39%N -> lua_single_line_contents q body ->
  exists more, highlight_lua (q :: body ++ [q] ++ rest) strict = Ok (true, OEmit 0 (2 + length body) hl_string false :: more).
Proof.
  intros q body rest strict Hq H. destruct (lua_loop_first (q :: body ++ [q] ++ rest) strict [(q :: body ++ [q], Some hl_string)] rest) as (more & E).
  - rewrite text_one. cbn [app]. rewrite <- app_assoc. reflexivity.
  - apply lua_quoted_string; [exact Hq|]. now apply single_line_contents.
  - exists more. rewrite E. cbn [tokens app length]. rewrite app_length. cbn [length]. do 4 f_equal. lia.
Qed.
Print Assumptions C108_lua_strings_refuted.
Print Assumptions C108_lua_strings_partial.
Example C108_case : lua_single_line_contents 34%N (bs "\u{48}\x65y\" ++ [10%N] ++ bs "\065").
Proof.
  apply (lua_single_unicode _ (bs "48")); [discriminate|fa|]. apply (lua_single_hex _ (ch "6") (ch "5")); [vm_compute; intuition discriminate..|]. apply lua_single_plain; [discriminate..|].
  apply (lua_single_simple _ 10%N); [cbn; tauto|]. apply (lua_single_decimal _ (bs "065") []); [cbn; lia|fa|constructor].
Qed.

(** ** C109: the attributes of local variables *)
Theorem C109_lua_attributes_refuted : ~ (forall w rest strict, In w lua_attributes -> exists more, highlight_lua (bs "<" ++ w ++ bs ">" ++ rest) strict
  = Ok (true, OEmit 0 1 hl_name_attr_delim false :: OEmit 1 (length w) hl_name_attr false :: OEmit (1 + length w) 1 hl_name_attr_delim false :: more)).
Proof. intros H. destruct (H (bs "close") [] false) as (more & E); [cbn; tauto|]. vm_compute in E. discriminate. Qed.
Theorem C109_lua_attributes_partial : forall rest strict, exists more, highlight_lua (bs "<const>" ++ rest) strict
  = Ok (true, OEmit 0 1 hl_name_attr_delim false :: OEmit 1 5 hl_name_attr false :: OEmit 6 1 hl_name_attr_delim false :: more).
Proof. intros rest strict. destruct (lua_loop_first (bs "<const>" ++ rest) strict [(bs "<", Some hl_name_attr_delim); (bs "const", Some hl_name_attr); (bs ">", Some hl_name_attr_delim)] rest eq_refl (lua_attribute rest)) as (more & E). exists more. exact E. Qed.
Print Assumptions C109_lua_attributes_refuted.
Print Assumptions C109_lua_attributes_partial.
Example C109_case : highlight_lua (bs "local x <const> = 1") false <> Ok (true, []).
Proof. vm_compute. discriminate. Qed.
