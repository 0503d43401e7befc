(** * Properties of edit scripts and printed diffs (C25-C29). *)
From Coq Require Import List NArith ZArith Bool Arith Lia Sorting.Sorted.
From Verif Require Import M_Base L_Base S_Parse P_Parse M_StringDiff S_StringDiff L_StringDiff.
Import ListNotations.

(** Fewer lines than the address space has bytes. *)
Definition representable (from to : list str) : Prop := (N.of_nat (length from + length to) < 2 ^ 64 - 1)%N.

(** ** C25 *)
Theorem C25_edit_script : forall from to, representable from to ->
  exists s, shortest_edit_script from to = Ok s /\ transforms s from to.
Proof. intros from to H. destruct (ses_ok from to H) as (s & E & T & _). eauto. Qed.
Print Assumptions C25_edit_script.

(** ** C26 *)
Theorem C26_shortest : forall from to s, representable from to -> shortest_edit_script from to = Ok s ->
  forall s', transforms s' from to -> cost s <= cost s'.
Proof.
  intros from to s H E s' T. destruct (ses_ok from to H) as (s0 & E0 & _ & C & _). assert (s0 = s) by congruence. subst s0. rewrite C.
  apply dist_lower; [lia|lia|]. rewrite !firstn_all. exact T.
Qed.
Print Assumptions C26_shortest.

(** ** C27 *)
Theorem C27_deletions_first : forall from to s, representable from to -> shortest_edit_script from to = Ok s -> deletions_first s.
Proof. intros from to s H E. destruct (ses_ok from to H) as (s0 & E0 & _ & _ & D). assert (s0 = s) by congruence. subst. exact D. Qed.
Print Assumptions C27_deletions_first.

Example C25_case : representable [bs "a"; bs "b"; bs "c"; bs "d"] [bs "x"; bs "b"; bs "y"; bs "d"; bs "e"]
  /\ shortest_edit_script [bs "a"; bs "b"; bs "c"; bs "d"] [bs "x"; bs "b"; bs "y"; bs "d"; bs "e"]
     = Ok [e_del; e_ins; e_common; e_del; e_ins; e_common; e_ins].
Proof. split; [reflexivity|vm_compute; reflexivity]. Qed.

(** ** C28 *)
Lemma find_if_split p u k : find_if p u = Some k -> exists a c b, u = a ++ c :: b /\ length a = k /\ p c = true /\ Forall (fun x => p x = false) a.
Proof.
  revert k. induction u as [|x u IH]; intros k H; cbn in H; [discriminate|]. destruct (p x) eqn:E.
  - injection H as <-. exists [], x, u. auto.
  - destruct (find_if p u) as [j|]; [|discriminate]. cbn in H. injection H as <-. destruct (IH j eq_refl) as (a & c & b & -> & L & P & F).
    exists (x :: a), c, b. cbn [app length]. auto.
Qed.
Lemma find_if_none p u : find_if p u = None -> Forall (fun x => p x = false) u.
Proof.
  induction u as [|x u IH]; intros H; cbn in H; [constructor|]. destruct (p x) eqn:E; [discriminate|]. destruct (find_if p u); [discriminate|]. constructor; auto.
Qed.
Lemma split_loop_ok s : forall fuel prev out, prev <= length s -> length s - prev < fuel ->
  exists ls, split_lines_loop fuel s prev out = Ok (out ++ ls) /\ ls <> [] /\ join_lines ls = skipn prev s /\ Forall (fun l => ~ In 10%N l) ls.
Proof.
  induction fuel as [|fuel IH]; intros prev out L F; [lia|]. cbn [split_lines_loop]. unfold find_ch, find_if_from.
  destruct (find_if (fun x => (x =? 10)%N) (skipn prev s)) as [k|] eqn:E; cbn [option_map].
  - apply find_if_split in E as (a & c & b & E & La & Pc & Fa). apply N.eqb_eq in Pc. subst c.
    assert (LS : length (skipn prev s) = length a + S (length b)) by (rewrite E, app_length; reflexivity). rewrite skipn_length in LS.
    destruct (IH (prev + k + 1) (out ++ [substr s prev (prev + k - prev)])) as (ls & E2 & N2 & J2 & F2); [lia|lia|].
    exists (substr s prev (prev + k - prev) :: ls). rewrite <- app_assoc in E2. split; [exact E2|]. split; [discriminate|].
    assert (ES : substr s prev (prev + k - prev) = a) by (unfold substr; rewrite E; replace (prev + k - prev) with (length a) by lia; apply firstn_app_exact).
    rewrite ES. split.
    + destruct ls as [|l ls]; [congruence|]. change (join_lines (a :: l :: ls)) with (a ++ 10%N :: join_lines (l :: ls)). rewrite J2.
      rewrite <- Nat.add_assoc, <- skipn_skipn, E. replace (k + 1) with (length (a ++ [10%N])) by (rewrite app_length; cbn; lia).
      change (10%N :: b) with ([10%N] ++ b). rewrite (app_assoc a [10%N] b), skipn_app_exact, <- app_assoc. reflexivity.
    + constructor; [|exact F2]. intros I. rewrite Forall_forall in Fa. specialize (Fa _ I). discriminate Fa.
  - apply find_if_none in E. unfold check. assert (X : (prev <=? length s) = true) by (apply Nat.leb_le; exact L). rewrite X. cbn [bind].
    exists [skipn prev s]. split; [reflexivity|]. split; [discriminate|]. split; [reflexivity|]. constructor; [|constructor]. intros I. rewrite Forall_forall in E. specialize (E _ I). discriminate E.
Qed.
Theorem C28_split_lines : forall s, exists ls, split_lines s = Ok ls /\ ls <> [] /\ join_lines ls = s /\ Forall (fun l => ~ In 10%N l) ls.
Proof. intros s. apply (split_loop_ok s (length s + 1) 0 []); lia. Qed.
Print Assumptions C28_split_lines.
(** ... and that determines the lines. *)
Theorem C28_unique : forall ls ls', ls <> [] -> ls' <> [] -> Forall (fun l => ~ In 10%N l) ls -> Forall (fun l => ~ In 10%N l) ls' ->
  join_lines ls = join_lines ls' -> ls = ls'.
Proof.
  assert (K : forall a b t u, ~ In 10%N a -> ~ In 10%N b -> (a ++ t = b ++ u)%list -> (t = [] \/ exists t', t = 10%N :: t') -> (u = [] \/ exists u', u = 10%N :: u') -> a = b /\ t = u).
  { induction a as [|x a IH]; intros b t u Ha Hb E Ht Hu; destruct b as [|y b]; cbn [app] in E.
    - auto.
    - subst t. destruct Ht as [Ht|(t' & Ht)]; [discriminate|]. injection Ht as -> _. exfalso. apply Hb. left. reflexivity.
    - subst u. destruct Hu as [Hu|(t' & Hu)]; [discriminate|]. injection Hu as -> _. exfalso. apply Ha. left. reflexivity.
    - injection E as -> E. destruct (IH b t u) as [-> ->]; auto; [intros I; apply Ha; right; exact I|intros I; apply Hb; right; exact I]. }
  assert (J : forall l ls, join_lines (l :: ls) = l ++ match ls with [] => [] | _ => 10%N :: join_lines ls end) by (intros l [|]; cbn; [rewrite app_nil_r|]; reflexivity).
  induction ls as [|l ls IH]; intros ls' N1 N2 F1 F2 E; [congruence|]. destruct ls' as [|l' ls']; [congruence|]. inversion F1; subst. inversion F2; subst.
  rewrite !J in E. apply K in E as [-> E]; [|assumption|assumption| |].
  2: destruct ls; [left; reflexivity|right; eauto]. 2: destruct ls'; [left; reflexivity|right; eauto].
  f_equal. destruct ls as [|a ls]; destruct ls' as [|b ls']; try discriminate; [reflexivity|]. injection E as E. apply IH; [discriminate|discriminate|assumption|assumption|exact E].
Qed.
Print Assumptions C28_unique.
Example C28_case : split_lines [97; 10; 10; 98; 10]%N = Ok [[97]; []; [98]; []]%N.
Proof. vm_compute. reflexivity. Qed.

(** ** C29 *)
Definition cnt (p : edit -> bool) (l : list edit) : nat := length (filter p l).
Lemma cnt_app p a b : cnt p (a ++ b) = cnt p a + cnt p b.
Proof. unfold cnt. rewrite filter_app, app_length. reflexivity. Qed.
Lemma transforms_cnt s a b : transforms s a b -> length a = cnt not_ins s /\ length b = cnt not_del s.
Proof. unfold cnt. induction 1 as [|x s a b H [IH1 IH2]|x s a b H [IH1 IH2]|x s a b H [IH1 IH2]]; cbn; lia. Qed.
Lemma prefix_counts_ok p s : forall k i, i <= length s -> count_at (prefix_counts p s k) i = Ok (k + cnt p (firstn i s)).
Proof.
  induction s as [|e s IH]; intros k i H; cbn [prefix_counts length] in *.
  - assert (i = 0) by lia. subst. unfold count_at. cbn. f_equal. lia.
  - destruct i as [|i]; [unfold count_at; cbn; f_equal; lia|]. specialize (IH (k + if p e then 1 else 0) i ltac:(lia)). unfold count_at in *. cbn [nth_error].
    rewrite IH. f_equal. unfold cnt. cbn [firstn filter]. destruct (p e); cbn [length]; lia.
Qed.

(** Each edit with its line. *)
Fixpoint annotate (s : list edit) (a b : list str) : list (edit * str) :=
  match s, a, b with
  | e_common :: s', x :: a', _ :: b' => (e_common, x) :: annotate s' a' b'
  | e_del :: s', x :: a', _ => (e_del, x) :: annotate s' a' b
  | e_ins :: s', _, y :: b' => (e_ins, y) :: annotate s' a b'
  | _, _, _ => []
  end.
Lemma annotate_ok s a b : transforms s a b -> map fst (annotate s a b) = s /\ old_side (annotate s a b) = a /\ new_side (annotate s a b) = b.
Proof.
  induction 1 as [|x s a b H (IH1 & IH2 & IH3)|x s a b H (IH1 & IH2 & IH3)|x s a b H (IH1 & IH2 & IH3)]; [repeat split|..]; cbn [annotate map fst]; unfold old_side, new_side in *; cbn [filter fst map snd].
  - rewrite IH1, IH2, IH3. auto.
  - rewrite IH1, IH2. repeat split. exact IH3.
  - rewrite IH1, IH3. repeat split. exact IH2.
Qed.

Definition sign (e : edit) : N := match e with e_common => 32 | e_del => 45 | e_ins => 43 end%N.
Definition render_line (l : edit * str) : str := sign (fst l) :: shown_line (snd l) ++ [10%N].

Lemma print_line_ok fmt : forall fuel line dirty, length line <= fuel -> print_diff_line fuel line fmt false dirty = Ok (shown_line line).
Proof.
  induction fuel as [|fuel IH]; intros line dirty L.
  - destruct line; [reflexivity|cbn in L; lia].
  - destruct line as [|c0 line0]; [reflexivity|]. cbn [print_diff_line]. set (line := c0 :: line0) in *. unfold find_first_of, find_if_from. cbn [skipn].
    destruct (find_if (fun x => mem x [9; 13; 11]%N) line) as [k|] eqn:E; cbn [option_map Nat.add].
    + apply find_if_split in E as (a & c & b & E & La & Pc & Fa). rewrite E, <- La. rewrite nth_error_app2 by lia. rewrite Nat.sub_diag. cbn [nth_error bind].
      assert (SA : shown_line a = a).
      { clear - Fa. induction Fa as [|x a Hx _ IH]; [reflexivity|]. unfold shown_line in *. cbn [flat_map]. rewrite IH.
        unfold mem in Hx. cbn [existsb] in Hx. rewrite !orb_false_iff in Hx. destruct Hx as (H1 & H2 & H3 & _). rewrite N.eqb_sym in H1, H2, H3. rewrite H1, H2, H3. reflexivity. }
      assert (LB : length b <= fuel) by (assert (length line = length a + S (length b)) by (rewrite E, app_length; reflexivity); lia).
      assert (SK : skipn (length a + 1) (a ++ c :: b) = b) by (rewrite <- skipn_skipn, skipn_app_exact; reflexivity). rewrite SK.
      assert (SH : shown_line (a ++ c :: b) = a ++ (if (c =? 9)%N then bs "\t" else if (c =? 13)%N then bs "\r" else if (c =? 11)%N then bs "\v" else [c]) ++ shown_line b).
      { unfold shown_line in *. rewrite flat_map_app. cbn [flat_map]. rewrite SA. reflexivity. }
      rewrite SH, firstn_app_exact. apply mem_In in Pc. rewrite !andb_false_r.
      destruct (N.eqb_spec c 9) as [->|N1]; [cbn [bind]; rewrite IH by exact LB; reflexivity|].
      destruct (N.eqb_spec c 13) as [->|N2]; [cbn [bind]; rewrite IH by exact LB; reflexivity|].
      destruct (N.eqb_spec c 11) as [->|N3]; [cbn [bind]; rewrite IH by exact LB; reflexivity|]. cbn in Pc. exfalso. intuition congruence.
    + apply find_if_none in E. rewrite andb_false_r. cbn [app]. f_equal. clear - E. induction E as [|x a Hx _ IH]; [reflexivity|]. unfold shown_line in *. cbn [flat_map]. rewrite <- IH.
      unfold mem in Hx. cbn [existsb] in Hx. rewrite !orb_false_iff in Hx. destruct Hx as (H1 & H2 & H3 & _). rewrite N.eqb_sym in H1, H2, H3. rewrite H1, H2, H3. reflexivity.
Qed.

Lemma line_in pre x post k : length pre = k -> line_at (pre ++ x :: post) k = Ok x.
Proof. intros <-. unfold line_at. rewrite nth_error_app2 by lia. rewrite Nat.sub_diag. reflexivity. Qed.
Lemma print_edits_ok s a b : transforms s a b -> forall fpre fpost tpre tpost fi ti, length fpre = fi -> length tpre = ti ->
  print_edits (fpre ++ a ++ fpost) (tpre ++ b ++ tpost) false s fi ti = Ok (flat_map render_line (annotate s a b)).
Proof.
  assert (R : forall pre (x : str) a post, pre ++ (x :: a) ++ post = (pre ++ [x]) ++ a ++ post) by (intros; rewrite <- app_assoc; reflexivity).
  assert (LI : forall pre x a post k, length pre = k -> line_at (pre ++ (x :: a) ++ post) k = Ok x) by (intros; apply line_in; assumption).
  induction 1 as [|x s a b H IH|x s a b H IH|x s a b H IH]; intros fpre fpost tpre tpost fi ti Hf Ht; [reflexivity|..]; cbn [print_edits annotate flat_map not_ins not_del].
  - rewrite LI by exact Hf. cbn [bind]. rewrite print_line_ok by lia. cbn [bind]. rewrite !R. rewrite IH by (rewrite app_length; cbn; lia).
    cbn [bind]. unfold render_line at 2. cbn [fst snd sign app]. rewrite <- !app_assoc. reflexivity.
  - rewrite LI by exact Hf. cbn [bind]. rewrite print_line_ok by lia. cbn [bind]. rewrite (R fpre). rewrite IH by (try rewrite app_length; cbn; lia).
    cbn [bind]. unfold render_line at 2. cbn [fst snd sign app]. rewrite <- !app_assoc. reflexivity.
  - rewrite LI by exact Ht. cbn [bind]. rewrite print_line_ok by lia. cbn [bind]. rewrite (R tpre). rewrite IH by (try rewrite app_length; cbn; lia).
    cbn [bind]. unfold render_line at 2. cbn [fst snd sign app]. rewrite <- !app_assoc. reflexivity.
Qed.

(** Decimal notation. *)
Lemma decimal_loop_ok : forall fuel n acc, N.to_nat n < fuel ->
  exists d, decimal_loop fuel n acc = d ++ acc /\ digits_value 10 d n /\ d <> [] /\ Forall (fun c => 48 <= c <= 57)%N d
    /\ (n <> 0 -> hd 48 d <> 48)%N /\ (n = 0%N -> d = [48%N]).
Proof.
  induction fuel as [|fuel IH]; intros n acc L; [lia|]. cbn [decimal_loop].
  assert (M : (n mod 10 < 10)%N) by (apply N.mod_lt; lia). pose proof (N.div_mod n 10 ltac:(lia)) as D.
  assert (DV : digit_value (48 + n mod 10) = Some (n mod 10)%N).
  { clear D. revert M. generalize (n mod 10)%N. intros d M. unfold digit_value. assert (X : ((48 <=? 48 + d) && (48 + d <=? 57))%N = true) by (apply andb_true_iff; rewrite !N.leb_le; split; lia). rewrite X. f_equal. rewrite N.add_comm. apply N.add_sub. }
  assert (RB : (48 <= 48 + n mod 10 <= 57)%N) by (clear D DV; revert M; generalize (n mod 10)%N; intros; lia).
  destruct (N.eqb_spec (n / 10) 0) as [Z|Z].
  - exists [48 + n mod 10]%N. rewrite Z in D. split; [reflexivity|]. split.
    { rewrite D at 2. change [48 + n mod 10]%N with ([] ++ [48 + n mod 10])%N. replace (10 * 0 + n mod 10)%N with (0 * 10 + n mod 10)%N by lia. apply dv_snoc; [constructor|exact DV|exact M]. }
    split; [discriminate|]. split; [constructor; [exact RB|constructor]|]. cbn [hd]. split; [lia|]. intros ->. reflexivity.
  - destruct (IH (n / 10)%N ((48 + n mod 10) :: acc)%N) as (d & E & V & Ne & F & H1 & _).
    { assert (n / 10 < n)%N by (apply N.div_lt; [destruct n; [exfalso; apply Z; reflexivity|reflexivity]|reflexivity]). clear D M. lia. }
    exists (d ++ [48 + n mod 10])%N. rewrite <- app_assoc. split; [exact E|]. split.
    { rewrite D at 2. rewrite (N.mul_comm 10). apply dv_snoc; [exact V|exact DV|exact M]. }
    split; [destruct d; discriminate|]. split; [apply Forall_app; split; [exact F|constructor; [exact RB|constructor]]|].
    split; [|intros ->; exfalso; apply Z; reflexivity]. intros _. destruct d; [congruence|]. apply H1. exact Z.
Qed.
Lemma decimal_ok n : decimal_of n (decimal n).
Proof.
  unfold decimal. destruct (decimal_loop_ok (S n) (N.of_nat n) []) as (d & E & V & Ne & F & H1 & HZ); [lia|]. rewrite E, app_nil_r.
  split; [exact V|]. split; [exact Ne|]. split; [exact F|]. split; [intros; apply H1; lia|intros ->; apply HZ; reflexivity].
Qed.

(** Hunks as ranges of edits: in order, with only common edits outside. *)
Inductive ranges (s : list edit) : nat -> list (nat * nat) -> Prop :=
| r_nil lo : Forall (fun e => is_common e = true) (skipn lo s) -> ranges s lo []
| r_cons lo b e hs : lo <= b <= e -> e <= length s -> Forall (fun e => is_common e = true) (firstn (b - lo) (skipn lo s)) ->
    ranges s e hs -> ranges s lo ((b, e) :: hs).

Lemma common_same s a b : Forall (fun e => is_common e = true) s -> transforms s a b -> a = b /\ length a = length s.
Proof.
  intros F T. induction T; inversion F; subst; try discriminate; [auto|]. destruct (IHT H2) as [-> E]. cbn. auto.
Qed.

Section Print.
Variables (from to : list str) (s : list edit).

Let fp i := cnt not_ins (firstn i s).
Let tp i := cnt not_del (firstn i s).

Lemma print_ranges : forall lo rs, ranges s lo rs -> lo <= length s -> forall fpre a tpre b, from = fpre ++ a -> to = tpre ++ b -> length fpre = fp lo -> length tpre = tp lo ->
  transforms (skipn lo s) a b ->
  exists hs text, concat_res (map (print_hunk from to false s (prefix_counts not_ins s 0) (prefix_counts not_del s 0)) rs) = Ok text
    /\ diff_text hs text /\ patches (length fpre) (length tpre) hs a b
    /\ map (fun h => map fst (h_lines h)) hs = map (fun r => firstn (snd r - fst r) (skipn (fst r) s)) rs.
Proof.
  induction 1 as [lo F|lo be e rs L1 L2 F R IH]; intros Llo fpre a tpre b Ef Et Hf Ht HT.
  - exists [], []. cbn. destruct (common_same _ _ _ F HT) as [-> _]. repeat split; constructor.
  - (* keep, hunk, rest *)
    assert (SP : skipn lo s = firstn (be - lo) (skipn lo s) ++ firstn (e - be) (skipn be s) ++ skipn e s).
    { rewrite <- (firstn_skipn (be - lo) (skipn lo s)) at 1. f_equal. rewrite skipn_skipn. replace (lo + (be - lo)) with be by lia.
      rewrite <- (firstn_skipn (e - be) (skipn be s)) at 1. f_equal. rewrite skipn_skipn. f_equal. lia. }
    set (keep := firstn (be - lo) (skipn lo s)) in *. set (m := firstn (e - be) (skipn be s)) in *. rewrite SP in HT.
    apply transforms_split in HT as (a1 & a2' & b1 & b2' & -> & -> & T1 & T2'). apply transforms_split in T2' as (a2 & a3 & b2 & b3 & -> & -> & T2 & T3).
    destruct (common_same _ _ _ F T1) as [<- LK].
    assert (PB : firstn be s = firstn lo s ++ keep).
    { unfold keep. replace be with (lo + (be - lo)) at 1 by lia. clear. generalize (be - lo). intros k. revert s. induction lo as [|lo IH]; intros s; [reflexivity|]. destruct s; [destruct k; reflexivity|]. cbn. f_equal. apply IH. }
    assert (PE : firstn e s = firstn be s ++ m).
    { unfold m. replace e with (be + (e - be)) at 1 by lia. clear. generalize (e - be). intros k. revert s. induction be as [|be IH]; intros s; [reflexivity|]. destruct s; [destruct k; reflexivity|]. cbn. f_equal. apply IH. }
    destruct (transforms_cnt _ _ _ T1) as [C1 C1']. destruct (transforms_cnt _ _ _ T2) as [C2 C2'].
    assert (Fb : length (fpre ++ a1) = fp be) by (unfold fp in *; rewrite PB, cnt_app, app_length; lia).
    assert (Tb : length (tpre ++ a1) = tp be) by (unfold tp in *; rewrite PB, cnt_app, app_length; lia).
    assert (Fe : length ((fpre ++ a1) ++ a2) = fp e) by (unfold fp in *; rewrite PE, cnt_app, app_length; lia).
    assert (Te : length ((tpre ++ a1) ++ b2) = tp e) by (unfold tp in *; rewrite PE, cnt_app, app_length; lia).
    destruct (IH ltac:(lia) ((fpre ++ a1) ++ a2) a3 ((tpre ++ a1) ++ b2) b3) as (hs & text & E & DT & PT & MT).
    { rewrite Ef, <- !app_assoc. reflexivity. } { rewrite Et, <- !app_assoc. reflexivity. } { exact Fe. } { exact Te. } { exact T3. }
    destruct (annotate_ok _ _ _ T2) as (A1 & A2 & A3).
    set (h := mk_hunk (fp be + 1) (fp e - fp be) (tp be + 1) (tp e - tp be) (annotate m a2 b2)).
    exists (h :: hs). eexists. split; [|split; [|split]].
    + cbn [map concat_res]. unfold print_hunk at 1. rewrite !prefix_counts_ok by lia. cbn [bind Nat.add]. fold m.
      assert (PEd : print_edits from to false m (cnt not_ins (firstn be s)) (cnt not_del (firstn be s)) = Ok (flat_map render_line (annotate m a2 b2))).
      { rewrite Ef, Et. replace (fpre ++ a1 ++ a2 ++ a3) with ((fpre ++ a1) ++ a2 ++ a3) by (rewrite <- app_assoc; reflexivity).
        replace (tpre ++ a1 ++ b2 ++ b3) with ((tpre ++ a1) ++ b2 ++ b3) by (rewrite <- app_assoc; reflexivity). apply print_edits_ok; [exact T2|exact Fb|exact Tb]. }
      rewrite PEd. cbn [bind]. rewrite E. cbn [bind]. reflexivity.
    + constructor; [|exact DT]. cbn [app]. apply (ht h); apply decimal_ok.
    + assert (P1 : h_from_count h = length a2) by (subst h; cbn [h_from_count]; rewrite !app_length in *; lia).
      assert (P2 : h_to_count h = length b2) by (subst h; cbn [h_to_count]; rewrite !app_length in *; lia).
      replace a2 with (old_side (h_lines h)) at 1 by exact A2. replace b2 with (new_side (h_lines h)) at 1 by exact A3. apply p_hunk.
      * subst h. cbn [h_from_start]. rewrite <- Fb, app_length. lia.
      * subst h. cbn [h_to_start]. rewrite <- Tb, app_length. lia.
      * rewrite P1. f_equal. symmetry. exact A2.
      * rewrite P2. f_equal. symmetry. exact A3.
      * rewrite P1, P2. rewrite !app_length in PT. exact PT.
    + cbn [map]. rewrite MT. cbn [fst snd]. fold m. f_equal. exact A1.
Qed.
End Print.

(** The grouping into hunks. *)
Definition changed (s : list edit) (p : nat) : Prop := exists e, nth_error s p = Some e /\ is_common e = false.
Lemma positions_ok s : forall k, StronglySorted lt (change_positions s k) /\ (forall p, In p (change_positions s k) <-> k <= p /\ changed s (p - k)).
Proof.
  induction s as [|e s IH]; intros k; cbn [change_positions].
  - split; [constructor|]. intros p. split; [contradiction|]. intros (_ & x & E & _). destruct (p - k); discriminate.
  - destruct (IH (S k)) as [S1 I1]. assert (NX : forall p, S k <= p -> (changed (e :: s) (p - k) <-> changed s (p - S k))).
    { intros p Hp. unfold changed. replace (p - k) with (S (p - S k)) by lia. reflexivity. }
    destruct (is_common e) eqn:E.
    + split; [exact S1|]. intros p. rewrite I1. split.
      * intros [H1 H2]. split; [lia|]. apply NX; assumption.
      * intros [H1 H2]. destruct (Nat.eq_dec p k) as [->|Ne]; [|split; [lia|apply NX; [lia|exact H2]]].
        rewrite Nat.sub_diag in H2. destruct H2 as (x & Ex & Hx). cbn in Ex. congruence.
    + split.
      * constructor; [exact S1|]. apply Forall_forall. intros p Hp. apply I1 in Hp. lia.
      * intros p. cbn [In]. rewrite I1. split.
        -- intros [<-|[H1 H2]]; [split; [lia|]; rewrite Nat.sub_diag; exists e; auto|]. split; [lia|apply NX; assumption].
        -- intros [H1 H2]. destruct (Nat.eq_dec p k) as [->|Ne]; [left; reflexivity|right]. split; [lia|apply NX; [lia|exact H2]].
Qed.

Lemma merge_ok c : (2 * c < 2 ^ 64)%N -> forall later last last' rest, merge c last later = (last', rest) -> StronglySorted lt (last :: later) ->
  exists taken, later = taken ++ rest /\ In last' (last :: taken) /\ (forall p, In p (last :: taken) -> p <= last')
    /\ (forall p, In p rest -> (N.of_nat last' + 1 + 2 * c < N.of_nat p)%N)
    /\ (forall q k, last < q -> q + k <= last' -> (forall p, In p taken -> ~ (q <= p < q + k)) -> (N.of_nat k <= 2 * c)%N).
Proof.
  intros small. induction later as [|next later IH]; intros last last' rest E Hs; cbn [merge] in E.
  - injection E as <- <-. exists []. split; [reflexivity|]. split; [left; reflexivity|]. split; [intros p [<-|[]]; lia|]. split; [intros p []|]. intros; lia.
  - inversion Hs as [|? ? S1 F1]; subst. inversion F1 as [|? ? Hn F2]; subst. rewrite N.mod_small in E by exact small.
    destruct (N.ltb_spec (2 * c) (N.of_nat (next - last - 1))) as [G|G].
    + injection E as <- <-. exists []. split; [reflexivity|]. split; [left; reflexivity|]. split; [intros p [<-|[]]; lia|]. split; [|intros; lia].
      intros p [<-|Hp]; [lia|]. inversion S1 as [|? ? S2 F3]; subst. rewrite Forall_forall in F3. specialize (F3 _ Hp). lia.
    + destruct (IH next last' rest E S1) as (taken & -> & I1 & M1 & R1 & K1). exists (next :: taken). split; [reflexivity|]. split; [right; exact I1|].
      split; [intros p [<-|Hp]; [specialize (M1 next (or_introl eq_refl)); lia|apply M1; exact Hp]|]. split; [exact R1|].
      intros q k Hq Hk Hno. destruct (Nat.lt_ge_cases next q) as [L|L].
      * apply (K1 q k L Hk). intros p Hp. apply Hno. right. exact Hp.
      * assert (X : ~ (q <= next < q + k)) by (apply Hno; left; reflexivity). lia.
Qed.
Lemma extend_ok c : forall spare t stop, extend c t spare stop = Nat.min (stop + spare) (stop + N.to_nat (c - t)).
Proof.
  induction spare as [|spare IH]; intros t stop; cbn [extend]; [lia|]. destruct (N.ltb_spec t c); [rewrite IH; lia|lia].
Qed.

Lemma nth_in_range (s : list edit) lo k x : nth_error (firstn k (skipn lo s)) x = nth_error s (lo + x) \/ k <= x.
Proof.
  destruct (Nat.lt_ge_cases x k) as [L|L]; [left|right; exact L]. revert s k x L. induction lo as [|lo IH]; intros s k x L.
  - cbn [skipn Nat.add]. revert s x L. induction k as [|k IH]; intros s x L; [lia|]. destruct s; [destruct x; reflexivity|]. destruct x; [reflexivity|]. cbn. apply IH. lia.
  - destruct s; [cbn; destruct k, x; reflexivity|]. cbn [skipn Nat.add nth_error]. apply IH. exact L.
Qed.
Lemma commons_of s lo k : (forall p, lo <= p < lo + k -> ~ changed s p) -> Forall (fun e => is_common e = true) (firstn k (skipn lo s)).
Proof.
  intros H. apply Forall_forall. intros e He. apply In_nth_error in He as (x & Hx).
  destruct (nth_in_range s lo k x) as [E|E]; [|assert (x < length (firstn k (skipn lo s))) by (apply nth_error_Some; congruence); rewrite firstn_length in *; lia].
  assert (x < length (firstn k (skipn lo s))) by (apply nth_error_Some; congruence). rewrite firstn_length in *.
  destruct (is_common e) eqn:Ec; [reflexivity|]. exfalso. apply (H (lo + x)); [lia|]. exists e. split; [congruence|exact Ec].
Qed.

(** What a range of edits around changes looks like. *)
Definition good_context (c : N) (m : list edit) : Prop :=
  (exists e, In e m /\ e <> e_common)
  /\ forall a k b, m = a ++ repeat e_common k ++ b -> (N.of_nat k <= match a, b with [], _ | _, [] => c | _, _ => 2 * c end)%N.

Lemma collect_ok c s : (2 * c < 2 ^ 64)%N -> forall fuel ps lo, length ps <= fuel -> StronglySorted lt ps ->
  (forall p, In p ps -> changed s p) -> (forall p, lo <= p -> changed s p -> In p ps) -> (forall p, In p ps -> (N.of_nat lo <= N.of_nat p - c)%N) -> lo <= length s ->
  exists rs, collect_hunks fuel (length s) c ps = Ok rs /\ ranges s lo rs /\ Forall (fun r => good_context c (firstn (snd r - fst r) (skipn (fst r) s))) rs.
Proof.
  intros small. induction fuel as [|fuel IH]; intros ps lo L Hs Hc Hin Hlo Ll.
  - destruct ps; [|cbn in L; lia]. exists []. cbn. split; [reflexivity|]. split; [|constructor]. constructor.
    rewrite <- (firstn_all (skipn lo s)). apply commons_of. intros p Hp X. apply (Hin p ltac:(lia) X).
  - destruct ps as [|first later].
    { exists []. cbn. split; [reflexivity|]. split; [|constructor]. constructor. rewrite <- (firstn_all (skipn lo s)). apply commons_of. intros p Hp X. apply (Hin p ltac:(lia) X). }
    cbn [collect_hunks]. destruct (merge c first later) as [last rest] eqn:M. destruct (merge_ok c small _ _ _ _ M Hs) as (taken & -> & I1 & M1 & R1 & K1).
    rewrite extend_ok. set (be := N.to_nat (N.of_nat first - c)). set (e := Nat.min (last + 1 + (length s - (last + 1))) (last + 1 + N.to_nat (c - 0))).
    assert (CL : changed s last) by (apply Hc; destruct I1 as [<-|I1]; [left; reflexivity|right; apply in_or_app; left; exact I1]).
    assert (LL : last < length s) by (destruct CL as (x & Ex & _); apply nth_error_Some; congruence).
    assert (FL : first <= last) by (apply M1; left; reflexivity).
    assert (Sr : StronglySorted lt rest).
    { clear - Hs. inversion Hs as [|? ? H _]; subst. clear Hs. induction taken as [|x taken IH]; [exact H|]. inversion H; subst. apply IH. assumption. }
    assert (LO : (N.of_nat lo <= N.of_nat first - c)%N) by (apply Hlo; left; reflexivity).
    destruct (IH rest e) as (rs & E & R & G).
    + cbn [length] in L. rewrite app_length in L. lia.
    + exact Sr.
    + intros p Hp. apply Hc. right. apply in_or_app. right. exact Hp.
    + intros p Hp X. destruct (Hin p ltac:(lia) X) as [<-|I]; [lia|]. apply in_app_or in I as [I|I]; [|exact I]. specialize (M1 p (or_intror I)). lia.
    + intros p Hp. specialize (R1 p Hp). lia.
    + lia.
    + rewrite E. cbn [bind]. eexists. split; [reflexivity|]. split.
      * constructor; [lia|lia| |exact R]. apply commons_of. intros p Hp X. destruct (Hin p ltac:(lia) X) as [<-|I]; [lia|].
        inversion Hs as [|? ? _ F]; subst. rewrite Forall_forall in F. specialize (F p I). lia.
      * constructor; [|exact G]. cbn [fst snd]. set (m := firstn (e - be) (skipn be s)).
        assert (CF : changed s first) by (apply Hc; left; reflexivity).
        assert (LM : length m = e - be) by (unfold m; rewrite firstn_length, skipn_length; lia).
        assert (NM : forall p, be <= p < e -> nth_error m (p - be) = nth_error s p).
        { intros p Hp. destruct (nth_in_range s be (e - be) (p - be)) as [X|X]; [|lia]. unfold m. rewrite X. f_equal. lia. }
        split.
        -- destruct CF as (x & Ex & Nx). exists x. split; [|intros ->; discriminate Nx]. apply (nth_error_In m (first - be)). rewrite NM by lia. exact Ex.
        -- intros a k b Em.
           (* the run covers positions be+|a| .. be+|a|+k *)
           assert (Lk : length a + k + length b = e - be) by (rewrite <- LM, Em, !app_length, repeat_length; lia).
           assert (RUN : forall p, be + length a <= p < be + length a + k -> ~ changed s p).
           { intros p Hp (x & Ex & Nx). rewrite <- NM in Ex by lia. rewrite Em in Ex. rewrite nth_error_app2 in Ex by lia. rewrite nth_error_app1 in Ex by (rewrite repeat_length; lia).
             apply nth_error_In, repeat_spec in Ex. subst x. discriminate Nx. }
           assert (F1 : ~ (be + length a <= first < be + length a + k)) by (intros X; exact (RUN _ X CF)).
           assert (F2 : ~ (be + length a <= last < be + length a + k)) by (intros X; exact (RUN _ X CL)).
           assert (MID : (N.of_nat k <= 2 * c)%N).
           { destruct (Nat.lt_ge_cases first (be + length a)) as [X1|X1]; [|lia]. destruct (Nat.lt_ge_cases last (be + length a + k)) as [X2|X2]; [lia|].
             apply (K1 (be + length a) k X1 X2). intros p Hp X. apply (RUN p X). apply Hc. right. apply in_or_app. left. exact Hp. }
           destruct a as [|a0 a]; [cbn [length] in *; lia|]. destruct b as [|b0 b]; [cbn [length] in *; lia|exact MID].
Qed.

(** The printed text is a unified diff that turns the old lines into the new ones. *)
Theorem C29_print_diff_partial : forall from to c, representable from to -> (c < 2 ^ 63)%N ->
  exists hs text, print_diff from to c false = Ok text /\ diff_text hs text /\ patches 0 0 hs from to /\ Forall (fun h => context_ok c (h_lines h)) hs.
Proof.
  intros from to c H Hc. unfold print_diff. destruct (ses_ok from to H) as (s & E & T & _). rewrite E. cbn [bind].
  destruct (positions_ok s 0) as [Sp Ip].
  destruct (collect_ok c s) with (fuel := length s) (ps := change_positions s 0) (lo := 0) as (rs & E2 & R & G).
  - change (2 ^ 64)%N with (2 * 2 ^ 63)%N. lia.
  - clear. generalize 0. induction s as [|e s IH]; intros k; cbn [change_positions length]; [lia|]. destruct (is_common e); cbn [length]; specialize (IH (S k)); lia.
  - exact Sp.
  - intros p Hp. apply Ip in Hp as [_ Hp]. rewrite Nat.sub_0_r in Hp. exact Hp.
  - intros p Hp X. apply Ip. rewrite Nat.sub_0_r. auto.
  - intros p Hp. lia.
  - lia.
  - rewrite E2. cbn [bind]. destruct (print_ranges from to s 0 rs R ltac:(lia) [] from [] to) as (hs & text & E3 & DT & PT & MT); try reflexivity; [exact T|].
    exists hs, text. split; [exact E3|]. split; [exact DT|]. split; [exact PT|].
    clear - G MT. revert hs MT. induction G as [|r rs Hr _ IH]; intros hs MT; destruct hs as [|h hs]; try discriminate; constructor.
    + cbn [map] in MT. injection MT as MT _. unfold context_ok. rewrite MT. exact Hr.
    + apply IH. cbn [map] in MT. injection MT as _ MT. exact MT.
Qed.
Print Assumptions C29_print_diff_partial.

(** With a context of 2^63 lines or more, twice the context wraps around to a small number, and
    hunks that overlap are not merged: the same changes are printed twice. *)
Theorem C29_print_diff_refuted :
  print_diff [bs "a"; bs "b"; bs "c"] [bs "x"; bs "b"; bs "y"] (2 ^ 63) false
  = Ok (let t := bs "@@ -1,3 +1,3 @@" ++ [10%N] ++ bs "-a" ++ [10%N] ++ bs "+x" ++ [10%N] ++ bs " b" ++ [10%N] ++ bs "-c" ++ [10%N] ++ bs "+y" ++ [10%N] in t ++ t).
Proof. vm_compute. reflexivity. Qed.
Print Assumptions C29_print_diff_refuted.

Example C29_case : representable [bs "a"; bs "b"; bs "c"] [bs "x"; bs "b"; bs "y"] /\ (1 < 2 ^ 63)%N
  /\ print_diff [bs "a"; bs "b"; bs "c"] [bs "x"; bs "b"; bs "y"] 0 false
  = Ok (bs "@@ -1,1 +1,1 @@" ++ [10%N] ++ bs "-a" ++ [10%N] ++ bs "+x" ++ [10%N] ++ bs "@@ -3,1 +3,1 @@" ++ [10%N] ++ bs "-c" ++ [10%N] ++ bs "+y" ++ [10%N]).
Proof. split; [reflexivity|]. split; [reflexivity|]. vm_compute. reflexivity. Qed.

(** ** C70: two texts *)
Theorem C70_text_diff : forall from to c, (N.of_nat (length from + length to) < 2 ^ 63)%N -> (c < 2 ^ 63)%N ->
  exists a b hs text, join_lines a = from /\ join_lines b = to /\ Forall (fun l => ~ In 10%N l) (a ++ b)
    /\ print_lines_diff from to c false = Ok text /\ diff_text hs text /\ patches 0 0 hs a b
    /\ Forall (fun h => context_ok c (h_lines h)) hs.
Proof.
  intros from to c H Hc. destruct (C28_split_lines from) as (a & Ea & Na & Ja & Fa). destruct (C28_split_lines to) as (b & Eb & Nb & Jb & Fb).
  assert (LN : forall l, l <> [] -> length l <= length (join_lines l) + 1).
  { induction l as [|x l IH]; intros Ne; [congruence|]. destruct l as [|y l]; [cbn; lia|]. specialize (IH ltac:(discriminate)). change (join_lines (x :: y :: l)) with (x ++ 10%N :: join_lines (y :: l)).
    rewrite app_length. cbn [length] in *. lia. }
  assert (R : representable a b).
  { unfold representable. assert (length a <= length from + 1) by (destruct a; [cbn; lia|rewrite <- Ja; apply LN; discriminate]).
    assert (length b <= length to + 1) by (destruct b; [cbn; lia|rewrite <- Jb; apply LN; discriminate]).
    change (2 ^ 63)%N with 9223372036854775808%N in *. change (2 ^ 64)%N with 18446744073709551616%N. lia. }
  destruct (C29_print_diff_partial a b c R Hc) as (hs & text & E & DT & PT & CT). exists a, b, hs, text.
  split; [exact Ja|]. split; [exact Jb|]. split; [apply Forall_app; auto|]. split; [|auto].
  unfold print_lines_diff. rewrite Ea, Eb. exact E.
Qed.
Print Assumptions C70_text_diff.
Example C70_case : print_lines_diff (bs "a" ++ [10%N] ++ bs "b") (bs "a" ++ [10%N] ++ bs "c" ++ [10%N]) 3 false
  = Ok (bs "@@ -1,2 +1,3 @@" ++ [10%N] ++ bs " a" ++ [10%N] ++ bs "-b" ++ [10%N] ++ bs "+c" ++ [10%N] ++ bs "+" ++ [10%N]).
Proof. vm_compute. reflexivity. Qed.
