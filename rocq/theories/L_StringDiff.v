(** * Lemmas: the table, the traceback, the partition *)
From Coq Require Import List NArith ZArith Bool Arith Lia.
From Verif Require Import M_Base L_Base M_StringDiff S_StringDiff.
Import ListNotations.

(** ** Loops *)
Lemma for_inv {A} (P : nat -> A -> Prop) (f : nat -> A -> res A) len : forall start a,
  P start a -> (forall i a, start <= i < start + len -> P i a -> exists a', f i a = Ok a' /\ P (S i) a') ->
  exists a', for_each (seq start len) f a = Ok a' /\ P (start + len) a'.
Proof.
  induction len as [|len IH]; intros start a Ha H; cbn [seq for_each].
  - exists a. rewrite Nat.add_0_r. auto.
  - destruct (H start a) as (a1 & E & P1); [lia|exact Ha|]. rewrite E. cbn [bind].
    destruct (IH (S start) a1 P1) as (a2 & E2 & P2); [intros; apply H; [lia|assumption]|]. exists a2. split; [exact E2|].
    replace (start + S len) with (S start + len) by lia. exact P2.
Qed.

Lemma list_set_length {A} (l : list A) i x : length (list_set l i x) = length l.
Proof. revert i. induction l as [|y l IH]; intros [|i]; cbn; auto. Qed.
Lemma list_set_same {A} (l : list A) i x : i < length l -> nth_error (list_set l i x) i = Some x.
Proof. revert i. induction l as [|y l IH]; intros [|i] H; cbn in *; try lia; auto. apply IH. lia. Qed.
Lemma list_set_other {A} (l : list A) i j x : i <> j -> nth_error (list_set l i x) j = nth_error l j.
Proof. revert i j. induction l as [|y l IH]; intros [|i] [|j] H; cbn; auto; try lia. Qed.

Lemma line_ok (l : list str) k : k < length l -> exists x, line_at l k = Ok x /\ nth_error l k = Some x.
Proof. intros H. unfold line_at. destruct (nth_error l k) eqn:E; [eauto|]. apply nth_error_None in E. lia. Qed.

(** ** The recurrence *)
Section Dist.
Variables from to : list str.
Definition eqs (i j : nat) : bool :=
  match nth_error from i, nth_error to j with Some x, Some y => str_eqb x y | _, _ => false end.
Fixpoint dist (i : nat) : nat -> nat :=
  fix inner (j : nat) : nat :=
    match i, j with
    | O, _ => j
    | S _, O => i
    | S i', S j' => if eqs i' j' then Nat.min (dist i' j') (Nat.min (dist i' j + 1) (inner j' + 1))
                    else Nat.min (dist i' j + 1) (inner j' + 1)
    end.
Lemma dist_0 j : dist 0 j = j. Proof. destruct j; reflexivity. Qed.
Lemma dist_S0 i : dist (S i) 0 = S i. Proof. reflexivity. Qed.
Lemma dist_SS i j : dist (S i) (S j) = if eqs i j then Nat.min (dist i j) (Nat.min (dist i (S j) + 1) (dist (S i) j + 1))
                    else Nat.min (dist i (S j) + 1) (dist (S i) j + 1).
Proof. reflexivity. Qed.
Lemma dist_i0 i : dist i 0 = i. Proof. destruct i; reflexivity. Qed.

Lemma dist_del i j : dist (S i) j <= dist i j + 1.
Proof. destruct j; [rewrite !dist_i0; lia|]. rewrite dist_SS. destruct (eqs i j); lia. Qed.
Lemma dist_ins i j : dist i (S j) <= dist i j + 1.
Proof. destruct i; [rewrite !dist_0; lia|]. rewrite dist_SS. destruct (eqs i j); lia. Qed.
Lemma dist_bound i j : dist i j <= i + j.
Proof. induction j as [|j IH]; [rewrite dist_i0; lia|]. pose proof (dist_ins i j). lia. Qed.
Lemma dist_lip i : (forall j, dist i j <= dist i (S j) + 1) /\ (forall j, dist i j <= dist (S i) j + 1).
Proof.
  induction i as [|i [IH1 IH2]].
  - split; intros j; [rewrite !dist_0; lia|]. rewrite dist_0. induction j as [|j IH]; [lia|]. rewrite dist_SS, !dist_0. destruct (eqs 0 j); lia.
  - assert (A : forall j, dist (S i) j <= dist (S i) (S j) + 1).
    { intros j. rewrite dist_SS. pose proof (dist_del i j). pose proof (IH1 j). destruct (eqs i j); lia. }
    split; [exact A|]. intros j. induction j as [|j IH]; [rewrite !dist_i0; lia|].
    rewrite (dist_SS (S i) j). pose proof (dist_ins (S i) j). pose proof (A j). destruct (eqs (S i) j); lia.
Qed.
(** Where the elements are equal, keeping both is best. *)
Lemma dist_diag i j : eqs i j = true -> dist (S i) (S j) = dist i j.
Proof.
  intros E. rewrite dist_SS, E. pose proof (proj1 (dist_lip i) j). pose proof (proj2 (dist_lip i) j). lia.
Qed.
Lemma dist_off i j : eqs i j = false -> dist (S i) (S j) = Nat.min (dist i (S j) + 1) (dist (S i) j + 1).
Proof. intros E. rewrite dist_SS, E. reflexivity. Qed.
End Dist.

(** ** The table holds the recurrence *)
Section Table.
Variables from to : list str.
Let n := length from.
Let m := length to.
Let w := m + 1.
Hypothesis small : (N.of_nat (n + m) < size_max)%N.

Lemma index_inj i j i' j' : j < w -> j' < w -> i * w + j = i' * w + j' -> i = i' /\ j = j'.
Proof. intros H1 H2 E. assert (i = i') by nia. subst. split; lia. Qed.
Lemma index_lt i j : i <= n -> j <= m -> i * w + j < (n + 1) * w.
Proof. intros H1 H2. unfold w. nia. Qed.

Definition holds (t : list N) (i j : nat) : Prop := F_get w t i j = Ok (N.of_nat (dist from to i j)).
Lemma set_ok t i j v : length t = (n + 1) * w -> i <= n -> j <= m ->
  exists t', F_set w t i j v = Ok t' /\ length t' = (n + 1) * w /\ F_get w t' i j = Ok v
    /\ forall i' j', j' <= m -> (i', j') <> (i, j) -> F_get w t' i' j' = F_get w t i' j'.
Proof.
  intros L Hi Hj. pose proof (index_lt i j Hi Hj) as HL. unfold F_set. destruct (Nat.ltb_spec (i * w + j) (length t)); [|lia].
  eexists. split; [reflexivity|]. rewrite list_set_length. split; [exact L|]. unfold F_get. split; [rewrite list_set_same by lia; reflexivity|].
  intros i' j' Hj' Hne. rewrite list_set_other; [reflexivity|]. intros E. apply index_inj in E; [|unfold w; lia|unfold w; lia]. apply Hne. destruct E; congruence.
Qed.

Lemma fill_table_ok : exists t, fill_table from to = Ok t /\ length t = (n + 1) * w /\ forall i j, i <= n -> j <= m -> holds t i j.
Proof.
  unfold fill_table. cbv zeta. fold n m. fold w. change (seq 0 w) with (seq 0 (m + 1)).
  destruct (for_inv (fun i t => length t = (n + 1) * w /\ forall i', i' < i -> holds t i' 0) (fun i t => F_set w t i 0 (N.of_nat i)) (n + 1) 0 (repeat 0%N ((n + 1) * w)))
    as (t1 & E1 & L1 & P1).
  { split; [apply repeat_length|]. intros; lia. }
  { intros i t Hi [L P]. destruct (set_ok t i 0 (N.of_nat i) L) as (t' & E & L' & G & O); [lia|lia|]. exists t'. split; [exact E|]. split; [exact L'|].
    intros i' Hi'. unfold holds. destruct (Nat.eq_dec i' i) as [->|Ne]; [rewrite G, dist_i0; reflexivity|]. rewrite O by (lia || congruence). apply P. lia. }
  rewrite E1. cbn [bind].
  destruct (for_inv (fun j t => length t = (n + 1) * w /\ (forall i', i' <= n -> holds t i' 0) /\ forall j', j' < j -> holds t 0 j') (fun j t => F_set w t 0 j (N.of_nat j)) (m + 1) 0 t1)
    as (t2 & E2 & L2 & P2 & Q2).
  { split; [exact L1|]. split; [intros; apply P1; lia|intros; lia]. }
  { intros j t Hj (L & P & Q). destruct (set_ok t 0 j (N.of_nat j) L) as (t' & E & L' & G & O); [lia|lia|]. exists t'. split; [exact E|]. split; [exact L'|]. split.
    - intros i' Hi'. unfold holds. destruct (Nat.eq_dec i' 0) as [->|Ne].
      + destruct (Nat.eq_dec j 0) as [->|Ne]; [rewrite G, dist_0; reflexivity|]. rewrite O by (lia || congruence). apply P. lia.
      + rewrite O by (lia || congruence). apply P. exact Hi'.
    - intros j' Hj'. unfold holds. destruct (Nat.eq_dec j' j) as [->|Ne]; [rewrite G, dist_0; reflexivity|]. rewrite O by (lia || congruence). apply Q. lia. }
  rewrite E2. cbn [bind].
  destruct (for_inv (fun i t => length t = (n + 1) * w /\ (forall i', i' <= n -> holds t i' 0) /\ forall i' j', i' < i -> j' <= m -> holds t i' j')
     (fun i t => for_each (seq 1 m) (fun j t => fill_cell from to i j t) t) n 1 t2) as (t3 & E3 & L3 & P3 & Q3).
  { split; [exact L2|]. split; [exact P2|]. intros i' j' Hi Hj. assert (i' = 0) by lia. subst. apply Q2. lia. }
  { intros i t Hi (L & P & Q).
    destruct (for_inv (fun j t => length t = (n + 1) * w /\ (forall i', i' <= n -> holds t i' 0) /\ (forall i' j', i' < i -> j' <= m -> holds t i' j') /\ forall j', j' < j -> holds t i j')
      (fun j t => fill_cell from to i j t) m 1 t) as (t' & E & L' & P' & Q' & R').
    { split; [exact L|]. split; [exact P|]. split; [exact Q|]. intros j' Hj. assert (j' = 0) by lia. subst. apply P. lia. }
    { intros j u Hj (Lu & Pu & Qu & Ru). unfold fill_cell. cbv zeta. fold m. fold w.
      destruct (line_ok from (i - 1)) as (x & Ex & Nx); [fold n; lia|]. destruct (line_ok to (j - 1)) as (y & Ey & Ny); [fold m; lia|].
      rewrite Ex, Ey. cbn [bind]. destruct i as [|i]; [lia|]. destruct j as [|j]; [lia|]. replace (S i - 1) with i in * by lia. replace (S j - 1) with j in * by lia.
      pose proof (Qu i j ltac:(lia) ltac:(lia)) as H1. pose proof (Qu i (S j) ltac:(lia) ltac:(lia)) as H2. pose proof (Ru j ltac:(lia)) as H3.
      unfold holds in H1, H2, H3. rewrite H1, H2, H3. cbn [bind].
      assert (Ev : forall d, (if str_eqb x y then Ok (N.of_nat (dist from to i j)) else Ok size_max) = Ok d ->
         N.min d (N.min ((N.of_nat (dist from to i (S j)) + 1) mod 2 ^ 64) ((N.of_nat (dist from to (S i) j) + 1) mod 2 ^ 64)) = N.of_nat (dist from to (S i) (S j))).
      { intros d Hd. assert (ES : eqs from to i j = str_eqb x y) by (unfold eqs; rewrite Nx, Ny; reflexivity).
        pose proof (dist_bound from to i (S j)). pose proof (dist_bound from to (S i) j). unfold size_max in *.
        rewrite !N.mod_small by lia. rewrite dist_SS, ES. destruct (str_eqb x y); injection Hd as <-; [lia|].
        pose proof (dist_bound from to (S i) (S j)). lia. }
      assert (FIN : forall v, v = N.of_nat (dist from to (S i) (S j)) -> exists u', F_set w u (S i) (S j) v = Ok u' /\ length u' = (n + 1) * w
         /\ (forall i', i' <= n -> holds u' i' 0) /\ (forall i' j', i' < S i -> j' <= m -> holds u' i' j') /\ forall j', j' < S (S j) -> holds u' (S i) j').
      { intros v Hv. destruct (set_ok u (S i) (S j) v Lu) as (u' & Eu & Lu' & Gu & Ou); [lia|lia|]. exists u'. split; [exact Eu|]. split; [exact Lu'|].
        split; [intros i' Hi'; unfold holds; rewrite Ou by (lia || congruence); apply Pu; exact Hi'|].
        split; [intros i' j' Hi' Hj'; unfold holds; rewrite Ou by (lia || (intros X; injection X; lia)); apply Qu; assumption|].
        intros j' Hj'; unfold holds; destruct (Nat.eq_dec j' (S j)) as [->|Ne]; [rewrite Gu, Hv; reflexivity|].
        rewrite Ou by (lia || congruence); apply Ru; lia. }
      destruct (str_eqb x y) eqn:Exy; cbn [bind]; apply FIN; apply Ev; reflexivity. }
    exists t'. split; [exact E|]. split; [exact L'|]. split; [exact P'|]. intros i' j' Hi' Hj'. destruct (Nat.eq_dec i' i) as [->|Ne]; [apply R'; lia|apply Q'; lia]. }
  exists t3. split; [exact E3|]. split; [exact L3|]. intros i j Hi Hj. apply Q3; lia.
Qed.
End Table.

(** ** Scripts *)
Lemma transforms_app s1 s2 a1 b1 a2 b2 : transforms s1 a1 b1 -> transforms s2 a2 b2 -> transforms (s1 ++ s2) (a1 ++ a2) (b1 ++ b2).
Proof. induction 1; intros; cbn [app]; [assumption|constructor; auto..]. Qed.
Lemma cost_app s1 s2 : cost (s1 ++ s2) = cost s1 + cost s2.
Proof. induction s1 as [|[] s1 IH]; cbn [app cost]; lia. Qed.
Lemma transforms_snoc s : forall e a b, transforms (s ++ [e]) a b ->
  match e with
  | e_common => exists x a' b', a = a' ++ [x] /\ b = b' ++ [x] /\ transforms s a' b'
  | e_del => exists x a', a = a' ++ [x] /\ transforms s a' b
  | e_ins => exists x b', b = b' ++ [x] /\ transforms s a b'
  end.
Proof.
  induction s as [|e0 s IH]; intros e a b H; cbn [app] in H.
  - destruct e; inversion H as [|x s' a' b' Hn|x s' a' b' Hn|x s' a' b' Hn]; subst; inversion Hn; subst.
    + exists x, []. split; [reflexivity|constructor].
    + exists x, [], []. repeat split; constructor.
    + exists x, []. split; [reflexivity|constructor].
  - inversion H as [|x s' a' b' Hn E1|x s' a' b' Hn E1|x s' a' b' Hn E1]; subst; apply IH in Hn; destruct e;
      (destruct Hn as (y & a2 & b2 & E1 & E2 & Hn) || destruct Hn as (y & c2 & E1 & Hn)); subst.
    all: first [ exists y, (x :: a2), (x :: b2); split; [reflexivity|]; split; [reflexivity|]; constructor; assumption
               | exists y, (x :: a2), b2; split; [reflexivity|]; split; [reflexivity|]; constructor; assumption
               | exists y, a2, (x :: b2); split; [reflexivity|]; split; [reflexivity|]; constructor; assumption
               | exists y, (x :: c2); split; [reflexivity|]; constructor; assumption
               | exists y, c2; split; [reflexivity|]; constructor; assumption ].
Qed.

Lemma firstn_snoc {A} (l : list A) k x a : k <= length l -> firstn k l = a ++ [x] -> exists k', k = S k' /\ a = firstn k' l /\ nth_error l k' = Some x.
Proof.
  intros Hk E. assert (length (firstn k l) = length a + 1) by (rewrite E, app_length; reflexivity). rewrite firstn_length in H. exists (length a).
  split; [lia|]. replace k with (length a + 1) in E by lia. clear H. assert (L : length a < length l).
  { assert (X : length (firstn (length a + 1) l) = length a + 1) by (rewrite E, app_length; reflexivity). rewrite firstn_length in X. lia. }
  clear Hk. revert l E L. induction a as [|y a IH]; intros l E L; destruct l as [|z l]; cbn in *; try lia.
  - injection E as ->. auto.
  - injection E as -> E. destruct (IH l E ltac:(lia)) as [Ha H2]. split; [f_equal; exact Ha|exact H2].
Qed.

(** No script is cheaper than the recurrence. *)
Lemma dist_lower from to : forall s i j, i <= length from -> j <= length to ->
  transforms s (firstn i from) (firstn j to) -> dist from to i j <= cost s.
Proof.
  intros s. induction s as [|e s IH] using rev_ind; intros i j Hi Hj H.
  - remember (firstn i from) as A eqn:EA. remember (firstn j to) as B eqn:EB. inversion H.
    assert (X1 : firstn i from = []) by congruence. assert (X2 : firstn j to = []) by congruence.
    apply (f_equal (@length str)) in X1. apply (f_equal (@length str)) in X2. cbn [length] in X1, X2.
    rewrite firstn_length in *. assert (i = 0) by lia. assert (j = 0) by lia. subst i j. cbn. lia.
  - rewrite cost_app. apply transforms_snoc in H. destruct e; cbn [cost].
    + destruct H as (x & a' & E & H). apply firstn_snoc in E as (i' & -> & -> & _); [|exact Hi]. apply IH in H; [|lia|lia]. pose proof (dist_del from to i' j). lia.
    + destruct H as (x & a' & b' & E1 & E2 & H). apply firstn_snoc in E1 as (i' & -> & -> & N1); [|exact Hi]. apply firstn_snoc in E2 as (j' & -> & -> & N2); [|exact Hj].
      apply IH in H; [|lia|lia]. rewrite dist_diag; [lia|]. unfold eqs. rewrite N1, N2. apply str_eqb_refl.
    + destruct H as (x & b' & E & H). apply firstn_snoc in E as (j' & -> & -> & _); [|exact Hj]. apply IH in H; [|lia|lia]. pose proof (dist_ins from to i j'). lia.
Qed.

Lemma firstn_S_nth {A} (l : list A) k x : nth_error l k = Some x -> firstn (S k) l = firstn k l ++ [x].
Proof. revert k. induction l as [|y l IH]; intros [|k] H; cbn in *; try discriminate; [congruence|]. f_equal. apply IH. exact H. Qed.

(** The traceback finds a script of that cost. *)
Lemma trace_ok from to t : (N.of_nat (length from + length to) < size_max)%N ->
  (forall i j, i <= length from -> j <= length to -> holds from to t i j) ->
  forall fuel i j acc, i <= length from -> j <= length to -> i + j <= fuel ->
  exists s, trace fuel from to t i j acc = Ok (s ++ acc) /\ transforms s (firstn i from) (firstn j to) /\ cost s = dist from to i j.
Proof.
  intros small HT. induction fuel as [|fuel IH]; intros i j acc Hi Hj Hf.
  - assert (i = 0) by lia. assert (j = 0) by lia. subst. exists []. repeat split. constructor.
  - destruct (Nat.eq_dec i 0) as [Zi|Zi]; [destruct (Nat.eq_dec j 0) as [Zj|Zj]|].
    + subst. exists []. repeat split. constructor.
    + subst i. destruct j as [|j]; [congruence|]. cbn [trace Nat.eqb andb negb bind]. unfold check. cbn [bind]. replace (S j - 1) with j by lia.
      destruct (IH 0 j (e_ins :: acc)) as (s & E & T & C); [lia|lia|lia|]. destruct (line_ok to j) as (y & _ & Ny); [lia|].
      exists (s ++ [e_ins]). rewrite <- app_assoc. split; [exact E|]. split.
      * rewrite (firstn_S_nth _ _ _ Ny). rewrite <- (app_nil_r (firstn 0 from)). apply transforms_app; [exact T|repeat constructor].
      * rewrite cost_app, C, !dist_0. cbn. lia.
    + destruct i as [|i]; [congruence|]. cbn [trace Nat.eqb andb negb]. replace (S i - 1) with i by lia.
      destruct (line_ok from i) as (x & Ex & Nx); [lia|].
      assert (DEL : forall k, k = j -> dist from to (S i) k = dist from to i k + 1 ->
         exists s, trace fuel from to t i k (e_del :: acc) = Ok (s ++ acc) /\ transforms s (firstn (S i) from) (firstn k to) /\ cost s = dist from to (S i) k).
      { intros k -> Hd. destruct (IH i j (e_del :: acc)) as (s & E & T & C); [lia|lia|lia|]. exists (s ++ [e_del]). rewrite <- app_assoc. split; [exact E|]. split.
        - rewrite (firstn_S_nth _ _ _ Nx). rewrite <- (app_nil_r (firstn j to)). apply transforms_app; [exact T|repeat constructor].
        - rewrite cost_app, C, Hd. reflexivity. }
      destruct j as [|j]; cbn [Nat.eqb negb].
      * cbn [bind]. pose proof (HT (S i) 0 Hi Hj) as G1. pose proof (HT i 0 ltac:(lia) Hj) as G2. unfold holds in G1, G2. rewrite G1, G2. cbn [bind].
        rewrite !dist_i0. rewrite N.mod_small by (unfold size_max in small; lia).
        assert (X : (N.of_nat (S i) =? N.of_nat i + 1)%N = true) by (apply N.eqb_eq; lia). rewrite X. destruct (DEL 0 eq_refl) as (s & HS); [rewrite !dist_i0; lia|].
        rewrite dist_i0 in HS. exists s. exact HS.
      * replace (S j - 1) with j by lia. destruct (line_ok to j) as (y & Ey & Ny); [lia|]. rewrite Ex, Ey. cbn [bind].
        assert (ES : eqs from to i j = str_eqb x y) by (unfold eqs; rewrite Nx, Ny; reflexivity).
        destruct (str_eqb x y) eqn:Exy.
        -- destruct (IH i j (e_common :: acc)) as (s & E & T & C); [lia|lia|lia|]. exists (s ++ [e_common]). rewrite <- app_assoc. split; [exact E|].
           apply str_eqb_eq in Exy. subst y. split.
           ++ rewrite (firstn_S_nth _ _ _ Nx), (firstn_S_nth _ _ _ Ny). apply transforms_app; [exact T|repeat constructor].
           ++ rewrite cost_app, C, dist_diag by exact ES. cbn. lia.
        -- pose proof (HT (S i) (S j) Hi Hj) as G1. pose proof (HT i (S j) ltac:(lia) Hj) as G2. unfold holds in G1, G2. rewrite G1, G2. cbn [bind].
           pose proof (dist_bound from to i (S j)) as B. rewrite N.mod_small by (unfold size_max in small; lia).
           pose proof (dist_off from to i j ES) as D.
           destruct (N.eqb_spec (N.of_nat (dist from to (S i) (S j))) (N.of_nat (dist from to i (S j)) + 1)) as [E|E].
           ++ apply DEL; [reflexivity|lia].
           ++ unfold check. cbn [bind]. destruct (IH (S i) j (e_ins :: acc)) as (s & E2 & T & C); [lia|lia|lia|]. exists (s ++ [e_ins]). rewrite <- app_assoc. split; [exact E2|]. split.
              ** rewrite (firstn_S_nth _ _ _ Ny). rewrite <- (app_nil_r (firstn (S i) from)). apply transforms_app; [exact T|repeat constructor].
              ** rewrite cost_app, C. cbn [cost]. lia.
Qed.

(** ** The partition *)
Lemma take_drop {A} (p : A -> bool) l : l = take_while p l ++ drop_while p l.
Proof. induction l as [|x l IH]; [reflexivity|]. cbn. destruct (p x); [cbn; f_equal; exact IH|reflexivity]. Qed.
Lemma take_all {A} (p : A -> bool) l : Forall (fun x => p x = true) (take_while p l).
Proof. induction l as [|x l IH]; [constructor|]. cbn. destruct (p x) eqn:E; constructor; auto. Qed.
Lemma drop_head {A} (p : A -> bool) l x r : drop_while p l = x :: r -> p x = false.
Proof. induction l as [|y l IH]; [discriminate|]. cbn. destruct (p y) eqn:E; [exact IH|]. congruence. Qed.

Lemma ins_past_dels k : forall s a b, transforms (e_ins :: repeat e_del k ++ s) a b -> transforms (repeat e_del k ++ e_ins :: s) a b.
Proof.
  induction k as [|k IH]; intros s a b H; [exact H|]. cbn [repeat app] in *.
  inversion H as [| | |x s' a' b' Hn]; subst. inversion Hn as [| |y s2 a2 b2 Hn2|]; subst. constructor. apply IH. constructor. exact Hn2.
Qed.
Lemma filter_del l : filter is_del l = repeat e_del (length (filter is_del l)).
Proof. induction l as [|[] l IH]; cbn; [reflexivity|f_equal; exact IH|exact IH|exact IH]. Qed.
Lemma block_transforms m : Forall (fun e => negb (is_common e) = true) m -> forall s a b, transforms (m ++ s) a b ->
  transforms ((filter is_del m ++ filter (fun e => negb (is_del e)) m) ++ s) a b.
Proof.
  induction 1 as [|e m He Hm IH]; intros s a b H; [exact H|]. destruct e; [|discriminate He|]; cbn [app filter is_del negb] in *.
  - inversion H as [| |x s' a' b' Hn|]; subst. constructor. apply IH. exact Hn.
  - inversion H as [| | |x s' a' b' Hn]; subst. apply IH in Hn. rewrite filter_del, <- app_assoc in *. cbn [app]. apply ins_past_dels. constructor. exact Hn.
Qed.
Lemma block_cost m : cost (filter is_del m ++ filter (fun e => negb (is_del e)) m) = cost m.
Proof. rewrite cost_app. induction m as [|[] m IH]; cbn [filter is_del negb cost]; lia. Qed.

Lemma transforms_split s1 : forall s2 a b, transforms (s1 ++ s2) a b -> exists a1 a2 b1 b2, a = a1 ++ a2 /\ b = b1 ++ b2 /\ transforms s1 a1 b1 /\ transforms s2 a2 b2.
Proof.
  induction s1 as [|e s1 IH]; intros s2 a b H; [exists [], a, [], b; repeat split; [constructor|exact H]|].
  inversion H as [|x s' a' b' Hn|x s' a' b' Hn|x s' a' b' Hn]; subst; apply IH in Hn as (a1 & a2 & b1 & b2 & -> & -> & T1 & T2).
  - exists (x :: a1), a2, (x :: b1), b2. repeat split; [constructor; exact T1|exact T2].
  - exists (x :: a1), a2, b1, b2. repeat split; [constructor; exact T1|exact T2].
  - exists a1, a2, (x :: b1), b2. repeat split; [constructor; exact T1|exact T2].
Qed.

(** A list in which the deletions come first, between commons. *)
Lemma df_app_common s1 s2 : deletions_first s1 -> deletions_first s2 -> (s2 = [] \/ exists r, s2 = e_common :: r) -> deletions_first (s1 ++ s2).
Proof.
  intros H1 H2 Hc a b c E.
  (* where the insertion and the deletion lie *)
  assert (K : forall (l1 l2 : list edit) x y t, l1 ++ l2 = x ++ y :: t -> (exists t1, l1 = x ++ y :: t1 /\ t = t1 ++ l2) \/ (exists x2, x = l1 ++ x2 /\ l2 = x2 ++ y :: t)).
  { induction l1 as [|z l1 IH]; intros l2 x y t E0; cbn [app] in E0; [right; exists x; auto|]. destruct x as [|z' x]; cbn [app] in *.
    - injection E0 as E1 E2. subst. left. exists l1. auto.
    - injection E0 as -> E0. apply IH in E0 as [(t1 & -> & ->)|(x2 & -> & ->)]; [left; exists t1; auto|right; exists x2; auto]. }
  apply K in E as [(t1 & E1 & E2)|(x2 & -> & E2)].
  - symmetry in E2. apply K in E2 as [(t2 & -> & E3)|(x3 & -> & E3)].
    + apply (H1 a b t2). rewrite E1. reflexivity.
    + destruct Hc as [->|(r & ->)]; [destruct x3; discriminate|]. destruct x3 as [|z x3]; [discriminate|]. cbn [app] in E3. injection E3 as -> _. apply in_or_app. right. left. reflexivity.
  - apply (H2 x2 b c). exact E2.
Qed.
Lemma df_common s : Forall (fun e => is_common e = true) s -> deletions_first s.
Proof. intros F a b c ->. apply Forall_app in F as [_ F]. inversion F as [|? ? X]. discriminate X. Qed.
Lemma df_block m : Forall (fun e => negb (is_common e) = true) m -> deletions_first (filter is_del m ++ filter (fun e => negb (is_del e)) m).
Proof.
  intros _ a b c E. exfalso. rewrite filter_del in E. set (k := length (filter is_del m)) in E. clearbody k.
  revert a E. induction k as [|k IH]; intros a E; cbn [repeat app] in E.
  - assert (In e_del (filter (fun e => negb (is_del e)) m)) as I by (rewrite E; apply in_or_app; right; right; apply in_or_app; right; left; reflexivity).
    apply filter_In in I as [_ I]. discriminate I.
  - destruct a as [|x a]; cbn [app] in E; [discriminate|]. injection E as _ E. exact (IH a E).
Qed.
Lemma df_cons_commons cs s : Forall (fun e => is_common e = true) cs -> deletions_first s -> deletions_first (cs ++ s).
Proof.
  induction 1 as [|e cs He _ IH]; intros H; [exact H|]. specialize (IH H). intros a b c E. destruct a as [|x a]; cbn [app] in E.
  - injection E as -> _. discriminate He.
  - injection E as _ E. exact (IH a b c E).
Qed.

Lemma partition_ok fuel : forall l, length l <= fuel -> exists r, partition_blocks fuel l = Ok r /\ cost r = cost l
  /\ deletions_first r /\ (forall a b, transforms l a b -> transforms r a b) /\ ((exists l', l = e_common :: l') -> exists r', r = e_common :: r') /\ (l = [] -> r = []).
Proof.
  induction fuel as [|fuel IH]; intros l L.
  - destruct l; [|cbn in L; lia]. exists []. repeat split; auto. intros [|] ? ? E; discriminate E.
  - destruct l as [|e l]; [exists []; repeat split; auto; intros [|] ? ? E; discriminate E|]. cbn [partition_blocks]. set (l0 := e :: l) in *.
    set (cs := take_while is_common l0). set (r0 := drop_while is_common l0). set (m := take_while (fun e => negb (is_common e)) r0). set (r1 := drop_while (fun e => negb (is_common e)) r0).
    assert (E0 : l0 = cs ++ m ++ r1).
    { unfold m, r1. rewrite <- take_drop. unfold cs, r0. apply take_drop. }
    assert (Fc : Forall (fun e => is_common e = true) cs) by apply take_all. assert (Fm : Forall (fun e => negb (is_common e) = true) m) by apply take_all.
    assert (Lr : length r1 <= fuel).
    { assert (length l0 = length cs + (length m + length r1)) by (rewrite E0 at 1; rewrite !app_length; reflexivity).
      assert (0 < length cs + length m); [|cbn [length] in L; lia]. unfold m, cs, r0, l0. cbn. destruct (is_common e) eqn:Ee; cbn; [lia|]. rewrite Ee. cbn. lia. }
    destruct (IH r1 Lr) as (r & E & C & D & T & Hc & Hn). rewrite E. cbn [bind]. eexists. split; [reflexivity|]. split.
    { rewrite !cost_app, C, <- cost_app, block_cost. rewrite E0. rewrite !cost_app. lia. }
    split.
    { apply df_cons_commons; [exact Fc|]. apply df_app_common; [apply df_block; exact Fm|exact D|].
      destruct r1 as [|x r2] eqn:Er; [left; apply Hn; reflexivity|right]. apply Hc. exists r2. f_equal. unfold r1 in Er. apply drop_head in Er. destruct x; [discriminate|reflexivity|discriminate]. }
    split.
    { intros a b HT. rewrite E0 in HT. apply transforms_split in HT as (a1 & a2 & b1 & b2 & -> & -> & T1 & T2). apply transforms_app; [exact T1|].
      apply transforms_split in T2 as (a3 & a4 & b3 & b4 & -> & -> & T3 & T4). rewrite <- (app_nil_r m) in T3. apply block_transforms in T3; [|exact Fm]. rewrite app_nil_r in T3.
      apply transforms_app; [exact T3|apply T; exact T4]. }
    split; [|discriminate]. intros (l' & El). injection El as -> _. unfold cs, l0. cbn. eauto.
Qed.

Lemma ses_ok from to : (N.of_nat (length from + length to) < size_max)%N ->
  exists s, shortest_edit_script from to = Ok s /\ transforms s from to /\ cost s = dist from to (length from) (length to) /\ deletions_first s.
Proof.
  intros small. unfold shortest_edit_script. destruct (fill_table_ok from to small) as (t & E & _ & HT). rewrite E. cbn [bind].
  destruct (trace_ok from to t small HT (length from + length to) (length from) (length to) []) as (s & E2 & T & C); [lia|lia|lia|]. rewrite E2, app_nil_r. cbn [bind].
  rewrite !firstn_all in T. destruct (partition_ok (length s) s (le_n _)) as (r & E3 & C3 & D3 & T3 & _). exists r. rewrite E3. split; [reflexivity|]. split; [apply T3; exact T|]. split; [lia|exact D3].
Qed.
