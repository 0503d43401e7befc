From Coq Require Import List NArith ZArith Bool Arith Lia.
From Verif Require Import M_Base L_Base M_Chars M_Charset S_Chars.
Import ListNotations.
Local Open Scope N_scope.

Ltac Zify.zify_post_hook ::= Z.to_euclidean_division_equations.

Lemma shiftr_bit0 x k : N.testbit (N.shiftr x k) 0 = N.testbit x k.
Proof. rewrite N.shiftr_spec by lia. f_equal. Qed.

Lemma testbit_small x k n : x < 2 ^ n -> n <= k -> N.testbit x k = false.
Proof.
  intros H Hk. destruct (N.eq_dec x 0) as [->|Hx]; [apply N.bits_0|].
  apply N.bits_above_log2. apply N.log2_lt_pow2 in H; lia.
Qed.

Lemma lt_pow2_of_bits x n : (forall k, n <= k -> N.testbit x k = false) -> x < 2 ^ n.
Proof.
  intros H. destruct (N.eq_dec x 0) as [->|Hx]; [apply N.neq_0_lt_0, N.pow_nonzero; lia|].
  apply N.log2_lt_pow2; [lia|]. destruct (N.lt_ge_cases (N.log2 x) n) as [|Hge]; [assumption|].
  specialize (H _ Hge). rewrite N.bit_log2 in H; [discriminate|assumption].
Qed.

Lemma has_eq w s c : c < w -> cs_has w s c = Ok (N.testbit (limb s (c / 64)) (c mod 64)).
Proof.
  intros H. unfold cs_has, cs_get, check. apply N.ltb_lt in H. rewrite H. cbn.
  rewrite shiftr_bit0. reflexivity.
Qed.

Lemma idx_in w (s : charset) c : N.of_nat (length s) = limb_count w -> c < w ->
  (N.to_nat (c / 64) < length s)%nat.
Proof.
  unfold limb_count. intros H Hc. destruct (N.eqb_spec (w mod 64) 0); lia.
Qed.

Definition wfset (w : N) (s : charset) : Prop :=
  N.of_nat (length s) = limb_count w /\ Forall (fun l => l < 2 ^ 64) s.

Lemma denotes_iff w s p : denotes w s p <->
  wfset w s /\ forall c, c < w -> N.testbit (limb s (c / 64)) (c mod 64) = p c.
Proof.
  unfold denotes, wfset. split.
  - intros (H1 & H2 & H3). split; [auto|]. intros c Hc. specialize (H3 c Hc).
    rewrite has_eq in H3 by assumption. congruence.
  - intros ((H1 & H2) & H3). split; [|split]; auto. intros c Hc.
    rewrite has_eq by assumption. rewrite H3; auto.
Qed.

Lemma limb_lt s k : Forall (fun l => l < 2 ^ 64) s -> limb s k < 2 ^ 64.
Proof.
  intros H. unfold limb. destruct (Nat.lt_ge_cases (N.to_nat k) (length s)).
  - rewrite Forall_forall in H. apply H. apply nth_In. assumption.
  - rewrite nth_overflow by assumption. reflexivity.
Qed.

Lemma denotes_empty w : denotes w (cs_empty w) (fun _ => false).
Proof.
  apply denotes_iff. unfold wfset, cs_empty. split; [split|].
  - rewrite repeat_length. lia.
  - apply Forall_forall. intros x Hx. apply repeat_spec in Hx. subst. reflexivity.
  - intros c _. unfold limb. rewrite nth_repeat. apply N.bits_0.
Qed.

Lemma set_nth_length s k v : length (set_nth s k v) = length s.
Proof. revert k; induction s; intros [|k]; cbn; auto. Qed.

Lemma set_nth_same s k v : (k < length s)%nat -> nth k (set_nth s k v) 0 = v.
Proof. revert k; induction s; intros [|k] H; cbn in *; try lia; auto. apply IHs. lia. Qed.

Lemma set_nth_other s k j v : j <> k -> nth j (set_nth s k v) 0 = nth j s 0.
Proof.
  revert k j; induction s; intros [|k] [|j] H; cbn; auto; try congruence.
Qed.

Lemma set_nth_Forall (P : N -> Prop) s k v : Forall P s -> P v -> Forall P (set_nth s k v).
Proof. intros H Hv. revert k; induction H; intros [|k]; cbn; constructor; auto. Qed.

Lemma shiftl_1_bits k j : N.testbit (N.shiftl 1 k) j = (j =? k).
Proof.
  rewrite N.shiftl_1_l. destruct (N.eqb_spec j k) as [->|H].
  - apply N.pow2_bits_true.
  - apply N.pow2_bits_false. auto.
Qed.

Lemma not64_bits x j : j < 64 -> N.testbit (not64 x) j = negb (N.testbit x j).
Proof. intros. unfold not64. apply N.lnot_spec_low. assumption. Qed.

Lemma not64_lt x : x < 2 ^ 64 -> not64 x < 2 ^ 64.
Proof.
  intros H. apply lt_pow2_of_bits. intros k Hk. unfold not64.
  rewrite N.lnot_spec_high by assumption. eapply testbit_small; eassumption.
Qed.

Lemma same_cell c d : c / 64 = d / 64 -> (c mod 64 =? d mod 64) = (c =? d).
Proof.
  intros H. destruct (N.eqb_spec c d) as [->|Hn]; [apply N.eqb_refl|].
  apply N.eqb_neq. lia.
Qed.

Lemma denotes_insert w s p c : denotes w s p -> c < w ->
  exists s', cs_insert w s c = Ok s' /\ denotes w s' (fun d => (d =? c) || p d).
Proof.
  intros H Hc. apply denotes_iff in H. destruct H as ((Hl & Hf) & Hb).
  unfold cs_insert, cs_set, check. pose proof (proj2 (N.ltb_lt c w) Hc) as E. rewrite E. cbn [bind].
  eexists. split; [reflexivity|]. apply denotes_iff. split; [split|].
  - unfold set_limb. rewrite set_nth_length. assumption.
  - unfold set_limb. apply set_nth_Forall; [assumption|]. apply lt_pow2_of_bits. intros k Hk.
    rewrite N.lor_spec, shiftl_1_bits, (testbit_small _ _ 64) by (auto using limb_lt).
    cbn. apply N.eqb_neq. lia.
  - intros d Hd. unfold set_limb. unfold limb at 1.
    destruct (N.eq_dec (d / 64) (c / 64)) as [He|He].
    + rewrite He, set_nth_same by (eapply idx_in; eassumption).
      rewrite N.lor_spec, shiftl_1_bits, same_cell by assumption. rewrite <- He, Hb by assumption.
      apply orb_comm.
    + rewrite set_nth_other by lia. fold (limb s (d / 64)). rewrite Hb by assumption.
      destruct (N.eqb_spec d c); [subst; congruence|reflexivity].
Qed.

Lemma denotes_remove w s p c : denotes w s p -> c < w ->
  exists s', cs_remove w s c = Ok s' /\ denotes w s' (fun d => negb (d =? c) && p d).
Proof.
  intros H Hc. apply denotes_iff in H. destruct H as ((Hl & Hf) & Hb).
  unfold cs_remove, cs_clear, check. pose proof (proj2 (N.ltb_lt c w) Hc) as E. rewrite E. cbn [bind].
  eexists. split; [reflexivity|]. apply denotes_iff. split; [split|].
  - unfold set_limb. rewrite set_nth_length. assumption.
  - unfold set_limb. apply set_nth_Forall; [assumption|]. apply lt_pow2_of_bits. intros k Hk.
    rewrite N.land_spec, (testbit_small _ _ 64) by (auto using limb_lt). reflexivity.
  - intros d Hd. unfold set_limb. unfold limb at 1.
    destruct (N.eq_dec (d / 64) (c / 64)) as [He|He].
    + rewrite He, set_nth_same by (eapply idx_in; eassumption).
      rewrite N.land_spec, not64_bits, shiftl_1_bits, same_cell
        by (assumption || (apply N.mod_lt; lia)).
      rewrite <- He, Hb by assumption. apply andb_comm.
    + rewrite set_nth_other by lia. fold (limb s (d / 64)). rewrite Hb by assumption.
      destruct (N.eqb_spec d c); [subst; congruence|reflexivity].
Qed.

Lemma map2_length f a b : length a = length b -> length (map2 f a b) = length a.
Proof. revert b; induction a; intros [|y b] H; cbn in *; auto; discriminate. Qed.

Lemma map2_nth f a b k : length a = length b -> (k < length a)%nat ->
  nth k (map2 f a b) 0 = f (nth k a 0) (nth k b 0).
Proof.
  revert b k; induction a; intros [|y b] [|k] H Hk; cbn in *; try lia; auto.
  apply IHa; lia.
Qed.

Lemma map2_Forall (P : N -> Prop) f a b : Forall P a -> Forall P b ->
  (forall x y, P x -> P y -> P (f x y)) -> Forall P (map2 f a b).
Proof.
  intros Ha Hb Hf. revert b Hb. induction Ha; intros [|y b] Hb; cbn; auto.
  inversion Hb; subst. constructor; auto.
Qed.

Lemma denotes_map2 (f : N -> N -> N) (g : bool -> bool -> bool) w a b p q :
  (forall x y k, k < 64 -> N.testbit (f x y) k = g (N.testbit x k) (N.testbit y k)) ->
  (forall x y, x < 2 ^ 64 -> y < 2 ^ 64 -> f x y < 2 ^ 64) ->
  denotes w a p -> denotes w b q -> denotes w (map2 f a b) (fun c => g (p c) (q c)).
Proof.
  intros Hfb Hfl Ha Hb. apply denotes_iff in Ha, Hb. apply denotes_iff.
  destruct Ha as ((Hla & Hfa) & Hpa), Hb as ((Hlb & Hfb') & Hpb).
  assert (length a = length b) by lia.
  split; [split|].
  - rewrite map2_length; assumption.
  - apply map2_Forall; assumption.
  - intros c Hc. unfold limb. rewrite map2_nth by (eauto using idx_in).
    rewrite Hfb by (apply N.mod_lt; lia). fold (limb a (c / 64)) (limb b (c / 64)).
    rewrite Hpa, Hpb by assumption. reflexivity.
Qed.

Lemma lor_lt x y : x < 2 ^ 64 -> y < 2 ^ 64 -> N.lor x y < 2 ^ 64.
Proof.
  intros. apply lt_pow2_of_bits. intros k Hk.
  rewrite N.lor_spec, (testbit_small x _ 64), (testbit_small y _ 64) by assumption. reflexivity.
Qed.
Lemma land_lt x y : x < 2 ^ 64 -> N.land x y < 2 ^ 64.
Proof.
  intros. apply lt_pow2_of_bits. intros k Hk.
  rewrite N.land_spec, (testbit_small x _ 64) by assumption. reflexivity.
Qed.

Lemma denotes_union w a b p q : denotes w a p -> denotes w b q ->
  denotes w (cs_union a b) (fun c => p c || q c).
Proof.
  apply denotes_map2; [|apply lor_lt]. intros. apply N.lor_spec.
Qed.
Lemma denotes_inter w a b p q : denotes w a p -> denotes w b q ->
  denotes w (cs_inter a b) (fun c => p c && q c).
Proof.
  apply denotes_map2; [|intros; apply land_lt; assumption]. intros. apply N.land_spec.
Qed.
Lemma denotes_diff w a b p q : denotes w a p -> denotes w b q ->
  denotes w (cs_diff a b) (fun c => p c && negb (q c)).
Proof.
  apply (denotes_map2 _ (fun x y => x && negb y)); [|intros; apply land_lt; assumption].
  intros. rewrite N.land_spec, not64_bits by assumption. reflexivity.
Qed.

Lemma denotes_compl w a p : denotes w a p -> denotes w (cs_compl a) (fun c => negb (p c)).
Proof.
  intros Ha. apply denotes_iff in Ha. apply denotes_iff. destruct Ha as ((Hl & Hf) & Hp).
  unfold cs_compl. split; [split|].
  - rewrite map_length. assumption.
  - apply Forall_forall. intros x Hx. apply in_map_iff in Hx. destruct Hx as (y & <- & Hy).
    apply not64_lt. rewrite Forall_forall in Hf. auto.
  - intros c Hc. unfold limb.
    rewrite (nth_indep _ 0 (not64 0)) by (rewrite map_length; eapply idx_in; eassumption).
    rewrite map_nth. rewrite not64_bits by (apply N.mod_lt; lia).
    fold (limb a (c / 64)). rewrite Hp by assumption. reflexivity.
Qed.

Lemma cs_eqb_spec a b : cs_eqb a b = true <-> a = b.
Proof.
  revert b; induction a; intros [|y b]; cbn; split; intros H; try discriminate; auto.
  - apply andb_prop in H. destruct H as [H1 H2]. apply N.eqb_eq in H1. apply IHa in H2. congruence.
  - inversion H; subst. rewrite N.eqb_refl. cbn. apply IHa. reflexivity.
Qed.

Lemma denotes_unique w a b p : w mod 64 = 0 -> denotes w a p -> denotes w b p -> a = b.
Proof.
  intros Hw Ha Hb. apply denotes_iff in Ha, Hb.
  destruct Ha as ((Hla & Hfa) & Hpa), Hb as ((Hlb & Hfb) & Hpb).
  apply (nth_ext _ _ 0 0); [lia|]. intros n Hn.
  apply N.bits_inj. intros k. destruct (N.lt_ge_cases k 64) as [Hk|Hk].
  - set (c := N.of_nat n * 64 + k).
    assert (Hc : c < w).
    { unfold limb_count in Hla. rewrite Hw in Hla. cbn in Hla. unfold c. lia. }
    specialize (Hpa c Hc). specialize (Hpb c Hc).
    assert (E1 : c / 64 = N.of_nat n) by (unfold c; lia).
    assert (E2 : c mod 64 = k) by (unfold c; lia).
    rewrite E1, E2 in *. unfold limb in *. rewrite Nat2N.id in *. congruence.
  - pose proof (limb_lt a (N.of_nat n) Hfa) as H1. pose proof (limb_lt b (N.of_nat n) Hfb) as H2.
    unfold limb in *. rewrite Nat2N.id in *.
    rewrite (testbit_small _ _ 64 H1 Hk), (testbit_small _ _ 64 H2 Hk). reflexivity.
Qed.

Lemma denotes_ext w s p q : (forall c, c < w -> p c = q c) -> denotes w s p -> denotes w s q.
Proof.
  intros E (H1 & H2 & H3). split; [|split]; auto. intros c Hc. rewrite H3, E by assumption. auto.
Qed.

Lemma denotes_insert_all w l : forall s p, denotes w s p -> Forall (fun c => c < w) l ->
  exists s', cs_insert_all w s l = Ok s' /\ denotes w s' (fun d => mem d l || p d).
Proof.
  induction l as [|c l IH]; intros s p Hs Hl.
  - exists s. split; [reflexivity|]. exact Hs.
  - inversion Hl; subst. destruct (denotes_insert w s p c Hs) as (s1 & E1 & D1); [assumption|].
    cbn [cs_insert_all]. unfold cs_insert in E1. rewrite E1. cbn [bind].
    destruct (IH _ _ D1) as (s' & E' & D'); [assumption|]. exists s'. split; [assumption|].
    eapply denotes_ext; [|exact D']. intros d _. cbn. unfold mem.
    cbn. rewrite (N.eqb_sym c d). destruct (d =? c), (existsb (fun x => x =? d) l); reflexivity.
Qed.

Lemma denotes_from_predicate_loop w p k : forall i s q,
  i + N.of_nat k <= w -> denotes w s q ->
  exists s', cs_from_predicate_loop w p k i s = Ok s'
    /\ denotes w s' (fun c => q c || ((i <=? c) && (c <? i + N.of_nat k) && p c)).
Proof.
  induction k as [|k IH]; intros i s q Hi Hs.
  - exists s. split; [reflexivity|]. eapply denotes_ext; [|exact Hs]. intros c _.
    destruct (N.leb_spec i c), (N.ltb_spec c (i + N.of_nat 0)); cbn; try lia;
      destruct (q c); reflexivity.
  - cbn [cs_from_predicate_loop].
    assert (exists s1, (if p i then cs_insert w s i else Ok s) = Ok s1
      /\ denotes w s1 (fun c => q c || ((c =? i) && p c))) as (s1 & E1 & D1).
    { destruct (p i) eqn:Ep.
      - destruct (denotes_insert w s q i Hs) as (s1 & E1 & D1); [lia|]. exists s1. split; [auto|].
        eapply denotes_ext; [|exact D1]. intros c _. cbn.
        destruct (N.eqb_spec c i) as [->|]; cbn; rewrite ?Ep; destruct (q _); reflexivity.
      - exists s. split; [auto|]. eapply denotes_ext; [|exact Hs]. intros c _.
        destruct (N.eqb_spec c i) as [->|]; cbn; rewrite ?Ep; destruct (q _); reflexivity. }
    rewrite E1. cbn [bind]. destruct (IH (i + 1) s1 _ ltac:(lia) D1) as (s' & E' & D').
    exists s'. split; [assumption|]. eapply denotes_ext; [|exact D']. intros c _. cbv beta.
    destruct (q c); cbn [orb]; [reflexivity|].
    destruct (N.eqb_spec c i) as [->|].
    + destruct (N.leb_spec i i), (N.ltb_spec i (i + N.of_nat (S k))),
        (N.leb_spec (i + 1) i); try lia. cbn [andb orb]. destruct (p i); reflexivity.
    + destruct (N.leb_spec i c), (N.ltb_spec c (i + N.of_nat (S k))),
        (N.leb_spec (i + 1) c), (N.ltb_spec c (i + 1 + N.of_nat k)); try lia; reflexivity.
Qed.

Lemma denotes_from_predicate p : exists s, cs_from_predicate 256 p = Ok s /\ denotes 256 s p.
Proof.
  unfold cs_from_predicate.
  destruct (denotes_from_predicate_loop 256 p 256 0 (cs_empty 256) (fun _ => false))
    as (s & E & D); [reflexivity|apply denotes_empty|].
  exists s. split; [assumption|]. eapply denotes_ext; [|exact D]. intros c Hc. cbn [orb].
  change (0 + N.of_nat 256) with 256.
  destruct (N.leb_spec 0 c), (N.ltb_spec c 256); try lia. reflexivity.
Qed.

(** ** range_before *)
Lemma ones_bits n k : N.testbit (N.ones n) k = (k <? n).
Proof.
  destruct (N.ltb_spec k n).
  - apply N.ones_spec_low. assumption.
  - apply N.ones_spec_high. assumption.
Qed.

Lemma all_bits_ones : 2 ^ 64 - 1 = N.ones 64. Proof. reflexivity. Qed.

Lemma range_limb_cases i j l : i <= j -> j <= 256 -> l <= 4 -> i < 256 ->
  (j < l * 64 /\ range_limb i j l = Fail FUB) \/
  (l * 64 <= j /\ exists x, range_limb i j l = Ok x /\ x < 2 ^ 64 /\
     forall k, k < 64 -> N.testbit x k = (i <=? l * 64 + k) && (l * 64 + k <? j)).
Proof.
  intros Hij Hj Hl Hi. unfold range_limb.
  destruct (N.ltb_spec j (l * 64)) as [Hu|Hu].
  - left. split; [assumption|].
    destruct (N.ltb_spec (l * 64) i); [lia|].
    destruct (N.ltb_spec j (l * 64 + 64)); [|lia].
    assert (E : size_sub j (l * 64) = j + 2 ^ 64 - l * 64).
    { unfold size_sub. apply N.mod_small. change (2 ^ 64) with 18446744073709551616. lia. }
    rewrite E. change (2 ^ 64) with 18446744073709551616 in *.
    destruct (N.ltb_spec 0 (j + 18446744073709551616 - l * 64)); [|lia].
    cbn [check bind N.ltb]. change (0 <? 64) with true. cbn [check bind].
    destruct (N.eqb_spec (j + 18446744073709551616 - l * 64) 64); [lia|].
    destruct (N.ltb_spec (j + 18446744073709551616 - l * 64) 64); [lia|]. reflexivity.
  - right. split; [assumption|].
    assert (Elo : (if l * 64 <? i then size_sub i (l * 64) else 0) = i - l * 64).
    { destruct (N.ltb_spec (l * 64) i); [|lia]. unfold size_sub.
      change (2 ^ 64) with 18446744073709551616. lia. }
    assert (Ehi : (if j <? l * 64 + 64 then size_sub j (l * 64) else 64) = N.min (j - l * 64) 64).
    { destruct (N.ltb_spec j (l * 64 + 64)); [|lia]. unfold size_sub.
      change (2 ^ 64) with 18446744073709551616. lia. }
    rewrite Elo, Ehi. clear Elo Ehi.
    set (lo := i - l * 64). set (hi := N.min (j - l * 64) 64).
    assert (Hhi : hi <= 64) by (unfold hi; lia).
    destruct (N.ltb_spec lo hi) as [Hlt|Hge].
    + destruct (N.ltb_spec lo 64); [|lia]. cbn [check bind].
      assert (Ehm : (if hi =? 64 then Ok (2 ^ 64 - 1)
                     else let* _ := check (hi <? 64) FUB in Ok (size_sub (N.shiftl 1 hi) 1))
                    = Ok (N.ones hi)).
      { destruct (N.eqb_spec hi 64) as [E|E]; [rewrite E; reflexivity|].
        destruct (N.ltb_spec hi 64); [|lia]. cbn [check bind]. f_equal.
        unfold size_sub, N.ones. rewrite !N.shiftl_1_l.
        assert (2 ^ hi < 2 ^ 64) by (apply N.pow_lt_mono_r; lia).
        assert (2 ^ hi <> 0) by (apply N.pow_nonzero; lia).
        change (2 ^ 64) with 18446744073709551616 in *. lia. }
      rewrite Ehm. cbn [bind]. eexists. split; [reflexivity|]. split.
      * apply land_lt. apply N.mod_lt. discriminate.
      * intros k Hk. rewrite N.land_spec, N.mod_pow2_bits_low, ones_bits by assumption.
        destruct (N.lt_ge_cases k lo) as [H1|H1].
        -- rewrite N.shiftl_spec_low by assumption.
           destruct (N.leb_spec i (l * 64 + k)); [unfold lo in *; lia|reflexivity].
        -- rewrite N.shiftl_spec_high by lia. rewrite all_bits_ones, ones_bits.
           destruct (N.ltb_spec (k - lo) 64); [|lia].
           destruct (N.leb_spec i (l * 64 + k)); [|unfold lo in *; lia].
           cbn [andb]. destruct (N.ltb_spec k hi), (N.ltb_spec (l * 64 + k) j);
             unfold hi in *; try lia; reflexivity.
    + exists 0. split; [reflexivity|]. split; [reflexivity|]. intros k Hk. rewrite N.bits_0.
      symmetry. apply andb_false_iff.
      destruct (N.leb_spec i (l * 64 + k)), (N.ltb_spec (l * 64 + k) j);
        unfold lo, hi in *; auto; lia.
Qed.

Lemma range_limbs_ok i j n : i <= j -> j <= 256 -> i < 256 -> forall l,
  l + N.of_nat n <= 5 -> (n <> O -> (l + N.of_nat n - 1) * 64 <= j) ->
  exists s, range_limbs i j n l = Ok s /\ length s = n /\ Forall (fun x => x < 2 ^ 64) s
    /\ forall m k, (m < n)%nat -> k < 64 ->
       N.testbit (nth m s 0) k
       = (i <=? (l + N.of_nat m) * 64 + k) && ((l + N.of_nat m) * 64 + k <? j).
Proof.
  intros Hij Hj Hi. induction n as [|n IH]; intros l Hl Hn.
  - exists []. cbn. repeat split; auto. intros m k Hm. lia.
  - cbn [range_limbs].
    destruct (range_limb_cases i j l) as [(H & _)|(_ & x & E & Hx & Hb)]; try lia.
    rewrite E. cbn [bind]. destruct (IH (l + 1)) as (s & Es & Hs & Hf & Hbs); try lia.
    rewrite Es. cbn [bind]. exists (x :: s). split; [reflexivity|]. split; [cbn; lia|].
    split; [constructor; assumption|]. intros [|m] k Hm Hk; cbn [nth].
    + rewrite Hb by assumption. rewrite N.add_0_r. reflexivity.
    + rewrite Hbs by lia. replace (l + 1 + N.of_nat m) with (l + N.of_nat (S m)) by lia.
      reflexivity.
Qed.

Lemma range_limbs_ub i j n : i <= j -> j <= 256 -> i < 256 -> forall l,
  l + N.of_nat n <= 5 -> n <> O -> j < (l + N.of_nat n - 1) * 64 ->
  range_limbs i j n l = Fail FUB.
Proof.
  intros Hij Hj Hi. induction n as [|n IH]; intros l Hl Hn Hu; [congruence|].
  cbn [range_limbs].
  destruct (range_limb_cases i j l) as [(H & E)|(H & x & E & _)]; try lia.
  - rewrite E. reflexivity.
  - rewrite E. cbn [bind]. rewrite IH; try lia. reflexivity.
Qed.

Lemma range_before_ok w i j : w <= 256 -> i <= j -> j <= w -> i < 256 ->
  64 * (limb_count w - 1) <= j ->
  exists s, range_before w i j = Ok s /\ denotes w s (fun c => (i <=? c) && (c <? j)).
Proof.
  intros Hw Hij Hj Hi Hlim. unfold range_before, check.
  destruct (N.ltb_spec i 256); [|lia]. destruct (N.leb_spec j 256); [|lia].
  destruct (N.leb_spec i j); [|lia]. cbn [bind].
  assert (limb_count w <= 4).
  { unfold limb_count. destruct (N.eqb_spec (w mod 64) 0); lia. }
  destruct (range_limbs_ok i j (N.to_nat (limb_count w)) ltac:(lia) ltac:(lia) ltac:(lia) 0)
    as (s & E & Hs & Hf & Hb); [lia|lia|].
  exists s. split; [exact E|]. apply denotes_iff. split; [split; [lia|assumption]|].
  intros c Hc. unfold limb. rewrite Hb.
  - rewrite N2Nat.id. replace ((0 + c / 64) * 64 + c mod 64) with c by lia. reflexivity.
  - assert (Hcount : N.of_nat (length s) = limb_count w) by lia.
    pose proof (idx_in w s c Hcount Hc). lia.
  - apply N.mod_lt. lia.
Qed.

Lemma range_before_ub w i j : w <= 256 -> i <= j -> j <= w -> i < 256 -> w <> 0 ->
  j < 64 * (limb_count w - 1) -> range_before w i j = Fail FUB.
Proof.
  intros Hw Hij Hj Hi Hw0 Hlim. unfold range_before, check.
  destruct (N.ltb_spec i 256); [|lia]. destruct (N.leb_spec j 256); [|lia].
  destruct (N.leb_spec i j); [|lia]. cbn [bind].
  assert (limb_count w <= 4).
  { unfold limb_count. destruct (N.eqb_spec (w mod 64) 0); lia. }
  apply range_limbs_ub; lia.
Qed.
