(** * UTF-8 decoding of arbitrary code units: results and lengths are in range. *)
From Coq Require Import List NArith ZArith Bool Arith Lia.
From Verif Require Import M_Base L_Base M_Utf8.
Import ListNotations.

Lemma countl_one_le k c : (countl_one_from k c <= N.of_nat k)%N.
Proof. induction k as [|k IH]; cbn [countl_one_from]; [lia|]. destruct (N.testbit c (N.of_nat k)); lia. Qed.

Lemma sequence_length_le c : sequence_length c <= 4.
Proof.
  unfold sequence_length.
  assert (H : unchecked_sequence_length c <= 4).
  { unfold unchecked_sequence_length, countl_one. pose proof (countl_one_le 8 c) as L.
    assert (E : In (countl_one_from 8 c) [0; 1; 2; 3; 4; 5; 6; 7; 8]%N) by (cbn [In]; lia).
    remember (countl_one_from 8 c) as x. clear - E.
    repeat (destruct E as [<-|E]; [vm_compute; lia|]). destruct E. }
  repeat match goal with |- context [if ?b then _ else _] => destruct b end; lia.
Qed.

Lemma decode_unchecked_any s n : 1 <= n <= 4 -> exists c, decode_unchecked s n = Ok c.
Proof.
  intros H. unfold decode_unchecked. replace ((1 <=? n) && (n <=? 4)) with true; [cbn; eauto|].
  symmetry. apply andb_true_intro. split; apply Nat.leb_le; lia.
Qed.

Lemma int_of_size_le n : (int_of_size n <= Z.of_nat n)%Z.
Proof.
  unfold int_of_size. assert (H : (Z.of_nat n mod 4294967296 <= Z.of_nat n)%Z) by (apply Z.mod_le; lia).
  destruct (Z.of_nat n mod 4294967296 <? 2147483648)%Z; lia.
Qed.

Lemma continuation_loop_any s av b0 : (av <= Z.of_nat (length s))%Z -> forall k i, i <= length s ->
  exists r, continuation_loop s av b0 k i = Ok r
    /\ match r with Some j => i <= j <= length s /\ j < i + k | None => i + k <= length s end.
Proof.
  intros Hav. induction k as [|k IH]; intros i Hi; cbn [continuation_loop]; [exists None; split; [reflexivity|lia]|].
  destruct (Z.leb_spec av (Z.of_nat i)) as [L|L]; [exists (Some i); split; [reflexivity|lia]|].
  destruct (nth_error s i) as [b|] eqn:E; [|apply nth_error_None in E; lia].
  destruct (negb (continuation_ok b0 b i)); [exists (Some i); split; [reflexivity|lia]|].
  assert (i < length s) by (apply nth_error_Some; congruence).
  destruct (IH (S i)) as (r & Hr & B); [lia|]. exists r. split; [exact Hr|]. destruct r; lia.
Qed.

Lemma replacement_any s : s <> [] ->
  exists c n, decode_and_length_or_replacement s = Ok (c, n) /\ 1 <= n <= length s /\ n <= 4.
Proof.
  intros Hs. destruct s as [|b0 t]; [congruence|]. cbn [decode_and_length_or_replacement].
  pose proof (sequence_length_le b0) as L.
  destruct (Nat.eqb_spec (sequence_length b0) 0) as [E|E]; [eexists _, _; split; [reflexivity|]; cbn; lia|].
  destruct (continuation_loop_any (b0 :: t) (int_of_size (length (b0 :: t))) b0 (int_of_size_le _)
    (sequence_length b0 - 1) 1) as (r & -> & B); [cbn; lia|]. cbn [bind]. destruct r as [j|].
  - eexists _, _. split; [reflexivity|]. lia.
  - destruct (decode_unchecked_any (first_4_padded (b0 :: t)) (sequence_length b0)) as [c ->]; [lia|].
    cbn [bind]. eexists _, _. split; [reflexivity|]. lia.
Qed.

Lemma continuation_array_any s b0 : forall k i j, continuation_loop_array s b0 k i = Some j -> i <= j < i + k.
Proof.
  induction k as [|k IH]; intros i j H; cbn in H; [discriminate|].
  destruct (negb _); [injection H as <-; lia|]. apply IH in H. lia.
Qed.

Lemma replacement_array_any s : exists c n, decode_and_length_or_replacement_array s = Ok (c, n) /\ 1 <= n <= 4.
Proof.
  unfold decode_and_length_or_replacement_array. pose proof (sequence_length_le (at_ s 0)) as L.
  destruct (Nat.eqb_spec (sequence_length (at_ s 0)) 0) as [E|E]; [eexists _, _; split; [reflexivity|]; lia|].
  destruct (continuation_loop_array s _ _ 1) as [j|] eqn:C.
  - apply continuation_array_any in C. eexists _, _. split; [reflexivity|]. lia.
  - destruct (decode_unchecked_any s (sequence_length (at_ s 0))) as [c ->]; [lia|]. cbn.
    eexists _, _. split; [reflexivity|]. lia.
Qed.

Lemma remove_prefix_any s n : n <= length s -> M_Utf8.remove_prefix s n = Ok (skipn n s).
Proof. intros H. unfold M_Utf8.remove_prefix. apply Nat.leb_le in H. rewrite H. reflexivity. Qed.

Definition in_range (s : str) (cu : nat) (r : option nat) : Prop :=
  match r with Some i => cu <= i < cu + length s | None => True end.

Lemma find_if_slow_any p e : forall fuel s cu, length s <= fuel ->
  exists r, find_if_slow fuel p e s cu = Ok r /\ in_range s cu r.
Proof.
  induction fuel as [|f IH]; intros s cu Hf.
  - destruct s; [|cbn in Hf; lia]. exists None. split; [reflexivity|exact I].
  - destruct s as [|b t]; [exists None; split; [reflexivity|exact I]|]. cbn [find_if_slow].
    destruct (replacement_any (b :: t)) as (c & n & -> & B & _); [discriminate|]. cbn [bind].
    destruct (Bool.eqb (p c) e); [exists (Some cu); split; [reflexivity|]; cbn [in_range length]; lia|].
    rewrite remove_prefix_any by lia. cbn [bind].
    destruct (IH (skipn n (b :: t)) (cu + n)) as (r & -> & R); [rewrite skipn_length; lia|].
    exists r. split; [reflexivity|]. destruct r; [|exact I]. cbn [in_range] in *. rewrite skipn_length in R. lia.
Qed.

Lemma find_if_fast_any p e : forall fuel s cu, length s <= fuel ->
  exists r, find_if_fast fuel p e s cu = Ok r /\ in_range s cu r.
Proof.
  induction fuel as [|f IH]; intros s cu Hf; cbn [find_if_fast].
  - destruct s; [|cbn in Hf; lia]. exists None. split; [reflexivity|exact I].
  - destruct (Nat.leb_spec 4 (length s)) as [L|L]; [|apply find_if_slow_any; lia].
    unfold first_4_unchecked. replace (4 <=? length s) with true by (symmetry; apply Nat.leb_le; lia). cbn [check bind].
    destruct (replacement_array_any (firstn 4 s)) as (c & n & -> & B). cbn [bind].
    destruct (Bool.eqb (p c) e); [exists (Some cu); split; [reflexivity|]; cbn [in_range length]; lia|].
    rewrite remove_prefix_any by lia. cbn [bind].
    destruct (IH (skipn n s) (cu + n)) as (r & -> & R); [rewrite skipn_length; lia|].
    exists r. split; [reflexivity|]. destruct r; [|exact I]. cbn [in_range] in *. rewrite skipn_length in R. lia.
Qed.

Lemma utf8_find_any p e s : exists r, utf8_find p e s = Ok r /\ forall i, r = Some i -> i < length s.
Proof.
  destruct (find_if_fast_any p e (length s) s 0 (le_n _)) as (r & E & R). exists r. split; [exact E|].
  intros i ->. cbn in R. lia.
Qed.
Lemma utf8_length_if_any s p : exists n, utf8_length_if s p = Ok n /\ n <= length s.
Proof.
  unfold utf8_length_if. destruct (utf8_find_any p false s) as (r & -> & R). cbn [bind]. eexists. split; [reflexivity|].
  destruct r as [i|]; [specialize (R i eq_refl)|]; lia.
Qed.
Lemma utf8_length_if_not_any s p : exists n, utf8_length_if_not s p = Ok n /\ n <= length s.
Proof.
  unfold utf8_length_if_not. destruct (utf8_find_any p true s) as (r & -> & R). cbn [bind]. eexists. split; [reflexivity|].
  destruct r as [i|]; [specialize (R i eq_refl)|]; lia.
Qed.
Lemma utf8_all_of_any s p : exists b, utf8_all_of s p = Ok b.
Proof. unfold utf8_all_of, check_if_any. destruct (utf8_find_any p false s) as (r & -> & R). cbn [bind]. eauto. Qed.

Lemma is_valid_sequence_any s n : 1 <= n <= 4 -> exists b, is_valid_sequence s n = Ok b.
Proof.
  intros H. unfold is_valid_sequence. replace ((1 <=? n) && (n <=? 4)) with true; [cbn [check bind]; eauto|].
  symmetry. apply andb_true_intro. split; apply Nat.leb_le; lia.
Qed.
Lemma decode_and_length_any s : exists r, decode_and_length s = Ok r
  /\ match r with Value (_, n) => 1 <= n <= length s /\ n <= 4 | Unexpected _ => True end.
Proof.
  destruct s as [|b t]; [eexists; split; [reflexivity|exact I]|]. cbn [decode_and_length].
  pose proof (sequence_length_le b) as L.
  destruct (Nat.eqb_spec (sequence_length b) 0) as [E|E]; [eexists; split; [reflexivity|exact I]|].
  destruct (Nat.ltb_spec (length (b :: t)) (sequence_length b)) as [L2|L2]; [eexists; split; [reflexivity|exact I]|].
  unfold decode_sequence.
  destruct (is_valid_sequence_any (first_4_padded (b :: t)) (sequence_length b)) as [v ->]; [lia|]. cbn [bind].
  destruct v; cbn [negb bind].
  - destruct (decode_unchecked_any (first_4_padded (b :: t)) (sequence_length b)) as [c ->]; [lia|].
    cbn [bind]. eexists. split; [reflexivity|]. cbn beta iota. lia.
  - eexists. split; [reflexivity|exact I].
Qed.
