(** * Helper algorithms *)
From Coq Require Import List NArith Bool Arith Lia.
From Verif Require Import M_Base L_Base M_Algorithm S_Algorithm.
Import ListNotations.

Theorem C206_all_of : forall (A : Type) (p : A -> bool) r, all_of p r = true <-> forall e, In e r -> p e = true.
Proof.
  intros A p r. induction r as [|x r IH]; cbn [all_of In]; [split; [tauto|reflexivity]|]. destruct (p x) eqn:E; cbn [negb].
  - rewrite IH. split; [intros H e [<-|He]; auto|auto].
  - split; [discriminate|]. intros H. rewrite <- E. apply H. now left.
Qed.
Print Assumptions C206_all_of.

Lemma min_step {A} (lt : A -> A -> bool) x y l : min_of lt x (y :: l) = min2 lt x (min_of lt y l).
Proof. destruct l; reflexivity. Qed.
Lemma max_step {A} (lt : A -> A -> bool) x y l : max_of lt x (y :: l) = max2 lt x (max_of lt y l).
Proof. destruct l; reflexivity. Qed.
(** For every strict total order, the result is one of the arguments and none is smaller (larger). *)
Theorem C206_min_max : forall (A : Type) (lt : A -> A -> bool), (forall a, lt a a = false) -> (forall a b c, lt a b = true -> lt b c = true -> lt a c = true) ->
  (forall a b, lt a b = true \/ lt b a = true \/ a = b) ->
  forall x l, (In (min_of lt x l) (x :: l) /\ forall a, In a (x :: l) -> lt a (min_of lt x l) = false)
    /\ (In (max_of lt x l) (x :: l) /\ forall a, In a (x :: l) -> lt (max_of lt x l) a = false).
Proof.
  intros A lt R T C. assert (As : forall a b, lt a b = true -> lt b a = false).
  { intros a b H. destruct (lt b a) eqn:E; [|reflexivity]. rewrite <- (R a), (T a b a H E). reflexivity. }
  assert (N : forall a b c, lt a b = false -> lt b c = false -> lt a c = false).
  { intros a b c H K. destruct (C a b) as [X|[X| ->]]; [congruence| |exact K]. destruct (C b c) as [Y|[Y| <-]]; [congruence| |exact H]. apply As. exact (T _ _ _ Y X). }
  intros x l. revert x. induction l as [|y l IH]; intros x.
  - cbn. repeat split; try tauto; intros a [<-|[]]; apply R.
  - rewrite min_step, max_step. destruct (IH y) as ((I1 & I2) & (I3 & I4)). split; split.
    + unfold min2. destruct (lt (min_of lt y l) x); [right; exact I1|left; reflexivity].
    + unfold min2. destruct (lt (min_of lt y l) x) eqn:E; intros a [<-|Ha]; [apply As, E|apply I2, Ha|apply R|eapply N; [apply I2, Ha|exact E]].
    + unfold max2. destruct (lt x (max_of lt y l)); [right; exact I3|left; reflexivity].
    + unfold max2. destruct (lt x (max_of lt y l)) eqn:E; intros a [<-|Ha]; [apply As, E|apply I4, Ha|apply R|eapply N; [exact E|apply I4, Ha]].
Qed.
Print Assumptions C206_min_max.
Example C206_case : (forall a, N.ltb a a = false) /\ (forall a b c, N.ltb a b = true -> N.ltb b c = true -> N.ltb a c = true)
  /\ (forall a b, N.ltb a b = true \/ N.ltb b a = true \/ a = b) /\ min_of N.ltb 5%N [3; 9; 3]%N = 3%N /\ max_of N.ltb 5%N [3; 9; 3]%N = 9%N.
Proof.
  split; [apply N.ltb_irrefl|]. split; [intros a b c; rewrite !N.ltb_lt; lia|]. split; [intros a b; rewrite !N.ltb_lt; lia|]. split; reflexivity.
Qed.

(** ** copy *)
Lemma object_length w : forall v, length (object_bytes w v) = w.
Proof. induction w as [|w IH]; intros v; [reflexivity|]. cbn. f_equal. apply IH. Qed.
Lemma object_value w : forall v, value_of (object_bytes w v) = (v mod 256 ^ N.of_nat w)%N.
Proof.
  induction w as [|w IH]; intros v; [cbn; symmetry; apply N.mod_1_r|]. cbn [object_bytes value_of]. rewrite IH, Nat2N.inj_succ, N.pow_succ_r'.
  rewrite N.mod_mul_r; [reflexivity|lia|]. apply N.pow_nonzero. lia.
Qed.
Lemma objects_length w src : length (concat (map (object_bytes w) src)) = length src * w.
Proof. induction src as [|v src IH]; [reflexivity|]. cbn [map concat length]. rewrite app_length, object_length, IH. reflexivity. Qed.
Lemma element_at w src : forall rest i v, nth_error src i = Some v -> element w (concat (map (object_bytes w) src) ++ rest) i = (v mod 256 ^ N.of_nat w)%N.
Proof.
  unfold element. induction src as [|u src IH]; intros rest [|i] v; cbn [nth_error]; try discriminate.
  - intros [= ->]. cbn [map concat Nat.mul skipn]. rewrite <- app_assoc, firstn_app, object_length, Nat.sub_diag, firstn_O, app_nil_r.
    rewrite firstn_all2 by (rewrite object_length; lia). apply object_value.
  - intros H. cbn [map concat]. rewrite <- app_assoc. replace (S i * w) with (length (object_bytes w u) + i * w) by (rewrite object_length; cbn; lia).
    rewrite skipn_app, skipn_all2 by lia. cbn [app]. replace (length (object_bytes w u) + i * w - length (object_bytes w u)) with (i * w) by lia. now apply IH.
Qed.
Lemma copied_by w src dest : length src * w <= length dest ->
  copied w src dest (concat (map (object_bytes w) src) ++ skipn (length (concat (map (object_bytes w) src))) dest).
Proof.
  intros L. rewrite objects_length. split; [rewrite app_length, skipn_length, objects_length; lia|]. split; [intros i v H; now apply element_at|].
  intros i H. unfold element. f_equal. f_equal. rewrite skipn_app, skipn_all2 by (rewrite objects_length; nia). cbn [app]. rewrite objects_length, skipn_skipn. f_equal. nia.
Qed.
Theorem C207_copy_partial : forall contiguous constant wi wo src dest, length src * wo <= length dest ->
  contiguous = false \/ constant = true \/ wi = wo ->
  exists dest', copy contiguous constant wi wo src dest = Ok dest' /\ copied wo src dest dest'.
Proof.
  intros contiguous constant wi wo src dest L H. unfold copy, can_memmove, bitwise_convertible. rewrite Nat.eqb_refl, andb_true_r.
  assert (E : (if contiguous && negb constant then concat (map (object_bytes wi) src) else concat (map (object_bytes wo) src)) = concat (map (object_bytes wo) src)).
  { destruct H as [->|[->| ->]]; [reflexivity|rewrite andb_false_r; reflexivity|destruct (contiguous && negb constant); reflexivity]. }
  rewrite E. rewrite (proj2 (Nat.leb_le _ _)) by (rewrite objects_length; exact L). cbn [check bind]. eexists. split; [reflexivity|]. now apply copied_by.
Qed.
Print Assumptions C207_copy_partial.
Theorem C207_copy_refuted : ~ (forall contiguous constant wi wo src dest, length src * wo <= length dest ->
  exists dest', copy contiguous constant wi wo src dest = Ok dest' /\ copied wo src dest dest').
Proof.
  intros H. destruct (H true false 1 4 [65; 66]%N [0; 0; 0; 0; 0; 0; 0; 0]%N) as (d & E & C); [cbn; lia|]. vm_compute in E. injection E as <-.
  destruct C as (_ & C & _). specialize (C 0 65%N eq_refl). vm_compute in C. discriminate.
Qed.
Print Assumptions C207_copy_refuted.
(** Copying larger elements to smaller ones writes beyond the end of a destination of the right size. *)
Theorem C207_copy_overflow : forall wi wo src dest, wo < wi -> src <> [] -> length dest = length src * wo -> copy true false wi wo src dest = Fail FUB.
Proof.
  intros wi wo src dest L N D. unfold copy, can_memmove, bitwise_convertible. rewrite Nat.eqb_refl. cbn [andb negb]. rewrite objects_length, D.
  destruct (Nat.leb_spec (length src * wi) (length src * wo)) as [K|K]; [|reflexivity]. destruct src; [congruence|]. cbn [length] in K. nia.
Qed.
Print Assumptions C207_copy_overflow.
(** Copying smaller elements to larger ones packs the source into the first elements. *)
Theorem C207_copy_packed : forall wi wo src dest, length src * wi <= length dest ->
  exists dest', copy true false wi wo src dest = Ok dest' /\ copied wi src dest dest'.
Proof.
  intros wi wo src dest L. unfold copy, can_memmove, bitwise_convertible. rewrite Nat.eqb_refl. cbn [andb negb]. rewrite (proj2 (Nat.leb_le _ _)) by (rewrite objects_length; exact L).
  cbn [check bind]. eexists. split; [reflexivity|]. now apply copied_by.
Qed.
Print Assumptions C207_copy_packed.
Example C207_case : exists d, copy true false 2 2 [300; 7]%N [1; 2; 3; 4; 5; 6]%N = Ok d /\ d = [44; 1; 7; 0; 5; 6]%N /\ copied 2 [300; 7]%N [1; 2; 3; 4; 5; 6]%N d.
Proof.
  destruct (C207_copy_partial true false 2 2 [300; 7]%N [1; 2; 3; 4; 5; 6]%N) as (d & E & C); [cbn; lia|right; right; reflexivity|].
  exists d. split; [exact E|]. split; [vm_compute in E; injection E as <-; reflexivity|exact C].
Qed.
