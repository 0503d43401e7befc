(** * Lemmas about the buffer model. *)
From Coq Require Import List NArith Bool Arith Lia.
From Verif Require Import M_Base M_Buffer.
Import ListNotations.

Definition contents {A} (b : buffer A) : list A := concat (calls b) ++ cells b.

(** Elements delivered by an operation. *)
Definition op_elems {A} (o : buf_op A) : list A :=
  match o with Push e => [e] | AppendEach l => l | Append l => l | Flush => [] end.

Definition buf_ok {A} (b : buffer A) : Prop :=
  0 < capacity b /\ length (cells b) <= capacity b
  /\ Forall (fun c => 0 < length c <= capacity b) (calls b).

Lemma new_buffer_ok A cap : 0 < cap ->
  exists b : buffer A, new_buffer cap = Ok b /\ b = mk_buffer cap [] [] /\ buf_ok b.
Proof.
  intros H. unfold new_buffer. destruct cap; [lia|]. simpl. eexists. split; [reflexivity|].
  split; [reflexivity|]. unfold buf_ok. simpl. repeat split; try lia. constructor.
Qed.

Lemma flush_ok A (b : buffer A) : buf_ok b -> buf_ok (flush b).
Proof.
  intros (H1 & H2 & H3). unfold flush. destruct (cells b) eqn:E.
  - unfold buf_ok. rewrite E. auto.
  - unfold buf_ok. simpl. repeat split; try lia. apply Forall_app. split; [exact H3|].
    constructor; [|constructor]. simpl in *. lia.
Qed.

Lemma flush_contents A (b : buffer A) : contents (flush b) = contents b.
Proof.
  unfold flush, contents. destruct (cells b) eqn:E; [now rewrite E|].
  simpl. rewrite concat_app. simpl. now rewrite !app_nil_r.
Qed.

Lemma flush_cells A (b : buffer A) : cells (flush b) = [].
Proof. unfold flush. destruct (cells b) eqn:E; [exact E|reflexivity]. Qed.

Lemma flush_capacity A (b : buffer A) : capacity (flush b) = capacity b.
Proof. unfold flush. destruct (cells b); reflexivity. Qed.

Definition room {A} (b : buffer A) : buffer A := if full b then flush b else b.

Lemma room_spec A (b : buffer A) : buf_ok b ->
  buf_ok (room b) /\ contents (room b) = contents b /\ capacity (room b) = capacity b
  /\ length (cells (room b)) < capacity b.
Proof.
  intros H. unfold room, full. destruct (length (cells b) =? capacity b) eqn:E.
  - rewrite flush_contents, flush_capacity, flush_cells. repeat split; try apply flush_ok; auto.
    destruct H. simpl. lia.
  - apply Nat.eqb_neq in E. repeat split; auto; try apply H. destruct H as (?&?&?). lia.
Qed.

Lemma push_back_spec A (b : buffer A) e : buf_ok b ->
  buf_ok (push_back b e) /\ contents (push_back b e) = contents b ++ [e]
  /\ capacity (push_back b e) = capacity b /\ cells (push_back b e) <> [].
Proof.
  intros H. unfold push_back. fold (room b). destruct (room_spec _ b H) as (H1 & H2 & H3 & H4).
  remember (room b) as r. repeat split; simpl; try assumption.
  - apply H1.
  - rewrite app_length. simpl. rewrite H3. lia.
  - apply H1.
  - unfold contents in *. simpl. rewrite app_assoc, H2. reflexivity.
  - intros C. now apply app_eq_nil in C.
Qed.

Lemma append_each_spec A l : forall b : buffer A, buf_ok b ->
  buf_ok (append_each b l) /\ contents (append_each b l) = contents b ++ l
  /\ capacity (append_each b l) = capacity b.
Proof.
  unfold append_each. induction l as [|e l IH]; intros b H; simpl.
  - rewrite app_nil_r. auto.
  - destruct (push_back_spec _ b e H) as (H1 & H2 & H3 & _).
    destruct (IH _ H1) as (I1 & I2 & I3). rewrite I2, I3, H2, H3, <- app_assoc. auto.
Qed.

Lemma append_loop_spec A fuel : forall (b : buffer A) l, buf_ok b -> length l <= fuel ->
  exists b', append_loop fuel b l = Ok b' /\ buf_ok b' /\ contents b' = contents b ++ l
  /\ capacity b' = capacity b /\ (l <> [] -> cells b' <> []) /\ (l = [] -> b' = b).
Proof.
  induction fuel as [|fuel IH]; intros b l H Hl.
  - destruct l; simpl in *; [|lia]. eexists. split; [reflexivity|]. rewrite app_nil_r.
    repeat split; auto; try apply H; congruence.
  - destruct l as [|x l].
    { simpl. eexists. split; [reflexivity|]. rewrite app_nil_r.
      repeat split; auto; try apply H; congruence. }
    cbn [append_loop].
    fold (room b). destruct (room_spec _ b H) as (H1 & H2 & H3 & H4).
    remember (room b) as r. clear Heqr. cbv zeta.
    assert (Hc : 0 < Nat.min (available r) (length (x :: l)) <= length (x :: l)).
    { unfold available. rewrite H3. simpl length. lia. }
    assert (Hc2 : length (cells r) + Nat.min (available r) (length (x :: l)) <= capacity r).
    { unfold available. rewrite H3. lia. }
    set (chunk := Nat.min (available r) (length (x :: l))) in *. clearbody chunk.
    destruct (chunk =? 0) eqn:E0; [apply Nat.eqb_eq in E0; lia|].
    destruct (chunk <=? length (x :: l)) eqn:E1; [|apply Nat.leb_gt in E1; lia].
    destruct (length (cells r) + chunk <=? capacity r) eqn:E2; [|apply Nat.leb_gt in E2; lia].
    cbn [negb check bind].
    set (b2 := mk_buffer _ _ _).
    assert (Hb2 : buf_ok b2).
    { subst b2. destruct H1 as (?&?&?). repeat split; simpl; try assumption.
      rewrite app_length, firstn_length. simpl. lia. }
    assert (Hn : cells b2 <> []).
    { subst b2. simpl. destruct chunk; [lia|]. simpl. intros C. now apply app_eq_nil in C. }
    destruct (IH b2 (skipn chunk (x :: l)) Hb2) as (b' & E & Hok & Hcont & Hcap & Hne & Heq).
    { rewrite skipn_length. simpl length in *. lia. }
    exists b'. split; [exact E|]. split; [exact Hok|].
    split; [|split; [|split]].
    + rewrite Hcont. rewrite <- H2. unfold contents. subst b2. cbn [calls cells].
      rewrite <- !app_assoc. now rewrite firstn_skipn.
    + rewrite Hcap. subst b2. simpl. assumption.
    + intros _. destruct (skipn chunk (x :: l)) eqn:Es.
      * rewrite (Heq eq_refl). exact Hn.
      * apply Hne. discriminate.
    + discriminate.
Qed.

Lemma append_spec A (b : buffer A) l : buf_ok b ->
  exists b', append b l = Ok b' /\ buf_ok b' /\ contents b' = contents b ++ l
  /\ capacity b' = capacity b /\ (l <> [] -> cells b' <> []) /\ (l = [] -> b' = b).
Proof. intros H. apply append_loop_spec; auto. Qed.

Lemma run_op_spec A (b : buffer A) o : buf_ok b ->
  exists b', run_op b o = Ok b' /\ buf_ok b' /\ contents b' = contents b ++ op_elems o
  /\ capacity b' = capacity b.
Proof.
  intros H. destruct o as [e|l|l|]; simpl.
  - destruct (push_back_spec _ b e H) as (?&?&?&?). eauto 6.
  - destruct (append_each_spec _ l b H) as (?&?&?). eauto 6.
  - destruct (append_spec _ b l H) as (b'&?&?&?&?&?). eauto 6.
  - rewrite app_nil_r. exists (flush b). rewrite flush_contents, flush_capacity.
    auto using flush_ok.
Qed.

Lemma run_ops_spec A os : forall b : buffer A, buf_ok b ->
  exists b', run_ops b os = Ok b' /\ buf_ok b' /\ contents b' = contents b ++ flat_map op_elems os
  /\ capacity b' = capacity b.
Proof.
  induction os as [|o os IH]; intros b H; simpl.
  - exists b. now rewrite app_nil_r.
  - destruct (run_op_spec _ b o H) as (b1 & E & H1 & H2 & H3). rewrite E. simpl.
    destruct (IH b1 H1) as (b2 & E2 & H4 & H5 & H6). exists b2. split; [exact E2|].
    split; [exact H4|]. rewrite H5, H6, H2, H3, <- app_assoc. auto.
Qed.

Lemma run_ops_app A os1 : forall (b : buffer A) os2,
  run_ops b (os1 ++ os2) = let* b := run_ops b os1 in run_ops b os2.
Proof.
  induction os1 as [|o os1 IH]; intros; simpl; [reflexivity|].
  destruct (run_op b o); simpl; [apply IH|reflexivity].
Qed.
