(** * Lemmas about token emission. *)
From Coq Require Import List NArith Bool Arith Lia.
From Verif Require Import M_Base L_Base M_Buffer L_Buffer S_Tokens M_Emit S_Ops.
Import ListNotations.

Section OutOpInd.
  Variable P : out_op -> Prop.
  Hypothesis HE : forall b l t f, P (OEmit b l t f).
  Hypothesis HN : forall cap off len ops, Forall P ops -> P (ONested cap off len ops).
  Fixpoint out_op_ind2 (o : out_op) : P o :=
    match o with
    | OEmit b l t f => HE b l t f
    | ONested cap off len ops => HN cap off len ops
        ((fix go (l : list out_op) : Forall P l :=
          match l with
          | [] => Forall_nil _
          | o :: l => Forall_cons _ (out_op_ind2 o) (go l)
          end) ops)
    end.
End OutOpInd.

(** Capacity-free description of the output: the tokens so far, most recent first. *)
Definition add_token (coal forced : bool) (acc : list token) (begin len : nat) (ty : N)
  : list token :=
  match acc with
  | t :: r =>
    if (forced || coal) && N.eqb (tk_type t) ty && (tk_begin t + tk_len t =? begin)
    then mk_token (tk_begin t) (tk_len t + len) (tk_type t) :: r
    else mk_token begin len ty :: acc
  | [] => [mk_token begin len ty]
  end.

Fixpoint out_op_rtokens (coal : bool) (acc : list token) (o : out_op) {struct o} : list token :=
  match o with
  | OEmit begin len ty forced => add_token coal forced acc begin len ty
  | ONested cap off len ops =>
    map (shift_token off)
      ((fix go (acc : list token) (os : list out_op) {struct os} : list token :=
         match os with [] => acc | o :: os => go (out_op_rtokens coal acc o) os end) [] ops)
    ++ acc
  end.

Fixpoint rtokens (coal : bool) (acc : list token) (os : list out_op) : list token :=
  match os with [] => acc | o :: os => rtokens coal (out_op_rtokens coal acc o) os end.

Definition tokens_of (coal : bool) (ops : list out_op) : list token := rev (rtokens coal [] ops).

Lemma out_op_rtokens_nested coal acc cap off len ops :
  out_op_rtokens coal acc (ONested cap off len ops)
  = map (shift_token off) (rtokens coal [] ops) ++ acc.
Proof.
  cbn [out_op_rtokens]. f_equal. f_equal.
  generalize (@nil token). induction ops as [|o ops IH]; intros a; [reflexivity|].
  cbn [rtokens]. apply IH.
Qed.

Lemma replay_op_nested coal n b cap off len ops :
  replay_op coal n b (ONested cap off len ops)
  = let* _ := check (off + len <=? n) FDebugAssert in
    let* sub := new_buffer cap in let* sub := replay coal len sub ops in
    sub_flushes off b (calls (flush sub)).
Proof.
  cbn [replay_op]. destruct (off + len <=? n); [|reflexivity]. cbn [check bind].
  destruct (new_buffer cap) as [s|]; [|reflexivity]. cbn [bind].
  f_equal. revert s.
  induction ops as [|o ops IH]; intros s; [reflexivity|]. cbn [replay].
  destruct (replay_op coal len s o); [|reflexivity]. cbn [bind]. apply IH.
Qed.

(** Bounds demanded by the assertions of emit, recursively. *)
Fixpoint op_bounds (n : nat) (o : out_op) {struct o} : Prop :=
  match o with
  | OEmit begin len _ _ => 0 < len /\ begin + len <= n
  | ONested cap off len ops => (off + len <= n /\ 0 < cap) /\
    (fix go (os : list out_op) : Prop :=
      match os with [] => True | o :: os => op_bounds len o /\ go os end) ops
  end.

Lemma op_bounds_nested n cap off len ops :
  op_bounds n (ONested cap off len ops) <-> (off + len <= n /\ 0 < cap) /\ Forall (op_bounds len) ops.
Proof.
  cbn [op_bounds]. split; intros [H1 H2]; (split; [exact H1|]).
  - induction ops as [|o ops IH]; constructor; [apply H2 | apply IH; apply H2].
  - induction H2; [exact I|]. split; assumption.
Qed.

(** Relation between the buffer and the capacity-free description. *)
Definition tb_ok (b : buffer token) (acc : list token) : Prop :=
  buf_ok b /\ contents b = rev acc /\ (cells b = [] -> calls b = []).

Lemma tb_ok_last b acc : tb_ok b acc ->
  match rev (cells b) with [] => acc = [] | t :: _ => exists r, acc = t :: r end.
Proof.
  intros (Hok & Hc & He). destruct (rev (cells b)) as [|t r] eqn:E.
  - apply (f_equal (@rev token)) in E. rewrite rev_involutive in E. simpl in E.
    unfold contents in Hc. rewrite (He E), E in Hc. simpl in Hc.
    apply (f_equal (@rev token)) in Hc. rewrite rev_involutive in Hc. now simpl in Hc.
  - apply (f_equal (@rev token)) in E. rewrite rev_involutive in E. simpl in E.
    unfold contents in Hc. rewrite E, app_assoc in Hc.
    apply (f_equal (@rev token)) in Hc. rewrite rev_involutive, rev_app_distr in Hc.
    simpl in Hc. eauto.
Qed.

Lemma tb_push b acc e : tb_ok b acc -> tb_ok (push_back b e) (e :: acc).
Proof.
  intros (Hok & Hc & He). destruct (push_back_spec _ b e Hok) as (H1 & H2 & H3 & H4).
  split; [exact H1|]. split; [|congruence]. rewrite H2, Hc. reflexivity.
Qed.

Lemma cells_removelast (l : list token) t r : rev l = t :: r -> removelast l = rev r.
Proof.
  intros H. apply (f_equal (@rev token)) in H. rewrite rev_involutive in H. simpl in H.
  subst l. apply removelast_last.
Qed.

Lemma tb_set_back b acc t r e : tb_ok b (t :: acc) -> rev (cells b) = t :: r ->
  tb_ok (set_back b e) (e :: acc).
Proof.
  intros (Hok & Hc & He) E. unfold set_back. rewrite (cells_removelast _ _ _ E).
  assert (E2 : cells b = rev r ++ [t]).
  { apply (f_equal (@rev token)) in E. now rewrite rev_involutive in E. }
  split; [|split].
  - destruct Hok as (?&?&?). repeat split; simpl; try assumption.
    rewrite E2 in *. rewrite app_length in *. simpl in *. assumption.
  - unfold contents in *. simpl. rewrite E2 in Hc. simpl in Hc.
    rewrite app_assoc in *. apply app_inj_tail in Hc. destruct Hc as [Hc _].
    now rewrite Hc.
  - simpl. intros C. destruct (rev r); discriminate.
Qed.

Lemma tb_append b acc l : tb_ok b acc ->
  exists b', append b l = Ok b' /\ tb_ok b' (rev l ++ acc) /\ capacity b' = capacity b.
Proof.
  intros (Hok & Hc & He). destruct (append_spec _ b l Hok) as (b' & E & H1 & H2 & H3 & H4 & H5).
  exists b'. split; [exact E|]. split; [|exact H3]. split; [exact H1|]. split.
  - rewrite H2, Hc, rev_app_distr, rev_involutive. reflexivity.
  - intros C. destruct l as [|x l].
    + rewrite (H5 eq_refl) in *. auto.
    + exfalso. apply H4; [discriminate|exact C].
Qed.

Lemma emit_spec coal n b acc begin len ty forced : tb_ok b acc ->
  0 < len -> begin + len <= n ->
  exists b', emit coal n b begin len ty forced = Ok b'
    /\ tb_ok b' (add_token coal forced acc begin len ty).
Proof.
  intros Hb Hl Hn. unfold emit.
  destruct (len =? 0) eqn:E0; [apply Nat.eqb_eq in E0; lia|].
  destruct (begin <? n) eqn:E1; [|apply Nat.ltb_ge in E1; lia].
  destruct (begin + len <=? n) eqn:E2; [|apply Nat.leb_gt in E2; lia].
  cbn [negb check bind]. pose proof (tb_ok_last _ _ Hb) as HL.
  destruct (rev (cells b)) as [|t r] eqn:E.
  - subst acc. eexists. split; [reflexivity|]. now apply tb_push.
  - destruct HL as [acc' ->]. unfold add_token.
    destruct ((forced || coal) && (tk_type t =? ty)%N && (tk_begin t + tk_len t =? begin)).
    + eexists. split; [reflexivity|]. eapply tb_set_back; eauto.
    + eexists. split; [reflexivity|]. now apply tb_push.
Qed.

Lemma emit_Ok coal n b begin len ty forced b' :
  emit coal n b begin len ty forced = Ok b' -> 0 < len /\ begin + len <= n.
Proof.
  unfold emit. destruct (len =? 0) eqn:E0; [discriminate|].
  destruct (begin <? n) eqn:E1; [|discriminate].
  destruct (begin + len <=? n) eqn:E2; [|discriminate].
  intros _. apply Nat.eqb_neq in E0. apply Nat.leb_le in E2. lia.
Qed.

Lemma sub_flushes_spec off chunks : forall b acc, tb_ok b acc ->
  exists b', sub_flushes off b chunks = Ok b'
    /\ tb_ok b' (map (shift_token off) (rev (concat chunks)) ++ acc).
Proof.
  induction chunks as [|c r IH]; intros b acc Hb; simpl.
  - eauto.
  - destruct (tb_append b acc (map (shift_token off) c) Hb) as (b1 & E1 & H1 & _).
    unfold sub_flush. rewrite E1. cbn [bind].
    destruct (IH _ _ H1) as (b2 & E2 & H2). exists b2. split; [exact E2|].
    rewrite rev_app_distr, map_app, <- app_assoc, !map_rev. rewrite map_rev in H2.
    exact H2.
Qed.

Lemma calls_flush b acc : tb_ok b acc -> concat (calls (flush b)) = rev acc.
Proof.
  intros (Hok & Hc & He). rewrite <- Hc, <- flush_contents. unfold contents.
  now rewrite flush_cells, app_nil_r.
Qed.

Lemma new_tb_ok cap : 0 < cap -> exists b, new_buffer cap = Ok b /\ tb_ok b [].
Proof.
  intros H. destruct (new_buffer_ok token cap H) as (b & E & -> & Hok). eexists.
  split; [exact E|]. split; [exact Hok|]. split; [reflexivity|]. reflexivity.
Qed.

Lemma replay_op_spec coal o : forall n b acc, tb_ok b acc -> op_bounds n o ->
  exists b', replay_op coal n b o = Ok b' /\ tb_ok b' (out_op_rtokens coal acc o).
Proof.
  induction o as [begin len ty forced|cap off len ops IH] using out_op_ind2;
    intros n b acc Hb Hn.
  - cbn [op_bounds] in Hn. cbn [replay_op out_op_rtokens]. apply emit_spec; tauto.
  - apply op_bounds_nested in Hn. destruct Hn as [[Hoff Hcap] Hops].
    rewrite replay_op_nested, out_op_rtokens_nested.
    apply Nat.leb_le in Hoff. rewrite Hoff. cbn [check bind].
    destruct (new_tb_ok cap Hcap) as (sub & Es & Hs). rewrite Es. cbn [bind].
    assert (Hr : exists sub', replay coal len sub ops = Ok sub'
                 /\ tb_ok sub' (rtokens coal [] ops)).
    { clear Es Hb. revert Hs. generalize (@nil token) as a. generalize sub as s. clear sub.
      induction ops as [|o ops IHo]; intros s a Hs.
      - simpl. eauto.
      - inversion IH; subst. inversion Hops; subst. cbn [replay rtokens].
        destruct (H1 len s a Hs H3) as (s1 & E1 & Hs1). rewrite E1. cbn [bind].
        apply IHo; assumption. }
    destruct Hr as (sub' & Er & Hsub). rewrite Er. cbn [bind].
    destruct (sub_flushes_spec off (calls (flush sub')) b acc Hb) as (b' & E' & Hb').
    exists b'. split; [exact E'|]. rewrite (calls_flush _ _ Hsub), rev_involutive in Hb'.
    exact Hb'.
Qed.

Lemma replay_spec coal ops : forall n b acc, tb_ok b acc -> Forall (op_bounds n) ops ->
  exists b', replay coal n b ops = Ok b' /\ tb_ok b' (rtokens coal acc ops).
Proof.
  induction ops as [|o ops IH]; intros n b acc Hb Hn; cbn [replay rtokens].
  - eauto.
  - inversion Hn; subst. destruct (replay_op_spec coal o n b acc Hb H1) as (b1 & E1 & Hb1).
    rewrite E1. cbn [bind]. apply IH; assumption.
Qed.

Lemma token_output_spec coal cap n ops : 0 < cap -> Forall (op_bounds n) ops ->
  exists chunks, token_output coal cap n ops = Ok chunks
    /\ concat chunks = tokens_of coal ops
    /\ Forall (fun c => 0 < length c <= cap) chunks.
Proof.
  intros Hc Hn. unfold token_output.
  destruct (new_buffer_ok token cap Hc) as (b0 & E0 & -> & Hok). rewrite E0. cbn [bind].
  assert (Hb : tb_ok (mk_buffer cap [] []) []) by (repeat split; auto; apply Hok).
  destruct (replay_spec coal ops n _ _ Hb Hn) as (b & E & Hb'). rewrite E. cbn [bind].
  eexists. split; [reflexivity|]. split; [apply calls_flush; exact Hb'|].
  assert (Hcap : capacity b = cap).
  { clear Hb' Hb Hok Hc E0.
    assert (G : forall os s s', replay coal n s os = Ok s' -> capacity s' = capacity s).
    { assert (GE : forall s x y z f s', emit coal n s x y z f = Ok s' -> capacity s' = capacity s).
      { intros s x y z f s'. unfold emit.
        destruct (negb (y =? 0)); [|discriminate]. destruct (x <? n); [|discriminate].
        destruct (x + y <=? n); [|discriminate]. cbn [check bind].
        assert (Hpb : forall e, capacity (push_back s e) = capacity s).
        { intros e. unfold push_back. simpl. destruct (full s); [apply flush_capacity|reflexivity]. }
        destruct (rev (cells s)).
        - intros [= <-]. apply Hpb.
        - destruct (_ && _ && _); intros [= <-]; [reflexivity|apply Hpb]. }
      assert (GA : forall fuel (l : list token) s s',
                append_loop fuel s l = Ok s' -> capacity s' = capacity s).
      { induction fuel as [|fuel IHf]; intros [|x l] s s'; cbn [append_loop]; try discriminate;
          try (intros [= <-]; reflexivity).
        fold (room s). cbv zeta. set (k := Nat.min _ _).
        destruct (negb (k =? 0)); [|discriminate]. cbn [check bind].
        destruct (k <=? length (x :: l)); [|discriminate]. cbn [check bind].
        destruct (length (cells (room s)) + k <=? capacity (room s)); [|discriminate].
        cbn [check bind]. intros E1. apply IHf in E1. rewrite E1. simpl.
        unfold room. destruct (full s); [apply flush_capacity|reflexivity]. }
      assert (GS : forall off cs s s', sub_flushes off s cs = Ok s' -> capacity s' = capacity s).
      { induction cs as [|c cs IHc]; intros s s'; simpl; [now intros [= <-]|].
        unfold sub_flush. destruct (append s _) eqn:EA; [|discriminate]. cbn [bind].
        intros E1. rewrite (IHc _ _ E1). eapply GA. exact EA. }
      induction os as [|o os IHo]; intros s s'; cbn [replay]; [now intros [= <-]|].
      destruct (replay_op coal n s o) as [s1|] eqn:E1; [|discriminate]. cbn [bind].
      intros E2. rewrite (IHo _ _ E2). destruct o.
      - eapply GE. exact E1.
      - rewrite replay_op_nested in E1. destruct (offset + len <=? n); [|discriminate].
        cbn [check bind] in E1. destruct (new_buffer cap0); [|discriminate].
        cbn [bind] in E1. destruct (replay coal len _ ops0); [|discriminate].
        cbn [bind] in E1. eapply GS. exact E1. }
    apply (G _ _ _ E). }
  destruct Hb' as (Hok' & _ & _). apply flush_ok in Hok'. destruct Hok' as (_ & _ & Hf).
  rewrite flush_capacity, Hcap in Hf. exact Hf.
Qed.

(** ** Well-formedness *)

(** Inductive form: tokens lie in [lo, hi], in order. *)
Inductive toks_in : nat -> nat -> list token -> Prop :=
| toks_nil lo hi : lo <= hi -> toks_in lo hi []
| toks_cons lo hi t r : lo <= tk_begin t -> 0 < tk_len t -> toks_in (tk_end t) hi r ->
    toks_in lo hi (t :: r).

Lemma toks_in_le lo hi l : toks_in lo hi l -> lo <= hi.
Proof. induction 1; unfold tk_end in *; lia. Qed.

Lemma toks_in_weaken lo hi l lo' hi' : toks_in lo hi l -> lo' <= lo -> hi <= hi' ->
  toks_in lo' hi' l.
Proof.
  intros H. revert lo' hi'. induction H; intros; constructor; try lia.
  apply IHtoks_in; lia.
Qed.

Lemma toks_in_app lo mid hi l1 l2 : toks_in lo mid l1 -> toks_in mid hi l2 ->
  toks_in lo hi (l1 ++ l2).
Proof.
  induction 1; intros; simpl.
  - eapply toks_in_weaken; eauto.
  - constructor; auto.
Qed.

Lemma toks_in_cons_inv lo hi t r : toks_in lo hi (t :: r) ->
  lo <= tk_begin t /\ 0 < tk_len t /\ toks_in (tk_end t) hi r.
Proof. inversion 1; auto. Qed.

Lemma toks_in_app_inv l1 : forall lo hi l2, toks_in lo hi (l1 ++ l2) ->
  exists mid, toks_in lo mid l1 /\ toks_in mid hi l2.
Proof.
  induction l1 as [|t l1 IH]; intros lo hi l2 H; simpl in H.
  - exists lo. split; [constructor; lia|exact H].
  - apply toks_in_cons_inv in H. destruct H as (Ha & Hb & Hc).
    destruct (IH _ _ _ Hc) as (mid & H1 & H2). exists mid.
    split; [constructor; auto|exact H2].
Qed.

Lemma toks_in_shift lo hi l off : toks_in lo hi l ->
  toks_in (lo + off) (hi + off) (map (shift_token off) l).
Proof.
  induction 1; simpl; constructor; unfold tk_end in *; simpl; try lia.
  replace (tk_begin t + off + tk_len t) with (tk_begin t + tk_len t + off) by lia. assumption.
Qed.

Lemma toks_in_In lo hi l t : toks_in lo hi l -> In t l ->
  lo <= tk_begin t /\ 0 < tk_len t /\ tk_end t <= hi.
Proof.
  induction 1; intros Hi; [destruct Hi|]. apply toks_in_le in H1 as Hle.
  destruct Hi as [<-|Hi]; [auto|].
  destruct (IHtoks_in Hi) as (?&?&?). unfold tk_end in *. lia.
Qed.

Lemma toks_in_well_formed n l : toks_in 0 n l -> well_formed n l.
Proof.
  intros H. split.
  - intros t Hi. destruct (toks_in_In _ _ _ _ H Hi) as (?&?&?). auto.
  - revert H. generalize 0 as lo. induction l as [|x l IH]; intros lo H i j t u Hij Hti Huj.
    { now destruct i. }
    destruct j as [|j]; [lia|]. simpl in Huj. apply toks_in_cons_inv in H. destruct H as (Ha & Hb & H6).
    destruct i as [|i]; simpl in Hti.
    + injection Hti as <-. apply nth_error_In in Huj.
      destruct (toks_in_In _ _ _ _ H6 Huj) as (?&?&?). assumption.
    + exact (IH _ H6 i j t u ltac:(lia) Hti Huj).
Qed.

Lemma nth_error_nil_any {A} i : @nth_error A [] i = None.
Proof. now destruct i. Qed.

Lemma well_formed_toks_in n l : well_formed n l -> toks_in 0 n l.
Proof.
  intros [H1 H2].
  assert (G : forall lo, (match l with [] => lo <= n | t :: _ => lo <= tk_begin t end) ->
            toks_in lo n l).
  { induction l as [|t l IH]; intros lo Hlo; [constructor; exact Hlo|].
    constructor; [exact Hlo| apply (H1 t); now left|].
    apply IH.
    - intros u Hu. apply H1. now right.
    - intros i j a b Hij Ha Hb. apply (H2 (S i) (S j)); [lia|exact Ha|exact Hb].
    - destruct l as [|u l]; [apply (H1 t); now left|].
      apply (H2 0 1); [lia|reflexivity|reflexivity]. }
  apply G. destruct l; lia.
Qed.

Lemma ops_in_le lo hi l : ops_in lo hi l -> lo <= hi.
Proof. induction 1; lia. Qed.

Lemma ops_in_weaken lo hi l : ops_in lo hi l -> forall lo' hi', lo' <= lo -> hi <= hi' ->
  ops_in lo' hi' l.
Proof.
  induction 1; intros; constructor; try lia; try assumption.
  - apply IHops_in; lia.
  - apply IHops_in2; lia.
Qed.

Lemma ops_in_app lo mid hi l1 l2 : ops_in lo mid l1 -> ops_in mid hi l2 ->
  ops_in lo hi (l1 ++ l2).
Proof.
  intros H. revert hi l2. induction H; intros; simpl.
  - eapply ops_in_weaken; eauto.
  - constructor; auto.
  - constructor; auto.
Qed.

Lemma ops_in_app_inv l1 : forall lo hi l2, ops_in lo hi (l1 ++ l2) ->
  exists mid, ops_in lo mid l1 /\ ops_in mid hi l2.
Proof.
  induction l1 as [|o l1 IH]; intros lo hi l2 H; simpl in H.
  - exists lo. split; [constructor; lia|exact H].
  - inversion H as [|? ? ? ? ? ? ? ? ? H6|? ? ? ? ? ? ? ? ? ? H7]; subst.
    + destruct (IH _ _ _ H6) as (mid & A & B). exists mid. split; [constructor; auto|exact B].
    + destruct (IH _ _ _ H7) as (mid & A & B). exists mid. split; [constructor; auto|exact B].
Qed.

Lemma ops_in_bounds lo hi l : ops_in lo hi l -> Forall (op_bounds hi) l.
Proof.
  intros H. induction H.
  - constructor.
  - constructor; [|exact IHops_in]. simpl. apply ops_in_le in H1. lia.
  - constructor; [|exact IHops_in2]. apply op_bounds_nested.
    match goal with X : ops_in (off + len) _ _ |- _ => apply ops_in_le in X end. auto.
Qed.

Lemma add_token_in coal f acc lo hi begin len ty :
  toks_in lo hi (rev acc) -> hi <= begin -> 0 < len ->
  toks_in lo (begin + len) (rev (add_token coal f acc begin len ty)).
Proof.
  intros H Hb Hl. unfold add_token. destruct acc as [|t r].
  - simpl in *. inversion H; subst. constructor; simpl; try lia.
    constructor. unfold tk_end. simpl. lia.
  - destruct ((f || coal) && (tk_type t =? ty)%N && (tk_begin t + tk_len t =? begin)) eqn:E.
    + apply andb_true_iff in E. destruct E as [_ E]. apply Nat.eqb_eq in E.
      simpl in *. apply toks_in_app_inv in H. destruct H as (mid & H1 & H2).
      eapply toks_in_app; [exact H1|]. apply toks_in_cons_inv in H2. destruct H2 as (Ha & Hc & Hd).
      constructor; simpl; try lia.
      constructor. unfold tk_end. simpl. lia.
    + cbn [rev]. eapply toks_in_app; [exact H|].
      constructor; simpl; try lia. constructor. unfold tk_end. simpl. lia.
Qed.

Lemma rtokens_in coal ops : forall acc lo mid hi,
  toks_in lo mid (rev acc) -> ops_in mid hi ops ->
  toks_in lo hi (rev (rtokens coal acc ops)).
Proof.
  assert (G : forall mid hi ops, ops_in mid hi ops -> forall acc lo,
    toks_in lo mid (rev acc) -> toks_in lo hi (rev (rtokens coal acc ops))).
  { clear ops. induction 1 as [lo0 hi H0|lo0 hi begin len ty f r H0 H1 H2 IH
                       |lo0 hi cap off len nops r H0 H1 H2 IH1 H3 IH2]; intros acc lo Ha.
    - simpl. eapply toks_in_weaken; eauto.
    - cbn [rtokens]. apply IH. cbn [out_op_rtokens]. eapply add_token_in.
      + exact Ha.
      + exact H0.
      + exact H1.
    - cbn [rtokens]. apply IH2. rewrite out_op_rtokens_nested, rev_app_distr.
      eapply toks_in_app; [exact Ha|]. rewrite <- map_rev.
      assert (Hn : toks_in 0 len (rev (rtokens coal [] nops))).
      { apply IH1. simpl. constructor. lia. }
      apply (toks_in_shift _ _ _ off) in Hn. eapply toks_in_weaken; [exact Hn| lia | lia]. }
  intros. eapply G; eauto.
Qed.

Lemma tokens_of_in coal ops lo hi : ops_in lo hi ops -> toks_in lo hi (tokens_of coal ops).
Proof. intros H. unfold tokens_of. eapply rtokens_in; eauto. simpl. constructor. lia. Qed.

Lemma tokens_of_wf coal ops n : ops_in 0 n ops -> well_formed n (tokens_of coal ops).
Proof. intros H. apply toks_in_well_formed. now apply tokens_of_in. Qed.

(** ** A successful replay has performed in-bounds operations only *)

Lemma new_buffer_Ok {A} cap (b : buffer A) : new_buffer cap = Ok b -> 0 < cap.
Proof. unfold new_buffer. destruct cap; simpl; [discriminate|lia]. Qed.

Lemma replay_op_Ok coal o : forall n b b', replay_op coal n b o = Ok b' -> op_bounds n o.
Proof.
  induction o as [begin len ty forced|cap off len ops IH] using out_op_ind2; intros n b b' E.
  - cbn [replay_op] in E. apply emit_Ok in E. exact E.
  - rewrite replay_op_nested in E. apply op_bounds_nested.
    destruct (off + len <=? n) eqn:Eo; [|discriminate]. apply Nat.leb_le in Eo.
    cbn [check bind] in E.
    destruct (new_buffer cap) as [s|] eqn:En; [|discriminate]. apply new_buffer_Ok in En.
    split; [auto|]. cbn [bind] in E.
    destruct (replay coal len s ops) as [s'|] eqn:Er; [|discriminate]. clear E b b'.
    revert s s' Er. induction IH as [|o ops Ho _ IHo]; intros s s' Er; [constructor|].
    cbn [replay] in Er. destruct (replay_op coal len s o) as [s1|] eqn:E1; [|discriminate].
    cbn [bind] in Er. constructor; [eapply Ho; exact E1|eapply IHo; exact Er].
Qed.

Lemma replay_Ok coal ops : forall n b b', replay coal n b ops = Ok b' -> Forall (op_bounds n) ops.
Proof.
  induction ops as [|o ops IH]; intros n b b' E; [constructor|]. cbn [replay] in E.
  destruct (replay_op coal n b o) as [s1|] eqn:E1; [|discriminate]. cbn [bind] in E.
  constructor; [eapply replay_op_Ok; exact E1|eapply IH; exact E].
Qed.

Lemma token_output_Ok coal cap n ops c : token_output coal cap n ops = Ok c ->
  0 < cap /\ Forall (op_bounds n) ops.
Proof.
  unfold token_output. destruct (new_buffer cap) as [b|] eqn:E; [|discriminate].
  apply new_buffer_Ok in E. cbn [bind].
  destruct (replay coal n b ops) as [b'|] eqn:Er; [|discriminate]. intros _.
  split; [exact E|]. eapply replay_Ok. exact Er.
Qed.

Lemma token_output_tokens coal cap n ops c : token_output coal cap n ops = Ok c ->
  concat c = tokens_of coal ops.
Proof.
  intros E. destruct (token_output_Ok _ _ _ _ _ E) as [H1 H2].
  destruct (token_output_spec coal cap n ops H1 H2) as (c' & E' & H & _).
  rewrite E in E'. injection E' as <-. exact H.
Qed.

Lemma token_output_any_cap coal cap1 n ops c1 cap2 : token_output coal cap1 n ops = Ok c1 ->
  0 < cap2 -> exists c2, token_output coal cap2 n ops = Ok c2 /\ concat c2 = concat c1.
Proof.
  intros E H. destruct (token_output_Ok _ _ _ _ _ E) as [_ H2].
  destruct (token_output_spec coal cap2 n ops H H2) as (c2 & E2 & Hc & _). exists c2.
  split; [exact E2|]. rewrite Hc. symmetry. eapply token_output_tokens. exact E.
Qed.

Lemma token_output_any_coal coal1 coal2 cap1 n ops c1 cap2 :
  token_output coal1 cap1 n ops = Ok c1 -> 0 < cap2 ->
  exists c2, token_output coal2 cap2 n ops = Ok c2.
Proof.
  intros E H. destruct (token_output_Ok _ _ _ _ _ E) as [_ H2].
  destruct (token_output_spec coal2 cap2 n ops H H2) as (c2 & E2 & _). eauto.
Qed.

(** ** Per-byte highlighting *)

Fixpoint op_covers (o : out_op) (p : nat) (ty : N) {struct o} : Prop :=
  match o with
  | OEmit begin len t _ => begin <= p < begin + len /\ t = ty
  | ONested _ off _ ops => exists q, p = q + off /\
    (fix go (os : list out_op) : Prop :=
      match os with [] => False | o :: os => op_covers o q ty \/ go os end) ops
  end.

Lemma op_covers_nested cap off len ops p ty :
  op_covers (ONested cap off len ops) p ty
  <-> exists q, p = q + off /\ Exists (fun o => op_covers o q ty) ops.
Proof.
  cbn [op_covers].
  assert (G : forall q, (fix go (os : list out_op) : Prop :=
      match os with [] => False | o :: os => op_covers o q ty \/ go os end) ops
      <-> Exists (fun o => op_covers o q ty) ops).
  { intros q. induction ops as [|o ops IH]; [now rewrite Exists_nil|].
    rewrite Exists_cons, IH. reflexivity. }
  split; intros (q & H1 & H2); exists q; (split; [exact H1|]); now apply G.
Qed.

Lemma highlighted_cons t l p ty : highlighted (t :: l) p ty <->
  (tk_begin t <= p < tk_end t /\ tk_type t = ty) \/ highlighted l p ty.
Proof.
  unfold highlighted. split.
  - intros (u & [<-|Hi] & H); [now left|right; eauto].
  - intros [H|(u & Hi & H)]; [exists t|exists u]; (split; [|exact H]); [now left|now right].
Qed.

Lemma highlighted_nil p ty : highlighted [] p ty <-> False.
Proof. split; [intros (t & [] & _)|tauto]. Qed.

Lemma highlighted_app a b p ty : highlighted (a ++ b) p ty <->
  highlighted a p ty \/ highlighted b p ty.
Proof.
  induction a as [|t a IH]; simpl.
  - rewrite highlighted_nil. tauto.
  - rewrite !highlighted_cons, IH. tauto.
Qed.

Lemma highlighted_rev l p ty : highlighted (rev l) p ty <-> highlighted l p ty.
Proof.
  unfold highlighted. split; intros (t & Hi & H); exists t; (split; [|exact H]).
  - now apply in_rev.
  - now apply in_rev in Hi.
Qed.

Lemma highlighted_shift off l p ty : highlighted (map (shift_token off) l) p ty <->
  exists q, p = q + off /\ highlighted l q ty.
Proof.
  unfold highlighted. split.
  - intros (t & Hi & Hp & Ht). apply in_map_iff in Hi. destruct Hi as (u & <- & Hu).
    unfold tk_end in *. simpl in *. exists (p - off). split; [lia|]. exists u.
    split; [exact Hu|]. split; [lia|exact Ht].
  - intros (q & -> & t & Hi & Hp & Ht). exists (shift_token off t).
    split; [now apply in_map|]. unfold tk_end in *. simpl. split; [lia|exact Ht].
Qed.

Lemma add_token_highlighted coal f acc begin len ty p u :
  highlighted (add_token coal f acc begin len ty) p u <->
  highlighted acc p u \/ (begin <= p < begin + len /\ ty = u).
Proof.
  unfold add_token. destruct acc as [|t r].
  - rewrite highlighted_cons, highlighted_nil. unfold tk_end. simpl. tauto.
  - destruct ((f || coal) && (tk_type t =? ty)%N && (tk_begin t + tk_len t =? begin)) eqn:E.
    + apply andb_true_iff in E. destruct E as [E1 E2]. apply andb_true_iff in E1.
      destruct E1 as [_ E1]. apply N.eqb_eq in E1. apply Nat.eqb_eq in E2.
      rewrite !highlighted_cons. unfold tk_end. simpl. subst ty begin.
      split.
      * intros [[H1 H2]|H]; [|tauto].
        destruct (Nat.lt_ge_cases p (tk_begin t + tk_len t)).
        -- left. left. split; [lia|exact H2].
        -- right. split; [lia|exact H2].
      * intros [[[H1 H2]|H]|[H1 H2]]; [left|right; exact H|left]; (split; [lia|assumption]).
    + rewrite highlighted_cons. unfold tk_end. simpl. tauto.
Qed.

Lemma rtokens_highlighted coal ops : forall acc p ty,
  highlighted (rtokens coal acc ops) p ty <->
  highlighted acc p ty \/ Exists (fun o => op_covers o p ty) ops.
Proof.
  assert (GO : forall o acc p ty, highlighted (out_op_rtokens coal acc o) p ty <->
            highlighted acc p ty \/ op_covers o p ty).
  { clear ops. induction o as [begin len t f|cap off len ops IH] using out_op_ind2;
      intros acc p ty.
    - cbn [out_op_rtokens op_covers]. apply add_token_highlighted.
    - rewrite out_op_rtokens_nested, op_covers_nested, highlighted_app, highlighted_shift.
      assert (G : forall q, highlighted (rtokens coal [] ops) q ty
                    <-> Exists (fun o => op_covers o q ty) ops).
      { intros q.
        assert (G2 : forall acc0, highlighted (rtokens coal acc0 ops) q ty <->
                  highlighted acc0 q ty \/ Exists (fun o => op_covers o q ty) ops).
        { clear acc p. induction IH as [|o ops Ho _ IHo]; intros acc0; cbn [rtokens].
          - rewrite Exists_nil. tauto.
          - rewrite IHo, Ho, Exists_cons. tauto. }
        rewrite G2, highlighted_nil. tauto. }
      split.
      + intros [(q & H1 & H2)|H]; [right; exists q; split; [exact H1|now apply G]|now left].
      + intros [H|(q & H1 & H2)]; [now right|left; exists q; split; [exact H1|now apply G]]. }
  induction ops as [|o ops IH]; intros acc p ty; cbn [rtokens].
  - rewrite Exists_nil. tauto.
  - rewrite IH, GO, Exists_cons. tauto.
Qed.

Lemma tokens_of_highlighted coal ops p ty : highlighted (tokens_of coal ops) p ty <->
  Exists (fun o => op_covers o p ty) ops.
Proof.
  unfold tokens_of. rewrite highlighted_rev, rtokens_highlighted, highlighted_nil. tauto.
Qed.

(** ** Full coalescing *)

Definition is_emit (o : out_op) : Prop := match o with OEmit _ _ _ _ => True | _ => False end.

(** No two neighbours of the reversed list are mergeable. *)
Inductive rseparate : list token -> Prop :=
| rsep_nil : rseparate []
| rsep_one t : rseparate [t]
| rsep_cons u t r : ~ mergeable t u -> rseparate (t :: r) -> rseparate (u :: t :: r).

Lemma rtokens_separate ops : Forall is_emit ops -> forall acc, rseparate acc ->
  rseparate (rtokens true acc ops).
Proof.
  induction 1 as [|o ops Ho _ IH]; intros acc Ha; cbn [rtokens]; [exact Ha|].
  apply IH. destruct o as [b l ty f|]; [|destruct Ho]. cbn [out_op_rtokens]. unfold add_token.
  destruct acc as [|t r]; [constructor|].
  destruct ((f || true) && (tk_type t =? ty)%N && (tk_begin t + tk_len t =? b)) eqn:E.
  - inversion Ha; subst; constructor; auto.
  - constructor; [|exact Ha]. intros [H1 H2]. unfold tk_end in H1. simpl in *.
    rewrite orb_true_r, H1, H2, N.eqb_refl, Nat.eqb_refl in E. discriminate.
Qed.

Lemma rseparate_nth l : rseparate l -> forall i t u,
  nth_error (rev l) i = Some t -> nth_error (rev l) (S i) = Some u -> ~ mergeable t u.
Proof.
  induction 1 as [|t0|u0 t0 r Hn _ IH]; intros i t u H1 H2.
  - destruct i; discriminate.
  - destruct i as [|[|]]; discriminate.
  - cbn [rev] in *. destruct (Nat.lt_ge_cases (S i) (length (rev r ++ [t0]))) as [Hl|Hl].
    + rewrite nth_error_app1 in H2 by exact Hl. rewrite nth_error_app1 in H1 by lia.
      eapply IH; eauto.
    + rewrite nth_error_app2 in H2 by exact Hl.
      destruct (S i - length (rev r ++ [t0])) as [|k] eqn:Ek;
        [|destruct k; discriminate].
      simpl in H2. injection H2 as <-.
      rewrite app_length in Ek, Hl. simpl length in *.
      rewrite nth_error_app1 in H1 by (rewrite app_length; simpl; lia).
      rewrite nth_error_app2 in H1 by lia.
      replace (i - length (rev r)) with 0 in H1 by lia. simpl in H1. injection H1 as <-.
      exact Hn.
Qed.

Lemma tokens_of_separate ops : Forall is_emit ops -> forall i t u,
  nth_error (tokens_of true ops) i = Some t -> nth_error (tokens_of true ops) (S i) = Some u ->
  ~ mergeable t u.
Proof.
  intros H. apply rseparate_nth. apply rtokens_separate; [exact H|constructor].
Qed.

(** ** Composition *)

Lemma rtokens_app coal ops1 : forall acc ops2,
  rtokens coal acc (ops1 ++ ops2) = rtokens coal (rtokens coal acc ops1) ops2.
Proof. induction ops1 as [|o ops1 IH]; intros; simpl; [reflexivity|apply IH]. Qed.

Lemma tokens_of_nested_last coal ops cap off len nops :
  tokens_of coal (ops ++ [ONested cap off len nops])
  = tokens_of coal ops ++ map (shift_token off) (tokens_of coal nops).
Proof.
  unfold tokens_of. rewrite rtokens_app. cbn [rtokens].
  rewrite out_op_rtokens_nested, rev_app_distr, map_rev. reflexivity.
Qed.

(** In-bounds operations give in-bounds tokens, in whatever order. *)
Lemma tokens_of_bounded coal ops n : Forall (op_bounds n) ops ->
  forall t, In t (tokens_of coal ops) -> tk_end t <= n.
Proof.
  assert (GA : forall f acc begin len ty m, (forall t, In t acc -> tk_end t <= m) ->
    begin + len <= m -> forall t, In t (add_token coal f acc begin len ty) -> tk_end t <= m).
  { intros f acc begin len ty m Ha Hb t. unfold add_token. destruct acc as [|u r].
    - intros [<-|[]]. exact Hb.
    - destruct ((f || coal) && (tk_type u =? ty)%N && (tk_begin u + tk_len u =? begin)) eqn:E.
      + apply andb_true_iff in E. destruct E as [_ E]. apply Nat.eqb_eq in E.
        intros [<-|Hi]; [unfold tk_end; simpl; lia|apply Ha; now right].
      + intros [<-|Hi]; [exact Hb|apply Ha; exact Hi]. }
  assert (GO : forall o m acc, op_bounds m o -> (forall t, In t acc -> tk_end t <= m) ->
    forall t, In t (out_op_rtokens coal acc o) -> tk_end t <= m).
  { induction o as [begin len ty f|cap off len nops IH] using out_op_ind2; intros m acc Hb Ha.
    - cbn [out_op_rtokens]. apply GA; [exact Ha|apply Hb].
    - apply op_bounds_nested in Hb. destruct Hb as [[Hoff _] Hops].
      rewrite out_op_rtokens_nested. intros t Ht. apply in_app_iff in Ht.
      destruct Ht as [Ht|Ht]; [|now apply Ha].
      apply in_map_iff in Ht. destruct Ht as (u & <- & Hu).
      assert (Hlen : tk_end u <= len).
      { assert (G : forall a, (forall v, In v a -> tk_end v <= len) ->
                forall v, In v (rtokens coal a nops) -> tk_end v <= len).
        { clear Hu. induction nops as [|o nops IHn]; intros a Hac; cbn [rtokens]; [exact Hac|].
          apply IHn; [now apply Forall_inv_tail in IH|now apply Forall_inv_tail in Hops|].
          apply (Forall_inv IH); [exact (Forall_inv Hops)|exact Hac]. }
        apply (G []); [intros v []|exact Hu]. }
      unfold tk_end in *. simpl. lia. }
  intros H.
  assert (G : forall a, (forall v, In v a -> tk_end v <= n) ->
              forall v, In v (rtokens coal a ops) -> tk_end v <= n).
  { induction H as [|o ops Ho _ IH]; intros a Ha; cbn [rtokens]; [exact Ha|].
    apply IH. now apply GO. }
  unfold tokens_of. intros t Ht. apply in_rev in Ht. apply (G []); [intros v []|exact Ht].
Qed.
