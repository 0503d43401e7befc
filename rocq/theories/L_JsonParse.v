(** * The JSON parser against the grammar: reasoning rules, whitespace, strings. *)
From Coq Require Import List NArith ZArith Bool Arith Lia.
From Verif Require Import M_Base L_Base M_Emit M_Types M_Chars M_Parse L_Parse S_Utf8 M_Utf8 L_Utf8b M_Api
  M_Highlighter M_Json S_Json L_JsonNum L_JsonText.
Import ListNotations.

(** Outcome of [m] from [st]: result and state in [Q], or failure in [F]. *)
Definition tri {S A} (m : M S A) (Q : A -> hst S -> Prop) (F : failure -> Prop) (st : hst S) : Prop :=
  match m st with Ok (a, st') => Q a st' | Fail f => F f end.

Section Rules.
Context {S : Type}.
Implicit Types (F : failure -> Prop) (st : hst S).

Lemma tri_mono {A} (m : M S A) (P Q : A -> hst S -> Prop) F st : tri m P F st ->
  (forall a st', P a st' -> Q a st') -> tri m Q F st.
Proof. unfold tri. destruct (m st) as [[a st']|]; auto. Qed.
Lemma tri_weaken {A} (m : M S A) (Q : A -> hst S -> Prop) F F' st : tri m Q F st ->
  (forall f, F f -> F' f) -> tri m Q F' st.
Proof. unfold tri. destruct (m st) as [[a st']|]; auto. Qed.
Lemma tri_bind {A B} (m : M S A) (k : A -> M S B) (Q : B -> hst S -> Prop) F st :
  tri m (fun a st' => tri (k a) Q F st') F st -> tri (bindM m k) Q F st.
Proof. unfold tri, bindM. destruct (m st) as [[a st']|]; auto. Qed.
Lemma tri_ret {A} (a : A) (Q : A -> hst S -> Prop) F st : Q a st -> tri (ret a) Q F st.
Proof. auto. Qed.
Lemma tri_fail {A} f (Q : A -> hst S -> Prop) F st : F f -> tri (fail f) Q F st.
Proof. auto. Qed.
Lemma tri_lift {A} (r : res A) a (Q : A -> hst S -> Prop) F st : r = Ok a -> Q a st -> tri (lift r) Q F st.
Proof. intros ->. auto. Qed.
Lemma tri_get_rem (Q : str -> hst S -> Prop) F st : Q (rem st) st -> tri get_rem Q F st.
Proof. auto. Qed.
Lemma tri_eof (Q : bool -> hst S -> Prop) F st :
  (rem st = [] -> Q true st) -> (rem st <> [] -> Q false st) -> tri eof Q F st.
Proof.
  intros H1 H2. unfold tri, eof. destruct (rem st) eqn:E; [apply H1|apply H2; discriminate]; reflexivity.
Qed.
Lemma tri_if {A} (b : bool) (m1 m2 : M S A) (Q : A -> hst S -> Prop) F st :
  (b = true -> tri m1 Q F st) -> (b = false -> tri m2 Q F st) -> tri (if b then m1 else m2) Q F st.
Proof. destruct b; auto. Qed.
Lemma tri_check b f (Q : unit -> hst S -> Prop) F st : b = true -> Q tt st -> tri (checkM b f) Q F st.
Proof. intros ->. auto. Qed.
Lemma tri_at s i (Q : N -> hst S -> Prop) F st : i < length s ->
  (forall c, nth_error s i = Some c -> Q c st) -> tri (at_ s i) Q F st.
Proof.
  intros H HQ. unfold at_. destruct (nth_error s i) eqn:E.
  - apply tri_ret. auto.
  - apply nth_error_None in E. lia.
Qed.

Lemma tri_hloop {A B} (body : A -> M S (A + B)) (Inv : A -> hst S -> Prop) (mu : A -> hst S -> nat)
    (Q : B -> hst S -> Prop) F a st :
  Inv a st -> mu a st <= length (rem st) ->
  (forall a st, Inv a st ->
     tri (body a) (fun r st' => match r with
                                | inl a' => Inv a' st' /\ mu a' st' < mu a st
                                | inr b => Q b st'
                                end) F st) ->
  tri (hloop 1 body a) Q F st.
Proof.
  intros Ha Hm Hb.
  assert (I : forall fuel a st, Inv a st -> mu a st < fuel -> tri (iter fuel body a) Q F st).
  { induction fuel as [|n IH]; intros a0 st0 H0 Hf; [lia|]. cbn [iter]. apply tri_bind.
    eapply tri_mono; [apply Hb; exact H0|]. intros [a'|b] st' H; cbn beta iota in H.
    - apply IH; [tauto|lia].
    - apply tri_ret. exact H. }
  unfold hloop. unfold tri in *. apply I; [exact Ha|lia].
Qed.
End Rules.

Section Parser.
Variable src : str.
Variable o : json_options.
Notation pos := (position_of src).
Notation blank := lenient_blank.

(** ** Positions *)
Definition At (i : nat) (st : hst pstate) : Prop :=
  i <= length src /\ rem st = skipn i src /\ ps_pos (loc st) = pos i.

Lemma firstn_plus i s r : skipn i src = s ++ r -> firstn (i + length s) src = firstn i src ++ s.
Proof.
  intros H. rewrite <- (firstn_skipn i src) at 1. rewrite H.
  destruct (Nat.le_gt_cases i (length src)) as [L|L].
  - rewrite firstn_app, firstn_length_le by assumption.
    replace (i + length s - i) with (length s) by lia. rewrite firstn_app_exact. f_equal.
    rewrite firstn_all2; [reflexivity|]. rewrite firstn_length_le by assumption. lia.
  - rewrite skipn_all2 in H by lia. symmetry in H. apply app_eq_nil in H as [-> ->]. cbn.
    rewrite !app_nil_r. apply firstn_all2. rewrite firstn_length. lia.
Qed.

Lemma pos_plus i s r : skipn i src = s ++ r -> pos (i + length s) = fold_left after s (pos i).
Proof. intros H. unfold position_of. rewrite (firstn_plus i s r H), fold_left_app. reflexivity. Qed.

Lemma fold_same_line s p : Forall (fun c => c <> 10%N) s ->
  fold_left after s p = mk_position (code_unit p + length s) (line p) (line_code_unit p + length s).
Proof.
  intros H. revert p. induction H as [|c s Hc Hs IH]; intros [u l k]; cbn [fold_left length].
  - cbn. rewrite !Nat.add_0_r. reflexivity.
  - rewrite IH. apply N.eqb_neq in Hc. unfold after. rewrite Hc. cbn. f_equal; lia.
Qed.

(** ** Progress of the parser *)
Definition truthful (e : event) : Prop := is_block_comment e \/ located src e.
Definition good (e : event) : Prop := truthful e /\ ~ is_error e.

(** From offset [i] to [j] over the text [s], making the calls [evs]. *)
Definition ran (i j : nat) (s : str) (st st' : hst pstate) (evs : list event) : Prop :=
  At i st /\ At j st' /\ j = i + length s /\ rem st = s ++ rem st'
  /\ ps_events (loc st') = rev evs ++ ps_events (loc st) /\ Forall good evs.

Lemma ran_refl i st : At i st -> ran i i [] st st [].
Proof.
  intros H. split; [exact H|]. split; [exact H|]. split; [cbn; lia|]. repeat split. constructor.
Qed.
Lemma ran_trans i j k s1 s2 st st1 st2 e1 e2 :
  ran i j s1 st st1 e1 -> ran j k s2 st1 st2 e2 -> ran i k (s1 ++ s2) st st2 (e1 ++ e2).
Proof.
  intros (A1 & B1 & C1 & D1 & E1 & F1) (A2 & B2 & C2 & D2 & E2 & F2).
  split; [exact A1|]. split; [exact B2|]. split; [rewrite app_length; lia|].
  split; [rewrite D1, D2, app_assoc; reflexivity|].
  split; [rewrite E2, E1, rev_app_distr, app_assoc; reflexivity|]. apply Forall_app. auto.
Qed.
Lemma ran_At i j s st st' evs : ran i j s st st' evs -> At j st'.
Proof. intros H. apply H. Qed.
Lemma ran_j i j s st st' evs : ran i j s st st' evs -> j = i + length s.
Proof. intros H. apply H. Qed.
Lemma ran_len i j s st st' evs : ran i j s st st' evs ->
  length (rem st') = length (rem st) - length s /\ length s <= length (rem st).
Proof. intros (_ & _ & _ & D & _). rewrite D, app_length. lia. Qed.

Lemma At_text i st s r : At i st -> rem st = s ++ r -> skipn i src = s ++ r.
Proof. intros (_ & H & _) E. rewrite <- H. exact E. Qed.

Lemma At_next i st s r : At i st -> rem st = s ++ r ->
  i + length s <= length src /\ r = skipn (i + length s) src.
Proof.
  intros (L & H & _) E. rewrite H in E. split.
  - apply (f_equal (@length N)) in E. rewrite app_length, skipn_length in E. lia.
  - rewrite <- skipn_skipn, E, skipn_app_exact. reflexivity.
Qed.

Lemma At_located i st e r : At i st -> rem st = event_text e ++ r -> event_position e = pos i ->
  located src e.
Proof.
  intros (L & H & _) E P. exists (firstn i src), r. split.
  - rewrite <- E, H, firstn_skipn. reflexivity.
  - rewrite firstn_length_le by assumption. exact P.
Qed.

Lemma tri_line n i s r (Q : unit -> hst pstate -> Prop) F st : At i st -> rem st = s ++ r ->
  n = length s -> Forall (fun c => c <> 10%N) s ->
  (forall st', ran i (i + n) s st st' [] -> rem st' = r -> Q tt st') ->
  tri (advance_on_same_line n) Q F st.
Proof.
  intros A E -> NL H. unfold tri, advance_on_same_line, drop_prefix.
  assert (L : (length s <=? length (rem st)) = true) by (apply Nat.leb_le; rewrite E, app_length; lia).
  rewrite L. destruct (At_next i st s r A E) as [L1 L2].
  apply H; [|cbn [rem]; rewrite E; apply skipn_app_exact].
  split; [exact A|]. split.
  { split; [exact L1|]. cbn [rem loc ps_pos]. split; [rewrite E, skipn_app_exact; exact L2|].
    rewrite (pos_plus i s r (At_text i st s r A E)), fold_same_line by assumption.
    destruct A as (_ & _ & ->). reflexivity. }
  split; [reflexivity|]. cbn [rem loc ps_events]. split; [rewrite E at 2; rewrite skipn_app_exact; exact E|].
  split; [reflexivity|constructor].
Qed.

Lemma tri_visit i f (Q : unit -> hst pstate -> Prop) F st : At i st -> good (f (pos i)) ->
  (forall st', ran i i [] st st' [f (pos i)] -> rem st' = rem st -> Q tt st') ->
  tri (visit f) Q F st.
Proof.
  intros A G H. unfold visit, tri, bindM, get_loc, set_loc.
  assert (E : ps_pos (loc st) = pos i) by apply A. rewrite E.
  apply H; [|reflexivity]. split; [exact A|]. split.
  { destruct A as (A1 & A2 & A3). repeat split; assumption. }
  split; [cbn; lia|]. split; [reflexivity|]. split; [reflexivity|]. constructor; [exact G|constructor].
Qed.

Lemma tri_p_error i e (Q : unit -> hst pstate -> Prop) F st : At i st ->
  (forall st', ps_events (loc st') = EvError (pos i) e :: ps_events (loc st) -> Q tt st') ->
  tri (p_error e) Q F st.
Proof.
  intros A H. unfold p_error, visit, tri, bindM, get_loc, set_loc.
  apply H. cbn [loc ps_events]. destruct A as (_ & _ & ->). reflexivity.
Qed.

Lemma find_ch0 s c : find_ch s c 0 = find_if (fun x => (x =? c)%N) s.
Proof. unfold find_ch, find_if_from. cbn [skipn]. destruct (find_if _ s); reflexivity. Qed.

Lemma fold_line s p : Forall (fun c => c <> 10%N) s ->
  fold_left after (s ++ [10%N]) p = mk_position (code_unit p + (length s + 1)) (line p + 1) 0.
Proof.
  intros H. rewrite fold_left_app, (fold_same_line s) by assumption. cbn. f_equal. lia.
Qed.

Lemma tri_advance_loop fuel : forall n i s r (Q : unit -> hst pstate -> Prop) F st,
  At i st -> rem st = s ++ r -> n = length s -> n < fuel ->
  (forall st', ran i (i + n) s st st' [] -> rem st' = r -> Q tt st') ->
  tri (p_advance_loop fuel n) Q F st.
Proof.
  induction fuel as [|fuel IH]; intros n i s r Q F st A E En Hf H; [lia|].
  cbn [p_advance_loop]. apply tri_if; intros E0.
  { apply Nat.eqb_eq in E0. apply tri_ret. apply H.
    - destruct s; [|cbn in En; lia]. subst n. rewrite E0, Nat.add_0_r. apply ran_refl. exact A.
    - destruct s; [exact E|cbn in En; lia]. }
  apply tri_bind, tri_get_rem. rewrite E. subst n. rewrite firstn_app_exact, find_ch0.
  destruct (find_if _ s) as [k|] eqn:Fk.
  - destruct (find_if_split _ _ _ Fk) as (a & x & b & Es & La & Hx & Hall). apply N.eqb_eq in Hx. subst x.
    assert (Na : Forall (fun c => c <> 10%N) a).
    { apply Forall_forall. intros c Hc. apply N.eqb_neq. auto. }
    assert (Es' : s = (a ++ [10%N]) ++ b) by (rewrite <- app_assoc; exact Es).
    assert (L1 : length (a ++ [10%N]) = k + 1) by (rewrite app_length; cbn; lia).
    assert (E1 : rem st = (a ++ [10%N]) ++ (b ++ r)) by (rewrite E, Es', <- app_assoc; reflexivity).
    assert (Ls : length s = k + 1 + length b) by (rewrite Es', app_length; lia).
    destruct (At_next _ _ _ _ A E1) as [N1 N2].
    apply tri_bind. unfold tri at 1, drop_prefix.
    assert (L2 : (k + 1 <=? length (rem st)) = true).
    { apply Nat.leb_le. rewrite E1, app_length. lia. }
    rewrite L2. set (st1 := mk_hst _ _ _ _).
    assert (R : rem st1 = b ++ r).
    { subst st1. cbn [rem]. rewrite E1, <- L1, skipn_app_exact. reflexivity. }
    assert (A1 : At (i + (k + 1)) st1).
    { split; [lia|]. split; [rewrite R, <- L1; exact N2|]. subst st1. cbn [loc ps_pos].
      rewrite <- L1, (pos_plus _ _ _ (At_text _ _ _ _ A E1)), fold_line by assumption.
      destruct A as (_ & _ & ->). rewrite La, L1. reflexivity. }
    apply tri_bind, tri_check; [apply Nat.leb_le; lia|].
    eapply (IH (length s - (k + 1)) (i + (k + 1)) b r); [exact A1|exact R|lia|lia|].
    intros st' Hr Hrem. apply H; [|exact Hrem].
    assert (R1 : ran i (i + (k + 1)) (a ++ [10%N]) st st1 []).
    { split; [exact A|]. split; [exact A1|]. split; [lia|]. split; [rewrite R; exact E1|].
      split; [reflexivity|constructor]. }
    pose proof (ran_trans _ _ _ _ _ _ _ _ _ _ R1 Hr) as X. rewrite <- Es' in X.
    replace (i + length s) with (i + (k + 1) + (length s - (k + 1))) by lia. exact X.
  - eapply tri_line; [exact A|exact E|reflexivity| |exact H].
    apply Forall_forall. intros c Hc ->. apply find_if_None with (x := 10%N) in Fk; [discriminate|exact Hc].
Qed.

Lemma tri_advance n i s r (Q : unit -> hst pstate -> Prop) F st :
  At i st -> rem st = s ++ r -> n = length s ->
  (forall st', ran i (i + n) s st st' [] -> rem st' = r -> Q tt st') ->
  tri (p_advance n) Q F st.
Proof. intros A E En H. unfold p_advance. eapply tri_advance_loop; eauto. lia. Qed.

(** ** Failure *)
Definition stuck : Prop := exists i, i <= length src /\ value_missing (skipn i src).
Definition stopped (st st' : hst pstate) : Prop :=
  exists evs tail, ps_events (loc st') = rev (evs ++ tail) ++ ps_events (loc st) /\ Forall good evs
    /\ (tail = [] /\ stuck \/ exists j e, j <= length src /\ tail = [EvError (pos j) e]).
Definition broken (f : failure) : Prop := f = FDebugAssert /\ key_missing o src.

Lemma stopped_after i j s st st1 st2 evs : ran i j s st st1 evs -> stopped st1 st2 -> stopped st st2.
Proof.
  intros (_ & _ & _ & _ & E & G) (evs' & tail & E' & G' & T). exists (evs ++ evs'), tail.
  split; [|split; [apply Forall_app; auto|exact T]].
  rewrite E', E. rewrite <- (app_assoc evs), (rev_app_distr evs), <- (app_assoc _ (rev evs)). reflexivity.
Qed.

Lemma stopped_error i st st' e : At i st -> ps_events (loc st') = EvError (pos i) e :: ps_events (loc st) ->
  stopped st st'.
Proof.
  intros (A & _) E. exists [], [EvError (pos i) e]. split; [exact E|]. split; [constructor|].
  right. eauto.
Qed.

Lemma stopped_stuck i st : At i st -> value_missing (rem st) -> stopped st st.
Proof.
  intros (A & B & _) V. exists [], []. split; [reflexivity|]. split; [constructor|]. left.
  split; [reflexivity|]. exists i. rewrite <- B. auto.
Qed.

(** ** Results: [G] is the construct recognised. *)
Definition recognised (loose : bool) (G : nat -> str -> list event -> Prop) (i : nat) (st st' : hst pstate) : Prop :=
  exists j s spec evs, ran i j s st st' evs /\ G i s spec /\ Forall2 (reported loose) spec evs.
Definition post (G : nat -> str -> list event -> Prop) (i : nat) (st : hst pstate) (b : bool) (st' : hst pstate) : Prop :=
  if b then recognised true G i st st' else stopped st st'.

Lemma reported_refl l evs : Forall2 (reported l) evs evs.
Proof. induction evs; constructor; auto. constructor. Qed.

(** ** Whitespace and comments *)
Notation jws' := (jws blank o pos).
Notation jws_end' := (jws_end blank o pos).

Lemma jws_app i a ea : jws' i a ea -> forall b eb, jws' (i + length a) b eb -> jws' i (a ++ b) (ea ++ eb).
Proof.
  induction 1 as [i|i c w e Hc Hw IH|i t c w e Ho Ht Hc Hw IH|i t w e Ho Ht Hw IH]; intros b eb Hb.
  - cbn in *. rewrite Nat.add_0_r in Hb. exact Hb.
  - cbn [app]. constructor; [exact Hc|]. apply IH. cbn [length] in Hb.
    replace (i + 1 + length w) with (i + S (length w)) by lia. exact Hb.
  - rewrite <- app_assoc. cbn [app]. constructor; auto. apply IH. rewrite app_length in Hb.
    rewrite <- Nat.add_assoc. exact Hb.
  - rewrite <- app_assoc. cbn [app]. constructor; auto. apply IH. rewrite app_length in Hb.
    rewrite <- Nat.add_assoc. exact Hb.
Qed.

Lemma jws_blanks w : Forall blank w -> forall i, jws' i w [].
Proof. induction 1 as [|c w Hc Hw IH]; intros i; constructor; auto. Qed.

(** What whitespace consumption gives. *)
Definition ws_done (i : nat) (st : hst pstate) (st' : hst pstate) : Prop :=
  exists j s spec evs, ran i j s st st' evs /\ Forall2 (reported true) spec evs
    /\ (jws' i s spec \/ jws_end' i s spec /\ (rem st' = [] \/ starts_with_ch (rem st') 0xE2 = true))
    /\ unless_head blank (rem st').
Definition ws_post (i : nat) (st : hst pstate) (b : bool) (st' : hst pstate) : Prop :=
  if b then ws_done i st st' else stopped st st'.

Lemma line_comment_no_lf t : line_comment t -> Forall (fun c => c <> 10%N) t.
Proof.
  intros (body & -> & H). apply Forall_app. split.
  - repeat (apply Forall_cons; [discriminate|]). apply Forall_nil.
  - apply Forall_forall. intros c Hc ->. apply in_split in Hc as (a & b & ->).
    apply (H [10%N]); [cbn; auto|]. exists a, b. reflexivity.
Qed.

Lemma good_line i st t r : At i st -> rem st = t ++ r -> good (EvLineComment (pos i) t).
Proof.
  intros A E. split; [right; eapply At_located; [exact A|exact E|reflexivity]|exact (fun x => x)].
Qed.

Lemma tri_ws i st : At i st -> tri (p_ws o) (ws_post i st) broken st.
Proof.
  intros A. unfold p_ws. apply tri_if; intros Ec.
  { apply tri_bind, tri_get_rem. destruct (match_whitespace_spec (rem st)) as (w & r & E & L & B & U).
    rewrite <- L. apply tri_bind. eapply tri_advance; [exact A|exact E|reflexivity|].
    intros st' R Hr. apply tri_ret. exists (i + length w), w, [], [].
    split; [exact R|]. split; [constructor|]. split; [left; apply jws_blanks; exact B|]. rewrite Hr. exact U. }
  apply negb_false_iff in Ec.
  (* pending: a line comment has just been read *)
  apply tri_hloop with
    (Inv := fun _ st1 => exists j s spec evs, ran i j s st st1 evs /\ Forall2 (reported true) spec evs
       /\ (jws' i s spec
           \/ exists w e t, s = w ++ t /\ spec = e ++ [EvLineComment (pos (i + length w)) t]
              /\ jws' i w e /\ line_comment t
              /\ (rem st1 = [] \/ starts_with_line_terminator (rem st1) = true)))
    (mu := fun _ st1 => length (rem st1)).
  - exists i, [], [], []. split; [apply ran_refl; exact A|]. split; [constructor|]. left. constructor.
  - lia.
  - intros _ st1 (j & s & spec & evs & R & Rep & Hs).
    apply tri_bind, tri_get_rem. destruct (match_whitespace_spec (rem st1)) as (w & r & E & L & B & U).
    rewrite <- L. pose proof (ran_At _ _ _ _ _ _ R) as A1.
    apply tri_bind. eapply tri_advance; [exact A1|exact E|reflexivity|].
    intros st2 R2 Hr2. pose proof (ran_At _ _ _ _ _ _ R2) as A2.
    pose proof (ran_trans _ _ _ _ _ _ _ _ _ _ R R2) as R'. rewrite app_nil_r in R'.
    pose proof (ran_j _ _ _ _ _ _ R) as Ej.
    (* after the blanks: whitespace, or a pending line comment *)
    assert (Hs' : jws' i (s ++ w) spec
      \/ w = [] /\ jws_end' i (s ++ w) spec /\ (rem st2 = [] \/ starts_with_ch (rem st2) 0xE2 = true)).
    { destruct Hs as [Hs|(w0 & e0 & t & -> & -> & Hw & Ht & Hrem)].
      - left. rewrite <- (app_nil_r spec). apply jws_app; [exact Hs|]. apply jws_blanks. exact B.
      - destruct w as [|c w].
        + right. split; [reflexivity|]. rewrite app_nil_r. split; [apply ws_end_line; assumption|].
          rewrite Hr2. cbn in E. rewrite E in Hrem. destruct Hrem as [->|Hrem]; [left; reflexivity|right].
          apply terminator_iff in Hrem as (l & t' & Hl & El).
          rewrite El in U |- *. destruct Hl as [<-|[<-|[<-|[<-|[]]]]]; cbn in U |- *; try reflexivity.
          * exfalso. apply U. left. cbn. auto.
          * exfalso. apply U. left. cbn. auto.
        + left. rewrite <- app_assoc. apply jws_app; [exact Hw|]. constructor; auto.
          * destruct Hrem as [Hrem|Hrem]; [rewrite Hrem in E; discriminate|].
            apply terminator_iff in Hrem as (l & t' & Hl & El). rewrite E in El.
            destruct Hl as [<-|[<-|[<-|[<-|[]]]]]; cbn in El; injection El as -> _; cbn; auto;
              exfalso; inversion B as [|? ? Bc _]; destruct Bc as [Bc|Bc]; try discriminate Bc;
              destruct Bc as [Bc|[Bc|[Bc|[Bc|[]]]]]; discriminate Bc.
          * apply jws_blanks. exact B. }
    apply tri_bind, tri_get_rem. apply tri_if; intros E1.
    { (* line comment *)
      unfold p_line_comment. apply tri_bind, tri_bind, tri_get_rem.
      assert (Hm : match_line_comment (rem st2) <> 0).
      { unfold match_line_comment. rewrite E1. cbn. discriminate. }
      apply Nat.eqb_neq in Hm as Hm'. rewrite Hm'. cbn [negb].
      destruct (match_line_comment_spec _ Hm) as (t & r' & Et & Lt & Ct & Tr). rewrite <- Lt.
      replace (firstn (length t) (rem st2)) with t by (rewrite Et; symmetry; apply firstn_app_exact).
      apply tri_bind. eapply tri_visit; [exact A2| |].
      { eapply good_line; [exact A2|exact Et]. }
      intros st3 R3 Hr3. apply tri_bind. rewrite Et in Hr3.
      eapply tri_line; [apply (ran_At _ _ _ _ _ _ R3)|exact Hr3|reflexivity|apply line_comment_no_lf; exact Ct|].
      intros st4 R4 Hr4. apply tri_ret. apply tri_ret. cbn [negb].
      pose proof (ran_trans _ _ _ _ _ _ _ _ _ _ R' (ran_trans _ _ _ _ _ _ _ _ _ _ R3 R4)) as R5.
      split.
      - eexists _, _, (spec ++ [EvLineComment (pos (i + length (s ++ w))) t]), _. split; [exact R5|]. split.
        + apply Forall2_app; [exact Rep|]. cbn [app].
          pose proof (ran_j _ _ _ _ _ _ R') as Ej'. rewrite Ej'. apply reported_refl.
        + right. exists (s ++ w), spec, t. rewrite app_nil_l. split; [reflexivity|]. split; [reflexivity|].
          split; [|split; [exact Ct|rewrite Hr4; exact Tr]].
          destruct Hs' as [Hs'|(Ew & He & Hrem)]; [exact Hs'|exfalso].
          destruct Hrem as [Hrem|Hrem]; rewrite Et in Hrem; destruct Ct as (body & -> & _).
          * discriminate Hrem.
          * discriminate Hrem.
      - apply ran_len in R2, R4. assert (0 < length t) by (rewrite Lt; lia).
        apply ran_len in R3. cbn in R3. lia. }
    apply tri_if; intros E2.
    { (* block comment *)
      unfold p_block_comment. apply tri_bind, tri_bind, tri_get_rem.
      assert (Hm : en_length (match_block_comment (rem st2)) <> 0).
      { unfold match_block_comment. rewrite E2. cbn [negb].
        destruct (find_str _ _ _); cbn [en_length]; [lia|]. destruct (rem st2); [discriminate|cbn; lia]. }
      apply Nat.eqb_neq in Hm as Hm'. rewrite Hm'. cbn [negb].
      apply tri_if; intros Et.
      { apply tri_bind. eapply tri_p_error; [exact A2|]. intros st3 E3. apply tri_ret. apply tri_ret. cbn.
        eapply stopped_after; [exact R'|]. eapply stopped_error; eassumption. }
      apply negb_false_iff in Et.
      destruct (match_block_comment_spec _ Hm Et) as (t & r' & Er & Lt & Ct). rewrite <- Lt.
      apply tri_bind. eapply tri_advance; [exact A2|exact Er|reflexivity|].
      intros st3 R3 Hr3. apply tri_bind, tri_get_rem. apply tri_bind. eapply tri_visit.
      { apply (ran_At _ _ _ _ _ _ R3). }
      { split; [left; exact I|exact (fun x => x)]. }
      intros st4 R4 Hr4. apply tri_ret. apply tri_ret. cbn [negb].
      pose proof (ran_trans _ _ _ _ _ _ _ _ _ _ R' (ran_trans _ _ _ _ _ _ _ _ _ _ R3 R4)) as R5.
      split.
      - eexists _, _, (spec ++ [EvBlockComment (pos (i + length (s ++ w))) t]), _. split; [exact R5|]. split.
        + apply Forall2_app; [exact Rep|]. cbn [app]. constructor; [constructor|constructor].
        + left. rewrite app_nil_r. apply jws_app.
          * destruct Hs' as [Hs'|(Ew & He & Hrem)]; [exact Hs'|exfalso].
            destruct Hrem as [Hrem|Hrem]; rewrite Er in Hrem; destruct Ct as (body & -> & _); discriminate Hrem.
          * rewrite <- (app_nil_r t) at 1. constructor; auto. constructor.
      - apply ran_len in R2, R3, R4. cbn in R4. assert (0 < length t) by (rewrite Lt; lia). lia. }
    apply tri_ret. cbn. exists (j + length w), (s ++ w), spec, evs. split; [exact R'|]. split; [exact Rep|].
    split; [|rewrite Hr2; exact U]. destruct Hs' as [Hs'|(Ew & He & Hrem)]; [left; exact Hs'|right; auto].
Qed.

(** ** Strings *)
Notation jchars' := (jchars o pos).

Definition an_escape (i : nat) (s : str) (spec : list event) : Prop :=
  exists v e, json_escape s v /\ escape_event o (pos i) s v e /\ spec = [e].

Lemma tri_escape i st : At i st -> tri (p_escape o) (post an_escape i st) broken st.
Proof.
  intros A. unfold p_escape. apply tri_bind, tri_get_rem. apply tri_bind.
  set (parse := match jo_escapes o with esc_none => false | _ => true end).
  destruct (match_escape_spec (rem st) parse) as [(t & r & v & E & Ht & ->)|(n & -> & L)].
  - eapply tri_lift; [reflexivity|].
    destruct (escape_head _ _ Ht) as (r' & _ & NL & L). replace (length t =? 0) with false by (symmetry; apply Nat.eqb_neq; lia).
    replace (firstn (length t) (rem st)) with t by (rewrite E; symmetry; apply firstn_app_exact).
    set (f := fun p : position => _).
    assert (Hf : escape_event o (pos i) t v (f (pos i))).
    { subst f. unfold escape_event, parse. cbv beta. destruct (jo_escapes o); try reflexivity.
      rewrite encode8_eq; [reflexivity|]. pose proof (escape_value_bound _ _ Ht). lia. }
    assert (G : good (f (pos i))).
    { split; [right|].
      - eapply At_located; [exact A| |].
        + rewrite E. instantiate (1 := r). f_equal. unfold f. destruct (jo_escapes o); reflexivity.
        + unfold f. destruct (jo_escapes o); reflexivity.
      - unfold f. destruct (jo_escapes o); exact (fun x => x). }
    apply tri_bind. eapply tri_visit; [exact A|exact G|]. intros st1 R1 Hr1. rewrite E in Hr1.
    apply tri_bind. eapply tri_line; [apply (ran_At _ _ _ _ _ _ R1)|exact Hr1|reflexivity|exact NL|].
    intros st2 R2 Hr2. apply tri_ret. pose proof (ran_trans _ _ _ _ _ _ _ _ _ _ R1 R2) as R.
    eexists _, _, _, _. split; [exact R|]. split; [|apply reported_refl].
    exists v, (f (pos i)). auto.
  - eapply tri_lift; [reflexivity|]. apply tri_bind. eapply tri_p_error; [exact A|].
    intros st' E. apply tri_ret. eapply stopped_error; eassumption.
Qed.

Lemma unescaped_no_lf l : Forall unescaped l -> Forall (fun c => c <> 10%N) l.
Proof. apply Forall_impl. intros c [H _] ->. lia. Qed.

Lemma tri_flush i st l r (Q : unit -> hst pstate -> Prop) F : At i st -> rem st = l ++ r -> Forall unescaped l ->
  (forall st' evs, ran i (i + length l) l st st' evs -> rem st' = r ->
     evs = match l with [] => [] | _ => [EvLiteral (pos i) l] end -> Q tt st') ->
  tri (p_flush (length l)) Q F st.
Proof.
  intros A E U H. unfold p_flush. destruct l as [|c l]; cbn [length Nat.eqb negb].
  - apply tri_ret. apply (H _ []); [|exact E|reflexivity]. cbn. rewrite Nat.add_0_r. apply ran_refl. exact A.
  - apply tri_bind, tri_get_rem. change (S (length l)) with (length (c :: l)).
    replace (firstn (length (c :: l)) (rem st)) with (c :: l) by (rewrite E; symmetry; apply firstn_app_exact).
    apply tri_bind. eapply tri_visit; [exact A| |].
    { split; [right; eapply At_located; [exact A|exact E|reflexivity]|exact (fun x => x)]. }
    intros st1 R1 Hr1. rewrite E in Hr1.
    eapply tri_line; [apply (ran_At _ _ _ _ _ _ R1)|exact Hr1|reflexivity|apply unescaped_no_lf; exact U|].
    intros st2 R2 Hr2. eapply H; [|exact Hr2|reflexivity].
    exact (ran_trans _ _ _ _ _ _ _ _ _ _ R1 R2).
Qed.

Lemma rem_nth (st : hst pstate) i c s r : rem st = s ++ r -> i = length s -> nth_error (rem st) i = Some c -> exists r', r = c :: r'.
Proof.
  intros E -> H. rewrite E, nth_error_app2, Nat.sub_diag in H by lia. destruct r as [|x r]; [discriminate|].
  injection H as ->. eauto.
Qed.

Definition push_ev (property : bool) (p : position) := if property then EvPushProperty p else EvPushString p.
Definition pop_ev (property : bool) (p : position) := if property then EvPopProperty p else EvPopString p.
Definition a_string (property : bool) (i : nat) (s : str) (spec : list event) : Prop :=
  exists k es, s = [34%N] ++ k ++ [34%N] /\ jchars' (i + 1) k es
    /\ spec = [push_ev property (pos i)] ++ es ++ [pop_ev property (pos (i + 1 + length k))].

Lemma quote_no_lf : Forall (fun c => c <> 10%N) [34%N].
Proof. constructor; [discriminate|constructor]. Qed.

Lemma tri_string property i st : At i st -> starts_with_ch (rem st) 34 = true ->
  tri (p_string o property) (post (a_string property) i st) broken st.
Proof.
  intros A Hq. unfold p_string. apply tri_bind, tri_get_rem. rewrite Hq. cbn [negb].
  destruct (rem st) as [|q r0] eqn:Er; [discriminate|]. apply N.eqb_eq in Hq. subst q.
  apply tri_bind. eapply tri_visit; [exact A| |].
  { split; [right; eapply At_located; [exact A|rewrite Er; destruct property; reflexivity|destruct property; reflexivity]
           |destruct property; exact (fun x => x)]. }
  intros st1 R1 Hr1. rewrite Er in Hr1. change (34%N :: r0) with ([34%N] ++ r0) in Hr1.
  apply tri_bind. eapply tri_line; [apply (ran_At _ _ _ _ _ _ R1)|exact Hr1|reflexivity|exact quote_no_lf|].
  intros st2 R2 Hr2. pose proof (ran_trans _ _ _ _ _ _ _ _ _ _ R1 R2) as R. cbn [app] in R.
  eapply tri_mono with (P := fun b st' => if b : bool
      then exists k es j, ran (i + 1) j (k ++ [34%N]) st2 st' (es ++ [pop_ev property (pos (i + 1 + length k))])
             /\ jchars' (i + 1) k es
      else stopped st2 st').
  2:{ intros [|] st'.
      - intros (k & es & j & R3 & Hk). pose proof (ran_trans _ _ _ _ _ _ _ _ _ _ R R3) as R4.
        eexists _, _, _, _. split; [exact R4|]. split; [|apply reported_refl]. exists k, es. auto.
      - intros H. eapply stopped_after; eassumption. }
  clear R1 Hr1. apply tri_hloop with
    (Inv := fun len st3 => exists j s es l r, ran (i + 1) j s st2 st3 es
       /\ (forall t et, jchars' (i + 1 + length s) t et -> jchars' (i + 1) (s ++ t) (es ++ et))
       /\ rem st3 = l ++ r /\ length l = len /\ Forall unescaped l)
    (mu := fun len st3 => length (rem st3) - len).
  - exists (i + 1), [], [], [], r0. split; [apply ran_refl; apply R2|]. split; [|split; [exact Hr2|split; [reflexivity|constructor]]].
    intros t et H. cbn in *. rewrite Nat.add_0_r in H. exact H.
  - lia.
  - intros len st3 (j & s & es & l & r & R3 & Hj & E3 & Ll & Ul).
    pose proof (ran_At _ _ _ _ _ _ R3) as A3.
    unfold p_string_body. apply tri_bind, tri_get_rem. apply tri_if; intros Hl.
    { apply tri_bind. eapply tri_p_error; [exact A3|]. intros st' E. apply tri_ret.
      eapply stopped_after; [exact R3|]. eapply stopped_error; eassumption. }
    apply negb_false_iff, Nat.ltb_lt in Hl. apply tri_bind, tri_at; [exact Hl|]. intros c Hc.
    destruct (rem_nth _ _ _ _ _ E3 (eq_sym Ll) Hc) as (r' & ->). pose proof (ran_j _ _ _ _ _ _ R3) as Ej.
    assert (Hlit : forall t et, (forall c r, t = c :: r -> c = 92%N) -> jchars' (j + length l) t et ->
                   jchars' j (l ++ t) (match l with [] => [] | _ => [EvLiteral (pos j) l] end ++ et)).
    { intros t et Ht Hx. destruct l as [|x l]; [cbn in *; rewrite Nat.add_0_r in Hx; exact Hx|].
      cbn [app]. change (x :: l ++ t) with ((x :: l) ++ t). apply chars_literal; auto. discriminate. }
    apply tri_if; intros H1.
    { apply N.eqb_eq in H1. subst c. rewrite <- Ll.
      apply tri_bind. eapply tri_flush; [exact A3|exact E3|exact Ul|]. intros st4 ev4 R4 E4 ->.
      pose proof (ran_At _ _ _ _ _ _ R4) as A4.
      apply tri_bind. eapply tri_visit; [exact A4| |].
      { split; [right; eapply At_located; [exact A4|rewrite E4; destruct property; reflexivity|destruct property; reflexivity]
           |destruct property; exact (fun x => x)]. }
      intros st5 R5 E5. rewrite E4 in E5. change (34%N :: r') with ([34%N] ++ r') in E5.
      apply tri_bind. eapply tri_line; [apply (ran_At _ _ _ _ _ _ R5)|exact E5|reflexivity|exact quote_no_lf|].
      intros st6 R6 _. apply tri_ret. cbv beta iota.
      pose proof (ran_trans _ _ _ _ _ _ _ _ _ _ R3 (ran_trans _ _ _ _ _ _ _ _ _ _ R4 (ran_trans _ _ _ _ _ _ _ _ _ _ R5 R6))) as R7.
      specialize (Hlit [] []). specialize (Hj (l ++ []) (match l with [] => [] | _ => [EvLiteral (pos j) l] end ++ [])).
      rewrite Ej in *. assert (Hk := Hj (Hlit ltac:(discriminate) (chars_end _ _ _))).
      rewrite !app_nil_r in Hk. eexists (s ++ l), _, _. split; [|exact Hk].
      cbn [app] in R7. rewrite <- !app_assoc. rewrite app_length.
      replace (i + 1 + (length s + length l)) with (i + 1 + length s + length l) by lia. exact R7. }
    apply N.eqb_neq in H1. apply tri_if; intros H2.
    { apply N.eqb_eq in H2. change (ch "\") with 92%N in H2. subst c. rewrite <- Ll.
      apply tri_bind. eapply tri_flush; [exact A3|exact E3|exact Ul|]. intros st4 ev4 R4 E4 ->.
      pose proof (ran_At _ _ _ _ _ _ R4) as A4.
      apply tri_bind. eapply tri_mono; [apply tri_escape; exact A4|]. intros [|] st5; cbn [negb].
      - intros (j5 & t & spec & evs & R5 & (v & e & Ht & He & ->) & Rep). apply tri_ret. cbv beta iota.
        destruct (escape_head _ _ Ht) as (t' & Et & _ & Lt).
        inversion Rep as [|? e' ? ? Re Rn]; subst. inversion Rn; subst. clear Rn Rep.
        assert (e' = e). { unfold escape_event in He. destruct (jo_escapes o); subst e; inversion Re; reflexivity. }
        subst e'.
        pose proof (ran_trans _ _ _ _ _ _ _ _ _ _ R3 (ran_trans _ _ _ _ _ _ _ _ _ _ R4 R5)) as R7.
        split.
        + eexists _, _, _, [], (rem st5). split; [exact R7|]. split; [|repeat split; constructor].
          intros t0 et0 H0. rewrite <- !app_assoc. apply Hj. apply Hlit.
          * intros c1 r1 Ec. cbn in Ec. congruence.
          * rewrite !app_length in H0. change ([e] ++ et0) with (e :: et0). eapply chars_escape; [exact Ht|exact He|].
            match type of H0 with jchars _ _ ?p _ _ => match goal with |- jchars _ _ ?q _ _ => replace q with p by lia end end. exact H0.
        + apply ran_len in R5, R4. lia.
      - intros H. apply tri_ret. eapply stopped_after; [exact R3|]. eapply stopped_after; eassumption. }
    apply N.eqb_neq in H2. apply tri_if; intros H3.
    { rewrite <- Ll. apply tri_bind. eapply tri_flush; [exact A3|exact E3|exact Ul|]. intros st4 ev4 R4 E4 ->.
      pose proof (ran_At _ _ _ _ _ _ R4) as A4.
      apply tri_bind. eapply tri_p_error; [exact A4|]. intros st' E. apply tri_ret.
      eapply stopped_after; [exact R3|]. eapply stopped_after; [exact R4|]. eapply stopped_error; eassumption. }
    apply N.ltb_ge in H3. apply tri_ret. split; [|lia].
    exists j, s, es, (l ++ [c]), r'. split; [exact R3|]. split; [exact Hj|].
    split; [rewrite E3, <- app_assoc; reflexivity|]. split; [rewrite app_length; cbn; lia|].
    apply Forall_app. split; [exact Ul|]. constructor; [|constructor]. split; [exact H3|].
    change (ch "\") with 92%N in H2. auto.
Qed.

(** ** Numbers *)
Definition a_number (i : nat) (s : str) (spec : list event) : Prop :=
  json_number s /\ spec = [number_event o (pos i) s].

Lemma number_no_lf t : json_number t -> Forall (fun c => c <> 10%N) t.
Proof.
  assert (D : forall s, digits1 s -> Forall (fun c => c <> 10%N) s).
  { induction 1 as [c H|c s H Hs IH]; (constructor; [unfold digit in H; lia|]); auto. }
  intros H. destruct H as [m i f e Hm Hi Hf He].
  repeat (apply Forall_app; split).
  - destruct Hm as [<-|[<-|[]]]; repeat constructor; discriminate.
  - destruct Hi as [|c Hc|c s Hc Hs]; (constructor; [try discriminate; try (unfold digit in Hc; lia)|]); auto.
  - destruct Hf as [|s Hs]; [constructor|]. apply Forall_app. split; [constructor; [discriminate|constructor]|auto].
  - destruct He as [|e0 sign s He Hsg Hs]; [constructor|].
    repeat (apply Forall_app; split); auto.
    + destruct He as [<-|[<-|[]]]; repeat constructor; discriminate.
    + destruct Hsg as [<-|[<-|[<-|[]]]]; repeat constructor; discriminate.
Qed.

Lemma tri_number i st : At i st -> tri (p_number o) (post a_number i st) broken st.
Proof.
  intros A. unfold p_number. apply tri_bind, tri_get_rem. apply tri_bind.
  destruct (match_number_spec (rem st)) as (n & -> & _ & Ln & Hn & Hz & _).
  eapply tri_lift; [reflexivity|]. apply tri_if; intros H.
  { apply tri_bind. eapply tri_p_error; [exact A|]. intros st' E. apply tri_ret. eapply stopped_error; eassumption. }
  apply orb_false_elim in H as [H1 H2]. apply Nat.eqb_neq in H1. apply Hn in H2; [|lia].
  set (t := firstn (jn_length n) (rem st)) in *.
  assert (Lt : jn_length n = length t) by (subst t; rewrite firstn_length_le by assumption; reflexivity).
  assert (E : rem st = t ++ skipn (jn_length n) (rem st)) by (symmetry; apply firstn_skipn).
  set (r := skipn (jn_length n) (rem st)) in *. clearbody t r.
  assert (Hv : forall f, (forall p, event_text (f p) = t /\ event_position (f p) = p /\ ~ is_error (f p)) ->
    reported true (number_event o (pos i) t) (f (pos i)) ->
    tri (visit f ;; advance_on_same_line (jn_length n) ;; ret true) (post a_number i st) broken st).
  { intros f Hf Hrep. destruct (Hf (pos i)) as (F1 & F2 & F3).
    apply tri_bind. eapply tri_visit; [exact A| |].
    { split; [right; eapply At_located; [exact A|rewrite F1; exact E|exact F2]|exact F3]. }
    intros st1 R1 E1. rewrite E in E1.
    apply tri_bind. eapply tri_line; [apply (ran_At _ _ _ _ _ _ R1)|exact E1|exact Lt|apply number_no_lf; exact H2|].
    intros st2 R2 _. apply tri_ret. pose proof (ran_trans _ _ _ _ _ _ _ _ _ _ R1 R2) as R.
    eexists _, _, _, _. split; [exact R|]. split; [split; [exact H2|reflexivity]|].
    constructor; [exact Hrep|constructor]. }
  apply tri_if; intros Ho.
  - apply tri_if; intros Hc.
    { apply tri_bind. eapply tri_p_error; [exact A|]. intros st' E'. apply tri_ret. eapply stopped_error; eassumption. }
    apply (Hv (fun p => EvNumberValue p t (firstn (strtod_length (rem st)) (rem st)))).
    + intros p. cbn. auto.
    + unfold number_event. rewrite Ho. constructor. reflexivity.
  - apply (Hv (fun p => EvNumber p t)).
    + intros p. cbn. auto.
    + unfold number_event. rewrite Ho. constructor.
Qed.
End Parser.
