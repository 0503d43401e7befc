(** * The JSON parser against the grammar: soundness. *)
From Coq Require Import List NArith ZArith Bool Arith Lia.
From Verif Require Import M_Base L_Base M_Emit M_Types M_Chars M_Parse L_Parse S_Utf8 M_Utf8 M_Api
  M_Highlighter M_Json S_Json L_JsonNum L_JsonText L_JsonParse.
Import ListNotations.

(** The loop common to arrays and objects. *)
Definition seq_body (o : json_options) (close : N) (pop : position -> event) (err : json_error)
    (item : P bool) (first : bool) : P (bool + bool) :=
  let! e := eof in
  if e then p_error err ;; ret (inr false)
  else
    let! ok := p_ws o in
    if negb ok then ret (inr false) else
    let! r := get_rem in
    if starts_with_ch r close then
      visit pop ;; advance_on_same_line 1 ;; ret (inr true)
    else if first then
      let! ok := item in
      if negb ok then ret (inr false) else ret (inl false)
    else if starts_with_ch r (ch ",") then
      advance_on_same_line 1 ;;
      let! ok := p_ws o in
      if negb ok then ret (inr false) else
      let! ok := item in
      if negb ok then ret (inr false) else ret (inl first)
    else p_error err_illegal_character ;; ret (inr false).
Lemma object_body_eq o value : p_object_body o value
  = seq_body o (ch "}") EvPopObject err_unterminated_object (p_member o value).
Proof. reflexivity. Qed.
Lemma array_body_eq o value : p_array_body o value
  = seq_body o (ch "]") EvPopArray err_unterminated_array value.
Proof. reflexivity. Qed.

(** Item sequences in general. *)
Section Items.
Variable blank : N -> Prop.
Variable o : json_options.
Variable pos : nat -> position.
Variables J E : nat -> str -> list event -> Prop.
Hypothesis E_one : forall i v ev w ew, J i v ev -> jws blank o pos (i + length v) w ew -> E i (v ++ w) (ev ++ ew).
Hypothesis E_more : forall i v ev w ew w' ew' s es, J i v ev -> jws blank o pos (i + length v) w ew ->
    jws blank o pos (i + length v + length w + 1) w' ew' ->
    E (i + length v + length w + 1 + length w') s es ->
    E i (v ++ w ++ bs "," ++ w' ++ s) (ev ++ ew ++ ew' ++ es).

(** Items and commas, ending with an item. *)
Definition items (k : nat) (s : str) (spec : list event) : Prop :=
  (forall w ew, jws blank o pos (k + length s) w ew -> E k (s ++ w) (spec ++ ew))
  /\ (forall w ew w' ew' t et, jws blank o pos (k + length s) w ew ->
        jws blank o pos (k + length s + length w + 1) w' ew' ->
        E (k + length s + length w + 1 + length w') t et ->
        E k (s ++ w ++ bs "," ++ w' ++ t) (spec ++ ew ++ ew' ++ et)).

Lemma items_one k v ev : J k v ev -> items k v ev.
Proof. split; intros; [apply E_one|apply E_more]; assumption. Qed.
Lemma items_more k s spec w ew w' ew' v ev : items k s spec -> jws blank o pos (k + length s) w ew ->
  jws blank o pos (k + length s + length w + 1) w' ew' ->
  J (k + length s + length w + 1 + length w') v ev ->
  items k (s ++ w ++ bs "," ++ w' ++ v) (spec ++ ew ++ ew' ++ ev).
Proof.
  intros [H1 H2] Hw Hw' Hv.
  assert (L : length (s ++ w ++ bs "," ++ w' ++ v) = length s + length w + 1 + length w' + length v).
  { rewrite !app_length. cbn [length bs]. change (length (bs ",")) with 1. lia. }
  assert (X : forall n, k + (length s + length w + 1 + length w' + length v) + n
                        = k + length s + length w + 1 + length w' + length v + n) by (intros; lia).
  split.
  - intros w2 ew2 Hw2. rewrite <- !app_assoc. apply H2; [exact Hw|exact Hw'|]. apply E_one; [exact Hv|].
    rewrite L in Hw2. replace (k + length s + length w + 1 + length w' + length v)
      with (k + (length s + length w + 1 + length w' + length v)) by lia. exact Hw2.
  - intros w2 ew2 w3 ew3 t et A B C. rewrite <- !app_assoc. rewrite L in *. apply H2; [exact Hw|exact Hw'|].
    set (p := k + length s + length w + 1 + length w') in *.
    replace (k + (length s + length w + 1 + length w' + length v)) with (p + length v) in * by lia.
    apply E_more; assumption.
Qed.
End Items.

Section Parser.
Variable src : str.
Variable o : json_options.
Notation pos := (position_of src).
Notation blank := lenient_blank.
Notation jws' := (jws blank o pos).
Notation jws_end' := (jws_end blank o pos).
Notation jvalue' := (jvalue blank o pos).
Notation jelements' := (jelements blank o pos).
Notation jmember' := (jmember blank o pos).
Notation jmembers' := (jmembers blank o pos).
Notation At := (At src).
Notation ran := (ran src).
Notation post := (post src).
Notation stopped := (stopped src).
Notation broken := (broken src o).
Notation reports := (Forall2 (reported true)).

(** ** Whitespace, as it is consumed *)
Definition wsd (i : nat) (s : str) (spec : list event) (rest : str) : Prop :=
  jws' i s spec \/ jws_end' i s spec /\ (rest = [] \/ starts_with_ch rest 0xE2 = true).

Lemma wsd_jws i s spec c r : wsd i s spec (c :: r) -> c <> 0xE2%N -> jws' i s spec.
Proof. intros [H|[_ [H|H]]] Hc; [exact H|discriminate|]. apply N.eqb_eq in H. congruence. Qed.
Lemma wsd_end i s spec r : wsd i s spec r -> jws_end' i s spec.
Proof. intros [H|[H _]]; [constructor|]; exact H. Qed.

Lemma jws_head i s spec : jws' i s spec -> s = [] \/ exists c r, s = c :: r /\ (blank c \/ c = 47%N).
Proof.
  intros H. destruct H as [|i c w e Hc|i t c w e _ (b & -> & _)|i t w e _ (b & -> & _)]; [auto|right..];
    cbn; eauto.
Qed.
Lemma jws_end_head i s spec : jws_end' i s spec -> s = [] \/ exists c r, s = c :: r /\ (blank c \/ c = 47%N).
Proof.
  intros H. destruct H as [i w e H|i w e t _ H (b & -> & _)]; [eapply jws_head; eassumption|right].
  apply jws_head in H as [->|(c & r & -> & H)]; cbn; eauto.
Qed.
Lemma blank_not_e2 c : blank c \/ c = 47%N -> c <> 0xE2%N.
Proof. intros H ->. destruct H as [[H|H]|H]; try discriminate. cbn in H. intuition discriminate. Qed.

Lemma jws_end_nil i spec : jws_end' i [] spec -> spec = [].
Proof.
  assert (N : forall i s e, jws' i s e -> s = [] -> e = []).
  { intros ? ? ? H. destruct H as [|i0 c w e Hc|i0 t c w e _ (b & -> & _)|i0 t w e _ (b & -> & _)]; [auto|discriminate..]. }
  intros H. remember [] as s eqn:Es. destruct H as [i w e H|i w e t _ H (b & -> & _)]; [eauto|].
  destruct w; discriminate.
Qed.

Lemma wsd_two i s spec s2 spec2 r1 r2 : wsd i s spec r1 -> r1 = s2 ++ r2 -> wsd (i + length s) s2 spec2 r2 ->
  wsd i (s ++ s2) (spec ++ spec2) r2.
Proof.
  intros H1 Er H2. destruct H1 as [H1|[H1 H1']].
  - destruct H2 as [H2|[H2 H2']]; [left; apply jws_app; assumption|right; split; [|exact H2']].
    inversion H2 as [i2 w e H3|i2 w e t Ho H3 Ht]; subst.
    + constructor. apply jws_app; assumption.
    + rewrite !app_assoc. replace (i + length s + length w) with (i + length (s ++ w)) by (rewrite app_length; lia).
      apply ws_end_line; auto. apply jws_app; assumption.
  - assert (s2 = []).
    { pose proof (wsd_end _ _ _ _ H2) as H. apply jws_end_head in H as [H|(c & r & -> & Hc)]; [exact H|].
      apply blank_not_e2 in Hc. rewrite Er in H1'. destruct H1' as [H1'|H1']; [discriminate|].
      apply N.eqb_eq in H1'. congruence. }
    subst s2. cbn in Er. subst r1. apply wsd_end, jws_end_nil in H2. subst spec2. rewrite !app_nil_r. right. auto.
Qed.

Lemma tri_ws' i st (Q : bool -> hst pstate -> Prop) : At i st ->
  (forall j s spec evs st', ran i j s st st' evs -> reports spec evs -> wsd i s spec (rem st') -> Q true st') ->
  (forall st', stopped st st' -> Q false st') ->
  tri (p_ws o) Q broken st.
Proof.
  intros A H1 H2. eapply tri_mono; [apply tri_ws; exact A|]. intros [|] st'.
  - intros (j & s & spec & evs & R & Rep & Hw & _). eapply H1; eassumption.
  - apply H2.
Qed.

(** ** The loop *)
Section Loop.
Variables J E : nat -> str -> list event -> Prop.
Hypothesis E_one : forall i v ev w ew, J i v ev -> jws' (i + length v) w ew -> E i (v ++ w) (ev ++ ew).
Hypothesis E_more : forall i v ev w ew w' ew' s es, J i v ev -> jws' (i + length v) w ew ->
    jws' (i + length v + length w + 1) w' ew' ->
    E (i + length v + length w + 1 + length w') s es ->
    E i (v ++ w ++ bs "," ++ w' ++ s) (ev ++ ew ++ ew' ++ es).
Hypothesis J_head : forall i s e, J i s e -> exists c r, s = c :: r /\ c <> 0xE2%N.
Variable opening : list N.
Variable n : nat.
Variable item : P bool.
(** After an opening bracket or comma, and whitespace. *)
Definition context (i : nat) (st : hst pstate) : Prop :=
  exists k c w e, In c opening /\ skipn k src = [c] ++ w ++ rem st /\ k < length src /\ jws_end' (k + 1) w e.
Hypothesis item_ok : forall i st, At i st -> length (rem st) < n -> context i st ->
  tri item (post J i st) broken st.
Variable close : N.
Variable pop : position -> event.
Variable err : json_error.
Hypothesis close_ok : close <> 0xE2%N /\ close <> 10%N.
Hypothesis pop_ok : forall p, event_text (pop p) = [close] /\ event_position (pop p) = p /\ ~ is_error (pop p)
   /\ ~ is_block_comment (pop p).
Hypothesis comma : In (ch ",") opening.

(** The text after the opening bracket, up to and with the closing one. *)
Definition closed (k : nat) (s : str) (spec : list event) : Prop :=
  exists w e, jws' k w e
    /\ ((s = w ++ [close] /\ spec = e ++ [pop (pos (k + length w))])
        \/ exists t et, E (k + length w) t et /\ s = w ++ t ++ [close]
             /\ spec = e ++ et ++ [pop (pos (k + length w + length t))]).

Lemma head_eq s c : starts_with_ch s c = true -> exists r, s = c :: r.
Proof. destruct s as [|x r]; [discriminate|]. intros H. apply N.eqb_eq in H. subst. eauto. Qed.

Lemma post_J_head i st st' c r : post J i st true st' -> rem st = c :: r -> c <> 0xE2%N.
Proof.
  intros (j & s & spec & evs & R & G & _) Er. destruct (J_head _ _ _ G) as (c' & r' & -> & H).
  destruct R as (_ & _ & _ & R & _). rewrite Er in R. cbn in R. congruence.
Qed.

Lemma tri_seq k c0 st0 : At (k + 1) st0 -> length (rem st0) < n -> In c0 opening ->
  k < length src -> skipn k src = [c0] ++ rem st0 ->
  forall st j s spec evs, ran (k + 1) j s st0 st evs -> reports spec evs -> wsd (k + 1) s spec (rem st) ->
  tri (hloop 1 (seq_body o close pop err item) true) (fun b st' => if b
      then exists j s spec evs, ran (k + 1) j s st0 st' evs /\ reports spec evs /\ closed (k + 1) s spec
      else stopped st0 st') broken st.
Proof.
  intros A0 Ln Hc0 Hk Esrc st j s spec evs R Rep Hw.
  apply tri_hloop with
    (Inv := fun (first : bool) st1 => exists j s spec evs, ran (k + 1) j s st0 st1 evs /\ reports spec evs
       /\ if first then wsd (k + 1) s spec (rem st1)
          else exists w ew t et, s = w ++ t /\ spec = ew ++ et /\ jws' (k + 1) w ew
                 /\ items blank o pos E (k + 1 + length w) t et)
    (mu := fun _ st1 => length (rem st1)).
  { exists j, s, spec, evs. auto. }
  { lia. }
  clear st j s spec evs R Rep Hw. intros first st1 (j & s & spec & evs & R & Rep & Hi).
  pose proof (ran_At _ _ _ _ _ _ _ R) as A1. pose proof (ran_len _ _ _ _ _ _ _ R) as [L1 L1'].
  unfold seq_body. apply tri_bind, tri_eof; intros He.
  { apply tri_bind. eapply tri_p_error; [exact A1|]. intros st' E'. apply tri_ret.
    eapply stopped_after; [exact R|]. eapply stopped_error; eassumption. }
  apply tri_bind, (tri_ws' j); [exact A1| |].
  2:{ intros st' H. apply tri_ret. eapply stopped_after; eassumption. }
  intros j2 w2 spec2 evs2 st2 R2 Rep2 Hw2. cbn [negb].
  pose proof (ran_At _ _ _ _ _ _ _ R2) as A2. pose proof (ran_len _ _ _ _ _ _ _ R2) as [L2 L2'].
  pose proof (ran_trans _ _ _ _ _ _ _ _ _ _ _ R R2) as R'. pose proof (Forall2_app Rep Rep2) as Rep'.
  pose proof (ran_j _ _ _ _ _ _ _ R) as Ej. pose proof (ran_j _ _ _ _ _ _ _ R2) as Ej2.
  assert (Er2 : rem st1 = w2 ++ rem st2) by apply R2.
  apply tri_bind, tri_get_rem. apply tri_if; intros Hc.
  { (* the closing bracket *)
    destruct (head_eq _ _ Hc) as (r & Er). destruct (pop_ok (pos j2)) as (P1 & P2 & P3 & P4).
    apply tri_bind. eapply tri_visit; [exact A2| |].
    { split; [right; eapply At_located; [exact A2|rewrite P1; exact Er|exact P2]|exact P3]. }
    intros st3 R3 E3. rewrite Er in E3. change (close :: r) with ([close] ++ r) in E3.
    apply tri_bind. eapply tri_line; [apply (ran_At _ _ _ _ _ _ _ R3)|exact E3|reflexivity| |].
    { constructor; [apply close_ok|constructor]. }
    intros st4 R4 _. apply tri_ret. cbv beta iota.
    pose proof (ran_trans _ _ _ _ _ _ _ _ _ _ _ R' (ran_trans _ _ _ _ _ _ _ _ _ _ _ R3 R4)) as R5.
    eexists _, _, ((spec ++ spec2) ++ [pop (pos j2)]), _. split; [exact R5|].
    split; [apply Forall2_app; [exact Rep'|apply reported_refl]|].
    destruct first.
    - pose proof (wsd_two _ _ _ _ _ _ _ Hi Er2 ltac:(rewrite <- Ej; exact Hw2)) as Hws.
      rewrite Er in Hws. apply wsd_jws in Hws; [|apply close_ok].
      exists (s ++ w2), (spec ++ spec2). split; [exact Hws|]. left. split; [reflexivity|].
      rewrite app_length. repeat f_equal. lia.
    - destruct Hi as (w & ew & t & et & -> & -> & Hw & [Hi _]).
      rewrite Er in Hw2. apply wsd_jws in Hw2; [|apply close_ok]. rewrite app_length in Ej.
      replace j with (k + 1 + length w + length t) in Hw2 by lia.
      exists w, ew. split; [exact Hw|]. right. exists (t ++ w2), (et ++ spec2). split; [apply Hi; exact Hw2|].
      rewrite <- !app_assoc. split; [reflexivity|]. rewrite app_length. repeat f_equal. lia. }
  apply tri_if; intros Hf.
  { (* the first item *)
    subst first. pose proof (wsd_two _ _ _ _ _ _ _ Hi Er2 ltac:(rewrite <- Ej; exact Hw2)) as Hws.
    apply tri_bind. eapply tri_mono; [apply (item_ok j2); [exact A2|lia|]|].
    { exists k, c0, (s ++ w2), (spec ++ spec2). split; [exact Hc0|].
      split; [|split; [exact Hk|apply wsd_end in Hws; exact Hws]]. rewrite Esrc. f_equal. apply R'. }
    intros [|] st3 H3; cbn [negb]; apply tri_ret; [|eapply stopped_after; eassumption].
    assert (H3' := H3). destruct H3 as (j3 & v & spec3 & evs3 & R3 & G & Rep3). split.
    - eexists _, _, _, _. split; [exact (ran_trans _ _ _ _ _ _ _ _ _ _ _ R' R3)|].
      split; [exact (Forall2_app Rep' Rep3)|]. exists (s ++ w2), (spec ++ spec2), v, spec3.
      split; [reflexivity|]. split; [reflexivity|]. split.
      + destruct (J_head _ _ _ G) as (c & r & -> & Hv). destruct R3 as (_ & _ & _ & R3 & _).
        rewrite R3 in Hws. eapply wsd_jws; eassumption.
      + apply items_one with (J := J); [assumption..|]. rewrite app_length.
        replace (k + 1 + (length s + length w2)) with j2 by lia. exact G.
    - apply ran_len in R3. destruct (J_head _ _ _ G) as (c & r & -> & _). cbn in R3. lia. }
  subst first. destruct Hi as (w & ew & t & et & -> & -> & Hw & Hi).
  apply tri_if; intros Hcm.
  { (* a comma and a further item *)
    destruct (head_eq _ _ Hcm) as (r & Er).
    rewrite Er in Hw2. apply wsd_jws in Hw2; [|discriminate].
    change (ch "," :: r) with (bs "," ++ r) in Er.
    apply tri_bind. eapply tri_line; [exact A2|exact Er|reflexivity|constructor; [discriminate|constructor]|].
    intros st3 R3 E3. pose proof (ran_At _ _ _ _ _ _ _ R3) as A3. pose proof (ran_len _ _ _ _ _ _ _ R3) as [L3 L3'].
    apply tri_bind, (tri_ws' (j2 + 1)); [exact A3| |].
    2:{ intros st' H. apply tri_ret. eapply stopped_after; [exact R'|]. eapply stopped_after; eassumption. }
    intros j4 w4 spec4 evs4 st4 R4 Rep4 Hw4. cbn [negb].
    pose proof (ran_At _ _ _ _ _ _ _ R4) as A4. pose proof (ran_len _ _ _ _ _ _ _ R4) as [L4 L4'].
    pose proof (ran_j _ _ _ _ _ _ _ R4) as Ej4.
    apply tri_bind. eapply tri_mono; [apply (item_ok j4); [exact A4|lia|]|].
    { exists j2, (ch ","), w4, spec4. split; [exact comma|]. destruct A2 as (B1 & B2 & _).
      split; [|split; [|apply wsd_end in Hw4; exact Hw4]].
      - rewrite <- B2, Er, <- E3. change [ch ","] with (bs ","). f_equal. apply R4.
      - apply (f_equal (@length N)) in B2. rewrite Er, skipn_length, app_length in B2. cbn in B2. lia. }
    pose proof (ran_trans _ _ _ _ _ _ _ _ _ _ _ R' (ran_trans _ _ _ _ _ _ _ _ _ _ _ R3 R4)) as R5.
    intros [|] st5 H5; cbn [negb]; apply tri_ret; [|eapply stopped_after; eassumption].
    destruct H5 as (j5 & v & spec5 & evs5 & R6 & G & Rep5). split.
    - eexists _, _, _, _. split; [exact (ran_trans _ _ _ _ _ _ _ _ _ _ _ R5 R6)|].
      split; [cbn [app]; exact (Forall2_app (Forall2_app Rep' Rep4) Rep5)|].
      exists w, ew, (t ++ w2 ++ bs "," ++ w4 ++ v), (et ++ spec2 ++ spec4 ++ spec5).
      split; [rewrite <- !app_assoc; reflexivity|]. split; [rewrite <- !app_assoc; reflexivity|].
      split; [exact Hw|]. rewrite app_length in Ej.
      assert (Hw4' : jws' (j2 + 1) w4 spec4).
      { destruct (J_head _ _ _ G) as (c & r' & -> & Hv). destruct R6 as (_ & _ & _ & R6 & _).
        rewrite R6 in Hw4. eapply wsd_jws; eassumption. }
      replace j2 with (k + 1 + length w + length t + length w2) in * by lia.
      replace j with (k + 1 + length w + length t) in * by lia. subst j4.
      eapply items_more; eassumption.
    - apply ran_len in R6. destruct (J_head _ _ _ G) as (c & r' & -> & _). cbn in R6. lia. }
  apply tri_bind. eapply tri_p_error; [exact A2|]. intros st' E'. apply tri_ret.
  eapply stopped_after; [exact R'|]. eapply stopped_error; eassumption.
Qed.
End Loop.

Lemma number_head t : json_number t -> exists c r, t = c :: r /\ (c = ch "-" \/ digit c).
Proof.
  intros H. destruct H as [m i f e Hm Hi Hf He]. destruct Hm as [<-|[<-|[]]]; [|cbn; eauto].
  destruct Hi as [|c Hc|c s Hc Hs]; cbn; eexists _, _; (split; [reflexivity|]); right; unfold digit, ch; cbn; lia.
Qed.

Lemma jvalue_head i s e : jvalue' i s e -> exists c r, s = c :: r /\ c <> 0xE2%N.
Proof.
  intros H. destruct H as [i|i|i|i t H|i s es H|i w e H|i w e s es H H'|i w e H|i w e s es H H'];
    try (cbn; eexists _, _; split; [reflexivity|discriminate]).
  apply number_head in H as (c & r & -> & H). eexists _, _. split; [reflexivity|].
  intros ->. destruct H as [H|H]; [discriminate|unfold digit in H; lia].
Qed.
Lemma jmember_head i s e : jmember' i s e -> exists c r, s = c :: r /\ c <> 0xE2%N.
Proof.
  intros H. destruct H. cbn. eexists _, _. split; [reflexivity|discriminate].
Qed.

(** ** Members *)
Lemma tri_member n value i st :
  (forall i st, At i st -> length (rem st) < n -> tri value (post jvalue' i st) broken st) ->
  At i st -> length (rem st) < n -> context (bs "{,") i st ->
  tri (p_member o value) (post jmember' i st) broken st.
Proof.
  intros V A Ln (k & c & w & e & Hc & Es & Hk & Hw). unfold p_member. apply tri_bind.
  destruct (starts_with_ch (rem st) 34) eqn:Hq.
  2:{ unfold tri, p_string, bindM, get_rem. rewrite Hq. cbn. split; [reflexivity|].
      exists (firstn k src), c, w, e, (rem st). rewrite <- Es, firstn_skipn, firstn_length_le by lia.
      split; [reflexivity|]. split; [exact Hc|]. split; [exact Hw|]. intros X. destruct (rem st); [discriminate|].
      cbn in X, Hq. injection X as ->. discriminate. }
  eapply tri_mono; [apply (tri_string src o true i); [exact A|exact Hq]|]. intros [|] st1; cbn [negb]; [|intros H; apply tri_ret; exact H].
  intros (j1 & s1 & spec1 & evs1 & R1 & (key & ek & -> & Hkey & ->) & Rep1).
  pose proof (ran_At _ _ _ _ _ _ _ R1) as A1. pose proof (ran_len _ _ _ _ _ _ _ R1) as [L1 _].
  pose proof (ran_j _ _ _ _ _ _ _ R1) as Ej1.
  apply tri_bind, (tri_ws' j1); [exact A1| |].
  2:{ intros st' H. apply tri_ret. eapply stopped_after; eassumption. }
  intros j2 w2 spec2 evs2 st2 R2 Rep2 Hw2. cbn [negb].
  pose proof (ran_At _ _ _ _ _ _ _ R2) as A2. pose proof (ran_len _ _ _ _ _ _ _ R2) as [L2 _].
  pose proof (ran_j _ _ _ _ _ _ _ R2) as Ej2. pose proof (ran_trans _ _ _ _ _ _ _ _ _ _ _ R1 R2) as R12.
  apply tri_bind, tri_get_rem. apply tri_if; intros Hcol.
  { apply tri_bind. eapply tri_p_error; [exact A2|]. intros st' E'. apply tri_ret.
    eapply stopped_after; [exact R12|]. eapply stopped_error; eassumption. }
  apply negb_false_iff in Hcol. apply head_eq in Hcol as (r & Er).
  rewrite Er in Hw2. apply wsd_jws in Hw2; [|discriminate]. change (ch ":" :: r) with (bs ":" ++ r) in Er.
  apply tri_bind. eapply tri_line; [exact A2|exact Er|reflexivity|constructor; [discriminate|constructor]|].
  intros st3 R3 E3. pose proof (ran_At _ _ _ _ _ _ _ R3) as A3. pose proof (ran_len _ _ _ _ _ _ _ R3) as [L3 _].
  apply tri_bind, (tri_ws' (j2 + 1)); [exact A3| |].
  2:{ intros st' H. apply tri_ret. eapply stopped_after; [exact R12|]. eapply stopped_after; eassumption. }
  intros j4 w4 spec4 evs4 st4 R4 Rep4 Hw4. cbn [negb].
  pose proof (ran_At _ _ _ _ _ _ _ R4) as A4. pose proof (ran_len _ _ _ _ _ _ _ R4) as [L4 _].
  pose proof (ran_j _ _ _ _ _ _ _ R4) as Ej4.
  pose proof (ran_trans _ _ _ _ _ _ _ _ _ _ _ R12 (ran_trans _ _ _ _ _ _ _ _ _ _ _ R3 R4)) as R14.
  apply tri_bind, tri_get_rem. apply tri_if; intros Hx.
  { apply tri_bind. eapply tri_p_error; [exact A4|]. intros st' E'. apply tri_ret.
    eapply stopped_after; [exact R14|]. eapply stopped_error; eassumption. }
  eapply tri_mono; [apply (V j4); [exact A4|lia]|]. intros [|] st5 H5; [|eapply stopped_after; eassumption].
  destruct H5 as (j5 & v & spec5 & evs5 & R5 & G & Rep5).
  eexists _, _, _, _. split; [exact (ran_trans _ _ _ _ _ _ _ _ _ _ _ R14 R5)|].
  split; [|cbn [app]; exact (Forall2_app (Forall2_app (Forall2_app Rep1 Rep2) Rep4) Rep5)].
  assert (Hw4' : jws' (j2 + 1) w4 spec4).
  { destruct (jvalue_head _ _ _ G) as (c' & r' & -> & Hv). destruct R5 as (_ & _ & _ & R5 & _).
    rewrite R5 in Hw4. eapply wsd_jws; eassumption. }
  rewrite !app_length in Ej1. cbn [length] in Ej1.
  rewrite <- !app_assoc. replace j1 with (i + 2 + length key) in * by lia.
  replace (j2 + 1) with (i + 3 + length key + length w2) in * by lia. subst j4.
  apply member_intro; assumption.
Qed.

(** ** Values *)
Lemma tri_keyword k ev i st : At i st -> In k [bs "true"; bs "false"; bs "null"] ->
  (forall p, event_text (ev p) = k /\ event_position (ev p) = p /\ ~ is_error (ev p)) ->
  (forall j, jvalue' j k [ev (pos j)]) -> firstn 1 (rem st) = firstn 1 k ->
  forall n, n = length k ->
  tri (if starts_with (rem st) k then visit ev ;; advance_on_same_line n ;; ret true else ret false)
    (post jvalue' i st) broken st.
Proof.
  intros A Hk Hev Hj Hf n ->. apply tri_if; intros H.
  - apply starts_with_app in H as (r & Er). destruct (Hev (pos i)) as (F1 & F2 & F3).
    apply tri_bind. eapply tri_visit; [exact A| |].
    { split; [right; eapply At_located; [exact A|rewrite F1; exact Er|exact F2]|exact F3]. }
    intros st1 R1 E1. rewrite Er in E1.
    apply tri_bind. eapply tri_line; [apply (ran_At _ _ _ _ _ _ _ R1)|exact E1|reflexivity| |].
    { destruct Hk as [<-|[<-|[<-|[]]]]; repeat (constructor; [discriminate|]); constructor. }
    intros st2 R2 _. apply tri_ret. eexists _, _, _, _. split; [exact (ran_trans _ _ _ _ _ _ _ _ _ _ _ R1 R2)|].
    split; [apply Hj|apply reported_refl].
  - apply tri_ret. eapply stopped_stuck; [exact A|]. right.
    destruct (firstn 1 k) as [|c [|]] eqn:Ek.
    + destruct Hk as [<-|[<-|[<-|[]]]]; discriminate.
    + exists k, c. split; [exact Hk|]. split; [exact Ek|]. split; [exact Hf|].
      intros (t & Et). assert (starts_with (rem st) k = true) by (apply starts_with_app; eauto). congruence.
    + pose proof (firstn_le_length 1 k) as X. rewrite Ek in X. cbn in X. lia.
Qed.

Lemma tri_value n : forall i st, At i st -> length (rem st) < n -> tri (p_value n o) (post jvalue' i st) broken st.
Proof.
  induction n as [|n IH]; intros i st A Ln; [lia|]. cbn [p_value]. apply tri_bind, tri_get_rem.
  destruct (rem st) as [|c r] eqn:Er.
  { apply tri_ret. eapply stopped_stuck; [exact A|]. left. exact Er. }
  assert (Hk : i < length src).
  { destruct A as (_ & B & _). rewrite Er in B. apply (f_equal (@length N)) in B. rewrite skipn_length in B. cbn in B. lia. }
  apply tri_if; intros H1.
  { apply N.eqb_eq in H1. subst c. eapply tri_mono; [apply tri_string; [exact A|rewrite Er; reflexivity]|].
    intros [|] st'; [|auto]. intros (j & s & spec & evs & R & (key & ek & -> & Hkey & ->) & Rep).
    eexists _, _, _, _. split; [exact R|]. split; [|exact Rep]. apply value_string. exact Hkey. }
  apply tri_if; intros H2.
  { apply N.eqb_eq in H2. subst c. unfold p_array. apply tri_bind, tri_get_rem. rewrite Er.
    rewrite starts_ch_true. cbn [negb]. apply tri_bind. eapply tri_visit; [exact A| |].
    { split; [right; eapply At_located; [exact A|rewrite Er; reflexivity|reflexivity]|exact (fun x => x)]. }
    intros st1 R1 E1. rewrite Er in E1. change (ch "[" :: r) with (bs "[" ++ r) in E1, Er.
    apply tri_bind. eapply tri_line; [apply (ran_At _ _ _ _ _ _ _ R1)|exact E1|reflexivity|constructor; [discriminate|constructor]|].
    intros st2 R2 E2. pose proof (ran_trans _ _ _ _ _ _ _ _ _ _ _ R1 R2) as R12.
    pose proof (ran_At _ _ _ _ _ _ _ R2) as A2. pose proof (ran_len _ _ _ _ _ _ _ R12) as [L2 _].
    change (length (bs "[")) with 1 in *.
    apply tri_bind, (tri_ws' (i + 1)); [exact A2| |].
    2:{ intros st' H. apply tri_ret. eapply stopped_after; eassumption. }
    intros j3 w3 spec3 evs3 st3 R3 Rep3 Hw3. cbn [negb]. rewrite array_body_eq.
    eapply tri_mono; [eapply (tri_seq jvalue' jelements') with (opening := bs "[,") (n := n) (k := i) (c0 := ch "[");
       [apply elements_one|apply elements_more|apply jvalue_head|intros; apply IH; assumption
       |split; discriminate|intros p; cbn; auto|cbn; auto|exact A2|cbn [app length] in *; rewrite Er in L2; cbn in L2; lia|cbn; auto|exact Hk
       |destruct A as (_ & B & _); rewrite <- B, Er, E2; reflexivity|exact R3|exact Rep3|exact Hw3]|].
    intros [|] st'; [|intros H; eapply stopped_after; eassumption].
    intros (j4 & s4 & spec4 & evs4 & R4 & Rep4 & (w & e & Hw & H4)).
    eexists _, _, (EvPushArray (pos i) :: spec4), _. split; [exact (ran_trans _ _ _ _ _ _ _ _ _ _ _ R12 R4)|].
    split; [|cbn [app]; constructor; [constructor|exact Rep4]].
    destruct H4 as [(-> & ->)|(t & et & Ht & -> & ->)].
    - apply (value_array_empty blank o pos i w e). exact Hw.
    - apply (value_array blank o pos i w e t et); assumption. }
  apply tri_if; intros H3.
  { apply N.eqb_eq in H3. subst c. unfold p_object. apply tri_bind, tri_get_rem. rewrite Er.
    rewrite starts_ch_true. cbn [negb]. apply tri_bind. eapply tri_visit; [exact A| |].
    { split; [right; eapply At_located; [exact A|rewrite Er; reflexivity|reflexivity]|exact (fun x => x)]. }
    intros st1 R1 E1. rewrite Er in E1. change (ch "{" :: r) with (bs "{" ++ r) in E1, Er.
    apply tri_bind. eapply tri_line; [apply (ran_At _ _ _ _ _ _ _ R1)|exact E1|reflexivity|constructor; [discriminate|constructor]|].
    intros st2 R2 E2. pose proof (ran_trans _ _ _ _ _ _ _ _ _ _ _ R1 R2) as R12.
    pose proof (ran_At _ _ _ _ _ _ _ R2) as A2. pose proof (ran_len _ _ _ _ _ _ _ R12) as [L2 _].
    change (length (bs "{")) with 1 in *. rewrite object_body_eq.
    eapply tri_mono; [eapply (tri_seq jmember' jmembers') with (opening := bs "{,") (n := n) (k := i) (c0 := ch "{");
       [apply members_one|apply members_more|apply jmember_head|intros; apply (tri_member n); [exact IH|assumption..]
       |split; discriminate|intros p; cbn; auto|cbn; auto|exact A2|cbn [app length] in *; rewrite Er in L2; cbn in L2; lia|cbn; auto|exact Hk
       |destruct A as (_ & B & _); rewrite <- B, Er, E2; reflexivity|apply ran_refl; exact A2|constructor|left; constructor]|].
    intros [|] st'; [|intros H; eapply stopped_after; eassumption].
    intros (j4 & s4 & spec4 & evs4 & R4 & Rep4 & (w & e & Hw & H4)).
    eexists _, _, (EvPushObject (pos i) :: spec4), _. split; [exact (ran_trans _ _ _ _ _ _ _ _ _ _ _ R12 R4)|].
    split; [|cbn [app]; constructor; [constructor|exact Rep4]].
    destruct H4 as [(-> & ->)|(t & et & Ht & -> & ->)].
    - apply (value_object_empty blank o pos i w e). exact Hw.
    - apply (value_object blank o pos i w e t et); assumption. }
  apply tri_if; intros H4.
  { eapply tri_mono; [apply tri_number; exact A|]. intros [|] st'; [|auto].
    intros (j & s & spec & evs & R & (Hn & ->) & Rep). eexists _, _, _, _. split; [exact R|]. split; [|exact Rep].
    constructor. exact Hn. }
  rewrite <- Er.
  apply tri_if; intros H5.
  { apply N.eqb_eq in H5. subst c. apply (tri_keyword (bs "true") (fun p => EvBoolean p true));
      [exact A|cbn; auto|intros p; cbn; auto|intros j; constructor|rewrite Er; reflexivity|reflexivity]. }
  apply tri_if; intros H6.
  { apply N.eqb_eq in H6. subst c. apply (tri_keyword (bs "false") (fun p => EvBoolean p false));
      [exact A|cbn; auto|intros p; cbn; auto|intros j; constructor|rewrite Er; reflexivity|reflexivity]. }
  apply tri_if; intros H7.
  { apply N.eqb_eq in H7. subst c. apply (tri_keyword (bs "null") EvNull);
      [exact A|cbn; auto|intros p; cbn; auto|intros j; constructor|rewrite Er; reflexivity|reflexivity]. }
  apply tri_bind. eapply tri_p_error; [exact A|]. intros st' E. apply tri_ret. eapply stopped_error; eassumption.
Qed.
End Parser.

(** ** Whole texts *)
Definition parse_result (src : str) (o : json_options) (b : bool) (evs : list event) : Prop :=
  if b then exists text rest spec, src = text ++ rest /\ jtext lenient_blank o (position_of src) text spec
    /\ Forall2 (reported true) spec evs /\ Forall (good src) evs
  else exists evs' tail, evs = evs' ++ tail /\ Forall (good src) evs'
    /\ (tail = [] /\ stuck src \/ exists j e, j <= length src /\ tail = [EvError (position_of src j) e]).

Lemma parse_sound src o : match parse_json src o with
                          | Ok (b, evs) => parse_result src o b evs
                          | Fail f => broken src o f
                          end.
Proof.
  unfold parse_json. set (st0 := mk_hst _ _ _ _). set (m := bindM _ _).
  assert (A0 : At src 0 st0) by (repeat split; cbn; lia).
  assert (T : tri m (fun b st => if b
      then exists j text spec evs, ran src 0 j text st0 st evs /\ Forall2 (reported true) spec evs
             /\ jtext lenient_blank o (position_of src) text spec
      else stopped src st0 st) (broken src o) st0).
  { subst m. apply tri_bind, (tri_ws' src o 0); [exact A0| |].
    2:{ intros st' H. apply tri_ret. exact H. }
    intros j1 w1 spec1 evs1 st1 R1 Rep1 Hw1. cbn [negb].
    pose proof (ran_At _ _ _ _ _ _ _ R1) as A1. pose proof (ran_len _ _ _ _ _ _ _ R1) as [L1 _].
    pose proof (ran_j _ _ _ _ _ _ _ R1) as Ej1.
    apply tri_bind. eapply tri_mono; [apply (tri_value src o _ j1); [exact A1|cbn [rem st0] in L1; subst st0; cbn [rem] in L1; lia]|].
    intros [|] st2; cbn [negb].
    2:{ intros H. apply tri_ret. eapply stopped_after; eassumption. }
    intros (j2 & v & spec2 & evs2 & R2 & Hv & Rep2). pose proof (ran_At _ _ _ _ _ _ _ R2) as A2.
    pose proof (ran_j _ _ _ _ _ _ _ R2) as Ej2. pose proof (ran_trans _ _ _ _ _ _ _ _ _ _ _ R1 R2) as R12.
    apply (tri_ws' src o j2); [exact A2| |].
    2:{ intros st' H. eapply stopped_after; eassumption. }
    intros j3 w3 spec3 evs3 st3 R3 Rep3 Hw3.
    eexists _, _, _, _. split; [exact (ran_trans _ _ _ _ _ _ _ _ _ _ _ R12 R3)|].
    split; [exact (Forall2_app (Forall2_app Rep1 Rep2) Rep3)|]. rewrite <- !app_assoc.
    cbn in Ej1. subst j1 j2. apply text_intro; [|exact Hv|apply wsd_end in Hw3; exact Hw3].
    destruct (jvalue_head _ _ _ _ _ Hv) as (c & r & -> & Hc). destruct R2 as (_ & _ & _ & R2 & _).
    rewrite R2 in Hw1. eapply wsd_jws; eassumption. }
  unfold tri in T. destruct (m st0) as [[b st]|f]; [|exact T]. destruct b.
  - destruct T as (j & text & spec & evs & (_ & _ & _ & R & Ev & G) & Rep & Ht). cbn in Ev, R. rewrite app_nil_r in Ev.
    exists text, (rem st), spec. rewrite Ev, rev_involutive. auto.
  - destruct T as (evs & tail & Ev & G & T). cbn in Ev. rewrite app_nil_r in Ev.
    exists evs, tail. rewrite Ev, rev_involutive. auto.
Qed.
