(** * Exact runs of loops over string literals *)
From Coq Require Import List NArith ZArith Bool Arith Lia.
From Verif Require Import M_Base L_Base M_Chars M_Types M_Emit S_Ops M_Parse L_Parse S_Parse P_Parse M_Api M_Highlighter S_Highlight L_Highlighter
  P_LangCpp L_Auto S_Lexemes L_Lexemes.
Import ListNotations.

Section scan.
Context {S B : Type} (s : S) (body : nat -> M S (nat + B)) (h : N) (plain : str -> str -> Prop) (item : list piece -> str -> Prop) (tail : str)
  (End : nat -> list out_op -> B -> hst S -> Prop).
Hypothesis Hitem : forall p r, item p r -> text p <> [].
Hypothesis H1 : forall run r len i o, plain run r -> len < length run ->
  wp (body len) (fun x st' => x = inl (len + 1) /\ st' = mk_hst (run ++ r) i o s) (mk_hst (run ++ r) i o s).
Hypothesis H2 : forall run p r i o, run = [] \/ plain run (text p ++ r) -> item p r ->
  wp (body (length run)) (fun x st' => x = inl 0 /\ st' = mk_hst r (i + length run + length (text p)) (rev (tokens i (opt_piece run h ++ p)) ++ o) s)
     (mk_hst (run ++ text p ++ r) i o s).
Hypothesis H3 : forall run i o, run = [] \/ plain run tail ->
  wp (body (length run)) (fun x st' => match x with inr b => End (i + length run) (rev (tokens i (opt_piece run h)) ++ o) b st' | inl _ => False end) (mk_hst (run ++ tail) i o s).

Definition scanned (n : nat) (l1 : list piece) : Prop :=
  (n = 0 /\ exists f, string_body h plain item tail f l1)
  \/ exists run l2, l1 = (run, Some h) :: l2 /\ run <> [] /\ plain run (text l2 ++ tail) /\ string_body h plain item tail false l2 /\ n <= length run.
Lemma scan_body_at c l f i o : 1 <= c -> string_body h plain item tail f l ->
  wp (hloop c body 0) (fun b st' => End (i + length (text l)) (rev (tokens i l) ++ o) b st') (mk_hst (text l ++ tail) i o s).
Proof.
  intros Hc Hl.
  apply wp_hloop with (mu := fun n st' => length (rem st') - n)
    (Inv := fun n st' => exists l1, scanned n l1 /\ rem st' = text l1 ++ tail /\ loc st' = s /\ idx st' + length (text l1) = i + length (text l)
       /\ rev (tokens (idx st') l1) ++ rops st' = rev (tokens i l) ++ o).
  - exists l. cbn [rem idx rops loc]. repeat split; auto. left. eauto.
  - cbn [rem]. nia.
  - intros n [r j o1 s1] (l1 & C1 & R1 & L1 & I1 & T1). cbn [rem idx rops loc] in *. subst r s1.
    set (Post := fun (r : nat + B) st' => match r with inl a' => (exists l1, scanned a' l1 /\ rem st' = text l1 ++ tail /\ loc st' = s /\ idx st' + length (text l1) = i + length (text l)
        /\ rev (tokens (idx st') l1) ++ rops st' = rev (tokens i l) ++ o) /\ length (rem st') - a' < length (text l1 ++ tail) - n
        | inr b => End (i + length (text l)) (rev (tokens i l) ++ o) b st' end).
    change (wp (body n) Post (mk_hst (text l1 ++ tail) j o1 s)).
    assert (Hrun : forall run l2, l1 = (run, Some h) :: l2 -> run <> [] -> plain run (text l2 ++ tail) -> string_body h plain item tail false l2 -> n <= length run -> wp (body n) Post (mk_hst (text l1 ++ tail) j o1 s)).
    { intros run l2 -> Hr Hp Hb Ln. rewrite text_cons, <- app_assoc. destruct (Nat.eq_dec n (length run)) as [->|Nn].
      - inversion Hb as [f2 E1 E2|run3 l3 ? ? ? E1 E2|f2 p l3 Hp3 Hb3 E1 E2]; subst.
        + change (text []) with (@nil N) in *. cbn [app] in *. eapply wp_mono; [apply (H3 run j o1); auto|]. intros [a|b] st'; [contradiction|]. cbn [Post].
          destruct run as [|c0 run]; [congruence|]. cbn [opt_piece]. rewrite text_cons in I1. change (text []) with (@nil N) in I1. rewrite app_nil_r in I1. unfold Post. intros G. rewrite <- I1, <- T1. exact G.
        + rewrite text_app, <- app_assoc in *. eapply wp_mono; [apply (H2 run p (text l3 ++ tail) j o1); auto|]. cbn beta. intros x st' [-> ->]. cbn [Post rem idx rops loc]. split.
          * exists l3. split; [left; eauto|]. repeat split; auto; cbn [rem idx rops loc]; [rewrite text_cons, text_app, !app_length in I1; lia|]. rewrite <- T1. destruct run as [|c0 run]; [congruence|]. cbn [opt_piece app].
            change ((c0 :: run, Some h) :: p ++ l3) with (((c0 :: run, Some h) :: p) ++ l3). rewrite tokens_app, rev_app_distr, <- app_assoc, text_cons, app_length, Nat.add_assoc. reflexivity.
          * cbn [rem]. apply Hitem in Hp3. rewrite text_cons, text_app, !app_length. destruct (text p); [congruence|]. cbn [length]. lia.
      - eapply wp_mono; [apply (H1 run (text l2 ++ tail) n j o1); [exact Hp|lia]|]. cbn beta. intros x st' [-> ->]. cbn [Post rem idx rops loc]. split.
        + exists ((run, Some h) :: l2). rewrite text_cons, <- app_assoc. split; [right; exists run, l2; repeat split; auto; lia|]. repeat split; auto. 
        + cbn [rem]. rewrite text_cons, !app_length. lia. }
    destruct C1 as [[-> [f1 Hl1]]|(run & l2 & E & Hr & Hp & Hb & Ln)]; [|eauto].
    destruct Hl1 as [f1|run l2 Hr Hp Hb|f1 p l2 Hp Hb].
    + eapply wp_mono; [apply (H3 [] j o1); auto|]. intros [a|b] st'; [contradiction|]. cbn [Post length opt_piece tokens rev app]. unfold Post. cbn in T1, I1. rewrite !Nat.add_0_r in *. subst j. intros G. rewrite <- T1. exact G.
    + eapply Hrun; eauto. lia.
    + rewrite text_app, <- app_assoc. eapply wp_mono; [apply (H2 [] p (text l2 ++ tail) j o1); [auto|exact Hp]|]. cbn beta. intros x st' [-> ->]. cbn [Post rem idx rops loc]. split.
      * exists l2. split; [left; eauto|]. cbn [rem idx rops loc]. repeat split; auto; [rewrite text_app, app_length in I1; cbn [length]; lia|]. cbn [length opt_piece app]. rewrite <- T1, tokens_app, rev_app_distr, <- app_assoc, Nat.add_0_r. reflexivity.
      * cbn [rem]. apply Hitem in Hp. rewrite text_app, !app_length. destruct (text p); [congruence|]. cbn [length]. lia.
Qed.
Lemma scan_body l f i o : string_body h plain item tail f l ->
  wp (hloop 1 body 0) (fun b st' => End (i + length (text l)) (rev (tokens i l) ++ o) b st') (mk_hst (text l ++ tail) i o s).
Proof. apply scan_body_at. lia. Qed.
End scan.
