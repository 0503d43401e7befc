(** * Exact runs of highlighters on programs whose lexemes depend on a state *)
From Coq Require Import List NArith Bool Arith Lia.
From Verif Require Import M_Base L_Base M_Emit M_Highlighter L_Highlighter S_Lexemes L_Lexemes S_States.
Import ListNotations.

Section states.
Context {S A : Type} (state : A -> S) (lexeme : A -> list piece -> str -> A -> Prop) (token : M S unit).
Hypothesis Hhead : forall s p r s', lexeme s p r s' -> text p <> [].
Hypothesis Htoken : forall s p r s' i o, lexeme s p r s' ->
  wp token (fun _ st' => st' = mk_hst r (i + length (text p)) (rev (tokens i p) ++ o) (state s')) (mk_hst (text p ++ r) i o (state s)).
Lemma while_states_wp l s i0 o0 : sequence lexeme s l -> wp (while_rem token) (fun _ st' => rops st' = rev (tokens i0 l) ++ o0) (mk_hst (text l) i0 o0 (state s)).
Proof.
  intros Hl. unfold while_rem. apply wp_hloop with (mu := fun _ st' => length (rem st'))
      (Inv := fun _ st' => exists s1 l1, sequence lexeme s1 l1 /\ rem st' = text l1 /\ rev (tokens (idx st') l1) ++ rops st' = rev (tokens i0 l) ++ o0 /\ loc st' = state s1).
  - exists s, l. repeat split. exact Hl.
  - cbn [rem]. lia.
  - intros _ [r i o x] (s1 & l1 & P1 & R1 & T1 & L1). cbn [rem idx rops loc] in *. subst r x. apply wp_bind. destruct P1 as [s1|s1 p s2 q Hp Hq].
      + apply wp_eof; cbn [rem]; intros He; [|elim He; reflexivity]. apply wp_ret. cbn [rops tokens rev app] in *. exact T1.
      + pose proof (Hhead _ _ _ _ Hp) as Hne. rewrite text_app, tokens_app in *. apply wp_eof; cbn [rem]; intros He; [apply app_eq_nil in He; tauto|].
        apply wp_bind. eapply wp_mono; [apply Htoken; exact Hp|]. cbn beta. intros _ st' ->. apply wp_ret. cbn [rem idx rops loc]. split.
        * exists s2, q. repeat split; try assumption. rewrite <- T1, rev_app_distr, <- app_assoc. reflexivity.
        * rewrite app_length. destruct (text p); [contradiction|]. cbn [length]. lia.
Qed.
Lemma while_states_exact l s : sequence lexeme s l -> run (state s) (while_rem token ;; ret true) (text l) = Ok (true, tokens 0 l).
Proof.
  intros Hl. set (st0 := mk_hst (text l) 0 [] (state s)). pose proof (while_states_wp l s 0 [] Hl) as W. rewrite app_nil_r in W. fold st0 in W.
  unfold run, bindM. fold st0. unfold wp in W. destruct (while_rem token st0) as [[[] st']|]; [|contradiction]. unfold ret. rewrite W, rev_involutive. reflexivity.
Qed.
End states.
