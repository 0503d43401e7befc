(** * Matching of symbols by chains of [starts_with] *)
From Coq Require Import List NArith ZArith Bool Arith Lia.
From Verif Require Import M_Base L_Base M_Table L_Table M_Chars M_LangCpp M_TokenLoop S_Lexemes L_Lexemes.
Import ListNotations.

Lemma first_of_some s l d t : first_of s l d = Some t -> (In t l /\ starts_with s t = true) \/ d = Some t.
Proof.
  unfold first_of. destruct (find (starts_with s) l) as [u|] eqn:E; [|auto]. intros [= ->]. apply find_some in E. auto.
Qed.
Lemma starts_with_short t rest u : length u <= length t -> starts_with (t ++ rest) u = starts_with t u.
Proof.
  revert t. induction u as [|c u IH]; intros t L; [destruct t; destruct rest; reflexivity|]. destruct t as [|x t]; [cbn in L; lia|].
  cbn [app starts_with]. destruct (_ =? _)%N; [|reflexivity]. apply IH. cbn in L. lia.
Qed.
Lemma starts_with_long t u : length t < length u -> starts_with t u = false.
Proof. intros L. destruct (starts_with t u) eqn:E; [|reflexivity]. apply starts_with_length in E. lia. Qed.
(** The symbol that follows does not matter if it is the longest. *)
Lemma first_of_longest table t rest l d : longest table t rest -> (forall u, In u l -> exists h, In (u, h) table) ->
  first_of (t ++ rest) l d = first_of t l d.
Proof.
  intros H Hl. unfold first_of. enough (E : find (starts_with (t ++ rest)) l = find (starts_with t) l) by (rewrite E; reflexivity).
  induction l as [|u l IH]; [reflexivity|]. cbn [find].
  assert (E : starts_with (t ++ rest) u = starts_with t u).
  { destruct (Nat.le_gt_cases (length u) (length t)) as [L|L]; [apply starts_with_short; exact L|]. rewrite (starts_with_long t u L).
    destruct (starts_with (t ++ rest) u) eqn:E; [|reflexivity]. apply starts_with_app in E as [v E]. destruct (Hl u (or_introl eq_refl)) as [h Hh]. specialize (H u h v Hh E). lia. }
  rewrite E. destruct (starts_with t u); [reflexivity|]. apply IH. intros v Hv. apply Hl. right. exact Hv.
Qed.
Definition known (table : list (str * N)) (l : list str) : bool := forallb (fun u => existsb (fun e => str_eqb u (fst e)) table) l.
Lemma known_In table l : known table l = true -> forall u, In u l -> exists h, In (u, h) table.
Proof.
  unfold known. rewrite forallb_forall. intros H u Hu. specialize (H u Hu). apply existsb_exists in H as ([v h] & Hv & E). apply str_eqb_eq in E. cbn in E. subst. eauto.
Qed.

(** ** The codes are in the table of tokens. *)
Definition in_table {A} (tbl : list (str * A)) (t : str) : bool := match table_find tbl t with Some _ => true | None => false end.
Definition good_symbol {A} (tbl : list (str * A)) (s t : str) : Prop := starts_with s t = true /\ t <> [] /\ in_table tbl t = true.
Lemma good_first_of {A} (tbl : list (str * A)) s l d t : forallb (fun t => in_table tbl t && negb (length t =? 0)) l = true -> first_of s l d = Some t ->
  (forall u, d = Some u -> good_symbol tbl s u) -> good_symbol tbl s t.
Proof.
  intros F H D. apply first_of_some in H as [[H S]|H]; [|auto]. rewrite forallb_forall in F. specialize (F t H). apply andb_true_iff in F as [F1 F2]. repeat split; auto. destruct t; [discriminate F2|discriminate].
Qed.
Lemma good_one {A} (tbl : list (str * A)) c x s : (c =? x)%N = true -> in_table tbl [x] = true -> good_symbol tbl (c :: s) [c].
Proof. intros E H. apply N.eqb_eq in E. subst x. repeat split; [|discriminate|exact H]. cbn. rewrite N.eqb_refl. destruct s; reflexivity. Qed.
Lemma good_mem {A} (tbl : list (str * A)) c set s : mem c set = true -> forallb (fun x => in_table tbl [x]) set = true -> good_symbol tbl (c :: s) [c].
Proof. intros E H. apply mem_In in E. rewrite forallb_forall in H. eapply good_one; [apply N.eqb_refl|]. apply H. exact E. Qed.
Lemma good_symbol_len {A} (tbl : list (str * A)) s t : good_symbol tbl s t -> 0 < length t <= length s.
Proof. intros (H & Hn & _). apply starts_with_length in H. destruct t; [congruence|]. cbn [length] in *. lia. Qed.
Lemma good_symbol_find {A} (tbl : list (str * A)) s t : good_symbol tbl s t -> exists h, table_find tbl t = Some h.
Proof. intros (_ & _ & H). unfold in_table in H. destruct (table_find tbl t); [eauto|discriminate]. Qed.
(** Closes [good_symbol tbl (c :: s) t] from [H : match_symbol (c :: s) = Some t], unfolded. *)
Ltac symbol_cases H :=
  repeat match type of H with (if ?b then _ else _) = _ => let E := fresh "E" in destruct b eqn:E end;
  try discriminate H;
  try (eapply good_first_of; [|exact H|]; [vm_compute; reflexivity|]; clear H; intros ? H; try discriminate H);
  try (injection H as <-; first [eapply good_mem; [eassumption|vm_compute; reflexivity] | eapply good_one; [eassumption|vm_compute; reflexivity]]).

(** The symbol at the front does not depend on what follows. Goal: [f ((c :: t) ++ rest) = f (c :: t)]. *)
Ltac symbol_longest table H :=
  cbn [app];
  match goal with |- context [?c :: ?t ++ ?rest] => change (c :: t ++ rest) with ((c :: t) ++ rest) end;
  repeat match goal with |- (if ?b then _ else _) = _ => destruct b; try reflexivity end;
  try (apply (first_of_longest table); [exact H|apply known_In; vm_compute; reflexivity]).

Definition symbols_ok (f : str -> option str) (find : str -> option N) (symbols : list (str * N)) : bool :=
  forallb (fun e => match f (fst e) with Some u => str_eqb u (fst e) | None => false end
                    && match find (fst e) with Some h => (h =? snd e)%N | None => false end
                    && match fst e with [] => false | c :: _ => (c <? 128)%N end) symbols.
Lemma symbols_ok_In f find symbols : symbols_ok f find symbols = true -> forall t h, In (t, h) symbols ->
  f t = Some t /\ find t = Some h /\ exists c u, t = c :: u /\ (c < 128)%N.
Proof.
  unfold symbols_ok. rewrite forallb_forall. intros H t h Hi. specialize (H _ Hi). cbn [fst snd] in H. apply andb_true_iff in H as [H H3]. apply andb_true_iff in H as [H1 H2].
  destruct (f t) as [u|]; [|discriminate]. apply str_eqb_eq in H1. subst u. destruct (find t) as [h'|]; [|discriminate]. apply N.eqb_eq in H2. subst h'. destruct t as [|c u]; [discriminate|]. apply N.ltb_lt in H3. eauto 10.
Qed.

(** Words of a table *)
Definition identb (w : str) : bool := match w with [] => false | c :: t => is_cpp_ascii_identifier_start c && forallb is_cpp_ascii_identifier_continue t end.
Lemma identb_iff w : identb w = true <-> identifier w.
Proof.
  unfold identifier. destruct w as [|c t]; cbn [identb].
  - split; [discriminate|]. intros (? & ? & ? & _). discriminate.
  - rewrite andb_true_iff, ident_start_iff, forallb_forall. split.
    + intros [H1 H2]. exists c, t. repeat split; auto. apply Forall_forall. intros x Hx. apply ident_char_iff. auto.
    + intros (c' & t' & [= <- <-] & H1 & H2). split; [exact H1|]. intros x Hx. apply ident_char_iff. rewrite Forall_forall in H2. auto.
Qed.
Definition words_ok (tbl words : list (str * N)) : bool :=
  forallb (fun e => existsb (fun e' => str_eqb (fst e) (fst e')) words || negb (identb (fst e))) tbl
  && forallb (fun e => match table_find tbl (fst e) with Some h => (h =? snd e)%N | None => false end && identb (fst e)) words.
Lemma word_hit tbl words w h : words_ok tbl words = true -> In (w, h) words -> table_find tbl w = Some h /\ identifier w.
Proof.
  unfold words_ok. intros H Hi. apply andb_true_iff in H as [_ H]. rewrite forallb_forall in H. specialize (H _ Hi). cbn [fst snd] in H. apply andb_true_iff in H as [H1 H2]. split; [|apply identb_iff; exact H2].
  destruct (table_find tbl w) as [h'|]; [|discriminate]. apply N.eqb_eq in H1. subst. reflexivity.
Qed.
Lemma word_miss tbl words w : words_ok tbl words = true -> identifier w -> (forall h, ~ In (w, h) words) -> table_find tbl w = None.
Proof.
  unfold words_ok. intros H Hw Hn. apply andb_true_iff in H as [H _]. destruct (table_find tbl w) as [h|] eqn:E; [|reflexivity]. exfalso.
  apply table_find_In in E. rewrite forallb_forall in H. specialize (H _ E). cbn [fst] in H. apply orb_true_iff in H as [H|H].
  - apply existsb_exists in H as ([w' h'] & H1 & H2). apply str_eqb_eq in H2. cbn in H2. subst w'. eapply Hn. exact H1.
  - apply identb_iff in Hw. rewrite Hw in H. discriminate.
Qed.
Lemma in_table_some {A} (tbl : list (str * A)) t : in_table tbl t = true -> table_find tbl t <> None.
Proof. unfold in_table. destruct (table_find tbl t); discriminate. Qed.

(** ** Tactics for examples of programs *)
Ltac fa := repeat first [apply Forall_nil | apply Forall_cons; [first [discriminate | vm_compute; intuition discriminate]|]].
Ltac nb := let E := fresh in intros ? E; vm_compute in E; first [discriminate E | injection E as <-; vm_compute; intuition discriminate].
Ltac sym_longest := let u := fresh in let Hu := fresh in let E := fresh in intros u ? ? Hu E; cbv in Hu;
  repeat (destruct Hu as [Hu|Hu]; [injection Hu as <- <-; first [solve [cbn; lia] | discriminate E]|]); contradiction.
