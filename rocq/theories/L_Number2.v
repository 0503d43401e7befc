(** * Exact tokens of numbers in any base, with fractions without integer part. *)
From Coq Require Import List NArith ZArith Bool Arith Lia.
From Verif Require Import M_Base L_Base M_Types M_Chars M_Parse M_Api M_Emit M_LangCpp M_Highlighter S_Lexemes L_Lexemes L_Number.
Import ListNotations.

Lemma literal_exact o p (d : N -> Prop) allow base I f e x rest :
  suffix_cond o = true -> no_signs o = true -> good_exponents (no_exponents o) = true ->
  no_separator o <> 0%N -> no_separator o <> 46%N -> ~ d (no_separator o) -> ~ d 46%N ->
  (forall c, is_ascii_digit_base c base = true <-> d c) ->
  number_base o (p ++ text I ++ frac_text f ++ exp_text e ++ x ++ rest) (no_prefixes o) = Ok (length p, allow, base) ->
  grouped d (no_separator o) I \/ I = [] /\ no_nonempty_integer o = false /\ (exists f', f = Some f' /\ grouped digit (no_separator o) f') ->
  (forall f', f = Some f' -> allow = true /\ (f' = [] /\ exp_text e ++ x ++ rest <> [] /\ no_nonempty_fraction o = false \/ grouped d (no_separator o) f')) ->
  match e with
  | Some (es, ed) => allow = true /\ In es (map fst (no_exponents o)) /\ fst (fst (number_exponent es (no_exponents o))) = length es /\ ed <> [] /\ Forall digit ed
                     /\ not_before (fun c => d c \/ c = no_separator o) es
  | None => allow = true -> number_exponent (x ++ rest) (no_exponents o) = (0, 0, false)
  end ->
  (x ++ rest <> [] -> suffix_match o (x ++ rest) = length x) ->
  not_before (fun c => if e then digit c else d c \/ c = no_separator o \/ c = 46%N) (x ++ rest) ->
  match_common_number (p ++ text I ++ frac_text f ++ exp_text e ++ x ++ rest) o = Ok (mk_number (length p + length (text I) + length (frac_text f) + length (exp_text e) + length x)
    0 (length p) (length (text I)) (match f with None => 0 | Some _ => 1 end) (match f with None => 0 | Some f => length (text f) end)
    (match e with None => 0 | Some (e, _) => length e end) (match e with None => 0 | Some (_, d) => length d end) (length x) false).
Proof.
  intros SC HS HEx S0 S46 Sd D46 Hd HB GI GF GE GX R3.
  unfold no_signs in HS. apply andb_true_iff in HS as [HS1 HS2]. rewrite negb_true_iff in HS1, HS2.
  assert (HEh : forall es ed, e = Some (es, ed) -> exists c t, es = c :: t /\ is_cpp_ascii_identifier_continue c = true).
  { intros es ed ->. destruct GE as (_ & GE & _). apply in_map_iff in GE as ([u b] & <- & GE). pose proof HEx as X. unfold good_exponents in X. rewrite forallb_forall in X. specialize (X _ GE). cbn [fst] in *. destruct u as [|c u]; [discriminate X|].
    apply andb_true_iff in X as [X1 X2]. exists c, u. auto. }
  assert (R2 : not_before (fun c => d c \/ c = no_separator o \/ c = 46%N) (exp_text e ++ x ++ rest)).
  { destruct e as [[es ed]|]; cbn [exp_text app]; [|eapply not_before_impl; [|exact R3]; cbn beta; tauto]. destruct (HEh es ed eq_refl) as (c & t & -> & C1). destruct GE as (_ & _ & _ & _ & _ & GE). specialize (GE c eq_refl). cbn beta in GE. cbn [app]. apply not_before_cons.
    intros [D|[D|D]]; try tauto. subst c. discriminate C1. }
  assert (R1 : not_before (fun c => d c \/ c = no_separator o) (frac_text f ++ exp_text e ++ x ++ rest)).
  { destruct f as [f|]; cbn [frac_text app]; [|eapply not_before_impl; [|exact R2]; tauto]. apply not_before_cons. intros [D|D]; congruence. }
  assert (R2' : not_before (fun c => d c \/ c = no_separator o) (exp_text e ++ x ++ rest)) by (eapply not_before_impl; [|exact R2]; tauto).
  apply (number_exact o p I f e x rest allow base).
  - exact SC.
  - destruct GI as [GI|(-> & H1 & f' & -> & G)]; [left; eapply grouped_ne; exact GI|right]. split; [exact H1|]. destruct (grouped_second _ _ _ G) as (c & t & E & Hc & _). exists f', c, t. split; [reflexivity|]. split; [exact E|]. apply digit_iff. exact Hc.
  - congruence.
  - congruence.
  - exact HB.
  - destruct GI as [GI|(-> & _ & f' & -> & G)]; [apply (separated_exact d); assumption|]. cbn [frac_text app text map concat]. unfold match_separated_digits. rewrite (proj2 (N.eqb_neq _ _) S0). cbn [separated_loop].
    rewrite (proj2 (N.eqb_neq 46 _)) by congruence. destruct (is_ascii_digit_base 46 base) eqn:E; [apply Hd in E; contradiction|]. reflexivity.
  - destruct f as [f|].
    + destruct (GF f eq_refl) as (-> & [(-> & H1 & H2)|G]); (split; [reflexivity|]).
      * split; [|congruence]. cbn [text map concat length]. unfold match_separated_digits. rewrite (proj2 (N.eqb_neq _ _) S0). cbn [app]. destruct (exp_text e ++ x ++ rest) as [|c t]; [congruence|]. cbn [separated_loop].
        specialize (R2' c eq_refl). cbn beta in R2'. rewrite (proj2 (N.eqb_neq c _)) by tauto. destruct (is_ascii_digit_base c base) eqn:E; [apply Hd in E; tauto|]. reflexivity.
      * split; [apply (separated_exact d); assumption|]. intros _. eapply grouped_ne. exact G.
    + intros _. destruct (exp_text e ++ x ++ rest) as [|c t]; [reflexivity|]. cbn [starts_with_ch]. specialize (R2 c eq_refl). cbn beta in R2. apply N.eqb_neq. tauto.
  - destruct e as [[es ed]|].
    + destruct GE as (-> & G1 & G2 & G3 & G4 & G5). split; [reflexivity|]. destruct (HEh es ed eq_refl) as (c & t & E & _). split; [rewrite E; discriminate|]. apply exponent_exact; try assumption. rewrite E; discriminate.
    + intros A _. apply GE. exact A.
  - exact GX.
Qed.

(** No base prefix: every prefix has two characters. *)
Definition two_prefixes (o : number_options) : bool := forallb (fun p => match np_str p with [_; _] => true | _ => false end) (no_prefixes o).
Definition prefix_letters (o : number_options) : list N := map (fun p => nth 1 (np_str p) 0%N) (no_prefixes o).
Lemma decimal_base o c s : two_prefixes o = true -> no_base o = 10%Z -> no_zero_base o = 10%Z -> not_before (fun x => In x (prefix_letters o)) s ->
  number_base o (c :: s) (no_prefixes o) = Ok (0, true, 10%Z).
Proof.
  intros Z B B0 R. rewrite number_base_none; [rewrite B, B0; destruct (starts_with_ch _ _); reflexivity|]. unfold two_prefixes in Z. rewrite forallb_forall in Z. apply Forall_forall. intros p Hp. specialize (Z p Hp).
  assert (I : In (nth 1 (np_str p) 0%N) (prefix_letters o)) by (apply (in_map (fun p => nth 1 (np_str p) 0%N)); exact Hp).
  destruct (np_str p) as [|a [|b [|? ?]]]; try discriminate Z. split; [discriminate|]. cbn [nth starts_with] in *. destruct (c =? a)%N; [|reflexivity].
  destruct s as [|y s]; [reflexivity|]. cbn [starts_with]. specialize (R y eq_refl). cbn beta in R. rewrite (proj2 (N.eqb_neq y b)) by congruence. reflexivity.
Qed.
(** No exponent *)
Definition exponent_letters (o : number_options) : list N := map (fun e => hd 0%N (fst e)) (no_exponents o).
Lemma no_exponent o s : good_exponents (no_exponents o) = true -> not_before (fun x => In x (exponent_letters o)) s -> number_exponent s (no_exponents o) = (0, 0, false).
Proof.
  intros G R. apply exponent_none; [exact G|]. intros u b c t Hi -> E. apply (R c E). apply in_map_iff. exists (c :: t, b). auto.
Qed.
