(** * JSON numbers: the matcher against the grammar. *)
From Coq Require Import List NArith ZArith Bool Arith Lia.
From Verif Require Import M_Base L_Base M_Types M_Chars M_Parse L_Parse M_Json S_Json.
Import ListNotations.

(** The text does not start with a character in [p]. *)
Definition unless_head (p : N -> Prop) (s : str) : Prop :=
  match s with [] => True | c :: _ => ~ p c end.

Lemma digit_iff c : is_ascii_digit c = true <-> digit c.
Proof.
  unfold is_ascii_digit, between, digit. rewrite andb_true_iff, !N.leb_le. reflexivity.
Qed.

Definition all_digits (s : str) : Prop := Forall digit s.

Lemma all_digits_bool s : all_digits s -> Forall (fun c => is_ascii_digit c = true) s.
Proof. apply Forall_impl. intros c. apply digit_iff. Qed.

Lemma digits1_iff s : digits1 s <-> s <> [] /\ all_digits s.
Proof.
  split.
  - induction 1 as [c H|c s H _ [_ IH]]; (split; [discriminate|]); (apply Forall_cons; [exact H|]); [apply Forall_nil|exact IH].
  - intros [H0 H]. induction H as [|c s H Hs IH]; [congruence|].
    destruct s as [|d s]; [constructor; assumption|]. constructor; [assumption|]. apply IH. discriminate.
Qed.

Lemma match_digits_app d r : all_digits d -> unless_head digit r ->
  json_match_digits (d ++ r) = length d.
Proof.
  intros H1 H2. unfold json_match_digits. rewrite length_if_eq.
  rewrite prefix_len_app_all by (apply all_digits_bool; assumption).
  destruct r as [|c r]; cbn; [lia|]. destruct (is_ascii_digit c) eqn:E; [|lia].
  apply digit_iff in E. contradiction.
Qed.

Lemma digits_split s : exists d r, s = d ++ r /\ all_digits d /\ unless_head digit r.
Proof.
  induction s as [|c s (d & r & -> & H1 & H2)].
  - exists [], []. repeat split. constructor.
  - destruct (is_ascii_digit c) eqn:E.
    + apply digit_iff in E. exists (c :: d), r. repeat split; auto. constructor; auto.
    + exists [], (c :: d ++ r). repeat split; [constructor|]. cbn. intros H. apply digit_iff in H. congruence.
Qed.

Definition is_minus (c : N) : Prop := c = ch "-".
Definition is_point (c : N) : Prop := c = ch ".".
Definition is_e (c : N) : Prop := c = ch "e" \/ c = ch "E".
Definition is_sign (c : N) : Prop := c = ch "+" \/ c = ch "-".

Lemma starts_ch_false s c : unless_head (fun x => x = c) s -> starts_with_ch s c = false.
Proof. destruct s as [|x s]; cbn; [auto|]. intros H. apply N.eqb_neq. congruence. Qed.
Lemma starts_ch_true c s : starts_with_ch (c :: s) c = true.
Proof. cbn. apply N.eqb_refl. Qed.

(** The decomposition the matcher makes. *)
Inductive frac_shape : str -> str -> bool -> Prop :=
| fs_none : forall r, unless_head is_point r -> frac_shape [] r false
| fs_some : forall d r, all_digits d -> unless_head digit r ->
    frac_shape (ch "." :: d) r (length d =? 0).
Inductive exp_shape : str -> str -> bool -> Prop :=
| es_none : forall r, unless_head is_e r -> exp_shape [] r false
| es_plain : forall c d r, is_e c -> all_digits d -> unless_head digit r ->
    unless_head is_sign (d ++ r) -> exp_shape (c :: d) r (length d =? 0)
| es_signed : forall c g d r, is_e c -> is_sign g -> all_digits d -> unless_head digit r ->
    exp_shape (c :: g :: d) r (length d =? 0).
Inductive shape : str -> str -> str -> str -> str -> bool -> Prop :=
| shape_intro : forall m i f e r e2 e3,
    (m = [] /\ unless_head is_minus (i ++ f ++ e ++ r) \/ m = [ch "-"]) ->
    all_digits i -> unless_head digit (f ++ e ++ r) ->
    frac_shape f (e ++ r) e2 -> exp_shape e r e3 ->
    shape m i f e r ((length i =? 0) || ((2 <=? length i) && starts_with_ch i (ch "0")) || e2 || e3).

Lemma unless_head_app p a b : a <> [] -> unless_head p (a ++ b) -> unless_head p a.
Proof. destruct a; cbn; auto. Qed.

Lemma starts_e_false s : unless_head is_e s -> starts_with_ch s (ch "e") || starts_with_ch s (ch "E") = false.
Proof.
  intros H. rewrite !starts_ch_false; auto; destruct s; cbn in *; auto; unfold is_e in H; tauto.
Qed.
Lemma starts_e_true c s : is_e c -> starts_with_ch (c :: s) (ch "e") || starts_with_ch (c :: s) (ch "E") = true.
Proof. intros [->| ->]; reflexivity. Qed.
Lemma starts_sign_false s : unless_head is_sign s -> starts_with_ch s (ch "+") || starts_with_ch s (ch "-") = false.
Proof.
  intros H. rewrite !starts_ch_false; auto; destruct s; cbn in *; auto; unfold is_sign in H; tauto.
Qed.
Lemma starts_sign_true c s : is_sign c -> starts_with_ch (c :: s) (ch "+") || starts_with_ch (c :: s) (ch "-") = true.
Proof. intros [->| ->]; reflexivity. Qed.

Lemma starts_ch_app_digits i t : unless_head digit t ->
  starts_with_ch (i ++ t) (ch "0") = starts_with_ch i (ch "0").
Proof.
  destruct i as [|c i]; [|reflexivity]. destruct t as [|c t]; [reflexivity|]. cbn. intros H.
  apply N.eqb_neq. intros ->. apply H. unfold digit, ch. cbn. lia.
Qed.

Lemma match_number_shape m i f e r err : shape m i f e r err ->
  json_match_number (m ++ i ++ f ++ e ++ r)
  = Ok (mk_json_number (length m + length i + length f + length e) (length m + length i) (length f)
          (length e) (err && negb (length m + length i + length f + length e =? 0))).
Proof.
  intros H. destruct H as [m i f e r e2 e3 Hm Hi Hd Hf He].
  unfold json_match_number. cbv zeta.
  assert (Em : (if starts_with_ch (m ++ i ++ f ++ e ++ r) (ch "-") then 1 else 0) = length m).
  { destruct Hm as [[-> H]| ->]; [|reflexivity]. cbn [app]. rewrite starts_ch_false; auto. }
  rewrite Em, skipn_app_exact. rewrite match_digits_app by assumption.
  rewrite skipn_app_exact.
  assert (Ei : starts_with_ch (i ++ f ++ e ++ r) (ch "0") = starts_with_ch i (ch "0")).
  { apply starts_ch_app_digits. assumption. }
  rewrite Ei.
  assert (Ef : (if starts_with_ch (f ++ e ++ r) (ch ".") then
      let fractional_digits := json_match_digits (skipn 1 (f ++ e ++ r)) in
      (fractional_digits + 1, fractional_digits =? 0)
    else (0, false)) = (length f, e2)).
  { remember (e ++ r) as er eqn:Eer. destruct Hf as [er Hp|d er Hd1 Hd2].
    - cbn [app]. rewrite starts_ch_false; auto.
    - cbn [app]. rewrite starts_ch_true. cbn [skipn]. rewrite match_digits_app by assumption.
      cbn [length]. f_equal. lia. }
  cbv zeta in Ef. rewrite Ef, skipn_app_exact.
  assert (Ee : (if starts_with_ch (e ++ r) (ch "e") || starts_with_ch (e ++ r) (ch "E") then
      let s4 := skipn 1 (e ++ r) in
      let sign := if starts_with_ch s4 (ch "+") || starts_with_ch s4 (ch "-") then 1 else 0 in
      let exponent_digits := json_match_digits (skipn sign s4) in
      (1 + sign + exponent_digits, exponent_digits =? 0)
    else (0, false)) = (length e, e3)).
  { destruct He as [r Hp|c d r Hc Hd1 Hd2 Hs|c g d r Hc Hg Hd1 Hd2].
    - cbn [app]. rewrite starts_e_false by assumption. reflexivity.
    - cbn [app]. rewrite starts_e_true by assumption. cbn [skipn]. cbv zeta.
      rewrite starts_sign_false by assumption. cbn [skipn].
      rewrite match_digits_app by assumption. reflexivity.
    - cbn [app]. rewrite starts_e_true by assumption. cbn [skipn]. cbv zeta.
      rewrite starts_sign_true by assumption. cbn [skipn].
      rewrite match_digits_app by assumption. reflexivity. }
  cbv zeta in Ee. rewrite Ee. rewrite Nat.eqb_refl. reflexivity.
Qed.

Lemma unless_head_dec (p : N -> bool) s :
  (exists c r, s = c :: r /\ p c = true) \/ unless_head (fun c => p c = true) s.
Proof.
  destruct s as [|c r]; [right; exact I|]. destruct (p c) eqn:E; [left; eauto|right; cbn; congruence].
Qed.
Lemma unless_head_impl (p q : N -> Prop) s : (forall c, q c -> p c) -> unless_head p s -> unless_head q s.
Proof. destruct s; cbn; auto. Qed.

Lemma shape_exists s : exists m i f e r err, s = m ++ i ++ f ++ e ++ r /\ shape m i f e r err.
Proof.
  assert (Hm : exists m s1, s = m ++ s1 /\ (m = [] /\ unless_head is_minus s1 \/ m = [ch "-"])).
  { destruct (unless_head_dec (N.eqb (ch "-")) s) as [(c & r & -> & H)|H].
    - apply N.eqb_eq in H. subst. exists [ch "-"], r. auto.
    - exists [], s. split; auto. left. split; auto. eapply unless_head_impl; [|exact H].
      intros c ->. apply N.eqb_refl. }
  destruct Hm as (m & s1 & -> & Hm). destruct (digits_split s1) as (i & s2 & -> & Hi & Hd).
  assert (Hf : exists f s3 e2, s2 = f ++ s3 /\ frac_shape f s3 e2).
  { destruct (unless_head_dec (N.eqb (ch ".")) s2) as [(c & r & -> & H)|H].
    - apply N.eqb_eq in H. subst. destruct (digits_split r) as (d & r' & -> & H1 & H2).
      exists (ch "." :: d), r'. eexists. split; [reflexivity|]. constructor; assumption.
    - exists [], s2, false. split; auto. constructor. eapply unless_head_impl; [|exact H].
      intros c ->. apply N.eqb_refl. }
  destruct Hf as (f & s3 & e2 & -> & Hf).
  assert (He : exists e r e3, s3 = e ++ r /\ exp_shape e r e3).
  { destruct (unless_head_dec (fun c => (c =? ch "e")%N || (c =? ch "E")%N) s3) as [(c & r & -> & H)|H].
    - assert (Hc : is_e c).
      { apply orb_prop in H as [H|H]; apply N.eqb_eq in H; [left|right]; assumption. }
      destruct (unless_head_dec (fun c => (c =? ch "+")%N || (c =? ch "-")%N) r) as [(g & r' & -> & G)|G].
      + assert (Hg : is_sign g).
        { apply orb_prop in G as [G|G]; apply N.eqb_eq in G; [left|right]; assumption. }
        destruct (digits_split r') as (d & r2 & -> & H1 & H2).
        exists (c :: g :: d), r2. eexists. split; [reflexivity|]. constructor; assumption.
      + destruct (digits_split r) as (d & r2 & -> & H1 & H2).
        exists (c :: d), r2. eexists. split; [reflexivity|]. constructor; try assumption.
        eapply unless_head_impl; [|exact G]. intros x [->| ->]; reflexivity.
    - exists [], s3, false. split; auto. constructor. eapply unless_head_impl; [|exact H].
      intros x [->| ->]; reflexivity. }
  destruct He as (e & r & e3 & -> & He).
  exists m, i, f, e, r. eexists. split; [reflexivity|]. eapply shape_intro; eassumption.
Qed.

Lemma unless_head_cut p a b : unless_head p (a ++ b) -> unless_head p a.
Proof. destruct a; cbn; auto. Qed.

Lemma shape_cut m i f e r err : shape m i f e r err -> shape m i f e [] err.
Proof.
  intros H. destruct H as [m i f e r e2 e3 Hm Hi Hd Hf He]. constructor; auto.
  - destruct Hm as [[-> H]|H]; [left|right; exact H]. split; auto. rewrite app_nil_r.
    rewrite !app_assoc in H. apply unless_head_cut in H. rewrite <- !app_assoc in H. exact H.
  - rewrite app_nil_r. rewrite app_assoc in Hd. apply unless_head_cut in Hd. exact Hd.
  - rewrite app_nil_r. remember (e ++ r) as er. destruct Hf as [er Hp|d er H1 H2]; subst er; constructor; auto;
      eapply unless_head_cut; eassumption.
  - destruct He; constructor; auto; try exact I. rewrite app_nil_r. eapply unless_head_cut. eassumption.
Qed.

(** What may follow a number: nothing that could continue one. *)
Definition continues_number (c : N) : Prop := digit c \/ is_point c \/ is_e c.

Lemma digit_not c : digit c -> ~ is_minus c /\ ~ is_point c /\ ~ is_e c /\ ~ is_sign c.
Proof.
  unfold digit, is_minus, is_point, is_e, is_sign. change (ch "-") with 45%N. change (ch ".") with 46%N.
  change (ch "e") with 101%N. change (ch "E") with 69%N. change (ch "+") with 43%N. lia.
Qed.
Lemma e_not c : is_e c -> ~ is_minus c /\ ~ is_point c /\ ~ digit c.
Proof.
  unfold digit, is_minus, is_point, is_e, is_sign. change (ch "-") with 45%N. change (ch ".") with 46%N.
  change (ch "e") with 101%N. change (ch "E") with 69%N. change (ch "+") with 43%N. lia.
Qed.
Lemma point_not c : is_point c -> ~ is_minus c /\ ~ is_e c /\ ~ digit c.
Proof.
  unfold digit, is_minus, is_point, is_e, is_sign. change (ch "-") with 45%N. change (ch ".") with 46%N.
  change (ch "e") with 101%N. change (ch "E") with 69%N. change (ch "+") with 43%N. lia.
Qed.

Lemma digits1_length s : digits1 s -> (length s =? 0) = false.
Proof. destruct 1; reflexivity. Qed.

Lemma int_facts i : json_int i -> all_digits i /\ i <> [] /\
  ((length i =? 0) || ((2 <=? length i) && starts_with_ch i (ch "0"))) = false.
Proof.
  destruct 1 as [|c Hc|c s Hc Hs].
  - split; [|split]; [apply Forall_cons; [unfold digit; cbn; lia|apply Forall_nil]|discriminate|reflexivity].
  - split; [|split]; [apply Forall_cons; [unfold digit; lia|apply Forall_nil]|discriminate|reflexivity].
  - apply digits1_iff in Hs as [H1 H2]. split; [|split]; [constructor; [unfold digit; lia|assumption]|discriminate|].
    cbn [length]. destruct (2 <=? _); [|reflexivity]. cbn.
    apply N.eqb_neq. lia.
Qed.

Lemma number_shape t r : json_number t -> unless_head continues_number r ->
  exists m i f e, t = m ++ i ++ f ++ e /\ shape m i f e r false.
Proof.
  intros [m i f e Hm Hi Hf He] Hr. exists m, i, f, e. split; [reflexivity|].
  destruct (int_facts i Hi) as (Hi1 & Hi2 & Hi3).
  assert (He' : exp_shape e r false /\ unless_head digit (e ++ r) /\ unless_head is_point (e ++ r)).
  { destruct He as [|e0 g d He0 Hg Hd].
    - split; [constructor|split]; (eapply unless_head_impl; [|exact Hr]); unfold continues_number; tauto.
    - apply digits1_iff in Hd as [D1 D2].
      assert (L : (length d =? 0) = false) by (destruct d; [congruence|reflexivity]).
      assert (Hr1 : unless_head digit r) by (eapply unless_head_impl; [|exact Hr]; unfold continues_number; tauto).
      assert (C : exists c, e0 = [c] /\ is_e c).
      { destruct He0 as [<-|[<-|[]]]; eexists; (split; [reflexivity|]); [left|right]; reflexivity. }
      destruct C as (c & -> & Hc). split.
      + destruct Hg as [<-|[<-|[<-|[]]]].
        * rewrite <- L. apply es_plain; auto. destruct d as [|x d]; [congruence|]. cbn.
          inversion D2 as [|? ? Dx]. now apply digit_not in Dx.
        * pose proof (es_signed c (ch "+") d r Hc (or_introl eq_refl) D2 Hr1) as X. rewrite L in X. exact X.
        * pose proof (es_signed c (ch "-") d r Hc (or_intror eq_refl) D2 Hr1) as X. rewrite L in X. exact X.
      + cbn. apply e_not in Hc. tauto. }
  destruct He' as (E1 & E2 & E3).
  assert (Hf' : frac_shape f (e ++ r) false /\ unless_head digit (f ++ e ++ r)).
  { destruct Hf as [|d Hd].
    - split; [constructor; assumption|assumption].
    - apply digits1_iff in Hd as [D1 D2].
      assert (L : (length d =? 0) = false) by (destruct d; [congruence|reflexivity]).
      split; [pose proof (fs_some d (e ++ r) D2 E2) as X; rewrite L in X; exact X|].
      change (bs "." ++ d) with (ch "." :: d). cbn [app unless_head]. intros H.
      apply digit_not in H. destruct H as (_ & H & _). apply H. reflexivity. }
  destruct Hf' as (F1 & F2).
  assert (Hm' : m = [] /\ unless_head is_minus (i ++ f ++ e ++ r) \/ m = [ch "-"]).
  { destruct Hm as [<-|[<-|[]]]; [left|right; reflexivity]. split; [reflexivity|].
    destruct i as [|x i]; [congruence|]. cbn. inversion Hi1 as [|? ? Dx]. now apply digit_not in Dx. }
  pose proof (shape_intro m i f e r false false Hm' Hi1 F2 F1 E1) as H.
  rewrite Hi3 in H. exact H.
Qed.

Lemma shape_number m i f e r : shape m i f e r false -> json_number (m ++ i ++ f ++ e).
Proof.
  intros H. remember false as b eqn:Eb. destruct H as [m i f e r e2 e3 Hm Hi Hd Hf He].
  apply orb_false_elim in Eb as [Eb E3]. apply orb_false_elim in Eb as [Eb E2]. subst.
  apply orb_false_elim in Eb as [E0 E1].
  constructor.
  - destruct Hm as [[-> _]| ->]; cbn; auto.
  - destruct Hi as [|c i Hc Hi]; [discriminate|]. destruct i as [|d i].
    + destruct (N.eq_dec c 48) as [->|Hn]; [constructor|]. constructor. unfold digit in Hc. lia.
    + change (2 <=? length (c :: d :: i)) with true in E1. cbn [andb] in E1.
      cbn [starts_with_ch] in E1. apply N.eqb_neq in E1. change (ch "0") with 48%N in E1.
      constructor; [unfold digit in Hc; lia|]. apply digits1_iff. split; [discriminate|assumption].
  - remember false as b2. remember (e ++ r) as er. destruct Hf as [er Hp|d er H1 H2]; [constructor|].
    apply (frac_some d). apply digits1_iff. split; [|assumption]. intros ->. discriminate Heqb2.
  - remember false as b3. destruct He as [r Hp|c d r Hc H1 H2 Hs|c g d r Hc Hg H1 H2]; [constructor| |].
    + apply (exp_some [c] []); [|cbn; auto|].
      * destruct Hc as [->| ->]; cbn; auto.
      * apply digits1_iff. split; [|assumption]. intros ->. discriminate Heqb3.
    + apply (exp_some [c] [g] d).
      * destruct Hc as [->| ->]; cbn; auto.
      * destruct Hg as [->| ->]; cbn; auto.
      * apply digits1_iff. split; [|assumption]. intros ->. discriminate Heqb3.
Qed.

(** A run of digits inside a maximal one. *)
Lemma run_prefix d t d' t' : d ++ t = d' ++ t' -> all_digits d -> all_digits d' -> unless_head digit t' ->
  exists x, d' = d ++ x /\ t = x ++ t'.
Proof.
  intros E H. revert d' E. induction H as [|c d Hc Hd IH]; intros d' E Hd' Ht'; cbn in *.
  - exists d'. auto.
  - destruct d' as [|c' d']; cbn in E.
    + subst t'. cbn in Ht'. contradiction.
    + injection E as <- E. inversion Hd' as [|? ? D1 D2]. subst.
      destruct (IH d' E D2 Ht') as (x & -> & ->). exists x. auto.
Qed.

(** No JSON number at the start of the text is longer than the match. *)
Lemma shape_longest m i f e r err p t : shape m i f e r err -> json_number p ->
  m ++ i ++ f ++ e ++ r = p ++ t -> length p <= length m + length i + length f + length e.
Proof.
  intros H [m' i' f' e' Hm' Hi' Hf' He']. destruct H as [m i f e r e2 e3 Hm Hi Hd Hf He].
  intros E. destruct (int_facts i' Hi') as (Hi1 & Hi2 & _).
  rewrite !app_length.
  assert (Em : m = m').
  { destruct Hm as [[-> H]| ->], Hm' as [<-|[<-|[]]]; auto; exfalso.
    - cbn [app] in E. rewrite E in H. cbn in H. apply H. reflexivity.
    - destruct i' as [|x i']; [congruence|]. cbn in E. injection E as <- _. inversion Hi1 as [|? ? Dx].
      apply digit_not in Dx. destruct Dx as (D & _). apply D. reflexivity. }
  subst m'. rewrite <- !app_assoc in E. apply app_inv_head in E.
  symmetry in E. destruct (run_prefix _ _ _ _ E Hi1 Hi Hd) as (x & -> & E').
  rewrite app_length. destruct x as [|x0 x].
  2:{ (* the number's integer part is shorter: nothing follows it *)
    assert (Dx : digit x0).
    { unfold all_digits in Hi. rewrite Forall_app in Hi. destruct Hi as [_ Hi]. now inversion Hi. }
    apply digit_not in Dx as (_ & D1 & D2 & _).
    destruct Hf' as [|d' Hd'].
    - destruct He' as [|e0 g d' He0 Hg Hd']; [cbn; lia|]. exfalso. apply D2.
      destruct He0 as [<-|[<-|[]]]; cbn in E'; injection E' as <- _; [left|right]; reflexivity.
    - exfalso. apply D1. cbn in E'. injection E' as <- _. reflexivity. }
  cbn [app] in E'. cbn [length]. clear E Hi Hi1 Hi2.
  assert (Lf : f' = [] /\ e' = [] \/ f' = [] /\ f = [] \/ exists d' d, f' = ch "." :: d' /\ f = ch "." :: d /\ digits1 d').
  { remember (e ++ r) as er eqn:Eer. destruct Hf' as [|d' Hd'].
    - destruct He' as [|e0 g d' He0 Hg Hd']; [auto|]. right. left. split; [reflexivity|].
      destruct Hf as [er Hp|d er H1 H2]; [reflexivity|]. exfalso.
      assert (P : is_e (ch ".")).
      { destruct He0 as [<-|[<-|[]]]; cbn in E'; injection E' as E' _; [left|right]; congruence. }
      apply e_not in P. destruct P as (_ & P & _). apply P. reflexivity.
    - right. right. destruct Hf as [er Hp|d er H1 H2].
      + exfalso. cbn in E'. subst er. rewrite <- E' in Hp. cbn in Hp. apply Hp. reflexivity.
      + exists d', d. auto. }
  destruct Lf as [[-> ->]|[[-> ->]|(d' & d & -> & -> & Hd')]]; [cbn; lia| |].
  - cbn [app length] in *.
    enough (length e' <= length e) by lia. clear Hf Hf' Hd.
    destruct He' as [|e0 g d' He0 Hg Hd']; [cbn; lia|].
    assert (C : exists c, e0 = [c] /\ is_e c).
    { destruct He0 as [<-|[<-|[]]]; eexists; (split; [reflexivity|]); [left|right]; reflexivity. }
    destruct C as (c0 & -> & Hc0). rewrite <- !app_assoc in E'.
    apply digits1_iff in Hd' as [D1 D2].
    destruct He as [r Hp|c d r Hc H1 H2 Hs|c g0 d r Hc Hg0 H1 H2].
    + cbn in E'. rewrite <- E' in Hp. cbn in Hp. contradiction.
    + cbn in E'. injection E' as <- E'.
      destruct Hg as [<-|[<-|[<-|[]]]]; cbn in E'.
      * destruct (run_prefix _ _ _ _ E' D2 H1 H2) as (x & -> & _). cbn. rewrite app_length. lia.
      * rewrite <- E' in Hs. cbn in Hs. exfalso. apply Hs. left; reflexivity.
      * rewrite <- E' in Hs. cbn in Hs. exfalso. apply Hs. right; reflexivity.
    + cbn in E'. injection E' as <- E'.
      destruct Hg as [<-|[<-|[<-|[]]]]; cbn in E'.
      * destruct d' as [|y d']; [congruence|]. cbn in E'. injection E' as <- _. inversion D2 as [|? ? Dy].
        apply digit_not in Dy. tauto.
      * injection E' as _ E'. destruct (run_prefix _ _ _ _ E' D2 H1 H2) as (x & -> & _).
        cbn. rewrite app_length. lia.
      * injection E' as _ E'. destruct (run_prefix _ _ _ _ E' D2 H1 H2) as (x & -> & _).
        cbn. rewrite app_length. lia.
  - cbn [app] in E'. injection E' as E'. apply digits1_iff in Hd' as [D1 D2].
    assert (Hdd : all_digits d /\ unless_head digit (e ++ r)).
    { remember (ch "." :: d) as fd eqn:Efd. remember (e ++ r) as er. destruct Hf as [er Hp|d2 er H1 H2]; [discriminate|].
      injection Efd as ->. auto. }
    destruct Hdd as [Hd1 Hd2]. try rewrite <- !app_assoc in E'.
    destruct (run_prefix _ _ _ _ E' D2 Hd1 Hd2) as (x & -> & E''). cbn [length]. rewrite app_length.
    destruct x as [|x0 x].
    2:{ assert (Dx : digit x0).
        { unfold all_digits in Hd1. rewrite Forall_app in Hd1. destruct Hd1 as [_ H1]. now inversion H1. }
        apply digit_not in Dx as (_ & _ & Dx & _).
        destruct He' as [|e0 g d2 He0 Hg Hd3]; [cbn; lia|]. exfalso. apply Dx.
        destruct He0 as [<-|[<-|[]]]; cbn in E''; injection E'' as <- _; [left|right]; reflexivity. }
    cbn [app length] in *.
    enough (length e' <= length e) by lia. clear Hf Hf' Hd E'. rename E'' into E'.
    destruct He' as [|e0 g d2 He0 Hg Hd3]; [cbn; lia|].
    assert (C : exists c, e0 = [c] /\ is_e c).
    { destruct He0 as [<-|[<-|[]]]; eexists; (split; [reflexivity|]); [left|right]; reflexivity. }
    destruct C as (c0 & -> & Hc0). rewrite <- !app_assoc in E'.
    apply digits1_iff in Hd3 as [D3 D4].
    destruct He as [r Hp|c d r Hc H1 H2 Hs|c g0 d r Hc Hg0 H1 H2].
    + cbn in E'. rewrite <- E' in Hp. cbn in Hp. contradiction.
    + cbn in E'. injection E' as <- E'.
      destruct Hg as [<-|[<-|[<-|[]]]]; cbn in E'.
      * destruct (run_prefix _ _ _ _ E' D4 H1 H2) as (x & -> & _). cbn. rewrite app_length. lia.
      * rewrite <- E' in Hs. cbn in Hs. exfalso. apply Hs. left; reflexivity.
      * rewrite <- E' in Hs. cbn in Hs. exfalso. apply Hs. right; reflexivity.
    + cbn in E'. injection E' as <- E'.
      destruct Hg as [<-|[<-|[<-|[]]]]; cbn in E'.
      * destruct d2 as [|y d2]; [congruence|]. cbn in E'. injection E' as <- _. inversion D4 as [|? ? Dy].
        apply digit_not in Dy. tauto.
      * injection E' as _ E'. destruct (run_prefix _ _ _ _ E' D4 H1 H2) as (x & -> & _).
        cbn. rewrite app_length. lia.
      * injection E' as _ E'. destruct (run_prefix _ _ _ _ E' D4 H1 H2) as (x & -> & _).
        cbn. rewrite app_length. lia.
Qed.

(** ** Summary *)
Lemma match_number_spec s : exists n, json_match_number s = Ok n
  /\ jn_integer n + jn_fraction n + jn_exponent n = jn_length n
  /\ jn_length n <= length s
  /\ (0 < jn_length n -> (jn_erroneous n = false <-> json_number (firstn (jn_length n) s)))
  /\ (jn_length n = 0 -> jn_erroneous n = false)
  /\ (forall p t, s = p ++ t -> json_number p -> length p <= jn_length n).
Proof.
  destruct (shape_exists s) as (m & i & f & e & r & err & -> & H).
  eexists. split; [apply match_number_shape; exact H|]. cbn [jn_integer jn_fraction jn_exponent jn_length jn_erroneous].
  set (n := length m + length i + length f + length e).
  assert (En : n = length (m ++ i ++ f ++ e)) by (rewrite !app_length; subst n; lia).
  assert (Ef : firstn n (m ++ i ++ f ++ e ++ r) = m ++ i ++ f ++ e).
  { rewrite En. replace (m ++ i ++ f ++ e ++ r) with ((m ++ i ++ f ++ e) ++ r) by (rewrite <- !app_assoc; reflexivity).
    apply firstn_app_exact. }
  repeat split.
  - rewrite !app_length. subst n. lia.
  - intros E. rewrite Ef. apply (shape_number _ _ _ _ r). destruct err; [|exact H].
    cbn in E. apply negb_false_iff, Nat.eqb_eq in E. lia.
  - intros Hn. rewrite Ef in Hn. pose proof (match_number_shape _ _ _ _ _ _ (shape_cut _ _ _ _ _ _ H)) as M1.
    rewrite app_nil_r in M1. destruct (number_shape _ [] Hn I) as (m' & i' & f' & e' & E & S').
    pose proof (match_number_shape _ _ _ _ _ _ S') as M2. rewrite app_nil_r, <- E in M2.
    rewrite M1 in M2. injection M2 as _ _ _ _ M2. cbn in M2. exact M2.
  - intros E. rewrite E. apply andb_false_r.
  - intros p t E Hp. eapply shape_longest; eassumption.
Qed.

Lemma match_number_complete t r : json_number t -> unless_head continues_number r ->
  exists n, json_match_number (t ++ r) = Ok n /\ jn_length n = length t /\ jn_erroneous n = false.
Proof.
  intros Ht Hr. destruct (number_shape t r Ht Hr) as (m & i & f & e & -> & H).
  eexists. rewrite <- !app_assoc. split; [apply match_number_shape; exact H|]. cbn.
  split; [rewrite !app_length; lia|reflexivity].
Qed.

(** ** strtod reads exactly a JSON number that nothing continues. *)
Definition is_x (c : N) : Prop := c = ch "x" \/ c = ch "X".

Lemma prefix_digits_app d r : all_digits d -> unless_head digit r ->
  prefix_len is_ascii_digit (d ++ r) = length d.
Proof.
  intros H1 H2. pose proof (match_digits_app d r H1 H2) as H. unfold json_match_digits in H.
  rewrite length_if_eq in H. exact H.
Qed.

Lemma strtod_exact t r : json_number t -> unless_head continues_number r -> unless_head is_x r ->
  strtod_length (t ++ r) = length t.
Proof.
  intros Ht Hr Hx. assert (Ht' := Ht). destruct (number_shape t r Ht Hr) as (m & i & f & e & -> & H).
  remember false as b eqn:Eb. destruct H as [m i f e r e2 e3 Hm Hi Hd Hf He].
  apply orb_false_elim in Eb as [Eb E3]. apply orb_false_elim in Eb as [Eb E2].
  apply orb_false_elim in Eb as [E0 E1].
  rewrite <- !app_assoc. unfold strtod_length. cbv zeta.
  assert (Em : (if starts_with_ch (m ++ i ++ f ++ e ++ r) (ch "-") then 1 else 0) = length m).
  { destruct Hm as [[-> H]| ->]; [|reflexivity]. cbn [app]. rewrite starts_ch_false; auto. }
  rewrite Em, skipn_app_exact.
  assert (Ei : 0 < length i) by (destruct i; [discriminate|cbn; lia]).
  assert (Hhex : starts_with (i ++ f ++ e ++ r) (bs "0x") || starts_with (i ++ f ++ e ++ r) (bs "0X") = false).
  { destruct i as [|c i]; [cbn in Ei; lia|]. destruct i as [|d i].
    - cbn [app].
      assert (N : unless_head is_x (f ++ e ++ r)).
      { remember (e ++ r) as er eqn:Eer. destruct Hf as [er Hp|d er H1 H2].
        - cbn [app]. subst er. destruct He as [r Hq|c' d r Hc H1 H2 Hs|c' g d r Hc Hg H1 H2]; [exact Hx| |];
            cbn; destruct Hc as [->| ->]; intros [X|X]; discriminate X.
        - cbn. intros [X|X]; discriminate X. }
      destruct (f ++ e ++ r) as [|y l].
      + cbn. destruct (c =? 48)%N; reflexivity.
      + cbn in N. unfold is_x in N. cbn. change (ch "x") with 120%N in N. change (ch "X") with 88%N in N.
        destruct (N.eqb_spec y 120); [tauto|]. destruct (N.eqb_spec y 88); [tauto|].
        destruct (c =? 48)%N; reflexivity.
    - inversion Hi as [|? ? _ Hi']. inversion Hi' as [|? ? Dd _]. subst. cbn.
      unfold digit in Dd. destruct (N.eqb_spec d 120); [lia|]. destruct (N.eqb_spec d 88); [lia|].
      destruct (c =? 48)%N; reflexivity. }
  rewrite Hhex. cbn [andb]. unfold strtod_body. rewrite prefix_digits_app by assumption.
  rewrite skipn_app_exact. cbv zeta.
  assert (Ef : strtod_fraction (f ++ e ++ r) is_ascii_digit = length f).
  { unfold strtod_fraction. remember (e ++ r) as er eqn:Eer. destruct Hf as [er Hp|d er H1 H2].
    - cbn [app]. rewrite starts_ch_false; auto.
    - replace (starts_with_ch ((ch "." :: d) ++ er) (ch ".")) with true by reflexivity.
      change (skipn 1 ((ch "." :: d) ++ er)) with (d ++ er).
      rewrite prefix_digits_app by assumption. reflexivity. }
  rewrite Ef. replace (length i + length f) with (length (i ++ f)) by apply app_length.
  rewrite (app_assoc i f), skipn_app_exact.
  assert (Ee : strtod_exponent (e ++ r) (bs "eE") = length e).
  { destruct He as [r Hp|c d r Hc H1 H2 Hs|c g d r Hc Hg H1 H2].
    - cbn [app]. unfold strtod_exponent. destruct r as [|c r]; [reflexivity|].
      replace (mem c (bs "eE")) with false; [reflexivity|]. symmetry. apply not_true_is_false.
      rewrite mem_In. cbn. cbn in Hp. intros [X|[X|[]]]; apply Hp; [left|right]; symmetry; exact X.
    - cbn [app]. unfold strtod_exponent. replace (mem c (bs "eE")) with true by (destruct Hc as [->| ->]; reflexivity).
      assert (Es : match d ++ r with d0 :: _ => if mem d0 (bs "+-") then 1 else 0 | [] => 0 end = 0).
      { destruct (d ++ r) as [|y l]; [reflexivity|].
        replace (mem y (bs "+-")) with false; [reflexivity|]. symmetry. apply not_true_is_false.
        rewrite mem_In. cbn. cbn in Hs. intros [X|[X|[]]]; apply Hs; [left|right]; symmetry; exact X. }
      rewrite Es. cbn [skipn]. rewrite prefix_digits_app by assumption. rewrite E3. reflexivity.
    - cbn [app]. unfold strtod_exponent. replace (mem c (bs "eE")) with true by (destruct Hc as [->| ->]; reflexivity).
      replace (mem g (bs "+-")) with true by (destruct Hg as [->| ->]; reflexivity).
      cbn [skipn]. rewrite prefix_digits_app by assumption. rewrite E3. reflexivity. }
  rewrite Ee. rewrite !app_length.
  destruct (Nat.eqb_spec (length i + length f + length e) 0); lia.
Qed.
