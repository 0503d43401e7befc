(** * Properties of character sets, XID lookup and the ASCII algorithms (C21-C24, C54). *)
From Coq Require Import List NArith ZArith Bool Arith Lia.
From Verif Require Import M_Base L_Base M_Lang L_Lang M_Xid M_Chars M_Charset S_Chars L_Charset.
Import ListNotations.
Local Open Scope N_scope.

(** ** C21: character set operations are set algebra. *)
Theorem C21_set_algebra : forall w a b p q, denotes w a p -> denotes w b q ->
  denotes w (cs_empty w) (fun _ => false)
  /\ denotes w (cs_union a b) (fun c => p c || q c)
  /\ denotes w (cs_inter a b) (fun c => p c && q c)
  /\ denotes w (cs_diff a b) (fun c => p c && negb (q c))
  /\ denotes w (cs_compl a) (fun c => negb (p c))
  /\ (forall c, c < w -> exists s, cs_insert w a c = Ok s
        /\ denotes w s (fun d => (d =? c) || p d))
  /\ (forall c, c < w -> exists s, cs_remove w a c = Ok s
        /\ denotes w s (fun d => negb (d =? c) && p d))
  /\ (forall l, Forall (fun c => c < w) l -> exists s, cs_string w l = Ok s
        /\ denotes w s (fun d => if in_dec N.eq_dec d l then true else false))
  /\ (forall c, 256 <= w -> cs_has32 w a c = Ok (if c <=? 255 then p c else false))
  /\ (w mod 64 = 0 -> cs_eqb a b = true <-> forall c, c < w -> p c = q c).
Proof.
  intros w a b p q Ha Hb. repeat match goal with |- _ /\ _ => split end.
  - apply denotes_empty.
  - apply denotes_union; assumption.
  - apply denotes_inter; assumption.
  - apply denotes_diff; assumption.
  - apply denotes_compl; assumption.
  - intros c Hc. apply denotes_insert; assumption.
  - intros c Hc. apply denotes_remove; assumption.
  - intros l Hl. destruct (denotes_insert_all w l (cs_empty w) (fun _ => false)) as (s & E & D);
      [apply denotes_empty|assumption|].
    exists s. split; [exact E|]. eapply denotes_ext; [|exact D]. intros d _. cbn.
    rewrite orb_false_r. destruct (in_dec N.eq_dec d l) as [H|H].
    + apply mem_In. assumption.
    + destruct (mem d l) eqn:E'; [|reflexivity]. apply mem_In in E'. contradiction.
  - intros c Hw. unfold cs_has32. destruct (N.leb_spec c 255); [|reflexivity].
    rewrite N.mod_small by lia. destruct Ha as (_ & _ & H3). apply H3. lia.
  - intros Hw. rewrite cs_eqb_spec. split.
    + intros <- c Hc. destruct Ha as (_ & _ & H3), Hb as (_ & _ & H4).
      specialize (H3 c Hc). specialize (H4 c Hc). congruence.
    + intros H. eapply denotes_unique; [exact Hw|exact Ha|].
      eapply denotes_ext; [|exact Hb]. intros c Hc. symmetry. auto.
Qed.
Print Assumptions C21_set_algebra.

(** A set built from a predicate contains what the predicate holds for, and each predefined set
    of the headers contains exactly the code units its name announces. *)
Definition denotes_res (r : res charset) (p : N -> bool) : Prop :=
  exists s, r = Ok s /\ denotes 256 s p.

Lemma denotes_res_union a b p q : denotes_res a p -> denotes_res b q ->
  denotes_res (let* x := a in let* y := b in Ok (cs_union x y)) (fun c => p c || q c).
Proof.
  intros (x & -> & Hx) (y & -> & Hy). exists (cs_union x y). split; [reflexivity|].
  apply denotes_union; assumption.
Qed.

Lemma denotes_res_ext r p q : (forall c, c < 256 -> p c = q c) -> denotes_res r p -> denotes_res r q.
Proof. intros H (s & E & D). exists s. split; [assumption|]. eapply denotes_ext; eassumption. Qed.

Lemma denotes_res_string l : forallb (fun c => c <? 256) l = true ->
  denotes_res (cs_string 256 l) (fun c => mem c l).
Proof.
  intros H. destruct (denotes_insert_all 256 l (cs_empty 256) (fun _ => false)) as (s & E & D).
  - apply denotes_empty.
  - rewrite forallb_forall in H. apply Forall_forall. intros c Hc. apply N.ltb_lt. auto.
  - exists s. split; [exact E|]. eapply denotes_ext; [|exact D]. intros c _. cbn.
    apply orb_false_r.
Qed.

Lemma denotes_res_insert r p c : c < 256 -> denotes_res r p ->
  denotes_res (let* s := r in cs_insert 256 s c) (fun d => (d =? c) || p d).
Proof. intros Hc (s & -> & D). apply denotes_insert; assumption. Qed.

Lemma byte_cases (f g : N -> bool) :
  forallb (fun c => Bool.eqb (f c) (g c)) (map N.of_nat (seq 0 256)) = true ->
  forall c, c < 256 -> f c = g c.
Proof.
  intros H c Hc. rewrite forallb_forall in H. apply eqb_prop. apply H. apply in_map_iff.
  exists (N.to_nat c). split; [apply N2Nat.id|]. apply in_seq. lia.
Qed.

Theorem C21_predefined_sets :
  (forall p, denotes_res (cs_from_predicate 256 p) p)
  /\ denotes_res is_ascii_hex_digit_cs
       (fun c => (48 <=? c) && (c <=? 57) || (65 <=? c) && (c <=? 70) || (97 <=? c) && (c <=? 102))
  /\ denotes_res is_ascii_alpha_cs (fun c => (65 <=? c) && (c <=? 90) || (97 <=? c) && (c <=? 122))
  /\ denotes_res is_ascii_alphanumeric_cs is_ascii_alphanumeric
  /\ denotes_res is_ascii_punctuation_cs
       (fun c => (33 <=? c) && (c <=? 126) && negb (is_ascii_alphanumeric c))
  /\ denotes_res is_ascii_printing_cs (fun c => (32 <=? c) && (c <=? 126))
  /\ denotes_res is_ascii_xid_continue_cs is_ascii_xid_continue
  /\ denotes_res is_character_name_cs is_character_name.
Proof.
  assert (Hup : denotes_res is_ascii_upper_alpha_set is_ascii_upper_alpha)
    by apply denotes_from_predicate.
  assert (Hlo : denotes_res is_ascii_lower_alpha_set is_ascii_lower_alpha)
    by apply denotes_from_predicate.
  assert (Hdi : denotes_res is_ascii_digit_set is_ascii_digit) by apply denotes_from_predicate.
  assert (Hal : denotes_res is_ascii_alpha_cs (fun c => is_ascii_lower_alpha c || is_ascii_upper_alpha c))
    by (apply denotes_res_union; assumption).
  assert (Han : denotes_res is_ascii_alphanumeric_cs
                  (fun c => (is_ascii_lower_alpha c || is_ascii_upper_alpha c) || is_ascii_digit c))
    by (apply denotes_res_union; assumption).
  assert (Hpu : denotes_res is_ascii_punctuation_cs
                  (fun c => mem c (bs "!""#$%&'()*+,-./:;<=>?@[\]^_`{|}~")))
    by (apply denotes_res_string; reflexivity).
  split; [|split; [|split; [|split; [|split; [|split; [|split]]]]]].
  - intros p. apply denotes_from_predicate.
  - eapply denotes_res_ext; cycle 1.
    + unfold is_ascii_hex_digit_cs. apply denotes_res_union; apply denotes_res_string; reflexivity.
    + apply byte_cases. vm_compute. reflexivity.
  - eapply denotes_res_ext; [|exact Hal]. apply byte_cases. vm_compute. reflexivity.
  - exact Han.
  - eapply denotes_res_ext; [|exact Hpu]. apply byte_cases. vm_compute. reflexivity.
  - eapply denotes_res_ext; cycle 1.
    + unfold is_ascii_printing_cs. destruct Han as (a & Ea & Da), Hpu as (b & Eb & Db).
      rewrite Ea, Eb. cbn [bind]. apply denotes_insert; [|reflexivity].
      apply denotes_union; eassumption.
    + apply byte_cases. vm_compute. reflexivity.
  - eapply denotes_res_ext; cycle 1.
    + unfold is_ascii_xid_continue_cs. apply denotes_res_insert; [reflexivity|exact Han].
    + apply byte_cases. vm_compute. reflexivity.
  - eapply denotes_res_ext; cycle 1.
    + unfold is_character_name_cs. destruct Hup as (a & -> & Da), Hdi as (b & -> & Db).
      destruct (denotes_res_string (bs " -") eq_refl) as (c & -> & Dc). cbn [bind].
      eexists. split; [reflexivity|]. apply denotes_union; [|exact Dc].
      apply denotes_union; eassumption.
    + apply byte_cases. vm_compute. reflexivity.
Qed.
Print Assumptions C21_predefined_sets.

Example C21_nontrivial : exists a b, cs_string 128 (bs "xyz") = Ok a /\ cs_string 128 (bs "yz!") = Ok b
  /\ denotes 128 a (fun c => mem c (bs "xyz")) /\ cs_has 128 (cs_diff a b) (ch "x") = Ok true
  /\ cs_has 128 (cs_diff a b) (ch "y") = Ok false /\ cs_eqb (cs_inter a b) (cs_inter b a) = true.
Proof.
  destruct (denotes_insert_all 128 (bs "xyz") (cs_empty 128) (fun _ => false)) as (a & Ea & Da).
  { apply denotes_empty. } { repeat constructor. }
  exists a. eexists. split; [exact Ea|]. split; [vm_compute; reflexivity|].
  split; [eapply denotes_ext; [|exact Da]; intros; apply orb_false_r|].
  vm_compute in Ea. injection Ea as <-. vm_compute. auto.
Qed.

(** ** C22: ranges. *)

(** The full claim is false: building a range that ends before the last limb of the set shifts
    a 64-bit value by more than 63. For instance the range of the digits in a 256-element set. *)
Theorem C22_range_refuted :
  ~ (forall w i j, w = 128 \/ w = 256 -> i <= j -> j <= w -> i < 256 ->
       exists s, range_before w i j = Ok s /\ denotes w s (fun c => (i <=? c) && (c <? j))).
Proof.
  intros H. destruct (H 256 48 58) as (s & E & _);
    [right; reflexivity|discriminate|discriminate|reflexivity|].
  vm_compute in E. discriminate.
Qed.
Print Assumptions C22_range_refuted.

(** What does hold, exactly: the construction is defined precisely when the range reaches the last
    limb, and then the set contains exactly the range. *)
Theorem C22_range_partial : forall w i j, w <= 256 -> w <> 0 -> i <= j -> j <= w -> i < 256 ->
  (64 * (limb_count w - 1) <= j ->
     exists s, range_before w i j = Ok s /\ denotes w s (fun c => (i <=? c) && (c <? j)))
  /\ (j < 64 * (limb_count w - 1) -> range_before w i j = Fail FUB).
Proof.
  intros w i j Hw Hw0 Hij Hj Hi. split; intros H.
  - apply range_before_ok; assumption.
  - apply range_before_ub; assumption.
Qed.
Print Assumptions C22_range_partial.

Example C22_nontrivial : exists s, range_before 256 70 200 = Ok s
  /\ cs_has 256 s 70 = Ok true /\ cs_has 256 s 69 = Ok false
  /\ cs_has 256 s 199 = Ok true /\ cs_has 256 s 200 = Ok false.
Proof. eexists. split; [vm_compute; reflexivity|]. vm_compute. auto. Qed.

(** ** C23: XID lookup. *)

(** The ranges are nonempty, ascending and separated. *)
Fixpoint sorted_ranges (l : list (N * N)) : bool :=
  match l with
  | [] => true
  | r :: t => (fst r <=? snd r) && match t with [] => true | q :: _ => snd r <? fst q end
              && sorted_ranges t
  end.

Lemma sorted_ranges_nth l : sorted_ranges l = true ->
  forall i j a b, (i < j)%nat -> nth_error l i = Some a -> nth_error l j = Some b ->
  fst a <= snd a /\ snd a < fst b /\ fst b <= snd b.
Proof.
  induction l as [|r t IH]; intros H i j a b Hij Ha Hb; [destruct i; discriminate|].
  cbn [sorted_ranges] in H. apply andb_prop in H as [H1 H2]. apply andb_prop in H1 as [H0 H1].
  apply N.leb_le in H0. specialize (IH H2).
  destruct j as [|j]; [lia|]. cbn in Hb. destruct i as [|i]; cbn in Ha.
  - injection Ha as <-. destruct t as [|q t']; [destruct j; discriminate|].
    apply N.ltb_lt in H1. destruct j as [|j].
    + cbn in Hb. injection Hb as <-. split; [assumption|]. split; [assumption|].
      cbn [sorted_ranges] in H2. apply andb_prop in H2 as [H2 _]. apply andb_prop in H2 as [H2 _].
      apply N.leb_le in H2. assumption.
    + destruct (IH O (S j) q b) as (G1 & G2 & G3); [lia|reflexivity|assumption|]. lia.
  - apply (IH i j); auto. lia.
Qed.

Lemma binary_search_ranges_spec l c : sorted_ranges l = true ->
  binary_search_ranges l c = true <-> in_ranges l c.
Proof.
  intros Hs. pose proof (sorted_ranges_nth l Hs) as Hn.
  destruct (lower_bound_spec (fun r : N * N => snd r <? c) l) as (Hle & Hlo & Hhi).
  { intros i j a b Hij Ha Hb Hlt.
    destruct (Nat.eq_dec i j) as [->|Hne]; [congruence|].
    apply N.ltb_lt in Hlt. apply N.ltb_lt.
    destruct (Hn i j a b) as (G1 & G2 & G3); auto; lia. }
  unfold binary_search_ranges. set (k := lower_bound _ l) in *. split.
  - destruct (nth_error l k) as [r|] eqn:E; [|discriminate]. intros H.
    exists r. split; [eapply nth_error_In; eassumption|].
    specialize (Hhi k r (le_n _) E). apply N.ltb_ge in Hhi.
    apply negb_true_iff, N.ltb_ge in H. lia.
  - intros (r & Hr & Hc). apply In_nth_error in Hr. destruct Hr as (n & En).
    destruct (Nat.lt_trichotomy n k) as [Hlt|[->|Hgt]].
    + specialize (Hlo n r Hlt En). cbn in Hlo. apply N.ltb_lt in Hlo. lia.
    + rewrite En. apply negb_true_iff, N.ltb_ge. lia.
    + destruct (nth_error l k) as [q|] eqn:E.
      * specialize (Hhi k q (le_n _) E). cbn in Hhi. apply N.ltb_ge in Hhi.
        destruct (Hn k n q r) as (G1 & G2 & G3); auto. lia.
      * apply nth_error_None in E.
        assert (n < length l)%nat by (apply nth_error_Some; congruence). lia.
Qed.

Lemma start_sorted : sorted_ranges XID_Start_Ranges = true.
Proof. vm_cast_no_check (eq_refl true). Qed.
Lemma continue_sorted : sorted_ranges XID_Continue_Minus_XID_Start = true.
Proof. vm_cast_no_check (eq_refl true). Qed.

Lemma byte_cases7 (f g : N -> bool) :
  forallb (fun c => Bool.eqb (f c) (g c)) (map N.of_nat (seq 0 128)) = true ->
  forall c, c < 128 -> f c = g c.
Proof.
  intros H c Hc. rewrite forallb_forall in H. apply eqb_prop. apply H. apply in_map_iff.
  exists (N.to_nat c). split; [apply N2Nat.id|]. apply in_seq. lia.
Qed.

Lemma is_xid_start_spec c : is_xid_start c = true <-> in_ranges XID_Start_Ranges c.
Proof. unfold is_xid_start. apply binary_search_ranges_spec. exact start_sorted. Qed.

Theorem C23_xid : forall c,
  (is_xid_start c = true <-> in_ranges XID_Start_Ranges c)
  /\ (is_xid_continue c = true <->
        in_ranges XID_Start_Ranges c \/ in_ranges XID_Continue_Minus_XID_Start c)
  /\ (c < 128 -> is_xid_start c = is_ascii_xid_start c
                 /\ is_xid_continue c = is_ascii_xid_continue c)
  /\ (0x10FFFF < c -> is_xid_start c = false /\ is_xid_continue c = false).
Proof.
  intros c. pose proof (is_xid_start_spec c) as H1.
  pose proof (binary_search_ranges_spec XID_Continue_Minus_XID_Start c continue_sorted) as H2.
  split; [exact H1|]. split; [|split].
  - unfold is_xid_continue. split; intros H.
    + apply orb_prop in H. destruct H as [H|H]; [left; exact (proj1 H1 H)|right; exact (proj1 H2 H)].
    + apply orb_true_intro. destruct H as [H|H]; [left; exact (proj2 H1 H)|right; exact (proj2 H2 H)].
  - intros Hc. split.
    + revert c Hc H1 H2. intros c Hc _ _. revert c Hc. apply byte_cases7. vm_compute. reflexivity.
    + clear H1 H2. revert c Hc. apply byte_cases7. vm_compute. reflexivity.
  - intros Hc.
    assert (G : forallb (fun r => snd r <=? 0x10FFFF)
                  (XID_Start_Ranges ++ XID_Continue_Minus_XID_Start) = true)
      by (vm_cast_no_check (eq_refl true)).
    rewrite forallb_forall in G.
    assert (N1 : ~ in_ranges XID_Start_Ranges c).
    { intros (r & Hr & Hb). specialize (G r (in_or_app _ _ _ (or_introl Hr))).
      apply N.leb_le in G. lia. }
    assert (N2 : ~ in_ranges XID_Continue_Minus_XID_Start c).
    { intros (r & Hr & Hb). specialize (G r (in_or_app _ _ _ (or_intror Hr))).
      apply N.leb_le in G. lia. }
    assert (E1 : is_xid_start c = false).
    { apply not_true_is_false. intros E. exact (N1 (proj1 H1 E)). }
    split; [exact E1|]. unfold is_xid_continue. apply orb_false_intro; [exact E1|].
    apply not_true_is_false. intros E. exact (N2 (proj1 H2 E)).
Qed.
Print Assumptions C23_xid.

Example C23_nontrivial : is_xid_start 0x4E2D = true /\ is_xid_start 0x300 = false
  /\ is_xid_continue 0x300 = true /\ is_xid_continue 0x20 = false.
Proof. vm_compute. auto. Qed.

(** ** C24: case-insensitive comparison. *)
Lemma to_lower_eq c : to_ascii_lower c = lower c.
Proof.
  unfold to_ascii_lower, lower, is_ascii_upper_alpha, between.
  destruct (N.leb_spec 65 c), (N.leb_spec c 90); cbn [andb]; try reflexivity.
  assert (H1 : forallb (fun c => (negb ((65 <=? c) && (c <=? 90))) || (N.lor c 32 =? c + 32))
                 (map N.of_nat (seq 0 128)) = true) by (vm_compute; reflexivity).
  rewrite forallb_forall in H1. specialize (H1 c).
  assert (Hin : In c (map N.of_nat (seq 0 128))).
  { apply in_map_iff. exists (N.to_nat c). split; [apply N2Nat.id|]. apply in_seq. lia. }
  specialize (H1 Hin).
  destruct (N.leb_spec 65 c), (N.leb_spec c 90); try lia. cbn in H1. apply N.eqb_eq in H1. exact H1.
Qed.

Lemma to_upper_eq c : to_ascii_upper c = if (97 <=? c) && (c <=? 122) then c - 32 else c.
Proof.
  unfold to_ascii_upper, is_ascii_lower_alpha, between.
  destruct (N.leb_spec 97 c), (N.leb_spec c 122); cbn [andb]; try reflexivity.
  assert (H1 : forallb (fun c => (negb ((97 <=? c) && (c <=? 122))) || (N.land c 0xdf =? c - 32))
                 (map N.of_nat (seq 0 128)) = true) by (vm_compute; reflexivity).
  rewrite forallb_forall in H1. specialize (H1 c).
  assert (Hin : In c (map N.of_nat (seq 0 128))).
  { apply in_map_iff. exists (N.to_nat c). split; [apply N2Nat.id|]. apply in_seq. lia. }
  specialize (H1 Hin).
  destruct (N.leb_spec 97 c), (N.leb_spec c 122); try lia. cbn in H1. apply N.eqb_eq in H1. exact H1.
Qed.

Lemma upper_lower a b : (to_ascii_upper a =? to_ascii_upper b) = true <-> lower a = lower b.
Proof.
  rewrite N.eqb_eq, !to_upper_eq. unfold lower.
  destruct (N.leb_spec 97 a), (N.leb_spec a 122), (N.leb_spec 97 b), (N.leb_spec b 122),
    (N.leb_spec 65 a), (N.leb_spec a 90), (N.leb_spec 65 b), (N.leb_spec b 90);
    cbn [andb]; split; intros; lia.
Qed.

Lemma equal_upper_spec y : forall x,
  equal_upper x y = true <-> (length y <= length x)%nat /\ map lower (firstn (length y) x) = map lower y.
Proof.
  induction y as [|b y IH]; intros x; cbn [equal_upper].
  - destruct x; split; intros _; [split; [apply Nat.le_0_l|reflexivity]|reflexivity| |reflexivity].
    split; [apply Nat.le_0_l|reflexivity].
  - destruct x as [|a x]; cbn [equal_upper length firstn map].
    + split; [discriminate|]. intros [H _]. lia.
    + rewrite andb_true_iff, upper_lower, IH. split.
      * intros (H1 & H2 & H3). split; [lia|]. congruence.
      * intros (H1 & H2). injection H2 as H2 H3. repeat split; auto. lia.
Qed.

Lemma equals_ignore_case_spec x y : equals_ignore_case x y = true <-> map lower x = map lower y.
Proof.
  unfold equals_ignore_case. destruct (Nat.eqb_spec (length x) (length y)) as [E|E]; cbn [negb].
  - rewrite equal_upper_spec, <- E, firstn_all. split; [tauto|]. split; [lia|assumption].
  - split; [discriminate|]. intros H. apply (f_equal (@length _)) in H.
    rewrite !map_length in H. contradiction.
Qed.

Lemma starts_with_ignore_case_spec s p : starts_with_ignore_case s p = true <->
  exists a b, s = a ++ b /\ map lower a = map lower p.
Proof.
  unfold starts_with_ignore_case. destruct (Nat.ltb_spec (length s) (length p)) as [H|H].
  - split; [discriminate|]. intros (a & b & -> & E). apply (f_equal (@length _)) in E.
    rewrite !map_length in E. rewrite app_length in H. lia.
  - rewrite equal_upper_spec. split.
    + intros (_ & E). exists (firstn (length p) s), (skipn (length p) s).
      rewrite firstn_skipn. auto.
    + intros (a & b & -> & E). split; [assumption|].
      assert (El : length a = length p).
      { apply (f_equal (@length _)) in E. rewrite !map_length in E. assumption. }
      rewrite <- El, firstn_app_exact. assumption.
Qed.

Lemma contains_loop_spec needle : forall s, contains_ignore_case_loop s needle = true <->
  exists a b c, s = a ++ b ++ c /\ map lower b = map lower needle.
Proof.
  assert (Len : forall b, map lower b = map lower needle -> length b = length needle).
  { intros b E. apply (f_equal (@length _)) in E. rewrite !map_length in E. assumption. }
  induction s as [|x s IH]; cbn [contains_ignore_case_loop].
  - destruct (Nat.ltb_spec (@length N []) (length needle)) as [H|H].
    + split; [discriminate|]. intros (a & b & c & E & Eb). apply Len in Eb.
      apply (f_equal (@length _)) in E. rewrite !app_length in E. cbn in *. lia.
    + rewrite firstn_nil.
      destruct (equals_ignore_case [] needle) eqn:E.
      * split; auto. intros _. exists [], [], []. split; [reflexivity|].
        apply equals_ignore_case_spec. assumption.
      * split; [discriminate|]. intros (a & b & c & E' & Eb).
        destruct a, b; try discriminate. apply equals_ignore_case_spec in Eb. congruence.
  - destruct (Nat.ltb_spec (length (x :: s)) (length needle)) as [H'|H'].
    + split; [discriminate|]. intros (a & b & c & E & Eb). apply Len in Eb.
      apply (f_equal (@length _)) in E. rewrite !app_length in E. cbn in *. lia.
    + destruct (equals_ignore_case (firstn (length needle) (x :: s)) needle) eqn:E.
      * split; auto. intros _. exists [], (firstn (length needle) (x :: s)), (skipn (length needle) (x :: s)).
        split; [cbn [app]; now rewrite firstn_skipn|]. apply equals_ignore_case_spec. assumption.
      * rewrite IH. split.
        -- intros (a & b & c & -> & Eb). exists (x :: a), b, c. auto.
        -- intros ([|y a] & b & c & E' & Eb).
           ++ cbn [app] in E'. exfalso. pose proof (Len b Eb) as El.
              rewrite E', <- El, firstn_app_exact in E. apply equals_ignore_case_spec in Eb. congruence.
           ++ injection E' as -> ->. exists a, b, c. auto.
Qed.

Theorem C24_ignore_case :
  (forall x y, equals_ignore_case x y = true <-> map lower x = map lower y)
  /\ (forall x, equals_ignore_case x x = true)
  /\ (forall x y, equals_ignore_case x y = equals_ignore_case y x)
  /\ (forall x y z, equals_ignore_case x y = true -> equals_ignore_case y z = true ->
        equals_ignore_case x z = true)
  /\ (forall s p, starts_with_ignore_case s p = true <->
        exists a b, s = a ++ b /\ map lower a = map lower p)
  /\ (forall s n, contains_ignore_case s n = true <->
        exists a b c, s = a ++ b ++ c /\ map lower b = map lower n).
Proof.
  assert (E := equals_ignore_case_spec). split; [exact E|]. split; [|split; [|split; [|split]]].
  - intros x. apply E. reflexivity.
  - intros x y. apply eq_true_iff_eq. rewrite !E. split; auto.
  - intros x y z H1 H2. apply E in H1, H2. apply E. congruence.
  - apply starts_with_ignore_case_spec.
  - intros s n. unfold contains_ignore_case. destruct n as [|b n].
    + split; auto. intros _. exists [], [], s. auto.
    + apply contains_loop_spec.
Qed.
Print Assumptions C24_ignore_case.

(** compare_to_lower is the lexicographic comparison of the lower-cased strings. *)
Theorem C24_compare : forall x y,
  (compare_to_lower x y = Eq <-> map lower x = map lower y)
  /\ (compare_to_lower x y = Lt <-> lex_lt (map lower x) (map lower y))
  /\ (compare_to_lower x y = Gt <-> lex_lt (map lower y) (map lower x)).
Proof.
  induction x as [|a x IH]; intros [|b y]; cbn [compare_to_lower map].
  - repeat split; intros H; try discriminate; auto; inversion H.
  - repeat split; intros H; try discriminate; auto; try constructor; inversion H.
  - repeat split; intros H; try discriminate; auto; try constructor; inversion H.
  - rewrite !to_lower_eq. destruct (N.eqb_spec (lower a) (lower b)) as [E|E]; cbn [negb].
    + rewrite E. destruct (IH y) as (H1 & H2 & H3). rewrite H1, H2, H3. repeat split; intros H.
      * congruence.
      * congruence.
      * apply lex_tail. assumption.
      * inversion H; subst; [lia|assumption].
      * apply lex_tail. assumption.
      * inversion H; subst; [lia|assumption].
    + repeat split; intros H.
      * apply N.compare_eq_iff in H. contradiction.
      * congruence.
      * apply lex_head. apply N.compare_lt_iff. assumption.
      * inversion H; subst; [apply N.compare_lt_iff; assumption|congruence].
      * apply lex_head. apply N.compare_gt_iff. assumption.
      * inversion H; subst; [apply N.compare_gt_iff; assumption|congruence].
Qed.
Print Assumptions C24_compare.

(** lex_lt is a strict total order, so the comparison orders lower-cased strings totally. *)
Theorem C24_order :
  (forall x, ~ lex_lt x x)
  /\ (forall x y z, lex_lt x y -> lex_lt y z -> lex_lt x z)
  /\ (forall x y, lex_lt x y \/ x = y \/ lex_lt y x).
Proof.
  split; [|split].
  - intros x. induction x; intros H; inversion H; subst; [lia|]. auto.
  - intros x y z H. revert z. induction H; intros z Hz; inversion Hz; subst.
    + constructor. + constructor.
    + apply lex_head. lia. + apply lex_head. assumption.
    + apply lex_head. assumption. + apply lex_tail. auto.
  - induction x as [|a x IH]; intros [|b y].
    + auto. + left. constructor. + right. right. constructor.
    + destruct (N.lt_trichotomy a b) as [H|[<-|H]].
      * left. apply lex_head. assumption.
      * destruct (IH y) as [H|[->|H]].
        -- left. apply lex_tail. assumption.
        -- auto.
        -- right. right. apply lex_tail. assumption.
      * right. right. apply lex_head. assumption.
Qed.
Print Assumptions C24_order.

Example C24_nontrivial : equals_ignore_case (bs "Content-Type") (bs "cONTENT-tYPE") = true
  /\ compare_to_lower (bs "a[") (bs "A{") = Lt
  /\ contains_ignore_case (bs "xxHeLLo") (bs "hello") = true
  /\ equals_ignore_case (bs "[") (bs "{") = false.
Proof. vm_compute. auto. Qed.

(** ** C54: the scanning functions. *)

(** [n] is the first position at or after [start] where [stop] holds, or the end. *)
Definition first_from (stop : N -> bool) (s : str) (start n : nat) : Prop :=
  (start <= n <= length s)%nat
  /\ (forall j, (start <= j < n)%nat -> stop (nth j s 0) = false)
  /\ ((n < length s)%nat -> stop (nth n s 0) = true).

Lemma find_if_from_first p s start : (start <= length s)%nat ->
  first_from p s start (or_length s (find_if_from p s start)).
Proof.
  intros H. unfold or_length. destruct (find_if_from p s start) as [i|] eqn:E.
  - apply find_if_from_Some in E as (H1 & H2 & H3). split; [lia|]. split; auto.
  - split; [lia|]. split; [|lia]. intros j Hj. unfold find_if_from in E.
    destruct (find_if p (skipn start s)) eqn:F; [discriminate|].
    apply (find_if_None _ _ F). rewrite <- (firstn_skipn start s) at 1.
    rewrite app_nth2; rewrite firstn_length_le by assumption; [|lia].
    apply nth_In. rewrite skipn_length. lia.
Qed.

Lemma first_from_ext p q s start n : (forall c, p c = q c) ->
  first_from p s start n -> first_from q s start n.
Proof.
  intros E (H1 & H2 & H3). split; [assumption|]. split; intros; rewrite <- E; auto.
Qed.

Theorem C54_scan : forall s p start, (start <= length s)%nat ->
  (exists n, length_if_from s p start = Ok n /\ first_from (fun c => negb (p c)) s start n)
  /\ first_from (fun c => negb (p c)) s 0 (length_if s p)
  /\ first_from p s 0 (length_if_not s p)
  /\ (match ascii_find s start p true with
      | Some i => first_from p s start i /\ (i < length s)%nat
      | None => first_from p s start (length s) end)
  /\ (match ascii_find s start p false with
      | Some i => first_from (fun c => negb (p c)) s start i /\ (i < length s)%nat
      | None => first_from (fun c => negb (p c)) s start (length s) end).
Proof.
  assert (ET : forall (p : N -> bool) c, Bool.eqb (p c) true = p c) by (intros p c; destruct (p c); auto).
  assert (EF : forall (p : N -> bool) c, Bool.eqb (p c) false = negb (p c)) by (intros p c; destruct (p c); auto).
  intros s p start H. split; [|split; [|split; [|split]]].
  - unfold length_if_from, ascii_find_checked, check. apply Nat.leb_le in H as H'. rewrite H'.
    cbn [bind]. eexists. split; [reflexivity|].
    eapply first_from_ext; [apply EF|]. apply find_if_from_first. assumption.
  - unfold length_if. eapply first_from_ext; [apply EF|]. apply find_if_from_first. lia.
  - unfold length_if_not. eapply first_from_ext; [apply ET|]. apply find_if_from_first. lia.
  - pose proof (find_if_from_first (fun c => Bool.eqb (p c) true) s start H) as G.
    unfold ascii_find. destruct (find_if_from _ s start) as [i|] eqn:E; cbn [or_length] in G.
    + split; [eapply first_from_ext; [apply ET|exact G]|].
      apply find_if_from_Some in E. lia.
    + eapply first_from_ext; [apply ET|exact G].
  - pose proof (find_if_from_first (fun c => Bool.eqb (p c) false) s start H) as G.
    unfold ascii_find. destruct (find_if_from _ s start) as [i|] eqn:E; cbn [or_length] in G.
    + split; [eapply first_from_ext; [apply EF|exact G]|].
      apply find_if_from_Some in E. lia.
    + eapply first_from_ext; [apply EF|exact G].
Qed.
Print Assumptions C54_scan.

Theorem C54_head_tail : forall s head tail,
  (length_if_head_tail s head tail = 0%nat <->
     match s with [] => True | c :: _ => head c = false end)
  /\ (forall c t, s = c :: t -> head c = true ->
        first_from (fun c => negb (tail c)) s 1 (length_if_head_tail s head tail)
        /\ first_from tail s 1 (length_if_not_head_tail s head tail)).
Proof.
  assert (ET : forall (p : N -> bool) c, Bool.eqb (p c) true = p c) by (intros p c; destruct (p c); auto).
  assert (EF : forall (p : N -> bool) c, Bool.eqb (p c) false = negb (p c)) by (intros p c; destruct (p c); auto).
  intros s head tail. split.
  - destruct s as [|c s]; cbn [length_if_head_tail]; [tauto|].
    destruct (head c); cbn [negb]; split; intros H; auto; try discriminate. exfalso.
    destruct (find_if_from_first (fun c => Bool.eqb (tail c) false) (c :: s) 1) as (G & _).
    { cbn. lia. }
    unfold ascii_find in H. lia.
  - intros c t -> Hc. cbn [length_if_head_tail length_if_not_head_tail]. rewrite Hc. cbn [negb].
    split.
    + eapply first_from_ext; [apply EF|]. apply find_if_from_first. cbn. lia.
    + eapply first_from_ext; [apply ET|]. apply find_if_from_first. cbn. lia.
Qed.
Print Assumptions C54_head_tail.

Theorem C54_delimiter : forall s d start, (start <= length s)%nat ->
  first_from (fun c => c =? d) s start (length_before s d start)
  /\ first_from (fun c => negb (c =? d)) s start (length_before_not s d start)
  /\ length_until s d start = Nat.min (S (length_before s d start)) (length s)
  /\ length_until_not s d start = Nat.min (S (length_before_not s d start)) (length s).
Proof.
  intros s d start H. split; [|split; [|split]].
  - apply find_if_from_first. assumption.
  - apply find_if_from_first. assumption.
  - unfold length_until, length_before, or_length. unfold find_ch.
    destruct (find_if_from _ s start) as [i|] eqn:E; [|lia]. apply find_if_from_Some in E. lia.
  - unfold length_until_not, length_before_not, or_length.
    destruct (find_if_from _ s start) as [i|] eqn:E; [|lia]. apply find_if_from_Some in E. lia.
Qed.
Print Assumptions C54_delimiter.

Example C54_nontrivial : length_if (bs "123abc") is_ascii_digit = 3%nat
  /\ length_if_head_tail (bs "a1b-c") is_ascii_alpha is_ascii_alphanumeric = 3%nat
  /\ length_before (bs "ab:cd") (ch ":") 0 = 2%nat /\ length_until (bs "ab:cd") (ch ":") 0 = 3%nat.
Proof. vm_compute. auto. Qed.
