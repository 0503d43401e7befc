(** * Properties of the parsing helpers (C41-C46, C55, C56). *)
From Coq Require Import List NArith ZArith Bool Arith Lia.
From Verif Require Import M_Base L_Base M_Chars M_Parse S_Parse L_Parse.
Import ListNotations.

(** ** C55/C41: escapes. *)

(** Kinds whose extent is a digit count or a line terminator. *)
Definition braced (k : escape_kind) : bool :=
  match k with octal_braced | hex_braced | nonempty_braced => true | _ => false end.

Lemma app_firstn {A} (s e t : list A) : s = e ++ t -> firstn (length e) s = e.
Proof. intros ->. apply firstn_app_exact. Qed.

Lemma firstn_prefix (s : str) n : exists t, s = firstn n s ++ t.
Proof. exists (skipn n s). symmetry. apply firstn_skipn. Qed.

(** Digit runs of at most [hi]. *)
Lemma run_longest (p : N -> bool) (P : N -> Prop) s hi : (forall c, p c = true <-> P c) ->
  let n := length_if (firstn hi s) p in
  (n <> 0 -> longest_prefix (fun e => 1 <= length e <= hi /\ Forall P e) s (firstn n s))
  /\ (n = 0 -> forall e t, s = e ++ t -> ~ (1 <= length e <= hi /\ Forall P e)).
Proof.
  intros Hp n. subst n. rewrite length_if_eq, prefix_len_firstn.
  set (n := Nat.min hi (prefix_len p s)).
  assert (HP : forall l, Forall (fun c => p c = true) l <-> Forall P l).
  { intros l. rewrite !Forall_forall. setoid_rewrite Hp. reflexivity. }
  assert (Hmax : forall e t, s = e ++ t -> 1 <= length e <= hi /\ Forall P e -> length e <= n).
  { intros e t -> [H1 H2]. apply HP in H2. pose proof (prefix_len_maximal p e t H2). subst n. lia. }
  split.
  - intros Hn. assert (Hl : length (firstn n s) = n).
    { apply firstn_length_le. pose proof (prefix_len_le p s). lia. }
    split; [apply firstn_prefix|]. split.
    + split; [rewrite Hl; subst n; lia|]. apply HP. apply prefix_len_firstn_Forall. subst n. lia.
    + intros e t E H. rewrite Hl. eapply Hmax; eassumption.
  - intros Hn e t E H. specialize (Hmax e t E H). lia.
Qed.

Lemma run_longest_inf (p : N -> bool) (P : N -> Prop) s : (forall c, p c = true <-> P c) ->
  let n := length_if s p in
  (n <> 0 -> longest_prefix (fun e => 1 <= length e /\ Forall P e) s (firstn n s))
  /\ (n = 0 -> forall e t, s = e ++ t -> ~ (1 <= length e /\ Forall P e)).
Proof.
  intros Hp n. subst n. pose proof (run_longest p P s (length s) Hp) as H.
  cbn zeta in H. rewrite firstn_all in H. destruct H as [H1 H2]. split.
  - intros Hn. destruct (H1 Hn) as (G1 & (G2 & G3) & G4). split; [assumption|]. split.
    + split; [lia|assumption].
    + intros e t E (E1 & E2). apply (G4 e t E). split; [|assumption].
      apply (f_equal (@length _)) in E. rewrite app_length in E. lia.
  - intros Hn e t E (E1 & E2). apply (H2 Hn e t E). split; [|assumption].
    apply (f_equal (@length _)) in E. rewrite app_length in E. lia.
Qed.

(** Exactly [m] digits. *)
Lemma exact_longest (p : N -> bool) (P : N -> Prop) s m : (forall c, p c = true <-> P c) ->
  (m <= length s /\ forallb p (firstn m s) = true ->
     longest_prefix (fun e => length e = m /\ Forall P e) s (firstn m s))
  /\ (~ (m <= length s /\ forallb p (firstn m s) = true) ->
      forall e t, s = e ++ t -> ~ (length e = m /\ Forall P e)).
Proof.
  intros Hp.
  assert (HP : forall l, forallb p l = true <-> Forall P l).
  { intros l. rewrite forallb_Forall, !Forall_forall. setoid_rewrite Hp. reflexivity. }
  split.
  - intros [H1 H2]. split; [apply firstn_prefix|]. split.
    + split; [apply firstn_length_le; assumption|apply HP; assumption].
    + intros e t E [E1 _]. rewrite firstn_length_le; lia.
  - intros H e t E [E1 E2]. apply H. split.
    + apply (f_equal (@length _)) in E. rewrite app_length in E. lia.
    + rewrite <- E1, (app_firstn s e t E). apply HP. assumption.
Qed.

Lemma exact_escape (p : N -> bool) (P : N -> Prop) (s : str) m r : (forall c, p c = true <-> P c) ->
  r = (let s := firstn m s in
       if length s <? m then mk_escape (length s) true
       else mk_escape (length s) (negb (forallb p s))) ->
  (es_erroneous r = false ->
     longest_prefix (fun e => length e = m /\ Forall P e) s (firstn (es_length r) s))
  /\ (es_erroneous r = true -> forall e t, s = e ++ t -> ~ (length e = m /\ Forall P e)).
Proof.
  intros Hp ->. cbn zeta. destruct (exact_longest p P s m Hp) as [H1 H2].
  rewrite firstn_length. destruct (Nat.ltb_spec (Nat.min m (length s)) m) as [Hl|Hl];
    cbn [es_erroneous es_length].
  - split; [discriminate|]. intros _. apply H2. lia.
  - replace (Nat.min m (length s)) with m by lia. split; intros H.
    + apply negb_false_iff in H. apply H1. split; [lia|assumption].
    + apply negb_true_iff in H. apply H2. intros [_ H3]. congruence.
Qed.

(** For every kind of escape without braces: the escape is non-erroneous exactly when a prefix of
    the text has the documented shape, and then the matched length is that of the longest such
    prefix. *)
Theorem C55_escape_exact : forall k s, braced k = false ->
  es_length (match_common_escape k s) <= length s
  /\ (es_erroneous (match_common_escape k s) = false ->
        longest_prefix (well_formed_escape k) s (firstn (es_length (match_common_escape k s)) s))
  /\ (es_erroneous (match_common_escape k s) = true ->
        forall e t, s = e ++ t -> ~ well_formed_escape k e).
Proof.
  intros k s Hk. split; [apply match_common_escape_le|].
  assert (R : forall (P : str -> Prop) n (H : (n <> 0 -> longest_prefix P s (firstn n s))
                /\ (n = 0 -> forall e t, s = e ++ t -> ~ P e)),
     ((n =? 0) = false -> longest_prefix P s (firstn n s))
     /\ ((n =? 0) = true -> forall e t, s = e ++ t -> ~ P e)).
  { intros P n [H1 H2]. split; intros H.
    - apply H1. apply Nat.eqb_neq. assumption.
    - apply H2. apply Nat.eqb_eq. assumption. }
  destruct k; try discriminate Hk;
    cbn [match_common_escape escape_type_min_length escape_type_max_length es_length es_erroneous].
  - apply R. apply (run_longest is_ascii_octal_digit octal s 2 octal_iff).
  - apply R. apply (run_longest is_ascii_octal_digit octal s 3 octal_iff).
  - destruct (exact_longest is_ascii_octal_digit octal s 3 octal_iff) as [H1 H2].
    rewrite length_if_eq, prefix_len_firstn. set (n := prefix_len is_ascii_octal_digit s).
    assert (G : Nat.min 3 n = 3 <-> 3 <= length s /\ forallb is_ascii_octal_digit (firstn 3 s) = true).
    { split.
      - intros H. pose proof (prefix_len_le is_ascii_octal_digit s). split; [lia|].
        apply forallb_Forall. apply prefix_len_firstn_Forall. lia.
      - intros [H H']. apply forallb_Forall in H'.
        pose proof (prefix_len_maximal is_ascii_octal_digit _ (skipn 3 s) H') as H3.
        rewrite firstn_skipn, firstn_length_le in H3 by assumption. subst n. lia. }
    split; intros H.
    + apply negb_false_iff, Nat.eqb_eq in H. rewrite H. apply H1. apply G. assumption.
    + apply negb_true_iff, Nat.eqb_neq in H. apply H2. intros H3. apply H, G. assumption.
  - apply R. apply (run_longest is_ascii_hex_digit hex s 2 hex_iff).
  - apply R. apply (run_longest_inf is_ascii_hex_digit hex s hex_iff).
  - apply (exact_escape is_ascii_hex_digit hex s 2 _ hex_iff). reflexivity.
  - apply (exact_escape is_ascii_hex_digit hex s 4 _ hex_iff). reflexivity.
  - apply (exact_escape is_ascii_hex_digit hex s 8 _ hex_iff). reflexivity.
  - unfold well_formed_escape, longest_prefix.
    destruct s as [|a [|b s]]; cbn [starts_with starts_with_ch].
    + cbn. split; [discriminate|]. intros _ e t E. destruct e; [|discriminate].
      intros [H|[H|H]]; discriminate.
    + destruct (N.eqb_spec a 13) as [->|H13]; [|destruct (N.eqb_spec a 10) as [->|H10]];
        cbn [andb orb Nat.eqb].
      * split; [|discriminate]. intros _. split; [exists []; reflexivity|]. split; [auto|].
        intros e t E _. apply (f_equal (@length _)) in E. rewrite app_length in E. cbn in *. lia.
      * split; [|discriminate]. intros _. split; [exists []; reflexivity|]. split; [auto|].
        intros e t E _. apply (f_equal (@length _)) in E. rewrite app_length in E. cbn in *. lia.
      * split; [discriminate|]. intros _ e t E [->|[->| ->]]; injection E; intros; congruence.
    + destruct (N.eqb_spec a 13) as [->|H13]; [|destruct (N.eqb_spec a 10) as [->|H10]];
        cbn [andb orb Nat.eqb].
      * destruct (N.eqb_spec b 10) as [->|Hb]; cbn [Nat.eqb].
        -- split; [|discriminate]. intros _. split; [exists s; reflexivity|]. split; [auto|].
           intros e t E [->|[->| ->]]; cbn; lia.
        -- split; [|discriminate]. intros _. split; [exists (b :: s); reflexivity|]. split; [auto|].
           intros e t E [->|[->| ->]]; cbn; try lia. injection E. intros. congruence.
      * split; [|discriminate]. intros _. split; [exists (b :: s); reflexivity|]. split; [auto|].
        intros e t E [->|[->| ->]]; cbn; try lia. discriminate.
      * split; [discriminate|]. intros _ e t E [->|[->| ->]]; injection E; intros; congruence.
Qed.
Print Assumptions C55_escape_exact.

Example C55_nontrivial :
  match_common_escape hex_4 (bs "00e9xyz") = mk_escape 4 false
  /\ match_common_escape octal_1_to_3 (bs "1289") = mk_escape 2 false
  /\ match_common_escape hex_2 (bs "g0") = mk_escape 2 true.
Proof. vm_compute. auto. Qed.

(** The full claim of C41 (including the braced kinds) is false: an empty pair of braces is
    accepted where a nonempty sequence is documented, and unterminated braces are accepted. *)
Theorem C41_braced_refuted :
  es_erroneous (match_common_escape nonempty_braced (bs "{}")) = false
  /\ (forall e t, bs "{}" = e ++ t -> ~ well_formed_escape nonempty_braced e)
  /\ es_erroneous (match_common_escape hex_braced (bs "{12")) = false
  /\ (forall e t, bs "{12" = e ++ t -> ~ well_formed_escape hex_braced e)
  /\ es_erroneous (match_common_escape octal_braced (bs "{7")) = false
  /\ (forall e t, bs "{7" = e ++ t -> ~ well_formed_escape octal_braced e).
Proof.
  assert (A : forall d e t, ~ In 125%N (e ++ t) -> e <> (123 :: d ++ [125])%N).
  { intros d e t H ->. apply H. right. apply in_or_app. left. apply in_or_app. right. left.
    reflexivity. }
  split; [reflexivity|]. split; [|split; [reflexivity|split; [|split; [reflexivity|]]]].
  - intros e t E (d & -> & Hd & _). destruct d as [|x d]; [congruence|].
    apply (f_equal (@length _)) in E. cbn in E. rewrite !app_length in E. cbn in E. lia.
  - intros e t E (d & He & _). apply (A d e t); [|assumption]. rewrite <- E.
    intros [H|[H|[H|[]]]]; discriminate.
  - intros e t E (d & He & _). apply (A d e t); [|assumption]. rewrite <- E.
    intros [H|[H|[]]]; discriminate.
Qed.
Print Assumptions C41_braced_refuted.

Lemma length_before_cons c d s : c <> d -> length_before (c :: s) d 1 = length_before (c :: s) d 0.
Proof.
  intros H. rewrite !length_before_eq by (cbn; lia). cbn [skipn prefix_len].
  destruct (N.eqb_spec c d); [congruence|]. cbn [negb]. lia.
Qed.

Lemma braced_complete (p : N -> bool) (P : N -> Prop) d t : (forall c, p c = true <-> P c) ->
  ~ P 125%N -> d <> [] -> Forall P d ->
  match_common_braced_escape ((123 :: d ++ [125]) ++ t)%N p = mk_escape (length d + 2) false.
Proof.
  intros Hp H125 Hd HP. unfold match_common_braced_escape.
  assert (Hnot : forall c, In c d -> (c =? 125)%N = false).
  { intros c Hc. apply N.eqb_neq. intros ->. rewrite Forall_forall in HP. auto. }
  assert (E : length_before ((123 :: d ++ [125]) ++ t)%N 125 1 = 1 + length d).
  { rewrite length_before_eq by (cbn; lia). cbn [app skipn]. f_equal. rewrite <- app_assoc.
    rewrite prefix_len_app_all.
    - cbn. lia.
    - apply Forall_forall. intros c Hc. rewrite (Hnot c Hc). reflexivity. }
  rewrite E. cbn [app starts_with_ch N.eqb negb]. change (123 =? 123)%N with true. cbn [negb].
  assert (Edig : substr (123%N :: (d ++ [125%N]) ++ t) 1 (1 + length d - 1) = d).
  { unfold substr. cbn [skipn]. rewrite <- app_assoc.
    replace (1 + length d - 1) with (length d) by lia. apply firstn_app_exact. }
  rewrite Edig.
  assert (Ed : length d <> 0) by (destruct d; cbn; congruence).
  assert (E1 : (1 + length d <=? 1) = false) by (apply Nat.leb_gt; lia). rewrite E1.
  assert (E2 : forallb p d = true).
  { apply forallb_Forall. rewrite Forall_forall in *. intros c Hc. apply Hp. auto. }
  rewrite E2. cbn [negb orb].
  assert (E3 : (1 + length d =? length (123%N :: (d ++ [125%N]) ++ t)) = false).
  { apply Nat.eqb_neq. cbn. rewrite !app_length. cbn. lia. }
  rewrite E3. cbn [orb].
  assert (E4 : nth (1 + length d) (123%N :: (d ++ [125%N]) ++ t) 0%N = 125%N).
  { cbn [nth Nat.add]. rewrite <- app_assoc. rewrite app_nth2 by lia. rewrite Nat.sub_diag.
    reflexivity. }
  rewrite E4. change (125 =? 125)%N with true. cbn [negb]. f_equal. rewrite (Nat.add_comm 1). rewrite <- Nat.add_assoc. reflexivity.
Qed.

(** What holds for every kind: the match stays inside the text, and every text that starts with
    an escape of the documented shape is matched without error, at least as far as that escape.
    For kinds with braces the match is then exactly the braces. Missing: the converse for the
    braced kinds (see the refutation). *)
Theorem C41_escape_partial : forall k s,
  es_length (match_common_escape k s) <= length s
  /\ forall e t, s = e ++ t -> well_formed_escape k e ->
       es_erroneous (match_common_escape k s) = false
       /\ length e <= es_length (match_common_escape k s)
       /\ (braced k = true -> es_length (match_common_escape k s) = length e).
Proof.
  intros k s. split; [apply match_common_escape_le|]. intros e t E H.
  destruct (braced k) eqn:Bk.
  - destruct k; try discriminate Bk; destruct H as (d & He & Hd & HP); subst e s;
      cbn [match_common_escape].
    + rewrite (braced_complete is_ascii_octal_digit octal d t octal_iff); auto.
      * cbn. rewrite app_length. cbn. repeat split; lia.
      * unfold octal. lia.
    + cbn [app starts_with_ch]. change (123 =? 123)%N with true. cbn [negb].
      assert (F : find_ch (123%N :: (d ++ [125%N]) ++ t) 125 1 = Some (1 + length d)).
      { unfold find_ch, find_if_from. cbn [skipn]. rewrite <- app_assoc. cbn [app].
        assert (G : find_if (fun x => (x =? 125)%N) (d ++ 125%N :: t) = Some (length d)).
        { clear Hd. induction d as [|x d IH]; cbn [app find_if].
          - reflexivity.
          - destruct (N.eqb_spec x 125) as [->|Hx].
            + exfalso. apply HP. left. reflexivity.
            + rewrite IH; [reflexivity|]. intros Hin. apply HP. right. assumption. }
        rewrite G. reflexivity. }
      rewrite F. cbn. rewrite app_length. cbn. repeat split; lia.
    + rewrite (braced_complete is_ascii_hex_digit hex d t hex_iff); auto.
      * cbn. rewrite app_length. cbn. repeat split; lia.
      * unfold hex. lia.
  - destruct (C55_escape_exact k s Bk) as (Hle & H0 & H1).
    destruct (es_erroneous (match_common_escape k s)) eqn:Ee.
    + exfalso. exact (H1 eq_refl e t E H).
    + split; [reflexivity|]. split; [|discriminate].
      destruct (H0 eq_refl) as (_ & _ & Hmax). specialize (Hmax e t E H).
      rewrite firstn_length in Hmax. lia.
Qed.
Print Assumptions C41_escape_partial.

Example C41_nontrivial : well_formed_escape hex_braced (bs "{1F600}")
  /\ match_common_escape hex_braced (bs "{1F600}abc") = mk_escape 7 false
  /\ match_common_escape nonempty_braced (bs "{LATIN SMALL LETTER A} b") = mk_escape 22 false.
Proof.
  split; [|vm_compute; auto]. exists (bs "1F600"). split; [reflexivity|]. split; [discriminate|].
  apply Forall_hex. apply forallb_Forall. reflexivity.
Qed.

(** ** C42: separated digits. *)
Theorem C42_separated_refuted :
  (match_separated_digits (bs "1_;") 10 95 = (2, false) /\ trailing_sep (firstn 2 (bs "1_;")) 95)
  /\ match_separated_digits [] 10 95 = (0, true).
Proof. split; [split; [reflexivity|exists (bs "1"); reflexivity]|reflexivity]. Qed.
Print Assumptions C42_separated_refuted.

Lemma separated_loop_err s base sep : forall prev err,
  let r := separated_loop s base sep prev err in
  let m := firstn (fst r) s in
  snd r = true <->
    err = true
    \/ (prev = sep /\ leading_sep m sep)
    \/ doubled_sep m sep
    \/ (m = s /\ ((m = [] /\ prev = sep) \/ trailing_sep m sep)).
Proof.
  induction s as [|c s IH]; intros prev err; cbn [separated_loop].
  - cbn [fst snd firstn]. rewrite orb_true_iff, N.eqb_eq. split.
    + intros [H|H]; auto. do 3 right. split; auto.
    + intros [H|[[_ [t Ht]]|[[a [b Hab]]|[_ [[_ H]|[t Ht]]]]]]; auto.
      * discriminate.
      * destruct a; discriminate.
      * destruct t; discriminate.
  - assert (CM : forall m, leading_sep (c :: m) sep <-> c = sep).
    { intros m. split; [intros [t Ht]; congruence|intros ->; exists m; reflexivity]. }
    assert (CT : forall m, trailing_sep (c :: m) sep <-> (m = [] /\ c = sep) \/ trailing_sep m sep).
    { intros m. split.
      - intros [[|x t] Ht]; cbn in Ht; [left; split; congruence|].
        injection Ht as -> ->. right. exists t. reflexivity.
      - intros [[-> ->]|[t ->]]; [exists []|exists (c :: t)]; reflexivity. }
    assert (CD : forall m, doubled_sep (c :: m) sep <-> (c = sep /\ leading_sep m sep) \/ doubled_sep m sep).
    { intros m. split.
      - intros ([|x a] & b & Hab); cbn in Hab.
        + injection Hab as -> ->. left. split; [reflexivity|exists b; reflexivity].
        + injection Hab as -> ->. right. exists a, b. reflexivity.
      - intros [[-> [t ->]]|(a & b & ->)]; [exists [], t|exists (c :: a), b]; reflexivity. }
    destruct (N.eqb_spec c sep) as [Ec|Ec]; cbn [fst snd].
    + specialize (IH c (err || (prev =? sep)%N)).
      destruct (separated_loop s base sep c (err || (prev =? sep)%N)) as [n e].
      cbn [fst snd firstn] in *. rewrite IH, orb_true_iff, N.eqb_eq.
      set (m := firstn n s). rewrite CM, CT, CD.
      assert (Em : c :: m = c :: s <-> m = s) by (split; congruence). rewrite Em. subst c.
      assert (Nn : sep :: m <> []) by discriminate.
      assert (Rs : sep = sep) by reflexivity. tauto.
    + destruct (is_ascii_digit_base c base) eqn:Ed; cbn [fst snd].
      * specialize (IH c err). destruct (separated_loop s base sep c err) as [n e].
        cbn [fst snd firstn] in *. rewrite IH. set (m := firstn n s). rewrite CM, CT, CD.
        assert (Em : c :: m = c :: s <-> m = s) by (split; congruence). rewrite Em.
        assert (Nn : c :: m <> []) by discriminate. tauto.
      * rewrite orb_false_r. cbn [firstn]. split.
        -- auto.
        -- intros [H|[[_ [t Ht]]|[(a & b & Hab)|[H _]]]]; auto; try discriminate.
           destruct a; discriminate.
Qed.

(** What holds: the match is the longest run of digits and separators, and the error flag is set
    exactly for a leading or doubled separator, or a trailing separator at the very end of the
    string (or an empty string). Missing: a trailing separator followed by something else is not
    flagged, and the empty string is. *)
Theorem C42_separated_partial : forall s base sep, sep <> 0%N ->
  let r := match_separated_digits s base sep in
  let m := firstn (fst r) s in
  fst r = prefix_len (fun c => (c =? sep)%N || is_ascii_digit_base c base) s
  /\ (snd r = true <->
        leading_sep m sep \/ doubled_sep m sep \/ (m = s /\ (m = [] \/ trailing_sep m sep))).
Proof.
  intros s base sep Hsep. unfold match_separated_digits.
  destruct (N.eqb_spec sep 0); [contradiction|]. cbn zeta. split; [apply separated_loop_len|].
  pose proof (separated_loop_err s base sep sep false) as H. cbn zeta in H. rewrite H.
  split.
  - intros [G|[[_ G]|[G|[G1 [[G2 _]|G2]]]]]; auto; discriminate.
  - intros [G|[G|[G1 [G2|G2]]]]; auto 6. do 3 right. auto.
Qed.
Print Assumptions C42_separated_partial.

Example C42_nontrivial : match_separated_digits (bs "1'000'000u") 10 39 = (9, false)
  /\ match_separated_digits (bs "1''0") 10 39 = (4, true).
Proof. vm_compute. auto. Qed.

(** ** C43: number parts. *)

(** For options that satisfy the code's assertions, matching never fails, the parts sum to the
    length and lie inside the text, and each part is what it is called. *)
Theorem C43_partition : forall s o, good_options o ->
  exists r, match_common_number s o = Ok r
  /\ nr_length r = nr_sign r + nr_prefix r + nr_integer r + nr_radix_point r + nr_fractional r
                   + nr_exponent_sep r + nr_exponent_digits r + nr_suffix r
  /\ nr_length r <= length s.
Proof. intros s o Ho. exact (match_common_number_ok s o Ho). Qed.
Print Assumptions C43_partition.

(** Text of the part of length [n] at offset [i]. *)
Lemma substr_firstn s i n : substr s i n = firstn n (skipn i s).
Proof. reflexivity. Qed.

Lemma starts_with_ch_firstn s c : starts_with_ch s c = true -> firstn 1 s = [c].
Proof. destruct s; cbn; [discriminate|]. intros H. apply N.eqb_eq in H. subst. reflexivity. Qed.

Lemma number_exponent_spec s es :
  let r := number_exponent s es in
  (fst (fst r) = 0 \/ exists e, In e es /\ firstn (fst (fst r)) s = fst e)
  /\ Forall (fun c => is_ascii_digit_base c 10 = true)
       (firstn (snd (fst r)) (skipn (fst (fst r)) s)).
Proof.
  induction es as [|e es IH]; cbn [number_exponent].
  - cbn. split; [auto|constructor].
  - destruct (starts_with s (fst e)) eqn:E; cbn [fst snd].
    + split; [right; exists e; split; [left; reflexivity|apply starts_with_firstn; assumption]|].
      unfold match_digits. apply prefix_len_firstn_Forall. rewrite length_if_eq. lia.
    + destruct IH as [[H|(x & H1 & H2)] H3]; split; auto.
      right. exists x. split; [right; assumption|assumption].
Qed.

Lemma number_suffix_spec s l : number_suffix s l = 0 \/ In (firstn (number_suffix s l) s) l.
Proof.
  induction l as [|x l IH]; cbn [number_suffix]; auto.
  destruct (starts_with s x) eqn:E.
  - right. left. symmetry. apply starts_with_firstn. assumption.
  - destruct IH; auto. right. right. assumption.
Qed.

Lemma separated_digits_chars s base sep :
  Forall (fun c => (sep <> 0%N /\ c = sep) \/ is_ascii_digit_base c base = true)
    (firstn (fst (match_separated_digits s base sep)) s).
Proof.
  unfold match_separated_digits. destruct (N.eqb_spec sep 0); cbn [fst].
  - unfold match_digits. rewrite length_if_eq. eapply Forall_impl; [|apply prefix_len_all].
    cbn. auto.
  - rewrite separated_loop_len. eapply Forall_impl; [|apply prefix_len_all].
    cbn. intros c H. apply orb_prop in H as [H|H]; auto. apply N.eqb_eq in H. auto.
Qed.

Theorem C43_parts_meaning : forall s o r, match_common_number s o = Ok r ->
  let o1 := nr_sign r in let o2 := o1 + nr_prefix r in let o3 := o2 + nr_integer r in
  let o4 := o3 + nr_radix_point r in let o5 := o4 + nr_fractional r in
  let o6 := o5 + nr_exponent_sep r in let o7 := o6 + nr_exponent_digits r in
  exists base,
  (nr_sign r = 0 \/ (nr_sign r = 1 /\ (substr s 0 1 = [43%N] /\ no_plus o = true
                                       \/ substr s 0 1 = [45%N] /\ no_minus o = true)))
  /\ (nr_prefix r = 0 /\ (base = no_base o \/ base = no_zero_base o)
      \/ exists p, In p (no_prefixes o) /\ substr s o1 (nr_prefix r) = np_str p /\ base = np_base p)
  /\ Forall (fun c => (no_separator o <> 0%N /\ c = no_separator o)
                      \/ is_ascii_digit_base c base = true) (substr s o2 (nr_integer r))
  /\ (nr_radix_point r = 0 /\ nr_fractional r = 0
      \/ nr_radix_point r = 1 /\ substr s o3 1 = [46%N])
  /\ Forall (fun c => (no_separator o <> 0%N /\ c = no_separator o)
                      \/ is_ascii_digit_base c base = true) (substr s o4 (nr_fractional r))
  /\ (nr_exponent_sep r = 0
      \/ exists e, In e (no_exponents o) /\ substr s o5 (nr_exponent_sep r) = fst e)
  /\ Forall (fun c => is_ascii_digit_base c 10 = true) (substr s o6 (nr_exponent_digits r))
  /\ (nr_suffix r = 0 \/ In (substr s o7 (nr_suffix r)) (no_suffixes o)
      \/ exists f, no_match_suffix o = Some f /\ nr_suffix r = f (skipn o7 s)).
Proof.
  intros s o r. unfold match_common_number.
  destruct (match no_suffixes o, no_match_suffix o with
            | [], _ => true | _, None => true | _, Some _ => false end); cbn [check bind];
    [|discriminate].
  assert (Z : r = no_number -> exists base : Z,
    (nr_sign r = 0 \/ (nr_sign r = 1 /\ (substr s 0 1 = [43%N] /\ no_plus o = true
                                       \/ substr s 0 1 = [45%N] /\ no_minus o = true)))
    /\ (nr_prefix r = 0 /\ (base = no_base o \/ base = no_zero_base o)
        \/ exists p, In p (no_prefixes o) /\ substr s (nr_sign r) (nr_prefix r) = np_str p
                     /\ base = np_base p)
    /\ Forall (fun c => (no_separator o <> 0%N /\ c = no_separator o)
                        \/ is_ascii_digit_base c base = true)
         (substr s (nr_sign r + nr_prefix r) (nr_integer r))
    /\ (nr_radix_point r = 0 /\ nr_fractional r = 0
        \/ nr_radix_point r = 1 /\ substr s (nr_sign r + nr_prefix r + nr_integer r) 1 = [46%N])
    /\ Forall (fun c => (no_separator o <> 0%N /\ c = no_separator o)
                        \/ is_ascii_digit_base c base = true)
         (substr s (nr_sign r + nr_prefix r + nr_integer r + nr_radix_point r) (nr_fractional r))
    /\ (nr_exponent_sep r = 0
        \/ exists e, In e (no_exponents o)
           /\ substr s (nr_sign r + nr_prefix r + nr_integer r + nr_radix_point r + nr_fractional r)
                (nr_exponent_sep r) = fst e)
    /\ Forall (fun c => is_ascii_digit_base c 10 = true)
         (substr s (nr_sign r + nr_prefix r + nr_integer r + nr_radix_point r + nr_fractional r
                    + nr_exponent_sep r) (nr_exponent_digits r))
    /\ (nr_suffix r = 0
        \/ In (substr s (nr_sign r + nr_prefix r + nr_integer r + nr_radix_point r
                 + nr_fractional r + nr_exponent_sep r + nr_exponent_digits r) (nr_suffix r))
              (no_suffixes o)
        \/ exists f, no_match_suffix o = Some f
           /\ nr_suffix r = f (skipn (nr_sign r + nr_prefix r + nr_integer r + nr_radix_point r
                 + nr_fractional r + nr_exponent_sep r + nr_exponent_digits r) s))).
  { intros ->. exists (no_base o). cbn. unfold substr. cbn.
    repeat match goal with |- _ /\ _ => split end; auto. }
  destruct s as [|c s'] eqn:Es; [intros H; injection H as <-; apply Z; reflexivity|].
  rewrite <- Es in *. clear Es c s'.
  set (sign := if _ || _ then 1 else 0).
  assert (Hsign : sign = 0 \/ (sign = 1 /\ (substr s 0 1 = [43%N] /\ no_plus o = true
                                       \/ substr s 0 1 = [45%N] /\ no_minus o = true))).
  { subst sign. destruct (no_plus o && starts_with_ch s 43) eqn:E1; cbn [orb].
    - apply andb_prop in E1 as [E1 E2]. right. split; [reflexivity|]. left.
      split; [apply starts_with_ch_firstn; assumption|assumption].
    - destruct (no_minus o && starts_with_ch s 45) eqn:E2; auto.
      apply andb_prop in E2 as [E2 E3]. right. split; [reflexivity|]. right.
      split; [apply starts_with_ch_firstn; assumption|assumption]. }
  clearbody sign.
  destruct (number_base o (skipn sign s) (no_prefixes o)) as [[[prefix allow] base]|] eqn:Eb;
    cbn [bind]; [|discriminate].
  pose proof (number_base_prefix _ _ _ _ Eb) as (_ & Hb1 & Hb2). cbn [fst snd] in Hb1, Hb2.
  assert (Hbase : prefix = 0 /\ (base = no_base o \/ base = no_zero_base o)
    \/ exists p, In p (no_prefixes o) /\ substr s sign prefix = np_str p /\ base = np_base p).
  { destruct (Nat.eq_dec prefix 0) as [E0|E0].
    - left. split; [assumption|]. destruct (Hb2 E0) as [_ ->].
      destruct (starts_with_ch (skipn sign s) 48); auto.
    - right. destruct (Hb1 E0) as (p & H1 & H2 & _ & H3). exists p. auto. }
  pose proof (separated_digits_chars (skipn (sign + prefix) s) base (no_separator o)) as Hint.
  destruct (match_separated_digits (skipn (sign + prefix) s) base (no_separator o))
    as [integer ierr]. cbn [fst] in Hint.
  destruct (allow && starts_with_ch (skipn (sign + prefix + integer) s) 46) eqn:Edot.
  - apply andb_prop in Edot as [_ Edot]. apply starts_with_ch_firstn in Edot.
    pose proof (separated_digits_chars (skipn (sign + prefix + integer + 1) s) base
                  (no_separator o)) as Hfr.
    destruct (match_separated_digits (skipn (sign + prefix + integer + 1) s) base (no_separator o))
      as [frac ferr]. cbn [fst] in Hfr.
    match goal with |- (if ?b then _ else _) = _ -> _ => destruct b end.
    { intros H. injection H as <-. apply Z. reflexivity. }
    match goal with |- (if ?b then _ else _) = _ -> _ => destruct b end.
    { intros H. injection H as <-. apply Z. reflexivity. }
    set (l3 := sign + prefix + integer + 1 + frac).
    destruct (if allow && (l3 <? length s) then number_exponent (skipn l3 s) (no_exponents o)
              else (0, 0, false)) as [[es ed] eerr] eqn:Ee.
    assert (Hexp : (es = 0 \/ exists e, In e (no_exponents o) /\ substr s l3 es = fst e)
      /\ Forall (fun c => is_ascii_digit_base c 10 = true) (substr s (l3 + es) ed)).
    { destruct (allow && (l3 <? length s)).
      - pose proof (number_exponent_spec (skipn l3 s) (no_exponents o)) as H. rewrite Ee in H.
        cbn [fst snd] in H. rewrite skipn_skipn in H. exact H.
      - injection Ee as <- <- _. split; [auto|constructor]. }
    match goal with |- context [if l3 + es + ed <? length s then ?a else ?b] =>
      set (suffix := if l3 + es + ed <? length s then a else b) end.
    assert (Hsf : suffix = 0 \/ In (substr s (l3 + es + ed) suffix) (no_suffixes o)
        \/ exists f, no_match_suffix o = Some f /\ suffix = f (skipn (l3 + es + ed) s)).
    { subst suffix. destruct (l3 + es + ed <? length s); [|auto].
      destruct (no_suffixes o) as [|x l].
      - destruct (no_match_suffix o) as [f|]; [|auto]. right. right. exists f. auto.
      - destruct (number_suffix_spec (skipn (l3 + es + ed) s) (x :: l)) as [H|H]; [auto|].
        right. left. exact H. }
    clearbody suffix. destruct (_ =? _); cbn [check bind]; [|discriminate].
    intros H. injection H as <-. cbn. exists base. unfold l3 in *. destruct Hexp as [He1 He2].
    repeat match goal with |- _ /\ _ => split end; auto.
  - match goal with |- (if ?b then _ else _) = _ -> _ => destruct b end.
    { intros H. injection H as <-. apply Z. reflexivity. }
    match goal with |- (if ?b then _ else _) = _ -> _ => destruct b end.
    { intros H. injection H as <-. apply Z. reflexivity. }
    set (l3 := sign + prefix + integer + 0 + 0).
    destruct (if allow && (l3 <? length s) then number_exponent (skipn l3 s) (no_exponents o)
              else (0, 0, false)) as [[es ed] eerr] eqn:Ee.
    assert (Hexp : (es = 0 \/ exists e, In e (no_exponents o) /\ substr s l3 es = fst e)
      /\ Forall (fun c => is_ascii_digit_base c 10 = true) (substr s (l3 + es) ed)).
    { destruct (allow && (l3 <? length s)).
      - pose proof (number_exponent_spec (skipn l3 s) (no_exponents o)) as H. rewrite Ee in H.
        cbn [fst snd] in H. rewrite skipn_skipn in H. exact H.
      - injection Ee as <- <- _. split; [auto|constructor]. }
    match goal with |- context [if l3 + es + ed <? length s then ?a else ?b] =>
      set (suffix := if l3 + es + ed <? length s then a else b) end.
    assert (Hsf : suffix = 0 \/ In (substr s (l3 + es + ed) suffix) (no_suffixes o)
        \/ exists f, no_match_suffix o = Some f /\ suffix = f (skipn (l3 + es + ed) s)).
    { subst suffix. destruct (l3 + es + ed <? length s); [|auto].
      destruct (no_suffixes o) as [|x l].
      - destruct (no_match_suffix o) as [f|]; [|auto]. right. right. exists f. auto.
      - destruct (number_suffix_spec (skipn (l3 + es + ed) s) (x :: l)) as [H|H]; [auto|].
        right. left. exact H. }
    clearbody suffix. destruct (_ =? _); cbn [check bind]; [|discriminate].
    intros H. injection H as <-. cbn. exists base. unfold l3 in *. destruct Hexp as [He1 He2].
    repeat match goal with |- _ /\ _ => split end; auto.
Qed.
Print Assumptions C43_parts_meaning.

Definition c_like_options : number_options :=
  mk_number_options true false [mk_prefix (bs "0x") 16 true] [(bs "e+", 10%Z); (bs "e", 10%Z)]
    [bs "u"; bs "f"] None 10 8 39 false false.
Example C43_nontrivial : good_options c_like_options
  /\ match_common_number (bs "-1'0.5e+12f;") c_like_options
     = Ok (mk_number 11 1 0 3 1 1 2 2 1 false).
Proof.
  split; [|vm_compute; reflexivity].
  split; [right; reflexivity|]. split; [repeat constructor; discriminate|]. discriminate.
Qed.

(** ** C44: suffix numbers. *)
Definition h_suffix (s : str) : nat * Z :=
  if (N.eqb (last s 0%N) (ch "h")) then (1, 16%Z) else (0, 0%Z).

Theorem C44_suffix_refuted :
  (* no separator configured, yet a space and every other unit is part of the number *)
  match_suffix_number (bs "1 +h") h_suffix 0 = mk_suffix_number 3 1 16 false
  (* a correctly separated hexadecimal number is reported erroneous *)
  /\ match_suffix_number (bs "1_0h") h_suffix 95 = mk_suffix_number 3 1 16 true.
Proof. vm_compute. auto. Qed.
Print Assumptions C44_suffix_refuted.

(** What holds: with a separator configured, the candidate is the longest run of alphanumeric
    units and separators; a match covers exactly that run, split into digits and the suffix that
    determine_suffix names; and a run of digits of the suffix's base is accepted without error.
    Missing: separators are only tolerated if their code minus that of '0' is below the base, and
    an unconfigured separator admits every unit. *)
Theorem C44_suffix_partial : forall s det sep, sep <> 0%N ->
  let run := firstn (prefix_len (fun c => (c =? sep)%N || is_ascii_alphanumeric c) s) s in
  let r := match_suffix_number s det sep in
  (sn_digits r <> 0 -> sn_digits r + sn_suffix r = length run
                       /\ (sn_suffix r, sn_base r) = det run /\ 2 <= length run)
  /\ (forall k base, det run = (S k, base) -> 2 <= length run -> S k < length run ->
        Forall (fun c => is_ascii_alphanumeric c = true /\ exists v, digit_value c = Some v
                         /\ (Z.of_N v < base)%Z) (firstn (length run - S k) run) ->
        ~ In sep (firstn (length run - S k) run) ->
        r = mk_suffix_number (length run - S k) (S k) base false).
Proof.
  intros s det sep Hsep. unfold match_suffix_number. rewrite length_if_eq.
  set (p := fun c => (sep =? 0)%N || (c =? sep)%N || is_ascii_alphanumeric c).
  assert (Ep : prefix_len p s = prefix_len (fun c => (c =? sep)%N || is_ascii_alphanumeric c) s).
  { apply prefix_len_ext. intros c. subst p. cbn. destruct (N.eqb_spec sep 0); [contradiction|].
    reflexivity. }
  rewrite Ep. clear Ep p. set (n := prefix_len _ s).
  assert (Hn : length (firstn n s) = n) by (apply firstn_length_le, prefix_len_le).
  cbn zeta. rewrite Hn. set (run := firstn n s) in *. clearbody n. split.
  - destruct (Nat.leb_spec n 1); [cbn; congruence|].
    destruct (det run) as [k base] eqn:Ed.
    destruct (Nat.eqb_spec k 0); [cbn; congruence|].
    destruct (Nat.eqb_spec n k); cbn [orb]; [cbn; congruence|].
    match goal with |- context [if ?b then no_suffix_number else _] => destruct b end;
      [cbn; congruence|].
    cbn. intros H0. split; [|split; [reflexivity|lia]].
    lia.
  - intros k base Ed H2 Hk Hd Hs. rewrite Ed.
    destruct (Nat.leb_spec n 1); [lia|]. cbn [Nat.eqb]. destruct (Nat.eqb_spec n (S k)); [lia|].
    cbn [orb].
    assert (B : forall l prev, Forall (fun c => is_ascii_alphanumeric c = true /\ exists v,
                  digit_value c = Some v /\ (Z.of_N v < base)%Z) l -> ~ In sep l ->
                suffix_digits_bad l prev sep base = false).
    { induction l as [|c l IH]; intros prev Hl Hsl; cbn [suffix_digits_bad]; auto.
      destruct (Forall_inv Hl) as (_ & v & Hv & Hlt). pose proof (Forall_inv_tail Hl) as Hl'.
      assert (Edv : (if between 65 90 c then Z.of_N c - 65 + 10
                     else if between 97 122 c then Z.of_N c - 97 + 10
                     else Z.of_N c - 48)%Z = Z.of_N v).
      { unfold digit_value in Hv. unfold between.
        destruct (N.leb_spec 48 c), (N.leb_spec c 57), (N.leb_spec 97 c), (N.leb_spec c 122),
          (N.leb_spec 65 c), (N.leb_spec c 90); cbn [andb] in *; try discriminate;
          injection Hv as <-; lia. }
      rewrite Edv. destruct (Z.leb_spec base (Z.of_N v)); [lia|].
      destruct (N.eqb_spec c sep) as [->|Hc]; [exfalso; apply Hsl; left; reflexivity|].
      rewrite andb_false_r. cbn [andb]. apply IH; [assumption|].
      intros Hin. apply Hsl. right. assumption. }
    rewrite B by assumption. cbn [andb]. reflexivity.
Qed.
Print Assumptions C44_suffix_partial.

Example C44_nontrivial : match_suffix_number (bs "0ffh;") h_suffix 95 = mk_suffix_number 3 1 16 false.
Proof. vm_compute. reflexivity. Qed.

(** ** C45: blank lines. *)
Lemma html_ws_iff c : is_html_whitespace c = true <-> space_not_lf c \/ c = 10%N.
Proof.
  unfold is_html_whitespace, space_not_lf. rewrite !orb_true_iff, !N.eqb_eq. tauto.
Qed.

Theorem C45_blank_refuted :
  let s := [10; 32; 32]%N in
  find_blank_line_sequence s = (0, 3) /\ nth 2 s 0%N <> 10%N.
Proof. split; [reflexivity|discriminate]. Qed.
Print Assumptions C45_blank_refuted.

(** No blank line begins in [pre ++ rest] before position [k]. *)
Definition none_before (s : str) (k : nat) : Prop :=
  forall b, b < k -> ~ blank_line_at s b.

(** Position-based view of [blank_line_at]. *)
Lemma blank_line_nth s b : blank_line_at s b <->
  exists e, b <= e < length s /\ nth e s 0%N = 10%N
    /\ (forall j, b <= j < e -> space_not_lf (nth j s 0%N))
    /\ (b = 0 \/ nth (b - 1) s 0%N = 10%N).
Proof.
  split.
  - intros (a & l & t & -> & <- & Ha & Hl). exists (length a + length l).
    split; [rewrite !app_length; cbn; lia|]. split; [|split].
    + rewrite app_nth2 by lia. replace (length a + length l - length a) with (length l) by lia.
      rewrite app_nth2 by lia. rewrite Nat.sub_diag. reflexivity.
    + intros j Hj. rewrite app_nth2 by lia. rewrite app_nth1 by lia.
      rewrite Forall_forall in Hl. apply Hl. apply nth_In. lia.
    + destruct Ha as [->|(a' & ->)]; [left; reflexivity|]. right.
      rewrite app_length. cbn [length]. rewrite app_nth1 by (rewrite app_length; cbn; lia).
      rewrite app_nth2 by lia. replace (length a' + 1 - 1 - length a') with 0 by lia. reflexivity.
  - intros (e & He & Hlf & Hsp & Hst).
    exists (firstn b s), (firstn (e - b) (skipn b s)), (skipn (S e) s).
    split; [|split; [apply firstn_length_le; lia|split]].
    + assert (E : skipn (e - b) (skipn b s) = 10%N :: skipn (S e) s).
      { rewrite skipn_skipn. replace (b + (e - b)) with e by lia.
        destruct (skipn e s) as [|c t] eqn:Ee.
        - apply (f_equal (@length _)) in Ee. rewrite skipn_length in Ee. cbn in Ee. lia.
        - assert (c = 10%N).
          { rewrite <- (firstn_skipn e s) in Hlf. rewrite app_nth2 in Hlf;
              rewrite firstn_length_le in * by lia; [|lia].
            rewrite Nat.sub_diag, Ee in Hlf. exact Hlf. }
          subst c. f_equal. replace (S e) with (e + 1) by lia. rewrite <- skipn_skipn, Ee.
          reflexivity. }
      rewrite <- E, !firstn_skipn. reflexivity.
    + destruct Hst as [->|Hst]; [left; reflexivity|].
      destruct b as [|b]; [left; reflexivity|]. right. exists (firstn b s).
      replace (S b - 1) with b in Hst by lia.
      rewrite <- (firstn_skipn b s) at 1. rewrite firstn_app, firstn_firstn.
      rewrite firstn_length_le by lia. replace (Nat.min (S b) b) with b by lia.
      replace (S b - b) with 1 by lia. f_equal.
      destruct (skipn b s) as [|c t] eqn:Eb.
      * apply (f_equal (@length _)) in Eb. rewrite skipn_length in Eb. cbn in Eb. lia.
      * cbn. f_equal. rewrite <- (firstn_skipn b s) in Hst.
        rewrite app_nth2 in Hst; rewrite firstn_length_le in * by lia; [|lia].
        rewrite Nat.sub_diag, Eb in Hst. exact Hst.
    + apply Forall_forall. intros c Hc. apply In_nth with (d := 0%N) in Hc.
      destruct Hc as (j & Hj & <-). rewrite firstn_length, skipn_length in Hj.
      assert (N1 : nth j (firstn (e - b) (skipn b s)) 0%N = nth (b + j) s 0%N).
      { rewrite <- (firstn_skipn b s) at 2. rewrite app_nth2; rewrite firstn_length_le by lia; [|lia].
        replace (b + j - b) with j by lia.
        rewrite <- (firstn_skipn (e - b) (skipn b s)) at 2. rewrite app_nth1; [reflexivity|].
        rewrite firstn_length, skipn_length. lia. }
      rewrite N1. apply Hsp. lia.
Qed.

Section Blank.
  Variable s : str.
  Notation at_ j := (nth j s 0%N).

  (** No blank line ends at or before position [i] (its line feed is at an index below [i]). *)
  Definition no_blank_ending (i : nat) : Prop :=
    forall b e, e < i -> ~ (b <= e < length s /\ at_ e = 10%N
      /\ (forall j, b <= j < e -> space_not_lf (at_ j)) /\ (b = 0 \/ at_ (b - 1) = 10%N)).

  Definition result_ok (r : nat * nat) : Prop :=
    let (b, l) := r in
    (l = 0 -> forall b', ~ blank_line_at s b')
    /\ (l <> 0 ->
          b + l <= length s
          /\ (b = 0 \/ at_ (b - 1) = 10%N)
          /\ (forall j, b <= j < b + l -> is_html_whitespace (at_ j) = true)
          /\ blank_line_at s b
          /\ (forall b', b' < b -> ~ blank_line_at s b')
          /\ (at_ (b + l - 1) = 10%N \/ b + l = length s)).

  Definition inv (st : blank_state) (bb be i : nat) : Prop :=
    bb <= i <= length s
    /\ match st with
       | maybe_blank =>
         (bb = 0 \/ at_ (bb - 1) = 10%N) /\ (forall j, bb <= j < i -> space_not_lf (at_ j))
         /\ no_blank_ending i
       | not_blank =>
         no_blank_ending i /\ exists p, p < i /\ is_html_whitespace (at_ p) = false
           /\ forall j, p <= j < i -> at_ j <> 10%N
       | blank =>
         (bb = 0 \/ at_ (bb - 1) = 10%N)
         /\ (forall j, bb <= j < i -> is_html_whitespace (at_ j) = true)
         /\ bb < be <= i /\ at_ (be - 1) = 10%N
         /\ (exists e, bb <= e < i /\ at_ e = 10%N
               /\ (forall j, bb <= j < e -> space_not_lf (at_ j)) /\ no_blank_ending e)
       end.

  Lemma sp_not_lf c : space_not_lf c -> c <> 10%N.
  Proof. unfold space_not_lf. intros H ->. destruct H as [H|[H|[H|H]]]; discriminate. Qed.

  Lemma no_blank_step i : no_blank_ending i ->
    (forall b, ~ (b <= i < length s /\ at_ i = 10%N
      /\ (forall j, b <= j < i -> space_not_lf (at_ j)) /\ (b = 0 \/ at_ (b - 1) = 10%N))) ->
    no_blank_ending (S i).
  Proof.
    intros H1 H2 b e He. destruct (Nat.eq_dec e i) as [->|Hne]; [apply H2|apply H1; lia].
  Qed.

  (** A blank line found with its line feed at [e], none ending earlier: no blank line starts
      before it. *)
  Lemma first_blank bb e : no_blank_ending e -> at_ e = 10%N -> bb <= e < length s ->
    (forall j, bb <= j < e -> space_not_lf (at_ j)) -> (bb = 0 \/ at_ (bb - 1) = 10%N) ->
    forall b', b' < bb -> ~ blank_line_at s b'.
  Proof.
    intros H He Hb Hs Hst b' Hb' HB. apply blank_line_nth in HB. destruct HB as (e' & G1 & G2 & G3 & G4).
    destruct (Nat.lt_ge_cases e' e) as [Hlt|Hge].
    - apply (H b' e'); auto.
    - destruct Hst as [->|Hst]; [lia|]. apply (sp_not_lf (at_ (bb - 1))); [|assumption].
      apply G3. lia.
  Qed.

  Lemma blank_loop_ok : forall rest st bb be i, rest = skipn i s -> inv st bb be i ->
    result_ok (blank_loop st bb be i rest).
  Proof.
    induction rest as [|c rest IH]; intros st bb be i Er (Hbi & Hinv).
    - assert (Hi : i = length s).
      { apply (f_equal (@length _)) in Er. rewrite skipn_length in Er. cbn in Er. lia. }
      assert (Hnone : no_blank_ending i -> forall b', ~ blank_line_at s b').
      { intros H b' HB. apply blank_line_nth in HB. destruct HB as (e & G1 & G2).
        apply (H b' e); [lia|tauto]. }
      destruct st; cbn [blank_loop].
      + destruct Hinv as (_ & _ & H). split; [auto|congruence].
      + destruct Hinv as (H & _). split; [auto|congruence].
      + destruct Hinv as (H1 & H2 & H3 & H4 & (e & He & He2 & He3 & He4)).
        assert (HB : blank_line_at s bb).
        { apply blank_line_nth. exists e. repeat split; auto; lia. }
        split; [intros Hl; lia|]. intros Hl.
        split; [lia|]. split; [assumption|]. split; [intros j Hj; apply H2; lia|].
        split; [assumption|]. split; [|right; lia].
        eapply first_blank; eauto. lia.
    - assert (Hi : i < length s).
      { apply (f_equal (@length _)) in Er. rewrite skipn_length in Er. cbn in Er. lia. }
      assert (Hc : at_ i = c).
      { rewrite <- (firstn_skipn i s) at 1. rewrite app_nth2; rewrite firstn_length_le by lia; [|lia].
        rewrite Nat.sub_diag, <- Er. reflexivity. }
      assert (Er' : rest = skipn (i + 1) s).
      { rewrite <- skipn_skipn, <- Er. reflexivity. }
      destruct st; cbn [blank_loop].
      + destruct Hinv as (H1 & H2 & H3). destruct (N.eqb_spec c 10) as [E|E].
        * apply IH; [assumption|]. split; [lia|]. split; [assumption|].
          split; [|split; [lia|split]].
          -- intros j Hj. apply html_ws_iff. destruct (Nat.eq_dec j i) as [->|];
               [right; congruence|left; apply H2; lia].
          -- replace (i + 1 - 1) with i by lia. congruence.
          -- exists i. repeat split; auto; try lia; congruence.
        * destruct (is_html_whitespace c) eqn:W; cbn [negb].
          -- apply IH; [assumption|]. split; [lia|]. split; [assumption|]. split.
             ++ intros j Hj. destruct (Nat.eq_dec j i) as [->|]; [|apply H2; lia].
                rewrite Hc. apply html_ws_iff in W. tauto.
             ++ replace (i + 1) with (S i) by lia. apply no_blank_step; [assumption|].
                intros b (_ & G & _). congruence.
          -- apply IH; [assumption|]. split; [lia|]. split.
             ++ replace (i + 1) with (S i) by lia. apply no_blank_step; [assumption|].
                intros b (_ & G & _). congruence.
             ++ exists i. split; [lia|]. split; [congruence|]. intros j Hj.
                replace j with i by lia. congruence.
      + destruct Hinv as (H1 & p & Hp1 & Hp2 & Hp3). destruct (N.eqb_spec c 10) as [E|E].
        * apply IH; [assumption|]. split; [lia|].
          split; [right; replace (i + 1 - 1) with i by lia; congruence|]. split; [intros j Hj; lia|].
          replace (i + 1) with (S i) by lia. apply no_blank_step; [assumption|].
          intros b (G1 & _ & G3 & G4).
          destruct (Nat.le_gt_cases b p) as [Hle|Hgt].
          -- assert (W : space_not_lf (at_ p)) by (apply G3; lia).
             assert (is_html_whitespace (at_ p) = true) by (apply html_ws_iff; auto). congruence.
          -- destruct G4 as [->|G4]; [lia|]. apply (Hp3 (b - 1)); [|assumption].
             lia.
        * apply IH; [assumption|]. split; [lia|]. split.
          -- replace (i + 1) with (S i) by lia. apply no_blank_step; [assumption|].
             intros b (_ & G & _). congruence.
          -- exists p. split; [lia|]. split; [assumption|]. intros j Hj.
             destruct (Nat.eq_dec j i) as [->|]; [congruence|apply Hp3; lia].
      + destruct Hinv as (H1 & H2 & H3 & H4 & (e & He & He2 & He3 & He4)).
        assert (HB : blank_line_at s bb).
        { apply blank_line_nth. exists e. repeat split; auto; lia. }
        destruct (N.eqb_spec c 10) as [E|E].
        * apply IH; [assumption|]. split; [lia|]. split; [assumption|].
          split; [|split; [lia|split]].
          -- intros j Hj. destruct (Nat.eq_dec j i) as [->|]; [|apply H2; lia].
             apply html_ws_iff. right. congruence.
          -- replace (i + 1 - 1) with i by lia. congruence.
          -- exists e. repeat split; auto; lia.
        * destruct (is_html_whitespace c) eqn:W; cbn [negb].
          -- apply IH; [assumption|]. split; [lia|]. split; [assumption|].
             split; [|split; [lia|split; [assumption|]]].
             ++ intros j Hj. destruct (Nat.eq_dec j i) as [->|]; [congruence|apply H2; lia].
             ++ exists e. repeat split; auto; lia.
          -- split; [intros Hl; lia|]. intros Hl.
             split; [lia|]. split; [assumption|]. split; [intros j Hj; apply H2; lia|].
             split; [assumption|]. split.
             ++ eapply first_blank; eauto. lia.
             ++ left. replace (bb + (be - bb) - 1) with (be - 1) by lia. assumption.
  Qed.
End Blank.

(** What holds: an empty result exactly when the text has no blank line; otherwise the span is
    white space inside the text, starts at the beginning of the first blank line, and ends with a
    line feed or at the end of the text. Missing: at the end of the text the span may end with
    other white space (see the refutation). *)
Theorem C45_blank_partial : forall s, let (b, l) := find_blank_line_sequence s in
  (l = 0 <-> forall b', ~ blank_line_at s b')
  /\ (l <> 0 ->
        b + l <= length s
        /\ (b = 0 \/ nth (b - 1) s 0%N = 10%N)
        /\ Forall (fun c => space_not_lf c \/ c = 10%N) (substr s b l)
        /\ blank_line_at s b
        /\ (forall b', b' < b -> ~ blank_line_at s b')
        /\ (nth (b + l - 1) s 0%N = 10%N \/ b + l = length s)).
Proof.
  intros s. pose proof (blank_loop_ok s s maybe_blank 0 0 0 eq_refl) as H.
  unfold find_blank_line_sequence. unfold result_ok in H.
  destruct (blank_loop maybe_blank 0 0 0 s) as [b l]. destruct H as [H1 H2].
  { split; [lia|]. split; [auto|]. split; [intros; lia|]. intros b0 e He. lia. }
  split.
  - split; [assumption|]. intros Hn. destruct (Nat.eq_dec l 0) as [|Hl]; [assumption|].
    exfalso. destruct (H2 Hl) as (_ & _ & _ & G & _). apply (Hn b G).
  - intros Hl. destruct (H2 Hl) as (G1 & G2 & G3 & G4 & G5 & G6).
    repeat (split; [assumption|]). split; [|auto].
    apply Forall_forall. intros c Hc. unfold substr in Hc.
    apply In_nth with (d := 0%N) in Hc. destruct Hc as (j & Hj & <-).
    rewrite firstn_length, skipn_length in Hj.
    assert (N1 : nth j (firstn l (skipn b s)) 0%N = nth (b + j) s 0%N).
    { rewrite <- (firstn_skipn b s) at 2. rewrite app_nth2; rewrite firstn_length_le by lia; [|lia].
      replace (b + j - b) with j by lia.
      rewrite <- (firstn_skipn l (skipn b s)) at 2. rewrite app_nth1; [reflexivity|].
      rewrite firstn_length, skipn_length. lia. }
    rewrite N1. apply html_ws_iff. apply G3. lia.
Qed.
Print Assumptions C45_blank_partial.

Example C45_nontrivial : find_blank_line_sequence
  ([102; 105; 114; 115; 116; 10; 9; 9; 10; 10; 32; 115])%N = (6, 4).
Proof. reflexivity. Qed.

(** ** C46: integer literals. *)
Lemma digit_base_iff base c : (0 < base <= 36)%N ->
  is_ascii_digit_base c (Z.of_N base) = true <-> is_digit_of base c.
Proof.
  intros Hb. unfold is_ascii_digit_base, is_digit_of, digit_value, is_ascii_digit, between.
  destruct (Z.ltb_spec (Z.of_N base) 10);
  destruct (N.leb_spec 48 c), (N.leb_spec c 57), (N.leb_spec 97 c), (N.leb_spec c 122),
    (N.leb_spec 65 c), (N.leb_spec c 90); cbn [andb orb];
    repeat match goal with |- context [(?a <? ?b)%Z] => destruct (Z.ltb_spec a b) end;
    cbn [andb orb]; split; intros H';
    try discriminate; try (exfalso; lia); try (exists (c - 48)%N; split; [reflexivity|lia]);
    try (exists (c - 97 + 10)%N; split; [reflexivity|lia]);
    try (exists (c - 65 + 10)%N; split; [reflexivity|lia]); try reflexivity;
    destruct H' as (v & Hv & Hlt); try discriminate; injection Hv as <-; lia.
Qed.

Lemma digits_value_fold base d v : digits_value base d v ->
  fold_left (fun acc c => acc * base + digit_val c)%N d 0%N = v
  /\ Forall (is_digit_of base) d.
Proof.
  induction 1 as [|l v c x Hl (IH1 & IH2) Hc Hx].
  - split; [reflexivity|constructor].
  - rewrite fold_left_app. cbn [fold_left]. rewrite IH1. split.
    + f_equal. unfold digit_value in Hc. unfold digit_val, between.
      destruct ((48 <=? c) && (c <=? 57))%N; [congruence|].
      destruct (N.leb_spec 97 c), (N.leb_spec c 122); cbn [andb] in *;
        try (injection Hc as <-; lia);
        destruct (N.leb_spec 65 c), (N.leb_spec c 90); cbn [andb] in *; try discriminate;
        injection Hc as <-; lia.
    + apply Forall_app. split; [assumption|]. constructor; [|constructor]. exists x. auto.
Qed.

Lemma from_chars_digits base d v : (0 < base <= 36)%N -> d <> [] -> digits_value base d v ->
  from_chars_ull d base = if (v <? 2 ^ 64)%N then Some v else None.
Proof.
  intros Hb Hd H. apply digits_value_fold in H as [Hf Ha]. unfold from_chars_ull.
  rewrite prefix_len_all_eq.
  - rewrite firstn_all, Hf. destruct d; [congruence|reflexivity].
  - rewrite Forall_forall in *. intros c Hc. apply digit_base_iff; auto.
Qed.

Lemma digits_value_cons_zero base d v : (0 < base)%N -> digits_value base d v ->
  digits_value base (48%N :: d) v.
Proof.
  intros Hb H. induction H as [|l v c x Hl IH Hc Hx].
  - replace 0%N with (0 * base + 0)%N by lia. change [48%N] with ([] ++ [48%N]).
    apply dv_snoc; [constructor|reflexivity|assumption].
  - change (48%N :: l ++ [c]) with ((48%N :: l) ++ [c]). apply dv_snoc; assumption.
Qed.

(** The value of every well-formed literal is returned when it fits into 64 bits, and nothing
    otherwise. *)
Theorem C46_uinteger_partial : forall s v, literal s v ->
  parse_uinteger_literal s = if (v <? 2 ^ 64)%N then Some v else None.
Proof.
  intros s v H. destruct H as [d v Hd H|d v Hd H|d v H|c d v Hc H].
  - assert (E : parse_uinteger_literal (bs "0b" ++ d) = parse_uinteger_digits d 2).
    { unfold parse_uinteger_literal. cbn. destruct d; reflexivity. }
    rewrite E. apply from_chars_digits; [lia|assumption|assumption].
  - assert (E : parse_uinteger_literal (bs "0x" ++ d) = parse_uinteger_digits d 16).
    { unfold parse_uinteger_literal. cbn. destruct d; reflexivity. }
    rewrite E. apply from_chars_digits; [lia|assumption|assumption].
  - assert (E : parse_uinteger_literal (bs "0" ++ d) = parse_uinteger_digits (bs "0" ++ d) 8).
    { unfold parse_uinteger_literal. change (bs "0" ++ d) with (48%N :: d).
      destruct d as [|x d]; [reflexivity|]. apply digits_value_fold in H as [_ Ha].
      inversion Ha as [|? ? (w & Hw & Hw8) _]; subst.
      assert (x <> ch "b" /\ x <> ch "x") as [Hnb Hnx].
      { split; intros ->; injection Hw as <-; vm_compute in Hw8; discriminate. }
      change (starts_with (48%N :: x :: d) (bs "0b"))
        with ((48 =? 48)%N && ((x =? ch "b")%N && true)).
      change (starts_with (48%N :: x :: d) (bs "0x"))
        with ((48 =? 48)%N && ((x =? ch "x")%N && true)).
      apply N.eqb_neq in Hnb, Hnx. rewrite Hnb, Hnx. reflexivity. }
    rewrite E. apply from_chars_digits; [lia|discriminate|].
    apply digits_value_cons_zero; [lia|assumption].
  - assert (E : parse_uinteger_literal (c :: d) = parse_uinteger_digits (c :: d) 10).
    { unfold parse_uinteger_literal. apply N.eqb_neq in Hc.
      change (starts_with (c :: d) (bs "0b")) with ((c =? 48)%N && starts_with d (bs "b")).
      change (starts_with (c :: d) (bs "0x")) with ((c =? 48)%N && starts_with d (bs "x")).
      cbn [starts_with_ch]. rewrite Hc. reflexivity. }
    rewrite E. apply from_chars_digits; [lia|discriminate|assumption].
Qed.
Print Assumptions C46_uinteger_partial.

(** Signed: exact while the value fits. *)
Theorem C46_integer_partial : forall s v, literal s v ->
  ((v < 2 ^ 63)%N -> parse_integer_literal s = Some (Z.of_N v))
  /\ ((v <= 2 ^ 63)%N -> parse_integer_literal (45%N :: s) = Some (- Z.of_N v)%Z).
Proof.
  intros s v H. pose proof (C46_uinteger_partial s v H) as Hu.
  assert (P : (2 ^ 63 = 9223372036854775808)%N) by reflexivity.
  assert (P64 : (2 ^ 64 = 18446744073709551616)%N) by reflexivity.
  assert (Ps : match s with [] => False | c :: _ => (c =? 45)%N = false end).
  { destruct H as [d v Hd H|d v Hd H|d v H|c d v Hc H]; try reflexivity.
    apply digits_value_fold in H as [_ H]. inversion H as [|? ? (w & Hw & _) _]; subst.
    apply N.eqb_neq. intros ->. discriminate. }
  split; intros Hv.
  - unfold parse_integer_literal. destruct s as [|c s]; [destruct Ps|].
    cbn [starts_with_ch]. rewrite Ps, Hu. unfold to_int64.
    destruct (N.ltb_spec v (2 ^ 64)); [|rewrite P64, P in *; lia].
    destruct (N.ltb_spec v (2 ^ 63)); [reflexivity|lia].
  - unfold parse_integer_literal. cbn [starts_with_ch skipn]. change (45 =? 45)%N with true. cbn iota.
    rewrite Hu. destruct (N.ltb_spec v (2 ^ 64)); [|rewrite P64, P in *; lia]. f_equal.
    unfold to_int64. destruct (N.eq_dec v 0) as [->|Hz]; [reflexivity|].
    rewrite N.mod_small by (rewrite P64 in *; lia).
    destruct (N.ltb_spec (2 ^ 64 - v) (2 ^ 63)); rewrite P64, P in *.
    + lia.
    + change (2 ^ 64)%Z with 18446744073709551616%Z. lia.
Qed.
Print Assumptions C46_integer_partial.

(** The full claim is false: text after the digits is ignored, and a value outside the signed
    range wraps around instead of giving nothing. *)
Theorem C46_literal_refuted :
  (parse_uinteger_literal (bs "12abc") = Some 12%N /\ (forall v, ~ literal (bs "12abc") v))
  /\ (literal (bs "9223372036854775808") (2 ^ 63)%N
      /\ parse_integer_literal (bs "9223372036854775808") = Some (- 2 ^ 63)%Z).
Proof.
  split; split.
  - vm_compute. reflexivity.
  - intros v H. remember (bs "12abc") as s eqn:E. destruct H as [d v Hd H|d v Hd H|d v H|c d v Hc H].
    + vm_compute in E. discriminate.
    + vm_compute in E. discriminate.
    + vm_compute in E. discriminate.
    + apply digits_value_fold in H as [_ H]. rewrite E in H. rewrite Forall_forall in H.
      destruct (H (ch "a")) as (w & Hw & Hlt); [vm_compute; auto|].
      vm_compute in Hw. injection Hw as <-. discriminate.
  - change (bs "9223372036854775808") with (57%N :: bs "223372036854775808").
    apply lit_decimal; [discriminate|].
    assert (G : forall l acc a, digits_value 10 a acc ->
              forallb (fun c => (48 <=? c) && (c <=? 57))%N l = true ->
              digits_value 10 (a ++ l) (fold_left (fun x c => x * 10 + (c - 48))%N l acc)).
    { induction l as [|c l IH]; intros acc a Ha Hl; cbn [fold_left].
      - rewrite app_nil_r. assumption.
      - cbn [forallb] in Hl. apply andb_prop in Hl as [Hc Hl].
        change (c :: l) with ([c] ++ l). rewrite app_assoc. apply IH; [|assumption].
        apply dv_snoc; [assumption| |].
        + unfold digit_value. rewrite Hc. reflexivity.
        + apply andb_prop in Hc as [Hc1 Hc2]. apply N.leb_le in Hc1, Hc2. lia. }
    specialize (G (57%N :: bs "223372036854775808") 0%N [] (dv_nil 10) eq_refl).
    cbn [app] in G. assert (E : fold_left (fun x c => x * 10 + (c - 48))%N
      (57%N :: bs "223372036854775808") 0%N = (2 ^ 63)%N) by (vm_compute; reflexivity).
    rewrite E in G. exact G.
  - vm_compute. reflexivity.
Qed.
Print Assumptions C46_literal_refuted.

Example C46_nontrivial : parse_uinteger_literal (bs "0xFF") = Some 255%N
  /\ parse_uinteger_literal (bs "017") = Some 15%N /\ parse_integer_literal (bs "-42") = Some (-42)%Z.
Proof. vm_compute. auto. Qed.

(** ** C56: lines and enclosed spans. *)
Theorem C56_line : forall s, let (n, t) := match_crlf_line s in
  exists content term rest, s = content ++ term ++ rest
    /\ length content = n /\ length term = t
    /\ ~ In 10%N content /\ ~ In 13%N content
    /\ ((term = [13; 10]%N \/ term = [10]%N \/ (term = [13]%N /\ forall r, rest <> 10%N :: r))
        \/ (term = [] /\ rest = [])).
Proof.
  intros s. unfold match_crlf_line.
  destruct (find_first_of s [13; 10]%N 0) as [n|] eqn:E.
  - unfold find_first_of, find_if_from in E. cbn [skipn] in E.
    destruct (find_if (fun c => mem c [13; 10]%N) s) as [k|] eqn:F; [|discriminate].
    cbn in E. injection E as ->. apply find_if_split in F as (a & c & b & -> & <- & Hc & Ha).
    assert (Hn : ~ In 10%N a /\ ~ In 13%N a).
    { split; intros H; apply Ha in H; discriminate. }
    assert (Ec : c = 13%N \/ c = 10%N).
    { apply mem_In in Hc. destruct Hc as [H|[H|[]]]; auto. }
    assert (E0 : nth (length a) (a ++ c :: b) 0%N = c).
    { rewrite app_nth2 by lia. rewrite Nat.sub_diag. reflexivity. }
    assert (E1 : nth (length a + 1) (a ++ c :: b) 0%N = nth 0 b 0%N).
    { rewrite app_nth2 by lia. replace (length a + 1 - length a) with 1 by lia. reflexivity. }
    rewrite E0, E1. rewrite app_length. cbn [length].
    destruct Ec as [->| ->]; cbn [N.eqb andb].
    + change (13 =? 13)%N with true. cbn [andb].
      destruct b as [|d b].
      * cbn [length nth]. replace (length a + 1 <? length a + 1) with false
          by (symmetry; apply Nat.ltb_ge; lia). cbn [andb].
        exists a, [13%N], []. repeat split; try tauto. left. right. right. split; [reflexivity|].
        discriminate.
      * cbn [length nth]. replace (length a + 1 <? length a + S (S (length b))) with true
          by (symmetry; apply Nat.ltb_lt; lia). cbn [andb].
        destruct (N.eqb_spec d 10) as [->|Hd].
        -- exists a, [13%N; 10%N], b. repeat split; tauto.
        -- exists a, [13%N], (d :: b). repeat split; try tauto. left. right. right.
           split; [reflexivity|]. intros r Hr. injection Hr as H _. contradiction.
    + change (10 =? 13)%N with false. cbn [andb].
      exists a, [10%N], b. repeat split; tauto.
  - exists s, [], []. rewrite !app_nil_r. unfold find_first_of, find_if_from in E. cbn [skipn] in E.
    destruct (find_if (fun c => mem c [13; 10]%N) s) as [k|] eqn:F; [discriminate|].
    pose proof (find_if_None _ _ F) as H. repeat split; try tauto.
    + intros Hin. apply H in Hin. discriminate.
    + intros Hin. apply H in Hin. discriminate.
Qed.
Print Assumptions C56_line.

Lemma find_sub_first s q i : find_sub s q = Some i ->
  exists a b, s = a ++ q ++ b /\ length a = i
    /\ forall a' b', s = a' ++ q ++ b' -> i <= length a'.
Proof.
  revert i. induction s as [|c s IH]; intros i H.
  - cbn in H. destruct q; [|discriminate]. injection H as <-. exists [], []. repeat split. intros; lia.
  - cbn [find_sub] in H. destruct (starts_with (c :: s) q) eqn:E.
    + injection H as <-. apply starts_with_app in E as (t & E). exists [], t. repeat split; auto.
      intros; lia.
    + destruct (find_sub s q) as [k|] eqn:F; [|discriminate]. cbn in H. injection H as <-.
      destruct (IH k eq_refl) as (a & b & -> & Ha & Hmin). exists (c :: a), b.
      repeat split; [cbn; lia|]. intros [|x a'] b' E'.
      * exfalso. cbn [app] in E'. assert (starts_with (c :: a ++ q ++ b) q = true).
        { apply starts_with_app. exists b'. assumption. }
        congruence.
      * injection E' as -> E'. apply Hmin in E'. cbn. lia.
Qed.

Lemma find_sub_none s q : find_sub s q = None -> forall a b, s <> a ++ q ++ b.
Proof.
  induction s as [|c s IH]; intros H a b E.
  - destruct a; [|discriminate]. cbn in E. destruct q; [cbn in H; discriminate|discriminate].
  - cbn [find_sub] in H. destruct (starts_with (c :: s) q) eqn:Es; [discriminate|].
    destruct (find_sub s q) eqn:F; [discriminate|].
    destruct a as [|x a].
    + cbn [app] in E. assert (starts_with (c :: s) q = true).
      { apply starts_with_app. exists b. assumption. }
      congruence.
    + injection E as -> E. exact (IH eq_refl a b E).
Qed.

Theorem C56_enclosed : forall s p q,
  let r := match_enclosed s p q in
  (starts_with s p = false -> en_length r = 0 /\ en_terminated r = false)
  /\ (forall t, s = p ++ t ->
        (en_terminated r = true /\
           exists a b, t = a ++ q ++ b /\ en_length r = length p + length a + length q
             /\ forall a' b', t = a' ++ q ++ b' -> length a <= length a')
        \/ (en_terminated r = false /\ en_length r = length s
            /\ forall a b, t <> a ++ q ++ b)).
Proof.
  intros s p q. unfold match_enclosed. split.
  - intros ->. cbn. auto.
  - intros t Es. assert (E : starts_with s p = true) by (apply starts_with_app; eauto).
    rewrite E. cbn [negb]. unfold find_str.
    assert (L : (length s <? length p) = false).
    { apply Nat.ltb_ge. subst s. rewrite app_length. lia. }
    rewrite L. replace (skipn (length p) s) with t
      by (subst s; symmetry; apply skipn_app_exact).
    destruct (find_sub t q) as [i|] eqn:F; cbn [option_map en_terminated en_length].
    + left. split; [reflexivity|]. destruct (find_sub_first t q i F) as (a & b & H1 & H2 & H3).
      exists a, b. split; [assumption|]. split; [lia|]. intros a' b' H. rewrite H2. eauto.
    + right. split; [reflexivity|]. split; [reflexivity|]. apply find_sub_none. assumption.
Qed.
Print Assumptions C56_enclosed.

Example C56_nontrivial : match_enclosed (bs "/*a*/b*/") (bs "/*") (bs "*/") = mk_enclosed 5 true
  /\ match_enclosed (bs "/*/") (bs "/*") (bs "*/") = mk_enclosed 3 false
  /\ match_crlf_line [97; 13; 10; 98]%N = (1, 2).
Proof. vm_compute. auto. Qed.
