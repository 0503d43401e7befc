From Coq Require Import List NArith ZArith Bool Arith Lia.
From Verif Require Import M_Base L_Base M_Chars M_Parse S_Parse.
Import ListNotations.

(** ** Scanning *)
Lemma find_if_prefix_len p s :
  match find_if p s with Some i => i | None => length s end = prefix_len (fun c => negb (p c)) s.
Proof.
  induction s as [|c s IH]; cbn; auto. destruct (p c); cbn; auto.
  destruct (find_if p s); cbn in *; auto.
Qed.

Lemma or_length_from p s k : k <= length s ->
  or_length s (find_if_from p s k) = k + prefix_len (fun c => negb (p c)) (skipn k s).
Proof.
  intros H. unfold or_length, find_if_from. pose proof (find_if_prefix_len p (skipn k s)) as E.
  destruct (find_if p (skipn k s)); cbn; rewrite <- E; auto. rewrite skipn_length. lia.
Qed.

Lemma prefix_len_ext p q s : (forall c, p c = q c) -> prefix_len p s = prefix_len q s.
Proof. intros H. induction s as [|c s IH]; cbn; auto. rewrite H, IH. reflexivity. Qed.

Lemma length_if_eq s p : length_if s p = prefix_len p s.
Proof.
  unfold length_if, ascii_find. rewrite or_length_from by lia. cbn [skipn Nat.add].
  apply prefix_len_ext. intros c. destruct (p c); reflexivity.
Qed.

Lemma length_if_not_eq s p : length_if_not s p = prefix_len (fun c => negb (p c)) s.
Proof.
  unfold length_if_not, ascii_find. rewrite or_length_from by lia. cbn [skipn Nat.add].
  apply prefix_len_ext. intros c. destruct (p c); reflexivity.
Qed.

Lemma length_if_le s p : length_if s p <= length s.
Proof. rewrite length_if_eq. apply prefix_len_le. Qed.
Lemma length_if_not_le s p : length_if_not s p <= length s.
Proof. rewrite length_if_not_eq. apply prefix_len_le. Qed.

Lemma length_if_head_tail_eq s h t : length_if_head_tail s h t =
  match s with [] => 0 | c :: s' => if h c then S (prefix_len t s') else 0 end.
Proof.
  destruct s as [|c s]; cbn [length_if_head_tail]; auto. destruct (h c); cbn [negb]; auto.
  unfold ascii_find. rewrite or_length_from by (cbn; lia). cbn [skipn Nat.add]. f_equal.
  apply prefix_len_ext. intros d. destruct (t d); reflexivity.
Qed.
Lemma length_if_head_tail_le s h t : length_if_head_tail s h t <= length s.
Proof.
  rewrite length_if_head_tail_eq. destruct s as [|c s]; cbn; auto.
  destruct (h c); [pose proof (prefix_len_le t s)|]; lia.
Qed.

Lemma length_before_eq s d k : k <= length s ->
  length_before s d k = k + prefix_len (fun c => negb (c =? d)%N) (skipn k s).
Proof. intros. unfold length_before, find_ch. apply or_length_from. assumption. Qed.
Lemma length_before_le s d k : length_before s d k <= length s.
Proof.
  unfold length_before, or_length. destruct (find_ch s d k) as [i|] eqn:E; auto.
  apply find_if_from_Some in E. lia.
Qed.
Lemma length_until_le s d k : length_until s d k <= length s.
Proof.
  unfold length_until. destruct (find_ch s d k) as [i|] eqn:E; auto.
  apply find_if_from_Some in E. lia.
Qed.

(** [prefix_len] as the longest prefix. *)
Lemma length_until_pos s d k : s <> [] \/ 0 < length s -> 0 < length_until s d k.
Proof.
  intros H. unfold length_until. destruct (find_ch s d k); [lia|].
  destruct s; [destruct H; [congruence|assumption]|cbn; lia].
Qed.
Lemma prefix_len_maximal p e t : Forall (fun c => p c = true) e -> length e <= prefix_len p (e ++ t).
Proof. induction 1 as [|c e H He IH]; cbn; [lia|]. rewrite H. lia. Qed.

Lemma prefix_len_firstn_Forall p s k : k <= prefix_len p s ->
  Forall (fun c => p c = true) (firstn k s).
Proof.
  revert k. induction s as [|c s IH]; intros [|k] H; cbn in *; try constructor; try lia.
  - destruct (p c); [reflexivity|lia].
  - apply IH. destruct (p c); lia.
Qed.

Lemma prefix_len_firstn p s k : prefix_len p (firstn k s) = Nat.min k (prefix_len p s).
Proof.
  revert k. induction s as [|c s IH]; intros [|k]; cbn; auto. destruct (p c); cbn; auto.
Qed.

Lemma prefix_len_app_all p e t : Forall (fun c => p c = true) e ->
  prefix_len p (e ++ t) = length e + prefix_len p t.
Proof. induction 1 as [|c e H He IH]; cbn; [lia|]. rewrite H. lia. Qed.

Lemma prefix_len_all_eq p e : Forall (fun c => p c = true) e -> prefix_len p e = length e.
Proof. intros H. rewrite <- (app_nil_r e) at 1. rewrite prefix_len_app_all by assumption. cbn. lia. Qed.

Lemma forallb_Forall {A} (p : A -> bool) l : forallb p l = true <-> Forall (fun c => p c = true) l.
Proof. rewrite forallb_forall, Forall_forall. reflexivity. Qed.

(** ** Digit classes *)
Lemma octal_iff c : is_ascii_octal_digit c = true <-> octal c.
Proof. unfold is_ascii_octal_digit, between, octal. rewrite andb_true_iff, !N.leb_le. tauto. Qed.

Lemma hex_iff c : is_ascii_hex_digit c = true <-> hex c.
Proof.
  unfold is_ascii_hex_digit, is_ascii_lower_hex_digit, is_ascii_upper_hex_digit, between, hex.
  rewrite !orb_true_iff, !andb_true_iff, !N.leb_le. tauto.
Qed.

Lemma Forall_octal l : Forall (fun c => is_ascii_octal_digit c = true) l <-> Forall octal l.
Proof. rewrite !Forall_forall. setoid_rewrite octal_iff. reflexivity. Qed.
Lemma Forall_hex l : Forall (fun c => is_ascii_hex_digit c = true) l <-> Forall hex l.
Proof. rewrite !Forall_forall. setoid_rewrite hex_iff. reflexivity. Qed.

(** ** Enclosed spans and lines *)
Lemma match_enclosed_le s p q : en_length (match_enclosed s p q) <= length s.
Proof.
  unfold match_enclosed. destruct (starts_with s p); cbn [negb]; [|cbn; lia].
  destruct (find_str s q (length p)) as [i|] eqn:E; cbn; [|lia].
  apply find_str_bound in E. lia.
Qed.

Lemma match_enclosed_prefix s p q : en_length (match_enclosed s p q) <> 0 ->
  length p <= en_length (match_enclosed s p q).
Proof.
  unfold match_enclosed. destruct (starts_with s p) eqn:Es; cbn [negb]; [|cbn; lia].
  destruct (find_str s q (length p)) as [i|] eqn:E; cbn; intros _.
  - apply find_str_bound in E. lia.
  - apply starts_with_length. assumption.
Qed.

Lemma match_enclosed_terminated s p q : en_terminated (match_enclosed s p q) = true ->
  length p + length q <= en_length (match_enclosed s p q).
Proof.
  unfold match_enclosed. destruct (starts_with s p) eqn:Es; cbn [negb]; [|cbn; discriminate].
  destruct (find_str s q (length p)) as [i|] eqn:E; cbn; intros H; [|discriminate].
  apply find_str_bound in E. lia.
Qed.

Lemma match_crlf_line_le s : fst (match_crlf_line s) + snd (match_crlf_line s) <= length s.
Proof.
  unfold match_crlf_line.
  destruct (find_first_of s [13; 10]%N 0) as [n|] eqn:E; cbn [fst snd]; [|lia].
  apply find_if_from_Some in E as (H & _).
  destruct (Nat.ltb_spec (n + 1) (length s)); [destruct (_ && _); lia|].
  rewrite andb_false_r. cbn [andb]. lia.
Qed.

Lemma match_crlf_line_progress s : s <> [] ->
  0 < fst (match_crlf_line s) + snd (match_crlf_line s).
Proof.
  intros Hs. unfold match_crlf_line. destruct (find_first_of s [13; 10]%N 0) as [n|] eqn:E; cbn.
  - destruct (_ && _); lia.
  - destruct s; [congruence|cbn; lia].
Qed.

(** ** Escapes *)
Lemma braced_le s p : es_length (match_common_braced_escape s p) <= length s.
Proof.
  unfold match_common_braced_escape. destruct (starts_with_ch s 123); cbn [negb]; [|cbn; lia].
  pose proof (length_before_le s 125 1) as H. cbn [es_length].
  destruct (Nat.eqb_spec (length_before s 125 1) (length s)); cbn [orb]; [lia|].
  destruct (negb _); lia.
Qed.

Lemma match_common_escape_le k s : es_length (match_common_escape k s) <= length s.
Proof.
  assert (F : forall n p, length_if (firstn n s) p <= length s).
  { intros n p. pose proof (length_if_le (firstn n s) p). rewrite firstn_length in *. lia. }
  destruct k; cbn [match_common_escape escape_type_min_length escape_type_max_length es_length];
    try apply F; try apply braced_le; try apply length_if_le.
  1-3: match goal with |- context [if ?b then _ else _] => destruct b end; cbn [es_length];
       rewrite firstn_length; lia.
  - destruct (starts_with_ch s 123); cbn [negb]; [|cbn; lia].
    destruct (find_ch s 125 1) as [i|] eqn:E; cbn [es_length]; [|lia].
    apply find_if_from_Some in E. lia.
  - destruct (starts_with s [13; 10]%N) eqn:E.
    + apply starts_with_length in E. cbn in E. lia.
    + destruct s as [|c s]; cbn; [lia|]. destruct ((c =? 13)%N || (c =? 10)%N); lia.
Qed.

(** ** Numbers *)
Lemma separated_loop_len s base sep : forall prev err,
  fst (separated_loop s base sep prev err)
  = prefix_len (fun c => (c =? sep)%N || is_ascii_digit_base c base) s.
Proof.
  induction s as [|c s IH]; intros prev err; cbn; auto.
  destruct (c =? sep)%N; cbn; [rewrite IH; reflexivity|].
  destruct (is_ascii_digit_base c base); cbn; [rewrite IH; reflexivity|reflexivity].
Qed.

Lemma match_separated_digits_le s base sep : fst (match_separated_digits s base sep) <= length s.
Proof.
  unfold match_separated_digits. destruct (sep =? 0)%N; cbn.
  - apply length_if_le.
  - rewrite separated_loop_len. apply prefix_len_le.
Qed.

Lemma number_base_prefix o s ps r : number_base o s ps = Ok r ->
  fst (fst r) <= length s
  /\ (fst (fst r) <> 0 -> exists p, In p ps /\ firstn (fst (fst r)) s = np_str p
        /\ snd (fst r) = np_float p /\ snd r = np_base p)
  /\ (fst (fst r) = 0 -> snd (fst r) = true
        /\ snd r = if starts_with_ch s 48 then no_zero_base o else no_base o).
Proof.
  induction ps as [|p ps IH]; cbn [number_base].
  - injection 1 as <-. cbn. split; [lia|]. split; [congruence|auto].
  - unfold check. destruct (Nat.eqb_spec (length (np_str p)) 0) as [E0|E0]; cbn [negb bind];
      [discriminate|].
    destruct (starts_with s (np_str p)) eqn:Es.
    + injection 1 as <-. cbn [fst snd]. split; [apply starts_with_length; assumption|].
      split; [|congruence]. intros _. exists p.
      split; [left; reflexivity|]. split; [apply starts_with_firstn; assumption|auto].
    + intros H. destruct (IH H) as (H1 & H2 & H3). split; [assumption|]. split; [|assumption].
      intros H4. destruct (H2 H4) as (q & Hq & H5). exists q. split; [right; assumption|assumption].
Qed.

Lemma number_base_Ok o s ps : Forall (fun p => np_str p <> []) ps ->
  exists r, number_base o s ps = Ok r.
Proof.
  induction 1 as [|p ps Hp Hps IH]; cbn [number_base]; eauto.
  unfold check. destruct (np_str p) as [|c t] eqn:E; [congruence|]. cbn [length Nat.eqb negb bind].
  destruct (starts_with s (c :: t)); eauto.
Qed.

Lemma number_exponent_le s es : fst (fst (number_exponent s es)) + snd (fst (number_exponent s es))
  <= length s.
Proof.
  induction es as [|e es IH]; cbn [number_exponent]; [cbn; lia|].
  destruct (starts_with s (fst e)) eqn:E; [|assumption]. cbn [fst snd].
  apply starts_with_length in E. unfold match_digits.
  pose proof (length_if_le (skipn (length (fst e)) s) (fun c => is_ascii_digit_base c 10)) as H.
  rewrite skipn_length in H. lia.
Qed.

Lemma number_suffix_le s l : number_suffix s l <= length s.
Proof.
  induction l as [|x l IH]; cbn [number_suffix]; [lia|].
  destruct (starts_with s x) eqn:E; [apply starts_with_length; assumption|assumption].
Qed.

(** The options the code's assertions require. *)
Definition good_options (o : number_options) : Prop :=
  (no_suffixes o = [] \/ no_match_suffix o = None)
  /\ Forall (fun p => np_str p <> []) (no_prefixes o)
  /\ (forall f, no_match_suffix o = Some f -> forall t, f t <= length t).

Definition parts (r : number_result) : nat :=
  nr_sign r + nr_prefix r + nr_integer r + nr_radix_point r + nr_fractional r
  + nr_exponent_sep r + nr_exponent_digits r + nr_suffix r.

Lemma match_common_number_ok s o : good_options o ->
  exists r, match_common_number s o = Ok r /\ nr_length r = parts r /\ nr_length r <= length s.
Proof.
  intros (Hs & Hp & Hm). unfold match_common_number.
  assert (C : (match no_suffixes o, no_match_suffix o with
               | [], _ => true | _, None => true | _, Some _ => false end) = true).
  { destruct Hs as [->| ->]; [reflexivity|]. destruct (no_suffixes o); reflexivity. }
  rewrite C. cbn [check bind]. clear C.
  destruct s as [|c s'] eqn:Es; [exists no_number; repeat split; cbn; lia|]. rewrite <- Es.
  assert (Hlen : 1 <= length s) by (subst; cbn; lia). clear Es c s'.
  set (sign := if _ || _ then 1 else 0).
  assert (Hsign : sign <= length s) by (subst sign; destruct (_ || _); lia).
  clearbody sign.
  destruct (number_base_Ok o (skipn sign s) (no_prefixes o) Hp) as (((prefix & allow) & base) & Eb).
  pose proof (number_base_prefix _ _ _ _ Eb) as (Hb & _). cbn [fst snd] in Hb.
  rewrite skipn_length in Hb. rewrite Eb. cbn [bind].
  pose proof (match_separated_digits_le (skipn (sign + prefix) s) base (no_separator o)) as Hi.
  rewrite skipn_length in Hi.
  destruct (match_separated_digits (skipn (sign + prefix) s) base (no_separator o))
    as [integer ierr]. cbn [fst] in Hi.
  set (l2 := sign + prefix + integer) in *.
  set (dot := allow && starts_with_ch (skipn l2 s) 46).
  assert (Hdot : dot = true -> l2 + 1 <= length s).
  { subst dot. intros H. apply andb_prop in H as [_ H].
    destruct (skipn l2 s) as [|d t] eqn:E; [discriminate|].
    apply (f_equal (@length _)) in E. rewrite skipn_length in E. cbn in E. lia. }
  destruct (if dot then match_separated_digits (skipn (l2 + 1) s) base (no_separator o)
            else (0, false)) as [frac ferr] eqn:Ef.
  assert (Hf : if dot then l2 + 1 + frac <= length s else frac = 0).
  { destruct dot; [|congruence].
    pose proof (match_separated_digits_le (skipn (l2 + 1) s) base (no_separator o)) as H.
    rewrite Ef, skipn_length in H. cbn [fst] in H. specialize (Hdot eq_refl). lia. }
  clearbody dot.
  destruct (dot && (prefix =? 0) && (integer =? 0) && _).
  { exists no_number. repeat split; cbn; lia. }
  set (l3 := l2 + (if dot then 1 else 0) + frac).
  assert (Hl3 : l3 <= length s) by (subst l3; destruct dot; unfold l2 in *; lia).
  destruct (Nat.eqb_spec l3 0) as [E3|E3].
  { exists no_number. repeat split; cbn; lia. }
  destruct (if allow && (l3 <? length s) then number_exponent (skipn l3 s) (no_exponents o)
            else (0, 0, false)) as [[es ed] eerr] eqn:Ee.
  assert (He : l3 + es + ed <= length s).
  { destruct (allow && (l3 <? length s)).
    - pose proof (number_exponent_le (skipn l3 s) (no_exponents o)) as H. rewrite Ee in H.
      cbn [fst snd] in H. rewrite skipn_length in H. lia.
    - injection Ee as <- <- _. lia. }
  match goal with |- context [if l3 + es + ed <? length s then ?a else ?b] =>
    set (suffix := if l3 + es + ed <? length s then a else b) end.
  assert (Hsf : l3 + es + ed + suffix <= length s).
  { subst suffix. destruct (l3 + es + ed <? length s); [|lia].
    destruct (no_suffixes o) as [|x l].
    - destruct (no_match_suffix o) as [f|] eqn:Em; [|lia].
      pose proof (Hm f eq_refl (skipn (l3 + es + ed) s)) as H. rewrite skipn_length in H. lia.
    - pose proof (number_suffix_le (skipn (l3 + es + ed) s) (x :: l)) as H.
      rewrite skipn_length in H. lia. }
  clearbody suffix.
  match goal with |- context [check (?x =? ?y) FDebugAssert] =>
    replace (x =? y) with true by (symmetry; apply Nat.eqb_eq; unfold l3, l2; lia) end.
  cbn [check bind]. eexists. split; [reflexivity|]. unfold parts. cbn. unfold l3, l2 in *. lia.
Qed.
