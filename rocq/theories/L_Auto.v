(** * Shared lemmas and automation for the language highlighters *)
From Coq Require Import List NArith ZArith Bool Arith Lia.
From Verif Require Import M_Base L_Base M_Chars M_Types M_Emit S_Ops M_Parse L_Parse S_Parse P_Parse M_Api M_Highlighter S_Highlight L_Highlighter P_LangCpp.
Import ListNotations.

(** [when (len <> 0) (emit and advance)] *)
Lemma wp_flush {S} P len ty (Q : unit -> hst S -> Prop) st : len <= length (rem st) ->
  (forall st', steps P len st st' -> loc st' = loc st -> Q tt st') -> wp (when (negb (len =? 0)) (emit_and_advance len ty)) Q st.
Proof.
  intros L H. unfold when. destruct (Nat.eqb_spec len 0) as [->|N]; cbn [negb].
  - apply wp_ret. apply H; [apply steps_refl|reflexivity].
  - apply (wp_emit_adv P); [lia|]. exact H.
Qed.

(** A loop over [remainder] with a pending length. *)
Definition scan_post {S B} (P : N -> Prop) (st : hst S) (a0 m : nat) (R : B -> nat -> hst S -> Prop) (r : nat + B) (st2 : hst S) : Prop :=
  match r with
  | inl a => exists k, steps P k st st2 /\ a <= length (rem st2) /\ a0 <= k + a /\ length (rem st2) - a < m
  | inr b => exists k, steps P k st st2 /\ R b k st2
  end.
Lemma wp_scan {S B} P c (body : nat -> M S (nat + B)) a0 (R : B -> nat -> hst S -> Prop) st :
  0 < c -> a0 <= length (rem st) ->
  (forall a k st1, steps P k st st1 -> a <= length (rem st1) -> a0 <= k + a -> wp (body a) (scan_post P st a0 (length (rem st1) - a) R) st1) ->
  wp (hloop c body a0) (fun b st' => exists k, steps P k st st' /\ R b k st') st.
Proof.
  intros Hc L H. apply wp_hloop with (Inv := fun a st1 => exists k, steps P k st st1 /\ a <= length (rem st1) /\ a0 <= k + a) (mu := fun a st1 => length (rem st1) - a).
  - exists 0. split; [apply steps_refl|lia].
  - nia.
  - intros a st1 (k & Hs & La & Lk). eapply wp_mono; [apply (H a k st1 Hs La Lk)|]. intros [a'|b] st2; cbn; [|auto].
    intros (k' & H1 & H2 & H3 & H4). split; [eauto|exact H4].
Qed.
(** A loop without loop variable that makes progress in every round but the last. *)
Definition round_post {S B} (P : N -> Prop) (st : hst S) (m : nat) (R : B -> nat -> hst S -> Prop) (r : unit + B) (st2 : hst S) : Prop :=
  match r with
  | inl _ => exists k, steps P k st st2 /\ length (rem st2) < m
  | inr b => exists k, steps P k st st2 /\ R b k st2
  end.
Lemma wp_rounds {S B} P c (body : unit -> M S (unit + B)) (R : B -> nat -> hst S -> Prop) st :
  0 < c -> (forall k st1, steps P k st st1 -> wp (body tt) (round_post P st (length (rem st1)) R) st1) ->
  wp (hloop c body tt) (fun b st' => exists k, steps P k st st' /\ R b k st') st.
Proof.
  intros Hc H. apply wp_hloop with (Inv := fun _ st1 => exists k, steps P k st st1) (mu := fun _ st1 => length (rem st1)).
  - exists 0. apply steps_refl.
  - nia.
  - intros [] st1 (k & Hs). eapply wp_mono; [apply (H k st1 Hs)|]. intros [a'|b] st2; cbn; [|auto].
    intros (k' & H1 & H2). split; [eauto|exact H2].
Qed.

(** Matched numbers. *)
Lemma wp_common_number {S} o (Q : number_result -> hst S -> Prop) s st : good_options o ->
  (forall r, match_common_number s o = Ok r -> nr_length r = parts r -> nr_length r <= length s -> Q r st) ->
  wp (lift (match_common_number s o)) Q st.
Proof. intros G H. destruct (match_common_number_ok s o G) as (r & E & E1 & E2). eapply wp_lift; [exact E|]. apply H; assumption. Qed.

Lemma wp_escape_at {S} k s p (Q : escape -> hst S -> Prop) st : p <= length s ->
  (forall e, match_common_escape_at k s p = Ok e -> p <= es_length e <= length s -> Q e st) -> wp (lift (match_common_escape_at k s p)) Q st.
Proof. intros L H. destruct (common_escape_at_ok k s p L) as (e & E & E1). eapply wp_lift; [exact E|]. apply H; assumption. Qed.
Create HintDb good_opts.

Lemma digit_base_10 c b : is_ascii_digit c = true -> (10 <= b)%Z -> is_ascii_digit_base c b = true.
Proof. intros H Hb. unfold is_ascii_digit_base. rewrite H. destruct (Z.ltb_spec b 10); [lia|]. reflexivity. Qed.
Lemma digit_base_zero b : (2 <= b)%Z -> is_ascii_digit_base 48 b = true.
Proof.
  intros Hb. unfold is_ascii_digit_base. destruct (Z.ltb_spec b 10); [|reflexivity]. apply andb_true_iff. rewrite N.leb_le, Z.ltb_lt. change (Z.of_N 48) with 48%Z. lia.
Qed.
(** A text that starts with a decimal digit is matched as a number. *)
Lemma number_of_digit c s o r : is_ascii_digit c = true -> (10 <= no_base o)%Z -> (2 <= no_zero_base o)%Z ->
  match_common_number (c :: s) o = Ok r -> nr_length r <> 0.
Proof.
  intros Hc B1 B2. unfold match_common_number. destruct (match no_suffixes o, no_match_suffix o with [], _ => true | _, None => true | _, Some _ => false end); [|discriminate]. cbn [check bind].
  assert (c <> 43 /\ c <> 45 /\ c <> 46)%N as (N1 & N2 & N3).
  { unfold is_ascii_digit, between in Hc. apply andb_true_iff in Hc. rewrite !N.leb_le in Hc. lia. }
  cbn [starts_with_ch]. rewrite (proj2 (N.eqb_neq c 43) N1), (proj2 (N.eqb_neq c 45) N2), !andb_false_r. cbn [orb skipn].
  destruct (number_base o (c :: s) (no_prefixes o)) as [[[prefix allow] base]|] eqn:EB; [|discriminate]. cbn [bind Nat.add].
  pose proof (number_base_prefix _ _ _ _ EB) as (_ & _ & HB). cbn [fst snd] in HB.
  destruct (match_separated_digits (skipn prefix (c :: s)) base (no_separator o)) as [integer ierr] eqn:EI.
  assert (Pos : prefix = 0 -> 0 < integer).
  { intros ->. destruct (HB eq_refl) as [_ Eb]. cbn [skipn] in EI.
    assert (D : is_ascii_digit_base c base = true).
    { rewrite Eb. cbn [starts_with_ch]. destruct (N.eqb_spec c 48) as [->|Ne]; [apply digit_base_zero; exact B2|apply digit_base_10; assumption]. }
    replace integer with (fst (match_separated_digits (c :: s) base (no_separator o))) by (rewrite EI; reflexivity). unfold match_separated_digits. destruct (no_separator o =? 0)%N; cbn [fst].
    - unfold match_digits. rewrite length_if_eq. cbn [prefix_len]. rewrite D. lia.
    - rewrite separated_loop_len. cbn [prefix_len]. rewrite D, orb_true_r. lia. }
  set (dot := allow && starts_with_ch (skipn (prefix + integer) (c :: s)) 46).
  destruct (if dot then match_separated_digits (skipn (prefix + integer + 1) (c :: s)) base (no_separator o) else (0, false)) as [frac ferr].
  assert (X : dot && (prefix =? 0) && (integer =? 0) = false).
  { destruct (Nat.eqb_spec prefix 0) as [E0|E0]; [|rewrite andb_false_r; reflexivity]. specialize (Pos E0). rewrite (proj2 (Nat.eqb_neq integer 0)) by lia. apply andb_false_r. }
  rewrite X. cbn [andb]. destruct (Nat.eqb_spec (prefix + integer + (if dot then 1 else 0) + frac) 0) as [E3|E3]; [exfalso; destruct prefix; [specialize (Pos eq_refl)|]; lia|].
  match goal with |- context [if allow && ?b then ?x else ?y] => destruct (if allow && b then x else y) as [[es ed] eerr] end.
  match goal with |- context [check ?b ?f] => destruct (check b f); [|discriminate] end. cbn [bind]. injection 1 as <-. cbn [nr_length]. lia.
Qed.

(** Digits in a base without separators *)
Lemma separated_all d rest base sep prev err : Forall (fun c => is_ascii_digit_base c base = true /\ c <> sep) d ->
  (forall c, hd_error rest = Some c -> is_ascii_digit_base c base = false /\ c <> sep) -> (d <> [] \/ prev <> sep) ->
  separated_loop (d ++ rest) base sep prev err = (length d, err).
Proof.
  intros F. revert prev err. induction F as [|c d [Hc Hs] F IH]; intros prev err R Hp; cbn [app length].
  - destruct rest as [|c t]; cbn [separated_loop].
    + destruct Hp as [Hp|Hp]; [congruence|]. rewrite (proj2 (N.eqb_neq _ _) Hp), orb_false_r. reflexivity.
    + destruct (R c eq_refl) as [-> R2]. rewrite (proj2 (N.eqb_neq _ _) R2), orb_false_r. reflexivity.
  - cbn [separated_loop]. rewrite (proj2 (N.eqb_neq _ _) Hs), Hc. rewrite IH by auto. reflexivity.
Qed.
Lemma digits_all d rest base sep : Forall (fun c => is_ascii_digit_base c base = true /\ (c <> sep \/ sep = 0%N)) d -> d <> [] ->
  (forall c, hd_error rest = Some c -> is_ascii_digit_base c base = false /\ (c <> sep \/ sep = 0%N)) ->
  match_separated_digits (d ++ rest) base sep = (length d, false).
Proof.
  intros F Hd R. unfold match_separated_digits. destruct (N.eqb_spec sep 0) as [->|Hs].
  - f_equal. unfold match_digits. rewrite length_if_eq. rewrite prefix_len_app_all.
    + destruct rest as [|c t]; cbn [prefix_len]; [lia|]. destruct (R c eq_refl) as [-> _]. lia.
    + eapply Forall_impl; [|exact F]. intros c [H _]. exact H.
  - apply separated_all; auto.
    + eapply Forall_impl; [|exact F]. intros c [H [H1|H1]]; [auto|contradiction].
    + intros c Hc. destruct (R c Hc) as [H [H1|H1]]; [auto|contradiction].
Qed.

(** A number made of a prefix and digits, up to something that does not continue it. *)
Lemma plain_number o p d rest allow base :
  match no_suffixes o, no_match_suffix o with [], _ => true | _, None => true | _, Some _ => false end = true ->
  d <> [] ->
  (forall c, hd_error (p ++ d) = Some c -> c <> 43%N /\ c <> 45%N) ->
  number_base o (p ++ d ++ rest) (no_prefixes o) = Ok (length p, allow, base) ->
  Forall (fun c => is_ascii_digit_base c base = true /\ (c <> no_separator o \/ no_separator o = 0%N)) d ->
  (forall c, hd_error rest = Some c -> is_ascii_digit_base c base = false /\ (c <> no_separator o \/ no_separator o = 0%N) /\ (allow = true -> c <> 46%N)) ->
  (allow = true -> rest <> [] -> number_exponent rest (no_exponents o) = (0, 0, false)) ->
  (rest <> [] -> match no_suffixes o with [] => match no_match_suffix o with Some f => f rest | None => 0 end | l => number_suffix rest l end = 0) ->
  match_common_number (p ++ d ++ rest) o = Ok (mk_number (length p + length d) 0 (length p) (length d) 0 0 0 0 0 false).
Proof.
  intros G Hd Hsign HB HF HR HE HS. set (s := p ++ d ++ rest). assert (Hs : exists c t, s = c :: t /\ c <> 43%N /\ c <> 45%N).
  { unfold s. destruct p as [|c p]; [destruct d as [|c d]; [congruence|]|]; cbn [app]; do 2 eexists; (split; [reflexivity|]); apply Hsign; reflexivity. }
  destruct Hs as (c & t & Es & N1 & N2).
  assert (X : (if no_plus o && starts_with_ch s 43 || no_minus o && starts_with_ch s 45 then 1 else 0) = 0).
  { rewrite Es. cbn [starts_with_ch]. rewrite (proj2 (N.eqb_neq _ _) N1), (proj2 (N.eqb_neq _ _) N2), !andb_false_r. reflexivity. }
  assert (LS : exists c t, s = c :: t) by eauto. unfold match_common_number. rewrite G. cbn [check bind].
  enough (K : forall A (x y : A), match s with [] => x | _ :: _ => y end = y).
  2:{ intros. rewrite Es. reflexivity. }
  rewrite K. clear K. rewrite X. clear X. cbn [skipn]. fold s in HB. rewrite HB. cbn [bind Nat.add].
  assert (E1 : skipn (length p) s = d ++ rest) by apply skipn_app_exact. rewrite E1.
  assert (E2 : skipn (length p + length d) s = rest) by (unfold s; rewrite app_assoc, <- app_length; apply skipn_app_exact).
  assert (EL : length s = length p + length d + length rest) by (unfold s; rewrite !app_length; lia).
  rewrite (digits_all d rest base (no_separator o)); [|assumption|assumption|intros x Hx; destruct (HR x Hx) as (A & B & _); auto].
  cbn match. assert (LD : length d <> 0) by (destruct d; cbn; congruence). rewrite (proj2 (Nat.eqb_neq _ _) LD).
  assert (ED : allow && starts_with_ch (skipn (length p + length d) s) 46 = false).
  { rewrite E2. destruct allow; [|reflexivity]. cbn [andb]. destruct rest as [|x r]; [reflexivity|]. cbn [starts_with_ch]. apply N.eqb_neq. apply (HR x eq_refl). reflexivity. }
  rewrite ED. cbn [andb]. rewrite !andb_false_r. cbn [orb]. rewrite Nat.add_0_r, Nat.add_0_r.
  destruct (Nat.eqb_spec (length p + length d) 0); [lia|].
  assert (EX : (if allow && (length p + length d <? length s) then number_exponent (skipn (length p + length d) s) (no_exponents o) else (0, 0, false)) = (0, 0, false)).
  { rewrite E2, EL. destruct allow; [|reflexivity]. cbn [andb]. destruct (Nat.ltb_spec (length p + length d) (length p + length d + length rest)); [|reflexivity]. apply HE; [reflexivity|]. destruct rest; cbn in *; [lia|discriminate]. }
  rewrite EX. rewrite !Nat.add_0_r.
  assert (ES : (if length p + length d <? length s then match no_suffixes o with [] => match no_match_suffix o with Some f => f (skipn (length p + length d) s) | None => 0 end | l => number_suffix (skipn (length p + length d) s) l end else 0) = 0).
  { rewrite E2, EL. destruct (Nat.ltb_spec (length p + length d) (length p + length d + length rest)); [|reflexivity]. apply HS. destruct rest; cbn in *; [lia|discriminate]. }
  rewrite ES. rewrite !Nat.add_0_r. rewrite Nat.eqb_refl. cbn [check bind]. f_equal. f_equal. apply Nat.eqb_neq. lia.
Qed.

(** ** Exact runs *)
Lemma wp_emit_exact {S} f n ty (Q : unit -> hst S -> Prop) r i o l : 0 < n <= length r ->
  Q tt (mk_hst (skipn n r) (i + n) (OEmit i n ty f :: o) l) -> wp (emit_and_advance_c f n ty) Q (mk_hst r i o l).
Proof.
  intros L H. unfold emit_and_advance_c, emit_at, advance, bindM, get_idx, wp. cbn [rem idx rops loc].
  rewrite (proj2 (Nat.eqb_neq n 0)) by lia. rewrite (proj2 (Nat.ltb_lt i (i + length r))) by lia. rewrite (proj2 (Nat.leb_le (i + n) (i + length r))) by lia. cbn [negb andb rem idx rops loc].
  rewrite (proj2 (Nat.leb_le n (length r))) by lia. exact H.
Qed.
Lemma wp_advance_exact {S} n (Q : unit -> hst S -> Prop) r i o l : n <= length r ->
  Q tt (mk_hst (skipn n r) (i + n) o l) -> wp (advance n) Q (mk_hst r i o l).
Proof. intros L H. unfold advance, wp. cbn [rem idx rops loc]. rewrite (proj2 (Nat.leb_le n (length r))) by lia. exact H. Qed.

(** The operations for a plain number at [i] *)
Definition number_ops (i p d : nat) : list out_op :=
  (if p =? 0 then [] else [OEmit i p hl_number_decor false]) ++ [OEmit (i + p) d hl_number false].
Lemma highlight_plain {S} fn p d (Q : unit -> hst S -> Prop) r i o l :
  (forall x y, 0 < length x <= length (rem y) -> (fn x) y = emit_and_advance (length x) hl_number y) ->
  d <> 0 -> p + d <= length r -> Q tt (mk_hst (skipn (p + d) r) (i + p + d) (rev (number_ops i p d) ++ o) l) ->
  wp (highlight_number_impl fn (mk_number (p + d) 0 p d 0 0 0 0 0 false)) Q (mk_hst r i o l).
Proof.
  intros Hfn Hd L H. unfold highlight_number_impl. cbn [nr_erroneous nr_sign nr_prefix nr_integer nr_radix_point nr_fractional nr_exponent_sep nr_exponent_digits nr_suffix Nat.eqb negb Nat.add].
  assert (T : forall r i o, d <= length r -> Q tt (mk_hst (skipn d r) (i + d) (OEmit i d hl_number false :: o) l) ->
     wp (when (negb (d =? 0)) (let! s := get_rem in fn (firstn d s)) ;; when false (emit_and_advance 0 hl_number_delim) ;; when false (let! s := get_rem in fn (firstn 0 s));; when false (emit_and_advance 0 hl_number_delim) ;; when false (let! s := get_rem in fn (firstn 0 s));; when false (emit_and_advance 0 hl_number_decor)) Q (mk_hst r i o l)).
  { clear - Hfn Hd. intros r i o L H. rewrite (proj2 (Nat.eqb_neq d 0)) by lia. cbn [negb]. unfold when at 1. apply wp_bind. apply wp_bind. apply wp_get_rem. cbn [rem].
    unfold wp at 1. rewrite Hfn by (cbn [rem]; rewrite firstn_length; lia). rewrite firstn_length, Nat.min_l by lia. fold (wp (emit_and_advance d hl_number) (fun _ st' => wp (when false (emit_and_advance 0 hl_number_delim) ;; when false (let! s := get_rem in fn (firstn 0 s));; when false (emit_and_advance 0 hl_number_delim) ;; when false (let! s := get_rem in fn (firstn 0 s));; when false (emit_and_advance 0 hl_number_decor)) Q st') (mk_hst r i o l)).
    apply wp_emit_exact; [lia|]. unfold when. repeat (apply wp_bind; apply wp_ret). apply wp_ret. exact H. }
  apply wp_bind. unfold when at 1. destruct (Nat.eqb_spec p 0) as [->|Hp]; cbn [negb].
  - apply wp_ret. apply T; [lia|]. cbn in H. rewrite Nat.add_0_r in H. exact H.
  - apply wp_emit_exact; [lia|]. apply T; [rewrite skipn_length; lia|]. rewrite skipn_skipn. unfold number_ops in H. destruct (Nat.eqb_spec p 0); [lia|]. exact H.
Qed.
Lemma digits_plain {S} x (y : hst S) : 0 < length x <= length (rem y) -> highlight_digits_ignore_separator x y = emit_and_advance (length x) hl_number y.
Proof. destruct x; cbn; [lia|reflexivity]. Qed.

(** Line terminators *)
Lemma crlf_line_term s (P : N -> Prop) : P 10%N -> P 13%N -> Forall P (firstn (snd (match_crlf_line s)) (skipn (fst (match_crlf_line s)) s)).
Proof.
  intros P10 P13. pose proof (C56_line s) as H. destruct (match_crlf_line s) as [n t]. cbn [fst snd].
  destruct H as (content & term & rest & -> & <- & <- & _ & _ & H). rewrite skipn_app_exact, firstn_app_exact.
  destruct H as [[->|[->|[-> _]]]|[-> _]]; repeat constructor; assumption.
Qed.

(** ** First characters *)
Lemma at_0 (s : str) c : nth_error s 0 = Some c -> exists t, s = c :: t.
Proof. destruct s; cbn; [discriminate|]. intros [= ->]. eauto. Qed.
Lemma at_0_is (s : str) c x : nth_error s 0 = Some c -> (c =? x)%N = true -> starts_with_ch s x = true.
Proof. intros H E. apply at_0 in H as [t ->]. cbn. apply N.eqb_eq in E. subst. apply N.eqb_refl. Qed.
Lemma at_0_number s c o r : nth_error s 0 = Some c -> is_ascii_digit c = true -> (10 <= no_base o)%Z -> (2 <= no_zero_base o)%Z ->
  match_common_number s o = Ok r -> nr_length r <> 0.
Proof. intros H. apply at_0 in H as [t ->]. apply number_of_digit. Qed.
Lemma gap_one (P : N -> Prop) (s : str) c : nth_error s 0 = Some c -> P c -> Forall P (firstn 1 s).
Proof. intros H G. apply at_0 in H as [t ->]. repeat constructor. exact G. Qed.

(** ** Tactics *)
Ltac list_len :=
  repeat match goal with
  | H : context [length (skipn _ _)] |- _ => rewrite skipn_length in H
  | H : context [length (firstn _ _)] |- _ => rewrite firstn_length in H
  | |- context [length (skipn _ _)] => rewrite skipn_length
  | |- context [length (firstn _ _)] => rewrite firstn_length
  end.
Ltac hlia ::= bool_goal; bool_hyps; pose_len; lit_len; list_len; cbn [length rem] in *; lia.
(** Closes the goals left at the ends of branches. *)
Ltac fin :=
  cbn beta; unfold scan_post, round_post, attempt; cbn iota beta;
  match goal with
  | H : steps ?P ?k ?s ?s' |- exists k, steps ?P k ?s ?s' => exists k; exact H
  | H : steps ?P ?k ?s ?s' |- exists k, steps ?P k ?s ?s' /\ _ => exists k; split; [exact H|repeat split; try solve [intros; try discriminate; hlia]]
  | |- _ = _ => reflexivity
  end.
(** [hl1] and more: flushes, pairs, results of matchers. *)
Ltac go1 :=
  cbn beta;
  lazymatch goal with
  | |- wp (when (negb (?n =? 0)) (emit_and_advance ?n ?ty)) _ _ => the_P ltac:(fun P => apply (wp_flush P); [side|intros ? ? ?; try fuse])
  | |- wp (lift (match_common_number _ _)) _ _ => apply wp_common_number; [solve [auto with good_opts]|intros ? ? ? ?]
  | |- wp (highlight_number ?r) _ _ => the_P ltac:(fun P => apply (wp_highlight_number P); [assumption|side|intros ? ? ?; try fuse])
  | |- wp (highlight_number_sep ?r _) _ _ => the_P ltac:(fun P => apply (wp_highlight_number_sep P); [discriminate|assumption|side|intros ? ? ?; try fuse])
  | |- wp (lift (match_common_escape_at _ _ _)) _ _ => apply wp_escape_at; [side|intros ? ? ?]
  | |- wp (let '(_, _) := ?p in _) _ _ => destruct p eqn:?
  | |- wp (let x := _ in _) _ _ => cbv zeta
  | _ => hl1
  end.
Ltac go := repeat go1.
(** Calls of functions proved by [tries] or a [wp] with the same postcondition. *)
Ltac attempt_ lem :=
  cbn beta; eapply wp_tries; [apply lem|intros ? ? ? ?; try fuse|].
Ltac calls lem :=
  cbn beta; eapply wp_mono; [apply lem|cbn beta; intros ? ? (? & ? & ?); try fuse].

(** The operations of the first round of the main loop come first. *)
Lemma main_first {S} P (init : S) (body : M S unit) src ops :
  (forall st, rem st <> [] -> wp body (fun _ st' => exists k, steps P k st st' /\ 0 < k) st) ->
  src <> [] -> wp body (fun _ st' => rops st' = rev ops) (mk_hst src 0 [] init) ->
  exists more, run init (while_rem body ;; ret true) src = Ok (true, ops ++ more).
Proof.
  intros Hb Hs H1. set (st0 := mk_hst src 0 [] init) in *.
  assert (W : wp (while_rem body) (fun _ st' => exists pre, rops st' = pre ++ rev ops) st0).
  { unfold while_rem. apply wp_hloop with (Inv := fun _ st' => st' = st0 \/ exists pre, rops st' = pre ++ rev ops) (mu := fun _ st' => length (rem st')).
    - left. reflexivity.
    - lia.
    - intros [] st I. apply wp_bind. apply wp_eof; intros Er.
      + apply wp_ret. destruct I as [->|I]; [|exact I]. cbn in Er. congruence.
      + apply wp_bind.
        eapply wp_mono with (P := fun _ st' => (exists k, steps P k st st' /\ 0 < k) /\ exists pre, rops st' = pre ++ rev ops).
        2:{ intros [] st' [(k & Hk & K) Hp]. apply wp_ret. split; [right; exact Hp|]. apply steps_len in Hk. lia. }
        specialize (Hb st Er). destruct I as [->|(pre & I)].
        * unfold wp in *. destruct (body st0) as [[[] st']|]; [|contradiction]. split; [exact Hb|]. exists []. exact H1.
        * eapply wp_mono; [exact Hb|]. intros [] st' (k & Hk & K). split; [eauto|]. destruct Hk as (_ & _ & _ & new & H4 & _). rewrite H4, I. exists (new ++ pre). apply app_assoc. }
  unfold run, bindM. fold st0. unfold wp in W. destruct (while_rem body st0) as [[[] st']|]; [|contradiction]. destruct W as [pre W].
  unfold ret. cbn beta iota. rewrite W, rev_app_distr, rev_involutive. eauto.
Qed.

(** Exact steps from an explicit state *)
Lemma wp_at_is {S} (s : str) i c (Q : N -> hst S -> Prop) st : nth_error s i = Some c -> Q c st -> wp (at_ s i) Q st.
Proof. intros E H. unfold at_. rewrite E. apply wp_ret. exact H. Qed.
Lemma wp_set_loc_exact {S} l' (Q : unit -> hst S -> Prop) r i o l : Q tt (mk_hst r i o l') -> wp (set_loc l') Q (mk_hst r i o l).
Proof. intros H. exact H. Qed.
Ltac ex1 :=
  cbn beta; cbn [rem idx rops loc];
  lazymatch goal with
  | |- wp (emit_and_advance _ _) _ _ => apply wp_emit_exact; [side|]
  | |- wp (emit_and_advance_c _ _ _) _ _ => apply wp_emit_exact; [side|]
  | |- wp (advance _) _ _ => apply wp_advance_exact; [side|]
  | |- wp (set_loc _) _ _ => apply wp_set_loc_exact
  | _ => hl1
  end.
Ltac ex := repeat ex1.
Ltac rems :=
  repeat match goal with
  | H : steps _ ?k ?a ?b |- _ => lazymatch a with b => fail | _ => let T := type of (steps_rem _ _ _ _ H) in know T; pose proof (steps_rem _ _ _ _ H) end
  end;
  match goal with H : rem ?s = skipn _ _ |- context [rem ?s] => rewrite H end.

(** Unrolling a loop *)
Lemma iter_more {S A B} (body : A -> M S (A + B)) f : forall f' a st r, f <= f' -> iter f body a st = Ok r -> iter f' body a st = Ok r.
Proof.
  induction f as [|f IH]; intros f' a st r L; cbn [iter]; [discriminate|]. destruct f' as [|f']; [lia|]. cbn [iter]. unfold bindM.
  destruct (body a st) as [[[a'|b] st']|]; [|auto|auto]. apply IH. lia.
Qed.
Lemma wp_unroll {S A B} (body : A -> M S (A + B)) a (Q : B -> hst S -> Prop) st :
  wp (body a) (fun r st' => match r with inl a' => length (rem st') < length (rem st) /\ wp (hloop 1 body a') Q st' | inr b => Q b st' end) st ->
  wp (hloop 1 body a) Q st.
Proof.
  unfold wp, hloop. rewrite !Nat.mul_1_l. replace (length (rem st) + 1) with (Datatypes.S (length (rem st))) by lia. cbn [iter]. unfold bindM.
  destruct (body a st) as [[[a'|b] st']|]; [|auto|auto]. intros [L H]. rewrite Nat.mul_1_l in H.
  destruct (iter (length (rem st') + 1) body a' st') as [r|] eqn:E; [|contradiction].
  rewrite (iter_more body (length (rem st') + 1) (length (rem st)) a' st' r); [exact H|lia|exact E].
Qed.
