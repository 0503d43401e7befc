(** * Exact matching and highlighting of numbers with all parts *)
From Coq Require Import List NArith ZArith Bool Arith Lia.
From Verif Require Import M_LangCpp M_Base L_Base M_Chars M_Types M_Emit S_Ops M_Parse L_Parse S_Parse P_Parse M_Api M_Highlighter S_Highlight L_Highlighter
  P_LangCpp L_Auto S_Lexemes L_Lexemes.
Import ListNotations.

Lemma grouped_ne d sep l : grouped d sep l -> text l <> [].
Proof. destruct 1 as [g Hg|g l Hg]; rewrite text_cons; destruct g; try congruence; discriminate. Qed.

Lemma separated_grouped d sep base l rest prev : (forall c, is_ascii_digit_base c base = true <-> d c) -> ~ d sep ->
  grouped d sep l -> not_before (fun c => d c \/ c = sep) rest -> separated_loop (text l ++ rest) base sep prev false = (length (text l), false).
Proof.
  intros Hd Hs G R. revert prev.
  assert (A : forall g t prev, Forall d g -> g <> [] -> exists p, p <> sep /\ separated_loop (g ++ t) base sep prev false = (length g + fst (separated_loop t base sep p false), snd (separated_loop t base sep p false))).
  { clear - Hd Hs. intros g t prev F. revert prev. induction F as [|c g Hc F IH]; [congruence|]. intros prev _. cbn [app separated_loop].
    assert (c <> sep) by congruence. rewrite (proj2 (N.eqb_neq _ _) H), (proj2 (Hd c) Hc). destruct g as [|x g].
    - exists c. split; [exact H|]. cbn [app length Nat.add]. reflexivity.
    - destruct (IH c) as (p & P1 & P2); [discriminate|]. exists p. split; [exact P1|]. rewrite P2. cbn [fst snd length]. reflexivity. }
  induction G as [g Hg F|g l Hg F G IH]; intros prev.
  - rewrite text_cons. change (text []) with (@nil N). rewrite app_nil_r. destruct (A g rest prev F Hg) as (p & P1 & P2). rewrite P2.
    assert (E : separated_loop rest base sep p false = (0, false)).
    { destruct rest as [|c t]; cbn [separated_loop]; [rewrite (proj2 (N.eqb_neq _ _) P1); reflexivity|]. specialize (R c eq_refl). cbn beta in R.
      destruct (N.eqb_spec c sep) as [->|]; [tauto|]. destruct (is_ascii_digit_base c base) eqn:E; [apply Hd in E; tauto|]. reflexivity. }
    rewrite E. cbn [fst snd]. f_equal. lia.
  - rewrite !text_cons, <- !app_assoc. destruct (A g ([sep] ++ text l ++ rest) prev F Hg) as (p & P1 & P2). rewrite P2. cbn [app separated_loop].
    rewrite N.eqb_refl, (proj2 (N.eqb_neq _ _) P1). cbn [orb]. rewrite IH. cbn [fst snd]. rewrite app_length. cbn [length]. reflexivity.
Qed.
Lemma separated_exact d sep base l rest : (forall c, is_ascii_digit_base c base = true <-> d c) -> ~ d sep -> sep <> 0%N ->
  grouped d sep l -> not_before (fun c => d c \/ c = sep) rest -> match_separated_digits (text l ++ rest) base sep = (length (text l), false).
Proof. intros Hd Hs H0 G R. unfold match_separated_digits. rewrite (proj2 (N.eqb_neq _ _) H0). eapply separated_grouped; eassumption. Qed.
(** The same without separator *)
Lemma digits_exact (d : N -> Prop) base g rest : (forall c, is_ascii_digit_base c base = true <-> d c) -> Forall d g -> not_before d rest ->
  match_separated_digits (g ++ rest) base 0 = (length g, false).
Proof.
  intros Hd F R. unfold match_separated_digits. cbn [N.eqb]. f_equal. unfold match_digits. rewrite length_if_eq, prefix_len_app_all.
  - destruct rest as [|c t]; cbn [prefix_len]; [lia|]. specialize (R c eq_refl). destruct (is_ascii_digit_base c base) eqn:E; [apply Hd in E; contradiction|]. lia.
  - eapply Forall_impl; [|exact F]. intros c. apply Hd.
Qed.

(** ** Matching *)
Definition frac_text (f : option (list piece)) : str := match f with None => [] | Some f => 46%N :: text f end.
Definition exp_text (e : option (str * str)) : str := match e with None => [] | Some (e, d) => e ++ d end.
Definition suffix_match (o : number_options) (s : str) : nat :=
  match no_suffixes o with [] => match no_match_suffix o with Some f => f s | None => 0 end | l => number_suffix s l end.

Lemma number_exact o p I f e x rest allow base :
  match no_suffixes o, no_match_suffix o with [], _ => true | _, None => true | _, Some _ => false end = true ->
  let t3 := x ++ rest in let t2 := exp_text e ++ t3 in let t1 := frac_text f ++ t2 in let s := p ++ text I ++ t1 in
  text I <> [] \/ (no_nonempty_integer o = false /\ exists f' y yt, f = Some f' /\ text f' = y :: yt /\ is_ascii_digit y = true) ->
  (no_plus o = true -> starts_with_ch s 43 = false) -> (no_minus o = true -> starts_with_ch s 45 = false) ->
  number_base o s (no_prefixes o) = Ok (length p, allow, base) ->
  match_separated_digits (text I ++ t1) base (no_separator o) = (length (text I), false) ->
  match f with
  | Some f => allow = true /\ match_separated_digits (text f ++ t2) base (no_separator o) = (length (text f), false) /\ (no_nonempty_fraction o = true -> text f <> [])
  | None => allow = true -> starts_with_ch t2 46 = false
  end ->
  match e with
  | Some (es, ed) => allow = true /\ es <> [] /\ number_exponent (es ++ ed ++ t3) (no_exponents o) = (length es, length ed, false)
  | None => allow = true -> t3 <> [] -> number_exponent t3 (no_exponents o) = (0, 0, false)
  end ->
  (t3 <> [] -> suffix_match o t3 = length x) ->
  match_common_number s o = Ok (mk_number (length p + length (text I) + length (frac_text f) + length (exp_text e) + length x)
    0 (length p) (length (text I)) (match f with None => 0 | Some _ => 1 end) (match f with None => 0 | Some f => length (text f) end)
    (match e with None => 0 | Some (e, _) => length e end) (match e with None => 0 | Some (_, d) => length d end) (length x) false).
Proof.
  intros G t3 t2 t1 s HI Hplus Hminus HB HD HF HE HX.
  assert (Ls : exists c t, s = c :: t). { unfold s. destruct p; [|eexists _, _; reflexivity]. destruct (text I); [|eexists _, _; reflexivity]. destruct HI as [HI|(_ & f' & y & yt & -> & _)]; [congruence|]. eexists _, _; reflexivity. }
  destruct Ls as (c & t & Es).
  assert (X : (if no_plus o && starts_with_ch s 43 || no_minus o && starts_with_ch s 45 then 1 else 0) = 0).
  { destruct (no_plus o); [rewrite Hplus by reflexivity|]; (destruct (no_minus o); [rewrite Hminus by reflexivity|]); reflexivity. }
  unfold match_common_number. rewrite G. cbn [check bind].
  enough (K : forall A (x y : A), match s with [] => x | _ :: _ => y end = y). 2:{ intros. rewrite Es. reflexivity. }
  rewrite K. clear K. rewrite X. clear X. cbn [skipn]. rewrite HB. cbn [bind Nat.add].
  assert (E1 : skipn (length p) s = text I ++ t1) by apply skipn_app_exact. rewrite E1, HD. cbv iota.
  assert (LI : no_nonempty_integer o && (length (text I) =? 0) = false).
  { destruct HI as [HI|(-> & _)]; [|reflexivity]. destruct (text I); [congruence|apply andb_false_r]. }
  rewrite LI. cbn [orb].
  assert (E2 : skipn (length p + length (text I)) s = t1) by (unfold s; rewrite app_assoc, <- app_length; apply skipn_app_exact). rewrite E2.
  assert (EL : length s = length p + length (text I) + length t1) by (unfold s; rewrite !app_length; lia).
  assert (Edot : allow && starts_with_ch t1 46 = match f with None => false | Some _ => true end).
  { unfold t1. destruct f as [f|]; cbn [frac_text app].
    - destruct HF as (-> & _). reflexivity.
    - destruct allow; [|reflexivity]. cbn [andb]. apply HF. reflexivity. }
  rewrite Edot.
  assert (EF : (if (match f with None => false | Some _ => true end) then match_separated_digits (skipn (length p + length (text I) + 1) s) base (no_separator o) else (0, false)) = (match f with None => 0 | Some f => length (text f) end, false)).
  { destruct f as [f|]; [|reflexivity]. rewrite <- (skipn_skipn 1), E2. unfold t1. cbn [frac_text app]. rewrite skipn_cons. cbn [skipn]. apply HF. }
  rewrite EF. cbv iota.
  assert (EZ : (match f with None => false | Some _ => true end) && (length p =? 0) && (length (text I) =? 0) && ((length s <=? length p + length (text I) + 1) || negb (is_ascii_digit (nth (length p + length (text I) + 1) s 0%N))) = false).
  { destruct HI as [HI|(_ & f' & y & yt & -> & Ey & Hy)].
    - destruct (text I); [congruence|]. cbn [length Nat.eqb]. rewrite andb_false_r. reflexivity.
    - assert (En : nth (length p + length (text I) + 1) s 0%N = y /\ length p + length (text I) + 1 < length s).
      { assert (Es' : s = (p ++ text I ++ [46%N]) ++ y :: yt ++ t2) by (unfold s, t1; cbn [frac_text app]; rewrite Ey, <- !app_assoc; reflexivity).
        replace (length p + length (text I) + 1) with (length (p ++ text I ++ [46%N])) by (rewrite !app_length; cbn; lia). rewrite Es'. split; [apply nth_middle|]. rewrite (app_length _ (y :: _)). cbn. lia. }
      destruct En as [En1 En2]. rewrite En1, Hy, (proj2 (Nat.leb_gt _ _)) by lia. apply andb_false_r. }
  rewrite EZ.
  assert (E3 : skipn (length p + length (text I) + (if match f with None => false | Some _ => true end then 1 else 0) + match f with None => 0 | Some f => length (text f) end) s = t2).
  { replace (length p + length (text I) + (if match f with None => false | Some _ => true end then 1 else 0) + match f with None => 0 | Some f => length (text f) end) with ((length p + length (text I)) + length (frac_text f)) by (destruct f; cbn [frac_text length]; lia).
    rewrite <- (skipn_skipn (length (frac_text f))), E2. unfold t1. apply skipn_app_exact. }
  rewrite E3. set (L3 := length p + length (text I) + (if match f with None => false | Some _ => true end then 1 else 0) + match f with None => 0 | Some f => length (text f) end) in *.
  assert (EL3 : L3 = length p + length (text I) + length (frac_text f)) by (unfold L3; destruct f; cbn [frac_text length]; lia).
  assert (EFE : (match f with None => false | Some _ => true end) && no_nonempty_fraction o && (match f with None => 0 | Some f => length (text f) end =? 0) = false).
  { destruct f as [f|]; [|reflexivity]. destruct (no_nonempty_fraction o) eqn:NF; [|reflexivity]. cbn [andb]. destruct HF as (_ & _ & HF). specialize (HF eq_refl). apply Nat.eqb_neq. destruct (text f); cbn; congruence. }
  rewrite EFE. cbn [orb].
  assert (L30 : length p < L3).
  { rewrite EL3. destruct HI as [HI|(_ & f' & y & yt & -> & _)]; [destruct (text I); [congruence|cbn; lia]|cbn; lia]. }
  rewrite (proj2 (Nat.eqb_neq L3 0)) by lia.
  assert (Ls3 : length s = L3 + length t2). { rewrite EL. unfold t1. rewrite app_length. lia. }
  assert (EE : (if allow && (L3 <? length s) then number_exponent t2 (no_exponents o) else (0, 0, false)) = (match e with None => 0 | Some (e, _) => length e end, match e with None => 0 | Some (_, d) => length d end, false)).
  { rewrite Ls3. unfold t2. destruct e as [[es ed]|]; cbn [exp_text app].
    - destruct HE as (-> & He & HE). rewrite <- app_assoc, HE. destruct es; [congruence|]. cbn [app length andb]. rewrite (proj2 (Nat.ltb_lt _ _)) by lia. reflexivity.
    - destruct allow; [|reflexivity]. cbn [andb]. destruct t3 as [|y t3']; [rewrite Nat.add_0_r, Nat.ltb_irrefl; reflexivity|]. rewrite HE by (reflexivity || discriminate). destruct (_ <? _); reflexivity. }
  rewrite EE. cbv iota.
  assert (E4 : skipn (L3 + match e with None => 0 | Some (e, _) => length e end + match e with None => 0 | Some (_, d) => length d end) s = t3).
  { replace (L3 + match e with None => 0 | Some (e, _) => length e end + match e with None => 0 | Some (_, d) => length d end) with (L3 + length (exp_text e)) by (destruct e as [[? ?]|]; cbn [exp_text length]; rewrite ?app_length; lia).
    rewrite <- (skipn_skipn (length (exp_text e))), E3. unfold t2. apply skipn_app_exact. }
  rewrite E4. set (L4 := L3 + match e with None => 0 | Some (e, _) => length e end + match e with None => 0 | Some (_, d) => length d end) in *.
  assert (EL4 : L4 = L3 + length (exp_text e)) by (unfold L4; destruct e as [[? ?]|]; cbn [exp_text length]; rewrite ?app_length; lia).
  assert (Ls4 : length s = L4 + length t3). { rewrite Ls3. unfold t2. rewrite app_length. lia. }
  fold (suffix_match o t3).
  assert (ES : (if L4 <? length s then suffix_match o t3 else 0) = length x).
  { rewrite Ls4. destruct t3 as [|y t3'] eqn:Et.
    - cbn [length]. rewrite Nat.add_0_r, Nat.ltb_irrefl. unfold t3 in Et. apply app_eq_nil in Et as [-> _]. reflexivity.
    - cbn [length]. rewrite (proj2 (Nat.ltb_lt _ _)) by lia. apply HX. discriminate. }
  rewrite ES.
  match goal with |- context [check ?b _] => assert (b = true) as -> end.
  { apply Nat.eqb_eq. unfold L4, L3. destruct f, e as [[? ?]|]; cbn [Nat.add]; lia. }
  cbn [check bind]. f_equal. unfold L4, L3. f_equal.
  - destruct f, e as [[? ?]|]; cbn [frac_text exp_text length]; rewrite ?app_length; lia.
  - destruct f; reflexivity.
  - apply Nat.eqb_neq. fold L3 L4. clear - L30 EL4. generalize dependent L4. generalize dependent L3. intros. lia.
Qed.

(** ** Highlighting *)
Lemma digits_loop_flat {S} (d : N -> Prop) sep (Q : unit -> hst S -> Prop) g r l : ~ d sep -> Forall d g ->
  forall n t, wp (highlight_digits_loop t sep (n + length g)) Q r -> l = g ++ t -> wp (highlight_digits_loop l sep n) Q r.
Proof.
  intros Hs F. revert l. induction F as [|c g Hc F IH]; intros l n t H ->.
  - rewrite Nat.add_0_r in H. exact H.
  - cbn [app highlight_digits_loop]. rewrite (proj2 (N.eqb_neq c sep)) by congruence. eapply IH; [|reflexivity]. cbn [length] in H. replace (n + 1 + length g) with (n + Datatypes.S (length g)) by lia. exact H.
Qed.
Lemma highlight_grouped {S} (d : N -> Prop) sep l (Q : unit -> hst S -> Prop) r i o s : ~ d sep -> sep <> 0%N -> grouped d sep l ->
  Q tt (mk_hst r (i + length (text l)) (rev (tokens i l) ++ o) s) -> wp (highlight_digits (text l) sep) Q (mk_hst (text l ++ r) i o s).
Proof.
  intros Hs H0 G H. unfold highlight_digits. apply wp_bind, wp_check; [apply negb_true_iff, N.eqb_neq; exact H0|]. apply wp_bind, wp_get_rem. apply wp_bind, wp_check; [apply Nat.leb_le; cbn [rem]; rewrite app_length; lia|].
  revert i o H. induction G as [g Hg F|g l Hg F G IH]; intros i o H.
  - rewrite text_cons in *. change (text []) with (@nil N) in *. rewrite app_nil_r in *. eapply (digits_loop_flat d) with (t := []); [exact Hs|exact F| |symmetry; apply app_nil_r].
    cbn [highlight_digits_loop Nat.add]. assert (length g <> 0) by (destruct g; cbn; congruence). unfold when. rewrite (proj2 (Nat.eqb_neq _ _) H1). cbn [negb]. apply wp_emit_exact; [rewrite app_length; lia|]. rewrite skipn_app_exact. exact H.
  - rewrite !text_cons, <- ?app_assoc in *. eapply (digits_loop_flat d); [exact Hs|exact F| |reflexivity]. cbn [app highlight_digits_loop Nat.add]. rewrite N.eqb_refl.
    assert (length g <> 0) by (destruct g; cbn; congruence). unfold when. rewrite (proj2 (Nat.eqb_neq _ _) H1). cbn [negb]. apply wp_bind. apply wp_emit_exact; [rewrite app_length; cbn [length]; lia|]. rewrite skipn_app_exact. apply wp_bind. apply wp_emit_exact; [cbn [length]; lia|]. cbn [skipn]. apply IH.
    cbn [tokens rev] in H. rewrite <- !app_assoc in H. cbn [app length] in H. rewrite !app_length in H. cbn [length] in H. replace (i + length g + 1 + length (text l)) with (i + (length g + Datatypes.S (length (text l)))) by lia. exact H.
Qed.

Lemma highlight_exact {S} p I f e x (Q : unit -> hst S -> Prop) r i o s (fn : str -> M S unit) :
  let pcs := number_pieces p I f e x in
  (forall l, text l <> [] -> l = I \/ Some l = f \/ (exists es ed, e = Some (es, ed) /\ l = [(ed, Some hl_number)]) -> forall (Q : unit -> hst S -> Prop) r i o, Q tt (mk_hst r (i + length (text l)) (rev (tokens i l) ++ o) s) -> wp (fn (text l)) Q (mk_hst (text l ++ r) i o s)) ->
  (match f with Some f => text f = [] -> f = [] | None => True end) ->
  (text I = [] -> I = []) -> match e with Some (es, ed) => es <> [] /\ ed <> [] | None => True end ->
  Q tt (mk_hst r (i + length (text pcs)) (rev (tokens i pcs) ++ o) s) ->
  wp (highlight_number_impl fn (mk_number (length p + length (text I) + length (frac_text f) + length (exp_text e) + length x)
    0 (length p) (length (text I)) (match f with None => 0 | Some _ => 1 end) (match f with None => 0 | Some f => length (text f) end)
    (match e with None => 0 | Some (e, _) => length e end) (match e with None => 0 | Some (_, d) => length d end) (length x) false)) Q (mk_hst (text pcs ++ r) i o s).
Proof.
  intros pcs Hfn Hf0 HI He HQ.
  unfold highlight_number_impl. cbn [nr_erroneous nr_sign nr_prefix nr_integer nr_radix_point nr_fractional nr_exponent_sep nr_exponent_digits nr_suffix Nat.add].
  (* the five parts from right to left *)
  assert (SX : forall (Q : unit -> hst S -> Prop) i o, Q tt (mk_hst r (i + length x) (rev (tokens i (opt_piece x hl_number_decor)) ++ o) s) -> wp (when (negb (length x =? 0)) (emit_and_advance (length x) hl_number_decor)) Q (mk_hst (x ++ r) i o s)).
  { clear. intros Q i o H. destruct x as [|c x]; cbn [length Nat.eqb negb when].
    - apply wp_ret. cbn in H. rewrite Nat.add_0_r in H. exact H.
    - apply wp_emit_exact; [cbn; rewrite app_length; lia|]. change (Datatypes.S (length x)) with (length (c :: x)). rewrite skipn_app_exact. exact H. }
  assert (SE : forall (Q : unit -> hst S -> Prop) i o, Q tt (mk_hst r (i + length (exp_text e) + length x) (rev (tokens i (match e with None => [] | Some (e, d) => [(e, Some hl_number_delim); (d, Some hl_number)] end ++ opt_piece x hl_number_decor)) ++ o) s) ->
    wp (when (negb (match e with None => 0 | Some (e, _) => length e end =? 0)) (emit_and_advance (match e with None => 0 | Some (e, _) => length e end) hl_number_delim) ;;
        when (negb (match e with None => 0 | Some (_, d) => length d end =? 0)) (let! s := get_rem in fn (firstn (match e with None => 0 | Some (_, d) => length d end) s)) ;;
        when (negb (length x =? 0)) (emit_and_advance (length x) hl_number_decor)) Q (mk_hst (exp_text e ++ x ++ r) i o s)).
  { clear - SX Hfn He. intros Q i o H. destruct e as [[es ed]|]; cbn [exp_text] in *.
    - destruct He as [He1 He2]. assert (length es <> 0 /\ length ed <> 0) as [L1 L2] by (split; [destruct es|destruct ed]; cbn; congruence). rewrite (proj2 (Nat.eqb_neq _ _) L1), (proj2 (Nat.eqb_neq _ _) L2). cbn [negb when].
      apply wp_bind. rewrite <- app_assoc. apply wp_emit_exact; [rewrite app_length; lia|]. rewrite skipn_app_exact. apply wp_bind. apply wp_bind, wp_get_rem. cbn [rem]. rewrite firstn_app_exact.
      assert (T : text [(ed, Some hl_number)] = ed) by (rewrite text_cons; change (text []) with (@nil N); apply app_nil_r). rewrite <- T at 1 2. apply Hfn; [rewrite T; exact He2|right; right; eauto|]. rewrite T. apply SX.
      cbn [app tokens rev] in *. rewrite <- ?app_assoc in *. cbn [app] in *. rewrite app_length, Nat.add_assoc in H. exact H.
    - cbn [Nat.eqb negb when app length] in *. apply wp_bind, wp_ret, wp_bind, wp_ret. apply SX. rewrite Nat.add_0_r in H. exact H. }
  assert (SF : forall (Q : unit -> hst S -> Prop) i o, Q tt (mk_hst r (i + length (frac_text f) + length (exp_text e) + length x) (rev (tokens i (match f with None => [] | Some f => (bs ".", Some hl_number_delim) :: f end ++ match e with None => [] | Some (e, d) => [(e, Some hl_number_delim); (d, Some hl_number)] end ++ opt_piece x hl_number_decor)) ++ o) s) ->
    wp (when (negb (match f with None => 0 | Some _ => 1 end =? 0)) (emit_and_advance (match f with None => 0 | Some _ => 1 end) hl_number_delim) ;;
        when (negb (match f with None => 0 | Some f => length (text f) end =? 0)) (let! s := get_rem in fn (firstn (match f with None => 0 | Some f => length (text f) end) s)) ;;
        when (negb (match e with None => 0 | Some (e, _) => length e end =? 0)) (emit_and_advance (match e with None => 0 | Some (e, _) => length e end) hl_number_delim) ;;
        when (negb (match e with None => 0 | Some (_, d) => length d end =? 0)) (let! s := get_rem in fn (firstn (match e with None => 0 | Some (_, d) => length d end) s)) ;;
        when (negb (length x =? 0)) (emit_and_advance (length x) hl_number_decor)) Q (mk_hst (frac_text f ++ exp_text e ++ x ++ r) i o s)).
  { clear - SE Hfn Hf0. intros Q i o H. destruct f as [f|]; cbn [frac_text] in *.
    - cbn [Nat.eqb negb when app]. apply wp_bind. apply wp_emit_exact; [cbn; lia|]. cbn [skipn]. apply wp_bind.
      assert (E : forall b, tokens i ((bs ".", Some hl_number_delim) :: f ++ b) = OEmit i 1 hl_number_delim false :: tokens (i + 1) f ++ tokens (i + 1 + length (text f)) b) by (intros; cbn [tokens]; rewrite tokens_app; reflexivity).
      cbn [app] in H. rewrite E in H. clear E. cbn [rev length] in H. rewrite rev_app_distr, <- !app_assoc in H. cbn [app] in H.
      destruct (text f) as [|y yf] eqn:Et.
      + cbn [length Nat.eqb negb when app]. apply wp_ret. apply SE. specialize (Hf0 eq_refl).
        subst f. cbn [tokens] in H.
        cbn [rev app length] in H. rewrite Nat.add_0_r in H. exact H.
      + assert (LF : length (text f) <> 0) by (rewrite Et; discriminate). rewrite <- Et in *. rewrite (proj2 (Nat.eqb_neq _ _) LF). cbn [negb when]. apply wp_bind, wp_get_rem. cbn [rem]. rewrite firstn_app_exact. apply Hfn; [destruct (text f); [elim LF; reflexivity|discriminate]|auto|]. apply SE.
        replace (i + 1 + length (text f) + length (exp_text e) + length x) with (i + Datatypes.S (length (text f)) + length (exp_text e) + length x) by lia. exact H.
    - cbn [Nat.eqb negb when app length] in *. apply wp_bind, wp_ret, wp_bind, wp_ret. apply SE. rewrite Nat.add_0_r in H. exact H. }
  assert (Tx : text (opt_piece x hl_number_decor) = x). { destruct x; [reflexivity|]. cbn [opt_piece]. rewrite text_cons. change (text []) with (@nil N). apply app_nil_r. }
  assert (Tp : text (opt_piece p hl_number_decor) = p). { destruct p; [reflexivity|]. cbn [opt_piece]. rewrite text_cons. change (text []) with (@nil N). apply app_nil_r. }
  assert (Te : text (match e with None => [] | Some (e, d) => [(e, Some hl_number_delim); (d, Some hl_number)] end) = exp_text e). { destruct e as [[a b]|]; [|reflexivity]. rewrite !text_cons. change (text []) with (@nil N). rewrite app_nil_r. reflexivity. }
  assert (Tf : text (match f with None => [] | Some f => (bs ".", Some hl_number_delim) :: f end) = frac_text f) by (destruct f; reflexivity).
  assert (TP : text pcs = p ++ text I ++ frac_text f ++ exp_text e ++ x). { unfold pcs, number_pieces. rewrite !text_app, Tp, Tx. apply (f_equal2 (@app N)); [reflexivity|]. apply (f_equal2 (@app N)); [reflexivity|]. apply (f_equal2 (@app N)); [exact Tf|]. apply (f_equal2 (@app N)); [exact Te|reflexivity]. }
  rewrite TP in *. rewrite <- !app_assoc.
  assert (SI : forall (Q : unit -> hst S -> Prop) i o, Q tt (mk_hst r (i + length (text I ++ frac_text f ++ exp_text e ++ x)) (rev (tokens i (I ++ match f with None => [] | Some f => (bs ".", Some hl_number_delim) :: f end ++ match e with None => [] | Some (e, d) => [(e, Some hl_number_delim); (d, Some hl_number)] end ++ opt_piece x hl_number_decor)) ++ o) s) ->
    wp (when (negb (length (text I) =? 0)) (let! s := get_rem in fn (firstn (length (text I)) s)) ;;
        when (negb (match f with None => 0 | Some _ => 1 end =? 0)) (emit_and_advance (match f with None => 0 | Some _ => 1 end) hl_number_delim) ;;
        when (negb (match f with None => 0 | Some f => length (text f) end =? 0)) (let! s := get_rem in fn (firstn (match f with None => 0 | Some f => length (text f) end) s)) ;;
        when (negb (match e with None => 0 | Some (e, _) => length e end =? 0)) (emit_and_advance (match e with None => 0 | Some (e, _) => length e end) hl_number_delim) ;;
        when (negb (match e with None => 0 | Some (_, d) => length d end =? 0)) (let! s := get_rem in fn (firstn (match e with None => 0 | Some (_, d) => length d end) s)) ;;
        when (negb (length x =? 0)) (emit_and_advance (length x) hl_number_decor)) Q (mk_hst (text I ++ frac_text f ++ exp_text e ++ x ++ r) i o s)).
  { clear - SF Hfn HI. intros Q i o H. apply wp_bind.
    destruct (Nat.eq_dec (length (text I)) 0) as [L0|LI].
    { apply length_zero_iff_nil in L0. specialize (HI L0). subst I. cbn [length Nat.eqb negb when app] in *. change (text []) with (@nil N) in *. cbn [length Nat.eqb negb when app] in *. apply wp_ret. apply SF. rewrite !app_length, !Nat.add_assoc in H. exact H. }
    rewrite (proj2 (Nat.eqb_neq _ _) LI). cbn [negb when]. apply wp_bind, wp_get_rem. cbn [rem]. rewrite firstn_app_exact. apply Hfn; [destruct (text I); [elim LI; reflexivity|discriminate]|auto|]. apply SF.
    rewrite tokens_app, rev_app_distr, <- app_assoc in H. rewrite !app_length, !Nat.add_assoc in H. exact H. }
  apply wp_bind. destruct p as [|c p].
  - cbn [length Nat.eqb negb when app] in *. apply wp_ret. apply SI. exact HQ.
  - cbn [length Nat.eqb negb when]. apply wp_emit_exact; [cbn [length app]; rewrite app_length; lia|]. change (Datatypes.S (length p)) with (length (c :: p)). rewrite skipn_app_exact. apply SI.
    unfold pcs, number_pieces in HQ. cbn [opt_piece app tokens rev] in HQ. rewrite <- app_assoc in HQ. cbn [app] in HQ. change (c :: p ++ text I ++ frac_text f ++ exp_text e ++ x) with ((c :: p) ++ (text I ++ frac_text f ++ exp_text e ++ x)) in HQ. rewrite (app_length (c :: p)), Nat.add_assoc in HQ. exact HQ.
Qed.

(** ** Numbers without sign *)
Lemma prefix_len_exact p w rest : Forall (fun c => p c = true) w -> not_before (fun c => p c = true) rest -> prefix_len p (w ++ rest) = length w.
Proof.
  intros F R. rewrite prefix_len_app_all by exact F. destruct rest as [|c t]; cbn [prefix_len]; [lia|]. specialize (R c eq_refl). cbn beta in R. destruct (p c); [congruence|lia].
Qed.
Lemma not_before_impl (p q : N -> Prop) r : (forall c, q c -> p c) -> not_before p r -> not_before q r.
Proof. intros H R c Hc Q. apply (R c Hc). auto. Qed.
Lemma not_before_nil p : not_before p [].
Proof. intros c H. discriminate. Qed.
Lemma not_before_cons (p : N -> Prop) c t : ~ p c -> not_before p (c :: t).
Proof. intros H x [= <-]. exact H. Qed.
Lemma number_base_none o s ps : Forall (fun p => np_str p <> [] /\ starts_with s (np_str p) = false) ps ->
  number_base o s ps = Ok (0, true, if starts_with_ch s 48 then no_zero_base o else no_base o).
Proof.
  induction 1 as [|p ps [H1 H2] F IH]; [reflexivity|]. cbn [number_base]. destruct (np_str p) eqn:E; [congruence|]. cbn [length Nat.eqb negb check bind]. rewrite H2. exact IH.
Qed.
Definition no_signs (o : number_options) : bool := negb (no_plus o) && negb (no_minus o).
Definition suffix_cond (o : number_options) : bool := match no_suffixes o, no_match_suffix o with [], _ => true | _, None => true | _, Some _ => false end.

(** No number *)
Lemma no_number_match o c s : suffix_cond o = true -> (no_plus o = true -> c <> 43%N) -> (no_minus o = true -> c <> 45%N) ->
  (forall p, In p (no_prefixes o) -> exists x t, np_str p = x :: t /\ x <> c) ->
  is_ascii_digit_base c (no_base o) = false -> c <> no_separator o -> c <> 48%N -> (c = 46%N -> not_before digit s) ->
  match_common_number (c :: s) o = Ok no_number.
Proof.
  intros G P1 P2 PR D Sp Z Dot. unfold match_common_number. unfold suffix_cond in G. rewrite G. cbn [check bind].
  assert (X : (if no_plus o && starts_with_ch (c :: s) 43 || no_minus o && starts_with_ch (c :: s) 45 then 1 else 0) = 0).
  { cbn [starts_with_ch]. destruct (no_plus o); [rewrite (proj2 (N.eqb_neq c 43)) by auto|]; (destruct (no_minus o); [rewrite (proj2 (N.eqb_neq c 45)) by auto|]); reflexivity. }
  rewrite X. clear X. cbn [skipn]. rewrite number_base_none.
  2:{ apply Forall_forall. intros p Hp. destruct (PR p Hp) as (x & t & E & Hx). rewrite E. split; [discriminate|]. cbn [starts_with]. rewrite (proj2 (N.eqb_neq c x)) by congruence. reflexivity. }
  cbn [bind starts_with_ch Nat.add]. rewrite (proj2 (N.eqb_neq c 48)) by assumption. cbn [skipn].
  assert (E : exists e, match_separated_digits (c :: s) (no_base o) (no_separator o) = (0, e)).
  { unfold match_separated_digits. destruct (N.eqb_spec (no_separator o) 0) as [_|_].
    - eexists. unfold match_digits. rewrite length_if_eq. cbn [prefix_len]. rewrite D. reflexivity.
    - cbn [separated_loop]. rewrite (proj2 (N.eqb_neq c _)) by assumption. rewrite D. eauto. }
  destruct E as [e E]. rewrite E. cbv iota. cbn [Nat.add skipn starts_with_ch Nat.eqb andb length].
  destruct (N.eqb_spec c 46) as [->|N46]; cbn [andb].
  - destruct (match_separated_digits s (no_base o) (no_separator o)) as [f fe]. specialize (Dot eq_refl). destruct s as [|x t]; cbn [length Nat.leb orb nth].
    + reflexivity.
    + specialize (Dot x eq_refl). destruct (is_ascii_digit x) eqn:Ex; [apply digit_iff in Ex; contradiction|]. cbn [negb]. reflexivity.
  - reflexivity.
Qed.

(** Exponents: no separator contains a digit. *)
Definition good_exponents (l : list (str * Z)) : bool :=
  forallb (fun e => match fst e with [] => false | c :: _ => is_cpp_ascii_identifier_continue c end && forallb (fun c => negb (is_ascii_digit c)) (fst e)) l.
Lemma starts_with_digit es ed t u : Forall digit ed -> ed <> [] -> forallb (fun c => negb (is_ascii_digit c)) u = true ->
  starts_with (es ++ ed ++ t) u = starts_with es u.
Proof.
  intros F Hd. destruct F as [|d ed Hd' F]; [congruence|]. clear F Hd. revert u. induction es as [|c es IH]; intros [|x u] Hu; try reflexivity.
  - cbn [app starts_with]. cbn [forallb] in Hu. apply andb_true_iff in Hu as [Hx _]. destruct (N.eqb_spec d x) as [->|]; [|reflexivity]. apply negb_true_iff in Hx. rewrite (proj2 (digit_iff x) Hd') in Hx. discriminate.
  - cbn [app starts_with]. cbn [forallb] in Hu. apply andb_true_iff in Hu as [_ Hu]. destruct (_ =? _)%N; [|reflexivity]. apply IH. exact Hu.
Qed.
Lemma exponent_exact l es ed t : good_exponents l = true -> es <> [] -> fst (fst (number_exponent es l)) = length es -> ed <> [] -> Forall digit ed -> not_before digit t ->
  number_exponent (es ++ ed ++ t) l = (length es, length ed, false).
Proof.
  intros G Hes E Hd F R. induction l as [|[u b] l IH]; [destruct es; [congruence|discriminate E]|]. cbn [number_exponent fst] in *. cbn [good_exponents forallb] in G. apply andb_true_iff in G as [Gu G]. cbn [fst] in Gu. apply andb_true_iff in Gu as [_ Gu].
  rewrite starts_with_digit by assumption. destruct (starts_with es u) eqn:Es; [|apply IH; assumption]. cbn [fst] in E.
  apply starts_with_app in Es as [v ->]. rewrite app_length in E. assert (v = []) as -> by (destruct v; [reflexivity|cbn in E; lia]). rewrite app_nil_r, skipn_app_exact.
  unfold match_digits. rewrite length_if_eq. rewrite prefix_len_exact.
  - destruct ed; [congruence|reflexivity].
  - eapply Forall_impl; [|exact F]. intros c Hc. apply digit_10. exact Hc.
  - eapply not_before_impl; [|exact R]. intros c. apply digit_10.
Qed.
Lemma exponent_none l s : good_exponents l = true -> (forall u b c t, In (u, b) l -> u = c :: t -> hd_error s <> Some c) -> number_exponent s l = (0, 0, false).
Proof.
  intros G H. induction l as [|[u b] l IH]; [reflexivity|]. cbn [number_exponent fst]. cbn [good_exponents forallb] in G. apply andb_true_iff in G as [Gu G]. cbn [fst] in Gu. destruct u as [|c u]; [discriminate Gu|].
  specialize (H (c :: u) b c u (or_introl eq_refl) eq_refl) as Hc. destruct s as [|x s]; [cbn; apply IH; [exact G|]; intros; eapply H; [right; eassumption|eassumption]|].
  cbn [starts_with]. cbn in Hc. rewrite (proj2 (N.eqb_neq x c)) by congruence. apply IH; [exact G|]. intros; eapply H; [right; eassumption|eassumption].
Qed.
(** Suffixes: they consist of characters of identifiers. *)
Lemma number_suffix_exact l x rest : forallb (forallb is_cpp_ascii_identifier_continue) l = true -> not_before ident_char rest -> number_suffix (x ++ rest) l = number_suffix x l.
Proof.
  intros G R. induction l as [|u l IH]; [reflexivity|]. cbn [number_suffix]. cbn [forallb] in G. apply andb_true_iff in G as [Gu G]. rewrite IH by exact G.
  assert (E : starts_with (x ++ rest) u = starts_with x u); [|rewrite E; reflexivity].
  clear - R Gu. revert u Gu. induction x as [|c x IH]; intros [|y u] Gu; try reflexivity.
  - cbn [app]. destruct rest as [|c t]; [reflexivity|]. cbn [starts_with]. cbn [forallb] in Gu. apply andb_true_iff in Gu as [Gy _]. specialize (R c eq_refl). destruct (N.eqb_spec c y) as [->|]; [|reflexivity]. apply ident_char_iff in Gy. contradiction.
  - cbn [app starts_with]. cbn [forallb] in Gu. apply andb_true_iff in Gu as [_ Gu]. destruct (_ =? _)%N; [|reflexivity]. apply IH. exact Gu.
Qed.
Lemma grouped_second (d : N -> Prop) sep l : grouped d sep l -> exists c t, text l = c :: t /\ d c /\ (forall x, hd_error t = Some x -> d x \/ x = sep).
Proof.
  intros G. destruct G as [g Hg F|g l Hg F G]; rewrite ?text_cons; (destruct F as [|c g Hc F]; [congruence|]); cbn [app]; eexists _, _; (split; [reflexivity|]); (split; [exact Hc|]); intros x Hx; destruct F as [|y g Hy F]; cbn in Hx; try discriminate; injection Hx as <-; auto.
Qed.

(** Decimal numbers. The characters that could continue the number are characters of identifiers, the point and the separator. *)
Definition decimal_options (o : number_options) : bool :=
  suffix_cond o && no_signs o && (no_base o =? 10)%Z && (no_zero_base o =? 10)%Z && good_exponents (no_exponents o)
  && match no_match_suffix o with None => true | Some _ => false end
  && forallb (forallb is_cpp_ascii_identifier_continue) (no_suffixes o)
  && forallb (fun p => match np_str p with
                       | [_; x] => is_cpp_ascii_identifier_continue x && negb (is_ascii_digit x) && negb (x =? no_separator o)%N
                           && negb (existsb (fun e => hd 0%N (fst e) =? x)%N (no_exponents o)) && negb (existsb (fun e => hd 0%N e =? x)%N (no_suffixes o))
                       | _ => false end) (no_prefixes o).
Definition good_suffix (o : number_options) (x : str) : Prop :=
  x = [] \/ In x (no_suffixes o) /\ number_suffix x (no_suffixes o) = length x /\ existsb (fun e => hd 0%N (fst e) =? hd 0%N x)%N (no_exponents o) = false
    /\ match x with [] => False | c :: _ => is_ascii_digit c = false /\ c <> 46%N /\ c <> no_separator o end.
Definition good_exp (o : number_options) (e : option (str * str)) : Prop :=
  match e with Some (es, ed) => In es (map fst (no_exponents o)) /\ fst (fst (number_exponent es (no_exponents o))) = length es /\ ed <> [] /\ Forall digit ed | None => True end.
Definition number_stop (o : number_options) (c : N) : Prop := ident_char c \/ c = 46%N \/ c = no_separator o.

Lemma decimal_exact o I f e x rest : decimal_options o = true -> no_separator o <> 0%N -> no_separator o <> 46%N -> ~ digit (no_separator o) ->
  grouped digit (no_separator o) I ->
  (forall f', f = Some f' -> f' = [] /\ exp_text e ++ x ++ rest <> [] /\ no_nonempty_fraction o = false \/ grouped digit (no_separator o) f') ->
  good_exp o e -> ~ (exists es, In es (map fst (no_exponents o)) /\ hd 0%N es = no_separator o) -> good_suffix o x -> not_before (number_stop o) rest ->
  match_common_number (text I ++ frac_text f ++ exp_text e ++ x ++ rest) o = Ok (mk_number (0 + length (text I) + length (frac_text f) + length (exp_text e) + length x)
    0 0 (length (text I)) (match f with None => 0 | Some _ => 1 end) (match f with None => 0 | Some f => length (text f) end)
    (match e with None => 0 | Some (e, _) => length e end) (match e with None => 0 | Some (_, d) => length d end) (length x) false).
Proof.
  intros DO S0 S46 Sd GI GF GE ES GX R. unfold decimal_options in DO. repeat (apply andb_true_iff in DO as [DO ?]). rename H into HP, H0 into HSf, H1 into HM, H2 into HEx, H3 into HZ, H4 into HB, H5 into HS.
  apply Z.eqb_eq in HZ, HB. unfold no_signs in HS. apply andb_true_iff in HS as [HS1 HS2]. rewrite negb_true_iff in HS1, HS2.
  (* what can follow *)
  assert (R3 : not_before (fun c => digit c \/ c = no_separator o \/ c = 46%N) (x ++ rest)).
  { destruct x as [|c x]; cbn [app].
    - eapply not_before_impl; [|exact R]. unfold number_stop, ident_char. tauto.
    - apply not_before_cons. destruct GX as [GX|(_ & _ & _ & G1 & G2 & G3)]; [discriminate|]. intros [D|[D|D]]; try contradiction. apply digit_iff in D. congruence. }
  assert (HEh : forall es ed, e = Some (es, ed) -> exists c t, es = c :: t /\ is_cpp_ascii_identifier_continue c = true /\ is_ascii_digit c = false /\ In es (map fst (no_exponents o))).
  { intros es ed ->. destruct GE as (GE & _). apply in_map_iff in GE as ([u b] & <- & GE). pose proof HEx as X. unfold good_exponents in X. rewrite forallb_forall in X. specialize (X _ GE). cbn [fst] in *. destruct u as [|c u]; [discriminate X|].
    apply andb_true_iff in X as [X1 X2]. cbn [forallb] in X2. apply andb_true_iff in X2 as [X2 _]. apply negb_true_iff in X2. exists c, u. repeat split; auto. apply in_map_iff. exists (c :: u, b). auto. }
  assert (Hc46 : forall c, is_cpp_ascii_identifier_continue c = true -> c <> 46%N) by (intros c H ->; discriminate H).
  assert (R2 : not_before (fun c => digit c \/ c = no_separator o \/ c = 46%N) (exp_text e ++ x ++ rest)).
  { destruct e as [[es ed]|]; cbn [exp_text app]; [|exact R3]. destruct (HEh es ed eq_refl) as (c & t & -> & C1 & C2 & C3). cbn [app]. apply not_before_cons. intros [D|[D|D]].
    - apply digit_iff in D. congruence.
    - apply ES. exists (c :: t). auto.
    - eapply Hc46; eassumption. }
  assert (R1 : not_before (fun c => digit c \/ c = no_separator o) (frac_text f ++ exp_text e ++ x ++ rest)).
  { destruct f as [f|]; cbn [frac_text app]; [|eapply not_before_impl; [|exact R2]; tauto]. apply not_before_cons. intros [D|D]; [unfold digit in D; lia|congruence]. }
  destruct (grouped_second _ _ _ GI) as (c0 & t0 & EI & Hc0 & Ht0).
  assert (NIe : text I <> []) by (rewrite EI; discriminate).
  assert (HB0 : number_base o (text I ++ frac_text f ++ exp_text e ++ x ++ rest) (no_prefixes o) = Ok (0, true, 10%Z)).
  { rewrite number_base_none; [rewrite HZ, HB; destruct (starts_with_ch _ _); reflexivity|]. apply Forall_forall. intros p Hp. rewrite forallb_forall in HP. specialize (HP p Hp).
    destruct (np_str p) as [|p0 [|p1 [|? ?]]]; try discriminate HP. split; [discriminate|].
    repeat (apply andb_true_iff in HP as [HP ?]). rewrite negb_true_iff in *. rename H into HP1, H0 into HP2, H1 into HP3, H2 into HP4.
    rewrite EI. cbn [app starts_with]. destruct (c0 =? p0)%N; [|reflexivity].
    enough (T : forall y, hd_error (t0 ++ frac_text f ++ exp_text e ++ x ++ rest) = Some y -> y <> p1).
    { destruct (t0 ++ frac_text f ++ exp_text e ++ x ++ rest) as [|y t]; [reflexivity|]. cbn [starts_with]. rewrite (proj2 (N.eqb_neq y p1)) by (apply T; reflexivity). reflexivity. }
    intros y Hy ->. destruct t0 as [|z t0]; cbn [app] in Hy.
    2:{ cbn in Hy, Ht0. injection Hy as ->. destruct (Ht0 p1 eq_refl) as [D|D]; [apply digit_iff in D; congruence|]. apply N.eqb_neq in HP3. contradiction. }
    destruct f as [f|]; cbn [frac_text app] in Hy; [cbn in Hy; injection Hy as <-; apply (Hc46 46%N); [exact HP|reflexivity]|].
    destruct e as [[es ed]|]; cbn [exp_text app] in Hy.
    { destruct (HEh es ed eq_refl) as (c & t & -> & C1 & C2 & C3). cbn in Hy. injection Hy as ->. apply in_map_iff in C3 as ([u b] & E & C3). cbn in E. subst u.
      enough (existsb (fun e => (hd 0%N (fst e) =? p1)%N) (no_exponents o) = true) by congruence. apply existsb_exists. exists (p1 :: t, b). split; [exact C3|]. cbn. apply N.eqb_refl. }
    destruct x as [|c x]; cbn [app] in Hy.
    { specialize (R p1 Hy). apply R. left. apply ident_char_iff. exact HP. }
    destruct GX as [GX|(G1 & _)]; [discriminate|]. cbn in Hy. injection Hy as ->. enough (existsb (fun e => (hd 0%N e =? p1)%N) (no_suffixes o) = true) by congruence. apply existsb_exists. exists (p1 :: x). split; [exact G1|]. cbn. apply N.eqb_refl. }
  change (text I ++ frac_text f ++ exp_text e ++ x ++ rest) with ([] ++ text I ++ frac_text f ++ exp_text e ++ x ++ rest).
  apply (number_exact o [] I f e x rest true 10%Z).
  - exact DO.
  - left. exact NIe.
  - congruence.
  - congruence.
  - exact HB0.
  - apply (separated_exact digit); [apply digit_10|exact Sd|exact S0|exact GI|exact R1].
  - destruct f as [f|].
    + split; [reflexivity|]. split.
      * destruct (GF f eq_refl) as [(-> & K & _)|K].
        -- change (text []) with (@nil N). cbn [app length]. unfold match_separated_digits. rewrite (proj2 (N.eqb_neq _ _) S0). destruct (exp_text e ++ x ++ rest) as [|c t]; [congruence|]. cbn [separated_loop].
           specialize (R2 c eq_refl). cbn beta in R2. rewrite (proj2 (N.eqb_neq c _)) by tauto. destruct (is_ascii_digit_base c 10) eqn:D; [apply digit_10 in D; tauto|]. reflexivity.
        -- apply (separated_exact digit); [apply digit_10|exact Sd|exact S0|exact K|]. eapply not_before_impl; [|exact R2]. tauto.
      * intros NF. destruct (GF f eq_refl) as [(_ & _ & K)|K]; [congruence|]. eapply grouped_ne. exact K.
    + intros _. cbn [frac_text]. destruct (exp_text e ++ x ++ rest) as [|c t]; [reflexivity|]. cbn [starts_with_ch]. specialize (R2 c eq_refl). cbn beta in R2. apply N.eqb_neq. tauto.
  - destruct e as [[es ed]|].
    + split; [reflexivity|]. destruct (HEh es ed eq_refl) as (c & t & -> & C1 & C2 & C3). split; [discriminate|]. destruct GE as (_ & GE1 & GE2 & GE3). apply exponent_exact; [exact HEx|discriminate|exact GE1|exact GE2|exact GE3|]. eapply not_before_impl; [|exact R3]. cbn beta. intros ? K. left. exact K.
    + intros _ _. apply exponent_none; [exact HEx|]. intros u b c t Hu -> Hc. pose proof HEx as X. unfold good_exponents in X. rewrite forallb_forall in X. specialize (X _ Hu). cbn [fst] in X. apply andb_true_iff in X as [X _].
      destruct x as [|y x]; cbn [app] in Hc.
      * apply (R c Hc). left. apply ident_char_iff. exact X.
      * destruct GX as [GX|(_ & _ & G3 & _)]; [discriminate|]. cbn in Hc. injection Hc as ->. enough (existsb (fun e => (hd 0%N (fst e) =? hd 0%N (c :: x))%N) (no_exponents o) = true) by congruence. apply existsb_exists. exists (c :: t, b). split; [exact Hu|]. cbn. apply N.eqb_refl.
  - intros _. unfold suffix_match. assert (E : (match no_suffixes o with [] => match no_match_suffix o with Some f => f (x ++ rest) | None => 0 end | l => number_suffix (x ++ rest) l end) = number_suffix (x ++ rest) (no_suffixes o)).
    { destruct (no_suffixes o); [|reflexivity]. destruct (no_match_suffix o); [discriminate HM|]. reflexivity. }
    rewrite E. rewrite number_suffix_exact; [|exact HSf|eapply not_before_impl; [|exact R]; unfold number_stop; tauto].
    destruct GX as [->|(_ & G2 & _)]; [|exact G2]. clear - HSf. induction (no_suffixes o) as [|u l IH]; [reflexivity|]. cbn [number_suffix]. cbn [forallb] in HSf. apply andb_true_iff in HSf as [_ H]. destruct u; [reflexivity|]. cbn [starts_with]. apply IH. exact H.
Qed.

(** Integers with a base prefix *)
Definition based_options (o : number_options) : bool :=
  suffix_cond o && no_signs o && good_exponents (no_exponents o)
  && match no_match_suffix o with None => true | Some _ => false end
  && forallb (forallb is_cpp_ascii_identifier_continue) (no_suffixes o).
Lemma based_exact o p (d : N -> Prop) allow base I x rest : based_options o = true -> no_separator o <> 0%N -> ~ d (no_separator o) ->
  (forall c, is_ascii_digit_base c base = true <-> d c) -> (forall c, d c -> ident_char c) ->
  number_base o (p ++ text I ++ x ++ rest) (no_prefixes o) = Ok (length p, allow, base) ->
  grouped d (no_separator o) I ->
  x = [] \/ number_suffix x (no_suffixes o) = length x /\ existsb (fun e => hd 0%N (fst e) =? hd 0%N x)%N (no_exponents o) = false
     /\ match x with [] => False | c :: _ => ~ d c /\ c <> 46%N /\ c <> no_separator o end ->
  not_before (number_stop o) rest ->
  match_common_number (p ++ text I ++ x ++ rest) o = Ok (mk_number (length p + length (text I) + 0 + 0 + length x) 0 (length p) (length (text I)) 0 0 0 0 (length x) false).
Proof.
  intros DO S0 Sd Hd Hi HB GI GX R. unfold based_options in DO. repeat (apply andb_true_iff in DO as [DO ?]). rename H into HSf, H0 into HM, H1 into HEx, H2 into HS.
  unfold no_signs in HS. apply andb_true_iff in HS as [HS1 HS2]. rewrite negb_true_iff in HS1, HS2.
  assert (R3 : not_before (fun c => d c \/ c = no_separator o \/ c = 46%N) (x ++ rest)).
  { destruct x as [|c x]; cbn [app].
    - eapply not_before_impl; [|exact R]. unfold number_stop. intros c. specialize (Hi c). tauto.
    - apply not_before_cons. destruct GX as [GX|(_ & _ & G1 & G2 & G3)]; [discriminate|]. tauto. }
  apply (number_exact o p I None None x rest allow base).
  - exact DO.
  - left. eapply grouped_ne. exact GI.
  - congruence.
  - congruence.
  - exact HB.
  - apply (separated_exact d); [exact Hd|exact Sd|exact S0|exact GI|]. cbn [frac_text exp_text app]. eapply not_before_impl; [|exact R3]. cbn beta. tauto.
  - intros _. cbn [exp_text app]. destruct (x ++ rest) as [|c t]; [reflexivity|]. cbn [starts_with_ch]. specialize (R3 c eq_refl). cbn beta in R3. apply N.eqb_neq. tauto.
  - intros _ _. apply exponent_none; [exact HEx|]. intros u b c t Hu -> Hc. pose proof HEx as X. unfold good_exponents in X. rewrite forallb_forall in X. specialize (X _ Hu). cbn [fst] in X. apply andb_true_iff in X as [X _].
    destruct x as [|y x]; cbn [app] in Hc.
    + apply (R c Hc). left. apply ident_char_iff. exact X.
    + destruct GX as [GX|(_ & G3 & _)]; [discriminate|]. cbn in Hc. injection Hc as ->. enough (existsb (fun e => (hd 0%N (fst e) =? hd 0%N (c :: x))%N) (no_exponents o) = true) by congruence. apply existsb_exists. exists (c :: t, b). split; [exact Hu|]. cbn. apply N.eqb_refl.
  - intros _. unfold suffix_match. assert (E : (match no_suffixes o with [] => match no_match_suffix o with Some f => f (x ++ rest) | None => 0 end | l => number_suffix (x ++ rest) l end) = number_suffix (x ++ rest) (no_suffixes o)).
    { destruct (no_suffixes o); [|reflexivity]. destruct (no_match_suffix o); [discriminate HM|]. reflexivity. }
    rewrite E. rewrite number_suffix_exact; [|exact HSf|eapply not_before_impl; [|exact R]; unfold number_stop; tauto].
    destruct GX as [->|(G2 & _)]; [|exact G2]. clear - HSf. induction (no_suffixes o) as [|u l IH]; [reflexivity|]. cbn [number_suffix]. cbn [forallb] in HSf. apply andb_true_iff in HSf as [_ H]. destruct u; [reflexivity|]. cbn [starts_with]. apply IH. exact H.
Qed.

Lemma opt_piece_text t h : text (opt_piece t h) = t.
Proof. destruct t; [reflexivity|]. cbn [opt_piece]. rewrite text_cons. change (text []) with (@nil N). apply app_nil_r. Qed.
Lemma text_one t h : text [(t, h)] = t.
Proof. rewrite text_cons. change (text []) with (@nil N). apply app_nil_r. Qed.
Lemma number_pieces_text p I f e x : text (number_pieces p I f e x) = p ++ text I ++ frac_text f ++ exp_text e ++ x.
Proof.
  unfold number_pieces. rewrite !text_app, !opt_piece_text. apply (f_equal2 (@app N)); [reflexivity|]. apply (f_equal2 (@app N)); [reflexivity|]. apply (f_equal2 (@app N)); [destruct f; reflexivity|].
  apply (f_equal2 (@app N)); [|reflexivity]. destruct e as [[a b]|]; [|reflexivity]. rewrite text_cons, text_one. reflexivity.
Qed.
(** Highlighting of numbers with separators *)
Lemma highlight_sep_exact {S} (d : N -> Prop) sep p I f e x (Q : unit -> hst S -> Prop) r i o s : sep <> 0%N -> ~ d sep -> ~ digit sep ->
  I = [] \/ grouped d sep I -> (forall f', f = Some f' -> f' = [] \/ grouped d sep f') -> match e with Some (es, ed) => es <> [] /\ ed <> [] /\ Forall digit ed | None => True end ->
  Q tt (mk_hst r (i + length (text (number_pieces p I f e x))) (rev (tokens i (number_pieces p I f e x)) ++ o) s) ->
  wp (highlight_number_sep (mk_number (length p + length (text I) + length (frac_text f) + length (exp_text e) + length x)
    0 (length p) (length (text I)) (match f with None => 0 | Some _ => 1 end) (match f with None => 0 | Some f => length (text f) end)
    (match e with None => 0 | Some (e, _) => length e end) (match e with None => 0 | Some (_, d) => length d end) (length x) false) sep) Q (mk_hst (text (number_pieces p I f e x) ++ r) i o s).
Proof.
  intros S0 Sd Sd2 GI GF GE H. unfold highlight_number_sep. apply highlight_exact.
  - intros l Hl [->|[E|(es & ed & -> & ->)]] Q' r' i' o' HQ.
    + destruct GI as [->|GI]; [elim Hl; reflexivity|]. apply (highlight_grouped d); assumption.
    + destruct (GF l (eq_sym E)) as [->|G]; [elim Hl; reflexivity|]. apply (highlight_grouped d); assumption.
    + apply (highlight_grouped digit); [exact Sd2|exact S0| |exact HQ]. apply grouped_one; tauto.
  - destruct f as [f|]; [|trivial]. intros E. destruct (GF f eq_refl) as [->|G]; [reflexivity|]. apply grouped_ne in G. contradiction.
  - intros E. destruct GI as [->|GI]; [reflexivity|]. apply grouped_ne in GI. contradiction.
  - destruct e as [[es ed]|]; tauto.
  - exact H.
Qed.
