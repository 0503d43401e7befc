(** * Properties of the YAML highlighter *)
From Coq Require Import List NArith ZArith Bool Arith Lia.
From Verif Require Import M_Base L_Base S_Tokens M_Utf8 L_Utf8 L_Any P_Utf8 M_Emit S_Ops L_Emit M_Types M_Chars S_Chars P_Chars M_Parse S_Parse L_Parse P_Parse
  M_Api M_Highlighter S_Highlight L_Highlighter P_LangCpp L_Auto M_Lang M_LangYaml S_LangYaml.
Import ListNotations.
Notation anyy := (anything).
Notation yst := (hst (list nat)).

(** ** The matchers *)
Lemma y_options1 : good_options yaml_prefixed_options.
Proof. split; [left; reflexivity|]. split; [|discriminate]. repeat constructor; discriminate. Qed.
Lemma y_options2 : good_options yaml_decimal_options.
Proof. split; [left; reflexivity|]. split; [constructor|]. discriminate. Qed.
#[local] Hint Resolve y_options1 y_options2 : good_opts.
Lemma break_le s : yaml_match_line_break s <= length s.
Proof.
  unfold yaml_match_line_break. destruct (starts_with s [13; 10]%N) eqn:E; [apply starts_with_len in E; exact E|]. destruct s as [|c t]; cbn; [lia|]. destruct ((c =? 13)%N || (c =? 10)%N); lia.
Qed.
Lemma at_break_iff s : yaml_at_break s = true <-> exists c t, s = c :: t /\ (c = 13 \/ c = 10)%N.
Proof.
  unfold yaml_at_break, yaml_match_line_break. destruct s as [|c t]; [cbn; split; [discriminate|intros (? & ? & ? & _); discriminate]|]. destruct (starts_with (c :: t) [13; 10]%N) eqn:E.
  - split; [|reflexivity]. intros _. exists c, t. split; [reflexivity|]. cbn in E. destruct (N.eqb_spec 13 c); [auto|]. destruct (N.eqb_spec c 13); [auto|]. discriminate.
  - cbn [starts_with_ch]. destruct (N.eqb_spec c 13), (N.eqb_spec c 10); cbn; split; try discriminate; try reflexivity; eauto. intros (? & ? & [= <- <-] & [|]); congruence.
Qed.
Lemma at_break_pos s : yaml_at_break s = true -> 0 < yaml_match_line_break s.
Proof. unfold yaml_at_break. destruct (yaml_match_line_break s); [discriminate|lia]. Qed.
Lemma at_break_zero s : yaml_at_break s = false -> yaml_match_line_break s = 0.
Proof. unfold yaml_at_break. destruct (yaml_match_line_break s); [reflexivity|discriminate]. Qed.
Lemma until_le s : yaml_until_break s <= length s.
Proof. induction s as [|c t IH]; cbn [yaml_until_break length]; [lia|]. destruct (yaml_at_break (c :: t)); lia. Qed.
Lemma until_pos s : s <> [] -> 0 < yaml_until_break s \/ yaml_at_break s = true.
Proof. destruct s as [|c t]; [contradiction|]. intros _. cbn [yaml_until_break]. destruct (yaml_at_break (c :: t)); [auto|left; lia]. Qed.
Lemma indent_le s : yaml_indent s <= length s.
Proof. apply length_if_le. Qed.
Lemma until_stop s : skipn (yaml_until_break s) s = [] \/ yaml_at_break (skipn (yaml_until_break s) s) = true.
Proof. induction s as [|c t IH]; [left; reflexivity|]. cbn [yaml_until_break]. destruct (yaml_at_break (c :: t)) eqn:E; [right; exact E|exact IH]. Qed.
Lemma y_escape_ok s : s <> [] -> exists e, yaml_match_escape s = Ok e /\ 0 < es_length e <= length s.
Proof.
  intros Ne. destruct s as [|c [|d t]]; [contradiction|exists (mk_escape 1 true); cbn; split; [reflexivity|lia]|]. unfold yaml_match_escape. set (s := c :: d :: t).
  assert (L : 2 <= length s) by (unfold s; cbn; lia).
  assert (A : forall k n, 0 < n <= 2 -> exists e, match_common_escape_at k s n = Ok e /\ 0 < es_length e <= length s).
  { intros k n H. destruct (common_escape_at_ok k s n ltac:(lia)) as (e & E & B). exists e. split; [exact E|lia]. }
  destruct (negb _); [exists (mk_escape 1 true); cbn [es_length]; split; [reflexivity|lia]|]. destruct (mem d _); [exists (mk_escape 2 false); cbn [es_length]; split; [reflexivity|lia]|].
  destruct (d =? ch "x")%N; [apply A; lia|]. destruct (d =? ch "u")%N; [apply A; lia|]. destruct (d =? ch "U")%N; [apply A; lia|]. destruct (_ || _); [apply A; lia|]. exists (mk_escape 1 true); cbn [es_length]; split; [reflexivity|lia].
Qed.
Lemma y_special_le s l r : yaml_special s l = Some r -> nr_length r <= length s.
Proof.
  induction l as [|[w sg] l IH]; cbn [yaml_special]; [discriminate|]. cbv zeta. set (st := if sg && _ then 1 else 0). destruct (starts_with (skipn st s) w) eqn:E; [|exact IH]. injection 1 as <-. cbn [nr_length]. apply starts_with_len in E. rewrite skipn_length in E.
  assert (st = 0 \/ st <= length s) as [->|]; [|lia|lia]. unfold st. destruct (sg && _) eqn:F; [right|left; reflexivity]. apply andb_prop in F as [_ F]. destruct s; [discriminate|cbn; lia].
Qed.
Lemma y_sexagesimal_le s r : yaml_sexagesimal s = Some r -> nr_length r <= length s.
Proof.
  unfold yaml_sexagesimal. destruct s as [|c t]; [discriminate|]. destruct (negb _); [discriminate|]. cbv zeta. set (s := c :: t). set (a := length_if s is_ascii_digit).
  destruct ((0 <? a) && (a <? length s) && _) eqn:E1; [|discriminate]. apply andb_prop in E1 as [E1 _]. apply andb_prop in E1 as [_ E1]. apply Nat.ltb_lt in E1.
  pose proof (length_if_le (skipn (a + 1) s) is_ascii_digit) as L2. rewrite skipn_length in L2. set (b := length_if (skipn (a + 1) s) is_ascii_digit) in *. destruct (0 <? b); [|discriminate].
  injection 1 as <-. cbn [nr_length]. match goal with |- context [if ?b then _ else _] => destruct b eqn:E2; [|lia] end. apply andb_prop in E2 as [E2 _]. apply Nat.ltb_lt in E2.
  pose proof (length_if_le (skipn (a + 1 + b + 1) s) is_ascii_digit) as L3. rewrite skipn_length in L3. change (S (length t)) with (length s) in E2. lia.
Qed.
Lemma y_number_ok s : exists r, yaml_match_number s = Ok r /\ nr_length r <= length s.
Proof.
  unfold yaml_match_number. destruct (yaml_special s yaml_specials) as [r|] eqn:E; [exists r; split; [reflexivity|apply (y_special_le _ _ _ E)]|].
  destruct (match_common_number_ok s _ y_options1) as (r & -> & _ & L). cbn [bind]. destruct (negb _ && _); [eauto|]. destruct (yaml_sexagesimal s) as [q|] eqn:E2; [exists q; split; [reflexivity|apply (y_sexagesimal_le _ _ E2)]|].
  destruct (match_common_number_ok s _ y_options2) as (q & -> & _ & L2). eauto.
Qed.
Lemma y_word_ok s w ty : yaml_match_word s = Some (w, ty) -> 0 < length w <= length s.
Proof.
  unfold yaml_match_word. set (it := lower_bound _ _). cbv zeta.
  assert (A : forall i e, (match nth_error yaml_words i with Some e => if starts_with s (fst e) then Some e else None | None => None end) = Some e -> 0 < length (fst e) <= length s).
  { intros i e. destruct (nth_error yaml_words i) as [x|] eqn:E; [|discriminate]. destruct (starts_with s (fst x)) eqn:F; [|discriminate]. injection 1 as <-. split; [|apply starts_with_len; exact F].
    apply nth_error_In in E. assert (G : Forall (fun x => 0 < length (fst x)) yaml_words) by (repeat constructor). rewrite Forall_forall in G. exact (G _ E). }
  destruct (match nth_error yaml_words it with Some _ => _ | None => None end) as [e|] eqn:E; [intros [= ->]; apply (A _ _ E)|]. destruct (it =? 0); [discriminate|]. intros F. apply (A _ _ F).
Qed.
Lemma y_name_ok c s : yaml_match_name c s = 0 \/ 2 <= yaml_match_name c s <= length s.
Proof.
  unfold yaml_match_name. destruct (starts_with_ch s c) eqn:E; cbn [negb]; [|auto]. cbv zeta. pose proof (length_if_not_le (skipn 1 s) is_yaml_word_terminator) as L. rewrite skipn_length in L. apply starts_with_ch_len in E.
  destruct (0 <? _) eqn:F; [|auto]. apply Nat.ltb_lt in F. right. lia.
Qed.
Lemma double_key_le s : yaml_double_key s <= length s.
Proof.
  enough (H : forall n s, length s <= n -> yaml_double_key s <= length s) by (apply (H (length s)); lia). clear s.
  induction n as [|n IH]; intros [|c t] L; cbn [yaml_double_key length] in *; try lia. destruct (c =? 34)%N; [lia|]. destruct (c =? ch "\")%N; [destruct t as [|d t]; [lia|]; cbn [length] in *; specialize (IH t); lia|]. specialize (IH t). lia.
Qed.
Lemma single_key_le s : yaml_single_key s <= length s.
Proof.
  enough (H : forall n s, length s <= n -> yaml_single_key s <= length s) by (apply (H (length s)); lia). clear s.
  induction n as [|n IH]; intros [|c t] L; cbn [yaml_single_key length] in *; try lia. destruct (c =? 39)%N; [destruct t as [|d t]; [lia|]; cbn [length] in *; destruct (d =? 39)%N; [specialize (IH t)|]; lia|]. specialize (IH t). lia.
Qed.
Lemma plain_le first s : yaml_plain_length first s <= length s.
Proof. revert first. induction s as [|c t IH]; intros first; cbn [yaml_plain_length length]; [lia|]. destruct (is_yaml_plain_terminator c); [lia|]. destruct (_ && _ && _); [lia|]. destruct (_ && _ && _); [lia|]. specialize (IH false). lia. Qed.

(** ** Moving forward *)
(** Characters are consumed, and the stack of indentations stays. *)
Definition mv (k : nat) (st st' : yst) : Prop := steps anyy k st st' /\ loc st' = loc st.
Lemma mv_refl st : mv 0 st st.
Proof. split; [apply steps_refl|reflexivity]. Qed.
Lemma mv_trans a b st st' st'' : mv a st st' -> mv b st' st'' -> mv (a + b) st st''.
Proof. intros [H1 H2] [G1 G2]. split; [eapply steps_trans; eassumption|congruence]. Qed.
Lemma mv_len k st st' : mv k st st' -> k <= length (rem st) /\ length (rem st') = length (rem st) - k.
Proof. intros [H _]. apply (steps_len _ _ _ _ H). Qed.
Lemma mv_rem k st st' : mv k st st' -> rem st' = skipn k (rem st).
Proof. intros [H _]. apply (steps_rem _ _ _ _ H). Qed.
Lemma wp_adv_y n (Q : unit -> yst -> Prop) st : n <= length (rem st) -> (forall st', mv n st st' -> Q tt st') -> wp (advance n) Q st.
Proof. intros L H. apply (wp_advance anyy); [exact L|apply Forall_forall; intros; exact I|]. intros st' H1 H2. apply H. split; assumption. Qed.
Lemma wp_emit_y n ty (Q : unit -> yst -> Prop) st : 0 < n <= length (rem st) -> (forall st', mv n st st' -> Q tt st') -> wp (emit_and_advance n ty) Q st.
Proof. intros L H. apply (wp_emit_adv anyy); [exact L|]. intros st' H1 H2. apply H. split; assumption. Qed.
Lemma wp_flush_y n (Q : unit -> yst -> Prop) st : n <= length (rem st) -> (forall st', mv n st st' -> Q tt st') -> wp (yaml_flush n) Q st.
Proof. intros L H. unfold yaml_flush. apply (wp_flush anyy); [exact L|]. intros st' H1 H2. apply H. split; assumption. Qed.
Lemma rounds_y {B} (body : unit -> M (list nat) (unit + B)) (R : B -> yst -> Prop) st :
  (forall k st1, mv k st st1 -> wp (body tt) (fun r st2 => exists n, mv n st1 st2 /\ match r with inl _ => 0 < n | inr b => R b st2 end) st1) ->
  wp (hloop 1 body tt) (fun b st' => exists k, mv k st st' /\ R b st') st.
Proof.
  intros H. apply wp_hloop with (Inv := fun _ st1 => exists k, mv k st st1) (mu := fun _ st1 => length (rem st1)).
  - exists 0. apply mv_refl.
  - lia.
  - intros [] st1 (k & Hk). eapply wp_mono; [apply (H k st1 Hk)|]. cbn beta. intros [a|b] st2 (n & Hn & G).
    + split; [exists (k + n); eapply mv_trans; eassumption|]. apply mv_len in Hn. apply mv_len in Hk. lia.
    + exists (k + n). split; [eapply mv_trans; eassumption|exact G].
Qed.
Lemma scan_y {B} (body : nat -> M (list nat) (nat + B)) st :
  (forall a k st1, mv k st st1 -> a <= length (rem st1) ->
     wp (body a) (fun r st2 => exists n, mv n st1 st2 /\ match r with inl a' => a' <= length (rem st2) /\ length (rem st2) - a' < length (rem st1) - a | inr b => True end) st1) ->
  wp (hloop 1 body 0) (fun b st' => exists k, mv k st st') st.
Proof.
  intros H. apply wp_hloop with (Inv := fun a st1 => (exists k, mv k st st1) /\ a <= length (rem st1)) (mu := fun a st1 => length (rem st1) - a).
  - split; [exists 0; apply mv_refl|lia].
  - lia.
  - intros a st1 ((k & Hk) & La). eapply wp_mono; [apply (H a k st1 Hk La)|]. cbn beta. intros [a'|b] st2 (n & Hn & G).
    + destruct G as [G1 G2]. split; [|exact G2]. split; [exists (k + n); eapply mv_trans; eassumption|exact G1].
    + exists (k + n). eapply mv_trans; eassumption.
Qed.
Ltac yfacts :=
  repeat match goal with
  | |- context [yaml_match_line_break ?s] => let T := constr:(yaml_match_line_break s <= length s) in know T; pose proof (break_le s)
  | |- context [yaml_until_break ?s] => let T := constr:(yaml_until_break s <= length s) in know T; pose proof (until_le s)
  | |- context [yaml_indent ?s] => let T := constr:(yaml_indent s <= length s) in know T; pose proof (indent_le s)
  | |- context [length_if ?s ?p] => let T := constr:(length_if s p <= length s) in know T; pose proof (length_if_le s p)
  | |- context [prefix_len ?p ?s] => let T := constr:(prefix_len p s <= length s) in know T; pose proof (prefix_len_le p s)
  | |- context [yaml_plain_length ?b ?s] => let T := constr:(yaml_plain_length b s <= length s) in know T; pose proof (plain_le b s)
  | |- context [yaml_double_key ?s] => let T := constr:(yaml_double_key s <= length s) in know T; pose proof (double_key_le s)
  | |- context [yaml_single_key ?s] => let T := constr:(yaml_single_key s <= length s) in know T; pose proof (single_key_le s)
  end.
Ltac yside := yfacts; hlia.
(** [ym]: combines the last move with those from the start. *)
Ltac ym :=
  match goal with
  | H : mv ?k ?s0 ?s1, G : mv ?n ?s1 ?s2 |- _ =>
    tryif constr_eq s1 s2 then fail else
    (let J := fresh in pose proof (mv_trans _ _ _ _ _ H G) as J;
     destruct (mv_len _ _ _ G); pose proof (mv_rem _ _ _ G); clear H; clear G)
  end.
Ltac y1 :=
  cbn beta;
  lazymatch goal with
  | |- wp (advance _) _ _ => apply wp_adv_y; [try solve [yside]|intros ? ?; try ym]
  | |- wp (emit_and_advance _ _) _ _ => apply wp_emit_y; [try solve [yside]|intros ? ?; try ym]
  | |- wp (yaml_flush _) _ _ => apply wp_flush_y; [try solve [yside]|intros ? ?; try ym]
  | |- wp (bindM _ _) _ _ => apply wp_bind
  | |- wp (ret _) _ _ => apply wp_ret
  | |- wp get_rem _ _ => apply wp_get_rem
  | |- wp get_loc _ _ => apply wp_get_loc
  | |- wp eof _ _ => apply wp_eof; intros ?
  | |- wp (when _ _) _ _ => apply wp_when; intros ?
  | |- wp (checkM _ _) _ _ => apply wp_check; [try solve [assumption|yside]|]
  | |- wp (at_ _ _) _ _ => apply wp_at; [try solve [yside]|intros ? ?]
  | |- wp (let x := _ in _) _ _ => cbv zeta
  | |- wp (match ?r with _ => _ end) _ _ =>
    lazymatch type of r with
    | bool => apply wp_if; intros ?
    | _ => let E := fresh "Er" in case_eq r; [intros E|intros ? ? E; try rewrite <- E]
    end
  end.
Ltac yy := repeat y1.
Ltac yfin := cbn beta iota; eexists; split; [eassumption|try solve [exact I|repeat split; intros; try discriminate; hlia]].
Ltac ycall lem := cbn beta; eapply wp_mono; [apply lem|cbn beta; intros ? ? (? & ? & ?); try ym].
Ltac ycall0 lem := cbn beta; eapply wp_mono; [apply lem|cbn beta; intros ? ? (? & ?); try ym].
Ltac start st := pose proof (mv_refl st).
(** Each function moves forward. *)
Definition moves (m : M (list nat) unit) : Prop := forall st, wp m (fun _ st' => exists k, mv k st st') st.

Lemma y_skip_break : moves yaml_skip_line_break.
Proof. intros st. start st. unfold yaml_skip_line_break. yy. eauto. Qed.
Lemma y_skip_break_pos st : yaml_at_break (rem st) = true -> wp yaml_skip_line_break (fun _ st' => exists k, mv k st st' /\ 0 < k) st.
Proof. intros H. apply at_break_pos in H. start st. unfold yaml_skip_line_break. yy. yfin. Qed.
Lemma y_skip_line : moves yaml_skip_line.
Proof. intros st. start st. unfold yaml_skip_line. yy. ycall0 y_skip_break. eauto. Qed.
Lemma y_consume_indent n : moves (yaml_consume_indent n).
Proof. intros st. start st. unfold yaml_consume_indent. yy. eauto. Qed.
Lemma y_comment st : starts_with_ch (rem st) (ch "#") = true -> wp yaml_comment (fun _ st' => exists k, mv k st st' /\ 0 < k) st.
Proof. intros H. start st. unfold yaml_comment. yy; yfin. Qed.
(** What does not begin with white space, a line break or a comment *)
Definition fresh (r : str) : Prop := forall c t, r = c :: t -> is_yaml_whitespace c = false /\ c <> 35%N /\ c <> 13%N /\ c <> 10%N.
Lemma ws_drop (s : str) : match skipn (length_if s is_yaml_whitespace) s with c :: _ => is_yaml_whitespace c = false | [] => True end.
Proof. rewrite length_if_eq. induction s as [|c t IH]; cbn [prefix_len skipn]; [exact I|]. destruct (is_yaml_whitespace c) eqn:E; [exact IH|exact E]. Qed.
Lemma y_space st : wp yaml_space (fun _ st' => exists k, mv k st st' /\ fresh (rem st')) st.
Proof.
  unfold yaml_space. apply rounds_y with (R := fun _ st' => fresh (rem st')). intros k st1 _. start st1. unfold yaml_space_body. yy.
  - yfin.
  - ycall y_comment. { assumption. } yy. yfin.
  - ycall y_skip_break_pos. { assumption. } yy. yfin.
  - cbn beta iota. eexists. split; [eassumption|]. intros c t E. pose proof (ws_drop (rem st1)) as W.
    repeat match goal with
    | HH : rem _ = skipn _ _ |- _ => rewrite <- HH, E in W; clear HH
    | HH : starts_with_ch (rem _) _ = false |- _ => rewrite E in HH; cbn [starts_with_ch] in HH; apply N.eqb_neq in HH
    | HH : yaml_at_break (rem _) = false |- _ => rewrite E in HH
    end. split; [exact W|]. split; [assumption|].
    assert (Z : ~ yaml_at_break (c :: t) = true) by congruence. rewrite at_break_iff in Z. split; intros ->; apply Z; eauto.
Qed.
Lemma y_space' : moves yaml_space.
Proof. intros st. eapply wp_mono; [apply y_space|]. intros _ st' (k & H & _). eauto. Qed.
Lemma advance_none (st : yst) : advance 0 st = Ok (tt, st).
Proof. unfold advance. cbn [Nat.leb skipn]. rewrite Nat.add_0_r. destruct st; reflexivity. Qed.
Lemma y_space_fresh st : fresh (rem st) -> wp yaml_space (fun _ st' => st' = st) st.
Proof.
  intros F. unfold yaml_space. apply wp_unroll. unfold yaml_space_body. y1. y1; y1; [reflexivity|]. destruct (rem st) as [|c t] eqn:E; [congruence|]. destruct (F c t eq_refl) as (F1 & F2 & F3 & F4).
  y1. y1. rewrite E, length_if_eq. cbn [prefix_len]. rewrite F1. unfold wp, bindM at 1. rewrite advance_none. unfold bindM, get_rem. rewrite E. cbn [starts_with_ch]. rewrite (proj2 (N.eqb_neq c (ch "#")) F2).
  destruct (yaml_at_break (c :: t)) eqn:B; [|reflexivity]. apply at_break_iff in B as (? & ? & [= <- <-] & [|]); congruence.
Qed.
Lemma y_comment_or_blank st : wp yaml_comment_or_blank (fun b st' => exists k, mv k st st' /\ (b = true -> 0 < k \/ rem st = [])) st.
Proof.
  start st. unfold yaml_comment_or_blank. y1. ycall y_space. yy.
  - yfin. intros _. match goal with HH : rem st' = [] |- _ => apply (f_equal (@length N)) in HH end. destruct (rem st) eqn:E; [right; reflexivity|left]. cbn [length] in *. lia.
  - ycall y_comment; [assumption|]. yy. ycall0 y_skip_break. yy. yfin.
  - ycall y_skip_break_pos; [assumption|]. yy. yfin.
  - yfin.
Qed.
Lemma y_blank_lines : moves yaml_blank_lines.
Proof.
  intros st. eapply wp_mono; [apply rounds_y with (R := fun _ _ => True)|intros _ st' (k & H & _); eauto]. intros k st1 _. start st1. unfold yaml_blank_body. yy.
  - yfin.
  - ycall y_skip_break_pos; [assumption|]. yy. yfin.
  - unfold yaml_consume_indent. yy. ycall y_comment.
    { match goal with HH : (_ <? _) && _ = true |- _ => apply andb_prop in HH as [A B] end. match goal with HH : rem _ = skipn _ _ |- _ => rewrite HH end. rewrite Nat.min_id. apply Nat.ltb_lt in A. clear - A B. revert A B. generalize (yaml_indent (rem st1)). intros n. revert n. induction (rem st1) as [|x r IH]; intros n A B; [cbn in A; lia|]. destruct n; [exact B|]. cbn [skipn]. apply IH; [cbn in A; lia|exact B]. }
    yy. ycall0 y_skip_break. yy. yfin.
  - yfin.
Qed.
Lemma y_inline_space : moves yaml_inline_space.
Proof. intros st. start st. unfold yaml_inline_space. yy. eauto. Qed.
Lemma y_each stop ty : moves (yaml_each stop ty).
Proof.
  intros st. eapply wp_mono; [apply rounds_y with (R := fun _ _ => True)|intros _ st' (k & H & _); eauto]. intros k st1 _. start st1. yy; yfin.
Qed.
Lemma y_tag st : starts_with_ch (rem st) (ch "!") = true -> wp yaml_tag (fun _ st' => exists k, mv k st st' /\ 0 < k) st.
Proof.
  intros H. start st. unfold yaml_tag. y1. y1. y1. y1. y1.
  - yy. ycall0 y_each. yy; yfin.
  - y1. { yy. ycall0 y_each. yfin. } yy.
    + ycall0 y_each. yfin.
    + ycall0 y_each. yfin.
Qed.
Lemma y_named c st : rem st <> [] -> wp (yaml_named c) (fun _ st' => exists k, mv k st st' /\ 0 < k) st.
Proof.
  intros H. start st. unfold yaml_named. assert (0 < length (rem st)) by (destruct (rem st); cbn; [congruence|lia]). destruct (y_name_ok c (rem st)) as [Z|Z]; yy; yfin.
Qed.
Lemma y_anchor st : starts_with_ch (rem st) (ch "&") = true -> wp yaml_anchor (fun _ st' => exists k, mv k st st' /\ 0 < k) st.
Proof. intros H. unfold yaml_anchor. yy. apply y_named. destruct (rem st); [discriminate|discriminate]. Qed.
(** A tag or anchor follows, or nothing happens. *)
Lemma y_properties : moves yaml_properties.
Proof.
  intros st. eapply wp_mono; [apply rounds_y with (R := fun _ _ => True)|intros _ st' (k & H & _); eauto]. intros k st1 _. start st1. unfold yaml_properties_body.
  yy.
  - ycall y_tag; [assumption|]. ycall0 y_inline_space. yy.
    + ycall y_anchor; [assumption|]. ycall0 y_inline_space. yy. rewrite H0. cbn [orb]. yfin.
    + rewrite H0. cbn [orb]. yfin.
  - ycall y_anchor; [assumption|]. ycall0 y_inline_space. yy. rewrite H0, H1. cbn [orb]. yfin.
  - rewrite H0, H1. cbn [orb]. yfin.
Qed.
Lemma break_at (s : str) n c : nth_error s n = Some c -> (c =? 13)%N || (c =? 10)%N = true -> yaml_at_break (skipn n s) = true.
Proof.
  intros H A. apply at_break_iff. apply nth_error_split in H as (l1 & l2 & -> & <-). rewrite skipn_app_exact. exists c, l2. split; [reflexivity|]. apply orb_prop in A as [A|A]; apply N.eqb_eq in A; auto.
Qed.
Lemma y_double k st : starts_with_ch (rem st) 34 = true -> wp (yaml_double k) (fun _ st' => exists k, mv k st st' /\ 0 < k) st.
Proof.
  intros H. start st. unfold yaml_double. yy.
  - yfin.
  - eapply wp_mono; [apply scan_y|intros _ st'' (j & Hj); ym; yfin]. clear. intros a k st1 _ La. start st1. unfold yaml_double_body, yaml_continue_line. yy.
    + yfin.
    + yfin.
    + ycall y_skip_break_pos; [match goal with HH : rem _ = skipn _ _ |- _ => rewrite HH end; eapply break_at; eassumption|]. yy. yfin.
    + match goal with |- wp (lift (yaml_match_escape ?r)) _ _ => destruct (y_escape_ok r) as (e & E & Le); [intros Z; apply (f_equal (@length N)) in Z; cbn [length] in Z; hlia|] end. eapply wp_lift; [exact E|]. yy; yfin.
    + yfin.
Qed.
Lemma y_single k st : starts_with_ch (rem st) 39 = true -> wp (yaml_single k) (fun _ st' => exists k, mv k st st' /\ 0 < k) st.
Proof.
  intros H. start st. unfold yaml_single. yy.
  - yfin.
  - eapply wp_mono; [apply scan_y|intros _ st'' (j & Hj); ym; yfin]. clear. intros a k st1 _ La. start st1. unfold yaml_single_body, yaml_continue_line. yy.
    + yfin.
    + yfin.
    + yfin.
    + ycall y_skip_break_pos; [match goal with HH : rem _ = skipn _ _ |- _ => rewrite HH end; eapply break_at; eassumption|]. yy. yfin.
    + yfin.
Qed.
(** What a node can begin with *)
Definition begins (r : str) : Prop := exists c t, r = c :: t /\ fresh r /\ ~ In c (bs ",]}").
Lemma begins_plain r : begins r -> starts_with_ch r (ch "[") = false -> starts_with_ch r (ch "{") = false -> 0 < yaml_plain_length true r.
Proof.
  intros (c & t & -> & F & N) A B. destruct (F c t eq_refl) as (_ & F2 & F3 & F4). cbn [yaml_plain_length negb andb]. rewrite !andb_false_r. cbn [andb].
  destruct (is_yaml_plain_terminator c) eqn:E; [|lia]. exfalso. cbn [starts_with_ch] in A, B. apply N.eqb_neq in A, B. unfold is_yaml_plain_terminator in E. apply mem_In in E.
  change (ch "[") with 91%N in A. change (ch "{") with 123%N in B. cbn in E, N. intuition congruence.
Qed.
Lemma y_plain k st : wp (yaml_plain k) (fun _ st' => exists k, mv k st st' /\ (0 < yaml_plain_length true (rem st) -> 0 < k)) st.
Proof.
  start st. unfold yaml_plain. y1. y1. y1.
  - yy. yfin.
  - cbv zeta. assert (S : wp (when (0 <? yaml_plain_length true (rem st)) (emit_and_advance (yaml_plain_length true (rem st)) (if k then hl_markup_attr else hl_string))) (fun _ st' => exists k, mv k st st' /\ (0 < yaml_plain_length true (rem st) -> 0 < k)) st).
    { y1; [y1; yfin|yfin]. }
    destruct (yaml_match_word (rem st)) as [[w ty]|] eqn:W; [apply y_word_ok in W; match goal with |- wp (if ?b then _ else _) _ _ => destruct b end; [yy; yfin|]|].
    all: y1; destruct (y_number_ok (rem st)) as (r & E & L); (eapply wp_lift; [exact E|]); y1; [|exact S]; match goal with HH : _ && _ = true |- _ => apply andb_prop in HH as [HH _] end; yy; yfin.
Qed.
Lemma y_flow_scalar k st : wp (yaml_flow_scalar k) (fun _ st' => exists k, mv k st st' /\ (0 < yaml_plain_length true (rem st) -> 0 < k)) st.
Proof.
  unfold yaml_flow_scalar. y1. y1. y1.
  - y1. exists 0. split; [apply mv_refl|]. cbn. lia.
  - y1; [ycall y_double; [rewrite Er; assumption|]; yfin|]. y1; [ycall y_single; [rewrite Er; assumption|]; yfin|]. y1; [ycall y_named; [rewrite Er; discriminate|]; yfin|]. apply y_plain.
Qed.
Lemma y_breaks : moves yaml_breaks.
Proof.
  intros st. eapply wp_mono; [apply rounds_y with (R := fun _ _ => True)|intros _ st' (k & H & _); eauto]. intros k st1 _. start st1. yy; try yfin. ycall y_skip_break_pos; [assumption|]. yy. yfin.
Qed.
Lemma y_block_lines content : moves (hloop 1 (yaml_block_line_body content) tt).
Proof.
  intros st. eapply wp_mono; [apply rounds_y with (R := fun _ _ => True)|intros _ st'' (j & Hj & _); eauto]. intros k1 st2 _. start st2. unfold yaml_block_line_body, yaml_consume_indent. yy; try yfin.
  - ycall y_skip_break_pos; [assumption|]. yy. yfin.
  - ycall0 y_skip_break. yy. yfin.
  - destruct (Nat.eq_dec (Nat.min content (yaml_indent (rem st2))) 0) as [Z|Z]; [exfalso|ycall0 y_skip_break; yy; yfin].
    match goal with HH : rem st' = skipn _ _ |- _ => rewrite Z in HH; cbn [skipn] in HH; rewrite HH in * end. destruct (until_pos (rem st2)) as [P|P]; [congruence|hlia|congruence].
Qed.
Lemma y_block_scalar i st : starts_with_ch (rem st) (ch "|") || starts_with_ch (rem st) (ch ">") = true -> wp (yaml_block_scalar i) (fun _ st' => exists k, mv k st st' /\ 0 < k) st.
Proof.
  intros H. start st. unfold yaml_block_scalar. y1. y1. y1. y1. assert (0 < length (rem st)) by (destruct (rem st); [discriminate|cbn; lia]). y1. y1. y1.
  assert (T1 : forall st1 k, mv k st st1 -> 0 < k -> wp (yaml_skip_line ;; yaml_breaks ;; let! r := get_rem in (let content := yaml_indent r in if (content <=? i) && negb (length r =? 0) then ret tt else hloop 1 (yaml_block_line_body content) tt)) (fun _ st' => exists k, mv k st st' /\ 0 < k) st1).
  { clear. intros st1 k M1 K. y1. ycall0 y_skip_line. y1. ycall0 y_breaks. y1. y1. y1. y1; [y1; yfin|].
    ycall0 y_block_lines. yfin. }
  assert (T2 : forall st1 k, mv k st st1 -> 0 < k -> wp (let! r := get_rem in when (starts_with_ch r (ch "#")) yaml_comment ;; yaml_skip_line ;; yaml_breaks ;; let! r := get_rem in (let content := yaml_indent r in if (content <=? i) && negb (length r =? 0) then ret tt else hloop 1 (yaml_block_line_body content) tt)) (fun _ st' => exists k, mv k st st' /\ 0 < k) st1).
  { clear - T1. intros st1 k M1 K. y1. y1. y1. y1; [ycall y_comment; [assumption|]|]; eapply T1; try eassumption; lia. }
  assert (T3 : forall st1 k, mv k st st1 -> 0 < k -> wp (let! r := get_rem in when (match r with c :: _ => between (ch "1") (ch "9") c | [] => false end) (emit_and_advance 1 hl_number_decor) ;; let! r := get_rem in when (starts_with_ch r (ch "#")) yaml_comment ;; yaml_skip_line ;; yaml_breaks ;; let! r := get_rem in (let content := yaml_indent r in if (content <=? i) && negb (length r =? 0) then ret tt else hloop 1 (yaml_block_line_body content) tt)) (fun _ st' => exists k, mv k st st' /\ 0 < k) st1).
  { clear - T2. intros st1 k M1 K. y1. y1. y1. y1; [assert (0 < length (rem st1)) by (destruct (rem st1); [discriminate|cbn; lia]); y1|]; eapply T2; try eassumption; lia. }
  y1. y1. y1; [match goal with |- wp _ _ ?s => assert (0 < length (rem s)) by (destruct (rem s); [discriminate|cbn; lia]) end; y1|]; (eapply T3; [eassumption|lia]).
Qed.

(** ** Flow nodes *)
Definition goes (m : M (list nat) unit) (st : yst) : Prop := wp m (fun _ st' => exists k, mv k st st' /\ (begins (rem st) -> 0 < k)) st.
Definition flow_spec (n : nat) (node : nat -> bool -> M (list nat) unit) : Prop := forall i b st, length (rem st) < n -> goes (node i b) st.
Lemma y_flow_body n close wrong ty item st :
  (close = 93 /\ wrong = 125 \/ close = 125 /\ wrong = 93)%N -> length (rem st) < n -> (forall st, length (rem st) < n -> goes item st) ->
  wp (hloop 1 (yaml_flow_body close wrong ty item) tt) (fun _ st' => exists k, mv k st st') st.
Proof.
  intros C L I. eapply wp_mono; [apply rounds_y with (R := fun _ _ => True)|intros _ st'' (j & Hj & _); eauto]. intros k st1 M1. apply mv_len in M1. start st1. unfold yaml_flow_body. y1. y1; [y1; yfin|].
  y1. ycall y_space. y1. y1. y1; [y1; yfin|]. match goal with HH : rem ?s = n0 :: _ |- _ => rename s into st2 end. assert (0 < length (rem st2)) by (rewrite Er; cbn; lia).
  y1; [yy; yfin|]. y1; [yy; yfin|]. y1; [yy; yfin|]. y1.
  { y1. ycall y_skip_break_pos; [|y1; yfin]. rewrite Er. apply at_break_iff. do 2 eexists. split; [reflexivity|]. match goal with HH : _ || _ = true |- _ => apply orb_prop in HH as [HH|HH]; apply N.eqb_eq in HH; auto end. }
  y1. { y1. ycall y_comment; [rewrite Er; assumption|]. y1. ycall0 y_skip_break. y1. yfin. }
  y1. assert (B : begins (rem st2)).
  { exists n0. eexists. split; [exact Er|]. split; [assumption|]. repeat match goal with HH : (n0 =? _)%N = false |- _ => apply N.eqb_neq in HH end. change (ch ",") with 44%N in *. cbn. intuition congruence. }
  ycall I; [lia|]. y1. ycall0 y_space'. y1. yfin.
Qed.
Lemma y_flow_entry n node i st : flow_spec n node -> length (rem st) < n -> goes (yaml_flow_entry node i) st.
Proof.
  intros I L. unfold goes. start st. unfold yaml_flow_entry. y1. y1. y1.
  assert (T : forall st1 k, mv k st st1 -> (begins (rem st) -> 0 < k) -> wp (yaml_space ;;
    let! r := get_rem in
    if starts_with_ch r (ch ":") then
      emit_and_advance 1 hl_symbol_punc ;;
      let! r := get_rem in
      when (starts_with_ch r 32) (advance 1) ;;
      yaml_space ;;
      let! r := get_rem in
      when (match r with [] => false | c :: _ => negb (c =? ch ",")%N && negb (c =? ch "}")%N && negb (yaml_at_break r) end)
        (node i false)
    else ret tt) (fun _ st' => exists k, mv k st st' /\ (begins (rem st) -> 0 < k)) st1).
  { clear - I L. intros st1 k M1 K. destruct (mv_len _ _ _ M1). y1. ycall0 y_space'. y1. y1. y1; [|y1; yfin]. y1. y1. y1. y1. y1.
    assert (T2 : forall st1 k, mv k st st1 -> 0 < k -> wp (yaml_space ;;
      let! r := get_rem in
      when (match r with [] => false | c :: _ => negb (c =? ch ",")%N && negb (c =? ch "}")%N && negb (yaml_at_break r) end)
        (node i false)) (fun _ st' => exists k, mv k st st' /\ (begins (rem st) -> 0 < k)) st1).
    { clear - I L. intros st1 k M1 K. destruct (mv_len _ _ _ M1). y1. ycall0 y_space'. y1. y1. y1; [|yfin]. ycall I; [lia|]. yfin. }
    y1; [y1|]; (eapply T2; [eassumption|lia]). }
  y1.
  - y1. y1. y1. ycall0 y_space'. ycall I; [lia|]. eapply T; [eassumption|]. intros _. lia.
  - ycall I; [lia|]. eapply T; [eassumption|assumption].
Qed.
Lemma y_flow_node fuel : flow_spec fuel (yaml_flow_node fuel).
Proof.
  induction fuel as [|fuel IH]; intros i b st L; [lia|]. unfold goes. cbn [yaml_flow_node]. start st.
  assert (T : forall st1 k, mv k st st1 -> (begins (rem st) -> 0 < k \/ begins (rem st1)) -> wp (let! r := get_rem in
      if starts_with_ch r (ch "[") then
        emit_and_advance 1 hl_symbol_square ;;
        hloop 1 (yaml_flow_body (ch "]") (ch "}") hl_symbol_square (yaml_flow_node fuel i false)) tt
      else if starts_with_ch r (ch "{") then
        emit_and_advance 1 hl_symbol_brace ;;
        hloop 1 (yaml_flow_body (ch "}") (ch "]") hl_symbol_brace (yaml_flow_entry (yaml_flow_node fuel) i)) tt
      else if starts_with_ch r (ch "|") || starts_with_ch r (ch ">") then yaml_block_scalar i
      else yaml_flow_scalar b) (fun _ st' => exists k, mv k st st' /\ (begins (rem st) -> 0 < k)) st1).
  { intros st1 k M1 K. destruct (mv_len _ _ _ M1). y1. y1. y1.
    { y1. y1. ycall0 (y_flow_body fuel); [left; split; reflexivity|lia|intros s Hs; apply IH; exact Hs|]. yfin. }
    y1. { y1. y1. ycall0 (y_flow_body fuel); [right; split; reflexivity|lia|intros s Hs; apply (y_flow_entry fuel); assumption|]. yfin. }
    y1. { ycall y_block_scalar; [assumption|]. yfin. }
    ycall y_flow_scalar. yfin. intros B. destruct (K B) as [K1|K1]; [lia|]. apply begins_plain in K1; [|assumption|assumption]. match goal with HH : 0 < _ -> 0 < _ |- _ => specialize (HH K1) end. lia. }
  y1. ycall0 y_space'. y1. y1. y1.
  - y1. yfin. intros B. destruct x; [exfalso|lia]. cbn [skipn] in *. match goal with HH : rem _ = rem st |- _ => rewrite HH in * end. destruct B as (c & t & E & F & _). rewrite E in *. cbn [length Nat.eqb orb] in *. destruct (F c t eq_refl) as (_ & _ & F3 & F4). match goal with HH : yaml_at_break _ = true |- _ => apply at_break_iff in HH as (? & ? & [= <- <-] & [|]); congruence end.
  - y1. ycall0 y_properties. eapply T; [eassumption|]. intros B. destruct x; [|left; lia]. destruct x0; [|left; lia]. right. cbn [skipn] in *. congruence.
Qed.
Lemma y_flow i b st : goes (yaml_flow i b) st.
Proof. unfold goes, yaml_flow. y1. y1. apply y_flow_node. lia. Qed.

(** ** Entries *)
Lemma entries_skipn k s : entries (skipn k s) <= entries s.
Proof. revert s. induction k as [|k IH]; intros [|c t]; cbn [skipn]; try lia. cbn [entries]. specialize (IH t). lia. Qed.
Lemma entries_at p s : entry_start (skipn p s) = true -> forall k, p < k -> entries (skipn k s) + 1 <= entries s.
Proof.
  revert s. induction p as [|p IH]; intros [|c t] H k K; try discriminate; (destruct k as [|k]; [lia|]); cbn [skipn] in *.
  - cbn [entries]. rewrite H. pose proof (entries_skipn k t). lia.
  - cbn [entries]. specialize (IH t H k ltac:(lia)). lia.
Qed.
Lemma colon_at q s p : yaml_colon q s = Some p -> exists t, skipn p s = ch ":" :: t /\ yaml_separates t = true.
Proof.
  enough (H : forall n s q p, length s <= n -> yaml_colon q s = Some p -> exists t, skipn p s = ch ":" :: t /\ yaml_separates t = true) by (apply (H (length s)); lia). clear.
  induction n as [|n IH]; intros [|c t] q p L; cbn [yaml_colon length] in *; try discriminate; [lia|]. destruct (_ || _); [discriminate|].
  assert (A : forall q f, option_map S (yaml_colon q t) = Some f -> exists t', skipn f (c :: t) = ch ":" :: t' /\ yaml_separates t' = true).
  { intros q' f. destruct (yaml_colon q' t) as [m|] eqn:E; [|discriminate]. intros [= <-]. apply (IH t q' m); [lia|exact E]. }
  destruct q as [d|].
  - destruct (c =? d)%N; [apply A|]. destruct (_ && _); [|apply A]. destruct t as [|e t]; [discriminate|]. destruct (yaml_colon (Some d) t) as [m|] eqn:E; [|discriminate]. intros [= <-]. apply (IH t (Some d) m); [cbn in L; lia|exact E].
  - destruct (_ || _); [apply A|]. destruct (c =? ch "#")%N; [discriminate|]. destruct ((c =? ch ":")%N && _) eqn:E; [|apply A]. intros [= <-]. apply andb_prop in E as [E1 E2]. apply N.eqb_eq in E1 as ->. exists t. split; [reflexivity|exact E2].
Qed.
Lemma separates_entry t : yaml_separates t = true -> entry_start (ch ":" :: t) = true.
Proof.
  intros H. cbn [entry_start]. rewrite N.eqb_refl. change (ch ":" =? ch "-")%N with false. cbn [andb orb]. destruct t as [|d t]; [reflexivity|]. cbn [yaml_separates line_end] in *. apply orb_prop in H as [H|H].
  - apply N.eqb_eq in H as ->. apply orb_true_r.
  - apply at_break_iff in H as (? & ? & [= <- <-] & [-> | ->]); reflexivity.
Qed.
Lemma trim_spec s n : yaml_trim s n <= n /\ forall i, yaml_trim s n <= i < n -> is_yaml_whitespace (nth i s 0%N) = true.
Proof.
  induction n as [|n [IH1 IH2]]; cbn [yaml_trim]; [split; [lia|intros; lia]|]. destruct (is_yaml_whitespace (nth n s 0%N)) eqn:E; [|split; [lia|intros; lia]]. split; [lia|]. intros i Hi. destruct (Nat.eq_dec i n) as [->|]; [exact E|apply IH2; lia].
Qed.
Lemma ws_to_colon n p (r t : str) : n <= p -> (forall i, n <= i < p -> is_yaml_whitespace (nth i r 0%N) = true) -> skipn p r = ch ":" :: t -> length_if (skipn n r) is_yaml_whitespace = p - n.
Proof.
  revert p r. induction n as [|n IH]; intros p r L H E.
  - cbn [skipn]. rewrite Nat.sub_0_r, length_if_eq. clear L. revert r H E. induction p as [|p IH]; intros r H E; cbn [skipn] in E; [subst; reflexivity|]. destruct r as [|c r]; [discriminate|]. cbn [prefix_len]. pose proof (H 0 ltac:(lia)) as H0. cbn [nth] in H0. rewrite H0. f_equal. apply IH; [|exact E]. intros i Hi. apply (H (S i)). lia.
  - destruct p as [|p]; [lia|]. destruct r as [|c r]; [discriminate|]. cbn [skipn] in *. apply IH; [lia| |exact E]. intros i Hi. apply (H (S i)). lia.
Qed.

(** ** Block nodes *)
(** Characters are consumed, and the stack can still take the entries that are left. *)
Definition pot (st : yst) : nat := length (loc st) + entries (rem st).
Definition bm (k : nat) (st st' : yst) : Prop := steps anyy k st st' /\ pot st' <= pot st.
Lemma mv_bm k st st' : mv k st st' -> bm k st st'.
Proof. intros [H1 H2]. split; [exact H1|]. unfold pot. rewrite H2, (steps_rem _ _ _ _ H1). pose proof (entries_skipn k (rem st)). lia. Qed.
Lemma bm_refl st : bm 0 st st.
Proof. split; [apply steps_refl|lia]. Qed.
Lemma bm_trans a b st st' st'' : bm a st st' -> bm b st' st'' -> bm (a + b) st st''.
Proof. intros [H1 H2] [G1 G2]. split; [eapply steps_trans; eassumption|lia]. Qed.
Lemma bm_len k st st' : bm k st st' -> k <= length (rem st) /\ length (rem st') = length (rem st) - k.
Proof. intros [H _]. apply (steps_len _ _ _ _ H). Qed.
Ltac yb :=
  match goal with
  | H : bm ?k ?s0 ?s1, G : mv ?n ?s1 ?s2 |- _ =>
    (let J := fresh in pose proof (bm_trans _ _ _ _ _ H (mv_bm _ _ _ G)) as J;
     destruct (mv_len _ _ _ G); pose proof (mv_rem _ _ _ G); clear H; clear G)
  | H : bm ?k ?s0 ?s1, G : bm ?n ?s1 ?s2 |- _ =>
    (let J := fresh in pose proof (bm_trans _ _ _ _ _ H G) as J;
     destruct (bm_len _ _ _ G); clear H; clear G)
  end.
Definition block_spec (n : nat) (node : nat -> nat -> M (list nat) unit) : Prop :=
  forall i o st, length (rem st) < n -> pot st <= 64 -> wp (node i o) (fun _ st' => exists k, bm k st st') st.
Lemma bm_pot k st st' : bm k st st' -> pot st' <= pot st.
Proof. intros [_ H]. exact H. Qed.
Lemma y_key n node i st : block_spec n node -> length (rem st) <= n -> pot st <= 64 ->
  wp (yaml_key node i) (fun b st' => if b then exists k, bm k st st' /\ 0 < k /\ pot st' + 1 <= pot st else st' = st) st.
Proof.
  intros I L Pt. unfold yaml_key. y1. y1. destruct (yaml_colon None (rem st)) as [p|] eqn:E; [|apply wp_ret; reflexivity].
  destruct (colon_at _ _ _ E) as (t & Et & Se). pose proof (separates_entry _ Se) as En. rewrite <- Et in En.
  assert (Lp : p < length (rem st)) by (apply (f_equal (@length N)) in Et; rewrite skipn_length in Et; cbn [length] in Et; lia).
  (* the end of the key *)
  assert (T1 : forall st1 k, bm k st st1 -> p < k -> pot st1 + 1 <= pot st ->
    forall f : str -> bool, wp (yaml_skip_line ;; yaml_blank_lines ;; let! r := get_rem in when (f r) (node i 0) ;; ret true)
      (fun b st' => if b then exists k, bm k st st' /\ 0 < k /\ pot st' + 1 <= pot st else st' = st) st1).
  { intros st1 k B K P f. pose proof (bm_len _ _ _ B). pose proof (bm_refl st1). y1. ycall0 y_skip_line. yb. y1. ycall0 y_blank_lines. yb. y1. y1. y1.
    match goal with HH : bm _ st1 _ |- _ => rename HH into B1 end. pose proof (bm_pot _ _ _ B1). y1.
    - eapply wp_mono; [apply I; lia|]. cbn beta. intros _ st2 (k2 & B2). pose proof (bm_pot _ _ _ B2). y1. exists (k + (0 + x + x0) + k2). split; [eapply bm_trans; [eapply bm_trans; [exact B|exact B1]|exact B2]|lia].
    - y1. eexists. split; [eapply bm_trans; [exact B|exact B1]|lia]. }
  assert (T2 : forall st3 k, mv k st st3 -> 0 < k -> p < k \/ rem st3 = skipn p (rem st) ->
    wp (let! r := get_rem in
    if starts_with r (bs "- ") || starts_with r (bs "? ") then
      yaml_skip_line ;;
      yaml_blank_lines ;;
      let! r := get_rem in
      when (match r with [] => false | c :: _ => negb (c =? 13)%N && negb (c =? 10)%N && (i <? yaml_indent r) end)
        (node i 0) ;;
      ret true
    else
      let block := starts_with_ch r (ch "|") || starts_with_ch r (ch ">") in
      when (match r with [] => false | c :: _ => negb (yaml_at_break r) && negb (c =? ch "#")%N end) (yaml_flow i false) ;;
      if block then ret true
      else
        yaml_skip_line ;;
        yaml_blank_lines ;;
        let! r := get_rem in
        when (match r with [] => false | _ => negb (yaml_at_break r) && (i <? yaml_indent r) end)
          (node i 0) ;;
        ret true) (fun b st' => if b then exists k, bm k st st' /\ 0 < k /\ pot st' + 1 <= pot st else st' = st) st3).
  { assert (Q : forall st3 k, mv k st st3 -> p < k -> bm k st st3 /\ pot st3 + 1 <= pot st).
    { intros s k M K. split; [apply mv_bm; exact M|]. unfold pot. rewrite (mv_rem _ _ _ M), (proj2 M). pose proof (entries_at p (rem st) En k K). lia. }
    intros st3 k M K C. y1. y1. y1.
    - destruct C as [C|C].
      + destruct (Q _ _ M C) as [B1 B2]. apply T1 with (k := k) (f := fun r => match r with [] => false | c :: _ => negb (c =? 13)%N && negb (c =? 10)%N && (i <? yaml_indent r) end); assumption.
      + exfalso. rewrite C, Et in *. discriminate.
    - cbv zeta. y1.
      assert (T3 : forall st4 k4, mv k4 st st4 -> p < k4 -> wp (if starts_with_ch (rem st3) (ch "|") || starts_with_ch (rem st3) (ch ">") then ret true
      else
        yaml_skip_line ;;
        yaml_blank_lines ;;
        let! r := get_rem in
        when (match r with [] => false | _ => negb (yaml_at_break r) && (i <? yaml_indent r) end)
          (node i 0) ;;
        ret true) (fun b st' => if b then exists k, bm k st st' /\ 0 < k /\ pot st' + 1 <= pot st else st' = st) st4).
      { intros st4 k4 M4 K4. destruct (Q _ _ M4 K4) as [B1 B2]. y1; [y1; exists k4; split; [exact B1|lia]|]. apply T1 with (k := k4) (f := fun r => match r with [] => false | _ => negb (yaml_at_break r) && (i <? yaml_indent r) end); assumption. }
      y1.
      + eapply wp_mono; [apply y_flow|]. cbn beta. intros _ st4 (k4 & M4 & G4). apply T3 with (k4 := k + k4); [eapply mv_trans; eassumption|]. destruct C as [C|C]; [lia|].
        assert (0 < k4). { apply G4. rewrite C, Et. exists (ch ":"), t. split; [reflexivity|]. split; [|cbn; intuition discriminate]. intros c t' [= <- <-]. repeat split; discriminate. }
        destruct (Nat.lt_ge_cases p (k + k4)) as [|Ge]; [assumption|exfalso]. apply mv_len in M. apply (f_equal (@length N)) in C. rewrite skipn_length in C. lia.
      + apply T3 with (k4 := k); [exact M|]. destruct C as [C|C]; [exact C|exfalso]. rewrite C, Et in *. match goal with HH : _ && _ = false |- _ => apply andb_false_iff in HH as [HH|HH]; [|discriminate] end.
        apply negb_false_iff in H0. apply at_break_iff in H0 as (? & ? & [= <- <-] & [|]); discriminate. }
  y1. unfold yaml_content. y1. y1. cbv zeta. destruct (trim_spec (rem st) p) as [Tr Tw]. set (m := yaml_trim (rem st) p) in *.
  assert (T4 : forall st1, mv m st st1 -> wp (emit_and_advance 1 hl_symbol_punc ;;
    let! r := get_rem in
    when (starts_with_ch r 32) (advance 1) ;;
    yaml_inline_space ;;
    let! r := get_rem in
    if starts_with r (bs "- ") || starts_with r (bs "? ") then
      yaml_skip_line ;;
      yaml_blank_lines ;;
      let! r := get_rem in
      when (match r with [] => false | c :: _ => negb (c =? 13)%N && negb (c =? 10)%N && (i <? yaml_indent r) end)
        (node i 0) ;;
      ret true
    else
      let block := starts_with_ch r (ch "|") || starts_with_ch r (ch ">") in
      when (match r with [] => false | c :: _ => negb (yaml_at_break r) && negb (c =? ch "#")%N end) (yaml_flow i false) ;;
      if block then ret true
      else
        yaml_skip_line ;;
        yaml_blank_lines ;;
        let! r := get_rem in
        when (match r with [] => false | _ => negb (yaml_at_break r) && (i <? yaml_indent r) end)
          (node i 0) ;;
        ret true) (fun b st' => if b then exists k, bm k st st' /\ 0 < k /\ pot st' + 1 <= pot st else st' = st) st1).
  { intros st1 M1. destruct (mv_len _ _ _ M1). y1. y1. match goal with HH : mv _ st _ |- _ => pose proof (mv_rem _ _ _ HH) as R2 end. y1. y1. y1. y1.
    - y1. match goal with HH : mv _ st _ |- _ => pose proof (mv_rem _ _ _ HH) as R3 end. y1. unfold yaml_inline_space. y1. y1. y1. match goal with HH : mv _ st _ |- _ => pose proof (mv_rem _ _ _ HH) as R4 end. eapply T2; [eassumption|lia|].
      destruct (Nat.lt_ge_cases (m + 1) p) as [C|C].
      + right. rewrite R4. f_equal. rewrite R3. rewrite (ws_to_colon _ p _ t); [lia|lia| |exact Et]. intros j Hj. apply Tw. lia.
      + destruct (Nat.eq_dec p (m + 1)) as [Z|Z]; [exfalso|left; lia]. rewrite R2, <- Z, Et in *. discriminate.
    - y1. unfold yaml_inline_space. y1. y1. y1. eapply T2; [eassumption|lia|].
      destruct (Nat.lt_ge_cases p (m + 1)) as [C|C]; [left; lia|right]. match goal with HH : mv _ st ?s |- rem ?s = _ => rewrite (mv_rem _ _ _ HH) end. f_equal. rewrite R2. rewrite (ws_to_colon _ p _ t); [lia|lia| |exact Et]. intros j Hj. apply Tw. lia. }
  start st. y1.
  - y1. apply T4. assumption.
  - apply T4. bool_hyps. replace m with 0 by lia. apply mv_refl.
Qed.
Lemma y_compact n node i st : block_spec n node -> length (rem st) < n -> pot st <= 64 -> wp (yaml_compact node i) (fun _ st' => exists k, bm k st st') st.
Proof.
  intros I L Pt. unfold yaml_compact. y1. y1. y1; [y1; exists 0; apply bm_refl|]. y1; [apply I; lia|]. y1. eapply wp_mono; [apply (y_key n); [exact I|lia|exact Pt]|]. cbn beta. intros [|] st'.
  - intros (k & B & _). y1. eauto.
  - intros ->. eapply wp_mono; [apply y_flow|]. cbn beta. intros _ st' (k & M & _). exists k. apply mv_bm. exact M.
Qed.
Lemma y_push i st : length (loc st) < 64 -> wp (yaml_push i) (fun _ st' => steps anyy 0 st st' /\ pot st' <= pot st + 1) st.
Proof.
  intros H. unfold yaml_push. y1. y1. y1. apply wp_check; [apply Nat.ltb_lt; exact H|]. apply (wp_set_loc anyy). intros st' S R Lc. split; [exact S|]. unfold pot. rewrite R, Lc. cbn [length]. lia.
Qed.
Definition marker (r : str) : bool := starts_with r (bs "---") || starts_with r (bs "...").
Lemma pop_le n l : length (yaml_pop n l) <= length l.
Proof. induction l as [|x l IH]; cbn [yaml_pop length]; [lia|]. destruct (n <=? x); cbn [length]; lia. Qed.
Lemma y_skip_line_pos st : rem st <> [] -> wp yaml_skip_line (fun _ st' => exists k, mv k st st' /\ 0 < k) st.
Proof.
  intros H. start st. unfold yaml_skip_line. y1. y1. y1. y1. destruct (until_pos _ H) as [P|P].
  - ycall0 y_skip_break. yfin.
  - ycall y_skip_break_pos; [|yfin]. destruct (rem st) as [|c t] eqn:E; [contradiction|]. cbn [yaml_until_break] in *. rewrite P in *. cbn [skipn] in *. congruence.
Qed.
Lemma ch_of_str c p r : starts_with r (c :: p) = true -> starts_with_ch r c = true.
Proof. intros H. apply starts_with_app in H as [t ->]. apply N.eqb_refl. Qed.
Lemma fresh_has_node r : fresh r -> r <> [] -> yaml_has_node r = true.
Proof.
  intros F Ne. destruct r as [|c t]; [contradiction|]. destruct (F c t eq_refl) as (F1 & F2 & F3 & F4). cbn [yaml_has_node]. rewrite (proj2 (N.eqb_neq c (ch "#")) F2). cbn [negb andb]. rewrite andb_true_r. apply negb_true_iff.
  destruct (yaml_at_break (c :: t)) eqn:B; [|reflexivity]. apply at_break_iff in B as (? & ? & [= <- <-] & [|]); congruence.
Qed.
Lemma fresh_indent r : fresh r -> yaml_indent r = 0.
Proof.
  intros F. destruct r as [|c t]; [reflexivity|]. destruct (F c t eq_refl) as (F1 & _). unfold yaml_indent. rewrite length_if_eq. cbn [prefix_len]. destruct (N.eqb_spec 32 c) as [<-|]; [discriminate|reflexivity].
Qed.
Lemma y_block_body n node eff st : block_spec n node -> length (rem st) <= n -> pot st <= 64 ->
  wp (yaml_block_body node eff tt) (fun r st' => exists k, bm k st st' /\ match r with inl _ => 0 < k | inr _ => loc st = [] -> fresh (rem st) -> rem st <> [] -> marker (rem st) = false -> 0 < k end) st.
Proof.
  intros I L Pt. pose proof (bm_refl st). unfold yaml_block_body. y1. y1; [y1; exists 0; split; [apply bm_refl|congruence]|]. y1. ycall0 y_blank_lines.
  assert (Lo : loc st' = loc st) by (match goal with HH : mv _ _ st' |- _ => apply HH end). yb. y1. y1.
  { y1. eexists. split; [eassumption|]. intros _ _ Ne _. match goal with HH : rem st' = [] |- _ => apply (f_equal (@length N)) in HH end. destruct (rem st); [contradiction|]. cbn [length] in *. lia. }
  y1. y1. cbv zeta. y1.
  { y1. eexists. split; [eassumption|]. intros _ _ _ M. destruct x; [exfalso|lia]. cbn [skipn] in *. unfold marker in M. match goal with HH : _ && _ = true |- _ => apply andb_prop in HH as [_ HH] end. congruence. }
  y1. y1. y1.
  { y1. apply (wp_set_loc anyy). intros st2 S R Lc. y1. exists (0 + x + 0). split.
    - eapply bm_trans; [eassumption|]. split; [exact S|]. unfold pot. rewrite R, Lc. pose proof (pop_le (yaml_indent (rem st')) (loc st')). lia.
    - intros Le. match goal with HH : _ && match loc st' with _ => _ end = true |- _ => rewrite Lo, Le, andb_false_r in HH; discriminate end. }
  y1. unfold yaml_consume_indent. y1. y1. rewrite Nat.min_id. y1. yb. set (i := yaml_indent (rem st')) in *.
  match goal with HH : bm _ st _ |- _ => rename HH into B0 end. pose proof (bm_pot _ _ _ B0) as P0. y1. y1. y1.
  { y1. match goal with |- wp _ _ ?s => rename s into s2 end.
    assert (1 <= length (rem s2)) by (destruct (rem s2); [discriminate|cbn; lia]). y1. yb. y1. ycall0 y_space'. yb. y1. y1. y1.
    assert (T : forall s4 k, bm k st s4 -> 0 < k -> wp (yaml_skip_line ;;
            yaml_space ;;
            let! r := get_rem in
            when (starts_with r (bs ": "))
              (yaml_consume_indent i ;;
               emit_and_advance 1 hl_symbol_punc ;;
               yaml_space ;;
               let! r := get_rem in
               (if yaml_has_node r then node i 0 else yaml_skip_line ;; node i 0)) ;;
            ret (inl tt)) (fun (r : unit + unit) st' => exists k, bm k st st' /\ match r with inl _ => 0 < k | inr _ => loc st = [] -> fresh (rem st) -> rem st <> [] -> marker (rem st) = false -> 0 < k end) s4).
    { clear - I L Pt. intros s4 k B K. pose proof (bm_len _ _ _ B). y1. ycall0 y_skip_line. yb. y1. ycall0 y_space'. yb. y1. y1. y1. y1; [|y1; yfin].
      match goal with |- wp _ _ ?s => assert (Cn : exists t, rem s = 58%N :: t) by (match goal with HH : starts_with _ _ = true |- _ => apply starts_with_app in HH as [t ->] end; cbn; eauto) end.
      destruct Cn as (t & Cn). y1. unfold yaml_consume_indent. y1. y1. y1. yb.
      match goal with HH : rem ?s = skipn (Nat.min i _) _ |- _ => assert (E4 : rem s = 58%N :: t) by (rewrite HH, Cn; unfold yaml_indent; rewrite length_if_eq; cbn [prefix_len N.eqb Pos.eqb]; rewrite Nat.min_0_r; reflexivity); assert (1 <= length (rem s)) by (rewrite E4; cbn; lia) end.
      y1. y1. yb. y1. ycall0 y_space'. yb. y1. y1.
      match goal with HH : bm _ st _ |- _ => pose proof (bm_pot _ _ _ HH) end. y1.
      - eapply wp_mono; [apply I; lia|]. cbn beta. intros _ s6 (k6 & B6). yb. y1. yfin.
      - y1. ycall0 y_skip_line. yb. match goal with HH : bm _ st _ |- _ => pose proof (bm_pot _ _ _ HH) end. eapply wp_mono; [apply I; lia|]. cbn beta. intros _ s6 (k6 & B6). yb. y1. yfin. }
    y1.
    - ycall y_flow. yb. eapply T; [eassumption|lia].
    - eapply T; [eassumption|lia]. }
  y1.
  { y1. match goal with |- wp _ _ ?s => rename s into s2 end. assert (1 <= length (rem s2)) by (destruct (rem s2); [discriminate|cbn; lia]). y1.
    match goal with HH : mv 1 s2 ?s |- _ => assert (P1 : pot s + 1 <= pot s2) end.
    { unfold pot. match goal with HH : mv 1 s2 ?s |- _ => rewrite (mv_rem _ _ _ HH), (proj2 HH) end. enough (entries (skipn 1 (rem s2)) + 1 <= entries (rem s2)) by lia. apply entries_at with (p := 0); [|lia].
      match goal with HH : starts_with _ _ = true |- _ => apply starts_with_app in HH as [t ->] end. reflexivity. }
    yb. match goal with HH : bm _ st ?s |- _ => rename HH into B1; rename s into s3; pose proof (bm_refl s3) end. y1. y1. y1.
    assert (T : forall s4 k4, bm k4 s3 s4 -> wp (yaml_space ;;
            let! r := get_rem in
            when (yaml_has_node r) (yaml_compact node (i + 1)) ;;
            let! r := get_rem in
            when (yaml_at_break r) yaml_skip_line ;;
            yaml_push i ;;
            node i 0 ;;
            ret (inl tt)) (fun (r : unit + unit) st' => exists k, bm k st st' /\ match r with inl _ => 0 < k | inr _ => loc st = [] -> fresh (rem st) -> rem st <> [] -> marker (rem st) = false -> 0 < k end) s4).
    { intros s4 k4 B4.
      assert (T2 : forall s5 k5, bm k5 s3 s5 -> wp (yaml_push i ;; node i 0 ;; ret (inl tt)) (fun (r : unit + unit) st' => exists k, bm k st st' /\ match r with inl _ => 0 < k | inr _ => loc st = [] -> fresh (rem st) -> rem st <> [] -> marker (rem st) = false -> 0 < k end) s5).
      { clear - I L Pt B1 P0 P1 H0. intros s5 k5 B5. pose proof (bm_pot _ _ _ B5). y1. eapply wp_mono; [apply y_push; unfold pot in *; lia|]. cbn beta. intros _ s6 [S6 P6]. y1.
        pose proof (bm_len _ _ _ B1). pose proof (bm_len _ _ _ B5). pose proof (steps_len _ _ _ _ S6).
        eapply wp_mono; [apply I; lia|]. cbn beta. intros _ s7 (k7 & B7). pose proof (bm_pot _ _ _ B7). y1. eexists. split; [split; [eapply steps_trans; [apply B1|]; eapply steps_trans; [apply B5|]; eapply steps_trans; [exact S6|apply B7]|lia]|lia]. }
      pose proof (bm_len _ _ _ B1). pose proof (bm_len _ _ _ B4). clear H. y1. ycall0 y_space'. yb. y1. y1. y1. match goal with HH : bm _ s3 ?s |- _ => pose proof (bm_pot _ _ _ HH) end. y1.
      - eapply wp_mono; [apply (y_compact n); [exact I|lia|lia]|]. cbn beta. intros _ s6 (k6 & B6). yb. y1. y1. y1. y1; [ycall0 y_skip_line; yb|]; (eapply T2; eassumption).
      - y1. y1. y1. y1; [ycall0 y_skip_line; yb|]; (eapply T2; eassumption). }
    y1; [y1; yb|]; (eapply T; eassumption). }
  y1.
  { y1. match goal with |- wp _ _ ?s => rename s into s2 end. ycall y_block_scalar.
    - repeat match goal with HH : _ || _ = true |- _ => apply orb_prop in HH as [HH|HH] | HH : _ && _ = true |- _ => apply andb_prop in HH as [HH _] end;
      match goal with HH : starts_with _ _ = true |- _ =>
        first [apply (ch_of_str (ch "|") [32]%N) in HH|apply (ch_of_str (ch ">") [32]%N) in HH|apply (ch_of_str (ch "|") []) in HH|apply (ch_of_str (ch ">") []) in HH]; rewrite HH, ?orb_true_r; reflexivity end.
    - yb. y1. yfin. }
  y1. eapply wp_mono; [apply (y_key n); [exact I|lia|lia]|]. cbn beta. intros [|] s3.
  { intros (k3 & B3 & K3 & P3). y1. eapply wp_mono; [apply y_push; unfold pot in *; lia|]. cbn beta. intros _ s4 [S4 P4]. y1. eexists. split; [eapply bm_trans; [exact B0|]; split; [eapply steps_trans; [apply B3|exact S4]|lia]|lia]. }
  intros ->. y1. y1. y1.
  { y1. match goal with |- wp _ _ ?s => rename s into s2 end. assert (Ne : rem s2 <> []) by (destruct (rem s2); discriminate). ycall y_flow. y1. destruct x0 as [|x0].
    - ycall y_skip_line_pos.
      + match goal with HH : mv 0 s2 _ |- _ => apply mv_rem in HH; cbn [skipn] in HH; congruence end.
      + repeat yb. y1. yfin.
    - ycall0 y_skip_line. repeat yb. y1. yfin. }
  y1. eexists. split; [exact B0|]. intros _ F Ne _. destruct x as [|x]; [exfalso|lia]. cbn [skipn] in *.
  assert (R1 : rem st' = rem st) by assumption. assert (Z : i = 0) by (unfold i; rewrite R1; apply fresh_indent; exact F). rewrite Z in *. cbn [skipn] in *.
  match goal with HH : yaml_has_node ?r = false |- _ => replace r with (rem st) in HH by congruence; rewrite (fresh_has_node _ F Ne) in HH; discriminate end.
Qed.
Lemma y_block_node fuel : forall i o st, length (rem st) < fuel -> pot st <= 64 ->
  wp (yaml_block_node fuel i o) (fun _ st' => exists k, bm k st st' /\ (loc st = [] -> fresh (rem st) -> rem st <> [] -> marker (rem st) = false -> 0 < k)) st.
Proof.
  induction fuel as [|fuel IH]; intros i o st L Pt; [lia|]. cbn [yaml_block_node].
  apply wp_hloop with (Inv := fun _ st1 => exists k, bm k st st1 /\ (k = 0 -> st1 = st)) (mu := fun _ st1 => length (rem st1)).
  - exists 0. split; [apply bm_refl|reflexivity].
  - lia.
  - intros [] st1 (k & B & Z). pose proof (bm_len _ _ _ B). pose proof (bm_pot _ _ _ B). eapply wp_mono; [apply (y_block_body fuel)|].
    + intros i' o' s Ls Ps. eapply wp_mono; [apply IH; assumption|]. cbn beta. intros _ s' (k' & B' & _). eauto.
    + lia.
    + lia.
    + cbn beta. intros [u|u] st2 (k2 & B2 & K2).
      * pose proof (bm_len _ _ _ B2). split; [|lia]. exists (k + k2). split; [eapply bm_trans; eassumption|lia].
      * exists (k + k2). split; [eapply bm_trans; eassumption|]. intros A1 A2 A3 A4. destruct k as [|k]; [|lia]. rewrite (Z eq_refl) in *. specialize (K2 A1 A2 A3 A4). lia.
Qed.

(** ** Documents *)
Lemma y_prefix : moves yaml_prefix.
Proof.
  intros st. eapply wp_mono; [apply rounds_y with (R := fun _ _ => True)|intros _ st'' (j & Hj & _); eauto]. intros k1 st1 _. start st1. y1. y1; [y1; yfin|]. y1. ycall0 y_space'. y1. y1; [y1; yfin|]. y1.
  match goal with |- wp _ _ ?s => assert (Ne : rem s <> []) by assumption end. ycall y_comment_or_blank. y1. destruct a0; yfin. match goal with HH : true = true -> _ |- _ => destruct (HH eq_refl) end; [lia|congruence].
Qed.
Lemma y_suffix st : wp yaml_suffix (fun _ st' => exists k, mv k st st' /\ (starts_with (rem st) (bs "...") = true -> 0 < k)) st.
Proof.
  assert (B : forall st, wp ((fun _ : unit =>
    let! e := eof in
    if e then ret (inr tt)
    else
      yaml_space ;;
      let! r := get_rem in
      if starts_with r (bs "...") && (yaml_indent r =? 0)
      then emit_and_advance 3 hl_symbol_punc ;; yaml_skip_line ;; ret (inl tt)
      else if starts_with r (bs "---") && (yaml_indent r =? 0)
      then emit_and_advance 3 hl_symbol_punc ;; yaml_skip_line ;; ret (inr tt)
      else ret (inr tt)) tt) (fun r st' => exists k, mv k st st' /\ match r with inl _ => 0 < k | inr _ => starts_with (rem st) (bs "...") = true -> 0 < k end) st).
  { clear st. intros st. start st. y1. y1; [y1; yfin|]. y1. ycall y_space. y1. y1. y1.
    - match goal with HH : _ && _ = true |- _ => apply andb_prop in HH as [HH _] end. y1. y1. y1. ycall0 y_skip_line. y1. yfin.
    - y1.
      + match goal with HH : _ && _ = true |- _ => apply andb_prop in HH as [HH _] end. y1. y1. y1. ycall0 y_skip_line. y1. yfin.
      + y1. yfin. intros E. destruct x; [exfalso|lia]. cbn [skipn] in *. match goal with HH : _ = rem st |- _ => rewrite HH in * end. match goal with HH : starts_with _ (bs "...") && _ = false |- _ => rewrite E, fresh_indent in HH by assumption; discriminate end. }
  apply wp_hloop with (Inv := fun _ st1 => exists k, mv k st st1 /\ (k = 0 -> st1 = st)) (mu := fun _ st1 => length (rem st1)).
  - exists 0. split; [apply mv_refl|reflexivity].
  - lia.
  - intros [] st1 (k & M & Z). pose proof (mv_len _ _ _ M). eapply wp_mono; [apply B|]. cbn beta. intros [u|u] st2 (k2 & M2 & K2).
    + pose proof (mv_len _ _ _ M2). split; [|lia]. exists (k + k2). split; [eapply mv_trans; eassumption|lia].
    + exists (k + k2). split; [eapply mv_trans; eassumption|]. intros A. destruct k as [|k]; [|lia]. rewrite (Z eq_refl) in *. specialize (K2 A). lia.
Qed.
Lemma y_directive st : starts_with_ch (rem st) (ch "%") = true -> wp yaml_directive (fun _ st' => exists k, mv k st st' /\ 0 < k) st.
Proof.
  intros H. start st. unfold yaml_directive. y1. y1. y1. y1. y1. y1. y1. y1. cbv zeta. y1.
  assert (T : forall st1 k, mv k st st1 -> 0 < k -> wp (hloop 1 (fun _ : unit =>
    let! r := get_rem in
    match r with
    | [] => ret (inr tt)
    | c :: _ =>
      if yaml_at_break r then ret (inr tt)
      else if is_yaml_whitespace c then advance 1 ;; ret (inl tt)
      else emit_and_advance 1 hl_string ;; ret (inl tt)
    end) tt ;;
  yaml_skip_line) (fun _ st' => exists k, mv k st st' /\ 0 < k) st1).
  { intros st1 k M K. y1. eapply wp_mono; [apply rounds_y with (R := fun _ _ => True)|intros _ st'' (j & Hj & _); ym; ycall0 y_skip_line; yfin]. clear. intros k1 st2 _. start st2. yy; yfin. }
  y1; [y1|]; (eapply T; [eassumption|lia]).
Qed.
Lemma y_directives st : wp yaml_directives (fun _ st' => exists k, mv k st st' /\ (starts_with_ch (rem st) (ch "%") = true -> fresh (rem st) -> 0 < k)) st.
Proof.
  assert (B : forall st, wp ((fun _ : unit =>
    let! e := eof in
    if e then ret (inr tt)
    else
      yaml_space ;;
      let! r := get_rem in
      if starts_with_ch r (ch "%") then yaml_directive ;; ret (inl tt) else ret (inr tt)) tt) (fun r st' => exists k, mv k st st' /\ match r with inl _ => 0 < k | inr _ => starts_with_ch (rem st) (ch "%") = true -> 0 < k end) st).
  { clear st. intros st. start st. y1. y1; [y1; yfin|]. y1. ycall y_space. y1. y1. y1.
    - y1. ycall y_directive; [assumption|]. y1. yfin.
    - y1. yfin. intros E. destruct x; [exfalso|lia]. cbn [skipn] in *. congruence. }
  apply wp_hloop with (Inv := fun _ st1 => exists k, mv k st st1 /\ (k = 0 -> st1 = st)) (mu := fun _ st1 => length (rem st1)).
  - exists 0. split; [apply mv_refl|reflexivity].
  - lia.
  - intros [] st1 (k & M & Z). pose proof (mv_len _ _ _ M). eapply wp_mono; [apply B|]. cbn beta. intros [u|u] st2 (k2 & M2 & K2).
    + pose proof (mv_len _ _ _ M2). split; [|lia]. exists (k + k2). split; [eapply mv_trans; eassumption|lia].
    + exists (k + k2). split; [eapply mv_trans; eassumption|]. intros A _. destruct k as [|k]; [|lia]. rewrite (Z eq_refl) in *. specialize (K2 A). lia.
Qed.
Lemma y_document st : entries (rem st) <= 64 ->
  wp yaml_document (fun _ st' => exists k, steps anyy k st st' /\ (rem st <> [] -> 0 < k \/ starts_with (rem st') (bs "...") = true)) st.
Proof.
  intros En. unfold yaml_document. apply wp_bind. apply (wp_set_loc anyy). intros st0 S0 R0 L0. rewrite <- R0 in *.
  enough (W : wp (yaml_space ;;
  let! e := eof in
  if e then ret tt
  else
    let! r := get_rem in
    let indent := yaml_indent r in
    when ((indent =? 0) && starts_with r (bs "---"))
      (emit_and_advance 3 hl_symbol_punc ;; yaml_skip_line ;; yaml_space) ;;
    let! r := get_rem in
    when ((indent =? 0) && starts_with_ch r (ch "%"))
      (yaml_directives ;;
       yaml_space ;;
       let! r := get_rem in
       when (starts_with r (bs "---")) (emit_and_advance 3 hl_symbol_punc ;; yaml_skip_line ;; yaml_space)) ;;
    yaml_body) (fun _ st' => exists k, bm k st0 st' /\ (rem st0 <> [] -> 0 < k \/ starts_with (rem st') (bs "...") = true)) st0).
  { eapply wp_mono; [exact W|]. cbn beta. intros _ st' (k & B & G). exists k. split; [|exact G]. apply (steps_eq anyy (0 + k)); [|reflexivity]. eapply steps_trans; [exact S0|apply B]. }
  start st0.
  assert (T : forall st1 k, mv k st0 st1 -> (0 < k \/ fresh (rem st1) /\ rem st1 <> [] /\ starts_with (rem st1) (bs "---") = false) ->
    wp yaml_body (fun _ st' => exists k, bm k st0 st' /\ (rem st0 <> [] -> 0 < k \/ starts_with (rem st') (bs "...") = true)) st1).
  { intros st1 k M K. unfold yaml_body. pose proof (bm_pot _ _ _ (mv_bm _ _ _ M)) as P. assert (P0 : pot st0 <= 64) by (unfold pot; rewrite L0; exact En). y1. y1.
    - y1. exists k. split; [apply mv_bm; exact M|]. intros _. left. destruct K as [K|(_ & K & _)]; [exact K|contradiction].
    - y1. y1. eapply wp_mono; [apply y_block_node; lia|]. cbn beta. intros _ st2 (k2 & B2 & G2). exists (k + k2). split; [eapply bm_trans; [apply mv_bm; exact M|exact B2]|]. intros _. destruct K as [K|(K1 & K2 & K3)]; [left; lia|].
      destruct (marker (rem st1)) eqn:Mk.
      + unfold marker in Mk. rewrite K3 in Mk. cbn [orb] in Mk. destruct k2 as [|k2]; [right|left; lia]. rewrite (steps_rem _ _ _ _ (proj1 B2)). exact Mk.
      + left. specialize (G2 ltac:(rewrite (proj2 M); exact L0) K1 K2 eq_refl). lia. }
  y1. ycall y_space. y1. y1.
  { y1. eexists. split; [apply mv_bm; eassumption|]. intros Ne. left. match goal with HH : rem st' = [] |- _ => apply (f_equal (@length N)) in HH end. destruct (rem st0); [contradiction|]. cbn [length] in *. lia. }
  y1. y1. cbv zeta. y1.
  match goal with |- context [yaml_indent (rem st')] => assert (Zi : yaml_indent (rem st') = 0) by (apply fresh_indent; assumption); rewrite Zi end. cbn [Nat.eqb andb].
  assert (T2 : forall st1 k, mv k st0 st1 -> (0 < k \/ starts_with (rem st1) (bs "---") = false /\ rem st1 <> []) -> fresh (rem st1) -> wp (let! r := get_rem in
    when (starts_with_ch r (ch "%"))
      (yaml_directives ;;
       yaml_space ;;
       let! r := get_rem in
       when (starts_with r (bs "---")) (emit_and_advance 3 hl_symbol_punc ;; yaml_skip_line ;; yaml_space)) ;;
    yaml_body) (fun _ st' => exists k, bm k st0 st' /\ (rem st0 <> [] -> 0 < k \/ starts_with (rem st') (bs "...") = true)) st1).
  { clear - T. intros st1 k M K F. y1. y1. y1. y1.
    - y1. ycall y_directives. match goal with HH : _ -> fresh _ -> _ |- _ => specialize (HH ltac:(assumption) F) end. y1. ycall0 y_space'. y1. y1. y1.
      + y1. y1. y1. ycall0 y_skip_line. ycall0 y_space'. eapply T; [eassumption|lia].
      + eapply T; [eassumption|lia].
    - eapply T; [eassumption|]. destruct K as [K|[K1 K2]]; [left; exact K|right; auto]. }
  y1.
  - y1. y1. y1. ycall0 y_skip_line. ycall y_space. eapply T2; [eassumption|lia|assumption].
  - eapply T2; [eassumption|right; split; assumption|assumption].
Qed.

(** ** Results *)
Theorem C137_yaml_partial : forall src, entries src <= 64 -> highlights highlight_yaml src.
Proof.
  intros src En. apply highlights_from_ops. intros strict. unfold highlight_yaml. apply (run_ok anyy). apply wp_bind. set (st0 := mk_hst src 0 [] _). eapply wp_mono; [apply y_prefix|]. cbn beta. intros _ st1 (k1 & M1 & _). apply wp_bind.
  assert (W : wp (while_rem (yaml_document ;; let! e := eof in if e then ret tt else yaml_suffix)) (fun _ st' => exists k, steps anyy k st0 st') st1).
  { unfold while_rem. apply wp_hloop with (Inv := fun _ st => exists k, steps anyy k st0 st) (mu := fun _ st1 => length (rem st1)).
    - eauto.
    - lia.
    - intros [] st2 (k2 & S2). apply wp_bind. apply wp_eof; intros Er; [apply wp_ret; eauto|]. apply wp_bind. apply wp_bind. eapply wp_mono; [apply y_document|].
      + rewrite (steps_rem _ _ _ _ S2). cbn [rem st0]. pose proof (entries_skipn k2 src). lia.
      + cbn beta. intros _ st3 (k3 & S3 & K3). pose proof (steps_len _ _ _ _ S3). pose proof (steps_trans _ _ _ _ _ _ S2 S3). apply wp_bind. apply wp_eof; intros Er3.
        * apply wp_ret. apply wp_ret. split; [eauto|]. rewrite Er3. destruct (rem st2); [contradiction|cbn; lia].
        * eapply wp_mono; [apply y_suffix|]. cbn beta. intros _ st4 (k4 & [S4 _] & K4). pose proof (steps_len _ _ _ _ S4). apply wp_ret. split; [exists (k2 + k3 + k4); eapply steps_trans; eassumption|]. destruct (K3 Er) as [|D]; [lia|]. specialize (K4 D). lia. }
  eapply wp_mono; [exact W|]. intros [] st' (k & S1). apply wp_ret. split; [reflexivity|eauto].
Qed.
Print Assumptions C137_yaml_partial.
(** What is missing: the highlighter fails for documents with more than 64 entries. *)
Fixpoint times (n : nat) (s : str) : str := match n with 0 => [] | S n => s ++ times n s end.
Theorem C137_yaml_refuted : ~ always_highlights highlight_yaml.
Proof.
  intros H. destruct (H (times 65 (bs "a: 1" ++ [10%N])) false false 1 ltac:(lia)) as (ops & chunks & E & _). vm_compute in E. discriminate.
Qed.
Print Assumptions C137_yaml_refuted.
Example C137_case : entries (bs "a: [1, 'b']" ++ 10%N :: bs "c: d") = 2 /\ exists ops, highlight_yaml (bs "a: [1, 'b']" ++ 10%N :: bs "c: d") false = Ok (true, ops) /\ length ops = 12.
Proof. split; [reflexivity|]. eexists. split; [vm_compute; reflexivity|reflexivity]. Qed.
