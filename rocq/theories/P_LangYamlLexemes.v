(** * Exact tokens of YAML documents *)
From Coq Require Import List NArith ZArith Bool Arith Lia.
From Verif Require Import M_Base L_Base S_Tokens M_Utf8 L_Utf8 P_Utf8 M_Emit S_Ops L_Emit M_Types M_Chars S_Chars P_Chars M_Parse S_Parse L_Parse P_Parse
  M_Api M_Highlighter S_Highlight L_Highlighter P_LangCpp L_Auto M_Lang M_LangYaml P_LangYaml S_Lexemes L_Lexemes L_Does L_Number L_Escapes L_Scan L_Comments S_LangYamlLexemes.
Import ListNotations.

(** ** Loops *)
Lemma does_unroll {S A B} (body : A -> M S (A + B)) a a1 s s1 s' p q rest b : does (body a) s p (text q ++ rest) (inl a1) s1 -> text p <> [] ->
  does (hloop 1 body a1) s1 q rest b s' -> does (hloop 1 body a) s (p ++ q) rest b s'.
Proof.
  intros H N G i o. apply wp_unroll. rewrite text_app, <- app_assoc. eapply wp_mono; [apply H|]. cbn beta. intros ? ? [-> ->]. cbn [rem]. split.
  - rewrite (app_length (text p)). destruct (text p); [congruence|]. cbn [length]. lia.
  - eapply wp_mono; [apply G|]. cbn beta. intros ? ? [-> ->]. split; [reflexivity|]. rewrite tokens_app, rev_app_distr, app_length, Nat.add_assoc, <- app_assoc. reflexivity.
Qed.
Lemma does_stop {S A B} (body : A -> M S (A + B)) a s s' p rest b : does (body a) s p rest (inr b) s' -> does (hloop 1 body a) s p rest b s'.
Proof. intros H i o. apply wp_unroll. eapply wp_mono; [apply H|]. cbn beta. intros ? ? [-> ->]. split; reflexivity. Qed.
Lemma does_drop {S A} (m : M S A) s p rest x s' : does m s p rest x s' -> does m s (([], None) :: p) rest x s'.
Proof. apply does_same; try reflexivity; intros i; cbn [tokens length]; rewrite Nat.add_0_r; reflexivity. Qed.
Lemma does_add {S A} (m : M S A) s p rest x s' : does m s (([], None) :: p) rest x s' -> does m s p rest x s'.
Proof. apply does_same; try reflexivity; intros i; cbn [tokens length]; rewrite Nat.add_0_r; reflexivity. Qed.
Lemma does_none {S} s rest : does (S := S) (ret tt) s [] rest tt s.
Proof. apply does_ret. Qed.

(** ** Characters *)
Lemma breaks c t : yaml_at_break (c :: t) = (c =? 13)%N || (c =? 10)%N.
Proof.
  destruct ((c =? 13)%N || (c =? 10)%N) eqn:E.
  - apply at_break_iff. exists c, t. split; [reflexivity|]. apply orb_prop in E as [E|E]; apply N.eqb_eq in E; auto.
  - destruct (yaml_at_break (c :: t)) eqn:F; [|reflexivity]. apply at_break_iff in F as (? & ? & [= <- <-] & [-> | ->]); discriminate.
Qed.
Lemma newline_len w rest : newline w rest -> yaml_match_line_break (w ++ rest) = length w /\ w <> [].
Proof.
  unfold newline. intros [->|[->|[-> N]]]; (split; [|discriminate]); cbn [app]; [reflexivity|reflexivity|]. unfold yaml_match_line_break. destruct rest as [|c t]; [reflexivity|]. cbn [starts_with starts_with_ch].
  specialize (N c eq_refl). cbn beta in N. destruct (N.eqb_spec c 10); [congruence|]. reflexivity.
Qed.
Lemma newline_at w rest : newline w rest -> yaml_at_break (w ++ rest) = true.
Proof. intros H. destruct (newline_len _ _ H) as [E Ne]. unfold yaml_at_break. rewrite E. destruct w; [congruence|]. reflexivity. Qed.
Lemma newline_head w rest : newline w rest -> exists c t, w = c :: t /\ line_break c.
Proof. intros [->|[->|[-> _]]]; eexists _, _; (split; [reflexivity|]); unfold line_break; auto. Qed.
(** What follows a value on its line *)
Definition at_line_end (r : str) : Prop := r = [] \/ exists c t, r = c :: t /\ line_break c.
Lemma line_end_at w rest : line_ends w rest -> at_line_end (w ++ rest).
Proof. intros [H|[-> ->]]; [right|left; reflexivity]. destruct (newline_head _ _ H) as (c & t & -> & B). exists c, (t ++ rest). split; [reflexivity|exact B]. Qed.
Lemma line_end_value r : at_line_end r -> value_end r.
Proof. intros [->|(c & t & -> & B)]; intros x; cbn [hd_error]; [discriminate|]. intros [= <-] H. apply H. unfold line_break in B. cbn. intuition. Qed.
Lemma until_exact c rest : same_line c -> at_line_end rest -> yaml_until_break (c ++ rest) = length c.
Proof.
  induction 1 as [|x c Hx F IH]; intros R; cbn [app length].
  - destruct R as [->|(y & t & -> & [-> | ->])]; [reflexivity| |]; cbn [yaml_until_break]; rewrite breaks; reflexivity.
  - cbn [yaml_until_break]. rewrite breaks. unfold line_break in Hx. rewrite (proj2 (N.eqb_neq x 13)), (proj2 (N.eqb_neq x 10)) by tauto. cbn [orb]. f_equal. apply IH. exact R.
Qed.
Lemma does_break s w rest : newline w rest -> does yaml_skip_line_break s [(w, None)] rest tt s.
Proof. intros H. unfold yaml_skip_line_break. apply does_get. rewrite text_one. apply does_advance. apply newline_len. exact H. Qed.
Lemma does_line_end s w rest : line_ends w rest -> does yaml_skip_line s [(w, None)] rest tt s.
Proof.
  intros H. unfold yaml_skip_line. apply does_get. rewrite text_one. assert (E : yaml_until_break (w ++ rest) = 0) by (apply (until_exact [] (w ++ rest)); [constructor|apply line_end_at; exact H]). rewrite E.
  apply does_add. apply does_cons with (x := tt) (s1 := s); [apply does_advance; reflexivity|]. destruct H as [H|[-> ->]]; [apply does_break; exact H|]. apply does_drop. apply does_get. apply does_add. apply does_advance. reflexivity.
Qed.
Lemma does_comment s c rest : same_line c -> at_line_end rest -> does yaml_comment s ((bs "#", Some hl_comment_delim) :: opt_piece c hl_comment) rest tt s.
Proof.
  intros F R. unfold yaml_comment. apply does_get. apply does_check; [reflexivity|]. apply does_cons with (x := tt) (s1 := s); [apply does_emit; [reflexivity|discriminate]|].
  apply does_get. rewrite opt_piece_text. cbv zeta. rewrite until_exact by assumption. destruct c as [|x c]; [apply does_ret|]. cbn [length Nat.ltb Nat.leb when opt_piece]. apply does_emit; [reflexivity|discriminate].
Qed.

(** ** White space *)
Lemma white_exact w rest : Forall (fun c => c = 32 \/ c = 9)%N w -> not_before (fun c => c = 32 \/ c = 9)%N rest -> length_if (w ++ rest) is_yaml_whitespace = length w.
Proof.
  intros F R. rewrite length_if_eq. apply prefix_len_exact.
  - eapply Forall_impl; [|exact F]. cbn beta. intros c [-> | ->]; reflexivity.
  - eapply not_before_impl; [|exact R]. cbn beta. intros c H. unfold is_yaml_whitespace, mem in H. cbn [existsb] in H. destruct (N.eqb_spec 32 c), (N.eqb_spec 9 c), (N.eqb_spec c 32), (N.eqb_spec c 9); subst; auto; discriminate.
Qed.
Inductive space_run : list piece -> str -> Prop :=
| space_end w rest : Forall (fun c => c = 32 \/ c = 9)%N w -> fresh rest -> space_run [(w, None)] rest
| space_break w b p rest : Forall (fun c => c = 32 \/ c = 9)%N w -> newline b (text p ++ rest) -> space_run p rest -> space_run ((w, None) :: (b, None) :: p) rest
| space_comment w c p rest : Forall (fun c => c = 32 \/ c = 9)%N w -> same_line c -> at_line_end (text p ++ rest) -> space_run p rest ->
    space_run ((w, None) :: (bs "#", Some hl_comment_delim) :: opt_piece c hl_comment ++ p) rest.
Lemma fresh_white rest : fresh rest -> not_before (fun c => c = 32 \/ c = 9)%N rest.
Proof. intros F c E. destruct rest as [|x t]; [discriminate|]. injection E as <-. destruct (F x t eq_refl) as (W & _). intros [-> | ->]; discriminate. Qed.
Lemma fresh_no_hash rest : fresh rest -> starts_with_ch rest 35 = false.
Proof. intros F. destruct rest as [|x t]; [reflexivity|]. destruct (F x t eq_refl) as (_ & H & _). cbn [starts_with_ch]. apply N.eqb_neq. exact H. Qed.
Lemma fresh_no_break rest : fresh rest -> yaml_at_break rest = false.
Proof. intros F. destruct rest as [|x t]; [reflexivity|]. destruct (F x t eq_refl) as (_ & _ & H1 & H2). rewrite breaks, (proj2 (N.eqb_neq _ _) H1), (proj2 (N.eqb_neq _ _) H2). reflexivity. Qed.
Lemma does_space s p rest : space_run p rest -> does yaml_space s p rest tt s.
Proof.
  unfold yaml_space. induction 1 as [w rest F R|w b p rest F B H IH|w c p rest F C E H IH].
  - apply does_stop. unfold yaml_space_body. destruct (w ++ rest) as [|x u] eqn:Ew.
    + apply app_eq_nil in Ew as [-> ->]. apply does_drop. apply does_eof_end. apply does_ret.
    + apply does_eof; [rewrite text_one, Ew; discriminate|]. apply does_get. rewrite text_one, white_exact by (try apply fresh_white; assumption).
      eapply does_last with (x := tt) (s1 := s); [apply does_advance; reflexivity|]. apply does_get. cbn [text map concat app]. rewrite fresh_no_hash, fresh_no_break by exact R. apply does_ret.
  - change ((w, None) :: (b, None) :: p) with ([(w, None); (b, None)] ++ p). destruct (newline_head _ _ B) as (x & t & Eb & Hx). eapply does_unroll; [|rewrite text_cons, text_one, Eb; destruct w; discriminate|exact IH].
    unfold yaml_space_body. apply does_eof; [rewrite text_cons, text_one, Eb; destruct w; discriminate|]. apply does_get. rewrite text_cons, text_one, <- app_assoc.
    rewrite white_exact; [|assumption|rewrite Eb; apply not_before_cons; destruct Hx as [-> | ->]; lia]. apply does_cons with (x := tt) (s1 := s); [apply does_advance; reflexivity|]. apply does_get. rewrite text_one.
    assert (E2 : starts_with_ch (b ++ text p ++ rest) (ch "#") = false) by (rewrite Eb; destruct Hx as [-> | ->]; reflexivity). rewrite E2, (newline_at _ _ B). eapply does_last; [apply does_break; exact B|]. apply does_ret.
  - change ((w, None) :: (bs "#", Some hl_comment_delim) :: opt_piece c hl_comment ++ p) with (((w, None) :: (bs "#", Some hl_comment_delim) :: opt_piece c hl_comment) ++ p).
    eapply does_unroll; [|rewrite text_cons, text_cons; destruct w; discriminate|exact IH].
    unfold yaml_space_body. apply does_eof; [rewrite !text_cons; destruct w; discriminate|]. apply does_get. rewrite text_cons, <- app_assoc.
    rewrite white_exact; [|assumption|apply not_before_cons; cbn; lia]. apply does_cons with (x := tt) (s1 := s); [apply does_advance; reflexivity|]. apply does_get. rewrite text_cons. cbn [app starts_with_ch bs].
    eapply does_last; [apply does_comment; assumption|]. apply does_ret.
Qed.
Lemma gap_run w rest : yaml_gap w -> fresh rest -> exists p, space_run p rest /\ text p = w /\ forall i, tokens i p = [].
Proof.
  intros G R. enough (H : forall n w, length w <= n -> yaml_gap w -> exists p, space_run p rest /\ text p = w /\ forall i, tokens i p = []) by (apply (H (length w)); auto).
  clear w G. induction n as [|n IH]; intros w L G.
  - destruct w; [|cbn in L; lia]. exists [([], None)]. split; [constructor; [constructor|exact R]|]. auto.
  - assert (D : exists a b, w = a ++ b /\ Forall (fun c => c = 32 \/ c = 9)%N a /\ (b = [] \/ exists c t, b = c :: t /\ line_break c)).
    { clear L. induction G as [|c w Hc G (a & b & -> & Fa & Hb)]; [exists [], []; auto|].
      destruct Hc as [E|[E|Hc]]; [exists (c :: a), b; auto|exists (c :: a), b; auto|]. exists [], (c :: a ++ b). split; [reflexivity|]. split; [constructor|]. right. exists c, (a ++ b). split; [reflexivity|]. unfold line_break. tauto. }
    destruct D as (a & b & -> & Fa & [->|(c & t & -> & Hc)]).
    + exists [(a, None)]. rewrite app_nil_r, text_one. split; [constructor; assumption|auto].
    + unfold yaml_gap in G. apply Forall_app in G as [_ G]. inversion G as [|? ? _ Gt]; subst. rewrite app_length in L. cbn [length] in L.
      assert (X : forall b t', c :: t = b ++ t' -> (b = [10] \/ b = [13; 10] \/ b = [13] /\ hd_error t' <> Some 10)%N -> exists p, space_run p rest /\ text p = a ++ c :: t /\ forall i, tokens i p = []).
      { intros b t' E Hb. assert (Gt' : yaml_gap t') by (unfold yaml_gap; rewrite E in G; apply Forall_app in G; tauto). assert (Lb : length b + length t' = S (length t)) by (apply (f_equal (@length N)) in E; cbn [length] in E; rewrite app_length in E; lia).
        assert (0 < length b) by (destruct Hb as [->|[->|[-> _]]]; cbn; lia). destruct (IH t' ltac:(lia) Gt') as (p & P1 & P2 & P3). exists ((a, None) :: (b, None) :: p). split; [|split].
        - constructor; [exact Fa| |exact P1]. destruct Hb as [->|[->|[-> Hb]]]; [left; reflexivity|right; left; reflexivity|right; right]. split; [reflexivity|]. rewrite P2. intros x Ex. cbn beta. destruct t' as [|y t']; [|cbn in *; congruence].
          destruct rest as [|y r]; [discriminate|]. injection Ex as <-. destruct (R y r eq_refl). tauto.
        - rewrite !text_cons, P2, E. reflexivity.
        - intros i. cbn [tokens]. apply P3. }
      destruct Hc as [-> | ->]; [apply (X [10%N] t); auto|]. destruct t as [|y t]; [apply (X [13%N] []); [auto|right; right; split; [auto|discriminate]]|]. destruct (N.eq_dec y 10) as [->|Ny]; [apply (X [13; 10]%N t); auto|]. apply (X [13%N] (y :: t)); [reflexivity|]. right; right. split; [reflexivity|cbn; congruence].
Qed.
Lemma does_gap s w rest : yaml_gap w -> fresh rest -> does yaml_space s [(w, None)] rest tt s.
Proof. intros G R. destruct (gap_run w rest G R) as (p & P1 & P2 & P3). eapply does_same; [| |apply does_space; exact P1]; [rewrite P2, text_one; reflexivity|]. intros i. rewrite P3. reflexivity. Qed.

(** ** Plain scalars *)
Lemma word_in s k ty : yaml_match_word s = Some (k, ty) -> In (k, ty) yaml_words /\ starts_with s k = true.
Proof.
  unfold yaml_match_word. set (it := lower_bound _ _). cbv zeta.
  assert (A : forall i e, (match nth_error yaml_words i with Some e => if starts_with s (fst e) then Some e else None | None => None end) = Some e -> In e yaml_words /\ starts_with s (fst e) = true).
  { intros i e. destruct (nth_error yaml_words i) as [x|] eqn:E; [|discriminate]. destruct (starts_with s (fst x)) eqn:F; [|discriminate]. injection 1 as <-. split; [eapply nth_error_In; exact E|exact F]. }
  destruct (match nth_error yaml_words it with Some _ => _ | None => None end) as [e|] eqn:E; [intros [= ->]; apply (A _ _ E)|]. destruct (it =? 0); [discriminate|]. intros F. apply (A _ _ F).
Qed.
Lemma words_letters k ty : In (k, ty) yaml_words -> (exists c t, k = c :: t) /\ Forall letter k /\ In (k, ty) yaml_constants.
Proof.
  intros H. assert (A : forallb (fun e => match fst e with [] => false | _ => forallb (fun c => (65 <=? c) && (c <=? 90) || (97 <=? c) && (c <=? 122))%N (fst e) end) yaml_words = true) by reflexivity.
  assert (B : incl yaml_words yaml_constants).
  { intros e He. cbn in He. cbn. tauto. }
  rewrite forallb_forall in A. specialize (A _ H). cbn [fst] in A. destruct k as [|c t]; [discriminate|]. split; [eauto|]. split; [|apply B; exact H]. apply Forall_forall. intros x Hx. rewrite forallb_forall in A. specialize (A x Hx). cbn beta in A. unfold letter. destruct (N.leb_spec 65 x), (N.leb_spec x 90), (N.leb_spec 97 x), (N.leb_spec x 122); try discriminate; lia.
Qed.
Lemma letters_prefix k w r : Forall letter k -> not_before letter r -> starts_with (w ++ r) k = true -> exists t, w = k ++ t.
Proof.
  intros F R. revert w. induction F as [|c k Hc F IH]; intros w; [exists w; reflexivity|]. destruct w as [|x w]; cbn [app].
  - destruct r as [|x r]; cbn [starts_with]; intros E; [discriminate E|]. apply andb_prop in E as [E _]. apply N.eqb_eq in E as ->. elim (R c eq_refl Hc).
  - cbn [starts_with]. intros E. apply andb_prop in E as [E E2]. apply N.eqb_eq in E as ->. destruct (IH w E2) as (t & ->). eauto.
Qed.
(** What follows plain text *)
Definition plain_end (rest : str) : Prop := value_end rest \/ exists t, rest = 58%N :: 32%N :: t.
Lemma plain_end_head rest : plain_end rest -> rest = [] \/ exists c t, rest = c :: t /\ In c ([10; 13]%N ++ bs ",]}:") /\ (c = 58%N -> exists u, t = 32%N :: u).
Proof.
  intros [H|(t & ->)]; [|right; exists 58%N, (32%N :: t); split; [reflexivity|]; split; [cbn; tauto|eauto]]. destruct rest as [|c t]; [auto|right]. exists c, t. split; [reflexivity|]. specialize (H c eq_refl). cbn beta in H.
  destruct (in_dec N.eq_dec c ([10; 13]%N ++ bs ",]}")) as [I|]; [|tauto]. split; [cbn in *; tauto|]. intros ->. cbn in I. intuition discriminate.
Qed.
Lemma terminator_in c : is_yaml_plain_terminator c = true <-> In c ([13; 10]%N ++ bs ",[]{}#").
Proof. unfold is_yaml_plain_terminator. apply mem_In. Qed.
Lemma plain_length w rest first : Forall plain_char w -> no_separator_inside w -> plain_end rest -> (w = [] -> first = false) -> yaml_plain_length first (w ++ rest) = length w.
Proof.
  intros F. revert first. induction F as [|c w Hc F IH]; intros first S R Fi; cbn [app length].
  - rewrite (Fi eq_refl). destruct (plain_end_head _ R) as [->|(c & t & -> & I & C)]; [reflexivity|]. cbn [yaml_plain_length]. destruct (is_yaml_plain_terminator c) eqn:T; [reflexivity|].
    assert (c = 58%N) as ->. { cbn in I. repeat destruct I as [I|I]; subst; try discriminate; try reflexivity. contradiction. } destruct (C eq_refl) as (u & ->). reflexivity.
  - cbn [yaml_plain_length]. destruct Hc as [H32 Hc].
    assert (T : is_yaml_plain_terminator c = false). { destruct (is_yaml_plain_terminator c) eqn:T; [|reflexivity]. apply terminator_in in T. cbn in T. repeat destruct T as [T|T]; subst; try lia; elim Hc; cbn; tauto. } rewrite T.
    assert (A : (c =? 32)%N && negb first && starts_with_ch (w ++ rest) (ch "#") = false).
    { destruct (N.eqb_spec c 32) as [->|]; [|reflexivity]. destruct w as [|x w]; [cbn [app]; destruct (plain_end_head _ R) as [->|(x & u & -> & I & _)]; [apply andb_false_r|]; cbn [starts_with_ch]; rewrite (proj2 (N.eqb_neq x (ch "#"))); [apply andb_false_r|]; intros ->; cbn in I; intuition discriminate|]. inversion F as [|? ? [_ Hx] _]; subst. cbn [app starts_with_ch]. rewrite (proj2 (N.eqb_neq x (ch "#"))); [apply andb_false_r|]. intros ->. apply Hx. cbn; tauto. }
    rewrite A. assert (B : (c =? ch ":")%N && negb first && yaml_separates (w ++ rest) = false).
    { destruct (N.eqb_spec c (ch ":")) as [->|]; [|reflexivity]. destruct (S [] w eq_refl) as [S1 S2]. destruct w as [|x w]; [congruence|]. inversion F as [|? ? [Hx _] _]; subst. cbn [hd_error] in S2. cbn [app yaml_separates]. rewrite breaks, (proj2 (N.eqb_neq x 32)) by congruence.
      rewrite (proj2 (N.eqb_neq x 13)), (proj2 (N.eqb_neq x 10)) by lia. apply andb_false_r. }
    rewrite B. f_equal. apply IH; [|exact R|reflexivity]. intros a b Eab. apply (S (c :: a) b). rewrite Eab. reflexivity.
Qed.
Lemma number_none c t : word_start c \/ c = 58%N -> yaml_match_number (c :: t) = Ok no_number.
Proof.
  intros H. assert (D : ~ digit c /\ (c <> 43 /\ c <> 45 /\ c <> 46 /\ c <> 0)%N) by (unfold word_start, letter, digit in *; lia). destruct D as (D & D1 & D2 & D3 & D0).
  assert (D48 : (c <> 48)%N) by (unfold digit in D; lia).
  assert (Dg : is_ascii_digit_base c 10 = false) by (destruct (is_ascii_digit_base c 10) eqn:E; [apply digit_10 in E; contradiction|reflexivity]).
  unfold yaml_match_number. assert (E : yaml_special (c :: t) yaml_specials = None).
  { unfold yaml_specials. cbn [yaml_special starts_with_ch]. rewrite (proj2 (N.eqb_neq c 43)), (proj2 (N.eqb_neq c 45)) by assumption. cbn [orb andb skipn bs]. cbn [starts_with String.list_ascii_of_string map]. cbn. assert (N.eqb c 46 = false) as X by (apply N.eqb_neq; exact D3). rewrite ?X. rewrite ?(N.eqb_sym 46 c), ?X. reflexivity. }
  rewrite E. rewrite no_number_match; [|reflexivity|discriminate|discriminate| |exact Dg|exact D0|exact D48|intros; contradiction].
  2:{ intros p Hp. cbn in Hp. repeat destruct Hp as [<-|Hp]; try contradiction; eexists _, _; (split; [reflexivity|congruence]). }
  cbn [bind no_number nr_length Nat.eqb negb andb]. assert (E2 : yaml_sexagesimal (c :: t) = None).
  { unfold yaml_sexagesimal. destruct (is_ascii_digit c) eqn:E2; [apply digit_iff in E2; contradiction|]. reflexivity. }
  rewrite E2. apply no_number_match; try reflexivity; try assumption; intros; try assumption; contradiction.
Qed.
(** Plain text, perhaps with spaces at the end *)
Definition plain_word (w : str) : Prop := (exists c t, w = c :: t /\ word_start c) /\ Forall plain_char w /\ no_separator_inside w /\ forall k h t, In (k, h) yaml_constants -> w = k ++ t -> exists c u, t = c :: u /\ ident_char c.
Lemma plain_is_word w : plain_text w -> plain_word w.
Proof. intros (H1 & H2 & H3 & _ & H4). exact (conj H1 (conj H2 (conj H3 H4))). Qed.
Lemma does_plain s key w rest : plain_word w -> plain_end rest -> does (yaml_plain key) s [(w, Some (if key then hl_markup_attr else hl_string))] rest tt s.
Proof.
  intros ((c & t & -> & Hc) & F & S & K) R. unfold yaml_plain. apply does_get. rewrite text_one. cbv zeta.
  assert (C126 : starts_with_ch ((c :: t) ++ rest) (ch "~") = false) by (cbn [app starts_with_ch]; apply N.eqb_neq; unfold word_start, letter in Hc; intros ->; cbn in Hc; lia). rewrite C126.
  rewrite plain_length by (try assumption; discriminate). cbn [length Nat.ltb Nat.leb when].
  assert (St : forall k : M (list nat) unit, k = (let! num := lift (yaml_match_number ((c :: t) ++ rest)) in
    if negb (nr_length num =? 0) && yaml_number_ends ((c :: t) ++ rest) (nr_length num) then emit_and_advance (nr_length num) (if nr_erroneous num then hl_error else hl_number)
    else emit_and_advance (Datatypes.S (length t)) (if key then hl_markup_attr else hl_string)) -> does k s [(c :: t, Some (if key then hl_markup_attr else hl_string))] rest tt s).
  { intros k ->. eapply does_lift; [apply number_none; left; exact Hc|]. cbn [no_number nr_length Nat.eqb negb andb]. apply does_emit; [reflexivity|discriminate]. }
  destruct (yaml_match_word ((c :: t) ++ rest)) as [[k ty]|] eqn:W; [|apply St; reflexivity]. apply word_in in W as [W1 W2]. destruct (words_letters _ _ W1) as (_ & W3 & W4).
  destruct (letters_prefix k (c :: t) rest W3) as (u & Eu); [|exact W2|].
  { destruct (plain_end_head _ R) as [->|(x & r & -> & I & _)]; [apply not_before_nil|apply not_before_cons]. cbn in I. unfold letter. repeat destruct I as [<-|I]; try lia. }
  destruct (K k ty u W4 Eu) as (x & v & -> & Hx). assert (Sk : skipn (length k) ((c :: t) ++ rest) = x :: v ++ rest) by (rewrite Eu, <- app_assoc, skipn_app_exact; reflexivity). rewrite Sk.
  assert (X : is_yaml_word_terminator x || yaml_at_break (x :: v ++ rest) || (x =? ch ":")%N || (x =? ch "-")%N = false).
  { rewrite breaks. assert (Y : ~ In x ([13; 10]%N ++ bs ",[]{}# " ++ [9]%N ++ bs "&*!")) by (cbn; unfold ident_char, letter, digit in Hx; intros I; repeat destruct I as [<-|I]; lia).
    unfold is_yaml_word_terminator. destruct (mem x _) eqn:M; [apply mem_In in M; contradiction|]. unfold ident_char, letter, digit in Hx. rewrite !(proj2 (N.eqb_neq x _)) by (cbn; lia). reflexivity. }
  rewrite X. apply St. reflexivity.
Qed.

Lemma constant_word w h rest : In (w, h) yaml_words -> value_end rest -> yaml_match_word (w ++ rest) = Some (w, h).
Proof.
  intros H R. assert (K : rest = [] \/ exists c t, rest = c :: t /\ In c ([10; 13]%N ++ bs ",]}")).
  { destruct rest as [|c t]; [auto|right]. exists c, t. split; [reflexivity|]. specialize (R c eq_refl). cbn beta in R. destruct (in_dec N.eq_dec c ([10; 13]%N ++ bs ",]}")); [assumption|contradiction]. }
  destruct K as [->|(c & t & -> & I)].
  - cbn in H. repeat (destruct H as [[= <- <-]|H]; [reflexivity|]). contradiction.
  - cbn in I. repeat (destruct I as [<-|I]; [cbn in H; repeat (destruct H as [[= <- <-]|H]; [reflexivity|]); contradiction|]). contradiction.
Qed.
Lemma does_constant s w h rest : In (w, h) yaml_constants -> value_end rest -> does (yaml_plain false) s [(w, Some h)] rest tt s.
Proof.
  intros H R. unfold yaml_plain. apply does_get. rewrite text_one. cbv zeta.
  assert (D : (bs "~", hl_null) = (w, h) \/ In (w, h) yaml_words) by (cbn in H; cbn; tauto). destruct D as [[= <- <-]|D].
  - cbn [app bs starts_with_ch]. apply does_emit; [reflexivity|discriminate].
  - destruct (words_letters _ _ D) as ((c & t & Ec) & F & _).
    assert (E : starts_with_ch (w ++ rest) (ch "~") = false). { rewrite Ec in *. cbn [app starts_with_ch]. inversion F as [|? ? Hc _]; subst. apply N.eqb_neq. unfold letter in Hc. intros ->. cbn in Hc. lia. } rewrite E.
    rewrite (constant_word w h rest D R). rewrite skipn_app_exact.
    match goal with |- does (if ?b then _ else _) _ _ _ _ _ => assert (b = true) as -> end.
    { destruct rest as [|x u]; [reflexivity|]. specialize (R x eq_refl). cbn beta in R. destruct (in_dec N.eq_dec x ([10; 13]%N ++ bs ",]}")) as [I|]; [|contradiction]. cbn in I. repeat (destruct I as [<-|I]; [reflexivity|]). contradiction. }
    apply does_emit; [reflexivity|rewrite Ec; discriminate].
Qed.
(** ** Numbers *)
Lemma value_end_in x t : value_end (x :: t) -> In x ([10; 13]%N ++ bs ",]}").
Proof. intros R. specialize (R x eq_refl). cbn beta in R. destruct (in_dec N.eq_dec x ([10; 13]%N ++ bs ",]}")); [assumption|contradiction]. Qed.
Lemma value_end_no (p : N -> Prop) rest : value_end rest -> (forall x, In x ([10; 13]%N ++ bs ",]}") -> ~ p x) -> not_before p rest.
Proof. intros R H c E. destruct rest as [|x t]; [discriminate|]. injection E as <-. apply H. apply (value_end_in _ t). exact R. Qed.
Ltac val_end := let I := fresh in intros ? I; cbn in I; unfold digit; repeat destruct I as [<-|I]; try contradiction; lia.
Lemma decimal_number o n f rest : o = yaml_prefixed_options \/ o = yaml_decimal_options -> n <> [] -> Forall digit n -> (f = [] \/ exists d, f = 46%N :: d /\ d <> [] /\ Forall digit d) -> value_end rest ->
  exists r, match_common_number (n ++ f ++ rest) o = Ok r /\ nr_length r = length (n ++ f) /\ nr_prefix r = 0 /\ nr_erroneous r = false.
Proof.
  intros Ho Hn Fn Hf R.
  assert (G : exists f', f = frac_text f' /\ match f' with None => True | Some l => exists d, l = [(d, None)] /\ d <> [] /\ Forall digit d end).
  { destruct Hf as [->|(d & -> & Nd & Fd)]; [exists None; auto|]. exists (Some [(d, None)]). cbn [frac_text]. rewrite text_one. eauto. } destruct G as (f' & -> & Hf').
  destruct n as [|c n]; [congruence|]. inversion Fn as [|? ? Hc Fn']; subst.
  assert (Rd : not_before digit rest) by (apply value_end_no; [exact R|val_end]).
  assert (Hd : hd_error (n ++ frac_text f' ++ rest) <> Some 120%N /\ hd_error (n ++ frac_text f' ++ rest) <> Some 88%N /\ hd_error (n ++ frac_text f' ++ rest) <> Some 111%N /\ hd_error (n ++ frac_text f' ++ rest) <> Some 79%N /\ hd_error (n ++ frac_text f' ++ rest) <> Some 98%N /\ hd_error (n ++ frac_text f' ++ rest) <> Some 66%N).
  { assert (X : forall x, hd_error (n ++ frac_text f' ++ rest) = Some x -> (x < 64 \/ x = 93 \/ x = 125)%N).
    { intros x E. destruct n as [|y n]; [|inversion Fn' as [|? ? Hy _]; subst; injection E as <-; unfold digit in Hy; lia]. destruct f'; [injection E as <-; lia|]. destruct rest as [|y t]; [discriminate|]. injection E as <-. apply value_end_in in R. cbn in R. repeat destruct R as [<-|R]; try contradiction; lia. }
    repeat split; intros E; apply X in E; lia. }
  pose proof (number_exact o [] [(c :: n, None)] f' None [] rest true 10%Z) as T. cbv zeta in T. rewrite text_one in T. cbn [app exp_text length] in T.
  assert (Sg : starts_with_ch (c :: n ++ frac_text f' ++ rest) 43 = false /\ starts_with_ch (c :: n ++ frac_text f' ++ rest) 45 = false) by (unfold digit in Hc; cbn [starts_with_ch]; split; apply N.eqb_neq; lia).
  cbn [app]. rewrite T.
  - eexists. split; [reflexivity|]. cbn [nr_length nr_prefix nr_erroneous]. cbn [length]. rewrite ?app_length. split; [lia|auto].
  - destruct Ho as [-> | ->]; reflexivity.
  - left. discriminate.
  - intros _. apply Sg.
  - intros _. apply Sg.
  - rewrite number_base_none.
    + destruct Ho as [-> | ->]; cbn [no_zero_base no_base]; destruct (starts_with_ch _ 48); reflexivity.
    + destruct Ho as [-> | ->]; [|constructor]. destruct Hd as (H1 & H2 & H3 & H4 & H5 & H6). repeat (apply Forall_cons; [split; [discriminate|]|]); try apply Forall_nil;
        (apply not_true_is_false; intros X; apply starts_with_app in X as (u & X); cbn in X; destruct (n ++ frac_text f' ++ rest) as [|y t]; [discriminate X|]; injection X as _ -> _; cbn [hd_error] in *; congruence).
  - destruct Ho as [-> | ->]; cbn [no_separator]; apply (digits_exact digit 10 (c :: n) (frac_text f' ++ rest)); try apply digit_10; try assumption; (destruct f'; [apply not_before_cons; unfold digit; lia|exact Rd]).
  - destruct f' as [l|].
    + destruct Hf' as (d & -> & Nd & Fd). rewrite text_one. split; [reflexivity|]. split; [destruct Ho as [-> | ->]; cbn [no_separator]; apply (digits_exact digit 10 d rest); try apply digit_10; assumption|]. intros _. exact Nd.
    + intros _. destruct rest as [|y t]; [reflexivity|]. apply value_end_in in R. cbn [starts_with_ch]. apply N.eqb_neq. cbn in R. repeat destruct R as [<-|R]; try contradiction; lia.
  - intros _ _. apply exponent_none; [destruct Ho as [-> | ->]; reflexivity|]. intros u b x t I -> E. destruct rest as [|y r]; [discriminate|]. injection E as ->. apply value_end_in in R.
    destruct Ho as [-> | ->]; cbn in I; repeat destruct I as [I|I]; try contradiction; injection I as <- _; cbn in R; repeat destruct R as [R|R]; try contradiction; try discriminate.
  - intros _. destruct Ho as [-> | ->]; reflexivity.
Qed.
Lemma does_number s w rest : decimal w -> value_end rest -> does (yaml_plain false) s [(w, Some hl_number)] rest tt s.
Proof.
  intros (n & f & Nn & Fn & Hf & ->) R. unfold yaml_plain. apply does_get. rewrite text_one, <- app_assoc. cbv zeta.
  assert (H1 : exists c t, n = c :: t /\ digit c) by (destruct n as [|c t]; [congruence|]; inversion Fn; eauto). destruct H1 as (c & t & En & Hc).
  assert (E1 : starts_with_ch (n ++ f ++ rest) (ch "~") = false) by (rewrite En; cbn [app starts_with_ch]; apply N.eqb_neq; unfold digit in Hc; intros ->; cbn in Hc; lia). rewrite E1.
  assert (E2 : yaml_match_word (n ++ f ++ rest) = None).
  { destruct (yaml_match_word (n ++ f ++ rest)) as [[k ty]|] eqn:W; [|reflexivity]. apply word_in in W as [W1 W2]. destruct (words_letters _ _ W1) as ((x & u & ->) & F & _). rewrite En in W2. cbn [app starts_with] in W2. apply andb_prop in W2 as [W2 _]. apply N.eqb_eq in W2 as ->. inversion F. unfold letter, digit in *. lia. }
  rewrite E2. destruct (decimal_number yaml_prefixed_options n f rest ltac:(auto) Nn Fn Hf R) as (r1 & M1 & L1 & P1 & X1). destruct (decimal_number yaml_decimal_options n f rest ltac:(auto) Nn Fn Hf R) as (r2 & M2 & L2 & P2 & X2).
  assert (E3 : yaml_special (n ++ f ++ rest) yaml_specials = None).
  { rewrite En. unfold yaml_specials. cbn [app yaml_special starts_with_ch]. unfold digit in Hc. rewrite (proj2 (N.eqb_neq c 43)), (proj2 (N.eqb_neq c 45)) by lia. cbn. assert (N.eqb c 46 = false) as X by (apply N.eqb_neq; lia). rewrite ?X. reflexivity. }
  assert (E4 : yaml_sexagesimal (n ++ f ++ rest) = None).
  { unfold yaml_sexagesimal. rewrite En at 1. cbn [app]. rewrite (proj2 (digit_iff c) Hc). cbn [negb].
    assert (L : length_if (n ++ f ++ rest) is_ascii_digit = length n).
    { rewrite length_if_eq. apply prefix_len_exact; [eapply Forall_impl; [|exact Fn]; intros x; apply digit_iff|]. destruct Hf as [->|(d & -> & _)]; [eapply not_before_impl; [|apply (value_end_no digit rest R); val_end]; intros x; apply digit_iff|apply not_before_cons; rewrite digit_iff; unfold digit; lia]. }
    rewrite L. cbv zeta. assert (X : (length n <? length (n ++ f ++ rest)) && (nth (length n) (n ++ f ++ rest) 0 =? ch ":")%N = false).
    { destruct (f ++ rest) as [|y u] eqn:Ey; [rewrite app_nil_r, Nat.ltb_irrefl; reflexivity|]. rewrite nth_middle. apply andb_false_intro2, N.eqb_neq. destruct Hf as [->|(d & -> & _)]; [|injection Ey as <- _; discriminate]. cbn [app] in Ey. subst rest. apply value_end_in in R. cbn in R. repeat destruct R as [<-|R]; try contradiction; discriminate. }
    rewrite <- andb_assoc, X, andb_false_r. reflexivity. }
  assert (E5 : yaml_match_number (n ++ f ++ rest) = Ok r2).
  { unfold yaml_match_number. rewrite E3, M1. cbn [bind]. rewrite P1. rewrite andb_false_r, E4. exact M2. }
  eapply does_lift; [exact E5|]. rewrite L2, X2.
  assert (E6 : yaml_number_ends (n ++ f ++ rest) (length (n ++ f)) = true).
  { unfold yaml_number_ends. rewrite app_assoc, skipn_app_exact. destruct rest as [|y u]; [reflexivity|]. apply value_end_in in R. cbn in R. repeat (destruct R as [<-|R]; [reflexivity|]). contradiction. }
  rewrite E6. assert (E7 : (length (n ++ f) =? 0) = false) by (rewrite En; reflexivity). rewrite E7. cbn [negb andb]. apply does_emit; [reflexivity|]. rewrite En. discriminate.
Qed.

(** ** Quoted scalars *)
Lemma escape_len p rest r : yaml_escape p rest -> exists e, p = [(e, Some hl_string_escape)] /\ (exists t, e = 92%N :: t) /\ yaml_match_escape (e ++ r) = Ok (mk_escape (length e) false).
Proof.
  intros [c rest' I|x n w rest' I W].
  - exists [92; c]%N. split; [reflexivity|]. split; [eauto|]. cbn [app]. unfold yaml_match_escape. cbn in I. repeat (destruct I as [<-|I]; [reflexivity|]). contradiction.
  - exists (92%N :: x :: w). split; [reflexivity|]. split; [eauto|]. cbn [app]. unfold yaml_match_escape. 
    assert (H : forall k, (k = hex_2 /\ n = 2) \/ (k = hex_4 /\ n = 4) \/ (k = hex_8 /\ n = 8) -> match_common_escape_at k (92%N :: x :: w ++ r) 2 = Ok (mk_escape (length (92%N :: x :: w)) false)).
    { intros k Hk. pose proof (escape_at k [92%N; x] w r (escape_hex k n w r Hk W)) as T. cbn [app length] in T. rewrite T. cbn [length]. do 2 f_equal. lia. }
    destruct I as [[= <- <-]|[[= <- <-]|[[= <- <-]|[]]]]; cbn - [match_common_escape_at]; rewrite H; auto.
Qed.
Lemma body_tail t1 t2 f b : string_body hl_string double_plain yaml_escape t1 f b -> string_body hl_string double_plain yaml_escape t2 f b.
Proof.
  induction 1 as [f|run l Hr P H IH|f p l I H IH]; [constructor|constructor; auto|]. constructor; [|exact IH]. destruct I as [c rest' I|x n w rest' I W]; econstructor; eassumption.
Qed.
Lemma does_double s body rest : string_body hl_string double_plain yaml_escape [34%N] true body -> does (yaml_double false) s (quote 34 :: body ++ [quote 34]) rest tt s.
Proof.
  intros Hb. apply (body_tail _ (34%N :: rest)) in Hb. unfold yaml_double. apply does_get. apply does_check; [reflexivity|]. eapply does_cons; [apply does_emit; [reflexivity|discriminate]|].
  intros i o. rewrite text_app, <- app_assoc. eapply wp_mono.
  { apply (scan_body s yaml_double_body hl_string double_plain yaml_escape (34%N :: rest) (fun j o' _ st' => st' = mk_hst rest (j + 1) (rev (tokens j [quote 34]) ++ o') s)) with (f := true); [| | | |exact Hb].
    - intros p r [c r' _|x n w r' _ _]; discriminate.
    - intros run r len j o1 P L. unfold yaml_double_body. apply wp_bind, wp_get_rem. cbn [rem]. rewrite (proj2 (Nat.ltb_lt len (length (run ++ r)))) by (rewrite app_length; lia). cbn [negb].
      destruct (nth_error run len) as [c|] eqn:Ec; [|apply nth_error_None in Ec; lia]. apply wp_bind. apply (wp_at_is _ _ c); [rewrite nth_error_app1 by lia; exact Ec|].
      unfold double_plain, line_break in P. rewrite Forall_forall in P. specialize (P c (nth_error_In _ _ Ec)). rewrite (proj2 (N.eqb_neq c 34)), (proj2 (N.eqb_neq c (ch "\"))), (proj2 (N.eqb_neq c 13)), (proj2 (N.eqb_neq c 10)) by tauto. apply wp_ret. auto.
    - intros run p r j o1 Hrun Hp. unfold yaml_double_body. apply wp_bind, wp_get_rem. cbn [rem].
      destruct (escape_len p r r Hp) as (e & -> & (t & Et) & Em). rewrite text_one. rewrite (proj2 (Nat.ltb_lt (length run) _)) by (rewrite !app_length, Et; cbn; lia). cbn [negb]. apply wp_bind. apply (wp_at_is _ _ 92%N).
      { rewrite nth_error_app2, Nat.sub_diag by lia. rewrite Et. reflexivity. }
      change (92 =? 34)%N with false. change (92 =? 13)%N with false. change (92 =? 10)%N with false. change (92 =? ch "\")%N with true. cbn [orb]. cbv iota. unfold yaml_flush. apply flush_run. apply wp_bind, wp_get_rem. cbn [rem].
      apply wp_bind. eapply wp_lift; [exact Em|]. cbn [es_length es_erroneous]. assert (Z : (length e =? 0) = false) by (rewrite Et; reflexivity). rewrite Z. cbn [negb]. apply wp_bind. apply wp_emit_exact; [rewrite app_length, Et; cbn; lia|]. apply wp_ret. rewrite skipn_app_exact. split; [reflexivity|].
      rewrite tokens_app, rev_app_distr, <- app_assoc, opt_piece_text. reflexivity.
    - intros run j o1 Hrun. unfold yaml_double_body. apply wp_bind, wp_get_rem. cbn [rem]. rewrite (proj2 (Nat.ltb_lt (length run) _)) by (rewrite !app_length; cbn; lia). cbn [negb]. apply wp_bind. apply (wp_at_is _ _ 34%N).
      { rewrite nth_error_app2, Nat.sub_diag by lia. reflexivity. }
      change (34 =? 34)%N with true. cbv iota. unfold yaml_flush. apply flush_run. apply wp_bind. apply wp_emit_exact; [cbn; lia|]. cbn [skipn]. apply wp_ret. reflexivity. }
  cbn beta. intros [] st' ->. split; [reflexivity|]. rewrite app_length, tokens_app, rev_app_distr, Nat.add_assoc, <- app_assoc. reflexivity.
Qed.
Lemma does_single s t rest : single_text t -> not_before (fun c => c = 39%N) rest -> does (yaml_single false) s (quote 39 :: opt_piece t hl_string ++ [quote 39]) rest tt s.
Proof.
  intros Ht R. unfold yaml_single. apply does_get. apply does_check; [reflexivity|]. eapply does_cons; [apply does_emit; [reflexivity|discriminate]|].
  intros i o. rewrite text_app, <- app_assoc, opt_piece_text. change (text [quote 39]) with [39%N]. cbn [app].
  apply wp_hloop with (mu := fun n st' => length (rem st') - n) (Inv := fun n st' => exists a b, t = a ++ b /\ n = length a /\ single_text b /\ st' = mk_hst (t ++ 39%N :: rest) i o s).
  - exists [], t. auto.
  - cbn [rem]. lia.
  - intros n st (a & b & Et & -> & Hb & ->). unfold yaml_single_body. apply wp_bind, wp_get_rem. cbn [rem]. rewrite (proj2 (Nat.ltb_lt (length a) _)) by (rewrite Et, !app_length; cbn; lia). cbn [negb].
    assert (Nth : forall k, nth_error (t ++ 39%N :: rest) (length a + k) = nth_error (b ++ 39%N :: rest) k). { intros k. rewrite Et, <- app_assoc, nth_error_app2 by lia. f_equal. lia. }
    assert (Nth0 := Nth 0). rewrite Nat.add_0_r in Nth0. destruct Hb as [|c b Hc N39 Hb|b Hb].
    + apply wp_bind. apply (wp_at_is _ _ 39%N); [rewrite Nth0; reflexivity|]. cbn [N.eqb Pos.eqb].
      assert (E : (length a + 1 <? length (t ++ 39%N :: rest)) && (nth (length a + 1) (t ++ 39%N :: rest) 0 =? 39)%N = false).
      { destruct (nth_error (t ++ 39%N :: rest) (length a + 1)) as [x|] eqn:Ex; rewrite (Nth 1) in Ex; cbn [app nth_error] in Ex.
        - destruct rest as [|y r]; [discriminate|]. injection Ex as ->. specialize (R x eq_refl). cbn beta in R. rewrite (nth_error_nth (t ++ 39%N :: x :: r) (length a + 1) 0%N (x := x)) by (rewrite (Nth 1); reflexivity). rewrite (proj2 (N.eqb_neq x 39)) by assumption. apply andb_false_r.
        - destruct rest; [|discriminate]. rewrite (proj2 (Nat.ltb_ge _ _)); [reflexivity|]. rewrite Et, !app_length. cbn. lia. }
      rewrite E. rewrite app_nil_r in Et. subst a. unfold yaml_flush. apply flush_run. apply wp_bind. apply wp_emit_exact; [cbn; lia|]. cbn [skipn]. apply wp_ret. split; [reflexivity|]. rewrite !app_length, tokens_app, rev_app_distr, <- app_assoc, opt_piece_text, Nat.add_assoc. reflexivity.
    + apply wp_bind. apply (wp_at_is _ _ c); [rewrite Nth0; reflexivity|]. unfold line_break in Hc. rewrite (proj2 (N.eqb_neq c 39)), (proj2 (N.eqb_neq c 13)), (proj2 (N.eqb_neq c 10)) by tauto. cbn [orb]. apply wp_ret. split.
      * exists (a ++ [c]), b. rewrite <- app_assoc, app_length. cbn [app length]. auto.
      * cbn [rem]. rewrite Et, !app_length. cbn [length]. lia.
    + apply wp_bind. apply (wp_at_is _ _ 39%N); [rewrite Nth0; reflexivity|]. cbn [N.eqb Pos.eqb].
      assert (E : (length a + 1 <? length (t ++ 39%N :: rest)) && (nth (length a + 1) (t ++ 39%N :: rest) 0 =? 39)%N = true).
      { rewrite (proj2 (Nat.ltb_lt _ _)) by (rewrite Et, !app_length; cbn; lia). rewrite (nth_error_nth (t ++ 39%N :: rest) (length a + 1) 0%N (x := 39%N)) by (rewrite (Nth 1); reflexivity). reflexivity. }
      rewrite E. apply wp_ret. split.
      * exists (a ++ [39; 39]%N), b. rewrite <- app_assoc, app_length. cbn [app length]. auto.
      * cbn [rem]. rewrite Et, !app_length. cbn [length]. lia.
Qed.
(** ** Scalars *)
(** The first character of a value; none of these begins a comment, a collection of another kind or a property. *)
Definition head_char (c : N) : Prop := word_start c \/ digit c \/ c = 34%N \/ c = 39%N \/ c = 126%N.
Lemma constant_head w h : In (w, h) yaml_constants -> exists c t, w = c :: t /\ (letter c \/ c = 126%N).
Proof. intros H. cbn in H. repeat (destruct H as [[= <- <-]|H]; [eexists _, _; split; [reflexivity|unfold letter; lia]|]). contradiction. Qed.
Lemma scalar_head p : yaml_scalar p -> exists c t, text p = c :: t /\ head_char c.
Proof.
  unfold head_char. intros [w ((c & t & -> & Hc) & _)|w h H|w (n & f & Nn & Fn & _ & ->)|body _|t _]; rewrite ?text_one.
  - eauto.
  - destruct (constant_head _ _ H) as (c & t & -> & [Hc|Hc]); exists c, t; (split; [reflexivity|]); unfold word_start; tauto.
  - destruct n as [|c n]; [congruence|]. inversion Fn; subst. exists c, (n ++ f). auto.
  - eexists _, _. split; [reflexivity|auto].
  - eexists _, _. split; [reflexivity|auto].
Qed.
Lemma head_number c : head_char c -> (c < 48 -> c = 34 \/ c = 39 \/ c = 47)%N /\ ~ In c (bs ":;<=>?@[\]^`{|}").
Proof. unfold head_char, word_start, letter, digit. intros H. split; [lia|]. cbn. intros I. repeat destruct I as [<-|I]; try lia. Qed.
Lemma does_scalar s p rest : yaml_scalar p -> value_end rest -> does (yaml_flow_scalar false) s p rest tt s.
Proof.
  intros H R. destruct (scalar_head p H) as (c & t & Ec & Hc). unfold yaml_flow_scalar. apply does_get. rewrite Ec. cbn [app].
  assert (R39 : not_before (fun c => c = 39%N) rest) by (apply value_end_no; [exact R|val_end]).
  assert (X : (c <> 34 -> c <> 39 -> does (yaml_plain false) s p rest tt s -> does (if (c =? 34)%N then yaml_double false else if (c =? 39)%N then yaml_single false else if (c =? ch "*")%N then yaml_named (ch "*") else yaml_plain false) s p rest tt s)%N).
  { intros H1 H2 G. destruct (head_number c Hc) as [H3 _]. rewrite (proj2 (N.eqb_neq c 34)), (proj2 (N.eqb_neq c 39)), (proj2 (N.eqb_neq c (ch "*"))) by (try assumption; cbn; lia). exact G. }
  destruct H as [w Hw|w h Hw|w Hw|body Hw|u Hw]; rewrite ?text_one in Ec.
  - destruct (proj1 Hw) as (x & y & E & Hx). rewrite E in Ec. injection Ec as -> ->. unfold word_start, letter in Hx. apply X; [lia|lia|]. apply (does_plain s false w rest (plain_is_word w Hw)). left. exact R.
  - destruct (constant_head _ _ Hw) as (x & y & E & Hx). rewrite E in Ec. injection Ec as -> ->. unfold letter in Hx. apply X; [lia|lia|]. apply does_constant; assumption.
  - pose proof Hw as (n & f & Nn & Fn & _ & E). destruct n as [|x n]; [congruence|]. inversion Fn as [|? ? Hx _]. rewrite E in Ec. injection Ec as -> _. unfold digit in Hx. apply X; [lia|lia|]. apply does_number; assumption.
  - injection Ec as <- _. apply does_double. exact Hw.
  - injection Ec as <- _. apply does_single; assumption.
Qed.

(** ** Flow collections *)
Scheme value_mut := Minimality for yaml_value Sort Prop with items_mut := Minimality for yaml_items Sort Prop with pairs_mut := Minimality for yaml_pairs Sort Prop.
Combined Scheme flow_mut from value_mut, items_mut, pairs_mut.
Definition node_char (c : N) : Prop := head_char c \/ c = 91%N \/ c = 123%N.
Lemma value_head p : yaml_value p -> exists c t, text p = c :: t /\ node_char c.
Proof.
  intros [q H|l H|l H].
  - destruct (scalar_head q H) as (c & t & E & Hc). exists c, t. unfold node_char. auto.
  - exists 91%N, (text l). unfold node_char. auto.
  - exists 123%N, (text l). unfold node_char. auto.
Qed.
Lemma node_char_cases c : node_char c -> (c = 34 \/ c = 39 \/ 47 <= c)%N /\ ~ In c (bs ":;<=>?@]\^`|}").
Proof. unfold node_char, head_char, word_start, letter, digit. intros H. split; [lia|]. cbn. intros I. repeat destruct I as [<-|I]; try lia. Qed.
Lemma fresh_char c t : is_yaml_whitespace c = false -> (c <> 35 -> c <> 13 -> c <> 10 -> fresh (c :: t))%N.
Proof. intros W H1 H2 H3 x y [= <- <-]. auto. Qed.
Lemma node_fresh c t : node_char c -> fresh (c :: t).
Proof.
  intros H. apply node_char_cases in H as [H _]. apply fresh_char; try lia. destruct (is_yaml_whitespace c) eqn:E; [|reflexivity]. unfold is_yaml_whitespace in E. apply mem_In in E. cbn in E. lia.
Qed.
Lemma does_no_space {B} (k : unit -> M (list nat) B) s p rest y s' : fresh (text p ++ rest) -> does (k tt) s p rest y s' -> does (bindM yaml_space k) s p rest y s'.
Proof. intros F H. eapply does_nil; [|exact H]. apply does_add. apply does_gap; [constructor|exact F]. Qed.
Lemma does_no_properties {B} (k : unit -> M (list nat) B) s c t p rest y s' : text p ++ rest = c :: t -> node_char c -> does (k tt) s p rest y s' -> does (bindM yaml_properties k) s p rest y s'.
Proof.
  intros E H G. eapply does_nil; [|exact G]. rewrite E. unfold yaml_properties. apply does_stop. unfold yaml_properties_body. apply does_get. cbn [text map concat app starts_with_ch]. apply node_char_cases in H as [H _].
  rewrite (proj2 (N.eqb_neq c (ch "!"))) by (cbn; lia). cbv zeta. cbn [when]. eapply does_nil; [apply does_ret|]. apply does_get. cbn [text map concat app starts_with_ch]. rewrite (proj2 (N.eqb_neq c (ch "&"))) by (cbn; lia). cbn [when]. eapply does_nil; [apply does_ret|]. apply does_ret.
Qed.
Lemma value_break c t : node_char c -> yaml_at_break (c :: t) = false.
Proof. intros H. apply node_char_cases in H as [H _]. rewrite breaks, (proj2 (N.eqb_neq c 13)), (proj2 (N.eqb_neq c 10)) by lia. reflexivity. Qed.
Lemma does_key s k rest : flow_key k -> (exists t, rest = 58%N :: 32%N :: t) -> does (yaml_flow_scalar true) s k rest tt s.
Proof.
  intros [w H|w H] R; unfold yaml_flow_scalar; apply does_get; rewrite text_one.
  - destruct (proj1 H) as (c & t & Ew & Hc). unfold word_start, letter in Hc. rewrite Ew. cbn [app]. rewrite (proj2 (N.eqb_neq c 34)), (proj2 (N.eqb_neq c 39)), (proj2 (N.eqb_neq c (ch "*"))) by (cbn; lia). rewrite <- Ew. apply (does_plain s true w rest (plain_is_word w H)). right. exact R.
  - cbn [app]. change (34 =? 34)%N with true. cbv iota. unfold yaml_double. apply does_get. apply does_check; [reflexivity|]. apply does_emit; [|discriminate]. rewrite text_one. cbn [app skipn length]. f_equal.
    induction H as [|c w (Hb & Hq & He) F IH]; [reflexivity|]. cbn [app yaml_double_key length]. rewrite (proj2 (N.eqb_neq c 34)), (proj2 (N.eqb_neq c (ch "\"))) by assumption. lia.
Qed.
Lemma key_head k : flow_key k -> exists c t, text k = c :: t /\ node_char c /\ c <> 91%N /\ c <> 123%N.
Proof.
  intros [w H|w H]; rewrite text_one.
  - destruct (proj1 H) as (c & t & -> & Hc). exists c, t. split; [reflexivity|]. split; [left; left; exact Hc|]. unfold word_start, letter in Hc. lia.
  - eexists _, _. split; [reflexivity|]. split; [left; right; right; left; reflexivity|]. split; discriminate.
Qed.
Lemma does_leaf fuel i b s p rest c t : text p = c :: t -> node_char c -> c <> 91%N -> c <> 123%N -> does (yaml_flow_scalar b) s p rest tt s -> does (yaml_flow_node (S fuel) i b) s p rest tt s.
Proof.
  intros E H N1 N2 G. cbn [yaml_flow_node]. apply does_no_space; [rewrite E; apply node_fresh; exact H|]. apply does_get. assert (X : (length (text p ++ rest) =? 0) || yaml_at_break (text p ++ rest) = false) by (rewrite E; cbn [app length Nat.eqb orb]; apply value_break; exact H). rewrite X.
  eapply does_no_properties; [rewrite E; reflexivity|exact H|]. apply does_get. assert (Y : forall x, c <> x -> starts_with_ch (text p ++ rest) x = false) by (intros x Nx; rewrite E; cbn [app starts_with_ch]; apply N.eqb_neq; exact Nx).
  destruct (node_char_cases c H) as [_ Nc]. rewrite !Y; [exact G|..]; try assumption; intros ->; apply Nc; cbn; tauto.
Qed.
Lemma open_fresh c t : In c (bs "]},:") -> fresh (c :: t).
Proof. intros H. cbn in H. apply fresh_char; [|intros ->; lia|intros ->; lia|intros ->; lia]. repeat destruct H as [<-|H]; try reflexivity. contradiction. Qed.
Definition flow_bracket (c : N) : Prop := c = 93%N \/ c = 125%N.
Lemma flow_end close wrong ty item s w rest : flow_bracket close -> yaml_gap w ->
  does (hloop 1 (yaml_flow_body close wrong ty item) tt) s [(w, None); ([close], Some ty)] rest tt s.
Proof.
  intros C G. apply does_stop. unfold yaml_flow_body. apply does_eof; [rewrite text_cons; destruct w; discriminate|]. apply does_cons with (x := tt) (s1 := s); [apply does_gap; [exact G|apply open_fresh; destruct C as [-> | ->]; cbn; tauto]|].
  apply does_get. cbn [text map concat app fst]. rewrite N.eqb_refl. eapply does_last; [apply does_emit; [reflexivity|discriminate]|]. apply does_ret.
Qed.
Lemma flow_comma close wrong ty item s w l rest : flow_bracket close -> flow_bracket wrong -> yaml_gap w ->
  does (hloop 1 (yaml_flow_body close wrong ty item) tt) s l rest tt s -> does (hloop 1 (yaml_flow_body close wrong ty item) tt) s ((w, None) :: punctuation 44 :: l) rest tt s.
Proof.
  intros C W G H. change ((w, None) :: punctuation 44 :: l) with ([(w, None); punctuation 44] ++ l). eapply does_unroll; [|rewrite text_cons; destruct w; discriminate|exact H].
  unfold yaml_flow_body. apply does_eof; [rewrite text_cons; destruct w; discriminate|]. apply does_cons with (x := tt) (s1 := s); [apply does_gap; [exact G|apply open_fresh; cbn; tauto]|].
  apply does_get. cbn [text map concat app fst punctuation]. assert (Y : forall x, flow_bracket x -> (44 =? x)%N = false) by (intros x [-> | ->]; reflexivity). rewrite !Y by assumption. eapply does_last; [apply does_emit; [reflexivity|discriminate]|]. apply does_ret.
Qed.
Lemma flow_item close wrong ty item s w p c t w2 l2 rest : flow_bracket close -> flow_bracket wrong -> yaml_gap w -> yaml_gap w2 -> text p = c :: t -> node_char c -> fresh (text l2 ++ rest) ->
  does item s p (w2 ++ text l2 ++ rest) tt s -> does (hloop 1 (yaml_flow_body close wrong ty item) tt) s (([], None) :: l2) rest tt s ->
  does (hloop 1 (yaml_flow_body close wrong ty item) tt) s ((w, None) :: p ++ (w2, None) :: l2) rest tt s.
Proof.
  intros C W Gw Gw2 E Hc F H K.
  apply does_same with (p := ((w, None) :: p ++ [(w2, None)]) ++ ([], None) :: l2); [rewrite text_app, !text_cons, !text_app, !text_cons; cbn [app]; rewrite <- !app_assoc; reflexivity|intros j; rewrite !tokens_app; cbn [tokens app]; rewrite !tokens_app; cbn [app tokens length]; rewrite text_cons, text_app, text_one, !app_length, app_nil_r, Nat.add_0_r; do 2 f_equal; lia|].
  eapply does_unroll; [|rewrite text_cons, text_app, E; destruct w; discriminate|exact K].
  unfold yaml_flow_body. apply does_eof; [rewrite text_cons, text_app, E; destruct w; discriminate|]. apply does_cons with (x := tt) (s1 := s); [apply does_gap; [exact Gw|rewrite text_app, E; apply node_fresh; exact Hc]|].
  apply does_get. rewrite text_app, E. cbn [app]. destruct (node_char_cases c Hc) as [H1 H2]. assert (Y : forall x, In x ([93; 125; 44; 13; 10; 35]%N) -> (c =? x)%N = false) by (intros x Ix; apply N.eqb_neq; intros ->; cbn in Ix; cbn in H2; intuition lia). 
  assert (Z : forall x, flow_bracket x -> (c =? x)%N = false) by (intros x [-> | ->]; apply Y; cbn; tauto). rewrite !Z by assumption. rewrite !Y by (cbn; tauto). cbn [orb]. eapply does_bind; [rewrite text_one; exact H|].
  eapply does_last; [apply does_gap; [exact Gw2|exact F]|]. apply does_ret.
Qed.
Lemma value_end_app w a b : value_end (w ++ a) -> w ++ a <> [] -> value_end (w ++ a ++ b).
Proof. intros H Ne. rewrite app_assoc. destruct (w ++ a) as [|c t]; [congruence|]. exact H. Qed.
Lemma flow_does :
  (forall p, yaml_value p -> forall fuel i s rest, length (text p) < fuel -> value_end rest -> does (yaml_flow_node fuel i false) s p rest tt s)
  /\ (forall l, yaml_items l -> exists w l', l = (w, None) :: l' /\ yaml_gap w /\ (forall rest, fresh (text l' ++ rest)) /\ 0 < length (text l')
       /\ forall w' fuel i s rest, yaml_gap w' -> length (text l') <= fuel ->
          does (hloop 1 (yaml_flow_body (ch "]") (ch "}") hl_symbol_square (yaml_flow_node fuel i false)) tt) s ((w', None) :: l') rest tt s)
  /\ (forall l, yaml_pairs l -> exists w l', l = (w, None) :: l' /\ yaml_gap w /\ (forall rest, fresh (text l' ++ rest)) /\ 0 < length (text l')
       /\ forall w' fuel i s rest, yaml_gap w' -> length (text l') <= fuel ->
          does (hloop 1 (yaml_flow_body (ch "}") (ch "]") hl_symbol_brace (yaml_flow_entry (yaml_flow_node fuel) i)) tt) s ((w', None) :: l') rest tt s).
Proof.
  assert (B1 : flow_bracket (ch "]")) by (left; reflexivity). assert (B2 : flow_bracket (ch "}")) by (right; reflexivity).
  apply flow_mut.
  - intros p H fuel i s rest L R. destruct fuel as [|fuel]; [lia|]. destruct (scalar_head p H) as (c & t & E & Hc). eapply does_leaf; [exact E|left; exact Hc| | |apply does_scalar; assumption]; unfold head_char, word_start, letter, digit in Hc; lia.
  - intros l _ (w & l' & -> & Gw & F & L0 & G) fuel i s rest L R. destruct fuel as [|fuel]; [lia|]. cbn [yaml_flow_node]. change (bs "[") with [91%N]. apply does_no_space; [apply (node_fresh 91); unfold node_char; auto|]. apply does_get. cbn [text map concat app fst length Nat.eqb orb]. rewrite value_break by (right; auto). 
    eapply does_no_properties; [reflexivity|unfold node_char; auto|]. apply does_get. cbn [text map concat app fst bs starts_with_ch]. apply does_cons with (x := tt) (s1 := s); [apply does_emit; [reflexivity|discriminate]|]. apply G; [exact Gw|]. rewrite text_cons, text_cons, !app_length in L. cbn [length bs] in L. lia.
  - intros l _ (w & l' & -> & Gw & F & L0 & G) fuel i s rest L R. destruct fuel as [|fuel]; [lia|]. cbn [yaml_flow_node]. change (bs "{") with [123%N]. apply does_no_space; [apply (node_fresh 123); unfold node_char; auto|]. apply does_get. cbn [text map concat app fst length Nat.eqb orb]. rewrite value_break by (right; auto). 
    eapply does_no_properties; [reflexivity|unfold node_char; auto|]. apply does_get. cbn [text map concat app fst bs starts_with_ch]. apply does_cons with (x := tt) (s1 := s); [apply does_emit; [reflexivity|discriminate]|]. apply G; [exact Gw|]. rewrite text_cons, text_cons, !app_length in L. cbn [length bs] in L. lia.
  - intros w Gw. exists w, [(bs "]", Some hl_symbol_square)]. split; [reflexivity|]. split; [exact Gw|]. split; [intros rest; apply open_fresh; cbn; tauto|]. split; [cbn; lia|].
    intros w' fuel i s rest Gw' L. apply flow_end; assumption.
  - intros w l Gw _ (w2 & l2 & -> & Gw2 & F & L0 & G). exists w, (punctuation 44 :: (w2, None) :: l2). split; [reflexivity|]. split; [exact Gw|]. split; [intros rest; apply open_fresh; cbn; tauto|]. split; [cbn; lia|].
    intros w' fuel i s rest Gw' L. apply flow_comma; try assumption. apply G; [exact Gw2|]. unfold punctuation in L. rewrite !text_cons, !app_length in L. lia.
  - intros w p l Gw Hp G Ve _ (w2 & l2 & -> & Gw2 & F & L0 & K). destruct (value_head p Hp) as (c & t & E & Hc). exists w, (p ++ (w2, None) :: l2). split; [reflexivity|]. split; [exact Gw|]. split; [intros rest; rewrite text_app, E; apply node_fresh; exact Hc|]. split; [rewrite text_app, E; cbn; lia|].
    intros w' fuel i s rest Gw' L. rewrite text_app, text_cons, !app_length in L. eapply flow_item; try eassumption; [apply F|apply G; [lia|]|apply K; [constructor|lia]].
    rewrite text_cons in Ve. apply value_end_app; [exact Ve|]. intros X. apply (f_equal (@length N)) in X. rewrite app_length in X. cbn in X. lia.
  - intros w Gw. exists w, [(bs "}", Some hl_symbol_brace)]. split; [reflexivity|]. split; [exact Gw|]. split; [intros rest; apply open_fresh; cbn; tauto|]. split; [cbn; lia|].
    intros w' fuel i s rest Gw' L. apply flow_end; assumption.
  - intros w l Gw _ (w2 & l2 & -> & Gw2 & F & L0 & G). exists w, (punctuation 44 :: (w2, None) :: l2). split; [reflexivity|]. split; [exact Gw|]. split; [intros rest; apply open_fresh; cbn; tauto|]. split; [cbn; lia|].
    intros w' fuel i s rest Gw' L. apply flow_comma; try assumption. apply G; [exact Gw2|]. unfold punctuation in L. rewrite !text_cons, !app_length in L. lia.
  - intros w k b p l Gw Hk Hb Hp G Ve _ (w2 & l2 & -> & Gw2 & F & L0 & K). destruct (key_head k Hk) as (c & t & E & Hc & Nc1 & Nc2). exists w, (k ++ punctuation 58 :: (32%N :: b, None) :: p ++ (w2, None) :: l2).
    split; [reflexivity|]. split; [exact Gw|]. split; [intros rest; rewrite text_app, E; apply node_fresh; exact Hc|]. split; [rewrite text_app, E; cbn; lia|].
    intros w' fuel i s rest Gw' L. unfold punctuation in L. rewrite text_app, text_cons, text_cons, text_app, text_cons, !app_length in L. cbn [length fst] in L.
    replace (k ++ punctuation 58 :: (32%N :: b, None) :: p ++ (w2, None) :: l2) with ((k ++ punctuation 58 :: (32%N :: b, None) :: p) ++ (w2, None) :: l2) by (rewrite <- app_assoc; reflexivity).
    eapply flow_item with (c := c); try eassumption; [rewrite text_app, E; reflexivity|apply F| |apply K; [constructor|lia]].
    destruct fuel as [|fuel]; [lia|]. destruct (value_head p Hp) as (d & u & Ep & Hd).
    unfold yaml_flow_entry. apply does_get. rewrite text_app, E. cbn [app starts_with_ch]. destruct (node_char_cases c Hc) as [_ Nc]. rewrite (proj2 (N.eqb_neq c (ch "?"))) by (intros ->; apply Nc; cbn; tauto).
    eapply does_bind; [eapply does_leaf; [exact E|exact Hc|exact Nc1|exact Nc2|apply does_key; [exact Hk|eexists; reflexivity]]|].
    apply does_no_space; [apply open_fresh; cbn; tauto|]. apply does_get. cbn [text map concat app fst punctuation starts_with_ch]. apply does_cons with (x := tt) (s1 := s); [apply does_emit; [reflexivity|discriminate]|].
    apply does_get. cbn [text map concat app fst punctuation starts_with_ch]. apply (does_join _ s [32%N] b). apply does_cons with (x := tt) (s1 := s); [apply does_advance; reflexivity|].
    apply does_cons with (x := tt) (s1 := s); [apply does_gap; [eapply Forall_impl; [|exact Hb]; cbn beta; auto|rewrite Ep; apply node_fresh; exact Hd]|].
    apply does_get. assert (X : (match text p ++ w2 ++ text l2 ++ rest with [] => false | c :: _ => negb (c =? ch ",")%N && negb (c =? ch "}")%N && negb (yaml_at_break (text p ++ w2 ++ text l2 ++ rest)) end) = true).
    { rewrite Ep. cbn [app]. rewrite value_break by exact Hd. destruct (node_char_cases d Hd) as [H1 H2]. rewrite (proj2 (N.eqb_neq d (ch ","))), (proj2 (N.eqb_neq d (ch "}"))); [reflexivity|intros ->; apply H2; cbn; tauto|cbn; lia]. }
    rewrite X. apply G; [lia|]. rewrite text_cons in Ve. apply value_end_app; [exact Ve|]. intros Y. apply (f_equal (@length N)) in Y. rewrite app_length in Y. cbn in Y. lia.
Qed.
Lemma does_value i s p rest : yaml_value p -> value_end rest -> does (yaml_flow i false) s p rest tt s.
Proof. intros H R. unfold yaml_flow. apply does_get. apply flow_does; [exact H|rewrite app_length; lia|exact R]. Qed.

(** ** Keys *)
Lemma key_head_char k : block_key k -> exists c t, k = c :: t /\ head_char c.
Proof. unfold head_char. intros [c t Hc _ _ _|w _]; eexists _, _; (split; [reflexivity|]); tauto. Qed.
Lemma colon_chars k r : Forall key_char k -> no_separator_inside k -> yaml_separates r = true -> yaml_colon None (k ++ 58%N :: r) = Some (length k).
Proof.
  intros F S R. assert (Z : yaml_colon None (58%N :: r) = Some 0) by (cbn [yaml_colon]; rewrite R; reflexivity). induction F as [|c k (H1 & H2 & H3 & H4) F IH]; [exact Z|]. cbn [app yaml_colon length].
  rewrite (proj2 (N.eqb_neq c 13)), (proj2 (N.eqb_neq c 10)), (proj2 (N.eqb_neq c 34)), (proj2 (N.eqb_neq c 39)), (proj2 (N.eqb_neq c (ch "#"))) by (try assumption; lia). cbn [orb].
  assert (X : (c =? ch ":")%N && yaml_separates (k ++ 58%N :: r) = false).
  { destruct (N.eqb_spec c (ch ":")) as [->|]; [|reflexivity]. destruct (S [] k eq_refl) as [S1 S2]. destruct k as [|x k]; [congruence|]. inversion F as [|? ? (Hx & _) _]; subst. cbn [hd_error] in S2. cbn [app yaml_separates]. rewrite breaks, (proj2 (N.eqb_neq x 32)), (proj2 (N.eqb_neq x 13)), (proj2 (N.eqb_neq x 10)) by (try lia; congruence). reflexivity. }
  rewrite X, IH; [reflexivity|]. intros a b E. apply (S (c :: a) b). rewrite E. reflexivity.
Qed.
Lemma colon_key k r : block_key k -> yaml_separates r = true -> yaml_colon None (k ++ 58%N :: r) = Some (length k).
Proof.
  intros H R. assert (Z : yaml_colon None (58%N :: r) = Some 0) by (cbn [yaml_colon]; rewrite R; reflexivity). destruct H as [c t _ F S _|w F].
  - apply colon_chars; assumption.
  - cbn [app yaml_colon length]. change (34 =? 34)%N with true. change ((34 =? 13)%N || (34 =? 10)%N) with false. cbn [orb]. cbv iota.
    assert (Y : yaml_colon (Some 34%N) ((w ++ [34%N]) ++ 58%N :: r) = Some (length (w ++ [34%N]))).
    { induction F as [|c w (Hb & H1 & H2) F IH]; cbn [app length].
      - change (yaml_colon (Some 34%N) (34%N :: 58%N :: r)) with (option_map S (yaml_colon None (58%N :: r))). rewrite Z. reflexivity.
      - cbn [yaml_colon]. unfold line_break in Hb. rewrite (proj2 (N.eqb_neq c 13)), (proj2 (N.eqb_neq c 10)), (proj2 (N.eqb_neq c 34)), (proj2 (N.eqb_neq c (ch "\"))) by tauto. cbn [orb andb]. rewrite IH. reflexivity. }
    rewrite Y. reflexivity.
Qed.
Lemma key_end k : block_key k -> exists a x, k = a ++ [x] /\ is_yaml_whitespace x = false.
Proof.
  intros [c t _ F _ E|w _]; [|exists (34%N :: w), 34%N; split; reflexivity]. destruct (@exists_last _ (c :: t)) as (a & x & Ea); [discriminate|]. exists a, x. split; [exact Ea|]. rewrite Ea in F. apply Forall_app in F as [_ F]. inversion F as [|? ? (H & _) _]; subst.
  destruct (is_yaml_whitespace x) eqn:X; [|reflexivity]. unfold is_yaml_whitespace in X. apply mem_In in X. cbn in X. destruct X as [<-|[<-|[]]]; [elim (E a Ea)|lia].
Qed.
Lemma trim_key k r : block_key k -> yaml_trim (k ++ r) (length k) = length k.
Proof. intros H. destruct (key_end k H) as (a & x & -> & Hx). rewrite app_length, Nat.add_1_r. cbn [yaml_trim]. rewrite <- app_assoc, app_nth2, Nat.sub_diag by lia. cbn [app nth]. rewrite Hx. reflexivity. Qed.
(** Scalars are not keys. *)
Lemma colon_end r : at_line_end r -> forall q, yaml_colon q r = None.
Proof. intros [->|(c & t & -> & [-> | ->])] q; reflexivity. Qed.
Lemma colon_plain w r q : Forall (fun c => ~ line_break c /\ c <> 34%N) w -> no_separator_inside w -> at_line_end r -> q = None \/ q = Some 39%N -> yaml_colon q (w ++ r) = None.
Proof.
  intros F S R. revert q S. induction F as [|c w (H1 & H2) F IH]; intros q S Hq; [apply colon_end; exact R|]. unfold line_break in H1. cbn [app yaml_colon]. rewrite (proj2 (N.eqb_neq c 13)), (proj2 (N.eqb_neq c 10)) by tauto. cbn [orb].
  assert (S' : no_separator_inside w) by (intros a b E; apply (S (c :: a) b); rewrite E; reflexivity).
  destruct Hq as [-> | ->].
  - rewrite (proj2 (N.eqb_neq c 34)) by assumption. cbn [orb]. destruct (N.eqb_spec c 39) as [->|N39]; [rewrite IH by auto; reflexivity|]. destruct (c =? ch "#")%N; [reflexivity|].
    assert (X : (c =? ch ":")%N && yaml_separates (w ++ r) = false).
    { destruct (N.eqb_spec c (ch ":")) as [->|]; [|reflexivity]. destruct (S [] w eq_refl) as [S1 S2]. destruct w as [|x w]; [congruence|]. inversion F as [|? ? (Hx & _) _]; subst. unfold line_break in Hx. cbn [hd_error] in S2. cbn [app yaml_separates]. rewrite breaks, (proj2 (N.eqb_neq x 32)), (proj2 (N.eqb_neq x 13)), (proj2 (N.eqb_neq x 10)) by (try tauto; congruence). reflexivity. }
    rewrite X, IH by auto. reflexivity.
  - destruct (c =? 39)%N; [rewrite IH by auto; reflexivity|]. change (39 =? 34)%N with false. rewrite andb_false_r. rewrite IH by auto. reflexivity.
Qed.
Lemma colon_skip w r : Forall (fun c => ~ line_break c /\ c <> 34%N /\ c <> 92%N) w -> yaml_colon (Some 34%N) r = None -> yaml_colon (Some 34%N) (w ++ r) = None.
Proof.
  intros F R. induction F as [|c w (Hb & H1 & H2) F IH]; [exact R|]. unfold line_break in Hb. cbn [app yaml_colon]. rewrite (proj2 (N.eqb_neq c 13)), (proj2 (N.eqb_neq c 10)), (proj2 (N.eqb_neq c 34)), (proj2 (N.eqb_neq c (ch "\"))) by tauto. cbn [orb andb]. rewrite IH. reflexivity.
Qed.
Lemma colon_double tail f b r : string_body hl_string double_plain yaml_escape tail f b -> yaml_colon (Some 34%N) r = None -> yaml_colon (Some 34%N) (text b ++ r) = None.
Proof.
  induction 1 as [f|run l Hr P H IH|f p l I H IH]; intros R; [exact R| |].
  - rewrite text_cons, <- app_assoc. apply colon_skip; [exact P|auto].
  - rewrite text_app, <- app_assoc. specialize (IH R). destruct I as [c rest' I|x n w rest' I W]; rewrite text_one; cbn [app yaml_colon]; change ((92 =? 13)%N || (92 =? 10)%N) with false; change (92 =? 34)%N with false; change ((92 =? ch "\")%N && (34 =? 34)%N) with true; cbv iota.
    + rewrite IH. reflexivity.
    + rewrite colon_skip; [reflexivity| |exact IH]. destruct W as [_ W]. eapply Forall_impl; [|exact W]. cbn beta. unfold hex_digit, line_break. intros c Hc. repeat destruct Hc as [Hc|Hc]; lia.
Qed.
Lemma colon_single t r : single_text t -> at_line_end r -> yaml_colon (Some 39%N) (t ++ 39%N :: r) = None.
Proof.
  intros H R. induction H as [|c t Hb Hq H IH|t H IH]; cbn [app yaml_colon].
  - change ((39 =? 13)%N || (39 =? 10)%N) with false. change (39 =? 39)%N with true. cbv iota. rewrite colon_end by exact R. reflexivity.
  - unfold line_break in Hb. rewrite (proj2 (N.eqb_neq c 13)), (proj2 (N.eqb_neq c 10)), (proj2 (N.eqb_neq c 39)) by tauto. cbn [orb]. change (39 =? 34)%N with false. rewrite andb_false_r, IH. reflexivity.
  - change ((39 =? 13)%N || (39 =? 10)%N) with false. change (39 =? 39)%N with true. change (39 =? 34)%N with false. cbn [orb]. cbv iota. rewrite IH. reflexivity.
Qed.
Lemma colon_scalar p r : yaml_scalar p -> at_line_end r -> yaml_colon None (text p ++ r) = None.
Proof.
  assert (A : forall w, Forall (fun c => ~ line_break c /\ c <> 34%N /\ c <> 58%N) w -> at_line_end r -> yaml_colon None (w ++ r) = None).
  { intros w F R. apply colon_plain; auto; [eapply Forall_impl; [|exact F]; cbn beta; tauto|]. intros a b ->. apply Forall_app in F as [_ F]. inversion F. tauto. }
  intros [w (_ & F & S & _)|w h H|w (n & f & _ & Fn & Hf & ->)|body H|t H] R; rewrite ?text_one.
  - apply colon_plain; auto. eapply Forall_impl; [|exact F]. cbn beta. unfold line_break. intros c (H1 & H2). split; [lia|]. intros ->. apply H2. cbn. tauto.
  - apply A; [|exact R]. cbn in H. repeat (destruct H as [[= <- <-]|H]; [repeat (constructor; [unfold line_break; lia|]); constructor|]). contradiction.
  - apply A; [|exact R]. apply Forall_app. split; [eapply Forall_impl; [|exact Fn]; cbn beta; unfold digit, line_break; intros; lia|]. destruct Hf as [->|(d & -> & _ & Fd)]; constructor; [unfold line_break; lia|]. eapply Forall_impl; [|exact Fd]. cbn beta; unfold digit, line_break; intros; lia.
  - change (text (quote 34 :: body ++ [quote 34])) with (34%N :: text (body ++ [quote 34])). rewrite text_app. cbn [app yaml_colon]. change ((34 =? 13)%N || (34 =? 10)%N) with false. change (34 =? 34)%N with true. cbn [orb]. cbv iota. rewrite <- app_assoc. rewrite (colon_double _ _ _ _ H); [reflexivity|]. cbn [text map concat quote fst app yaml_colon]. change ((34 =? 13)%N || (34 =? 10)%N) with false. change (34 =? 34)%N with true. cbv iota. rewrite colon_end by exact R. reflexivity.
  - change (text (quote 39 :: opt_piece t hl_string ++ [quote 39])) with (39%N :: text (opt_piece t hl_string ++ [quote 39])). rewrite text_app, opt_piece_text. cbn [app yaml_colon]. change ((39 =? 13)%N || (39 =? 10)%N) with false. change (39 =? 39)%N with true. change (39 =? 34)%N with false. cbn [orb]. cbv iota. rewrite <- app_assoc. change (text [quote 39]) with [39%N]. cbn [app]. rewrite colon_single by assumption. reflexivity.
Qed.

(** ** Lines *)
Lemma does_break_end s w rest : line_ends w rest -> does yaml_skip_line_break s [(w, None)] rest tt s.
Proof. intros [H|[-> ->]]; [apply does_break; exact H|]. unfold yaml_skip_line_break. apply does_get. apply does_advance. reflexivity. Qed.
Lemma indent_exact k rest : spaces k -> not_before (fun c => c = 32%N) rest -> yaml_indent (k ++ rest) = length k.
Proof.
  intros F R. unfold yaml_indent. rewrite length_if_eq. apply prefix_len_exact; [eapply Forall_impl; [|exact F]; cbn beta; intros c ->; reflexivity|]. eapply not_before_impl; [|exact R]. cbn beta. intros c E. apply N.eqb_eq in E. auto.
Qed.
Lemma does_indent s k n rest : spaces k -> not_before (fun c => c = 32%N) rest -> n = length k -> does (yaml_consume_indent n) s [(k, None)] rest tt s.
Proof. intros F R ->. unfold yaml_consume_indent. apply does_get. rewrite text_one, indent_exact by assumption. apply does_advance. lia. Qed.
(** The first character of an entry *)
Definition entry_char (c : N) (t : str) : Prop := head_char c \/ c = 45%N /\ exists u, t = 32%N :: u.
Lemma field_head p : yaml_field p -> exists c t, text p = c :: t /\ head_char c.
Proof. intros [k H|k b q H _ _]; destruct (key_head_char k H) as (c & t & -> & Hc); rewrite text_cons; eexists _, _; (split; [reflexivity|exact Hc]). Qed.
Lemma entry_head p : yaml_entry p -> exists c t, text p = c :: t /\ forall r, entry_char c (t ++ r).
Proof.
  unfold entry_char. intros [q H|b q _ _|b q _ _].
  - destruct (field_head q H) as (c & t & -> & Hc). eauto.
  - eexists _, _. split; [reflexivity|]. intros r. right. split; [reflexivity|eexists; reflexivity].
  - eexists _, _. split; [reflexivity|]. intros r. right. split; [reflexivity|eexists; reflexivity].
Qed.
Lemma entry_char_cases c t : entry_char c t -> (c = 34 \/ c = 39 \/ c = 45 \/ 47 <= c)%N /\ ~ In c (bs ":;<=>?@[]\^`{|}").
Proof. unfold entry_char, head_char, word_start, letter, digit. intros H. split; [lia|]. cbn. intros I. repeat destruct I as [<-|I]; try lia. Qed.
Lemma entry_no_space c t : entry_char c t -> not_before (fun c => c = 32%N) (c :: t).
Proof. intros H. apply entry_char_cases in H as [H _]. apply not_before_cons. lia. Qed.
Lemma entry_no_break c t : entry_char c t -> yaml_at_break (c :: t) = false.
Proof. intros H. apply entry_char_cases in H as [H _]. rewrite breaks, (proj2 (N.eqb_neq c 13)), (proj2 (N.eqb_neq c 10)) by lia. reflexivity. Qed.
(** Lines without notes in front *)
Inductive entry_lines : nat -> list piece -> Prop :=
| entries_end : entry_lines 0 []
| entries_more n k p w l : spaces k -> yaml_entry p -> line_ends w (text l) -> yaml_lines n l -> entry_lines (S n) ((k, None) :: p ++ (w, None) :: l).
Lemma entry_yaml n l : entry_lines n l -> yaml_lines n l.
Proof. intros [|m k p w l' H1 H2 H3 H4]; constructor; assumption. Qed.
Lemma entry_break n l : entry_lines n l -> yaml_at_break (text l) = false.
Proof.
  intros [|m k p w l' H1 H2 H3 H4]; [reflexivity|]. rewrite text_cons, text_app. destruct H1 as [|c k -> H1]; [|reflexivity]. destruct (entry_head p H2) as (c & t & E & Hc). rewrite E. cbn [app]. apply entry_no_break. apply Hc.
Qed.
Lemma lines_nil n l : yaml_lines n l -> text l = [] -> n = 0 /\ l = [].
Proof.
  intros [|m w l' H1 H2|m k c w l' H1 H2 H3 H4|m k p w l' H1 H2 H3 H4]; [auto| | |].
  - rewrite text_cons. destruct (newline_head _ _ H1) as (? & ? & -> & _). discriminate.
  - rewrite !text_cons. destruct k; discriminate.
  - rewrite text_cons, text_app. destruct (entry_head p H2) as (c & t & -> & _). destruct k; discriminate.
Qed.
Lemma entries_nil l : entry_lines 0 l -> l = [].
Proof. inversion 1. reflexivity. Qed.
Lemma does_blank s n l : yaml_lines n l -> exists l1 l2, l = l1 ++ l2 /\ entry_lines n l2 /\ does yaml_blank_lines s l1 (text l2) tt s.
Proof.
  unfold yaml_blank_lines. induction 1 as [|n w l H1 H2 IH|n k c w l H1 H2 H3 H4 IH|n k p w l H1 H2 H3 H4 IH].
  - exists [], []. split; [reflexivity|]. split; [constructor|]. apply does_stop. apply does_get. apply does_ret.
  - destruct IH as (l1 & l2 & -> & E & D). exists ((w, None) :: l1), l2. split; [reflexivity|]. split; [exact E|]. change ((w, None) :: l1) with ([(w, None)] ++ l1). rewrite text_app in H1. destruct (newline_head _ _ H1) as (x & t & Ew & Hx). eapply does_unroll; [|rewrite text_one, Ew; discriminate|exact D].
    unfold yaml_blank_body. apply does_get. rewrite text_one. rewrite (newline_at _ _ H1). assert (X : forall T (a b : T), match w ++ text l1 ++ text l2 with [] => a | _ => b end = b) by (intros; rewrite Ew; reflexivity). rewrite X. eapply does_last; [apply does_break; exact H1|]. apply does_ret.
  - destruct IH as (l1 & l2 & -> & E & D). exists (((k, None) :: (bs "#", Some hl_comment_delim) :: opt_piece c hl_comment ++ [(w, None)]) ++ l1), l2. split; [cbn [app]; rewrite <- !app_assoc; reflexivity|]. split; [exact E|]. rewrite text_app in H3.
    eapply does_unroll; [|rewrite !text_cons; destruct k; discriminate|exact D]. unfold yaml_blank_body. apply does_get. rewrite text_cons, <- app_assoc. rewrite (text_cons (bs "#")). change (bs "#") with [35%N]. cbn [app].
    set (r := text (opt_piece c hl_comment ++ [(w, None)]) ++ text l1 ++ text l2). rewrite (indent_exact k (35%N :: r)) by (try assumption; apply not_before_cons; lia). assert (Ne : k ++ 35%N :: r <> []) by (destruct k; discriminate).
    assert (B : yaml_at_break (k ++ 35%N :: r) = false) by (destruct H1 as [|? ? -> _]; reflexivity). rewrite B.
    assert (X : (length k <? length (k ++ 35%N :: r)) && (nth (length k) (k ++ 35%N :: r) 0 =? ch "#")%N = true) by (rewrite app_nth2, Nat.sub_diag by lia; rewrite (proj2 (Nat.ltb_lt _ _)) by (rewrite app_length; cbn; lia); reflexivity). rewrite X.
    assert (Y : forall T (a b : T), match k ++ 35%N :: r with [] => a | _ => b end = b) by (intros; destruct k; reflexivity). rewrite Y.
    apply does_cons with (x := tt) (s1 := s); [apply does_indent; [exact H1|apply not_before_cons; lia|reflexivity]|]. rewrite app_comm_cons. eapply does_bind; [apply (does_comment s c); [exact H2|rewrite text_one; apply line_end_at; exact H3]|]. eapply does_last; [apply does_break_end; exact H3|]. apply does_ret.
  - exists [], ((k, None) :: p ++ (w, None) :: l). split; [reflexivity|]. split; [constructor; assumption|]. apply does_stop. unfold yaml_blank_body. apply does_get. cbn [text map concat app]. change (concat (map fst (p ++ (w, None) :: l))) with (text (p ++ (w, None) :: l)). cbn [fst].
    destruct (entry_head p H2) as (c & t & E & Hc). rewrite text_app, E. cbn [app]. set (r := t ++ text ((w, None) :: l)). specialize (Hc (text ((w, None) :: l))). fold r in Hc.
    rewrite indent_exact by (try assumption; apply entry_no_space; exact Hc). 
    assert (B : yaml_at_break (k ++ c :: r) = false) by (destruct H1 as [|? ? -> _]; [apply entry_no_break; exact Hc|reflexivity]). rewrite B.
    assert (X : (length k <? length (k ++ c :: r)) && (nth (length k) (k ++ c :: r) 0 =? ch "#")%N = false) by (rewrite app_nth2, Nat.sub_diag by lia; cbn [nth]; apply entry_char_cases in Hc as [Hc _]; rewrite (proj2 (N.eqb_neq c (ch "#"))) by (cbn; lia); apply andb_false_r). rewrite X.
    assert (Y : forall T (a b : T), match k ++ c :: r with [] => a | _ => b end = b) by (intros; destruct k; reflexivity). rewrite Y. apply does_ret.
Qed.
(** ** Blocks *)
Definition node_ok (node : nat -> nat -> M (list nat) unit) (m : nat) : Prop :=
  forall e s n l B, yaml_lines n l -> n + length s <= B -> B <= 64 -> length (text l) < m ->
    exists l1 l2 n2 s', l = l1 ++ l2 /\ entry_lines n2 l2 /\ n2 + length s' <= B /\ (e = 0 -> l2 = []) /\ does (node e 0) s l1 (text l2) tt s'.
Lemma text_length_app l1 l2 : length (text (l1 ++ l2)) = length (text l1) + length (text l2).
Proof. rewrite text_app, app_length. reflexivity. Qed.
(** The end of a line with a key, and the entries below that belong to it *)
Lemma does_below node m line s w n l B : node_ok node m -> line_ends w (text l) -> yaml_lines n l -> n + length s <= B -> B <= 64 -> length (text l) < m ->
  exists l1 l2 n2 s', l = l1 ++ l2 /\ entry_lines n2 l2 /\ n2 + length s' <= B /\
    does (yaml_skip_line ;; yaml_blank_lines ;; (let! r := get_rem in
          when (match r with [] => false | _ => negb (yaml_at_break r) && (line <? yaml_indent r) end) (node line 0) ;; ret true)) s ((w, None) :: l1) (text l2) true s'.
Proof.
  intros IH W H Hb B64 L. destruct (does_blank s n l H) as (l1 & l2 & -> & E & D). 
  set (c := match text l2 with [] => false | _ => negb (yaml_at_break (text l2)) && (line <? yaml_indent (text l2)) end).
  assert (X : exists l3 l4 n4 s', l2 = l3 ++ l4 /\ entry_lines n4 l4 /\ n4 + length s' <= B /\ does (when c (node line 0)) s l3 (text l4) tt s').
  { destruct c; [|exists [], l2, n, s; split; [reflexivity|split; [exact E|split; [exact Hb|apply does_ret]]]].
    destruct (IH line s n l2 B (entry_yaml _ _ E) Hb B64) as (l3 & l4 & n4 & s' & -> & E4 & Hb4 & _ & D4); [rewrite text_length_app in L; lia|]. exists l3, l4, n4, s'. auto. }
  destruct X as (l3 & l4 & n4 & s' & -> & E4 & Hb4 & D4). exists (l1 ++ l3), l4, n4, s'. split; [apply app_assoc|]. split; [exact E4|]. split; [exact Hb4|].
  apply does_cons with (x := tt) (s1 := s); [apply does_line_end; rewrite !text_app in W; rewrite text_app, <- app_assoc; exact W|]. eapply does_bind; [rewrite text_app in D; exact D|]. apply does_get. rewrite <- text_app. fold c. eapply does_last; [exact D4|]. apply does_ret.
Qed.
Lemma line_end_cases w rest : line_ends w rest -> forall p, starts_with_ch (w ++ rest) p = true -> line_break p.
Proof. intros H p E. destruct (line_end_at _ _ H) as [X|(c & t & X & Hc)]; rewrite X in E; cbn in E; [discriminate|]. apply N.eqb_eq in E as <-. exact Hc. Qed.
Lemma does_field node m line s p w n l B : node_ok node m -> yaml_field p -> line_ends w (text l) -> yaml_lines n l -> n + length s <= B -> B <= 64 -> length (text l) < m ->
  exists l1 l2 n2 s', l = l1 ++ l2 /\ entry_lines n2 l2 /\ n2 + length s' <= B /\ does (yaml_key node line) s (p ++ (w, None) :: l1) (text l2) true s'.
Proof.
  intros IH Hp W H Hb B64 L. destruct (does_below node m line s w n l B IH W H Hb B64 L) as (l1 & l2 & n2 & s' & -> & E2 & Hb2 & D). exists l1, l2, n2, s'. split; [reflexivity|]. split; [exact E2|]. split; [exact Hb2|].
  rewrite text_app in W. pose proof (line_end_at _ _ W) as We. destruct Hp as [k Hk|k b p Hk Hsp Hp].
  - unfold yaml_key. apply does_get. cbn [app]. change (text ((k, Some hl_markup_attr) :: punctuation 58 :: (w, None) :: l1)) with (k ++ 58%N :: w ++ text l1). rewrite <- app_assoc. cbn [app]. rewrite <- app_assoc.
    assert (Sp : yaml_separates (w ++ text l1 ++ text l2) = true) by (destruct We as [X|(c & t & X & [-> | ->])]; rewrite X; cbn [yaml_separates]; rewrite ?breaks; reflexivity). rewrite colon_key by assumption.
    apply does_cons with (x := tt) (s1 := s).
    { unfold yaml_content. apply does_get. rewrite text_one. cbv zeta. rewrite trim_key by exact Hk. destruct (key_head_char k Hk) as (c & t & -> & _). apply does_emit; [reflexivity|discriminate]. }
    apply does_cons with (x := tt) (s1 := s); [apply does_emit; [reflexivity|discriminate]|]. apply does_get. rewrite text_cons, <- app_assoc. set (r := w ++ text l1 ++ text l2) in *.
    assert (S1 : forall x, ~ line_break x -> starts_with_ch r x = false) by (intros x Hx; destruct (starts_with_ch r x) eqn:X; [elim Hx; apply (line_end_cases w _ W); exact X|reflexivity]).
    rewrite S1 by (unfold line_break; lia). eapply does_nil; [apply does_ret|]. unfold yaml_inline_space at 1. apply does_nil with (x := tt) (s1 := s).
    { rewrite text_cons, <- app_assoc. fold r. apply does_get. cbn [text map concat app]. change (length_if r is_yaml_whitespace) with (length_if ([] ++ r) is_yaml_whitespace). rewrite white_exact; [apply does_add; apply does_advance; reflexivity|constructor|]. intros x Ex Hx. destruct We as [X|(c & t & X & Hc)]; rewrite X in Ex; [discriminate|]. injection Ex as <-. destruct Hc, Hx; subst; discriminate. }
    apply does_get. rewrite text_cons, <- app_assoc. fold r.
    assert (S2 : starts_with r (bs "- ") || starts_with r (bs "? ") = false) by (destruct We as [X|(c & t & X & [-> | ->])]; rewrite X; reflexivity). rewrite S2, !S1 by (unfold line_break; cbn; lia). cbn [orb]. cbv zeta.
    assert (S3 : match r with [] => false | c :: _ => negb (yaml_at_break r) && negb (c =? ch "#")%N end = false) by (destruct We as [X|(c & t & X & Hc)]; rewrite X; [reflexivity|]; rewrite breaks; destruct Hc as [-> | ->]; reflexivity). rewrite S3.
    eapply does_nil; [apply does_ret|]. exact D.
  - unfold yaml_key. apply does_get. cbn [app]. change (text ((k, Some hl_markup_attr) :: punctuation 58 :: (32%N :: b, None) :: p ++ (w, None) :: l1)) with (k ++ 58%N :: 32%N :: b ++ text (p ++ (w, None) :: l1)). rewrite <- app_assoc. cbn [app].
    rewrite colon_key by (try assumption; reflexivity). destruct (value_head p Hp) as (c & t & E & Hc). destruct (node_char_cases c Hc) as [C1 C2].
    apply does_cons with (x := tt) (s1 := s).
    { unfold yaml_content. apply does_get. rewrite text_one. cbv zeta. rewrite trim_key by exact Hk. destruct (key_head_char k Hk) as (c' & t' & -> & _). apply does_emit; [reflexivity|discriminate]. }
    apply does_cons with (x := tt) (s1 := s); [apply does_emit; [reflexivity|discriminate]|]. apply does_get. cbn [text map concat app fst starts_with_ch]. apply (does_join _ s [32%N] b). apply does_cons with (x := tt) (s1 := s); [apply does_advance; reflexivity|].
    apply does_cons with (x := tt) (s1 := s).
    { unfold yaml_inline_space. apply does_get. rewrite text_one. rewrite white_exact; [apply does_advance; reflexivity|eapply Forall_impl; [|exact Hsp]; cbn beta; auto|]. rewrite text_app, E. cbn [app]. apply fresh_white, node_fresh, Hc. }
    apply does_get. rewrite text_app, E, <- app_assoc. set (r := text ((w, None) :: l1) ++ text l2). cbn [app].
    assert (S1 : forall x u v, In x (bs "-?|>") -> starts_with (c :: v) (x :: u) = false) by (intros x u v Hx; cbn [starts_with]; rewrite (proj2 (N.eqb_neq c x)); [reflexivity|]; intros ->; cbn in Hx; cbn in C2; intuition lia).
    assert (S2 : starts_with (c :: t ++ r) (bs "- ") || starts_with (c :: t ++ r) (bs "? ") = false) by (change (bs "- ") with [45; 32]%N; change (bs "? ") with [63; 32]%N; rewrite !S1 by (cbn; tauto); reflexivity). rewrite S2.
    assert (S3 : starts_with_ch (c :: t ++ r) (ch "|") || starts_with_ch (c :: t ++ r) (ch ">") = false) by (cbn [starts_with_ch]; rewrite (proj2 (N.eqb_neq c (ch "|"))), (proj2 (N.eqb_neq c (ch ">"))); [reflexivity|intros ->; apply C2; cbn; tauto|intros ->; apply C2; cbn; tauto]). rewrite S3. cbv zeta.
    assert (S4 : negb (yaml_at_break (c :: t ++ r)) && negb (c =? ch "#")%N = true) by (rewrite value_break by exact Hc; rewrite (proj2 (N.eqb_neq c (ch "#"))) by (cbn; lia); reflexivity). rewrite S4. cbv iota.
    eapply does_bind; [apply does_value; [exact Hp|]|exact D]. rewrite text_cons, <- app_assoc. apply line_end_value. exact We.
Qed.
Lemma does_push n s rest : length s < 64 -> does (yaml_push n) s [] rest tt (n :: s).
Proof. intros L. unfold yaml_push. apply does_get_loc. apply does_check; [apply Nat.ltb_lt; exact L|]. intros i o. unfold wp, set_loc. cbn. rewrite Nat.add_0_r. split; reflexivity. Qed.
Lemma has_node c t : head_char c -> yaml_has_node (c :: t) = true.
Proof. intros H. assert (Hc : node_char c) by (left; exact H). unfold yaml_has_node. rewrite value_break by exact Hc. destruct (node_char_cases c Hc) as [H1 _]. rewrite (proj2 (N.eqb_neq c (ch "#"))) by (cbn; lia). reflexivity. Qed.
Lemma head_no_dash c t u : head_char c -> starts_with (c :: t) (45%N :: u) = false.
Proof. intros H. cbn [starts_with]. rewrite (proj2 (N.eqb_neq c 45)); [reflexivity|]. unfold head_char, word_start, letter, digit in H. lia. Qed.
(** What follows the dash of an item *)
Lemma does_item node m line s q w n l B : node_ok node m -> yaml_scalar q \/ yaml_field q -> line_ends w (text l) -> yaml_lines n l -> S n + length s <= B -> B <= 64 -> length (text l) < m ->
  exists l1 l2 n2 s', l = l1 ++ l2 /\ yaml_lines n2 l2 /\ n2 + length s' <= B /\
    does (yaml_compact node (line + 1) ;; (let! r := get_rem in when (yaml_at_break r) yaml_skip_line ;; yaml_push line ;; node line 0 ;; ret (inl (B := unit) tt))) s (q ++ (w, None) :: l1) (text l2) (inl tt) s'.
Proof.
  intros IH Hq W H Hb B64 L. destruct Hq as [Hq|Hq].
  - destruct (IH line (line :: s) n l B H ltac:(cbn [length]; lia) B64 L) as (l1 & l2 & n2 & s' & -> & E2 & Hb2 & _ & D). exists l1, l2, n2, s'. split; [reflexivity|]. split; [apply entry_yaml; exact E2|]. split; [exact Hb2|]. rewrite text_app in W.
    destruct (scalar_head q Hq) as (c & t & E & Hc). pose proof (line_end_at _ _ W) as We. eapply does_bind with (x := tt).
    { unfold yaml_compact. rewrite text_cons, <- app_assoc. apply does_get. rewrite E. cbn [app]. change (bs "- ") with [45; 32]%N. rewrite head_no_dash by exact Hc. apply does_nil with (x := false) (s1 := s).
      - unfold yaml_key. apply does_get. cbn [text map concat app]. change (concat (map fst q)) with (text q). rewrite colon_scalar by assumption. apply does_ret.
      - apply does_value; [constructor; exact Hq|apply line_end_value; exact We]. }
    apply does_get. rewrite text_cons, <- app_assoc. apply does_cons with (x := tt) (s1 := s).
    { destruct W as [W|[-> Z]]; [rewrite (newline_at _ _ W); apply does_line_end; left; exact W|]. rewrite Z. cbn. apply does_drop. apply does_ret. }
    eapply does_nil; [apply does_push; lia|]. eapply does_last; [exact D|]. apply does_ret.
  - destruct (does_field node m (line + 1) s q w n l (B - 1) IH Hq W H ltac:(lia) ltac:(lia) L) as (l1 & l2 & n2 & s1 & -> & E2 & Hb2 & D1).
    destruct (IH line (line :: s1) n2 l2 B (entry_yaml _ _ E2) ltac:(cbn [length]; lia) B64 ltac:(rewrite text_length_app in L; lia)) as (l3 & l4 & n4 & s' & -> & E4 & Hb4 & _ & D). exists (l1 ++ l3), l4, n4, s'. split; [apply app_assoc|]. split; [apply entry_yaml; exact E4|]. split; [exact Hb4|].
    destruct (field_head q Hq) as (c & t & E & Hc). rewrite app_comm_cons, app_assoc. eapply does_bind with (x := tt).
    { unfold yaml_compact. rewrite <- text_app. apply does_get. rewrite text_app, E. cbn [app]. change (bs "- ") with [45; 32]%N. rewrite head_no_dash by exact Hc. eapply does_last; [exact D1|]. apply does_ret. }
    apply does_get. rewrite <- text_app. rewrite (entry_break _ _ E2). eapply does_nil; [apply does_ret|]. eapply does_nil; [apply does_push; lia|]. eapply does_last; [exact D|]. apply does_ret.
Qed.
Lemma pop_length n l : length (yaml_pop n l) <= length l.
Proof. induction l as [|x l IH]; [reflexivity|]. cbn [yaml_pop]. destruct (n <=? x); cbn [length]; lia. Qed.
Lemma does_body node m eff s n l B : node_ok node m -> yaml_lines n l -> n + length s <= B -> B <= 64 -> length (text l) <= m ->
  (exists l1 l2 n2 s', l = l1 ++ l2 /\ entry_lines n2 l2 /\ n2 + length s' <= B /\ (eff = 0 -> l2 = []) /\ does (yaml_block_body node eff tt) s l1 (text l2) (inr tt) s')
  \/ (exists l1 l2 n2 s', l = l1 ++ l2 /\ yaml_lines n2 l2 /\ n2 + length s' <= B /\ text l1 <> [] /\ does (yaml_block_body node eff tt) s l1 (text l2) (inl tt) s').
Proof.
  intros IH H Hb B64 L. destruct (text l) as [|x0 u0] eqn:El.
  { destruct (lines_nil n l H El) as [-> ->]. left. exists [], [], 0, s. split; [reflexivity|]. split; [constructor|]. split; [exact Hb|]. split; [auto|]. apply does_eof_end. apply does_ret. }
  rewrite <- El in L. destruct (does_blank s n l H) as (l1 & l2 & -> & E & D). unfold yaml_block_body. rewrite text_app in El. destruct E as [|n k p w l' H1 H2 H3 H4].
  { left. exists l1, [], 0, s. split; [reflexivity|]. split; [constructor|]. split; [exact Hb|]. split; [auto|]. apply does_eof; [rewrite El; discriminate|]. eapply does_last; [exact D|]. apply does_eof_end. apply does_ret. }
  destruct (entry_head p H2) as (c & t & Ec & Hc). set (l2 := (k, None) :: p ++ (w, None) :: l') in *. assert (E2 : text l2 = k ++ c :: t ++ text ((w, None) :: l')) by (unfold l2; rewrite text_cons, text_app, Ec; reflexivity).
  specialize (Hc (text ((w, None) :: l'))). assert (Ne : text l2 <> []) by (rewrite E2; destruct k; discriminate).
  assert (Ei : yaml_indent (text l2) = length k) by (rewrite E2; apply indent_exact; [exact H1|apply entry_no_space; exact Hc]).
  assert (Em : (length k =? 0) && (starts_with (text l2) (bs "---") || starts_with (text l2) (bs "...")) = false).
  { rewrite E2. destruct k; [|reflexivity]. cbn [app length Nat.eqb andb]. change (bs "---") with [45; 45; 45]%N. change (bs "...") with [46; 46; 46]%N. destruct Hc as [Hc|[-> (u & ->)]]; [|reflexivity]. rewrite head_no_dash by exact Hc. cbn [starts_with orb]. rewrite (proj2 (N.eqb_neq c 46)); [reflexivity|]. unfold head_char, word_start, letter, digit in Hc. lia. }
  destruct ((length k <? eff) && match s with [] => false | top :: _ => length k <=? top end) eqn:Pop.
  { left. exists l1, l2, (S n), (yaml_pop (length k) s). split; [reflexivity|]. split; [constructor; assumption|]. split; [pose proof (pop_length (length k) s); lia|]. split; [intros ->; destruct (length k); discriminate|].
    apply does_eof; [rewrite El; discriminate|]. eapply does_last; [exact D|]. apply does_eof; [exact Ne|]. apply does_get. cbn [text map concat app]. change (concat (map fst l2)) with (text l2). rewrite Ei. cbv zeta. rewrite Em. apply does_get_loc. rewrite Pop. apply does_set_loc. apply does_ret. }
  right. assert (L' : length (text l') < m) by (rewrite text_length_app, E2, app_length in L; cbn [length] in L; rewrite app_length, text_cons, app_length in L; lia).
  assert (X : exists l3 l4 n4 s', l' = l3 ++ l4 /\ yaml_lines n4 l4 /\ n4 + length s' <= B /\ does (
          let! r := get_rem in
          if starts_with r (bs "? ") || (starts_with r (bs "?") && (1 <? length r) && yaml_at_break (skipn 1 r)) then
            emit_and_advance 1 hl_symbol_punc ;;
            yaml_space ;;
            let! r := get_rem in
            when (yaml_has_node r) (yaml_flow (length k + 1) false) ;;
            yaml_skip_line ;;
            yaml_space ;;
            let! r := get_rem in
            when (starts_with r (bs ": "))
              (yaml_consume_indent (length k) ;;
               emit_and_advance 1 hl_symbol_punc ;;
               yaml_space ;;
               let! r := get_rem in
               (if yaml_has_node r then node (length k) 0 else yaml_skip_line ;; node (length k) 0)) ;;
            ret (inl tt)
          else if starts_with r (bs "- ") then
            emit_and_advance 1 hl_symbol_punc ;;
            let! r := get_rem in
            when (starts_with_ch r 32) (advance 1) ;;
            yaml_space ;;
            let! r := get_rem in
            when (yaml_has_node r) (yaml_compact node (length k + 1)) ;;
            let! r := get_rem in
            when (yaml_at_break r) yaml_skip_line ;;
            yaml_push (length k) ;;
            node (length k) 0 ;;
            ret (inl tt)
          else if starts_with r (bs "| ") || starts_with r (bs "> ")
                  || (starts_with r (bs "|") && yaml_at_break (skipn 1 r)) || (starts_with r (bs ">") && yaml_at_break (skipn 1 r)) then
            yaml_block_scalar (length k) ;; ret (inl tt)
          else
            let! b := yaml_key node (length k) in
            if b then yaml_push (length k) ;; ret (inl tt)
            else
              let! r := get_rem in
              if yaml_has_node r then yaml_flow (length k) false ;; yaml_skip_line ;; ret (inl tt)
              else ret (inr tt)) s (p ++ (w, None) :: l3) (text l4) (inl tt) s').
  { assert (Q : forall x u v, In x (bs "?|>") -> starts_with (c :: v) (x :: u) = false) by (intros x u v Hx; cbn [starts_with]; rewrite (proj2 (N.eqb_neq c x)); [reflexivity|]; intros ->; apply entry_char_cases in Hc as [C1 C2]; cbn in Hx; cbn in C2; intuition lia).
    change (bs "? ") with [63; 32]%N. change (bs "?") with [63]%N. change (bs "| ") with [124; 32]%N. change (bs "> ") with [62; 32]%N. change (bs "|") with [124]%N. change (bs ">") with [62]%N. change (bs "- ") with [45; 32]%N.
    destruct H2 as [q Hq|b q Hsp Hq|b q Hsp Hq].
    - destruct (does_field node m (length k) s q w n l' (B - 1) IH Hq H3 H4 ltac:(lia) ltac:(lia) L') as (l3 & l4 & n4 & s1 & -> & E4 & Hb4 & D4). exists l3, l4, n4, (length k :: s1). split; [reflexivity|]. split; [apply entry_yaml; exact E4|]. split; [cbn [length]; lia|].
      apply does_get. rewrite text_app, Ec. cbn [app]. rewrite !(Q 63%N) by (cbn; tauto). cbn [orb andb]. rewrite !(Q 124%N), !(Q 62%N) by (cbn; tauto). cbn [orb andb]. destruct (field_head q Hq) as (c' & t' & Ec' & Hc'). rewrite Ec' in Ec. injection Ec as -> ->. rewrite head_no_dash by exact Hc'.
      eapply does_last; [exact D4|]. eapply does_nil; [apply does_push; lia|]. apply does_ret.
    - destruct (does_item node m (length k) s q w n l' B IH (or_introl Hq) H3 H4 ltac:(lia) B64 L') as (l3 & l4 & n4 & s1 & -> & E4 & Hb4 & D4). exists l3, l4, n4, s1. split; [reflexivity|]. split; [exact E4|]. split; [exact Hb4|].
      destruct (scalar_head q Hq) as (c' & t' & Ec' & Hc').
      apply does_get. cbn [app text map concat fst punctuation starts_with N.eqb Pos.eqb andb orb]. apply does_cons with (x := tt) (s1 := s); [apply does_emit; [reflexivity|discriminate]|]. apply does_get. cbn [text map concat app fst starts_with_ch]. apply (does_join _ s [32%N] b). apply does_cons with (x := tt) (s1 := s); [apply does_advance; reflexivity|].
      apply does_cons with (x := tt) (s1 := s); [apply does_gap; [eapply Forall_impl; [|exact Hsp]; cbn beta; auto|rewrite text_app, Ec'; apply node_fresh; left; exact Hc']|].
      apply does_get. assert (Z : yaml_has_node (text (q ++ (w, None) :: l3) ++ text l4) = true) by (rewrite text_app, Ec'; apply has_node; exact Hc'). rewrite Z. exact D4.
    - destruct (does_item node m (length k) s q w n l' B IH (or_intror Hq) H3 H4 ltac:(lia) B64 L') as (l3 & l4 & n4 & s1 & -> & E4 & Hb4 & D4). exists l3, l4, n4, s1. split; [reflexivity|]. split; [exact E4|]. split; [exact Hb4|].
      destruct (field_head q Hq) as (c' & t' & Ec' & Hc').
      apply does_get. cbn [app text map concat fst punctuation starts_with N.eqb Pos.eqb andb orb]. apply does_cons with (x := tt) (s1 := s); [apply does_emit; [reflexivity|discriminate]|]. apply does_get. cbn [text map concat app fst starts_with_ch]. apply (does_join _ s [32%N] b). apply does_cons with (x := tt) (s1 := s); [apply does_advance; reflexivity|].
      apply does_cons with (x := tt) (s1 := s); [apply does_gap; [eapply Forall_impl; [|exact Hsp]; cbn beta; auto|rewrite text_app, Ec'; apply node_fresh; left; exact Hc']|].
      apply does_get. assert (Z : yaml_has_node (text (q ++ (w, None) :: l3) ++ text l4) = true) by (rewrite text_app, Ec'; apply has_node; exact Hc'). rewrite Z. exact D4. }
  destruct X as (l3 & l4 & n4 & s' & -> & E4 & Hb4 & D4). exists (l1 ++ (k, None) :: p ++ (w, None) :: l3), l4, n4, s'. split; [unfold l2; rewrite <- app_assoc; cbn [app]; rewrite <- app_assoc; reflexivity|]. split; [exact E4|]. split; [exact Hb4|].
  assert (E5 : text ((k, None) :: p ++ (w, None) :: l3) ++ text l4 = text l2) by (rewrite <- text_app; unfold l2; cbn [app]; rewrite <- app_assoc; reflexivity).
  split; [rewrite text_app, text_cons, text_app, Ec; destruct (text l1), k; discriminate|].
  apply does_eof; [rewrite text_app, <- app_assoc, E5, El; discriminate|]. eapply does_bind; [rewrite E5; exact D|]. apply does_eof; [rewrite E5; exact Ne|]. apply does_get. rewrite E5, Ei. cbv zeta. rewrite Em. apply does_get_loc. rewrite Pop.
  apply does_cons with (x := tt) (s1 := s); [apply does_indent; [exact H1| |reflexivity]|exact D4].
  rewrite text_app, Ec. rewrite text_cons. clear - Hc. apply entry_char_cases in Hc as [Hc _]. apply not_before_cons. lia.
Qed.
Lemma node_ok_all fuel : node_ok (yaml_block_node fuel) fuel.
Proof.
  induction fuel as [|fuel IH]; intros e s n l B H Hb B64 L; [lia|]. cbn [yaml_block_node]. rewrite Nat.sub_0_r.
  assert (X : forall k s n l, length (text l) <= k -> k <= fuel -> yaml_lines n l -> n + length s <= B ->
    exists l1 l2 n2 s', l = l1 ++ l2 /\ entry_lines n2 l2 /\ n2 + length s' <= B /\ (e = 0 -> l2 = []) /\ does (hloop 1 (yaml_block_body (yaml_block_node fuel) e) tt) s l1 (text l2) tt s').
  { clear s n l H Hb L. induction k as [k IHk] using lt_wf_ind. intros s n l Lk Kf H Hb.
    destruct (does_body _ _ e s n l B IH H Hb B64 ltac:(lia)) as [(l1 & l2 & n2 & s' & -> & E2 & Hb2 & Ze & D)|(l1 & l2 & n2 & s1 & -> & E2 & Hb2 & Ne & D)].
    - exists l1, l2, n2, s'. split; [reflexivity|]. split; [exact E2|]. split; [exact Hb2|]. split; [exact Ze|]. apply does_stop. exact D.
    - assert (P : 0 < length (text l1)) by (destruct (text l1); [congruence|cbn; lia]). rewrite text_length_app in Lk.
      destruct (IHk (length (text l2)) ltac:(lia) s1 n2 l2 ltac:(lia) ltac:(lia) E2 Hb2) as (l3 & l4 & n4 & s' & -> & E4 & Hb4 & Ze & D4). exists (l1 ++ l3), l4, n4, s'. split; [apply app_assoc|]. split; [exact E4|]. split; [exact Hb4|]. split; [exact Ze|].
      eapply does_unroll; [rewrite text_app in D; exact D|exact Ne|exact D4]. }
  apply (X (length (text l)) s n l); lia || assumption.
Qed.

(** ** Documents *)
Lemma first_lines n l : yaml_lines n l -> exists q l2, space_run q (text l2) /\ entry_lines n l2 /\ (l2 = [] \/ exists p, l2 = ([], None) :: p) /\ text l = text (q ++ l2) /\ forall i, tokens i l = tokens i (q ++ l2).
Proof.
  induction 1 as [|n w l H1 H2 IH|n k c w l H1 H2 H3 H4 IH|n k p w l H1 H2 H3 H4 IH].
  - exists [([], None)], []. split; [constructor; [constructor|intros c t; discriminate]|]. split; [constructor|]. split; [eauto|]. split; reflexivity.
  - destruct IH as (q & l2 & Q & E & Sh & X & K). exists (([], None) :: (w, None) :: q), l2. split; [constructor; [constructor|rewrite <- text_app, <- X; exact H1|exact Q]|]. split; [exact E|]. split; [exact Sh|]. cbn [app]. split; [rewrite !text_cons, X; reflexivity|]. intros i. cbn [tokens length]. rewrite Nat.add_0_r. apply K.
  - assert (Hw : Forall (fun c => c = 32 \/ c = 9)%N k) by (eapply Forall_impl; [|exact H1]; cbn beta; auto). destruct H3 as [H3|[-> Z]].
    + destruct IH as (q & l2 & Q & E & Sh & X & K). exists ((k, None) :: (bs "#", Some hl_comment_delim) :: opt_piece c hl_comment ++ (([], None) :: (w, None) :: q)), l2. split; [|split; [exact E|split; [exact Sh|]]].
      * constructor; [exact Hw|exact H2| |constructor; [constructor|rewrite <- text_app, <- X; exact H3|exact Q]]. rewrite text_cons, text_cons. cbn [app]. rewrite <- app_assoc, <- text_app, <- X. apply line_end_at. left. exact H3.
      * cbn [app]. rewrite <- app_assoc. split.
        -- rewrite !text_cons, !text_app, !text_cons, X, text_app. cbn [app]. rewrite <- app_assoc. reflexivity.
        -- intros i. cbn [tokens]. f_equal. rewrite !tokens_app. f_equal. cbn [app tokens length]. rewrite K, tokens_app, !text_cons, Nat.add_0_r. cbn [app]. rewrite app_length, Nat.add_assoc. reflexivity.
    + destruct (lines_nil _ _ H4 Z) as [-> ->]. exists ((k, None) :: (bs "#", Some hl_comment_delim) :: opt_piece c hl_comment ++ [([], None)]), []. split; [|split; [constructor|split; [eauto|]]].
      * constructor; [exact Hw|exact H2|left; reflexivity|constructor; [constructor|intros x y; discriminate]].
      * rewrite app_nil_r. split; reflexivity.
  - exists [(k, None)], (([], None) :: p ++ (w, None) :: l). assert (Hw : Forall (fun c => c = 32 \/ c = 9)%N k) by (eapply Forall_impl; [|exact H1]; cbn beta; auto). destruct (entry_head p H2) as (c & t & E & Hc).
    split; [|split; [constructor; [constructor|assumption..]|split; [eauto|]]].
    + constructor; [exact Hw|]. rewrite text_cons, text_app, E. cbn [app]. specialize (Hc (text ((w, None) :: l))). apply entry_char_cases in Hc as [Hc _]. apply fresh_char; try lia. destruct (is_yaml_whitespace c) eqn:F; [|reflexivity]. unfold is_yaml_whitespace in F. apply mem_In in F. cbn in F. lia.
    + cbn [app]. split; [reflexivity|]. intros i. cbn [tokens length]. rewrite Nat.add_0_r. reflexivity.
Qed.
Lemma does_document n l s : entry_lines n l -> n <= 64 -> (exists p, l = ([], None) :: p) -> exists s', does yaml_document s l [] tt s'.
Proof.
  intros E Hn (p0 & El). destruct (node_ok_all (length (text l ++ []) + 1) 0 [] n l 64 (entry_yaml _ _ E) ltac:(cbn; lia) ltac:(lia)) as (l1 & l2 & n2 & s' & -> & _ & _ & Z & D); [rewrite app_length; cbn; lia|]. rewrite (Z eq_refl), app_nil_r in *. clear Z l2. cbn [text map concat] in D. exists s'.
  destruct E as [|m k p w l H1 H2 H3 H4]; [discriminate|]. injection El as -> _. destruct (entry_head p H2) as (c & t & Ec & Hc). match goal with |- does _ _ ?x _ _ _ => set (l1 := x) in * end.
  specialize (Hc (text ((w, None) :: l))). assert (E : text l1 = c :: t ++ text ((w, None) :: l)) by (unfold l1; rewrite text_cons, text_app, Ec; reflexivity). destruct (entry_char_cases _ _ Hc) as [C1 C2].
  unfold yaml_document. apply does_set_loc. apply does_no_space.
  { rewrite E. cbn [app]. apply fresh_char; try lia. destruct (is_yaml_whitespace c) eqn:F; [|reflexivity]. unfold is_yaml_whitespace in F. apply mem_In in F. cbn in F. lia. }
  apply does_eof; [rewrite E; discriminate|]. apply does_get. cbv zeta.
  assert (X : starts_with (text l1 ++ []) (bs "---") = false). { rewrite E. change (bs "---") with [45; 45; 45]%N. destruct Hc as [Hc|[-> (u & Eu)]]; [apply head_no_dash; exact Hc|]. rewrite Eu. reflexivity. }
  rewrite X, andb_false_r. eapply does_nil; [apply does_ret|]. apply does_get.
  assert (Y : starts_with_ch (text l1 ++ []) (ch "%") = false) by (rewrite E; cbn [app starts_with_ch]; apply N.eqb_neq; cbn; lia). rewrite Y, andb_false_r. eapply does_nil; [apply does_ret|].
  unfold yaml_body. apply does_eof; [rewrite E; discriminate|]. apply does_get. rewrite app_nil_r in D. rewrite app_nil_r. exact D.
Qed.
Lemma does_prefix s q rest : space_run q rest -> text q ++ rest <> [] -> does yaml_prefix s q rest tt s.
Proof.
  intros Q Ne. unfold yaml_prefix. apply does_stop. apply does_eof; [exact Ne|]. eapply does_last; [apply does_space; exact Q|]. destruct rest as [|y v].
  - apply does_eof_end. apply does_ret.
  - apply does_eof; [discriminate|]. assert (F : fresh (y :: v)) by (clear - Q; induction Q; auto).
    eapply does_nil with (x := false); [|apply does_ret]. unfold yaml_comment_or_blank. apply does_no_space; [exact F|]. apply does_eof; [discriminate|]. apply does_get. cbn [text map concat app]. rewrite fresh_no_hash, fresh_no_break by exact F. apply does_ret.
Qed.
Lemma does_run {S} (init : S) m src l s' : text l = src -> does m init l [] true s' -> run init m src = Ok (true, tokens 0 l).
Proof.
  intros <- H. specialize (H 0 []). unfold run, wp in *. rewrite app_nil_r in H. destruct (m _) as [[b st]|f]; [|contradiction]. destruct H as [-> ->]. cbn [rops]. rewrite app_nil_r, rev_involutive. reflexivity.
Qed.

(** C182: the tokens of YAML documents. *)
Theorem C182_yaml_lexemes : forall l, yaml_document_lines l -> tokenizes highlight_yaml l.
Proof.
  intros l (n & Hn & H) strict. unfold highlight_yaml. destruct (text l) as [|x u] eqn:El.
  { destruct (lines_nil n l H El) as [-> ->]. reflexivity. }
  destruct (first_lines n l H) as (q & l2 & Q & E & Sh & X & K). rewrite <- El, X, (K 0). assert (Ne : text q ++ text l2 <> []) by (rewrite <- text_app, <- X, El; discriminate).
  assert (G : exists s', does (yaml_prefix ;; while_rem (yaml_document ;; let! e := eof in if e then ret tt else yaml_suffix) ;; ret true) [] (q ++ l2) [] true s').
  { destruct Sh as [->|Sh]; [exists []; rewrite app_nil_r; eapply does_last; [apply does_prefix; [exact Q|exact Ne]|]; eapply does_nil; [|apply does_ret]; apply does_stop; apply does_eof_end; apply does_ret|].
    destruct (does_document n l2 [] E Hn Sh) as (s' & D). exists s'. eapply does_bind; [rewrite app_nil_r; apply does_prefix; assumption|]. eapply does_last; [|apply does_ret]. unfold while_rem. rewrite <- (app_nil_r l2).
      assert (N2 : text l2 <> []) by (intros Z; destruct (lines_nil _ _ (entry_yaml _ _ E) Z) as [_ ->]; destruct Sh as (? & Sh); discriminate Sh).
      eapply does_unroll; [|exact N2|apply does_stop; apply does_eof_end; apply does_ret]. apply does_eof; [rewrite app_nil_r; exact N2|]. eapply does_last; [|apply does_ret]. eapply does_last; [exact D|]. apply does_eof_end. apply does_ret. }
  destruct G as (s' & G). eapply does_run; [reflexivity|exact G].
Qed.
Print Assumptions C182_yaml_lexemes.
(** [# list], [name: [a, 1]], [items:], [  - x], [  - "y": 'z'] *)
Definition yaml_sample : list piece :=
  ([], None) :: (bs "#", Some hl_comment_delim) :: opt_piece (bs " list") hl_comment ++ ([10]%N, None) ::
  ([], None) :: ((bs "name", Some hl_markup_attr) :: punctuation 58 :: ([32]%N, None) ::
    (bs "[", Some hl_symbol_square) :: ([], None) :: [(bs "a", Some hl_string)] ++ ([], None) :: punctuation 44 :: ([32]%N, None) :: [(bs "1", Some hl_number)] ++ [([], None); (bs "]", Some hl_symbol_square)]) ++ ([10]%N, None) ::
  ([], None) :: [(bs "items", Some hl_markup_attr); punctuation 58] ++ ([10]%N, None) ::
  (bs "  ", None) :: (punctuation 45 :: ([32]%N, None) :: [(bs "x", Some hl_string)]) ++ ([10]%N, None) ::
  (bs "  ", None) :: (punctuation 45 :: ([32]%N, None) :: (34%N :: bs "y" ++ [34]%N, Some hl_markup_attr) :: punctuation 58 :: ([32]%N, None) :: quote 39 :: opt_piece (bs "z") hl_string ++ [quote 39]) ++ ([], None) :: [].
Lemma plain_letter c : (97 <= c <= 122)%N -> plain_text [c].
Proof.
  intros H. assert (L : letter c) by (unfold letter; lia). split; [exists c, []; split; [reflexivity|left; exact L]|]. split; [|split; [|split]].
  - constructor; [|constructor]. split; [lia|]. cbn. intros I. repeat destruct I as [<-|I]; try lia.
  - intros a b E. destruct a as [|x [|y a]]; cbn in E; [injection E; intros; lia|discriminate|discriminate].
  - intros a E. destruct a as [|x [|y a]]; cbn in E; [injection E; intros; lia|discriminate|discriminate].
  - intros k h t I E. cbn in I. repeat (destruct I as [[= <- <-]|I]; [exfalso; cbn in E; injection E; intros; try discriminate; try lia|]). contradiction.
Qed.
Ltac word_key := apply key_plain; [left; unfold word_start, letter; cbn; lia|repeat (apply Forall_cons; [unfold key_char; repeat split; try discriminate; cbn; lia|]); apply Forall_nil|let a := fresh in let b := fresh in let E := fresh in intros a b E; cbn in E; repeat (destruct a as [|? a]; cbn in E; [discriminate E|injection E as _ E]); destruct a; discriminate E
  |let a := fresh in let E := fresh in intros a E; cbn in E; repeat (destruct a as [|? a]; cbn in E; [discriminate E|injection E as _ E]); destruct a; discriminate E].
Example C182_case : yaml_document_lines yaml_sample /\ exists ops, highlight_yaml (text yaml_sample) false = Ok (true, ops) /\ length ops = 19.
Proof.
  split; [|eexists; split; [vm_compute; reflexivity|reflexivity]]. exists 4. split; [lia|]. assert (V : forall c t, In c (bs ",]") -> value_end (c :: t)) by (intros c t I x [= <-] H; apply H; cbn in I; cbn; intuition).
  unfold yaml_sample. apply lines_comment; [constructor|repeat (apply Forall_cons; [unfold line_break; cbn; lia|]); apply Forall_nil|left; left; reflexivity|].
  apply lines_entry; [constructor| |left; left; reflexivity|].
  { apply entry_field, field_value; [|constructor|]. { word_key. } apply value_sequence. apply items_value; [constructor|apply value_scalar, scalar_plain, plain_letter; cbn; lia|apply V; cbn; tauto|]. apply items_comma; [constructor|]. apply items_value; [repeat constructor| |apply V; cbn; tauto|apply items_end; constructor].
    apply value_scalar, scalar_number. exists (bs "1"), []. split; [discriminate|]. split; [constructor; [unfold digit; cbn; lia|constructor]|]. split; [left; reflexivity|reflexivity]. }
  apply lines_entry; [constructor| |left; left; reflexivity|].
  { apply entry_field, field_key. word_key. }
  apply lines_entry; [repeat constructor| |left; left; reflexivity|].
  { apply entry_item; [constructor|]. apply scalar_plain, plain_letter. cbn; lia. }
  apply lines_entry; [repeat constructor| |right; split; reflexivity|constructor].
  apply entry_item_field; [constructor|]. apply field_value; [|constructor|].
  - apply key_quoted. constructor; [unfold line_break; cbn; lia|constructor].
  - apply value_scalar, scalar_single. apply single_char; [unfold line_break; cbn; lia|discriminate|constructor].
Qed.
