(** * Exact tokens of block scalars in YAML documents *)
From Coq Require Import List NArith ZArith Bool Arith Lia.
From Verif Require Import M_Base L_Base S_Tokens M_Utf8 L_Utf8 P_Utf8 M_Emit S_Ops L_Emit M_Types M_Chars S_Chars P_Chars M_Parse S_Parse L_Parse P_Parse
  M_Api M_Highlighter S_Highlight L_Highlighter P_LangCpp L_Auto M_Lang M_LangYaml P_LangYaml S_Lexemes L_Lexemes L_Does L_Number L_Escapes L_Scan L_Comments S_LangYamlLexemes S_LangYamlBlock P_LangYamlLexemes P_LangYamlClaims.
Import ListNotations.

(** ** The first entry and the others *)
Lemma does_doc s p rest c t s' : text p ++ rest = c :: t -> plain_start c -> starts_with (text p ++ rest) (bs "---") = false -> does (yaml_block_node (S (length (text p ++ rest))) 0 0) [] p rest tt s' -> does yaml_document s p rest tt s'.
Proof.
  intros E C Nd D. assert (Ne : text p ++ rest <> []) by (rewrite E; discriminate). unfold yaml_document. apply does_set_loc. apply does_no_space; [rewrite E; apply plain_start_fresh; exact C|]. apply does_eof; [exact Ne|]. apply does_get.
  rewrite Nd, andb_false_r. eapply does_nil; [apply does_ret|]. apply does_get.
  assert (Np : starts_with_ch (text p ++ rest) (ch "%") = false). { rewrite E. cbn [starts_with_ch]. apply N.eqb_neq. destruct C as [C| ->]; [|discriminate]. apply node_char_cases in C as [C _]. cbn. lia. }
  rewrite Np, andb_false_r. eapply does_nil; [apply does_ret|]. unfold yaml_body. apply does_eof; [exact Ne|]. apply does_get. rewrite Nat.add_1_r. exact D.
Qed.
Lemma tokenizes_doc l c t s' : text l = c :: t -> plain_start c -> does (while_rem (yaml_document ;; let! e := eof in if e then ret tt else yaml_suffix)) [] l [] tt s' -> tokenizes highlight_yaml l.
Proof.
  intros E C G strict. unfold highlight_yaml. eapply does_run with (s' := s'); [reflexivity|]. apply does_nil with (x := tt) (s1 := []); [|eapply does_last; [exact G|apply does_ret]]. rewrite app_nil_r. apply does_add. apply (does_prefix [] [([], None)]); [constructor; [constructor|rewrite E; apply plain_start_fresh; exact C]|cbn; change (concat (map fst l)) with (text l); rewrite E; discriminate].
Qed.
Lemma one_body_then p q n c t s1 : text p = c :: t -> plain_start c -> starts_with (text p ++ text q) (bs "---") = false ->
  (forall node, does (yaml_block_body node 0 tt) [] p (text q) (inl tt) s1) -> yaml_lines n q -> n + length s1 <= 64 -> tokenizes highlight_yaml (p ++ q).
Proof.
  intros E C Nd H Hq Hn. set (l := p ++ q). assert (El : text l = c :: t ++ text q) by (unfold l; rewrite text_app, E; reflexivity).
  destruct (node_ok_all (S (length (text l))) 0 s1 n q 64 Hq Hn ltac:(lia)) as (l1 & l2 & n2 & s' & Eq & _ & _ & Z & D); [unfold l; rewrite text_length_app; lia|]. rewrite (Z eq_refl), app_nil_r in Eq. rewrite (Z eq_refl) in D. subst l1. cbn [text map concat] in D. clear Z l2.
  assert (Ne : text l <> []) by (rewrite El; discriminate). eapply tokenizes_doc with (s' := s'); [exact El|exact C|].
  unfold while_rem. rewrite <- (app_nil_r l). eapply does_unroll; [|exact Ne|apply does_stop; apply does_eof_end; apply does_ret]. apply does_eof; [rewrite app_nil_r; exact Ne|]. eapply does_last; [|apply does_ret]. eapply does_last; [|apply does_eof_end; apply does_ret].
  change (text []) with (@nil N). cbn [app]. eapply does_doc; [rewrite app_nil_r; exact El|exact C|rewrite app_nil_r; unfold l; rewrite text_app; exact Nd|]. rewrite app_nil_r. cbn [yaml_block_node] in *. rewrite Nat.sub_0_r in *. unfold l at 2. eapply does_unroll; [rewrite app_nil_r; apply H|rewrite E; discriminate|exact D].
Qed.
(** A line that begins with a character of a node *)
Lemma body_line node s p rest c r x s' : text p ++ rest = c :: r -> node_char c ->
  does (let! b := yaml_key node 0 in
            if b then yaml_push 0 ;; ret (inl tt)
            else
              let! r := get_rem in
              if yaml_has_node r then yaml_flow 0 false ;; yaml_skip_line ;; ret (inl tt)
              else ret (inr tt)) s p rest x s' -> does (yaml_block_body node 0 tt) s p rest x s'.
Proof.
  intros Er C H. assert (N45 : c <> 45%N) by (apply node_char_cases in C as [C _]; lia). assert (Nd : forall u, starts_with (c :: r) (45%N :: u) = false) by (intros u; cbn [starts_with]; rewrite (proj2 (N.eqb_neq c 45)) by assumption; reflexivity).
  unfold yaml_block_body. apply does_eof; [rewrite Er; discriminate|]. pose proof (node_char_cases c C) as [C1 C2].
  assert (B : yaml_at_break (c :: r) = false) by (apply value_break; exact C). assert (I : yaml_indent (c :: r) = 0) by (apply (indent_exact [] (c :: r)); [constructor|apply not_before_cons; lia]).
  apply does_nil with (x := tt) (s1 := s).
  { rewrite Er. unfold yaml_blank_lines. apply does_stop. unfold yaml_blank_body. apply does_get. cbn [text map concat app]. rewrite B, I. cbv zeta. cbn [nth length Nat.ltb Nat.leb andb]. rewrite (proj2 (N.eqb_neq c (ch "#"))) by (cbn; lia). apply does_ret. }
  apply does_eof; [rewrite Er; discriminate|]. apply does_get. rewrite Er. assert (D1 : starts_with (c :: r) (bs "---") = false) by apply (Nd [45; 45]%N). rewrite D1. cbv zeta. assert (D3 : starts_with (c :: r) (bs "...") = false) by (change (bs "...") with [46; 46; 46]%N; cbn [starts_with]; rewrite (proj2 (N.eqb_neq c 46)) by lia; reflexivity). rewrite D3, andb_false_r. apply does_get_loc.
  change (yaml_indent (c :: r) <? 0) with false. cbn [andb]. rewrite I. apply does_nil with (x := tt) (s1 := s).
  { rewrite Er. unfold yaml_consume_indent. apply does_get. cbn [text map concat app Nat.min]. apply does_add. apply does_advance. reflexivity. }
  apply does_get. rewrite Er.
  assert (Q : forall x u v, In x (bs "?|>-") -> starts_with (c :: v) (x :: u) = false) by (intros y u v Hx; cbn [starts_with]; rewrite (proj2 (N.eqb_neq c y)); [reflexivity|]; intros ->; cbn in Hx; cbn in C2; intuition lia).
  change (bs "? ") with [63; 32]%N. change (bs "?") with [63]%N. change (bs "| ") with [124; 32]%N. change (bs "> ") with [62; 32]%N. change (bs "|") with [124]%N. change (bs ">") with [62]%N. change (bs "- ") with [45; 32]%N.
  rewrite !(Q 63%N) by (cbn; tauto). cbn [orb andb]. rewrite (Q 45%N), !(Q 124%N), !(Q 62%N) by (cbn; tauto). cbn [orb andb]. exact H.
Qed.
Lemma key_body node p rest c r : text p ++ rest = c :: r -> node_char c -> does (yaml_key node 0) [] p rest true [] -> does (yaml_block_body node 0 tt) [] p rest (inl tt) [0].
Proof. intros E C H. eapply body_line; [exact E|exact C|]. eapply does_last; [exact H|]. eapply does_nil; [apply does_push; cbn; lia|]. apply does_ret. Qed.
Lemma key_then p q n c t : text p = c :: t -> node_char c -> (forall node, does (yaml_key node 0) [] p (text q) true []) -> yaml_lines n q -> n <= 63 -> tokenizes highlight_yaml (p ++ q).
Proof.
  intros E C H Hq Hn. assert (N45 : c <> 45%N) by (apply node_char_cases in C as [C _]; lia). 
  eapply one_body_then with (s1 := [0]); [exact E|left; exact C|change (bs "---") with [45; 45; 45]%N; rewrite E; cbn [app starts_with]; rewrite (proj2 (N.eqb_neq c 45)) by assumption; reflexivity| |exact Hq|cbn; lia]. intros node. eapply key_body; [rewrite E; reflexivity|exact C|apply H].
Qed.

(** ** Block scalars *)
Definition stops (n : nat) (rest : str) : Prop := rest = [] \/ yaml_at_break rest = false /\ yaml_indent rest < n.
Lemma indent_more k c rest : spaces k -> length k <= yaml_indent (k ++ c :: rest).
Proof.
  intros H. unfold yaml_indent. rewrite length_if_eq. induction H as [|x k -> H IH]; [apply Nat.le_0_l|]. cbn [app prefix_len length]. rewrite N.eqb_refl. lia.
Qed.
Lemma consume_some s k rest : spaces k -> length k <= yaml_indent (k ++ rest) -> does (yaml_consume_indent (length k)) s [(k, None)] rest tt s.
Proof. intros F L. unfold yaml_consume_indent. apply does_get. rewrite text_one. apply does_advance. lia. Qed.
Lemma same_break c t : ~ line_break c -> yaml_at_break (c :: t) = false.
Proof. intros H. unfold line_break in H. rewrite breaks, (proj2 (N.eqb_neq c 13)), (proj2 (N.eqb_neq c 10)) by tauto. reflexivity. Qed.
Lemma does_block_lines s n l rest : 0 < n -> block_text n rest l -> stops n rest -> does (hloop 1 (yaml_block_line_body n) tt) s l rest tt s.
Proof.
  intros P H Z. induction H as [|w l Hw Hl IH|k c w l Hk Lk Nc Hc Hw Hl IH].
  - apply does_stop. unfold yaml_block_line_body. apply does_get. cbn [text map concat app]. destruct Z as [->|[B I]]; [apply does_ret|]. destruct rest as [|c t]; [apply does_ret|]. rewrite B. rewrite (proj2 (Nat.ltb_lt _ n)) by exact I. apply does_ret.
  - change ((w, None) :: l) with ([(w, None)] ++ l). destruct (newline_head _ _ Hw) as (x & t & Ew & Hx). eapply does_unroll; [|rewrite text_one, Ew; discriminate|exact IH]. unfold yaml_block_line_body. apply does_get. rewrite text_one. pose proof (newline_at _ _ Hw) as B. rewrite B. cbn [negb]. rewrite andb_false_r. assert (X : forall T (a : T) b, match w ++ text l ++ rest with [] => a | y :: z => b y z end = b x (t ++ text l ++ rest)) by (intros; rewrite Ew; reflexivity). rewrite X. eapply does_last; [apply does_break; exact Hw|]. apply does_ret.
  - change ((k, None) :: (c, Some hl_string) :: (w, None) :: l) with ([(k, None); (c, Some hl_string); (w, None)] ++ l). destruct c as [|x c]; [congruence|]. destruct k as [|y k]; [cbn in Lk; lia|]. assert (y = 32%N) as -> by (inversion Hk; assumption). eapply does_unroll; [|rewrite !text_cons; discriminate|exact IH].
    set (r := text l ++ rest). pose proof (indent_more (32%N :: k) x (c ++ w ++ r) Hk) as L. rewrite Lk in L.
    unfold yaml_block_line_body. apply does_get. rewrite !text_cons, <- !app_assoc. change (text []) with (@nil N). cbn [app]. cbn [app] in L. rewrite (proj2 (Nat.ltb_ge _ n)) by exact L. rewrite same_break by (unfold line_break; lia). cbn [andb negb].
    assert (X : forall b, (32 =? ch "#")%N && b = false) by reflexivity. rewrite X.
    apply does_cons with (x := tt) (s1 := s). { rewrite <- Lk. apply consume_some; [exact Hk|]. rewrite Lk, !text_cons, <- !app_assoc. change (text []) with (@nil N). cbn [app]. exact L. }
    apply does_get. rewrite !text_cons, <- !app_assoc. rewrite (until_exact (x :: c)) by (try assumption; apply line_end_at; exact Hw). cbv zeta. cbn [length Nat.ltb Nat.leb when]. apply does_cons with (x := tt) (s1 := s); [apply does_emit; [reflexivity|discriminate]|]. eapply does_last; [apply does_break_end; exact Hw|]. apply does_ret.
Qed.
(** The first line: the style, two optional indicators, and text that is skipped *)
Definition not_among (l w : str) : Prop := not_before (fun c => In c l) w.
Definition one_of (l : str) (w : str) : Prop := w = [] \/ exists c, In c l /\ w = [c].
Lemma does_header s c d1 d2 r w rest (k : unit -> M (list nat) unit) q s' : In c (bs "|>") -> one_of (bs "+-") d1 -> one_of (bs "123456789") d2 -> (d1 = [] -> not_among (bs "+-") (d2 ++ r ++ w)) -> (d2 = [] -> not_among (bs "123456789") (r ++ w)) -> not_among (bs "#") (r ++ w) ->
  same_line r -> newline w (text q ++ rest) -> does (k tt) s q rest tt s' ->
  does (let! r := get_rem in
        checkM (starts_with_ch r (ch "|") || starts_with_ch r (ch ">")) FAssert ;;
        emit_and_advance 1 hl_string_delim ;;
        let! r := get_rem in
        when (starts_with_ch r (ch "+") || starts_with_ch r (ch "-")) (emit_and_advance 1 hl_number_decor) ;;
        let! r := get_rem in
        when (match r with c :: _ => between (ch "1") (ch "9") c | [] => false end) (emit_and_advance 1 hl_number_decor) ;;
        let! r := get_rem in
        when (starts_with_ch r (ch "#")) yaml_comment ;;
        let! u := yaml_skip_line in k u) s (quote c :: opt_piece d1 hl_number_decor ++ opt_piece d2 hl_number_decor ++ skipped r :: skipped w :: q) rest tt s'.
Proof.
  intros Hc H1 H2 N1 N2 N3 Hr Hw H. destruct (newline_head _ _ Hw) as (x & t & Ew & Hx). unfold skipped.
  assert (Hd : forall l y z, not_among l (y ++ w) -> forall a, In a l -> starts_with_ch (y ++ w ++ z) a = false).
  { intros l y z Nl a Ha. destruct (starts_with_ch (y ++ w ++ z) a) eqn:E; [|reflexivity]. exfalso. apply (Nl a); [|exact Ha]. rewrite Ew in *. destruct y as [|b y]; cbn [app starts_with_ch] in E; apply N.eqb_eq in E as ->; reflexivity. }
  set (z := text q ++ rest) in *.
  assert (D2 : forall u, text (opt_piece d2 hl_number_decor) ++ u = d2 ++ u) by (intros; destruct d2; [reflexivity|]; cbn [opt_piece]; rewrite text_one; reflexivity).
  assert (Tail : does (let! r := get_rem in
        when (starts_with_ch r (ch "#")) yaml_comment ;;
        let! u := yaml_skip_line in k u) s ((r, None) :: (w, None) :: q) rest tt s').
  { apply does_get. rewrite !text_cons, <- !app_assoc. fold z. rewrite (Hd (bs "#")) by (try assumption; left; reflexivity). eapply does_nil; [apply does_ret|]. change ((r, None) :: (w, None) :: q) with ([(r, None); (w, None)] ++ q). eapply does_bind; [apply skip_rest; [exact Hr|left; exact Hw]|exact H]. }
  apply does_get. apply does_check; [unfold quote; rewrite text_cons; cbn [app]; cbn in Hc; destruct Hc as [<-|[<-|[]]]; reflexivity|]. apply does_cons with (x := tt) (s1 := s); [apply does_emit; [reflexivity|discriminate]|].
  assert (Tail2 : does (let! r := get_rem in
        when (match r with c :: _ => between (ch "1") (ch "9") c | [] => false end) (emit_and_advance 1 hl_number_decor) ;;
        let! r := get_rem in
        when (starts_with_ch r (ch "#")) yaml_comment ;;
        let! u := yaml_skip_line in k u) s (opt_piece d2 hl_number_decor ++ (r, None) :: (w, None) :: q) rest tt s').
  { apply does_get. rewrite text_app, <- app_assoc, D2, !text_cons, <- !app_assoc. fold z. eapply does_bind; [|exact Tail]. apply does_when.
    - intros B. destruct H2 as [->|(d & Hd2 & ->)]; [|apply does_emit; [reflexivity|discriminate]]. exfalso. cbn [app] in B. destruct (r ++ w ++ z) as [|y v] eqn:Er; [discriminate|].
      assert (Iy : In y (bs "123456789")). { unfold between in B. apply andb_true_iff in B as [B1 B2]. apply N.leb_le in B1, B2. cbn in B1, B2. cbn. lia. }
      pose proof (Hd _ r z (N2 eq_refl) y Iy) as F. rewrite Er in F. cbn [starts_with_ch] in F. rewrite N.eqb_refl in F. discriminate.
    - intros B. destruct H2 as [->|(d & Hd2 & ->)]; [split; reflexivity|]. exfalso. cbn [app] in B. cbn in Hd2. repeat (destruct Hd2 as [<-|Hd2]; [discriminate B|]). contradiction. }
  apply does_get. rewrite text_app, <- app_assoc. assert (D1 : forall u, text (opt_piece d1 hl_number_decor) ++ u = d1 ++ u) by (intros; destruct d1; [reflexivity|]; cbn [opt_piece]; rewrite text_one; reflexivity). rewrite D1, text_app, <- app_assoc, D2, !text_cons, <- !app_assoc. fold z. eapply does_bind; [|exact Tail2]. apply does_when.
  - intros B. destruct H1 as [->|(d & Hd1 & ->)]; [|apply does_emit; [reflexivity|discriminate]]. exfalso. specialize (N1 eq_refl). rewrite app_assoc in N1. pose proof (Hd _ _ z N1 (ch "+") ltac:(cbn; tauto)) as F1. pose proof (Hd _ _ z N1 (ch "-") ltac:(cbn; tauto)) as F2. rewrite <- app_assoc in F1, F2. cbn [app] in B. rewrite F1, F2 in B. discriminate.
  - intros B. destruct H1 as [->|(d & Hd1 & ->)]; [split; reflexivity|]. exfalso. cbn in Hd1. repeat (destruct Hd1 as [<-|Hd1]; [discriminate B|]). contradiction.
Qed.
Lemma does_block_scalar s i n c d1 d2 r w rest p : i < n -> In c (bs "|>") -> one_of (bs "+-") d1 -> one_of (bs "123456789") d2 -> (d1 = [] -> not_among (bs "+-") (d2 ++ r ++ w)) -> (d2 = [] -> not_among (bs "123456789") (r ++ w)) -> not_among (bs "#") (r ++ w) ->
  same_line r -> newline w (text p ++ rest) -> block_body n rest p -> stops n rest -> does (yaml_block_scalar i) s (quote c :: opt_piece d1 hl_number_decor ++ opt_piece d2 hl_number_decor ++ skipped r :: skipped w :: p) rest tt s.
Proof.
  intros P Hc H1 H2 N1 N2 N3 Hr Hw (k & x & u & w2 & b & Hk & Lk & Nx & Hx & Hw2 & Hb & ->) Z. unfold yaml_block_scalar. eapply does_header; try eassumption.
  set (l := (k, None) :: (x :: u, Some hl_string) :: (w2, None) :: b) in *. assert (El : text l ++ rest = k ++ x :: u ++ w2 ++ text b ++ rest) by (unfold l, skipped; rewrite !text_cons, <- !app_assoc; reflexivity).
  assert (Bl : yaml_at_break (text l ++ rest) = false) by (rewrite El; destruct Hk as [|y k' -> Hk']; [apply same_break; inversion Hx; assumption|apply same_break; unfold line_break; lia]).
  assert (Ne : text l ++ rest <> []) by (rewrite El; destruct k; discriminate).
  eapply does_nil.
  { unfold yaml_breaks. apply does_stop. apply does_get. cbn [text map concat app]. change (concat (map fst l)) with (text l). rewrite Bl. destruct (text l ++ rest); [congruence|]. apply does_ret. }
  apply does_get. assert (I : yaml_indent (text l ++ rest) = n) by (rewrite El, <- Lk; apply indent_exact; [exact Hk|apply not_before_cons; exact Nx]). rewrite I. cbv zeta. rewrite (proj2 (Nat.leb_gt n i)) by exact P. cbn [andb].
  apply does_block_lines; [lia| |exact Z]. apply block_line; try assumption. discriminate.
Qed.
(** ** A key with a block scalar *)
Lemma does_block_value node k q c t rest : block_key k -> text q = c :: t -> In c (bs "|>") -> does (yaml_block_scalar 0) [] q rest tt [] -> does (yaml_key node 0) [] (key_of k :: punctuation 58 :: skipped [32%N] :: q) rest true [].
Proof.
  intros Hk E Hc H. eapply key_exact; [apply colon_key; [exact Hk|reflexivity]|apply trim_key; exact Hk|apply block_key_ne; exact Hk|]. unfold after_colon. apply does_get. unfold skipped. rewrite text_cons. cbn [app starts_with_ch N.eqb Pos.eqb when].
  apply does_cons with (x := tt) (s1 := []); [apply does_advance; reflexivity|].
  assert (F : fresh (text q ++ rest)). { rewrite E. cbn [app]. cbn in Hc. destruct Hc as [<-|[<-|[]]]; apply fresh_char; try discriminate; reflexivity. }
  apply does_nil with (x := tt) (s1 := []). { apply does_add. unfold yaml_inline_space. apply does_get. rewrite text_one. rewrite (white_exact []); [apply does_advance; reflexivity|constructor|apply fresh_white; exact F]. }
  apply does_get. rewrite E. cbn [app]. set (v := t ++ rest). assert (S1 : forall x u, In x (bs "-?![{&#" ++ [13; 10]%N) -> starts_with (c :: v) (x :: u) = false). { intros x u Hx. cbn [starts_with]. rewrite (proj2 (N.eqb_neq c x)); [reflexivity|]. intros ->. cbn in Hx, Hc. intuition (subst; discriminate). }
  assert (S2 : starts_with (c :: v) (bs "- ") || starts_with (c :: v) (bs "? ") = false) by (change (bs "- ") with [45; 32]%N; change (bs "? ") with [63; 32]%N; rewrite !S1 by (cbn; tauto); reflexivity). rewrite S2.
  assert (S3 : starts_with_ch (c :: v) (ch "|") || starts_with_ch (c :: v) (ch ">") = true) by (cbn in Hc; destruct Hc as [<-|[<-|[]]]; reflexivity). rewrite S3. cbv zeta.
  assert (S4 : yaml_at_break (c :: v) = false) by (rewrite breaks; cbn in Hc; destruct Hc as [<-|[<-|[]]]; reflexivity). rewrite S4. assert (S5 : negb false && negb (c =? ch "#")%N = true) by (cbn in Hc; destruct Hc as [<-|[<-|[]]]; reflexivity). rewrite S5. cbn [when].
  eapply does_last; [|apply does_ret]. unfold yaml_flow. apply does_get. rewrite Nat.add_1_r. cbn [yaml_flow_node]. apply does_no_space; [exact F|]. apply does_get. rewrite E. cbn [app]. fold v. rewrite S4. cbn [length Nat.eqb orb].
  assert (T : forall x, In x (bs "![{&") -> starts_with_ch (c :: v) x = false) by (intros x Hx; cbn [starts_with_ch]; apply N.eqb_neq; intros ->; cbn in Hx, Hc; intuition (subst; discriminate)).
  eapply does_nil.
  { rewrite E. cbn [app]. fold v. unfold yaml_properties. apply does_stop. unfold yaml_properties_body. apply does_get. cbn [text map concat app]. rewrite (T (ch "!")) by (cbn; tauto). cbv zeta. cbn [when orb]. eapply does_nil; [apply does_ret|]. apply does_get. cbn [text map concat app]. rewrite (T (ch "&")) by (cbn; tauto). eapply does_nil; [apply does_ret|]. apply does_ret. }
  apply does_get. rewrite E. cbn [app]. fold v. rewrite (T (ch "[")), (T (ch "{")), S3 by (cbn; tauto). exact H.
Qed.
(** ** C196: the tokens of a document that begins with a block scalar. *)
Definition block_document (k : str) (p l : list piece) : list piece := (key_of k :: punctuation 58 :: skipped [32%N] :: p) ++ l.
Lemma next_stops n l : 0 < n -> next_entry l -> stops n (text l).
Proof.
  intros P [->|(p & w & l' & -> & Hp & Hw)]; [left; reflexivity|]. right. destruct (entry_head p Hp) as (c & t & E & Hc). specialize (Hc (text ((w, None) :: l'))). assert (X : text (([], None) :: p ++ (w, None) :: l') = c :: t ++ text ((w, None) :: l')) by (rewrite text_cons, text_app, E; reflexivity). rewrite X. split; [apply entry_no_break; exact Hc|]. change (c :: t ++ text ((w, None) :: l')) with ([] ++ c :: t ++ text ((w, None) :: l')). rewrite indent_exact; [exact P|constructor|]. apply entry_char_cases in Hc as [Hc _]. apply not_before_cons. lia.
Qed.
Lemma newline_not_among l w rest : newline w rest -> ~ In 10%N l -> ~ In 13%N l -> not_among l w.
Proof. intros H N1 N2 c E I. destruct H as [->|[->|[-> _]]]; injection E as <-; auto. Qed.
Lemma block_entry k n m c d1 d2 r w p l : block_key k -> 0 < n -> In c (bs "|>") -> one_of (bs "+-") d1 -> one_of (bs "123456789") d2 -> (d1 = [] -> not_among (bs "+-") (d2 ++ r ++ w)) -> (d2 = [] -> not_among (bs "123456789") (r ++ w)) -> not_among (bs "#") (r ++ w) ->
  same_line r -> newline w (text p ++ text l) -> block_body n (text l) p -> next_entry l -> yaml_lines m l -> m <= 63 ->
  tokenizes highlight_yaml (block_document k (quote c :: opt_piece d1 hl_number_decor ++ opt_piece d2 hl_number_decor ++ skipped r :: skipped w :: p) l).
Proof.
  intros Hk Hn Hc H1 H2 N1 N2 N3 Hr Hw Hp Hl Hm M. destruct (key_head_char k Hk) as (x & u & Ek & Hx). eapply key_then; [unfold key_of; rewrite text_cons, Ek; reflexivity|left; exact Hx| |exact Hm|exact M]. intros node.
  eapply does_block_value; [exact Hk|unfold quote; rewrite text_cons; reflexivity|exact Hc|]. eapply does_block_scalar; try eassumption. apply next_stops; assumption.
Qed.
Lemma text_gap a b : text (a ++ ([], None) :: b) = text (a ++ b).
Proof. rewrite !text_app, text_cons. reflexivity. Qed.
Lemma tokens_gap i a b : tokens i (a ++ ([], None) :: b) = tokens i (a ++ b).
Proof. rewrite !tokens_app. cbn [tokens length]. rewrite Nat.add_0_r. reflexivity. Qed.
Theorem C196_yaml_block_scalar : forall k n m p l, block_key k -> 0 < n -> block_value n (text l) p -> next_entry l -> yaml_lines m l -> m <= 63 -> tokenizes highlight_yaml (block_document k p l).
Proof.
  intros k n m p l Hk Hn (h & w & q & Hh & W & Q & ->) Hl Hm M.
  assert (X : exists c d1, In c (bs "|>") /\ one_of (bs "+-") d1 /\ h = quote c :: opt_piece d1 hl_number_decor) by (destruct Hh as [c Hc|c d Hc Hd]; [exists c, []|exists c, [d]]; (split; [exact Hc|split; [first [left; reflexivity|right; exists d; auto]|reflexivity]])).
  destruct X as (c & d1 & Hc & H1 & ->). assert (N : forall y, ~ In 10%N y -> ~ In 13%N y -> not_among y ([] ++ w)) by (intros y; apply (newline_not_among y w _ W)).
  assert (T : tokenizes highlight_yaml (block_document k (quote c :: opt_piece d1 hl_number_decor ++ opt_piece [] hl_number_decor ++ skipped [] :: skipped w :: q) l)).
  { eapply block_entry; try eassumption; [left; reflexivity|intros _; apply N; cbn; intuition discriminate|intros _; apply N; cbn; intuition discriminate|apply N; cbn; intuition discriminate|constructor]. }
  set (a := key_of k :: punctuation 58 :: skipped [32%N] :: quote c :: opt_piece d1 hl_number_decor).
  assert (E : forall g, block_document k (quote c :: opt_piece d1 hl_number_decor ++ g) l = a ++ g ++ l) by (intros g; unfold block_document, a; cbn [app]; rewrite <- app_assoc; reflexivity).
  intros strict. specialize (T strict). change (opt_piece [] hl_number_decor ++ skipped [] :: skipped w :: q) with (([], None) :: skipped w :: q) in T. rewrite E in T. change ((([], None) :: skipped w :: q) ++ l) with (([], None) :: (skipped w :: q) ++ l) in T. rewrite tokens_gap, text_gap in T. rewrite <- E in T. exact T.
Qed.
Print Assumptions C196_yaml_block_scalar.
(** [a: |-], [  b], an empty line, [   c], [d: e] *)
Definition block_sample : list piece := [quote 124; (bs "-", Some hl_number_decor)] ++ [([10]%N, None); (bs "  ", None); (bs "b", Some hl_string); ([10]%N, None); ([10]%N, None); (bs "  ", None); (bs " c", Some hl_string); ([10]%N, None)].
Definition after_sample : list piece := ([], None) :: [(bs "d", Some hl_markup_attr); punctuation 58; ([32]%N, None); (bs "e", Some hl_string)] ++ [([], None)].
Lemma after_sample_entry : next_entry after_sample /\ yaml_lines 1 after_sample.
Proof.
  assert (E : yaml_entry [(bs "d", Some hl_markup_attr); punctuation 58; ([32]%N, None); (bs "e", Some hl_string)]). { apply entry_field. apply (field_value _ [] [(bs "e", Some hl_string)]); [apply single_key; cbn; lia|constructor|]. apply value_scalar, scalar_plain, plain_letter. cbn. lia. }
  assert (W : line_ends [] (text [])) by (right; split; reflexivity).
  split; [right; eexists _, [], []; split; [reflexivity|split; [exact E|exact W]]|]. apply (lines_entry 0 [] _ [] []); [constructor|exact E|exact W|constructor].
Qed.
Lemma same_line_check w : forallb (fun c => negb ((c =? 10) || (c =? 13))%N) w = true -> same_line w.
Proof. intros H. apply Forall_forall. intros c Hc [E|E]; rewrite forallb_forall in H; specialize (H c Hc); subst c; discriminate. Qed.
Example C196_case : block_value 2 (text after_sample) block_sample /\ next_entry after_sample /\ yaml_lines 1 after_sample
  /\ text (block_document (bs "a") block_sample after_sample) = bs "a: |-" ++ [10]%N ++ bs "  b" ++ [10; 10]%N ++ bs "   c" ++ [10]%N ++ bs "d: e".
Proof.
  split; [|split; [apply after_sample_entry|split; [apply after_sample_entry|reflexivity]]].
  eexists [quote 124; (bs "-", Some hl_number_decor)], [10]%N, _. split; [apply header_chomping; cbn; tauto|]. split; [left; reflexivity|]. split; [|reflexivity].
  exists (bs "  "), 98%N, [], [10]%N, [([10]%N, None); (bs "  ", None); (bs " c", Some hl_string); ([10]%N, None)]. split; [repeat constructor|]. split; [reflexivity|]. split; [discriminate|]. split; [apply same_line_check; reflexivity|]. split; [left; left; reflexivity|]. split; [|reflexivity].
  apply block_blank; [left; reflexivity|]. apply block_line; [repeat constructor|reflexivity|discriminate|apply same_line_check; reflexivity|left; left; reflexivity|]. constructor.
Qed.

(** ** C197: a comment after the indicators of a block scalar is highlighted. *)
Definition commented_header (k : str) (c : N) (r w : str) (p l : list piece) : list piece :=
  block_document k (quote c :: skipped [32%N] :: (bs "#", Some hl_comment_delim) :: opt_piece r hl_comment ++ skipped w :: p) l.
(** A text of one line below a key: [  x] *)
Definition small_body (x : N) : list piece := [skipped (bs "  "); ([x], Some hl_string); skipped []].
Lemma small_block x : x <> 32%N -> ~ line_break x -> block_body 2 [] (small_body x).
Proof. intros H1 H2. exists (bs "  "), x, [], [], []. split; [repeat constructor|]. split; [reflexivity|]. split; [exact H1|]. split; [repeat constructor; exact H2|]. split; [right; split; reflexivity|]. split; [constructor|reflexivity]. Qed.
Theorem C197_yaml_header_comment_refuted : ~ (forall k n m c r w p l, block_key k -> 0 < n -> In c (bs "|>") -> same_line r -> newline w (text p ++ text l) -> block_body n (text l) p -> next_entry l -> yaml_lines m l -> m <= 63 -> tokenizes highlight_yaml (commented_header k c r w p l)).
Proof.
  intros H. specialize (H (bs "a") 2 0 124%N (bs " b") [10]%N (small_body 120) [] key_a ltac:(lia) ltac:(cbn; tauto) ltac:(apply same_line_check; reflexivity) ltac:(left; reflexivity) ltac:(apply small_block; [discriminate|intros [E|E]; discriminate]) ltac:(left; reflexivity) ltac:(constructor) ltac:(lia)). refute_ H.
Qed.
Print Assumptions C197_yaml_header_comment_refuted.
(** There is no token for the comment. *)
Theorem C197_yaml_header_comment_tokens : forall k n m c r w p l, block_key k -> 0 < n -> In c (bs "|>") -> same_line r -> newline w (text p ++ text l) -> block_body n (text l) p -> next_entry l -> yaml_lines m l -> m <= 63 ->
  tokenizes highlight_yaml (block_document k (quote c :: skipped (bs " #" ++ r) :: skipped w :: p) l).
Proof.
  intros k n m c r w p l Hk Hn Hc Hr Hw Hp Hl Hm M. apply (block_entry k n m c [] [] (bs " #" ++ r) w p l); try assumption; try (left; reflexivity).
  - intros _ y E. injection E as <-. cbn. intuition discriminate.
  - intros _ y E. injection E as <-. cbn. intuition discriminate.
  - intros y E. injection E as <-. cbn. intuition discriminate.
  - constructor; [intros [E|E]; discriminate|]. constructor; [intros [E|E]; discriminate|exact Hr].
Qed.
Print Assumptions C197_yaml_header_comment_tokens.
Example C197_case : block_body 2 [] (small_body 120) /\ text (commented_header (bs "a") 124 (bs " b") [10]%N (small_body 120) []) = bs "a: | # b" ++ [10]%N ++ bs "  x".
Proof. split; [apply small_block; [discriminate|intros [E|E]; discriminate]|reflexivity]. Qed.

(** ** C198: the indicators of a block scalar have tokens in either order. *)
Definition indicators (k : str) (c d e : N) (w : str) (p l : list piece) : list piece :=
  block_document k (quote c :: ([d], Some hl_number_decor) :: ([e], Some hl_number_decor) :: skipped w :: p) l.
Theorem C198_yaml_indicators_refuted : ~ (forall k n m c d e w p l, block_key k -> 0 < n -> In c (bs "|>") -> In d (bs "123456789") -> In e (bs "+-") -> newline w (text p ++ text l) -> block_body n (text l) p -> next_entry l -> yaml_lines m l -> m <= 63 -> tokenizes highlight_yaml (indicators k c d e w p l)).
Proof.
  intros H. specialize (H (bs "a") 2 0 124%N 50%N 45%N [10]%N (small_body 120) [] key_a ltac:(lia) ltac:(cbn; tauto) ltac:(cbn; tauto) ltac:(cbn; tauto) ltac:(left; reflexivity) ltac:(apply small_block; [discriminate|intros [E|E]; discriminate]) ltac:(left; reflexivity) ltac:(constructor) ltac:(lia)). refute_ H.
Qed.
Print Assumptions C198_yaml_indicators_refuted.
(** When the indentation comes first, the other indicator has no token. *)
Theorem C198_yaml_indicators_tokens : forall k n m c d e w p l, block_key k -> 0 < n -> In c (bs "|>") -> In d (bs "123456789") -> In e (bs "+-") -> newline w (text p ++ text l) -> block_body n (text l) p -> next_entry l -> yaml_lines m l -> m <= 63 ->
  tokenizes highlight_yaml (indicators k c e d w p l)
  /\ tokenizes highlight_yaml (block_document k (quote c :: ([d], Some hl_number_decor) :: skipped [e] :: skipped w :: p) l).
Proof.
  intros k n m c d e w p l Hk Hn Hc Hd He Hw Hp Hl Hm M. split.
  - assert (T : tokenizes highlight_yaml (block_document k (quote c :: opt_piece [e] hl_number_decor ++ opt_piece [d] hl_number_decor ++ skipped [] :: skipped w :: p) l)).
    { apply (block_entry k n m c [e] [d] [] w p l); try assumption; try discriminate; [right; exists e; auto|right; exists d; auto| |constructor]. apply (newline_not_among _ _ _ Hw); cbn; intuition discriminate. }
    intros strict. specialize (T strict). set (a := [key_of k; punctuation 58; skipped [32%N]; quote c; ([e], Some hl_number_decor); ([d], Some hl_number_decor)]).
    assert (R : highlight_yaml (text (a ++ ([], None) :: (skipped w :: p) ++ l)) strict = Ok (true, tokens 0 (a ++ ([], None) :: (skipped w :: p) ++ l))) by exact T. rewrite text_gap, tokens_gap in R. exact R.
  - apply (block_entry k n m c [] [d] [e] w p l); try assumption; try discriminate; [left; reflexivity|right; exists d; auto| | |].
    + intros _ y E. injection E as <-. cbn in Hd |- *. intros I. intuition (subst; discriminate).
    + intros y E. injection E as <-. cbn in He |- *. intros I. intuition (subst; discriminate).
    + constructor; [|constructor]. intros [E|E]; subst e; cbn in He; intuition discriminate.
Qed.
Print Assumptions C198_yaml_indicators_tokens.
Example C198_case : block_body 2 [] (small_body 120) /\ text (indicators (bs "a") 124 50 45 [10]%N (small_body 120) []) = bs "a: |2-" ++ [10]%N ++ bs "  x".
Proof. split; [apply small_block; [discriminate|intros [E|E]; discriminate]|reflexivity]. Qed.
