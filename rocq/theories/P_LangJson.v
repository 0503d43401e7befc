(** * C58: the tokens of JSON documents *)
From Coq Require Import List NArith ZArith Bool Arith Lia.
From Verif Require Import M_Base L_Base S_Tokens M_Utf8 L_Utf8 M_Emit S_Ops L_Emit M_Types M_Chars S_Chars P_Chars M_Parse S_Parse L_Parse M_Api M_Highlighter S_Highlight L_Highlighter L_Auto
  M_Json S_Json L_JsonNum L_JsonText S_Lexemes L_Lexemes L_Number S_Comments L_Comments L_Does S_LangJson.
Import ListNotations.

(** ** White space and comments *)
Definition stop (c : N) : Prop := lenient_blank c \/ c = 47%N.
Lemma same_pieces {A B} (body : A -> M unit (A + B)) b rest s' a s p q : text p = text q -> (forall i, tokens i p = tokens i q) ->
  does (hloop 1 body a) s p rest b s' -> does (hloop 1 body a) s q rest b s'.
Proof. apply does_same. Qed.
Definition ws_body (hc : bool) (_ : unit) : M unit (unit + unit) :=
    let! r := get_rem in
    advance (json_match_whitespace r) ;;
    if hc then
      let! a := json_expect_line_comment in
      if a then ret (inl tt)
      else let! b := json_expect_block_comment in
           if b then ret (inl tt) else ret (inr tt)
    else ret (inr tt).
Lemma whitespace_len w r : Forall lenient_blank w -> not_before lenient_blank r -> json_match_whitespace (w ++ r) = length w.
Proof. intros F H. apply match_whitespace_exact; [exact F|]. destruct r as [|c r]; [exact I|]. apply (H c). reflexivity. Qed.
Local Ltac tx := unfold slash_comment; repeat (progress (cbn [app]; rewrite ?text_cons, ?text_app, <- ?app_assoc)); cbn [text map concat]; rewrite ?app_nil_r.
Local Ltac tk := unfold slash_comment; repeat (progress (cbn [app tokens length]; rewrite ?tokens_app, ?text_cons, ?text_app, ?app_length, <- ?app_assoc)); cbn [text map concat length]; rewrite ?app_nil_r, ?Nat.add_0_r, ?Nat.add_assoc.
Lemma ws_more w p rest : Forall lenient_blank w -> c_comment js_line p rest -> does (ws_body true tt) tt ((w, None) :: p) rest (inl tt) tt.
Proof.
  intros F C. unfold ws_body. apply does_get. rewrite text_cons, <- app_assoc. destruct (c_comment_head _ _ _ C) as (t & E).
  eapply does_cons; [apply does_advance; apply whitespace_len; [exact F|]; rewrite E; apply not_before_cons; unfold lenient_blank, rfc_blank; cbn; intuition discriminate|].
  cbn iota. intros i o. destruct C as [t' r H R|t' r H|t' H].
  - apply wp_bind. eapply wp_mono; [apply line_comment_exact; assumption|]. intros b st' [-> ->]. apply wp_ret. split; reflexivity.
  - apply wp_bind. match goal with |- wp _ ?Q _ => set (Post := Q) end. rewrite text_cons. change (bs "/*") with [47; 42]%N. cbn [app]. apply line_comment_no; [right; apply not_before_cons; discriminate|]. unfold Post. cbn iota. apply wp_bind. eapply wp_mono; [exact (block_comment_exact t' true r i o H)|]. intros b st' [-> ->]. apply wp_ret. split; reflexivity.
  - apply wp_bind. match goal with |- wp _ ?Q _ => set (Post := Q) end. rewrite text_cons. change (bs "/*") with [47; 42]%N. cbn [app]. apply line_comment_no; [right; apply not_before_cons; discriminate|]. unfold Post. cbn iota. apply wp_bind. pose proof (block_comment_exact t' false [] i o (conj H eq_refl)) as K. cbv zeta in K. rewrite app_nil_r in K.
    eapply wp_mono; [exact K|]. intros b st' [-> ->]. apply wp_ret. split; reflexivity.
Qed.
Lemma ws_end hc w rest : Forall lenient_blank w -> not_before stop rest -> does (ws_body hc tt) tt [(w, None)] rest (inr tt) tt.
Proof.
  intros F H. unfold ws_body. apply does_get. rewrite text_one.
  eapply does_cons; [apply does_advance; apply whitespace_len; [exact F|]; eapply not_before_impl; [|exact H]; intros c K; left; exact K|]. destruct hc; [|apply does_ret].
  intros i o. apply wp_bind. cbn [text map concat app]. destruct rest as [|c r].
  - unfold json_expect_line_comment. apply wp_bind, wp_get_rem. apply wp_ret. apply wp_bind. unfold json_expect_block_comment. apply wp_bind, wp_get_rem. apply wp_ret. apply wp_ret. cbn. rewrite Nat.add_0_r. split; reflexivity.
  - assert (N : c <> 47%N) by (intros ->; apply (H 47%N eq_refl); right; reflexivity). apply line_comment_no; [left; exact N|]. cbn iota. apply wp_bind. apply block_comment_no; [left; exact N|]. apply wp_ret. cbn. rewrite Nat.add_0_r. split; reflexivity.
Qed.
(** An iteration of whitespace and comments, followed by a last comment [e]. *)
Lemma ws_iterates hc l e rest : json_gap hc l -> (e = [] /\ not_before stop rest \/ hc = true /\ rest = [] /\ exists t, js_line t /\ e = slash_comment :: opt_piece t hl_comment) ->
  forall w, Forall lenient_blank w -> exists q, iterates (ws_body hc) tt rest tt tt tt q /\ text q = text ((w, None) :: l ++ e) /\ forall i, tokens i q = tokens i ((w, None) :: l ++ e).
Proof.
  intros G R. induction G as [|b l F G IH|t c r l Hc J C E G IH|t l Hc J G IH]; intros w Fw.
  - destruct R as [[-> R]|(-> & -> & t & J & ->)].
    + exists [(w, None)]. split; [apply iterates_end, ws_end; assumption|split; reflexivity].
    + exists (((w, None) :: slash_comment :: opt_piece t hl_comment) ++ [([], None)]). split.
      * eapply iterates_more; [apply ws_more; [exact Fw|apply c_line; [exact J|apply not_before_nil]]| |apply iterates_end, ws_end; [apply Forall_nil|apply not_before_nil]]. rewrite text_cons. destruct w; discriminate.
      * split; [tx; reflexivity|]. intros i. tk. reflexivity.
  - destruct (IH (w ++ b)) as (q & I & E1 & E2); [apply Forall_app; split; assumption|]. exists q. split; [exact I|]. split.
    + rewrite E1, !text_cons. cbn [app]. rewrite text_cons, app_assoc. reflexivity.
    + intros i. rewrite E2. cbn [tokens app]. rewrite app_length, Nat.add_assoc. reflexivity.
  - subst hc. destruct (IH []) as (q & I & E1 & E2); [apply Forall_nil|]. exists (((w, None) :: slash_comment :: opt_piece t hl_comment) ++ q). split.
    + eapply iterates_more; [apply ws_more; [exact Fw|apply c_line; [exact J|]]| |exact I].
      * rewrite E1, text_cons, text_app, E. apply not_before_cons. lia.
      * rewrite text_cons. destruct w; discriminate.
    + split.
      * tx. rewrite E1. tx. reflexivity.
      * intros i. tk. rewrite E2. tk. reflexivity.
  - subst hc. destruct (IH []) as (q & I & E1 & E2); [apply Forall_nil|]. exists (((w, None) :: (bs "/*", Some hl_comment_delim) :: opt_piece t hl_comment ++ [(bs "*/", Some hl_comment_delim)]) ++ q). split.
    + eapply iterates_more; [apply ws_more; [exact Fw|apply c_block; exact J]| |exact I]. rewrite text_cons. destruct w; discriminate.
    + split.
      * tx. rewrite E1. tx. reflexivity.
      * intros i. tk. rewrite E2. tk. reflexivity.
Qed.
Lemma ws_exact hc g rest : json_gap hc g -> not_before stop rest -> does (json_consume_ws hc) tt g rest tt tt.
Proof.
  intros G R. destruct (ws_iterates hc g [] rest G (or_introl (conj eq_refl R)) [] (Forall_nil _)) as (q & I & E1 & E2). rewrite app_nil_r in *.
  eapply does_same; [| |apply does_loop; exact I]; [rewrite E1, text_cons; reflexivity|]. intros i. rewrite E2. cbn [tokens length]. rewrite Nat.add_0_r. reflexivity.
Qed.
Lemma ws_last_exact hc g : json_last_gap hc g -> does (json_consume_ws hc) tt g [] tt tt.
Proof.
  intros [l G|l t Hc G J]; [apply ws_exact; [exact G|apply not_before_nil]|].
  destruct (ws_iterates hc l (slash_comment :: opt_piece t hl_comment) [] G) with (w := @nil N) as (q & I & E1 & E2); [right; repeat split; [exact Hc|exists t; auto]|apply Forall_nil|].
  eapply does_same; [| |apply does_loop; exact I]; [rewrite E1, text_cons; reflexivity|]. intros i. rewrite E2. cbn [tokens length]. rewrite Nat.add_0_r. reflexivity.
Qed.

(** ** Strings *)
Lemma flush_exact w h rest : does (json_flush (length w) h) tt (opt_piece w h) rest tt tt.
Proof. apply does_opt. reflexivity. Qed.
Lemma unescaped_step property w c r : unescaped c -> does (json_string_body property (length w)) tt [] (w ++ c :: r) (inl (length w + 1)) tt.
Proof.
  intros (H1 & H2 & H3). unfold json_string_body. apply does_get. cbn [text map concat app].
  replace (length w <? length (w ++ c :: r)) with true by (symmetry; apply Nat.ltb_lt; rewrite app_length; cbn; lia). cbn [negb].
  eapply does_at; [rewrite nth_error_app2, Nat.sub_diag; [reflexivity|lia]|]. rewrite (proj2 (N.eqb_neq _ _) H2).
  replace (mem c [10; 13; 11]%N) with false by (symmetry; unfold mem; cbn [existsb]; rewrite !(proj2 (N.eqb_neq _ _)) by lia; reflexivity).
  change (ch "\") with 92%N. rewrite (proj2 (N.eqb_neq _ _) H3). replace (c <? 32)%N with false by (symmetry; apply N.ltb_ge; lia). apply does_ret.
Qed.
Lemma string_steps property q b rest s' a pre run t : text q ++ rest = pre ++ run ++ t -> Forall unescaped run -> length pre = a ->
  scans (json_string_body property) b rest s' (a + length run) tt q -> scans (json_string_body property) b rest s' a tt q.
Proof.
  intros E F <-. apply scans_run; [lia|rewrite E, !app_length; lia|]. intros k Hk.
  destruct (nth_error run (k - length pre)) as [c|] eqn:Ec; [|apply nth_error_None in Ec; lia]. apply nth_error_split in Ec as (u & v & -> & Lu). rewrite E.
  apply Forall_app in F as [_ F]. apply Forall_inv in F. replace (pre ++ (u ++ c :: v) ++ t) with ((pre ++ u) ++ c :: v ++ t) by (rewrite <- !app_assoc; reflexivity).
  replace k with (length (pre ++ u)) by (rewrite app_length; lia). apply unescaped_step. exact F.
Qed.
Lemma string_escape (property : bool) w t v rest : json_escape t v ->
  does (json_string_body property (length w)) tt (opt_piece w (if property then hl_markup_attr else hl_string) ++ [(t, Some hl_string_escape)]) rest (inl 0) tt.
Proof.
  intros E. destruct (escape_head _ _ E) as (r & Et & _ & Lt). unfold json_string_body. apply does_get. rewrite text_app, opt_piece_text, text_one.
  replace (length w <? length ((w ++ t) ++ rest)) with true by (symmetry; apply Nat.ltb_lt; rewrite !app_length; lia). cbn [negb].
  eapply does_at; [rewrite <- app_assoc, nth_error_app2, Nat.sub_diag, Et; [reflexivity|lia]|]. change (92 =? 34)%N with false. change (mem 92%N [10; 13; 11]%N) with false. change (92 =? ch "\")%N with true. cbn iota.
  eapply does_bind; [apply flush_exact|]. apply does_get. rewrite text_one. eapply does_lift; [apply match_escape_complete; exact E|]. cbn [fst snd].
  destruct (length t) as [|n] eqn:L; [lia|]. cbn [Nat.eqb negb]. rewrite <- L. eapply does_last with (x := tt); [apply does_emit; [reflexivity|destruct t; discriminate]|apply does_ret].
Qed.
Lemma string_close w rest : does (json_string_body false (length w)) tt (opt_piece w hl_string ++ [json_quote]) rest (inr true) tt.
Proof.
  unfold json_string_body. apply does_get. rewrite text_app, opt_piece_text. change (text [json_quote]) with [34%N].
  replace (length w <? length ((w ++ [34%N]) ++ rest)) with true by (symmetry; apply Nat.ltb_lt; rewrite !app_length; cbn; lia). cbn [negb].
  eapply does_at; [rewrite <- app_assoc, nth_error_app2, Nat.sub_diag; [reflexivity|lia]|]. change (34 =? 34)%N with true. cbn iota.
  eapply does_last with (x := tt); [|apply does_ret]. eapply does_bind; [apply flush_exact|]. apply does_emit; [reflexivity|discriminate].
Qed.
Lemma key_close w rest : does (json_string_body true (length w)) tt [(w ++ [34%N], Some hl_markup_attr)] rest (inr true) tt.
Proof.
  unfold json_string_body. apply does_get. rewrite text_one.
  replace (length w <? length ((w ++ [34%N]) ++ rest)) with true by (symmetry; apply Nat.ltb_lt; rewrite !app_length; cbn; lia). cbn [negb].
  eapply does_at; [rewrite <- app_assoc, nth_error_app2, Nat.sub_diag; [reflexivity|lia]|]. change (34 =? 34)%N with true. cbn iota.
  eapply does_last with (x := tt); [|apply does_ret]. unfold json_flush. rewrite Nat.add_1_r. cbn [Nat.eqb negb when]. apply does_emit; [rewrite app_length; cbn; lia|destruct w; discriminate].
Qed.
Lemma chars_scan (property : bool) last l rest :
  (forall run, Forall unescaped run -> exists t, text (last run) = run ++ t) ->
  (forall w, does (json_string_body property (length w)) tt (last w) rest (inr true) tt) ->
  json_chars (if property then hl_markup_attr else hl_string) last l -> scans (json_string_body property) true rest tt 0 tt l.
Proof.
  intros T C. induction 1 as [run F|run t v l F E H IH].
  - destruct (T run F) as (t & Et). eapply (string_steps property _ _ _ _ 0 [] run (t ++ rest)); [rewrite Et, <- app_assoc; reflexivity|exact F|reflexivity|]. cbn [Nat.add]. apply scans_end. apply C.
  - eapply (string_steps property _ _ _ _ 0 [] run (t ++ text l ++ rest)); [rewrite text_app, text_cons, opt_piece_text, <- !app_assoc; reflexivity|exact F|reflexivity|]. cbn [Nat.add].
    change ((t, Some hl_string_escape) :: l) with ([(t, Some hl_string_escape)] ++ l). rewrite app_assoc. eapply scans_more; [apply (string_escape property run t v); exact E| |exact IH].
    rewrite text_app, opt_piece_text, text_one, app_length. destruct (escape_head _ _ E) as (r & _ & _ & L). lia.
Qed.
Lemma string_exact l rest : json_string l -> does (json_expect_string false) tt l rest true tt.
Proof.
  intros (body & -> & H). unfold json_expect_string. apply does_get. cbn [negb]. change (text (json_quote :: body) ++ rest) with (34%N :: text body ++ rest). cbn [starts_with_ch]. rewrite N.eqb_refl. cbn [negb].
  eapply does_cons; [apply does_emit; [reflexivity|discriminate]|]. apply does_scan.
  apply (chars_scan false (fun run => opt_piece run hl_string ++ [json_quote])); [|intros w; apply string_close|exact H].
  intros run F. exists [34%N]. rewrite text_app, opt_piece_text. reflexivity.
Qed.
Lemma key_exact l rest : json_key l -> does (json_expect_string true) tt l rest true tt.
Proof.
  intros H. unfold json_expect_string. apply does_get. assert (exists t, text l = 34%N :: t) as (t & E) by (destruct H; rewrite text_cons; cbn [app]; eexists; reflexivity).
  rewrite E. cbn [app starts_with_ch]. rewrite N.eqb_refl. cbn [negb]. apply does_scan. destruct H as [run F|run u v l F Eu H].
  - apply (string_steps true _ _ _ _ 1 [34%N] run ([34%N] ++ rest)); [rewrite text_one; cbn [app]; rewrite <- app_assoc; reflexivity|exact F|reflexivity|]. apply scans_end. apply (key_close (34%N :: run)).
  - apply (string_steps true _ _ _ _ 1 [34%N] run (u ++ text l ++ rest)); [rewrite !text_cons; cbn [app]; rewrite <- !app_assoc; reflexivity|exact F|reflexivity|].
    change ((34%N :: run, Some hl_markup_attr) :: (u, Some hl_string_escape) :: l) with ((opt_piece (34%N :: run) hl_markup_attr ++ [(u, Some hl_string_escape)]) ++ l).
    eapply scans_more; [apply (string_escape true (34%N :: run) u v); exact Eu| |].
    + rewrite text_app, opt_piece_text, text_one, app_length. destruct (escape_head _ _ Eu) as (r & _ & _ & L). cbn [length]. lia.
    + apply (chars_scan true (fun run => [(run ++ [34%N], Some hl_markup_attr)])); [|intros w; apply key_close|exact H]. intros w _. exists [34%N]. apply text_one.
Qed.
(** ** Values *)
Definition closes (c : N) : Prop := In c [44; 58; 93; 125]%N.
(** What can follow a value: nothing, white space, a comment or punctuation *)
Definition follows (rest : str) : Prop := not_before (fun c => ~ (stop c \/ closes c)) rest.
Lemma follows_app hc g rest : json_gap hc g -> follows rest -> follows (text g ++ rest).
Proof.
  induction 1 as [|w l F G IH|t c r l Hc J C E G IH|t l Hc J G IH]; intros R; [exact R| | |].
  - rewrite text_cons, <- app_assoc. destruct F as [|c w Hc F]; [apply IH; exact R|]. apply not_before_cons. intros K. apply K. left. left. exact Hc.
  - apply not_before_cons. intros K. apply K. left. right. reflexivity.
  - rewrite text_cons. apply not_before_cons. intros K. apply K. left. right. reflexivity.
Qed.
Lemma follows_last hc g : json_last_gap hc g -> follows (text g).
Proof.
  intros [l G|l t Hc G J].
  - rewrite <- (app_nil_r (text l)). apply (follows_app hc); [exact G|apply not_before_nil].
  - rewrite text_app. apply (follows_app hc); [exact G|]. apply not_before_cons. intros K. apply K. left. right. reflexivity.
Qed.
Lemma follows_close c r : closes c -> follows (c :: r).
Proof. intros H. apply not_before_cons. intros K. apply K. right. exact H. Qed.
Lemma closes_stop c r : closes c -> not_before stop (c :: r).
Proof. intros H. apply not_before_cons. unfold closes, stop, lenient_blank, rfc_blank in *. cbn in *. intuition (subst; discriminate). Qed.

(** What starts a value *)
Definition starts_value (c : N) : Prop := In c [34; 45; 91; 123; 116; 102; 110]%N \/ digit c.
Lemma number_head t : json_number t -> exists c r, t = c :: r /\ (c = 45%N \/ digit c).
Proof.
  intros [m i f e Hm Hi Hf He]. destruct Hm as [<-|[<-|[]]]; [|eexists _, _; split; [reflexivity|left; reflexivity]].
  destruct Hi as [|c Hc|c s Hc Hs]; eexists _, _; (split; [reflexivity|]); right; unfold digit; cbn; lia.
Qed.
Lemma value_head hc words e v : json_value hc words e v -> exists c r, text v = c :: r /\ starts_value c.
Proof.
  intros [w h e0 H _|t e0 H|l e0 (b & -> & _)|g e0 _|l e0 _|g e0 _|l e0 _].
  - destruct H as [H|[H|[H|[]]]]; injection H as <- <-; eexists _, _; (split; [reflexivity|]); left; cbn; tauto.
  - destruct (number_head t H) as (c & r & -> & Hc). rewrite text_one. eexists _, _. split; [reflexivity|]. destruct Hc as [->|Hc]; [left; cbn; tauto|right; exact Hc].
  - eexists _, _. split; [reflexivity|]. left. cbn. tauto.
  - eexists _, _. split; [reflexivity|]. left. cbn. tauto.
  - eexists _, _. split; [reflexivity|]. left. cbn. tauto.
  - eexists _, _. split; [reflexivity|]. left. cbn. tauto.
  - eexists _, _. split; [reflexivity|]. left. cbn. tauto.
Qed.
Lemma starts_value_stop c r : starts_value c -> not_before stop (c :: r).
Proof. intros H. apply not_before_cons. unfold starts_value, stop, lenient_blank, rfc_blank, digit in *. cbn in *. lia. Qed.
Lemma value_stop hc words e v rest : json_value hc words e v -> not_before stop (text v ++ rest).
Proof. intros H. destruct (value_head _ _ _ _ H) as (c & r & -> & Hc). apply starts_value_stop. exact Hc. Qed.

Lemma no_string p c r : c <> 34%N -> does (json_expect_string p) tt [] (c :: r) false tt.
Proof. intros H. unfold json_expect_string. apply does_get. cbn [text map concat app starts_with_ch]. rewrite (proj2 (N.eqb_neq _ _) H). cbn [negb]. apply does_ret. Qed.
Lemma no_number c r : ~ In c [45; 46; 101; 69]%N -> ~ digit c -> does json_expect_number tt [] (c :: r) false tt.
Proof.
  intros H1 H2. cbn in H1. unfold json_expect_number. apply does_get. cbn [text map concat app].
  assert (E : exists n, json_match_number (c :: r) = Ok n /\ jn_length n = 0).
  { destruct (match_number_spec (c :: r)) as (n & E & _). exists n. split; [exact E|]. revert E. unfold json_match_number. cbn [starts_with_ch]. change (ch "-") with 45%N. rewrite (proj2 (N.eqb_neq c 45)) by lia. cbv zeta. cbn [skipn]. rewrite (match_digits_app [] (c :: r) (Forall_nil _) H2 : json_match_digits (c :: r) = 0).
    cbn [skipn starts_with_ch]. change (ch ".") with 46%N. change (ch "e") with 101%N. change (ch "E") with 69%N. rewrite (proj2 (N.eqb_neq c 46)) by lia. cbn [skipn starts_with_ch]. rewrite (proj2 (N.eqb_neq c 101)), (proj2 (N.eqb_neq c 69)) by lia. cbn. intros E. injection E as <-. reflexivity. }
  destruct E as (n & E & L). eapply does_lift; [exact E|]. rewrite L. apply does_ret.
Qed.
Lemma no_object hc value c r : c <> 123%N -> does (json_expect_object hc value) tt [] (c :: r) false tt.
Proof. intros H. unfold json_expect_object. apply does_get. cbn [text map concat app starts_with_ch]. change (ch "{") with 123%N. rewrite (proj2 (N.eqb_neq _ _) H). cbn [negb]. apply does_ret. Qed.
Lemma no_array hc value c r : c <> 91%N -> does (json_expect_array hc value) tt [] (c :: r) false tt.
Proof. intros H. unfold json_expect_array. apply does_get. cbn [text map concat app starts_with_ch]. change (ch "[") with 91%N. rewrite (proj2 (N.eqb_neq _ _) H). cbn [negb]. apply does_ret. Qed.
Lemma number_exact t rest : json_number t -> follows rest -> does json_expect_number tt [(t, Some hl_number)] rest true tt.
Proof.
  intros H F. unfold json_expect_number. apply does_get. rewrite text_one. destruct (match_number_complete t rest H) as (n & E & L & R).
  { destruct rest as [|c r]; [exact I|]. intros K. apply (F c eq_refl). unfold continues_number, is_point, is_e, digit, S_Json.digit, stop, closes, lenient_blank, rfc_blank in *. cbn in *. lia. }
  eapply does_lift; [exact E|]. rewrite L, R. destruct (number_head t H) as (c & r & -> & _). cbn [length Nat.eqb].
  eapply does_last with (x := tt); [apply does_emit; [reflexivity|discriminate]|apply does_ret].
Qed.
Lemma word_exact w h rest : In (w, h) json_words -> follows rest -> does json_expect_true_false_null tt [(w, Some h)] rest false tt.
Proof.
  intros H F. unfold json_expect_true_false_null. apply does_get. rewrite text_one.
  assert (L : length_if rest is_ascii_alphanumeric = 0).
  { destruct rest as [|c r]; [reflexivity|]. rewrite length_if_eq. cbn [prefix_len]. destruct (is_ascii_alphanumeric c) eqn:D; [|reflexivity]. elim (F c eq_refl). intros [[K|K]|K]; revert D.
    - unfold lenient_blank, rfc_blank in K. cbn in K. intuition subst; discriminate.
    - subst c. discriminate.
    - unfold closes in K. cbn in K. intuition subst; discriminate. }
  assert (E : exists id, json_match_identifier (w ++ rest) = (length w, id) /\ h = match id with id_null => hl_null | _ => hl_bool end /\ id <> id_normal).
  { assert (K : forall c v, is_ascii_alpha c = true -> forallb is_ascii_alphanumeric v = true -> 1 + length_if (v ++ rest) is_ascii_alphanumeric = length (c :: v)).
    { intros c v _ Hv. rewrite length_if_eq, prefix_len_exact; [reflexivity|apply Forall_forall, forallb_forall; exact Hv|]. rewrite length_if_eq in L. destruct rest as [|x r]; [apply not_before_nil|]. apply not_before_cons. cbn [prefix_len] in L. destruct (is_ascii_alphanumeric x); [discriminate|congruence]. }
    destruct H as [H|[H|[H|[]]]]; injection H as <- <-; unfold json_match_identifier.
    - exists id_null. change (bs "null" ++ rest) with (110%N :: bs "ull" ++ rest). cbn iota. cbv zeta. rewrite (K 110%N (bs "ull") eq_refl eq_refl). repeat split. discriminate.
    - exists id_true. change (bs "true" ++ rest) with (116%N :: bs "rue" ++ rest). cbn iota. cbv zeta. rewrite (K 116%N (bs "rue") eq_refl eq_refl). repeat split. discriminate.
    - exists id_false. change (bs "false" ++ rest) with (102%N :: bs "alse" ++ rest). cbn iota. cbv zeta. rewrite (K 102%N (bs "alse") eq_refl eq_refl). repeat split. discriminate. }
  destruct E as (id & E & Eh & Ni). rewrite E. assert (Nw : w <> []) by (destruct H as [H|[H|[H|[]]]]; injection H as <- <-; discriminate).
  replace (length w =? 0) with false by (destruct w; [contradiction|reflexivity]). cbn [negb].
  eapply does_last with (x := tt); [|apply does_ret]. subst h. destruct id; [congruence| | |]; (apply does_emit; [reflexivity|exact Nw]).
Qed.
Lemma at_end_exact hc g c r : json_gap hc g -> ~ stop c -> c <> 125%N -> c <> 44%N -> does (json_at_end hc) tt g (c :: r) false tt.
Proof.
  intros G H1 H2 H3. unfold json_at_end. eapply does_last; [apply ws_exact; [exact G|apply not_before_cons; exact H1]|]. apply does_get. cbn [text map concat app length Nat.eqb starts_with_ch orb]. change (ch "}") with 125%N. change (ch ",") with 44%N.
  rewrite (proj2 (N.eqb_neq _ _) H2), (proj2 (N.eqb_neq _ _) H3). apply does_ret.
Qed.
Lemma at_end_exact' hc g s c r : json_gap hc g -> s = c :: r -> ~ stop c -> c <> 125%N -> c <> 44%N -> does (json_at_end hc) tt g s false tt.
Proof. intros G -> . apply at_end_exact. exact G. Qed.
Lemma starts_value_end c : starts_value c -> ~ stop c /\ c <> 125%N /\ c <> 44%N /\ c <> 93%N.
Proof. intros H. unfold starts_value, stop, lenient_blank, rfc_blank, digit in *. cbn in *. lia. Qed.
Lemma key_head k : json_key k -> exists r, text k = 34%N :: r.
Proof. intros [run F|run t v l F E H]; rewrite text_cons; cbn [app]; eexists; reflexivity. Qed.
Definition good_value hc n v := exists b, forall rest, follows rest -> does (json_expect_value n hc) tt v rest b tt.
Lemma member_exact hc n g k g1 g2 v g' rest : json_gap hc g -> json_key k -> json_gap hc g1 -> json_gap hc g2 -> (exists c r, text v = c :: r /\ starts_value c) -> good_value hc n v -> json_gap hc g' ->
  not_before stop rest -> follows rest ->
  does (json_consume_member hc (json_expect_value n hc)) tt (g ++ k ++ g1 ++ json_punctuation (bs ":") :: g2 ++ v ++ g') rest tt tt.
Proof.
  intros G K G1 G2 (c & r & Ev & Sv) (b & V) G' R F. unfold json_consume_member.
  destruct (key_head k K) as (t & Ek).
  eapply does_bind; [eapply at_end_exact'; [exact G|rewrite text_app, Ek; cbn [app]; reflexivity| |discriminate|discriminate]; unfold stop, lenient_blank, rfc_blank; cbn; lia|]. cbn iota.
  eapply does_bind; [apply key_exact; exact K|].
  eapply does_bind; [eapply at_end_exact'; [exact G1|unfold json_punctuation; rewrite text_cons; reflexivity| |discriminate|discriminate]; unfold stop, lenient_blank, rfc_blank; cbn; lia|]. cbn iota.
  apply does_get. unfold json_punctuation. rewrite text_cons. change (starts_with_ch ((bs ":" ++ _) ++ rest) (ch ":")) with true. cbn iota.
  eapply does_cons; [apply does_emit; [reflexivity|discriminate]|]. destruct (starts_value_end c Sv) as (N1 & N2 & N3 & _).
  eapply does_bind; [eapply at_end_exact'; [exact G2|rewrite text_app, Ev; cbn [app]; reflexivity|exact N1|exact N2|exact N3]|]. cbn iota.
  eapply does_bind; [apply V; apply (follows_app hc); assumption|]. apply ws_exact; assumption.
Qed.
Definition array_loop hc n := json_array_body hc (json_expect_value n hc).
Definition object_loop hc n := json_object_body hc (json_expect_value n hc).
Lemma array_close hc n g rest : json_gap hc g -> does (array_loop hc n tt) tt (g ++ [json_square (bs "]")]) rest (inr true) tt.
Proof.
  intros G. unfold array_loop, json_array_body. apply does_eof; [rewrite text_app; destruct (text g); discriminate|]. cbn iota.
  eapply does_bind; [apply ws_exact; [exact G|apply closes_stop; cbn; tauto]|]. apply does_get. change (starts_with_ch _ (ch "]")) with true. cbn iota.
  eapply does_last with (x := tt); [apply does_emit; [reflexivity|discriminate]|apply does_ret].
Qed.
Lemma array_comma hc n g rest : json_gap hc g -> does (array_loop hc n tt) tt (g ++ [json_punctuation (bs ",")]) rest (inl tt) tt.
Proof.
  intros G. unfold array_loop, json_array_body. apply does_eof; [rewrite text_app; destruct (text g); discriminate|]. cbn iota.
  eapply does_bind; [apply ws_exact; [exact G|apply closes_stop; cbn; tauto]|]. apply does_get. change (starts_with_ch _ (ch "]")) with false. change (starts_with_ch _ (ch ",")) with true. cbn iota.
  eapply does_last with (x := tt); [apply does_emit; [reflexivity|discriminate]|apply does_ret].
Qed.
Lemma array_value hc n g v rest : json_gap hc g -> (exists c r, text v = c :: r /\ starts_value c) -> does (json_expect_value n hc) tt v rest true tt ->
  does (array_loop hc n tt) tt (g ++ v) rest (inl tt) tt.
Proof.
  intros G (c & r & Ev & Sv) V. unfold array_loop, json_array_body. apply does_eof; [rewrite text_app, Ev; destruct (text g); discriminate|]. cbn iota. destruct (starts_value_end c Sv) as (N1 & N2 & N3 & N4).
  eapply does_bind; [apply ws_exact; [exact G|rewrite Ev; apply not_before_cons; exact N1]|]. apply does_get. rewrite Ev. cbn [app starts_with_ch]. change (ch "]") with 93%N. change (ch ",") with 44%N. rewrite (proj2 (N.eqb_neq _ _) N4), (proj2 (N.eqb_neq _ _) N3).
  eapply does_last; [exact V|]. apply does_ret.
Qed.
Lemma object_empty hc n g rest : json_gap hc g -> does (object_loop hc n tt) tt (g ++ [json_brace (bs "}")]) rest (inr true) tt.
Proof.
  intros G. unfold object_loop, json_object_body. apply does_eof; [rewrite text_app; destruct (text g); discriminate|]. cbn iota.
  eapply does_bind with (x := tt) (s1 := tt).
  - unfold json_consume_member. eapply does_last with (x := true); [|apply does_ret]. unfold json_at_end. eapply does_last; [apply ws_exact; [exact G|apply closes_stop; cbn; tauto]|]. apply does_get.
    replace ((length _ =? 0) || _ || _) with true by reflexivity. apply does_ret.
  - apply does_get. change (starts_with_ch _ (ch "}")) with true. cbn iota. eapply does_last with (x := tt); [apply does_emit; [reflexivity|discriminate]|apply does_ret].
Qed.
Lemma object_last hc n m rest : m <> [] -> (forall r, not_before stop r -> follows r -> does (json_consume_member hc (json_expect_value n hc)) tt m r tt tt) ->
  does (object_loop hc n tt) tt (m ++ [json_brace (bs "}")]) rest (inr true) tt.
Proof.
  intros N H. unfold object_loop, json_object_body. apply does_eof; [rewrite text_app; destruct (text m); discriminate|]. cbn iota.
  eapply does_bind; [apply H; [apply closes_stop; cbn; tauto|apply follows_close; cbn; tauto]|].
  apply does_get. change (starts_with_ch _ (ch "}")) with true. cbn iota. eapply does_last with (x := tt); [apply does_emit; [reflexivity|discriminate]|apply does_ret].
Qed.
Lemma object_more hc n m rest : m <> [] -> (forall r, not_before stop r -> follows r -> does (json_consume_member hc (json_expect_value n hc)) tt m r tt tt) ->
  does (object_loop hc n tt) tt (m ++ [json_punctuation (bs ",")]) rest (inl tt) tt.
Proof.
  intros N H. unfold object_loop, json_object_body. apply does_eof; [rewrite text_app; destruct (text m); discriminate|]. cbn iota.
  eapply does_bind; [apply H; [apply closes_stop; cbn; tauto|apply follows_close; cbn; tauto]|].
  apply does_get. change (starts_with_ch _ (ch "}")) with false. change (starts_with_ch _ (ch ",")) with true. cbn iota. eapply does_last with (x := tt); [apply does_emit; [reflexivity|discriminate]|apply does_ret].
Qed.
Scheme value_min := Minimality for json_value Sort Prop
with elements_min := Minimality for json_elements Sort Prop
with members_min := Minimality for json_members Sort Prop.
Combined Scheme json_min from value_min, elements_min, members_min.
Ltac value_skip := unfold json_square, json_brace, json_quote; eapply does_nil; [first [apply no_string|apply no_number|apply no_object|apply no_array]; first [discriminate|unfold digit; cbn; lia]|]; cbn iota.

Lemma value_cases hc : (forall e v, json_value hc false e v -> forall n, length (text v) <= n -> exists b, (e = true -> b = true) /\ forall rest, follows rest -> does (json_expect_value (S n) hc) tt v rest b tt)
  /\ (forall l, json_elements hc false l -> forall n rest, length (text l) < n -> iterates (array_loop hc n) true rest tt tt tt (l ++ [json_square (bs "]")]))
  /\ (forall l, json_members hc false l -> forall n rest, length (text l) < n -> iterates (object_loop hc n) true rest tt tt tt (l ++ [json_brace (bs "}")])).
Proof.
  apply json_min.
  - intros w h e H He n L. exists false. split; [destruct e; [specialize (He eq_refl)|]; discriminate|]. intros rest F. cbn [json_expect_value].
    assert (exists c r, w = c :: r /\ In c [110; 116; 102]%N) as (c & r & E & Hc) by (destruct H as [H|[H|[H|[]]]]; injection H as <- <-; eexists _, _; (split; [reflexivity|cbn; tauto])).
    assert (E' : text [(w, Some h)] ++ rest = c :: r ++ rest) by (rewrite text_one, E; reflexivity). cbn in Hc.
    eapply does_nil; [rewrite E'; apply no_string; lia|]. cbn iota.
    eapply does_nil; [rewrite E'; apply no_number; [cbn; lia|unfold digit; lia]|]. cbn iota.
    eapply does_nil; [rewrite E'; apply no_object; lia|]. cbn iota.
    eapply does_nil; [rewrite E'; apply no_array; lia|]. cbn iota. apply word_exact; assumption.
  - intros t e H n L. exists true. split; [auto|]. intros rest F. cbn [json_expect_value]. destruct (number_head t H) as (c & r & E & Hc).
    assert (E' : text [(t, Some hl_number)] ++ rest = c :: r ++ rest) by (rewrite text_one, E; reflexivity).
    eapply does_nil; [rewrite E'; apply no_string; unfold digit in Hc; lia|]. cbn iota. eapply does_last; [apply number_exact; assumption|]. apply does_ret.
  - intros l e H n L. exists true. split; [auto|]. intros rest F. cbn [json_expect_value]. eapply does_last; [apply string_exact; exact H|]. apply does_ret.
  - intros g e G n L. exists true. split; [auto|]. intros rest F. cbn [json_expect_value].
    do 3 value_skip. eapply does_last with (x := true) (s1 := tt); [|apply does_ret]. unfold json_expect_array. apply does_get. rewrite text_cons. change (starts_with_ch _ (ch "[")) with true. cbn [negb].
    eapply does_cons; [apply does_emit; [reflexivity|discriminate]|]. apply does_loop. apply iterates_end. apply array_close. exact G.
  - intros l e _ IH n L. exists true. split; [auto|]. intros rest F. cbn [json_expect_value].
    do 3 value_skip. eapply does_last with (x := true) (s1 := tt); [|apply does_ret]. unfold json_expect_array. apply does_get. rewrite text_cons. change (starts_with_ch _ (ch "[")) with true. cbn [negb].
    eapply does_cons; [apply does_emit; [reflexivity|discriminate]|]. apply does_loop. apply IH. unfold json_square in L. rewrite text_cons, text_app, !app_length in L. cbn in L. lia.
  - intros g e G n L. exists true. split; [auto|]. intros rest F. cbn [json_expect_value].
    do 2 value_skip. eapply does_last with (x := true) (s1 := tt); [|apply does_ret]. unfold json_expect_object. apply does_get. rewrite text_cons. change (starts_with_ch _ (ch "{")) with true. cbn [negb].
    eapply does_cons; [apply does_emit; [reflexivity|discriminate]|]. apply does_loop. apply iterates_end. apply object_empty. exact G.
  - intros l e _ IH n L. exists true. split; [auto|]. intros rest F. cbn [json_expect_value].
    do 2 value_skip. eapply does_last with (x := true) (s1 := tt); [|apply does_ret]. unfold json_expect_object. apply does_get. rewrite text_cons. change (starts_with_ch _ (ch "{")) with true. cbn [negb].
    eapply does_cons; [apply does_emit; [reflexivity|discriminate]|]. apply does_loop. apply IH. unfold json_brace in L. rewrite text_cons, text_app, !app_length in L. cbn in L. lia.
  - intros g v g' G V IH G' n rest L. rewrite !text_app, !app_length in L. destruct n as [|n]; [lia|]. destruct (IH n) as (b & Hb & D); [lia|]. rewrite Hb in D by reflexivity. pose proof (value_head _ _ _ _ V) as Hv.
    replace ((g ++ v ++ g') ++ [json_square (bs "]")]) with ((g ++ v) ++ g' ++ [json_square (bs "]")]) by (rewrite <- !app_assoc; reflexivity).
    eapply iterates_more; [apply array_value; [exact G|exact Hv|apply D]| |apply iterates_end; apply array_close; exact G'].
    + rewrite text_app, <- app_assoc. apply (follows_app hc); [exact G'|]. apply follows_close. cbn. tauto.
    + destruct Hv as (c & r & Ev & _). rewrite text_app, Ev. destruct (text g); discriminate.
  - intros g v g' l G V IH G' _ IHl n rest L. unfold json_punctuation in L. rewrite !text_app, text_cons, !app_length in L. destruct n as [|n]; [lia|]. destruct (IH n) as (b & Hb & D); [lia|]. rewrite Hb in D by reflexivity. pose proof (value_head _ _ _ _ V) as Hv.
    replace ((g ++ v ++ g' ++ json_punctuation (bs ",") :: l) ++ [json_square (bs "]")]) with ((g ++ v) ++ (g' ++ [json_punctuation (bs ",")]) ++ l ++ [json_square (bs "]")]) by (rewrite <- !app_assoc; reflexivity).
    eapply iterates_more; [apply array_value; [exact G|exact Hv|apply D]| |eapply iterates_more; [apply array_comma; exact G'| |apply IHl; lia]].
    + rewrite text_app, text_app, <- !app_assoc. apply (follows_app hc); [exact G'|]. apply follows_close. cbn. tauto.
    + destruct Hv as (c & r & Ev & _). rewrite text_app, Ev. destruct (text g); discriminate.
    + rewrite text_app. destruct (text g'); discriminate.
  - intros g k g1 g2 v g' G K G1 G2 V IH G' n rest L. unfold json_punctuation in L. rewrite !text_app, text_cons, !text_app, !app_length in L. destruct n as [|n]; [lia|]. destruct (IH n) as (b & _ & D); [lia|]. pose proof (value_head _ _ _ _ V) as Hv.
    apply iterates_end. apply object_last; [intros E; apply (f_equal (@length _)) in E; rewrite !app_length in E; cbn [length] in E; lia|].
    intros r Hr Fr. apply member_exact; try assumption. exists b. exact D.
  - intros g k g1 g2 v g' l G K G1 G2 V IH G' _ IHl n rest L. unfold json_punctuation in L. rewrite !text_app, text_cons, !text_app, text_cons, !app_length in L. destruct n as [|n]; [lia|]. destruct (IH n) as (b & _ & D); [lia|]. pose proof (value_head _ _ _ _ V) as Hv.
    replace ((g ++ k ++ g1 ++ json_punctuation (bs ":") :: g2 ++ v ++ g' ++ json_punctuation (bs ",") :: l) ++ [json_brace (bs "}")])
      with (((g ++ k ++ g1 ++ json_punctuation (bs ":") :: g2 ++ v ++ g') ++ [json_punctuation (bs ",")]) ++ l ++ [json_brace (bs "}")])
      by (repeat (progress (rewrite <- ?app_assoc; cbn [app])); reflexivity).
    eapply iterates_more; [apply object_more| |apply IHl; lia].
    + intros E; apply (f_equal (@length _)) in E; rewrite !app_length in E; cbn [length] in E; lia.
    + intros r Hr Fr. apply member_exact; try assumption. exists b. exact D.
    + intros E. apply (f_equal (@length _)) in E. rewrite text_app, app_length in E. change (length (text [json_punctuation (bs ",")])) with 1 in E. cbn [length] in E. lia.
Qed.
Lemma does_run {S A} (m : M S A) s l x s' : does m s l [] x s' -> m (mk_hst (text l) 0 [] s) = Ok (x, mk_hst [] (length (text l)) (rev (tokens 0 l)) s').
Proof. intros D. specialize (D 0 []). rewrite !app_nil_r in D. unfold wp in D. destruct (m _) as [[b st]|]; [|contradiction]. destruct D as [-> ->]. reflexivity. Qed.
Lemma main_exact hc l : json_document hc false l -> json_main hc (text l) = Ok (true, tokens 0 l).
Proof.
  intros [g v g' G V G']. destruct (proj1 (value_cases hc) _ _ V (length (text (g ++ v ++ g')))) as (b & _ & D); [rewrite !text_app, !app_length; lia|].
  assert (E : does (json_consume_ws hc ;; json_expect_value (length (text (g ++ v ++ g')) + 1) hc ;; json_consume_ws hc ;; ret true) tt (g ++ v ++ g') [] true tt).
  { eapply does_bind; [apply ws_exact; [exact G|rewrite text_app, <- app_assoc; eapply value_stop; exact V]|].
    eapply does_bind; [rewrite Nat.add_1_r; apply D; rewrite app_nil_r; eapply follows_last; exact G'|]. eapply does_last with (x := tt); [apply ws_last_exact; exact G'|apply does_ret]. }
  apply does_run in E. unfold json_main, run. rewrite E. cbn [rops]. rewrite rev_involutive. reflexivity.
Qed.

(** A document without comments *)
Lemma gap_comments g : json_gap false g -> forall hc, json_gap hc g.
Proof. induction 1; intros hc; [apply gap_none|apply gap_blank; auto|discriminate|discriminate]. Qed.
Lemma last_gap_comments g : json_last_gap false g -> forall hc, json_last_gap hc g.
Proof. intros [l G|l t H _ _] hc; [apply last_gap, gap_comments; exact G|discriminate]. Qed.
Lemma value_comments words : (forall e v, json_value false words e v -> forall hc, json_value hc words e v)
  /\ (forall l, json_elements false words l -> forall hc, json_elements hc words l) /\ (forall l, json_members false words l -> forall hc, json_members hc words l).
Proof.
  apply json_min; intros; [apply json_word|apply json_num|apply json_str|apply json_array_empty|apply json_array|apply json_object_empty|apply json_object|apply json_element|apply json_element_more|apply json_member|apply json_member_more]; auto using gap_comments.
Qed.
Lemma document_comments words l : json_document false words l -> forall hc, json_document hc words l.
Proof. intros [g v g' G V G'] hc. apply json_document_intro; [apply gap_comments; exact G|apply (proj1 (value_comments words)); exact V|apply last_gap_comments; exact G']. Qed.

(** ** C58: valid JSON has no errors and is highlighted except for white space. The claim, with null, true and false anywhere, is false:
    in an array they make the next character an error. *)
Definition C58_witness : list piece := [json_square (bs "["); (bs "true", Some hl_bool); json_square (bs "]")].
Theorem C58_word_in_array_refuted : exists l, json_document false true l
  /\ ~ tokenizes highlight_json l /\ exists op, error_token op /\ forall strict, exists ops, highlight_json (text l) strict = Ok (true, ops) /\ In op ops.
Proof.
  exists C58_witness. split; [|split].
  - apply (json_document_intro false true [] C58_witness []); [apply gap_none| |apply last_gap, gap_none]. apply (json_array false true [(bs "true", Some hl_bool)]).
    apply (json_element false true [] [(bs "true", Some hl_bool)] []); [apply gap_none| |apply gap_none]. apply json_word; [cbn; tauto|reflexivity].
  - intros T. specialize (T true). vm_compute in T. discriminate.
  - exists (OEmit 5 1 hl_error true). split; [reflexivity|]. intros [|]; (eexists; split; [vm_compute; reflexivity|cbn; tauto]).
Qed.
Print Assumptions C58_word_in_array_refuted.
(** Without null, true and false as array elements, it holds; comments are highlighted unless JSON is to be strict. *)
Theorem C58_json_partial : forall strict l, json_document (negb strict) false l -> highlight_json (text l) strict = Ok (true, tokens 0 l).
Proof. intros strict l H. apply main_exact. exact H. Qed.
Print Assumptions C58_json_partial.
Theorem C58_json_without_comments_partial : forall l, json_document false false l -> tokenizes highlight_json l.
Proof. intros l H strict. apply main_exact, document_comments. exact H. Qed.
Print Assumptions C58_json_without_comments_partial.
Theorem C58_jsonc_partial : forall l, json_document true false l -> tokenizes highlight_jsonc l.
Proof. intros l H strict. apply main_exact. exact H. Qed.
Print Assumptions C58_jsonc_partial.
Definition C58_key : list piece := [([34; 97]%N, Some hl_markup_attr); (bs "\n", Some hl_string_escape); ([34]%N, Some hl_markup_attr)].
Definition C58_members : list piece := (([] ++ C58_key ++ [] ++ json_punctuation (bs ":") :: [(bs " ", None)] ++ [(bs "null", Some hl_null)] ++ [])).
Definition C58_text : list piece :=
  [(bs " ", None)] ++ (json_square (bs "[") :: ([] ++ [(bs "-1.5e3", Some hl_number)] ++ [] ++ json_punctuation (bs ",") :: ([] ++ (json_brace (bs "{") :: C58_members ++ [json_brace (bs "}")]) ++ [])) ++ [json_square (bs "]")])
  ++ [(bs " ", None)].
Example C58_case : json_document false false C58_text.
Proof.
  assert (B : json_gap false [(bs " ", None)]) by (apply gap_blank; [apply Forall_cons; [left; left; reflexivity|apply Forall_nil]|apply gap_none]).
  assert (K : json_key C58_key).
  { apply (key_escapes [97%N] (bs "\n") 10%N [([34]%N, Some hl_markup_attr)]).
    - apply Forall_cons; [unfold unescaped; lia|apply Forall_nil].
    - apply escape_simple. cbn. tauto.
    - apply (chars_last hl_markup_attr (fun run => [(run ++ [34%N], Some hl_markup_attr)]) []). apply Forall_nil. }
  apply json_document_intro; [exact B| |apply last_gap; exact B]. apply json_array, json_element_more; [apply gap_none| |apply gap_none|].
  - apply json_num. apply (number_intro (bs "-") (bs "1") (bs "." ++ bs "5") (bs "e" ++ [] ++ bs "3")); [cbn; tauto|apply int_digit; cbn; lia|apply frac_some, digits_one; unfold S_Json.digit; cbn; lia|apply exp_some; [cbn; tauto|cbn; tauto|apply digits_one; unfold S_Json.digit; cbn; lia]].
  - apply json_element; [apply gap_none| |apply gap_none]. apply json_object, json_member; [apply gap_none|exact K|apply gap_none|exact B| |apply gap_none]. apply json_word; [cbn; tauto|discriminate].
Qed.
