(** * The C and C++ highlighters: exact tokens *)
From Coq Require Import List NArith ZArith Bool Arith Lia.
From Verif Require Import M_Base L_Base S_Tokens M_Emit S_Ops L_Emit M_Types M_Chars S_Chars P_Chars M_Parse S_Parse L_Parse S_Utf8 M_Utf8 L_Utf8 L_Utf8b L_Wf8 P_Utf8 L_Any L_Utf8Ascii M_Table L_Table
  M_Api M_Highlighter S_Highlight L_Highlighter M_LangCpp S_LangCpp P_LangCpp P_CppMatch L_Auto S_Lexemes L_Lexemes L_Number S_States S_LangCppLexemes L_LangCppLexemes.
From Verif Require P_Parse.
Import ListNotations.

(** ** Directives *)
Lemma find_if_exact (p : N -> bool) w c rest : Forall (fun c => p c = false) w -> p c = true -> find_if p (w ++ c :: rest) = Some (length w).
Proof. intros F Hc. induction F as [|x w Hx F IH]; cbn [app find_if length]; [rewrite Hc; reflexivity|]. rewrite Hx, IH. reflexivity. Qed.
Lemma hash_op is_cpp hash s : In hash [bs "#"; bs "%:"] -> not_before (fun c => c = 35 \/ c = 37)%N s ->
  match_preprocessing_op_or_punc is_cpp (hash ++ s) = Some hash.
Proof.
  intros [<-|[<-|[]]] R; unfold match_preprocessing_op_or_punc; cbn [app bs first_alternative starts_with].
  - change (bs "#" ++ s) with (35%N :: s). cbn [N.eqb Pos.eqb first_alternative starts_with]. destruct s as [|c s]; [reflexivity|].
    change (bs "##") with [35; 35]%N. cbn [starts_with N.eqb Pos.eqb andb]. destruct (N.eqb_spec 35 c) as [<-|]; [elim (R _ eq_refl); auto|]. destruct (N.eqb_spec c 35) as [->|]; [elim (R _ eq_refl); auto|]. reflexivity.
  - change (bs "%:" ++ s) with (37 :: 58 :: s)%N. cbn [N.eqb Pos.eqb first_alternative starts_with]. destruct s as [|c s]; [reflexivity|].
    change (bs "%:%:") with [37; 58; 37; 58]%N. cbn [starts_with N.eqb Pos.eqb andb]. destruct (N.eqb_spec 37 c) as [<-|]; [elim (R _ eq_refl); auto|]. destruct (N.eqb_spec c 37) as [->|]; [elim (R _ eq_refl); auto|]. reflexivity.
Qed.
Lemma blank_white b s : blanks b -> not_before cpp_space s -> cpp_match_whitespace (b ++ s) = length b.
Proof. intros B R. apply white_len; [|exact R]. eapply Forall_impl; [|exact B]. intros c. unfold cpp_space. cbn [In]. tauto. Qed.
Lemma ident_not_before w s (p : N -> Prop) : identifier w -> (forall c, ident_start c -> ~ p c) -> not_before p (w ++ s).
Proof. intros (c & t & -> & H & _) X. apply not_before_cons. auto. Qed.
Lemma ident_start_not_space c : ident_start c -> ~ cpp_space c.
Proof. unfold cpp_space. cbn [In]. unfold ident_start, letter. lia. Qed.
Lemma blanks_space b : blanks b -> Forall cpp_space b.
Proof. intros B. eapply Forall_impl; [|exact B]. intros c. unfold cpp_space. cbn [In]. tauto. Qed.
Lemma after_hash b w s : Forall cpp_space b -> identifier w -> not_before (fun c => c = 35 \/ c = 37)%N (b ++ w ++ s).
Proof.
  intros B W. destruct B as [|c b H B]; [cbn [app]; apply ident_not_before; [exact W|]|apply not_before_cons; unfold cpp_space in H; cbn [In] in H; lia].
  unfold ident_start, letter. lia.
Qed.
Lemma directive_head is_cpp strict hash b w q rest : In hash [bs "#"; bs "%:"] -> Forall cpp_space b -> identifier w -> not_before ident_or_non_ascii (text q ++ rest) ->
  does (if str_eqb w (bs "include") then
          let! r := cpp_remainder in
          cpp_advance (cpp_match_whitespace r) ;;
          let! r := cpp_remainder in
          if starts_with_ch r (ch "<") then
            cpp_emit_and_advance 1 hl_string_delim ;;
            let! r := cpp_remainder in
            match find_first_of r [62; 13; 10]%N 0 with
            | None => when (negb (length r =? 0)) (cpp_emit_and_advance (length r) hl_string)
            | Some e =>
              let! c := at_ r e in
              when (negb (e =? 0)) (cpp_emit_and_advance e hl_string) ;;
              when (c =? ch ">")%N (cpp_emit_and_advance 1 hl_string_delim)
            end ;;
            ret true
          else ret true
        else ret true) true q rest true true ->
  does (cpp_body is_cpp strict) true ((hash, Some hl_name_macro_delim) :: (b, None) :: (w, Some hl_name_macro) :: q) rest tt true.
Proof.
  intros Hh B W R K. assert (Hash : exists c t, hash = c :: t /\ ~ cpp_space c /\ c <> 47%N).
  { destruct Hh as [<-|[<-|[]]]; eexists _, _; (split; [reflexivity|]); split; try discriminate; unfold cpp_space; cbn [In]; vm_compute; intuition discriminate. }
  destruct Hash as (c & t & E & S1 & S2). pose proof (after_hash b w (text q ++ rest) B W) as A. pose proof (hash_op is_cpp hash _ Hh A) as O.
  apply body_check. eapply to_directive; [rewrite text_cons, E; reflexivity|exact S1|intros X; contradiction|]. apply or_yes. unfold cpp_expect_directive.
  apply does_line. intros n. cbn [cl_fresh_line negb]. apply does_rem. rewrite !text_cons, <- !app_assoc, O. cbv zeta.
  assert (P : is_pound (Some hash) = true) by (destruct Hh as [<-|[<-|[]]]; reflexivity). rewrite P. cbn [negb].
  eapply does_cons; [apply does_emit; [reflexivity|rewrite E; discriminate]|]. apply does_rem. rewrite !text_cons, <- !app_assoc.
  eapply does_cons; [apply does_advance; apply white_len; [exact B|]; apply ident_not_before; [exact W|exact ident_start_not_space]|].
  apply does_rem. rewrite text_cons, <- app_assoc. eapply does_lift; [apply identifier_exact; assumption|].
  assert (L : w <> []) by (destruct W as (c' & t' & -> & _); discriminate). destruct (length w =? 0) eqn:Z; [destruct w; [congruence|discriminate]|]. cbv zeta. rewrite firstn_app_exact.
  eapply does_cons; [apply does_emit; [reflexivity|exact L]|]. exact K.
Qed.
Lemma directive_case is_cpp strict p rest : cpp_directive p rest -> does (cpp_body is_cpp strict) true p rest tt true.
Proof.
  intros [hash b w rest' Hh B W NI R|hash b b2 header rest' Hh B B2 HH R]; apply blanks_space in B.
  - apply directive_head; try assumption. destruct (str_eqb w (bs "include")) eqn:X; [apply str_eqb_eq in X; contradiction|]. apply does_ret.
  - apply directive_head; try assumption; [|rewrite text_cons, <- app_assoc; exact R|].
    { exists (ch "i"), (bs "nclude"). split; [reflexivity|]. split; [apply ident_start_iff; reflexivity|]. apply Forall_forall. intros x Hx. apply ident_char_iff.
      assert (C : forallb is_cpp_ascii_identifier_continue (bs "nclude") = true) by reflexivity. rewrite forallb_forall in C. auto. }
    change (str_eqb (bs "include") (bs "include")) with true. cbv iota. apply does_rem. rewrite text_cons, <- app_assoc. destruct HH as [rest' Hn|path rest' Hp].
    + eapply does_cons; [apply does_advance; apply blank_white; [exact B2|]; change (text [] ++ rest') with rest'; eapply not_before_impl; [|exact Hn]; cbv beta; tauto|].
      apply does_rem. change (text [] ++ rest') with rest'. destruct rest' as [|c t]; [apply does_ret|]. cbn [starts_with_ch].
      destruct (N.eqb_spec c (ch "<")) as [->|]; [elim (Hn _ eq_refl); auto|]. apply does_ret.
    + rewrite text_cons, text_app, opt_piece_text, text_one, <- !app_assoc. eapply does_cons.
      { apply does_advance. rewrite blank_white; [reflexivity|exact B2|]. apply not_before_cons. unfold cpp_space. cbn [In]. vm_compute. intuition discriminate. }
      apply does_rem. rewrite text_cons. cbv zeta. change (starts_with_ch ((bs "<" ++ text (opt_piece path hl_string ++ [(bs ">", Some hl_string_delim)])) ++ rest') (ch "<")) with true. cbv iota.
      eapply does_cons; [apply does_emit; [reflexivity|discriminate]|]. apply does_rem. rewrite text_app, opt_piece_text, text_one, <- app_assoc.
      assert (F : find_first_of (path ++ bs ">" ++ rest') [62; 13; 10]%N 0 = Some (length path)).
      { unfold find_first_of, find_if_from. cbn [skipn]. change (bs ">" ++ rest') with (62%N :: rest'). rewrite (find_if_exact _ path 62%N rest'); [reflexivity| |reflexivity]. eapply Forall_impl; [|exact Hp]. intros x Hx. cbv beta. apply not_true_iff_false. rewrite mem_In. exact Hx. }
      rewrite F. eapply does_last; [|apply does_ret].
      eapply does_at; [rewrite nth_error_app2, Nat.sub_diag by lia; reflexivity|].
      apply (does_bind _ _ _ _ _ _ tt true); [apply does_opt; reflexivity|]. change (62 =? ch ">")%N with true. cbn [when]. apply does_emit; [reflexivity|discriminate].
Qed.

(** ** Numbers: matching *)
Inductive pp_tail : str -> Prop :=
| pp_nil : pp_tail []
| pp_char c w : ident_char c \/ c = 46%N -> pp_tail w -> pp_tail (c :: w)
| pp_sep d w : ident_char d -> pp_tail w -> pp_tail (39%N :: d :: w)
| pp_sign c s w : In c (bs "eEpP") -> In s (bs "+-") -> pp_tail w -> pp_tail (c :: s :: w).
Lemma pp_app a b : pp_tail a -> pp_tail b -> pp_tail (a ++ b).
Proof. intros A B. induction A; cbn [app]; [exact B|apply pp_char|apply pp_sep|apply pp_sign]; assumption. Qed.
Lemma pp_ident w : Forall ident_char w -> pp_tail w.
Proof. induction 1; [constructor|apply pp_char; auto]. Qed.
Lemma sign_mem s : mem s (bs "-+") = true <-> In s (bs "+-").
Proof. rewrite mem_In. cbn. tauto. Qed.
Lemma continue_ident c : (c < 128)%N -> is_identifier_continue_likely_ascii c = is_cpp_ascii_identifier_continue c.
Proof. intros H. unfold is_identifier_continue_likely_ascii, is_ascii. rewrite (proj2 (N.leb_le c 127)) by lia. reflexivity. Qed.
Lemma pp_head w c t : pp_tail w -> w = c :: t -> ~ In c (bs "+-").
Proof.
  intros H E I. assert (C : c = 43%N \/ c = 45%N) by (cbn in I; change (ch "+") with 43%N in *; vm_compute in I; intuition). clear I. destruct H as [|c' w' Hc|d w' Hd|c' s w' Hc]; try discriminate; injection E; intros; subst.
  - destruct Hc as [Hc| ->]; [|lia]. revert Hc. unfold ident_char, letter, digit. lia.
  - lia.
  - vm_compute in Hc. lia.
Qed.
Definition number_end (rest : str) : Prop := not_before (fun c => ident_or_non_ascii c \/ In c (bs "'.")) rest.
Lemma pp_stop rest fuel len : number_end rest -> length rest <= fuel -> pp_number_loop fuel rest len = Ok len.
Proof.
  intros R L. destruct rest as [|c t]; [destruct fuel; reflexivity|]. destruct fuel as [|fuel]; [cbn in L; lia|]. specialize (R c eq_refl). cbn beta in R. cbn [pp_number_loop].
  assert (~ ident_char c /\ (c < 128)%N /\ c <> 39%N /\ c <> 46%N) as (R1 & R2 & R3 & R4).
  { unfold ident_or_non_ascii in R. repeat split; [tauto|lia|intros ->; apply R; right; cbn; tauto|intros ->; apply R; right; cbn; tauto]. }
  apply N.eqb_neq in R3. rewrite R3. assert (E : mem c (bs "eEpP") = false).
  { apply not_true_iff_false. rewrite mem_In. intros X. apply R1. cbn in X. unfold ident_char, letter. repeat (destruct X as [<-|X]; [left; cbv; intuition discriminate|]). destruct X. }
  rewrite E. change (ch ".") with 46%N. apply N.eqb_neq in R4. rewrite R4. rewrite decode_ascii by exact R2. cbn [bind]. rewrite continue_ident by exact R2.
  destruct (is_cpp_ascii_identifier_continue c) eqn:X; [apply ident_char_iff in X; contradiction|]. reflexivity.
Qed.
Lemma pp_loop w rest : pp_tail w -> number_end rest -> (forall v c, w = v ++ [c] -> In c (bs "eEpP") -> not_before (fun d => In d (bs "+-")) rest) ->
  forall fuel len, length (w ++ rest) <= fuel -> pp_number_loop fuel (w ++ rest) len = Ok (len + length w).
Proof.
  intros W R. induction W as [|c w Hc W IH|d w Hd W IH|c s w Hc Hs W IH]; intros E fuel len L.
  - cbn [app length]. rewrite Nat.add_0_r. apply pp_stop; assumption.
  - assert (E' : forall v c0, w = v ++ [c0] -> In c0 (bs "eEpP") -> not_before (fun d => In d (bs "+-")) rest) by (intros v c0 -> I; apply (E (c :: v) c0 eq_refl I)).
    specialize (IH E'). destruct fuel as [|fuel]; [cbn in L; lia|]. cbn [app length] in *. cbn [pp_number_loop].
    assert (Lt : length (w ++ rest) <= fuel) by lia. assert (IH1 : pp_number_loop fuel (w ++ rest) (len + 1) = Ok (len + S (length w))) by (rewrite IH by exact Lt; f_equal; lia).
    assert (c <> 39%N /\ (c < 128)%N) as [X1 X2] by (destruct Hc as [Hc| ->]; [revert Hc; unfold ident_char, letter, digit; lia|lia]).
    apply N.eqb_neq in X1. rewrite X1. destruct (mem c (bs "eEpP")) eqn:X.
    { destruct (w ++ rest) as [|d t] eqn:Y; [exact IH1|]. destruct (mem d (bs "-+")) eqn:Z; [|exact IH1]. exfalso. apply sign_mem in Z. destruct w as [|d' w].
      - cbn [app] in Y. subst rest. apply (E [] c eq_refl) with (c := d); [apply mem_In, X|reflexivity|exact Z].
      - cbn [app] in Y. injection Y as -> _. apply (pp_head _ d w W eq_refl Z). }
    change (ch ".") with 46%N. destruct (N.eqb_spec c 46) as [->|Hn]; [exact IH1|]. rewrite decode_ascii by exact X2. cbn [bind]. rewrite continue_ident by exact X2.
    destruct Hc as [Hc|Hc]; [|contradiction]. rewrite (proj2 (ident_char_iff c) Hc). cbn [skipn]. exact IH1.
  - assert (E' : forall v c0, w = v ++ [c0] -> In c0 (bs "eEpP") -> not_before (fun d => In d (bs "+-")) rest) by (intros v c0 -> I; apply (E (39%N :: d :: v) c0 eq_refl I)).
    destruct fuel as [|fuel]; [cbn in L; lia|]. cbn [app length] in *. cbn [pp_number_loop N.eqb Pos.eqb]. rewrite (proj2 (ident_char_iff d) Hd). rewrite (IH E') by lia. f_equal. lia.
  - assert (E' : forall v c0, w = v ++ [c0] -> In c0 (bs "eEpP") -> not_before (fun d => In d (bs "+-")) rest) by (intros v c0 -> I; apply (E (c :: s :: v) c0 eq_refl I)).
    destruct fuel as [|fuel]; [cbn in L; lia|]. cbn [app length] in *. cbn [pp_number_loop]. assert (X1 : (c =? 39)%N = false) by (cbn in Hc; apply N.eqb_neq; intros ->; intuition discriminate).
    rewrite X1. apply mem_In in Hc. rewrite Hc. apply sign_mem in Hs. rewrite Hs. rewrite (IH E') by lia. f_equal. lia.
Qed.

(** ** Numbers: highlighting *)
Lemma hex_digit_iff c : is_ascii_hex_digit c = true <-> hex_digit c.
Proof. apply hex_iff. Qed.
Definition digit_like (hex : bool) (c : N) : Prop := if hex then hex_digit c else digit c.
Lemma loop_digits hex ds : forall p k, Forall (digit_like hex) ds -> cpp_pp_number_loop hex (ds ++ p) k = cpp_pp_number_loop hex p (k + length ds).
Proof.
  assert (S : forall c, digit_like hex c -> forall p k, cpp_pp_number_loop hex (c :: p) k = cpp_pp_number_loop hex p (k + 1)).
  { intros c H p k. cbn [cpp_pp_number_loop]. assert (H' : hex_digit c) by (destruct hex; [exact H|unfold digit_like, digit in H; unfold hex_digit; lia]).
    assert ((c =? 39)%N = false /\ mem c (bs "pP") = false /\ (c =? ch ".")%N = false) as (X1 & X2 & X3).
    { unfold hex_digit in H'. change (ch ".") with 46%N. repeat split; [apply N.eqb_neq; lia| |apply N.eqb_neq; lia]. apply not_true_iff_false. rewrite mem_In. cbn. change (ch "p") with 112%N in *. vm_compute. intuition (subst; lia). }
    rewrite X1, X2, X3. destruct (mem c (bs "eE")) eqn:X4.
    - destruct hex; [reflexivity|]. exfalso. apply mem_In in X4. unfold digit_like, digit in H. vm_compute in X4. lia.
    - destruct (mem c (bs "+-0123456789")) eqn:X5; [reflexivity|]. destruct hex; cbn [andb].
      + assert (is_ascii_hex_digit c = true) as ->; [|reflexivity]. apply hex_digit_iff. exact H'.
      + exfalso. apply not_true_iff_false in X5. apply X5, mem_In. unfold digit_like, digit in H. vm_compute. lia. }
  induction ds as [|c ds IH]; intros p k F; cbn [app length]; [rewrite Nat.add_0_r; reflexivity|]. apply Forall_cons_iff in F as [Fc F]. rewrite S, IH by assumption. f_equal. lia.
Qed.
Lemma loop_sign hex c p k : In c (bs "+-") -> cpp_pp_number_loop hex (c :: p) k = cpp_pp_number_loop hex p (k + 1).
Proof. intros H. cbn in H. destruct H as [<-|[<-|[]]]; reflexivity. Qed.
Lemma does_flush g k f rest : k = length g -> does (cpp_flush_digits k) f (opt_piece g hl_number) rest tt f.
Proof. intros E. unfold cpp_flush_digits. apply does_opt. exact E. Qed.

(** With the digits [g] pending *)
Definition highlights_as (hex : bool) (p : str) (q : list piece) : Prop :=
  forall g f rest, does (cpp_pp_number_loop hex p (length g)) f (opt_piece g hl_number ++ q) rest tt f.
Lemma loop_delim hex c p q : (c = 39%N \/ c = 46%N) -> (forall f rest, does (cpp_pp_number_loop hex p 0) f q rest tt f) -> highlights_as hex (c :: p) (([c], Some hl_number_delim) :: q).
Proof.
  intros Hc H g f rest. assert (E : cpp_pp_number_loop hex (c :: p) (length g) = (cpp_flush_digits (length g) ;; cpp_emit_and_advance 1 hl_number_delim ;; cpp_pp_number_loop hex p 0)).
  { destruct Hc as [->| ->]; reflexivity. }
  rewrite E. eapply does_bind; [apply does_flush; reflexivity|]. eapply does_cons; [apply does_emit; [reflexivity|discriminate]|]. apply H.
Qed.
Lemma loop_grouped hex (d : N -> Prop) l : (forall c, d c -> digit_like hex c) -> grouped d 39 l -> forall p q, highlights_as hex p q ->
  forall f rest, does (cpp_pp_number_loop hex (text l ++ p) 0) f (l ++ q) rest tt f.
Proof.
  intros Hd G p q H. induction G as [g Hg F|g l Hg F G IH]; intros f rest.
  - rewrite text_one, loop_digits by (eapply Forall_impl; [|exact F]; exact Hd). cbn [Nat.add]. destruct g as [|c g]; [congruence|]. apply (H (c :: g)).
  - rewrite !text_cons, <- !app_assoc, loop_digits by (eapply Forall_impl; [|exact F]; exact Hd). cbn [Nat.add app].
    pose proof (loop_delim hex 39%N (text l ++ p) (l ++ q) (or_introl eq_refl) IH g f rest) as X. destruct g as [|c g]; [congruence|]. exact X.
Qed.
Lemma loop_opt_grouped hex (d : N -> Prop) l : (forall c, d c -> digit_like hex c) -> opt_grouped d l -> forall p q, highlights_as hex p q ->
  forall f rest, does (cpp_pp_number_loop hex (text l ++ p) 0) f (l ++ q) rest tt f.
Proof. intros Hd [->|G] p q H f rest; [apply (H [])|]. eapply loop_grouped; eassumption. Qed.
Definition suffix_start (hex : bool) (c : N) : Prop := ident_start c /\ if hex then ~ hex_digit c /\ ~ In c (bs "pP") else ~ In c (bs "eE").
Lemma loop_suffix hex x : suffix_of (suffix_start hex) x -> highlights_as hex x (opt_piece x hl_number_decor).
Proof.
  intros [->|(c & t & -> & [Hc Hh] & F)] g f rest.
  - cbn [opt_piece cpp_pp_number_loop]. rewrite app_nil_r. apply does_flush. reflexivity.
  - set (p := c :: t). assert (E : cpp_pp_number_loop hex p (length g) = (cpp_flush_digits (length g) ;; cpp_emit_and_advance (length p) hl_number_decor)).
    { unfold p. cbn [cpp_pp_number_loop]. assert ((c =? 39)%N = false /\ (c =? ch ".")%N = false /\ mem c (bs "+-0123456789") = false) as (X1 & X2 & X3).
      { change (ch ".") with 46%N. repeat split; [apply N.eqb_neq; revert Hc; unfold ident_start, letter; lia|apply N.eqb_neq; revert Hc; unfold ident_start, letter; lia|].
        apply not_true_iff_false. rewrite mem_In. revert Hc. unfold ident_start, letter. intros Hc I. vm_compute in I. lia. }
      rewrite X1, X2, X3. destruct (mem c (bs "eE")) eqn:X4; apply mem_In in X4 || apply not_true_iff_false in X4.
      - destruct hex; [|tauto]. exfalso. apply (proj1 Hh). vm_compute in X4. unfold hex_digit. lia.
      - destruct (mem c (bs "pP")) eqn:X5; [|].
        + apply mem_In in X5. destruct hex; [tauto|]. rewrite andb_false_r. reflexivity.
        + destruct hex; [|reflexivity]. assert (is_ascii_hex_digit c = false) as ->; [|reflexivity]. apply not_true_iff_false. rewrite hex_digit_iff. tauto. }
    rewrite E. eapply does_bind; [apply does_flush; reflexivity|]. apply does_emit; [reflexivity|discriminate].
Qed.
Lemma loop_exp (hex : bool) exp x : cpp_exp (if hex then [ch "p"; ch "P"] else [ch "e"; ch "E"]) exp -> suffix_of (suffix_start hex) x ->
  highlights_as hex (exp_text exp ++ x) (match exp with None => [] | Some (e, d) => [(e, Some hl_number_delim); (d, Some hl_number)] end ++ opt_piece x hl_number_decor).
Proof.
  intros He Hx. destruct exp as [[e d]|]; [|apply loop_suffix; exact Hx]. destruct (He _ _ eq_refl) as (l & s & ds & Hl & Hs & Hds & Fd & -> & ->). cbn [exp_text].
  assert (X : forall f rest, does (cpp_pp_number_loop hex ((s ++ ds) ++ x) 0) f ((s ++ ds, Some hl_number) :: opt_piece x hl_number_decor) rest tt f).
  { intros f rest. assert (E : cpp_pp_number_loop hex ((s ++ ds) ++ x) 0 = cpp_pp_number_loop hex x (length (s ++ ds))).
    { rewrite <- app_assoc. assert (D : Forall (digit_like hex) ds) by (eapply Forall_impl; [|exact Fd]; intros c; unfold digit, digit_like, hex_digit; destruct hex; unfold digit; lia).
      destruct Hs as [<-|[<-|[<-|[]]]]; cbn [app].
      - rewrite loop_digits by exact D. reflexivity.
      - change (bs "+" ++ ds ++ x) with (43%N :: ds ++ x). rewrite loop_sign by (cbn; tauto). rewrite loop_digits by exact D. reflexivity.
      - change (bs "-" ++ ds ++ x) with (45%N :: ds ++ x). rewrite loop_sign by (cbn; tauto). rewrite loop_digits by exact D. reflexivity. }
    rewrite E. pose proof (loop_suffix hex x Hx (s ++ ds) f rest) as Y. destruct (s ++ ds) eqn:Z; [apply app_eq_nil in Z; tauto|]. exact Y. }
  intros g f rest. cbn [app].
  assert (E : cpp_pp_number_loop hex (l :: (s ++ ds) ++ x) (length g) = (cpp_flush_digits (length g) ;; cpp_emit_and_advance 1 hl_number_delim ;; cpp_pp_number_loop hex ((s ++ ds) ++ x) 0)).
  { cbn [cpp_pp_number_loop]. assert (exists y ys, (s ++ ds) ++ x = y :: ys /\ mem y (bs "-+") || is_ascii_digit y = true) as (y & ys & Ey & My).
    { destruct ds as [|y ys]; [congruence|]. apply Forall_cons_iff in Fd as [Fy _]. apply digit_iff in Fy.
      destruct Hs as [<-|[<-|[<-|[]]]]; eexists _, _; (split; [reflexivity|]); [rewrite Fy; apply orb_true_r|reflexivity|reflexivity]. }
    rewrite Ey, My. destruct hex; destruct Hl as [<-|[<-|[]]]; reflexivity. }
  rewrite E. eapply does_bind; [apply does_flush; reflexivity|]. eapply does_cons; [apply does_emit; [reflexivity|discriminate]|]. apply X.
Qed.
Lemma loop_number hex (d : N -> Prop) n frac exp x : (forall c, d c -> digit_like hex c) -> opt_grouped d n -> (forall f, frac = Some f -> opt_grouped d f) ->
  cpp_exp (if hex then [ch "p"; ch "P"] else [ch "e"; ch "E"]) exp -> suffix_of (suffix_start hex) x ->
  forall f rest, does (cpp_pp_number_loop hex (text n ++ frac_text frac ++ exp_text exp ++ x) 0) f (number_pieces [] n frac exp x) rest tt f.
Proof.
  intros Hd Hn Hf He Hx f rest. unfold number_pieces. cbn [opt_piece app]. eapply loop_opt_grouped; [exact Hd|exact Hn|].
  pose proof (loop_exp hex exp x He Hx) as X. destruct frac as [fr|]; [|exact X]. cbn [frac_text app]. apply loop_delim; [auto|]. intros f' rest'.
  eapply loop_opt_grouped; [exact Hd|apply Hf; reflexivity|exact X].
Qed.
(** ** Numbers *)
Lemma grouped_tail (d : N -> Prop) l : (forall c, d c -> ident_char c) -> grouped d 39 l -> exists c r, text l = c :: r /\ d c /\ pp_tail r.
Proof.
  intros Hd G. assert (A : forall g, Forall d g -> pp_tail g) by (intros g F; apply pp_ident; eapply Forall_impl; [|exact F]; exact Hd).
  induction G as [g Hg F|g l Hg F G IH].
  - destruct g as [|c g]; [congruence|]. apply Forall_cons_iff in F as [Fc F]. exists c, g. rewrite text_one. auto.
  - destruct IH as (c' & r' & E & Hc' & P). destruct g as [|c g]; [congruence|]. apply Forall_cons_iff in F as [Fc F]. exists c, (g ++ 39%N :: c' :: r').
    rewrite !text_cons, E. split; [reflexivity|]. split; [exact Fc|]. apply pp_app; [auto|]. apply pp_sep; auto.
Qed.
Lemma opt_grouped_tail (d : N -> Prop) l : (forall c, d c -> ident_char c) -> opt_grouped d l -> pp_tail (text l).
Proof. intros Hd [->|G]; [constructor|]. destruct (grouped_tail d l Hd G) as (c & r & -> & Hc & P). apply pp_char; auto. Qed.
Lemma frac_tail (d : N -> Prop) frac : (forall c, d c -> ident_char c) -> (forall f, frac = Some f -> opt_grouped d f) -> pp_tail (frac_text frac).
Proof. intros Hd H. destruct frac as [f|]; [|constructor]. cbn [frac_text]. apply pp_char; [auto|]. eapply opt_grouped_tail; [exact Hd|]. apply H. reflexivity. Qed.
Lemma exp_tail letters exp : (forall c, In c letters -> In c (bs "eEpP")) -> cpp_exp letters exp -> pp_tail (exp_text exp).
Proof.
  intros Hl H. destruct exp as [[e d]|]; [|constructor]. destruct (H _ _ eq_refl) as (l & s & ds & I & Hs & _ & F & -> & ->). cbn [exp_text app]. apply Hl in I.
  assert (D : pp_tail ds) by (apply pp_ident; eapply Forall_impl; [|exact F]; unfold ident_char; tauto).
  destruct Hs as [<-|[<-|[<-|[]]]]; [|apply pp_sign; [exact I|cbn; tauto|exact D]|apply pp_sign; [exact I|cbn; tauto|exact D]].
  apply pp_char; [left|exact D]. vm_compute in I. unfold ident_char, letter. lia.
Qed.
Lemma suffix_tail (p : N -> Prop) x : (forall c, p c -> ident_start c) -> suffix_of p x -> pp_tail x.
Proof. intros H [->|(c & t & -> & Hc & F)]; [constructor|]. apply pp_char; [left; apply ident_start_char; auto|]. apply pp_ident, F. Qed.

(** The shape of the text, and how it is highlighted *)
Definition pp_text (s : str) : Prop := (exists c w, s = c :: w /\ digit c /\ pp_tail w) \/ (exists d w, s = 46%N :: d :: w /\ digit d /\ pp_tail w).
Lemma dec_char c : digit c -> ident_char c. Proof. unfold ident_char. tauto. Qed.
Lemma hex_char c : hex_digit c -> ident_char c. Proof. unfold hex_digit, ident_char, letter, digit. lia. Qed.
Lemma bin_dec c : binary_digit c -> digit c. Proof. unfold binary_digit, digit. lia. Qed.
Lemma number_highlight base hex n frac exp x :
  (base <> [] -> In base [bs "0x"; bs "0X"; bs "0b"; bs "0B"]) -> hex = (starts_with base (bs "0x") || starts_with base (bs "0X")) ->
  (base = [] -> forall s b, In b (bs "xXbB") -> text n ++ frac_text frac ++ exp_text exp ++ x <> 48%N :: b :: s) ->
  base ++ text n ++ frac_text frac ++ exp_text exp ++ x <> [] ->
  (forall f rest, does (cpp_pp_number_loop hex (text n ++ frac_text frac ++ exp_text exp ++ x) 0) f (number_pieces [] n frac exp x) rest tt f) ->
  forall f rest, does (cpp_highlight_pp_number (text (number_pieces base n frac exp x))) f (number_pieces base n frac exp x) rest tt f.
Proof.
  intros Hb Hh Hn Ne H f rest. unfold cpp_highlight_pp_number. rewrite number_pieces_text. set (t := text n ++ frac_text frac ++ exp_text exp ++ x) in *.
  apply does_check; [destruct (base ++ t); [congruence|reflexivity]|]. cbv zeta. destruct base as [|b0 base].
  - cbn [app]. assert (E0 : forall b, In b (bs "xXbB") -> starts_with t [48%N; b] = false).
    { intros b Hb'. apply not_true_iff_false. intros X. apply begins_iff in X as [r X]. exact (Hn eq_refl r b Hb' X). }
    assert (E : starts_with t (bs "0x") = false /\ starts_with t (bs "0X") = false /\ starts_with t (bs "0b") = false /\ starts_with t (bs "0B") = false).
    { split; [apply (E0 (ch "x")); cbn; tauto|]. split; [apply (E0 (ch "X")); cbn; tauto|]. split; [apply (E0 (ch "b")); cbn; tauto|apply (E0 (ch "B")); cbn; tauto]. }
    destruct E as (-> & -> & -> & ->). cbn in Hh. subst hex. cbn [orb]. apply H.
  - assert (In (b0 :: base) [bs "0x"; bs "0X"; bs "0b"; bs "0B"]) as I by (apply Hb; discriminate). clear Hb Hn.
    assert (E : number_pieces (b0 :: base) n frac exp x = (b0 :: base, Some hl_number_decor) :: number_pieces [] n frac exp x) by reflexivity. rewrite E.
    assert (K : does (cpp_emit_and_advance 2 hl_number_decor ;; cpp_pp_number_loop hex (skipn 2 ((b0 :: base) ++ t)) 0) f ((b0 :: base, Some hl_number_decor) :: number_pieces [] n frac exp x) rest tt f).
    { destruct I as [I|[I|[I|[I|[]]]]]; injection I as <- <-; (eapply does_cons; [apply does_emit; [reflexivity|discriminate]|]; cbn [app skipn]; apply H). }
    destruct I as [I|[I|[I|[I|[]]]]]; injection I as <- <-; cbn in Hh; subst hex; exact K.
Qed.
Lemma number_parts p : cpp_number p -> pp_text (text p) /\ forall f rest, does (cpp_highlight_pp_number (text p)) f p rest tt f.
Proof.
  intros [n frac exp x Hn Hf Hne He Hx Hz|base n x Hb G Hx|base n x Hb G Hx|base n frac exp x Hb Hn Hf Hne Hex He Hx].
  - assert (T : pp_tail (frac_text frac ++ exp_text exp ++ x)).
    { apply pp_app; [eapply frac_tail; [exact dec_char|exact Hf]|]. apply pp_app; [eapply exp_tail; [|exact He]; cbn; tauto|]. eapply suffix_tail; [|exact Hx]. cbv beta. tauto. }
    split.
    + rewrite number_pieces_text. cbn [app]. destruct Hn as [->|G].
      * destruct (Hne eq_refl) as (fr & -> & Hfr). destruct (Hf _ eq_refl) as [->|G]; [congruence|]. destruct (grouped_tail digit fr dec_char G) as (c & r & E & Hc & P).
        right. cbn [text map concat app frac_text] in *. rewrite E in *. exists c, (r ++ exp_text exp ++ x). split; [reflexivity|]. split; [exact Hc|].
        apply pp_app; [exact P|]. apply pp_app; [eapply exp_tail; [|exact He]; cbn; tauto|]. eapply suffix_tail; [|exact Hx]. cbv beta. tauto.
      * destruct (grouped_tail digit n dec_char G) as (c & r & E & Hc & P). left. rewrite E. exists c, (r ++ frac_text frac ++ exp_text exp ++ x). split; [reflexivity|]. split; [exact Hc|]. apply pp_app; assumption.
    + apply number_highlight with (hex := false); [congruence|reflexivity| | |].
      * intros _ s b Hb E. destruct Hn as [->|G].
        { destruct (Hne eq_refl) as (fr & -> & Hfr). discriminate E. }
        destruct (grouped_second digit 39%N n G) as (c & t & En & Hc & Ht). rewrite En in E. cbn [app] in E. injection E as -> E. destruct t as [|y t].
        -- cbn [app] in E. assert (X : exists h, n = [(bs "0", h)]).
           { destruct G as [g Hg F|g l Hg F G]; [rewrite text_one in En; subst g; eexists; reflexivity|]. exfalso. rewrite !text_cons in En. destruct g as [|y g]; [congruence|]. cbn [app] in En. injection En as _ En. destruct g; discriminate En. }
           destruct frac as [fr|]; [cbn [frac_text app] in E; injection E as <- _; vm_compute in Hb; intuition discriminate|]. destruct exp as [[e d]|].
           { destruct (He _ _ eq_refl) as (l & s' & ds & Hl & _ & _ & _ & -> & _). cbn [frac_text exp_text app] in E. injection E as -> _. vm_compute in Hb, Hl. lia. }
           cbn [frac_text exp_text app] in E. apply (Hz X eq_refl eq_refl b); [rewrite E; reflexivity|exact Hb].
        -- cbn [app] in E. injection E as -> _. destruct (Ht b eq_refl) as [D| ->]; vm_compute in Hb; [unfold digit in D; lia|lia].
      * intros X. apply app_eq_nil in X as [_ X]. apply app_eq_nil in X as [X1 X2]. destruct Hn as [->|G]; [|elim (grouped_ne _ _ _ G X1)].
        destruct (Hne eq_refl) as (fr & -> & _). discriminate X2.
      * apply (loop_number false digit); try assumption. auto.
  - assert (B : In base [bs "0x"; bs "0X"; bs "0b"; bs "0B"] /\ starts_with base (bs "0x") || starts_with base (bs "0X") = false) by (destruct Hb as [<-|[<-|[]]]; split; try reflexivity; cbn; tauto). destruct B as [B1 B2].
    assert (T : pp_tail (text n ++ x)). { apply pp_app; [eapply opt_grouped_tail; [|right; exact G]; intros c Hc; apply dec_char, bin_dec, Hc|]. eapply suffix_tail; [|exact Hx]. cbv beta. tauto. }
    split.
    + rewrite number_pieces_text. cbn [frac_text exp_text app]. left. destruct Hb as [<-|[<-|[]]]; eexists _, _; (split; [reflexivity|]); (split; [apply digit_iff; reflexivity|]); (apply pp_char; [left; apply ident_char_iff; reflexivity|exact T]).
    + apply number_highlight with (hex := false); [auto|rewrite B2; reflexivity|intros ->; destruct Hb as [Hb|[Hb|[]]]; discriminate Hb|destruct Hb as [<-|[<-|[]]]; discriminate|].
      apply (loop_number false binary_digit); [apply bin_dec|right; exact G|discriminate|intros ? ?; discriminate|exact Hx].
  - assert (B : In base [bs "0x"; bs "0X"; bs "0b"; bs "0B"] /\ starts_with base (bs "0x") || starts_with base (bs "0X") = true) by (destruct Hb as [<-|[<-|[]]]; split; try reflexivity; cbn; tauto). destruct B as [B1 B2].
    assert (T : pp_tail (text n ++ x)). { apply pp_app; [eapply opt_grouped_tail; [exact hex_char|right; exact G]|]. eapply suffix_tail; [|exact Hx]. cbv beta. tauto. }
    split.
    + rewrite number_pieces_text. cbn [frac_text exp_text app]. left. destruct Hb as [<-|[<-|[]]]; eexists _, _; (split; [reflexivity|]); (split; [apply digit_iff; reflexivity|]); (apply pp_char; [left; apply ident_char_iff; reflexivity|exact T]).
    + apply number_highlight with (hex := true); [auto|rewrite B2; reflexivity|intros ->; destruct Hb as [Hb|[Hb|[]]]; discriminate Hb|destruct Hb as [<-|[<-|[]]]; discriminate|].
      apply (loop_number true hex_digit); [auto|right; exact G|discriminate|intros ? ?; discriminate|exact Hx].
  - assert (B : In base [bs "0x"; bs "0X"; bs "0b"; bs "0B"] /\ starts_with base (bs "0x") || starts_with base (bs "0X") = true) by (destruct Hb as [<-|[<-|[]]]; split; try reflexivity; cbn; tauto). destruct B as [B1 B2].
    assert (T : pp_tail (text n ++ frac_text frac ++ exp_text exp ++ x)).
    { apply pp_app; [eapply opt_grouped_tail; [exact hex_char|exact Hn]|]. apply pp_app; [eapply frac_tail; [exact hex_char|exact Hf]|]. apply pp_app; [eapply exp_tail; [|exact He]; cbn; tauto|]. eapply suffix_tail; [|exact Hx]. cbv beta. tauto. }
    split.
    + rewrite number_pieces_text. left. destruct Hb as [<-|[<-|[]]]; eexists _, _; (split; [reflexivity|]); (split; [apply digit_iff; reflexivity|]); (apply pp_char; [left; apply ident_char_iff; reflexivity|exact T]).
    + apply number_highlight with (hex := true); [auto|rewrite B2; reflexivity|intros ->; destruct Hb as [Hb|[Hb|[]]]; discriminate Hb|destruct Hb as [<-|[<-|[]]]; discriminate|].
      apply (loop_number true hex_digit); try assumption. auto.
Qed.
Lemma number_match s rest : pp_text s -> number_end rest -> (forall v c, s = v ++ [c] -> In c (bs "eEpP") -> not_before (fun d => In d (bs "+-")) rest) ->
  match_pp_number (s ++ rest) = Ok (length s).
Proof.
  intros [(c & w & -> & Hc & P)|(d & w & -> & Hd & P)] R E; cbn [app match_pp_number].
  - assert (X : (c =? ch ".")%N = false) by (apply N.eqb_neq; intros ->; apply digit_iff in Hc; discriminate Hc). rewrite X. cbn [andb]. rewrite (proj2 (digit_iff c) Hc).
    rewrite pp_loop; [reflexivity|exact P|exact R| |cbn; lia]. intros v c0 -> I. apply (E (c :: v) c0 eq_refl I).
  - change (46 =? ch ".")%N with true. rewrite (proj2 (digit_iff d) Hd). cbn [andb skipn]. rewrite pp_loop; [reflexivity|exact P|exact R| |cbn; lia]. intros v c0 -> I. apply (E (46%N :: d :: v) c0 eq_refl I).
Qed.
Lemma does_counted (m : M cpp_loc unit) (k : M cpp_loc bool) f p rest f1 y f2 n e : n = length (text p) -> does m f p rest tt f1 -> does k f1 [] rest y f2 ->
  does (let! old := get_idx in m ;; let! i := get_idx in checkM (old + n =? i) e ;; k) f p rest y f2.
Proof.
  intros -> H1 H2 i o n0 Hn. apply wp_bind. unfold get_idx at 1, wp at 1. cbn [idx]. apply wp_bind. eapply wp_mono; [apply H1; exact Hn|]. cbn beta. intros ? ? [-> ->].
  apply wp_bind. unfold get_idx at 1, wp at 1. cbn [idx]. apply wp_bind, wp_check; [apply Nat.eqb_refl|]. rewrite app_length in Hn.
  eapply wp_mono; [apply (H2 (i + length (text p)) (rev (tokens i p) ++ o) n0); cbn [text map concat app length]; lia|]. cbn beta. intros ? ? [-> ->]. split; [reflexivity|].
  cbn [text map concat app length tokens rev]. rewrite Nat.add_0_r. reflexivity.
Qed.
Lemma dot_not_pound is_cpp s : is_pound (match_preprocessing_op_or_punc is_cpp (46%N :: s)) = false.
Proof.
  assert (E : match_preprocessing_op_or_punc is_cpp (46%N :: s) = if starts_with (46%N :: s) (bs "...") then Some (bs "...") else if is_cpp && starts_with (46%N :: s) (bs ".*") then Some (bs ".*") else Some (bs ".")) by reflexivity.
  rewrite E. destruct (starts_with _ _); [reflexivity|]. destruct (is_cpp && _); reflexivity.
Qed.
Lemma number_token is_cpp strict f p rest : pp_text (text p) -> (forall f rest, does (cpp_highlight_pp_number (text p)) f p rest tt f) -> after_number p rest ->
  does (cpp_body is_cpp strict) f p rest tt false.
Proof.
  intros T H [R1 R2]. pose proof (number_match (text p) rest T R1 R2) as E.
  assert (exists c s, text p ++ rest = c :: s /\ (digit c \/ c = 46%N)) as (c & s & Es & Hc).
  { destruct T as [(c & w & -> & Hc & _)|(d & w & -> & _)]; eexists _, _; (split; [reflexivity|]); auto. }
  assert (NI : cpp_match_identifier (text p ++ rest) = Ok 0) by (rewrite Es; apply not_identifier; revert Hc; unfold digit, ident_start, letter; lia).
  apply body_check. eapply to_directive; [exact Es|unfold cpp_space; cbn [In]; revert Hc; unfold digit; lia|intros ->; revert Hc; unfold digit; lia|].
  apply or_no. { apply no_directive. right. rewrite Es. destruct Hc as [Hc| ->]; [|apply dot_not_pound]. rewrite no_op_none; [reflexivity|]. vm_compute. unfold digit in Hc. lia. }
  apply or_no; [eapply no_string; [exact NI|]; rewrite Es; cbn; intros [= ->]; revert Hc; unfold digit; lia|].
  apply or_no; [eapply no_char; [exact NI|]; rewrite Es; cbn; intros [= ->]; revert Hc; unfold digit; lia|].
  apply or_yes. unfold cpp_expect_pp_number. apply does_rem. eapply does_lift; [exact E|]. assert (L : (length (text p) =? 0) = false).
  { destruct T as [(c' & w & -> & _)|(d & w & -> & _)]; reflexivity. }
  rewrite L, firstn_app_exact. eapply does_counted; [reflexivity|apply H|]. apply does_fresh, does_ret.
Qed.
Lemma number_case is_cpp strict f p rest : cpp_number p -> after_number p rest -> does (cpp_body is_cpp strict) f p rest tt false.
Proof. intros N R. destruct (number_parts p N) as [T H]. apply number_token; assumption. Qed.
(** ** Escape sequences *)
Lemma longest_length P s e e' : longest_prefix P s e -> longest_prefix P s e' -> length e = length e'.
Proof. intros ((t & E) & H & M) ((t' & E') & H' & M'). apply Nat.le_antisymm; [eapply M'|eapply M]; eassumption. Qed.
Lemma escape_longest k d rest : P_Parse.braced k = false -> longest_prefix (well_formed_escape k) (d ++ rest) d ->
  match_common_escape k (d ++ rest) = mk_escape (length d) false.
Proof.
  intros B H. destruct (P_Parse.C55_escape_exact k (d ++ rest) B) as (L & X & Y). destruct (match_common_escape k (d ++ rest)) as [n e]. cbn [es_length es_erroneous] in *.
  destruct H as ((t & E) & W & M). destruct e; [elim (Y eq_refl d rest eq_refl W)|]. specialize (X eq_refl). f_equal.
  assert (length (firstn n (d ++ rest)) = length d) as Z by (eapply longest_length; [exact X|split; [exists t; exact E|split; [exact W|exact M]]]).
  rewrite firstn_length in Z. lia.
Qed.
Lemma escape_braced k d rest : P_Parse.braced k = true -> well_formed_escape k d -> match_common_escape k (d ++ rest) = mk_escape (length d) false.
Proof.
  intros B W. destruct (P_Parse.C41_escape_partial k (d ++ rest)) as (_ & X). destruct (X d rest eq_refl W) as (X1 & _ & X2). destruct (match_common_escape k (d ++ rest)) as [n e].
  cbn [es_length es_erroneous] in *. rewrite X1, X2 by exact B. reflexivity.
Qed.
Lemma fixed_longest k n d rest : (forall e, well_formed_escape k e -> length e = n) -> well_formed_escape k d -> longest_prefix (well_formed_escape k) (d ++ rest) d.
Proof. intros H W. split; [exists rest; reflexivity|]. split; [exact W|]. intros e t _ We. rewrite (H e We), (H d W). lia. Qed.
Lemma escape_at k a b d rest n : match_common_escape k (d ++ rest) = mk_escape n false -> match_common_escape_at k (a :: b :: d ++ rest) 2 = Ok (mk_escape (n + 2) false).
Proof. intros E. unfold match_common_escape_at. cbn [length Nat.leb check bind skipn]. rewrite E. reflexivity. Qed.
Lemma hex_not_brace d rest : 1 <= length d -> Forall hex d -> starts_with_ch (d ++ rest) (ch "{") = false.
Proof. intros L F. destruct F as [|c d H F]; [cbn in L; lia|]. cbn [app starts_with_ch]. apply N.eqb_neq. intros ->. apply hex_iff in H. discriminate H. Qed.
Lemma escape_exact e rest : cpp_escape_sequence e rest -> cpp_match_escape_sequence (e ++ rest) = Ok (mk_cpp_escape (length e) false false) /\ exists c t, e = 92%N :: c :: t.
Proof.
  intros [c rest' Hc|d rest' H|d rest' H|d rest' H|d rest' H|c d rest' Hc H|d rest' H|d rest' H1 H2 H3].
  - split; [|eexists _, _; reflexivity]. cbn [app cpp_match_escape_sequence]. change (92 =? ch "\")%N with true. cbn [negb].
    assert (X : mem c (39 :: 34 :: bs "?\abfnrtv")%N = true) by (apply mem_In; revert Hc; cbn; tauto). rewrite X. reflexivity.
  - assert (W : well_formed_escape octal_1_to_3 d) by apply H. destruct W as [L F]. destruct d as [|c d]; [cbn in L; lia|]. pose proof (Forall_inv F) as Fc. unfold octal in Fc.
    split; [|eexists _, _; reflexivity]. change ((bs "\" ++ c :: d) ++ rest') with (92%N :: (c :: d) ++ rest').
    assert (O : between 48 55 c = true) by (unfold between; rewrite andb_true_iff, !N.leb_le; lia).
    assert (V : cpp_match_escape_sequence (92%N :: (c :: d) ++ rest') = with_type (match_common_escape_at octal_1_to_3 (92%N :: (c :: d) ++ rest') 1)).
    { assert (In c (bs "01234567")) as I by (vm_compute; lia). clear - I. cbn in I. repeat (destruct I as [<-|I]; [reflexivity|]). destruct I. }
    rewrite V. unfold match_common_escape_at. cbn [length Nat.leb check bind skipn app]. change (c :: d ++ rest') with ((c :: d) ++ rest').
    rewrite escape_longest by (reflexivity || exact H). cbn [with_type bind es_length es_erroneous]. change (length (bs "\" ++ c :: d)) with (S (length (c :: d))). do 2 f_equal. lia.
  - assert (W : well_formed_escape hex_1_to_inf d) by apply H. destruct W as [L F]. split; [|eexists _, _; reflexivity].
    change ((bs "\x" ++ d) ++ rest') with (92 :: 120 :: d ++ rest')%N. change (length (bs "\x" ++ d)) with (S (S (length d))).
    assert (V : cpp_match_escape_sequence (92 :: 120 :: d ++ rest')%N = with_type (match_common_escape_at (if starts_with_ch (d ++ rest') (ch "{") then hex_braced else hex_1_to_inf) (92 :: 120 :: d ++ rest')%N 2)) by reflexivity.
    rewrite V, hex_not_brace by assumption. rewrite (escape_at _ _ _ _ _ _ (escape_longest hex_1_to_inf _ _ eq_refl H)). cbn [with_type bind es_length es_erroneous]. do 2 f_equal. lia.
  - assert (W := H). destruct W as [L F]. split; [|eexists _, _; reflexivity].
    change ((bs "\u" ++ d) ++ rest') with (92 :: 117 :: d ++ rest')%N. change (length (bs "\u" ++ d)) with (S (S (length d))).
    assert (V : cpp_match_escape_sequence (92 :: 117 :: d ++ rest')%N = with_type (match_common_escape_at (if starts_with_ch (d ++ rest') (ch "{") then hex_braced else hex_4) (92 :: 117 :: d ++ rest')%N 2)) by reflexivity.
    rewrite V, hex_not_brace by (assumption || lia).
    assert (LP : longest_prefix (well_formed_escape hex_4) (d ++ rest') d) by (eapply fixed_longest; [|exact H]; intros ? [X _]; exact X).
    rewrite (escape_at _ _ _ _ _ _ (escape_longest hex_4 _ _ eq_refl LP)). cbn [with_type bind es_length es_erroneous]. do 2 f_equal. lia.
  - split; [|eexists _, _; reflexivity]. change ((bs "\U" ++ d) ++ rest') with (92 :: 85 :: d ++ rest')%N. change (length (bs "\U" ++ d)) with (S (S (length d))).
    assert (V : cpp_match_escape_sequence (92 :: 85 :: d ++ rest')%N = with_type (match_common_escape_at hex_8 (92 :: 85 :: d ++ rest')%N 2)) by reflexivity. rewrite V.
    assert (LP : longest_prefix (well_formed_escape hex_8) (d ++ rest') d) by (eapply fixed_longest; [|exact H]; intros ? [X _]; exact X).
    rewrite (escape_at _ _ _ _ _ _ (escape_longest hex_8 _ _ eq_refl LP)). cbn [with_type bind es_length es_erroneous]. do 2 f_equal. lia.
  - split; [|eexists _, _; reflexivity]. change ((92%N :: c :: d) ++ rest') with (92%N :: c :: d ++ rest'). cbn [length].
    assert (Br : exists u, d = 123%N :: u) by (destruct H as (u & -> & _); eexists; reflexivity). destruct Br as [u ->].
    assert (V : cpp_match_escape_sequence (92%N :: c :: (123%N :: u) ++ rest') = with_type (match_common_escape_at hex_braced (92%N :: c :: (123%N :: u) ++ rest') 2)).
    { cbn in Hc. destruct Hc as [<-|[<-|[]]]; reflexivity. }
    rewrite V, (escape_at _ _ _ _ _ _ (escape_braced hex_braced _ _ eq_refl H)). cbn [with_type bind es_length es_erroneous length]. do 2 f_equal. lia.
  - split; [|eexists _, _; reflexivity]. change ((bs "\o" ++ d) ++ rest') with (92 :: 111 :: d ++ rest')%N. change (length (bs "\o" ++ d)) with (S (S (length d))).
    assert (Br : exists u, d = 123%N :: u) by (destruct H as (u & -> & _); eexists; reflexivity). destruct Br as [u ->].
    assert (V : cpp_match_escape_sequence (92 :: 111 :: (123 :: u) ++ rest')%N = with_type (match_common_escape_at octal_braced (92 :: 111 :: (123 :: u) ++ rest')%N 2)) by reflexivity.
    rewrite V, (escape_at _ _ _ _ _ _ (escape_braced octal_braced _ _ eq_refl H)). cbn [with_type bind es_length es_erroneous length]. do 2 f_equal. lia.
  - split; [|eexists _, _; reflexivity]. replace ((bs "\N{" ++ d ++ bs "}") ++ rest') with ([92; 78; 123]%N ++ d ++ 125%N :: rest') by (rewrite <- !app_assoc; reflexivity).
    assert (F : find_first_of ([92; 78; 123]%N ++ d ++ 125%N :: rest') [125; 10]%N 0 = Some (3 + length d)).
    { unfold find_first_of, find_if_from. cbn [skipn]. rewrite app_assoc, (find_if_exact _ ([92; 78; 123]%N ++ d) 125%N rest'); [rewrite app_length; reflexivity| |reflexivity].
      apply Forall_app. split; [repeat constructor|]. apply Forall_forall. intros x Hx. apply not_true_iff_false. rewrite mem_In. cbn [In]. intros [<-|[<-|[]]]; contradiction. }
    assert (V : cpp_match_escape_sequence ([92; 78; 123]%N ++ d ++ 125%N :: rest') = Ok (match find_first_of ([92; 78; 123]%N ++ d ++ 125%N :: rest') [125; 10]%N 0 with None => mk_cpp_escape 3 false true
      | Some e => if (nth e ([92; 78; 123]%N ++ d ++ 125%N :: rest') 0 =? ch "}")%N then mk_cpp_escape (e + 1) false (e + 1 <=? 4) else mk_cpp_escape 3 false true end)) by reflexivity.
    rewrite V, F. rewrite app_nth2 by (cbn [length]; lia). replace (3 + length d - length [92; 78; 123]%N) with (length d) by (cbn [length]; lia). rewrite app_nth2, Nat.sub_diag by lia.
    change (nth 0 (125%N :: rest') 0%N =? ch "}")%N with true. cbv iota. f_equal. rewrite !app_length. change (length (bs "\N{")) with 3. change (length (bs "}")) with 1. f_equal.
    destruct d as [|y d]; [congruence|]. apply Nat.leb_gt. cbn [length]. lia.
Qed.
Lemma newline_loop b rest : forall len, Forall (fun c => cpp_space c /\ c <> 10%N) b -> newline_escape_loop (b ++ 10%N :: rest) len = len + length b + 1.
Proof.
  induction b as [|c b IH]; intros len F; cbn [app newline_escape_loop length]; [cbn [N.eqb Pos.eqb]; lia|]. apply Forall_cons_iff in F as [[F1 F2] F].
  apply N.eqb_neq in F2. rewrite F2. apply space_iff in F1. rewrite F1. cbn [negb]. rewrite IH by exact F. lia.
Qed.
Lemma splice_exact t rest : splice t -> cpp_match_escape_sequence (t ++ rest) = Ok (mk_cpp_escape (length t) true false) /\ exists c u, t = 92%N :: c :: u.
Proof.
  intros (b & -> & F). assert (E : (92%N :: b ++ [10%N]) ++ rest = 92%N :: b ++ 10%N :: rest) by (cbn [app]; rewrite <- app_assoc; reflexivity). rewrite E. clear E. destruct b as [|c b].
  - split; [reflexivity|]. eexists _, _; reflexivity.
  - split; [|eexists _, _; reflexivity]. pose proof (newline_loop (c :: b) rest 1 F) as NL. pose proof (Forall_inv F) as [F1 F2].
    assert (V : cpp_match_escape_sequence (92%N :: (c :: b) ++ 10%N :: rest) = Ok (if negb (match_newline_escape (92%N :: (c :: b) ++ 10%N :: rest) =? 0) then mk_cpp_escape (match_newline_escape (92%N :: (c :: b) ++ 10%N :: rest)) true false else mk_cpp_escape 2 true true)).
    { unfold cpp_space in F1. cbn [In] in F1. repeat (destruct F1 as [<-|F1]; [first [elim F2; reflexivity|reflexivity]|]). destruct F1. }
    rewrite V. change (match_newline_escape (92%N :: (c :: b) ++ 10%N :: rest)) with (newline_escape_loop ((c :: b) ++ 10%N :: rest) 1). rewrite NL.
    replace (1 + length (c :: b) + 1) with (S (S (length (c :: b)))) by lia. cbn [Nat.eqb negb]. do 2 f_equal. cbn [length]. rewrite app_length. cbn [length]. lia.
Qed.

(** ** Literals *)
Lemma suffix_yes is_cpp strict f s rest : cpp_suffix is_cpp strict s rest -> exists f', does (cpp_consume_string_suffix is_cpp strict) f s rest tt f' /\ (f = false -> f' = false).
Proof.
  intros [rest' R|w rest' Hw Hn R]; unfold cpp_consume_string_suffix.
  - exists f. split; [|auto]. eapply does_last; [|apply does_ret]. apply no_name. destruct rest' as [|c t]; [reflexivity|]. specialize (R c eq_refl). cbn beta in R. apply not_identifier; [lia|tauto].
  - exists false. split; [|auto]. eapply does_last; [|apply does_ret]. apply name_yes; [exact Hw|exact R|right; split; [reflexivity|exact Hn]].
Qed.
Lemma encoding_step c rest : scalar_value c -> exists b t, utf8_encoding c ++ rest = b :: t /\ (if sequence_length b =? 0 then 1 else sequence_length b) = length (utf8_encoding c) /\ (c < 128 -> b = c)%N /\ (128 <= c -> 128 <= b)%N.
Proof.
  intros H. destruct (first_of_encoding c rest H) as (b & t & E & X1 & X2). exists b, t. split; [exact E|]. rewrite sequence_length_eq, X2 by exact X1.
  pose proof (encoding_nonempty c) as L. destruct (length (utf8_encoding c) =? 0) eqn:Z; [apply Nat.eqb_eq in Z; lia|]. split; [reflexivity|]. split; intros Hc.
  - rewrite enc1 in E by exact Hc. injection E as -> _. reflexivity.
  - destruct (N.ltb_spec b 128) as [Hb|Hb]; [|exact Hb]. exfalso. apply seqlen_1 in Hb. rewrite Hb in X2. destruct (N.ltb_spec c 2048) as [H2|H2]; [rewrite enc2 in X2 by lia; discriminate X2|].
    destruct (N.ltb_spec c 65536) as [H3|H3]; [rewrite enc3 in X2 by lia; discriminate X2|rewrite enc4 in X2 by lia; discriminate X2].
Qed.
Lemma wp_flush pend k (Q : unit -> hst cpp_loc -> Prop) r i o l : length pend = k -> k <= i -> Q tt (mk_hst r i (rev (tokens (i - k) (opt_piece pend hl_string)) ++ o) l) ->
  wp (cpp_flush_chars k) Q (mk_hst r i o l).
Proof.
  intros <- L HQ. unfold cpp_flush_chars. destruct pend as [|c pend]; [apply wp_ret; exact HQ|]. cbn [length Nat.eqb negb when] in *.
  apply wp_bind. unfold get_idx, wp at 1. cbn [idx]. apply wp_bind, wp_check; [apply Nat.leb_le; exact L|]. apply wp_emit_at; [discriminate|]. exact HQ.
Qed.
Lemma wp_remainder_at (Q : str -> hst cpp_loc -> Prop) r i o f n : i <= n -> Q r (mk_hst r i o (mk_cpp_loc f n)) -> wp cpp_remainder Q (mk_hst r i o (mk_cpp_loc f n)).
Proof. intros L HQ. unfold wp. rewrite remainder_ok by (cbn; exact L). exact HQ. Qed.
Lemma wp_emit_adv n h (Q : unit -> hst cpp_loc -> Prop) r i o l : n <> 0 -> Q tt (mk_hst (skipn n r) (i + n) (OEmit i n h false :: o) l) -> wp (cpp_emit_and_advance n h) Q (mk_hst r i o l).
Proof. intros L HQ. unfold wp. rewrite emit_adv_ok by exact L. exact HQ. Qed.

Lemma chars_close is_cpp strict quote close rest f' pend f j o n : quote = 34%N \/ quote = 39%N -> cpp_closing is_cpp strict quote close rest f' -> length pend <= j -> j + length (text close ++ rest) = n ->
  wp (cpp_char_sequence_body is_cpp strict quote (length pend)) (fun x st' => match x with inl _ => False | inr _ =>
    st' = mk_hst rest (j + length (text close)) (rev (tokens j close) ++ rev (tokens (j - length pend) (opt_piece pend hl_string)) ++ o) (mk_cpp_loc f' n) end) (mk_hst (text close ++ rest) j o (mk_cpp_loc f n)).
Proof.
  intros Hq Hclose L I. destruct Hclose as [s rest Hs| |c rest Hc]; unfold cpp_char_sequence_body.
  - rewrite text_cons in *. cbn [app] in *. apply wp_bind, wp_eof; cbn [rem]; [discriminate|]. intros _. apply wp_bind, wp_get_rem. cbn [rem]. apply wp_bind. eapply wp_at_is; [reflexivity|].
    rewrite N.eqb_refl. apply wp_bind. apply (wp_flush pend); [reflexivity|exact L|]. apply wp_bind, wp_emit_adv; [discriminate|]. cbn [skipn]. destruct (suffix_yes is_cpp strict f s rest Hs) as (f1 & Hf1 & _).
    apply wp_bind. eapply wp_mono; [apply Hf1; cbn [length] in I; lia|]. cbn beta. intros ? ? [-> ->]. unfold wp, set_fresh_line, bindM, get_loc, set_loc, ret. cbn [loc cl_size rem idx rops]. f_equal.
    + cbn [length]. lia.
    + cbn [tokens rev length]. rewrite <- !app_assoc. reflexivity.
  - apply wp_bind, wp_eof; cbn [rem]; [|intros E; elim E; reflexivity]. intros _. apply wp_bind. apply (wp_flush pend); [reflexivity|exact L|].
    unfold wp, set_fresh_line, bindM, get_loc, set_loc, ret. cbn [loc cl_size rem idx rops]. f_equal. cbn. lia.
  - cbn [text map concat app] in *. apply wp_bind, wp_eof; cbn [rem]; [discriminate|]. intros _. apply wp_bind, wp_get_rem. cbn [rem]. apply wp_bind. eapply wp_at_is; [reflexivity|].
    assert ((c =? quote)%N = false /\ (c =? ch "\")%N = false /\ mem c [13; 10]%N = true) as (-> & -> & ->).
    { destruct Hq as [->| ->], Hc as [->| ->]; repeat split; reflexivity. }
    apply wp_bind. apply (wp_flush pend); [reflexivity|exact L|]. unfold wp, set_fresh_line, bindM, get_loc, set_loc, ret. cbn [loc cl_size rem idx rops]. f_equal. cbn. lia.
Qed.
Lemma plain_cases quote rs rest : cpp_plain quote rs rest -> rs = []
  \/ (exists c t w, rs = t ++ w /\ scalar_value c /\ utf8_encoding c = t /\ ~ In c [quote; 92; 10; 13]%N /\ cpp_plain quote w rest) \/ (exists t w, rs = t ++ w /\ splice t /\ cpp_plain quote w rest).
Proof. intros [?|c t w ? H1 H2 H3 H4|t w ? H1 H2]; [auto|right; left; exists c, t, w; auto|right; right; exists t, w; auto]. Qed.
Lemma chars_yes is_cpp strict quote close rest f' p : quote = 34%N \/ quote = 39%N -> cpp_closing is_cpp strict quote close rest f' ->
  string_body hl_string (cpp_plain quote) cpp_item (text close ++ rest) true p -> forall f, does (cpp_consume_char_sequence_and_suffix is_cpp strict quote) f (p ++ close) rest tt f'.
Proof.
  intros Hq Hclose. remember (text close ++ rest) as tail eqn:Htail. set (body := string_body hl_string (cpp_plain quote) cpp_item tail).
  intros Hp f i o n Hn. unfold cpp_consume_char_sequence_and_suffix. set (fin := rev (tokens i (p ++ close)) ++ o).
  set (Q := fun (b : unit) (st' : hst cpp_loc) => b = tt /\ st' = mk_hst rest (i + length (text (p ++ close))) fin (mk_cpp_loc f' n)).
  set (Inv := fun k (st : hst cpp_loc) => exists pend rs l, length pend = k /\ rem st = rs ++ text l ++ tail /\ k <= idx st /\ cpp_plain quote rs (text l ++ tail)
    /\ ((pend ++ rs = [] /\ body true l) \/ body false l)
    /\ rev (tokens (idx st - k) (opt_piece (pend ++ rs) hl_string ++ l ++ close)) ++ rops st = fin /\ loc st = mk_cpp_loc f n /\ idx st + length (rem st) = n).
  assert (Idx : forall j, j + length rest = n -> j = i + length (text (p ++ close))) by (intros j Hj; rewrite app_length in Hn; lia).
  assert (Close : forall pend r j o2, length pend <= j -> r = tail -> rev (tokens (j - length pend) (opt_piece pend hl_string ++ close)) ++ o2 = fin -> j + length r = n ->
    wp (cpp_char_sequence_body is_cpp strict quote (length pend)) (fun x st' => match x with inl a' => Inv a' st' /\ length (rem st') < length r | inr b => Q b st' end) (mk_hst r j o2 (mk_cpp_loc f n))).
  { intros pend r j o2 L -> T I. rewrite Htail in I |- *. rewrite tokens_app, rev_app_distr, <- app_assoc in T. rewrite opt_piece_text in T. replace (j - length pend + length pend) with j in T by lia.
    eapply wp_mono; [apply (chars_close _ _ _ _ _ _ pend f j o2 n Hq Hclose L I)|]. cbn beta. intros [a'|[]] st'; [contradiction|]. intros ->. unfold Q. split; [reflexivity|]. f_equal; [|exact T].
    apply Idx. rewrite app_length in I. lia. }
  assert (Item : forall pend q l r j o2, length pend <= j -> cpp_item q (text l ++ tail) -> body true l -> r = text (q ++ l) ++ tail -> rev (tokens (j - length pend) (opt_piece pend hl_string ++ (q ++ l) ++ close)) ++ o2 = fin -> j + length r = n ->
    wp (cpp_char_sequence_body is_cpp strict quote (length pend)) (fun x st' => match x with inl a' => Inv a' st' /\ length (rem st') < length r | inr b => Q b st' end) (mk_hst r j o2 (mk_cpp_loc f n))).
  { intros pend q l r j o2 L Hi Hl -> T I. rewrite tokens_app, rev_app_distr, <- app_assoc in T. rewrite opt_piece_text in T. replace (j - length pend + length pend) with j in T by lia.
    assert (Hi' : exists e, q = [(e, Some hl_string_escape)] /\ cpp_escape_sequence e (text l ++ tail)) by (inversion Hi; subst; eauto). destruct Hi' as (e & -> & He). destruct (escape_exact e _ He) as (E & c & t & Et). rewrite text_app, text_one, <- app_assoc in *. unfold cpp_char_sequence_body.
    apply wp_bind, wp_eof; cbn [rem]; [rewrite Et; discriminate|]. intros _. apply wp_bind, wp_get_rem. cbn [rem]. apply wp_bind. eapply wp_at_is; [rewrite Et; reflexivity|].
    assert ((92 =? quote)%N = false) as -> by (destruct Hq as [->| ->]; reflexivity). change (92 =? ch "\")%N with true. cbv iota. apply wp_bind, wp_remainder_at; [lia|]. apply wp_bind. eapply wp_lift; [exact E|].
    cbn [ce_length ce_newline ce_erroneous]. assert (Ne : length e <> 0) by (rewrite Et; discriminate). rewrite (proj2 (Nat.eqb_neq _ _) Ne). cbn [negb].
    apply wp_bind. apply (wp_flush pend); [reflexivity|exact L|]. apply wp_bind, wp_emit_adv; [exact Ne|]. rewrite skipn_app_exact. apply wp_ret. cbn [rem]. split; [|rewrite (app_length e); lia].
    exists [], [], l. cbn [length app rem idx rops loc]. split; [reflexivity|]. split; [reflexivity|]. split; [lia|]. split; [constructor|]. split; [left; auto|]. split; [|split; [reflexivity|rewrite app_length in I; lia]].
    cbn [opt_piece app]. rewrite Nat.sub_0_r. rewrite <- T. cbn [app tokens rev]. rewrite <- !app_assoc. reflexivity. }
  assert (Plain : forall pend rs l r j o2, length pend <= j -> rs <> [] -> cpp_plain quote rs (text l ++ tail) -> body false l -> r = rs ++ text l ++ tail -> rev (tokens (j - length pend) (opt_piece (pend ++ rs) hl_string ++ l ++ close)) ++ o2 = fin -> j + length r = n ->
    wp (cpp_char_sequence_body is_cpp strict quote (length pend)) (fun x st' => match x with inl a' => Inv a' st' /\ length (rem st') < length r | inr b => Q b st' end) (mk_hst r j o2 (mk_cpp_loc f n))).
  { intros pend rs l r j o2 L Ne Pl Hl -> T I.
    assert (Next : forall t w, rs = t ++ w -> t <> [] -> cpp_plain quote w (text l ++ tail) -> Inv (length pend + length t) (mk_hst (w ++ text l ++ tail) (j + length t) o2 (mk_cpp_loc f n)) /\ length (w ++ text l ++ tail) < length (rs ++ text l ++ tail)).
    { intros t w -> Ht Hw. split; [|destruct t; [congruence|]; rewrite !app_length; cbn [length]; lia]. exists (pend ++ t), w, l. cbn [rem idx rops loc]. rewrite <- app_assoc, app_length. split; [lia|]. split; [reflexivity|]. split; [lia|]. split; [exact Hw|].
      split; [auto|]. split; [|split; [reflexivity|rewrite !app_length in *; lia]]. replace (j + length t - (length pend + length t)) with (j - length pend) by lia. exact T. }
    unfold cpp_char_sequence_body. apply wp_bind, wp_eof; cbn [rem]; [intros E; apply app_eq_nil in E; tauto|]. intros _. apply wp_bind, wp_get_rem. cbn [rem]. apply wp_bind.
    destruct (plain_cases _ _ _ Pl) as [?|[(c & t & w & -> & Hc & Ht & Hn' & Hw)|(t & w & -> & Ht & Hw)]]; [congruence| |].
    - destruct (encoding_step c (w ++ text l ++ tail) Hc) as (b & u & E & Ln & E1 & E2). rewrite Ht in *. rewrite <- app_assoc. eapply wp_at_is; [rewrite E; reflexivity|].
      assert ((b =? quote)%N = false /\ (b =? ch "\")%N = false /\ mem b [13; 10]%N = false) as (-> & -> & ->).
      { cbn [In] in Hn'. rewrite <- !not_true_iff_false, !N.eqb_eq, mem_In. cbn [In]. change (ch "\") with 92%N. destruct (N.ltb_spec c 128) as [Z|Z]; [rewrite (E1 Z); intuition congruence|]. specialize (E2 Z). destruct Hq as [->| ->]; lia. }
      cbv zeta. rewrite Ln. apply wp_bind. unfold cpp_advance, wp at 1. cbn [rem idx rops loc]. rewrite skipn_app_exact. apply wp_ret. rewrite (app_assoc t w). apply Next; [reflexivity| |exact Hw].
      pose proof (encoding_nonempty c) as X. rewrite Ht in X. destruct t; [cbn in X; lia|discriminate].
    - destruct (splice_exact t (w ++ text l ++ tail) Ht) as (E & c & u & Et). rewrite <- app_assoc. eapply wp_at_is; [rewrite Et; reflexivity|].
      assert ((92 =? quote)%N = false) as -> by (destruct Hq as [->| ->]; reflexivity). change (92 =? ch "\")%N with true. cbv iota. apply wp_bind, wp_remainder_at; [lia|]. apply wp_bind. eapply wp_lift; [exact E|].
      cbn [ce_length ce_newline ce_erroneous]. assert (Ne2 : length t <> 0) by (rewrite Et; discriminate). rewrite (proj2 (Nat.eqb_neq _ _) Ne2). cbn [negb].
      apply wp_bind. unfold cpp_advance, wp at 1. cbn [rem idx rops loc]. rewrite skipn_app_exact. apply wp_ret. rewrite (app_assoc t w). apply Next; [reflexivity|rewrite Et; discriminate|exact Hw]. }
  apply wp_hloop with (Inv := Inv) (mu := fun _ st => length (rem st)).
  - exists [], [], p. cbn [length app rem idx rops loc opt_piece]. rewrite Htail. rewrite text_app, <- app_assoc in *. split; [reflexivity|]. split; [reflexivity|]. split; [lia|]. split; [constructor|]. split; [left; auto|]. rewrite Nat.sub_0_r. split; [reflexivity|]. split; [reflexivity|exact Hn].
  - cbn [rem]. lia.
  - intros k [r j o2 x] (pend & rs & l & <- & E1 & L & Pl & Hb & T & E2 & I). cbn [rem idx rops loc] in *. subst x. destruct rs as [|y rs].
    + rewrite app_nil_r in *. cbn [app] in E1. destruct Hb as [[-> Hb]|Hb].
      * inversion Hb as [f0 E|run l' Hrun Hpl Hl' E|f0 q l' Hi Hl' E]; subst.
        -- apply (Close []); try assumption. reflexivity.
        -- rewrite text_cons, <- app_assoc in *. apply (Plain [] run l'); try assumption; [reflexivity|]. destruct run as [|y run]; [congruence|]. exact T.
        -- apply (Item [] q l'); try assumption. reflexivity.
      * inversion Hb as [f0 E|run l' Hrun Hpl Hl' E|f0 q l' Hi Hl' E]; subst.
        -- apply (Close pend); try assumption. reflexivity.
        -- apply (Item pend q l'); try assumption. reflexivity.
    + destruct Hb as [[Hb _]|Hb]; [destruct pend; discriminate Hb|]. apply (Plain pend (y :: rs) l); try assumption. discriminate.
Qed.

(** Literals *)
Lemma prefix_within (u b x r : str) : u ++ b = x ++ r -> length u <= length x -> exists b', x = u ++ b'.
Proof.
  intros E L. exists (skipn (length u) x). rewrite <- (firstn_skipn (length u) x) at 1. f_equal.
  assert (F : firstn (length u) (u ++ b) = firstn (length u) (x ++ r)) by (rewrite E; reflexivity). rewrite firstn_app_exact, firstn_app in F. replace (length u - length x) with 0 in F by lia. cbn [firstn] in F. rewrite app_nil_r in F. auto.
Qed.
Lemma find_raw_rest d body rest : raw_body d body -> find_raw_terminator d (body ++ raw_end d ++ rest) = Some (length body).
Proof.
  unfold raw_body. induction body as [|c body IH]; intros H.
  - cbn [app length]. assert (E : match_raw_terminator d (raw_end d ++ rest) = true) by (apply raw_match_iff; exists rest; reflexivity).
    destruct (raw_end d ++ rest) eqn:X; [discriminate X|]. cbn [find_raw_terminator]. rewrite E. reflexivity.
  - cbn [app find_raw_terminator]. destruct (match_raw_terminator d (c :: body ++ raw_end d ++ rest)) eqn:E.
    + exfalso. apply raw_match_iff in E as [b E]. destruct (prefix_within (raw_end d) b (c :: body ++ raw_end d) rest) as [b' E'].
      { rewrite <- E. cbn [app]. rewrite <- app_assoc. reflexivity. }
      { cbn [length]. rewrite app_length. lia. }
      specialize (H [] b' E'). subst b'. apply (f_equal (@length N)) in E'. cbn [length] in E'. rewrite !app_length in E'. cbn in E'. lia.
    + rewrite IH; [reflexivity|]. intros a b X. apply (H (c :: a) b). cbn [app]. f_equal. exact X.
Qed.
Lemma raw_yes is_cpp strict f d body s rest : Forall d_char d -> raw_body d body -> cpp_suffix is_cpp strict s rest ->
  does (cpp_consume_raw_string_and_suffix is_cpp strict) f ((34%N :: d ++ bs "(", Some hl_string_delim) :: opt_piece body hl_string ++ (raw_end d, Some hl_string_delim) :: s) rest tt false.
Proof.
  intros Hd Hb Hs. unfold cpp_consume_raw_string_and_suffix. apply does_rem. rewrite text_cons, text_app, text_cons, opt_piece_text, <- !app_assoc. cbn [app]. apply does_check; [reflexivity|]. apply does_fresh with (f1 := false). cbn [skipn]. rewrite <- !app_assoc.
  assert (Ln : length_if (d ++ bs "(" ++ body ++ raw_end d ++ text s ++ rest) is_cpp_d_char = length d).
  { rewrite length_if_eq, prefix_len_app_all; [cbn; lia|]. apply Forall_forall. intros c Hc. apply d_char_iff. rewrite Forall_forall in Hd. auto. }
  rewrite Ln. cbv zeta. destruct (_ <=? _) eqn:X; [apply Nat.leb_le in X; cbn [length] in X; rewrite !app_length in X; cbn in X; lia|].
  eapply does_at. { rewrite Nat.add_1_r. cbn [nth_error]. rewrite nth_error_app2, Nat.sub_diag by lia. reflexivity. }
  change (negb (ch "(" =? ch "(")%N) with false. cbv iota.
  eapply does_lift with (a := body ++ raw_end d ++ text s ++ rest).
  { rewrite remove_prefix_ok by (cbn [length]; rewrite !app_length; cbn; lia). f_equal. replace (length d + 2) with (S (length d + 1)) by lia. cbn [skipn]. rewrite <- skipn_skipn, skipn_app_exact. reflexivity. }
  eapply does_cons; [apply does_emit; [cbn [length]; rewrite app_length; cbn; lia|discriminate]|].
  assert (substr (34%N :: d ++ bs "(" ++ body ++ raw_end d ++ text s ++ rest) 1 (length d) = d) as ->.
  { unfold substr. cbn [skipn]. apply firstn_app_exact. }
  rewrite find_raw_rest by exact Hb.
  apply (does_bind _ _ _ _ _ _ tt false); [apply does_opt; reflexivity|].
  eapply does_cons; [apply does_emit; [unfold raw_end; rewrite !app_length; cbn; lia|discriminate]|].
  destruct (suffix_yes is_cpp strict false s rest Hs) as (f1 & Hf1 & E). rewrite (E eq_refl) in Hf1. exact Hf1.
Qed.
Lemma prefix_match prefix c s : prefix = [] \/ identifier prefix -> (c = 34 \/ c = 39)%N -> cpp_match_identifier (prefix ++ c :: s) = Ok (length prefix).
Proof.
  intros [->|H] Hc; [apply not_identifier; destruct Hc as [->| ->]; unfold ident_start, letter; lia|].
  apply identifier_exact; [exact H|]. apply not_before_cons. destruct Hc as [->| ->]; unfold ident_or_non_ascii, ident_char, letter, digit; lia.
Qed.
Lemma prefix_identifier prefix : forallb is_cpp_ascii_identifier_continue prefix = true -> match prefix with [] => true | c :: _ => is_cpp_ascii_identifier_start c end = true -> prefix = [] \/ identifier prefix.
Proof.
  intros H1 H2. destruct prefix as [|c w]; [auto|]. right. exists c, w. split; [reflexivity|]. split; [apply ident_start_iff, H2|]. cbn [forallb] in H1. apply andb_true_iff in H1 as [_ H1].
  rewrite forallb_forall in H1. apply Forall_forall. intros x Hx. apply ident_char_iff. auto.
Qed.
Lemma to_literal is_cpp prefix c q f p rest x f' (k : M cpp_loc bool) : prefix = [] \/ identifier prefix -> (c = 34 \/ c = 39)%N -> text p ++ rest = prefix ++ c :: q ->
  does k f p rest x f' -> does (or_else cpp_expect_whitespace (or_else cpp_expect_line_comment (or_else cpp_expect_block_comment (or_else (cpp_expect_directive is_cpp) k)))) f p rest x f'.
Proof.
  intros Hp Hc E. destruct Hp as [->|Hp].
  - cbn [app] in E. eapply to_string; [exact E| |]; destruct Hc as [->| ->]; unfold cpp_space; cbn [In]; vm_compute; intuition discriminate.
  - destruct (ident_first prefix (c :: q) Hp) as (y & t & E2 & Hy). pose proof (ident_not_special y Hy) as S. rewrite E2 in E.
    eapply to_string; [exact E|intros X; apply S; revert X; unfold cpp_space; cbn [In]; tauto|intros X; apply S; cbn [In]; tauto].
Qed.
Lemma string_yes is_cpp strict f prefix h p rest f' q : prefix = [] \/ identifier prefix -> text p ++ rest = 34%N :: q ->
  (prefix <> [] -> h = (if str_eqb prefix (bs "operator") then hl_keyword else if is_string_literal_prefix prefix then hl_string_decor else hl_error)) ->
  does (if negb (length prefix =? 0) && ends_with prefix (bs "R") then cpp_consume_raw_string_and_suffix is_cpp strict else cpp_emit_and_advance 1 hl_string_delim ;; cpp_consume_char_sequence_and_suffix is_cpp strict 34) f p rest tt f' ->
  does (cpp_body is_cpp strict) f (opt_piece prefix h ++ p) rest tt f'.
Proof.
  intros Hp E Hh H. apply body_check. eapply to_literal; [exact Hp|left; reflexivity|rewrite text_app, opt_piece_text, <- app_assoc, E; reflexivity|].
  apply or_yes. unfold cpp_expect_string_literal. apply does_rem. rewrite text_app, opt_piece_text, <- app_assoc, E. eapply does_lift; [apply prefix_match; auto|]. rewrite skipn_app_exact. cbn [starts_with_ch]. rewrite N.eqb_refl. cbn [negb].
  cbv zeta. rewrite firstn_app_exact. apply (does_bind _ _ _ _ _ _ tt f).
  - destruct prefix as [|c w]; [apply does_ret|]. rewrite <- Hh by discriminate. apply does_emit; [reflexivity|discriminate].
  - apply does_get. rewrite E. apply does_check; [reflexivity|]. eapply does_last; [exact H|]. apply does_ret.
Qed.
Lemma char_yes is_cpp strict f prefix p rest f' q : In prefix [[]; bs "u8"; bs "u"; bs "U"; bs "L"] -> text p ++ rest = 39%N :: q ->
  does (cpp_emit_and_advance 1 hl_string_delim ;; cpp_consume_char_sequence_and_suffix is_cpp strict 39) f p rest tt f' ->
  does (cpp_body is_cpp strict) f (opt_piece prefix hl_string_decor ++ p) rest tt f'.
Proof.
  intros Hi E H. assert (Hp : prefix = [] \/ identifier prefix) by (cbn [In] in Hi; repeat destruct Hi as [<-|Hi]; try contradiction; apply prefix_identifier; reflexivity).
  assert (ET : text (opt_piece prefix hl_string_decor ++ p) ++ rest = prefix ++ 39%N :: q) by (rewrite text_app, opt_piece_text, <- app_assoc, E; reflexivity).
  apply body_check. eapply to_literal; [exact Hp|right; reflexivity|exact ET|].
  apply or_no. { eapply no_string; rewrite ET; [apply prefix_match; auto|]. rewrite skipn_app_exact. discriminate. }
  apply or_yes. unfold cpp_expect_character_literal. apply does_rem. rewrite ET. eapply does_lift; [apply prefix_match; auto|]. rewrite skipn_app_exact. cbn [starts_with_ch]. rewrite N.eqb_refl. cbn [negb].
  cbv zeta. rewrite firstn_app_exact. apply (does_bind _ _ _ _ _ _ tt f).
  - cbn [In] in Hi. destruct Hi as [<-|Hi]; [apply does_ret|]. repeat destruct Hi as [<-|Hi]; try contradiction; (apply does_emit; [reflexivity|discriminate]).
  - apply does_get. rewrite E. apply does_check; [reflexivity|].
    intros i o n Hn. specialize (H i o n Hn). revert H. unfold wp, bindM. destruct (cpp_emit_and_advance 1 hl_string_delim _) as [[[] st1]|]; [|auto]. destruct (cpp_consume_char_sequence_and_suffix _ _ _ st1) as [[[] st2]|]; [|auto]. cbn. tauto.
Qed.
Lemma quote_yes is_cpp strict f quote body close rest f' : quote = 34%N \/ quote = 39%N -> cpp_closing is_cpp strict quote close rest f' -> string_body hl_string (cpp_plain quote) cpp_item (text close ++ rest) true body ->
  does (cpp_emit_and_advance 1 hl_string_delim ;; cpp_consume_char_sequence_and_suffix is_cpp strict quote) f (([quote], Some hl_string_delim) :: body ++ close) rest tt f'.
Proof. intros Hq Hc Hb. eapply does_cons; [apply does_emit; [reflexivity|discriminate]|]. eapply chars_yes; eassumption. Qed.
Lemma literal_case is_cpp strict f p rest f' : cpp_literal is_cpp strict p rest f' -> does (cpp_body is_cpp strict) f p rest tt f'.
Proof.
  intros [quote prefix body close rest' f1 Hi Hc Hb|body close rest' f1 Hc Hb|prefix d body s rest' Hi Hd Hb Hs].
  - apply in_app_or in Hi as [Hi|Hi]; apply in_map_iff in Hi as (x & [= <- ->] & Hi).
    + eapply char_yes; [exact Hi|reflexivity|]. apply quote_yes; auto.
    + assert (Hp : prefix = [] \/ identifier prefix) by (cbn [In] in Hi; repeat destruct Hi as [<-|Hi]; try contradiction; apply prefix_identifier; reflexivity).
      eapply string_yes; [exact Hp|reflexivity| |].
      * intros Z. cbn [In] in Hi; repeat destruct Hi as [<-|Hi]; try contradiction; reflexivity.
      * assert (negb (length prefix =? 0) && ends_with prefix (bs "R") = false) as -> by (cbn [In] in Hi; repeat destruct Hi as [<-|Hi]; try contradiction; reflexivity). apply quote_yes; auto.
  - apply (string_yes is_cpp strict f (bs "operator") hl_keyword _ _ _ (text (body ++ close) ++ rest')); [apply prefix_identifier; reflexivity|reflexivity|reflexivity|].
    apply quote_yes; auto.
  - assert (Z : prefix <> []) by (cbn [In] in Hi; repeat destruct Hi as [<-|Hi]; try contradiction; discriminate).
    change ((prefix, Some hl_string_decor) :: ?l) with ([(prefix, Some hl_string_decor)] ++ l). replace [(prefix, Some hl_string_decor)] with (opt_piece prefix hl_string_decor) by (destruct prefix; [congruence|reflexivity]).
    eapply string_yes; [cbn [In] in Hi; repeat destruct Hi as [<-|Hi]; try contradiction; apply prefix_identifier; reflexivity|reflexivity| |].
    + intros _. cbn [In] in Hi; repeat destruct Hi as [<-|Hi]; try contradiction; reflexivity.
    + assert (negb (length prefix =? 0) && ends_with prefix (bs "R") = true) as -> by (cbn [In] in Hi; repeat destruct Hi as [<-|Hi]; try contradiction; reflexivity). apply raw_yes; assumption.
Qed.

(** ** C145: programs *)
Lemma lexeme_case is_cpp strict f p rest f' : cpp_lexeme is_cpp strict f p rest f' -> does (cpp_body is_cpp strict) f p rest tt f'.
Proof.
  intros [f0 w r Hne Hw R|f0 t r H|f0 t r H|f0 t H|p0 r H|f0 p0 r f1 H|f0 p0 r H R|f0 w h r H R|f0 w h r Hi Hn Hh R|f0 t h r H1 H2 H3 H4 H5 H6 H7|f0 c t r Hc F R].
  - apply body_check, or_yes, white_yes; assumption.
  - apply body_check. apply or_no; [apply no_white, not_before_cons; vm_compute; intuition discriminate|]. apply or_yes, line_yes, H.
  - apply body_check. apply or_no; [apply no_white, not_before_cons; vm_compute; intuition discriminate|]. apply or_no; [apply no_line; intros [x B]; discriminate B|]. apply or_yes. apply (block_yes f0 t true r H). discriminate.
  - apply body_check. apply or_no; [apply no_white, not_before_cons; vm_compute; intuition discriminate|]. apply or_no; [apply no_line; intros [x B]; discriminate B|]. apply or_yes. rewrite <- (app_nil_r (opt_piece t hl_comment)). apply (block_yes f0 t false [] H). reflexivity.
  - apply directive_case, H.
  - apply literal_case, H.
  - apply number_case; assumption.
  - apply word_case; auto. eapply word_identifier, H.
  - apply word_case; auto. right. split; [apply name_fallback, Hh|exact Hn].
  - apply symbol_case; assumption.
  - apply other_case; assumption.
Qed.
Lemma ident_nonempty w : identifier w -> w <> [].
Proof. intros (c & t & -> & _). discriminate. Qed.
Lemma lexeme_nonempty is_cpp strict f p rest f' : cpp_lexeme is_cpp strict f p rest f' -> text p <> [].
Proof.
  intros [f0 w r Hne Hw R|f0 t r H|f0 t r H|f0 t H|p0 r H|f0 p0 r f1 H|f0 p0 r H R|f0 w h r H R|f0 w h r Hi Hn Hh R|f0 t h r H1 H2 H3 H4 H5 H6 H7|f0 c t r Hc F R]; try (rewrite text_cons; discriminate).
  - rewrite text_one. exact Hne.
  - destruct H as [hash b w r Hh _ _ _ _|hash b b2 hd r Hh _ _ _ _]; rewrite text_cons; intros E; apply app_eq_nil in E as [-> _]; cbn [In] in Hh; intuition discriminate.
  - destruct H; rewrite ?text_app, ?text_cons; try discriminate; intros E; [apply app_eq_nil in E as [_ E]; discriminate|]. apply app_eq_nil in E as [_ E]. discriminate.
  - apply number_parts in H as [H _]. intros E. rewrite E in H. destruct H as [(? & ? & X & _)|(? & ? & X & _)]; discriminate X.
  - rewrite text_one. eapply ident_nonempty, word_identifier, H.
  - rewrite text_one. apply ident_nonempty, Hi.
  - rewrite text_one. destruct (symbol_first _ _ H1) as (c & u & -> & _). discriminate.
Qed.
Lemma program_exact is_cpp strict l : sequence (fun f p r f' => text p <> [] /\ does (cpp_body is_cpp strict) f p r tt f') true l -> highlight_c_or_cpp is_cpp (text l) strict = Ok (true, tokens 0 l).
Proof.
  intros Hl. refine (while_exact _ (cpp_body is_cpp strict) _ _ l true Hl); intros f p r f' [H1 H2]; assumption.
Qed.
Theorem C145_cpp_lexemes : forall is_cpp strict l, sequence (cpp_lexeme is_cpp strict) true l -> highlight_c_or_cpp is_cpp (text l) strict = Ok (true, tokens 0 l).
Proof.
  intros is_cpp strict l Hl. apply (while_exact (cpp_lexeme is_cpp strict) (cpp_body is_cpp strict)); [intros; eapply lexeme_nonempty; eassumption|intros; apply lexeme_case; assumption|exact Hl].
Qed.
Print Assumptions C145_cpp_lexemes.
