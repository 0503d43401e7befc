(** * Exact matching of escape sequences *)
From Coq Require Import List NArith ZArith Bool Arith Lia.
From Verif Require Import M_Base L_Base M_Chars M_Parse L_Parse P_Parse S_Lexemes L_Lexemes.
Import ListNotations.

Lemma hex_digit_iff c : is_ascii_hex_digit c = true <-> hex_digit c.
Proof. unfold is_ascii_hex_digit, is_ascii_lower_hex_digit, is_ascii_upper_hex_digit, between, hex_digit. rewrite !orb_true_iff, !andb_true_iff, !N.leb_le. lia. Qed.
Lemma octal_digit_iff c : is_ascii_octal_digit c = true <-> octal_digit c.
Proof. unfold is_ascii_octal_digit, between, octal_digit. rewrite andb_true_iff, !N.leb_le. lia. Qed.

Lemma escape_at k pre w rest : match_common_escape k (w ++ rest) = mk_escape (length w) false ->
  match_common_escape_at k (pre ++ w ++ rest) (length pre) = Ok (mk_escape (length w + length pre) false).
Proof.
  intros H. unfold match_common_escape_at. rewrite (proj2 (Nat.leb_le _ _)) by (rewrite app_length; lia). cbn [check bind]. rewrite skipn_app_exact, H. reflexivity.
Qed.
Lemma firstn_exactly {A} n (w rest : list A) : length w = n -> firstn n (w ++ rest) = w.
Proof. intros <-. apply firstn_app_exact. Qed.
Lemma length_if_all p (w : str) : Forall (fun c => p c = true) w -> length_if w p = length w.
Proof. intros F. rewrite length_if_eq. rewrite <- (app_nil_r w) at 1. rewrite prefix_len_app_all by exact F. cbn. lia. Qed.
Lemma octal_all w : Forall octal_digit w -> Forall (fun c => is_ascii_octal_digit c = true) w.
Proof. apply Forall_impl. intros c. apply octal_digit_iff. Qed.
Lemma hex_all w : Forall hex_digit w -> Forall (fun c => is_ascii_hex_digit c = true) w.
Proof. apply Forall_impl. intros c. apply hex_digit_iff. Qed.
Lemma forallb_all p (w : str) : Forall (fun c => p c = true) w -> forallb p w = true.
Proof. intros F. apply forallb_forall, Forall_forall. exact F. Qed.

Lemma escape_octal_3 w rest : exactly 3 octal_digit w -> match_common_escape octal_3 (w ++ rest) = mk_escape (length w) false.
Proof.
  intros [L F]. cbn [match_common_escape]. rewrite firstn_exactly by exact L. rewrite length_if_all by (apply octal_all; exact F). rewrite L. reflexivity.
Qed.
Lemma escape_hex k n w rest : (k = hex_2 /\ n = 2) \/ (k = hex_4 /\ n = 4) \/ (k = hex_8 /\ n = 8) -> exactly n hex_digit w ->
  match_common_escape k (w ++ rest) = mk_escape (length w) false.
Proof.
  intros Hk [L F]. assert (E : match_common_escape k (w ++ rest) = let s := firstn n (w ++ rest) in if length s <? n then mk_escape (length s) true else mk_escape (length s) (negb (forallb is_ascii_hex_digit s))).
  { destruct Hk as [[-> ->]|[[-> ->]|[-> ->]]]; reflexivity. }
  rewrite E. cbv zeta. rewrite firstn_exactly by exact L. rewrite L, Nat.ltb_irrefl, forallb_all by (apply hex_all; exact F). reflexivity.
Qed.
(** One to [n] digits, as many as there are *)
Definition up_to (n : nat) (d : N -> Prop) (w rest : str) : Prop :=
  w <> [] /\ length w <= n /\ Forall d w /\ (length w = n \/ not_before d rest).
Lemma length_if_up_to n (d : N -> Prop) p w rest : (forall c, p c = true <-> d c) -> up_to n d w rest -> length_if (firstn n (w ++ rest)) p = length w.
Proof.
  intros Hd (Hw & L & F & R). rewrite firstn_app, firstn_all2, length_if_eq by lia. rewrite prefix_len_app_all by (eapply Forall_impl; [|exact F]; intros c; apply Hd).
  destruct R as [R|R]; [rewrite R, Nat.sub_diag; cbn; lia|]. destruct (n - length w) as [|k]; [cbn; lia|]. destruct rest as [|c t]; [cbn; lia|]. cbn [firstn prefix_len].
  specialize (R c eq_refl). destruct (p c) eqn:E; [apply Hd in E; contradiction|]. lia.
Qed.
Lemma escape_octal_1_to k n w rest : (k = octal_1_to_2 /\ n = 2) \/ (k = octal_1_to_3 /\ n = 3) -> up_to n octal_digit w rest ->
  match_common_escape k (w ++ rest) = mk_escape (length w) false.
Proof.
  intros Hk U. assert (E : match_common_escape k (w ++ rest) = let len := length_if (firstn n (w ++ rest)) is_ascii_octal_digit in mk_escape len (len =? 0)) by (destruct Hk as [[-> ->]|[-> ->]]; reflexivity).
  rewrite E. cbv zeta. rewrite (length_if_up_to n octal_digit) by (apply octal_digit_iff || exact U). destruct U as (Hw & _). destruct w; [congruence|reflexivity].
Qed.
Lemma escape_hex_1_to_2 w rest : up_to 2 hex_digit w rest -> match_common_escape hex_1_to_2 (w ++ rest) = mk_escape (length w) false.
Proof.
  intros U. cbn [match_common_escape]. rewrite (length_if_up_to 2 hex_digit) by (apply hex_digit_iff || exact U). destruct U as (Hw & _). destruct w; [congruence|reflexivity].
Qed.
Lemma escape_newline w rest : newline w rest -> match_common_escape lf_cr_crlf (w ++ rest) = mk_escape (length w) false.
Proof.
  intros [->|[->|[-> R]]]; try reflexivity. cbn [match_common_escape app]. destruct rest as [|c t]; [reflexivity|]. specialize (R c eq_refl). cbn beta in R.
  destruct (N.eq_dec c 10) as [E|E]; [contradiction|]. cbn [starts_with starts_with_ch]. rewrite N.eqb_refl, (proj2 (N.eqb_neq _ _) E). reflexivity.
Qed.
Lemma find_close w rest : ~ In 125%N w -> find_ch (123%N :: w ++ 125%N :: rest) 125 1 = Some (length w + 1).
Proof.
  intros H. unfold find_ch. change (123%N :: w ++ 125%N :: rest) with ([123%N] ++ w ++ 125%N :: rest). unfold find_if_from. cbn [app length skipn Nat.ltb].
  enough (E : find_if (fun c => (c =? 125)%N) (w ++ 125%N :: rest) = Some (length w)) by (rewrite E; cbn; f_equal; lia).
  induction w as [|c w IH]; [reflexivity|]. cbn [app find_if]. rewrite (proj2 (N.eqb_neq c 125)) by (intros ->; apply H; left; reflexivity).
  rewrite IH by (intros K; apply H; right; exact K). reflexivity.
Qed.
Lemma escape_named w rest : ~ In 125%N w -> match_common_escape nonempty_braced ((123%N :: w ++ [125%N]) ++ rest) = mk_escape (length (123%N :: w ++ [125%N])) false.
Proof.
  intros H. cbn [app]. rewrite <- app_assoc. cbn [app]. cbn [match_common_escape]. change (starts_with_ch (123%N :: w ++ 125%N :: rest) 123) with true. cbn [negb].
  rewrite find_close by exact H. f_equal. cbn [length]. rewrite app_length. cbn. lia.
Qed.
