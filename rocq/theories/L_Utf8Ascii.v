(** * Searching ASCII text with the UTF-8 algorithms *)
From Coq Require Import List NArith ZArith Bool Arith Lia.
From Verif Require Import M_Base L_Base M_Utf8 L_Any L_Wf8.
Import ListNotations.

Lemma array_ascii c t : (c < 128)%N -> decode_and_length_or_replacement_array (c :: t) = Ok (c, 1).
Proof.
  intros H. unfold decode_and_length_or_replacement_array. change (at_ (c :: t) 0) with c. rewrite (seqlen_ascii c H). cbn [Nat.eqb Nat.sub continuation_loop_array].
  pose proof (repl_ascii c [] H) as R. cbn [decode_and_length_or_replacement] in R. rewrite (seqlen_ascii c H) in R. cbn [Nat.eqb Nat.sub continuation_loop bind] in R.
  unfold first_4_padded in R. unfold decode_unchecked in *. cbn in *. exact R.
Qed.
(** Where the search of ASCII characters that do not match stops. *)
Lemma find_slow_ascii p e : forall w rest fuel cu, Forall (fun c => (c < 128)%N /\ p c = negb e) w -> length (w ++ rest) <= fuel ->
  (rest = [] \/ exists c t, rest = c :: t /\ (c < 128)%N /\ p c = e) ->
  find_if_slow fuel p e (w ++ rest) cu = Ok (match rest with [] => None | _ => Some (cu + length w) end).
Proof.
  induction w as [|c w IH]; intros rest fuel cu Hw Hf Hr; cbn [app length] in *.
  - destruct Hr as [->|(c & t & -> & L & P)]; [destruct fuel; reflexivity|]. destruct fuel; [cbn in Hf; lia|]. cbn [find_if_slow]. rewrite (repl_ascii c t L). cbn [bind].
    rewrite P, Bool.eqb_reflx, Nat.add_0_r. reflexivity.
  - destruct fuel; [lia|]. inversion Hw as [|? ? [L P] Hw']; subst. cbn [find_if_slow]. rewrite (repl_ascii c _ L). cbn [bind]. rewrite P. replace (Bool.eqb (negb e) e) with false by (destruct e; reflexivity).
    rewrite remove_prefix_any by (cbn [length]; lia). cbn [bind skipn]. rewrite (IH rest fuel (cu + 1)) by (auto; lia). destruct rest; [reflexivity|]. do 2 f_equal. lia.
Qed.
Lemma find_fast_ascii p e : forall w rest fuel cu, Forall (fun c => (c < 128)%N /\ p c = negb e) w -> length (w ++ rest) <= fuel ->
  (rest = [] \/ exists c t, rest = c :: t /\ (c < 128)%N /\ p c = e) ->
  find_if_fast fuel p e (w ++ rest) cu = Ok (match rest with [] => None | _ => Some (cu + length w) end).
Proof.
  induction w as [|c w IH]; intros rest fuel cu Hw Hf Hr.
  - destruct Hr as [->|(c & t & -> & L & P)]; [destruct fuel; reflexivity|]. cbn [app length] in *. destruct fuel; [lia|]. cbn [find_if_fast]. destruct (Nat.leb_spec 4 (length (c :: t))) as [G|G].
    + unfold first_4_unchecked. apply Nat.leb_le in G. rewrite G. cbn [check bind firstn]. rewrite (array_ascii c _ L). cbn [bind]. rewrite P, Bool.eqb_reflx, Nat.add_0_r. reflexivity.
    + apply (find_slow_ascii p e [] (c :: t)); [constructor|cbn [app length]; lia|right; exists c, t; auto].
  - destruct fuel; [cbn in Hf; lia|]. cbn [find_if_fast]. destruct (Nat.leb_spec 4 (length ((c :: w) ++ rest))) as [G|G].
    + unfold first_4_unchecked. apply Nat.leb_le in G. rewrite G. cbn [check bind firstn app]. inversion Hw as [|? ? [L P] Hw']; subst. rewrite (array_ascii c _ L). cbn [bind]. rewrite P. replace (Bool.eqb (negb e) e) with false by (destruct e; reflexivity).
      rewrite remove_prefix_any by (cbn [length]; lia). cbn [bind skipn]. cbn [app length] in Hf. rewrite (IH rest fuel (cu + 1)) by (auto; lia). destruct rest; [reflexivity|]. cbn [length]. do 2 f_equal. lia.
    + apply (find_slow_ascii p e (c :: w) rest); auto.
Qed.
(** Matching characters that are ASCII, up to an ASCII character that does not match or to the end *)
Lemma length_ascii p w rest : Forall (fun c => (c < 128)%N /\ p c = true) w -> (rest = [] \/ exists c t, rest = c :: t /\ (c < 128)%N /\ p c = false) ->
  utf8_length_if (w ++ rest) p = Ok (length w).
Proof.
  intros Hw Hr. unfold utf8_length_if, utf8_find. rewrite (find_fast_ascii p false w rest) by auto. cbn [bind]. destruct rest; [rewrite app_nil_r|]; reflexivity.
Qed.
Lemma length_ascii_none p c t : (c < 128)%N -> p c = false -> utf8_length_if (c :: t) p = Ok 0.
Proof. intros L P. apply (length_ascii p [] (c :: t)); [constructor|right; exists c, t; auto]. Qed.
(** ... in ASCII characters of any kind. *)
Lemma length_ascii_le p w rest : Forall (fun c => (c < 128)%N) w -> (rest = [] \/ exists c t, rest = c :: t /\ (c < 128)%N /\ p c = false) ->
  exists n, utf8_length_if (w ++ rest) p = Ok n /\ n <= length w.
Proof.
  intros Hw Hr. assert (X : exists u v, w = u ++ v /\ Forall (fun c => (c < 128)%N /\ p c = true) u /\ (v = [] \/ exists c t, v = c :: t /\ (c < 128)%N /\ p c = false)).
  { clear Hr. induction Hw as [|c w L Hw (u & v & -> & U & V)]; [exists [], []; auto|]. destruct (p c) eqn:P; [exists (c :: u), v; repeat split; auto|]. exists [], (c :: u ++ v). split; [reflexivity|]. split; [constructor|]. right. exists c, (u ++ v). auto. }
  destruct X as (u & v & -> & U & V). exists (length u). split; [|rewrite app_length; lia]. rewrite <- app_assoc. apply length_ascii; [exact U|].
  destruct V as [->|(c & t & -> & L & P)]; [exact Hr|right; exists c, (t ++ rest); auto].
Qed.
