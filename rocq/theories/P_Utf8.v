(** * Properties C16-C20 and C51-C53: UTF-8. The specification is S_Utf8. *)
From Coq Require Import List NArith ZArith Bool Arith Lia.
From Verif Require Import M_Base L_Base S_Utf8 M_Utf8 L_Utf8 L_Utf8b.
Import ListNotations.
Local Open Scope N_scope.

(** C16: encoding a scalar value gives 1..4 bytes, the standard's encoding form, and decoding
    them, whatever bytes follow, gives the value and the number of bytes back. *)
Theorem C16_encode_decode : forall c rest, scalar_value c -> bytes rest ->
  encode8_unchecked c = utf8_encoding c /\
  bytes (encode8_unchecked c) /\
  (1 <= length (encode8_unchecked c) <= 4)%nat /\
  decode_and_length (encode8_unchecked c ++ rest)
  = Ok (Value (c, length (encode8_unchecked c))).
Proof.
  intros c rest Hc Hr. pose proof (encode8_eq c (proj1 Hc)) as E. rewrite E.
  pose proof (encoding_bytes c Hc) as HB.
  split; auto. split; auto. split; [apply encoding_nonempty|].
  destruct (decode_and_length_dec (utf8_encoding c ++ rest)) as (r & H1 & H2).
  { apply Forall_app. split; auto. }
  rewrite dec_complete in H2 by exact Hc. now subst r.
Qed.
Print Assumptions C16_encode_decode.

Example C16_case : scalar_value 0x20AC /\ encode8_unchecked 0x20AC = [0xE2; 0x82; 0xAC] /\
  decode_and_length [0xE2; 0x82; 0xAC; 0xFF] = Ok (Value (0x20AC, 3%nat)).
Proof. split; [unfold scalar_value; lia|]. split; reflexivity. Qed.

(** C17: strict decoding never hits an assertion and succeeds exactly on strings starting with
    a byte sequence of Table 3-7, whose scalar value and length it returns. *)
Theorem C17_decoder_exact : forall s, bytes s ->
  (exists r, decode_and_length s = Ok r) /\
  (forall c n, decode_and_length s = Ok (Value (c, n)) <-> starts_with_scalar s c n) /\
  ((exists c n, decode_and_length s = Ok (Value (c, n))) <->
   (exists p t, s = p ++ t /\ well_formed_sequence p)).
Proof.
  intros s Hb. destruct (decode_and_length_dec s Hb) as (r & H1 & H2).
  assert (K: forall c n, decode_and_length s = Ok (Value (c, n)) <-> starts_with_scalar s c n).
  { intros c n. rewrite H1, dec_scalar. destruct (dec s) as [[[c' n']|]|k].
    - subst r. split; intro H; injection H as -> ->; reflexivity.
    - destruct H2 as [e ->]. split; discriminate.
    - destruct H2 as [e ->]. split; discriminate. }
  split; [eauto|]. split; [exact K|]. split.
  - intros (c & n & H). apply K in H as (Hc & _ & t & ->). exists (utf8_encoding c), t.
    split; auto. apply wf_encoding. eauto.
  - intros (p & t & -> & H). apply wf_encoding in H as (c & Hc & ->).
    exists c, (length (utf8_encoding c)). apply K. split; auto. split; auto. now exists t.
Qed.
Print Assumptions C17_decoder_exact.

(** Table 3-7 lists exactly the encodings of scalar values (sanity check of the specification). *)
Theorem C17_table_is_encodings : forall p,
  well_formed_sequence p <-> exists c, scalar_value c /\ p = utf8_encoding c.
Proof. exact wf_encoding. Qed.
Print Assumptions C17_table_is_encodings.

Example C17_case :
  decode_and_length [0xC0; 0x80] = Ok (Unexpected illegal_bits) /\       (* overlong *)
  decode_and_length [0xED; 0xA0; 0x80] = Ok (Unexpected illegal_bits) /\ (* surrogate *)
  decode_and_length [0xF4; 0x90; 0x80; 0x80] = Ok (Unexpected illegal_bits) /\
  decode_and_length [0xF4; 0x8F; 0xBF; 0xBF] = Ok (Value (0x10FFFF, 4%nat)).
Proof. repeat split. Qed.

(** C18: validity of a whole string. *)
Theorem C18_validity : forall s, bytes s ->
  (exists r, is_valid s = Ok r) /\
  (is_valid s = Ok (Value tt) <->
   exists cs, Forall scalar_value cs /\ s = concat (map utf8_encoding cs)) /\
  (forall cs ds, Forall scalar_value cs -> Forall scalar_value ds ->
   s = concat (map utf8_encoding cs) -> s = concat (map utf8_encoding ds) -> cs = ds).
Proof.
  intros s Hb. destruct (is_valid_loop_spec (length s) s Hb (le_n _)) as (r & H1 & H2).
  split; [exists r; exact H1|]. split.
  - unfold is_valid. rewrite H1, <- H2. split; [intro H; injection H; auto|congruence].
  - intros cs ds Hc Hd E1 E2. apply encoding_unique; auto. congruence.
Qed.
Print Assumptions C18_validity.

Example C18_case : is_valid [0x61; 0xC3; 0xA9] = Ok (Value tt) /\
  concat (map utf8_encoding [0x61; 0xE9]) = [0x61; 0xC3; 0xA9] /\
  is_valid [0x61; 0xC3] = Ok (Unexpected missing_units).
Proof. repeat split. Qed.

(** C19: decoding with replacement implements "U+FFFD substitution of maximal subparts". *)
Theorem C19_replacement : forall s, bytes s -> s <> [] -> (Z.of_nat (length s) < 2 ^ 31)%Z ->
  exists c n, decode_and_length_or_replacement s = Ok (c, n) /\
    (1 <= n <= Nat.min 4 (length s))%nat /\
    next_code_point s c n /\
    (forall c' n', decode_and_length s = Ok (Value (c', n')) -> c = c' /\ n = n') /\
    ((forall v, decode_and_length s <> Ok (Value v)) -> c = 0xFFFD).
Proof.
  intros s Hb Hs Hl. exists (fst (dec_repl s)), (snd (dec_repl s)).
  pose proof (dec_repl_len s Hs) as HL. pose proof (dec_next s Hs) as HN.
  rewrite replacement_eq by (auto; lia).
  split; [now destruct (dec_repl s)|]. split; [lia|]. split; auto.
  destruct (C17_decoder_exact s Hb) as (_ & K & _). split.
  - intros c' n' H. apply K in H. eapply next_unique; [exact HN|]. now apply next_valid.
  - intros H. destruct HN as [c n HN|k]; auto. apply K in HN. exfalso. eapply H; eauto.
Qed.
Print Assumptions C19_replacement.

(** The overload for arrays of four bytes agrees. *)
Theorem C19_replacement_array : forall s, bytes s -> (4 <= length s)%nat ->
  exists c n, decode_and_length_or_replacement_array (firstn 4 s) = Ok (c, n) /\
    next_code_point s c n.
Proof.
  intros s Hb Hl. exists (fst (dec_repl s)), (snd (dec_repl s)).
  rewrite replacement_array_eq by auto. split; [now destruct (dec_repl s)|].
  apply dec_next. destruct s; [simpl in Hl; lia|easy].
Qed.
Print Assumptions C19_replacement_array.

Example C19_case :
  decode_and_length_or_replacement [0xE2; 0x82; 0x41] = Ok (0xFFFD, 2%nat) /\
  decode_and_length_or_replacement [0xED; 0xA0; 0x80] = Ok (0xFFFD, 1%nat) /\
  decode_and_length_or_replacement [0xF0; 0x9F; 0x98; 0x80] = Ok (0x1F600, 4%nat).
Proof. repeat split. Qed.

(** C20: the searches agree with the naive scan, for every predicate. *)
Theorem C20_search : forall s p, bytes s ->
  exists r r', first_code_point p s r /\ first_code_point (fun c => negb (p c)) s r' /\
    utf8_find_if s p = Ok r /\
    utf8_find_if_not s p = Ok r' /\
    utf8_length_if s p = Ok (match r' with Some i => i | None => length s end) /\
    utf8_length_if_not s p = Ok (match r with Some i => i | None => length s end) /\
    utf8_any_of s p = Ok (match r with Some _ => true | None => false end) /\
    utf8_none_of s p = Ok (match r with Some _ => false | None => true end) /\
    utf8_all_of s p = Ok (match r' with Some _ => false | None => true end) /\
    utf8_any_not_of s p = Ok (match r' with Some _ => true | None => false end).
Proof.
  intros s p Hb. destruct (utf8_find_spec p true s Hb) as (r & H1 & F1).
  destruct (utf8_find_spec p false s Hb) as (r' & H2 & F2). exists r, r'.
  assert (X: forall (q q' : N -> bool) s r, (forall c, q c = q' c) ->
             first_code_point q s r -> first_code_point q' s r).
  { intros q q' t x Hq H. induction H as [|? c n ? HP|? c n ? ? HP ? IH]; [constructor| |].
    - apply (first_hit _ _ c n); [assumption|now rewrite <- Hq].
    - apply (first_miss _ _ c n); [assumption|now rewrite <- Hq|exact IH]. }
  split; [eapply X; [|exact F1]; intro c; unfold expect; destruct (p c); reflexivity|].
  split; [eapply X; [|exact F2]; intro c; unfold expect; destruct (p c); reflexivity|].
  unfold utf8_find_if, utf8_find_if_not, utf8_length_if, utf8_length_if_not, utf8_any_of,
    utf8_none_of, utf8_all_of, utf8_any_not_of, check_if_any.
  rewrite H1, H2. cbn [bind]. repeat split; destruct r, r'; reflexivity.
Qed.
Print Assumptions C20_search.

(** The result of the naive scan is unique. *)
Theorem C20_scan_unique : forall p s r r',
  first_code_point p s r -> first_code_point p s r' -> r = r'.
Proof. exact first_unique. Qed.
Print Assumptions C20_scan_unique.

Example C20_case :
  let s := [0xC3; 0xA9; 0xFF; 0xF0; 0x9F; 0x98; 0x80; 0x61; 0x62] in
  utf8_find_if s (fun c => c =? 0x61) = Ok (Some 7%nat) /\
  utf8_find_if s (fun c => c =? 0xFFFD) = Ok (Some 2%nat) /\
  utf8_length_if s (fun c => 0x80 <=? c) = Ok 7%nat /\
  utf8_find_if s (fun c => c =? 0x63) = Ok None.
Proof. repeat split. Qed.

(** C51: without the length restriction the claim of C19 is false: the size is converted to
    int. For every string of 2^31 bytes (the same holds for 2^32 and 2^32 + 1 bytes) starting
    with a valid two-byte sequence, the replacement character is returned. *)
Theorem C51_replacement_huge_refuted : ~ (forall s c n, bytes s ->
  decode_and_length s = Ok (Value (c, n)) -> decode_and_length_or_replacement s = Ok (c, n)).
Proof.
  intro H.
  assert (exists k, Z.of_nat k = 2147483646%Z) as [k Hk].
  { exists (Z.to_nat 2147483646). apply Z2Nat.id. lia. }
  specialize (H (0xC3 :: 0xA9 :: repeat 0x20 k) 0xE9 2%nat).
  rewrite replacement_huge in H.
  - assert (B: bytes (0xC3 :: 0xA9 :: repeat 0x20 k)).
    { repeat (apply bytes_cons; split; [lia|]). apply Forall_forall. intros x Hx.
      apply repeat_spec in Hx. subst; lia. }
    specialize (H B). assert (E: Ok (REPLACEMENT, 1%nat) = Ok (0xE9, 2%nat)); [|discriminate].
    apply H. apply (C17_decoder_exact _ B). split; [unfold scalar_value; lia|].
    split; [reflexivity|]. eexists. reflexivity.
  - lia.
  - lia.
  - cbn [length]. rewrite repeat_length. unfold int_of_size.
    rewrite !Nat2Z.inj_succ, Hk. vm_compute. discriminate.
Qed.
Print Assumptions C51_replacement_huge_refuted.

(** The strongest true part: every nonempty string shorter than 2^31. *)
Theorem C51_replacement_agrees_partial : forall s c n, bytes s ->
  (Z.of_nat (length s) < 2 ^ 31)%Z ->
  decode_and_length s = Ok (Value (c, n)) -> decode_and_length_or_replacement s = Ok (c, n).
Proof.
  intros s c n Hb Hl H. destruct s as [|b0 t]; [discriminate|].
  destruct (C19_replacement (b0 :: t) Hb ltac:(discriminate) Hl) as (c' & n' & H1 & _ & _ & H2 & _).
  destruct (H2 c n H) as [-> ->]. exact H1.
Qed.
Print Assumptions C51_replacement_agrees_partial.

(** C52: processors with a bit compression instruction decode every well-formed sequence to the
    same code point as the portable code. *)
Theorem C52_bit_compress_agrees : forall s c n, bytes s ->
  decode_and_length s = Ok (Value (c, n)) ->
  decode_unchecked_pext (first_4_padded s) n = Ok c /\
  decode_unchecked (first_4_padded s) n = Ok c.
Proof.
  intros s c n Hb H. apply (C17_decoder_exact s Hb) in H as D.
  apply dec_scalar in D. destruct s as [|b0 t]; [discriminate|].
  pose proof (dec_seqlen _ _ _ _ D) as [Hn H0]. pose proof (seqlen_le b0).
  assert (V: decode_unchecked (first_4_padded (b0 :: t)) n = Ok c).
  { rewrite decode_unchecked_eq by lia. rewrite !at_padded by lia.
    unfold dec in D. rewrite <- Hn in D. destruct n as [|e]; [lia|]. cbv zeta in D.
    destruct (good b0 1 e t =? e)%nat; [|discriminate]. injection D as <-. unfold value_of.
    destruct e as [|[|[|[|e]]]]; try lia; reflexivity. }
  split; auto. rewrite <- V. apply pext_eq.
  - unfold first_4_padded. apply bytes_firstn. apply Forall_app. split; [now apply bytes_firstn|].
    repeat constructor; lia.
  - lia.
  - intros ->. rewrite at_padded by lia. change (at_ (b0 :: t) 0) with b0.
    symmetry in Hn. now apply seqlen_1 in Hn.
Qed.
Print Assumptions C52_bit_compress_agrees.

Example C52_case : decode_unchecked_pext [0xE2; 0x82; 0xAC; 0xFF] 3 = Ok 0x20AC.
Proof. reflexivity. Qed.

(** C53: on valid strings counting and iterating enumerate the encoded scalar values. *)
Theorem C53_iteration : forall cs, Forall scalar_value cs ->
  let s := concat (map utf8_encoding cs) in
  code_points_unchecked s = Ok (length cs) /\ code_point_view s = Ok cs.
Proof.
  intros cs H s. split.
  - unfold code_points_unchecked. subst s. rewrite code_points_loop_spec by (auto; lia).
    reflexivity.
  - unfold code_point_view. subst s. apply code_point_view_spec; auto; lia.
Qed.
Print Assumptions C53_iteration.

Example C53_case : code_point_view [0x61; 0xE2; 0x82; 0xAC] = Ok [0x61; 0x20AC] /\
  code_points_unchecked [0x61; 0xE2; 0x82; 0xAC] = Ok 2%nat.
Proof. split; reflexivity. Qed.
