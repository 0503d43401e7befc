(** * Properties of file handles (C49, C71) and of loading files (C72-C74). *)
From Coq Require Import List NArith Bool Arith Lia Permutation.
From Verif Require Import M_Base L_Base S_Utf8 M_Utf8 L_Utf8 P_Utf8 M_Io.
Import ListNotations.

(** ** Histories of file handles *)
(** The files opened in a history are numbered from 0. *)
Definition opened (os : list op) : nat := length (filter (fun o => match o with op_open => true | _ => false end) os).
Definition all_destroyed (st : files) : Prop := Forall (fun h => h = None) (handles st).
Definition times_closed (st : files) (f : nat) : nat := count_occ Nat.eq_dec (closed st) f.
(** A history in which close() is not called on, and nothing is move-assigned to, a handle that holds a file. *)
Fixpoint careful (os : list op) (st : files) : Prop :=
  match os with
  | [] => True
  | o :: os' =>
    match o with
    | op_close i => alive i st = Some None
    | op_move_assign i _ => alive i st = Some None
    | _ => True
    end /\ forall st', perform o st = Some st' -> careful os' st'
  end.

Definition holds (f : nat) (h : option handle) : nat := match h with Some (Some g) => if g =? f then 1 else 0 | _ => 0 end.
Fixpoint held (f : nat) (l : list (option handle)) : nat := match l with [] => 0 | h :: l' => holds f h + held f l' end.
Lemma held_app f a b : held f (a ++ b) = held f a + held f b.
Proof. induction a; cbn; lia. Qed.
Lemma held_put f h x : forall l i, nth_error l i = Some x -> held f (put l i h) + holds f x = held f l + holds f h.
Proof.
  induction l as [|y l IH]; intros i E; [destruct i; discriminate|]. destruct i as [|i]; cbn [nth_error] in E; cbn [put held].
  - injection E as ->. lia.
  - specialize (IH i E). lia.
Qed.
Lemma put_nth h : forall l i j x, nth_error l i = Some x -> nth_error (put l i h) j = if j =? i then Some h else nth_error l j.
Proof.
  induction l as [|y l IH]; intros i j x E; [destruct i; discriminate|]. destruct i as [|i]; cbn [nth_error] in E; cbn [put].
  - destruct j; reflexivity.
  - destruct j as [|j]; [reflexivity|]. cbn [nth_error]. rewrite (IH i j x E). reflexivity.
Qed.
Lemma alive_nth i st h : alive i st = Some h -> nth_error (handles st) i = Some (Some h).
Proof. unfold alive. destruct (nth_error (handles st) i) as [[?|]|]; congruence. Qed.

Definition total (f : nat) (st : files) : nat := held f (handles st) + count_occ Nat.eq_dec (released st) f + times_closed st f.
Lemma swap_held f i j hi hj st : alive i st = Some hi -> alive j st = Some hj ->
  held f (handles (swap_handles i j hi hj st)) = held f (handles st) /\ alive j (swap_handles i j hi hj st) = Some hi.
Proof.
  intros Hi Hj. apply alive_nth in Hi as Ni. apply alive_nth in Hj as Nj. unfold swap_handles, store. cbn [handles].
  assert (N2 : nth_error (put (handles st) i (Some hj)) j = Some (Some hj)) by (rewrite (put_nth _ _ _ j _ Ni); destruct (j =? i); [reflexivity|exact Nj]).
  pose proof (held_put f (Some hj) _ _ _ Ni). pose proof (held_put f (Some hi) _ _ _ N2). split; [lia|].
  unfold alive. cbn [handles]. rewrite (put_nth _ _ _ j _ N2), Nat.eqb_refl. reflexivity.
Qed.
Lemma close_total f h st : total f (close h st) = total f st + holds f (Some h).
Proof.
  destruct h as [g|]; [|cbn; lia]. unfold total, times_closed, close, holds. cbn [handles released closed count_occ].
  destruct (Nat.eq_dec g f) as [->|Ne]; [rewrite Nat.eqb_refl|rewrite (proj2 (Nat.eqb_neq g f) Ne)]; lia.
Qed.
Lemma close_handles h st : handles (close h st) = handles st.
Proof. destruct h; reflexivity. Qed.
Lemma close_next h st : next (close h st) = next st.
Proof. destruct h; reflexivity. Qed.

(** What an operation adds: a closed file still held (by a wrong history), or the new file. *)
Lemma perform_total o st st' : perform o st = Some st' -> forall f,
  total f st <= total f st' /\ next st' = next st + (match o with op_open => 1 | _ => 0 end)
  /\ (match o with op_close i => alive i st = Some None | op_move_assign i _ => alive i st = Some None | _ => True end ->
      total f st' = total f st + (match o with op_open => if next st =? f then 1 else 0 | _ => 0 end))
  /\ (o = op_open -> total f st' = total f st + if next st =? f then 1 else 0).
Proof.
  intros P f. destruct o as [| |i|i j|i j|i|i|i]; cbn [perform] in P.
  - injection P as <-. unfold total, times_closed, construct. cbn [handles released closed next]. rewrite held_app. cbn. repeat split; try discriminate; lia.
  - injection P as <-. unfold total, times_closed, construct. cbn [handles released closed next]. rewrite held_app. cbn. repeat split; try discriminate; lia.
  - destruct (alive i st) as [h|] eqn:A; [|discriminate]. injection P as <-. pose proof (held_put f (Some None) _ _ _ (alive_nth _ _ _ A)) as H.
    unfold total, times_closed, construct, store. cbn [handles released closed next]. rewrite held_app. cbn [held] in *. change (holds f (Some None)) with 0 in H. change (holds f None) with 0 in H. repeat split; try discriminate; lia.
  - destruct (alive i st) as [hi|] eqn:A; [|discriminate]. destruct (alive j st) as [hj|] eqn:B; [|discriminate]. destruct (swap_held f _ _ _ _ _ A B) as [S1 S2].
    rewrite S2 in P. injection P as <-. rewrite close_total, close_next.
    assert (T : total f (swap_handles i j hi hj st) = total f st) by (unfold total, times_closed, swap_handles, store in *; cbn [handles released closed] in *; lia).
    rewrite T. repeat split; try discriminate; try (cbn; lia). intros X. injection X as ->. cbn. lia.
  - destruct (alive i st) as [hi|] eqn:A; [|discriminate]. destruct (alive j st) as [hj|] eqn:B; [|discriminate]. destruct (swap_held f _ _ _ _ _ A B) as [S1 S2].
    injection P as <-. assert (T : total f (swap_handles i j hi hj st) = total f st) by (unfold total, times_closed, swap_handles, store in *; cbn [handles released closed] in *; lia).
    rewrite T. repeat split; try discriminate; try (cbn; lia).
  - destruct (alive i st) as [h|] eqn:A; [|discriminate]. injection P as <-. rewrite close_total, close_next. repeat split; try discriminate; try lia. intros X. injection X as ->. cbn. lia.
  - destruct (alive i st) as [h|] eqn:A; [|discriminate]. injection P as <-. pose proof (held_put f (Some None) _ _ _ (alive_nth _ _ _ A)) as H.
    destruct h as [g|]; unfold total, times_closed, store; cbn [handles released closed next count_occ] in *; cbn [holds] in H.
    + destruct (Nat.eq_dec g f) as [->|Ne]; [rewrite Nat.eqb_refl in H|rewrite (proj2 (Nat.eqb_neq g f) Ne) in H]; repeat split; try discriminate; lia.
    + repeat split; try discriminate; lia.
  - destruct (alive i st) as [h|] eqn:A; [|discriminate]. injection P as <-. pose proof (held_put f None _ _ _ (alive_nth _ _ _ A)) as H. pose proof (close_total f h st) as C.
    unfold total, times_closed, store in *. cbn [handles released closed next] in *. rewrite close_handles in *. rewrite close_next. change (holds f (Some None)) with 0 in H. change (holds f None) with 0 in H. repeat split; try discriminate; lia.
Qed.
Lemma all_gone f st : all_destroyed st -> held f (handles st) = 0.
Proof. unfold all_destroyed. induction 1 as [|x l -> _ IH]; cbn; lia. Qed.

(** ** C71: a file is never leaked. *)
Theorem C71_no_leak : forall os st, perform_all os no_files = Some st -> all_destroyed st ->
  forall f, f < opened os -> In f (released st) \/ 1 <= times_closed st f.
Proof.
  assert (K : forall os st0 st, perform_all os st0 = Some st -> (forall f, f < next st0 -> 1 <= total f st0) -> forall f, f < next st0 + opened os -> 1 <= total f st).
  { induction os as [|o os IH]; intros st0 st E H f Hf; cbn [perform_all] in E.
    - injection E as <-. apply H. cbn in Hf. lia.
    - destruct (perform o st0) as [st1|] eqn:P; [|discriminate]. apply (IH st1 st E).
      + intros g Hg. destruct (perform_total _ _ _ P g) as (T1 & T2 & _ & T4). destruct (Nat.lt_ge_cases g (next st0)) as [L|L]; [specialize (H g L); lia|].
        destruct o; try lia. specialize (T4 eq_refl). assert (g = next st0) as -> by lia. rewrite Nat.eqb_refl in T4. lia.
      + destruct (perform_total _ _ _ P f) as (_ & T2 & _). rewrite T2. destruct o; cbn in Hf |- *; unfold opened in *; lia. }
  intros os st E D f Hf. specialize (K os no_files st E ltac:(cbn; lia) f Hf). unfold total in K. rewrite all_gone in K by exact D.
  destruct (in_dec Nat.eq_dec f (released st)) as [I|I]; [left; exact I|right]. rewrite (proj1 (count_occ_not_In Nat.eq_dec _ f) I) in K. lia.
Qed.
Print Assumptions C71_no_leak.
Example C71_case : exists st, perform_all [op_open; op_open; op_move_assign 0 1; op_move_construct 0; op_destroy 0; op_destroy 1; op_destroy 2] no_files = Some st /\ all_destroyed st /\ opened [op_open; op_open] = 2.
Proof. eexists. split; [reflexivity|]. split; [repeat constructor|reflexivity]. Qed.

(** ** C49: a file is closed once, if handles are used carefully, ... *)
Theorem C49_closed_once_partial : forall os st, perform_all os no_files = Some st -> careful os no_files ->
  (forall f, times_closed st f <= 1) /\ (forall f, In f (released st) -> times_closed st f = 0)
  /\ (all_destroyed st -> forall f, f < opened os -> ~ In f (released st) -> times_closed st f = 1).
Proof.
  assert (K : forall os st0 st, perform_all os st0 = Some st -> careful os st0 -> (forall f, total f st0 <= if f <? next st0 then 1 else 0) ->
    forall f, total f st <= if f <? next st then 1 else 0).
  { induction os as [|o os IH]; intros st0 st E C H f; cbn [perform_all] in E.
    - injection E as <-. apply H.
    - destruct (perform o st0) as [st1|] eqn:P; [|discriminate]. destruct C as [C1 C2]. apply (IH st1 st E (C2 _ P)). intros g.
      destruct (perform_total _ _ _ P g) as (_ & T2 & T3 & _). specialize (T3 C1). rewrite T2, T3. specialize (H g).
      destruct o; destruct (Nat.ltb_spec g (next st0)); try destruct (Nat.eqb_spec (next st0) g); match goal with |- context[?a <? ?b] => destruct (Nat.ltb_spec a b) end; lia. }
  intros os st E C. assert (T : forall f, total f st <= 1) by (intros f; specialize (K os no_files st E C ltac:(intros; cbn; lia) f); destruct (f <? next st); lia).
  split; [|split].
  - intros f. specialize (T f). unfold total in T. lia.
  - intros f I. specialize (T f). unfold total in T. apply (count_occ_In Nat.eq_dec) in I. lia.
  - intros D f Hf I. specialize (T f). destruct (C71_no_leak os st E D f Hf); [contradiction|]. unfold total in T. lia.
Qed.
Print Assumptions C49_closed_once_partial.
Example C49_case : let os := [op_open; op_default; op_move_assign 1 0; op_open; op_release 2; op_destroy 2; op_destroy 1; op_destroy 0] in
  careful os no_files /\ exists st, perform_all os no_files = Some st /\ all_destroyed st /\ closed st = [0] /\ released st = [1].
Proof.
  split; [|eexists; split; [reflexivity|]; split; [repeat constructor|split; reflexivity]].
  cbn; repeat (split; [first [exact I|reflexivity]|intros ? X; vm_compute in X; injection X as <-]); exact I.
Qed.

(** ... and twice if a handle that holds a file is assigned to, or closed. *)
Theorem C49_closed_once_refuted :
  (exists st, perform_all [op_open; op_open; op_move_assign 0 1; op_destroy 1; op_destroy 0] no_files = Some st /\ times_closed st 0 = 2)
  /\ (exists st, perform_all [op_open; op_close 0; op_destroy 0] no_files = Some st /\ times_closed st 0 = 2).
Proof. split; eexists; split; reflexivity. Qed.
Print Assumptions C49_closed_once_refuted.

(** ** C72: loading the bytes of a file *)
Lemma c_string_ok path n : ~ In 0%N path -> 0 < n -> c_string (path ++ repeat 0%N n) = Some path.
Proof.
  intros H Hn. induction path as [|c p IH]; cbn [app c_string]; [destruct n; [lia|reflexivity]|].
  destruct (N.eqb_spec c 0) as [->|Ne]; [exfalso; apply H; left; reflexivity|]. rewrite IH; [reflexivity|]. intros X. apply H. right. exact X.
Qed.
Lemma read_loop_ok block s : 0 < block -> (forall k, bad s = Some k -> length (content s) < k) -> forall fuel pos chunks, pos <= length (content s) -> length (content s) - pos < fuel ->
  exists r, read_loop fuel block s pos chunks = Ok (Loaded (chunks ++ r)) /\ concat r = skipn pos (content s) /\ Forall (fun c => length c <= block) r.
Proof.
  intros Hb Hbad. induction fuel as [|fuel IH]; intros pos chunks Hp L; [lia|].
  assert (U : read_loop (S fuel) block s pos chunks = let chunk := firstn block (skipn pos (content s)) in if length chunk =? block then read_loop fuel block s (pos + block) (chunks ++ [chunk]) else Ok (Loaded (chunks ++ [chunk]))).
  { cbn [read_loop]. destruct (bad s) as [k|]; [|reflexivity]. rewrite (proj2 (Nat.leb_gt k (length (content s)))) by (apply Hbad; reflexivity). rewrite andb_false_r. reflexivity. }
  rewrite U. cbv zeta. set (chunk := firstn block (skipn pos (content s))).
  destruct (Nat.eqb_spec (length chunk) block) as [E|E].
  - assert (pos + block <= length (content s)) by (unfold chunk in E; rewrite firstn_length, skipn_length in E; lia).
    destruct (IH (pos + block) (chunks ++ [chunk])) as (r & E1 & E2 & E3); [lia|lia|]. exists (chunk :: r). rewrite E1, <- app_assoc. split; [reflexivity|].
    split; [|constructor; [lia|exact E3]]. cbn [concat]. rewrite E2. unfold chunk. rewrite <- (firstn_skipn block (skipn pos (content s))) at 2. f_equal. rewrite skipn_skipn. reflexivity.
  - exists [chunk]. split; [reflexivity|]. cbn [concat]. rewrite app_nil_r. unfold chunk in *. rewrite firstn_length, skipn_length in E.
    split; [apply firstn_all2; rewrite skipn_length; lia|]. constructor; [rewrite firstn_length; lia|constructor].
Qed.
Lemma read_loop_bad block s k : 0 < block -> bad s = Some k -> k <= length (content s) -> forall fuel pos chunks, pos <= k -> length (content s) - pos < fuel ->
  read_loop fuel block s pos chunks = Ok (Not_loaded read_error).
Proof.
  intros Hb Hbad Hk. induction fuel as [|fuel IH]; intros pos chunks Hp L; [lia|]. cbn [read_loop]. rewrite Hbad, (proj2 (Nat.leb_le pos k) Hp), (proj2 (Nat.leb_le k _) Hk), andb_true_r. cbn [andb].
  destruct (Nat.ltb_spec k (pos + block)) as [X|X]; [reflexivity|]. rewrite firstn_length, skipn_length. rewrite (proj2 (Nat.eqb_eq _ _)) by lia. apply IH; lia.
Qed.

(** What a file name and a disk determine. [good_path]: the path fits into the buffer together with its terminator, and has no NUL. *)
Definition good_path (block : nat) (path : str) : Prop := length path < block /\ ~ In 0%N path.
Inductive on_disk (d : disk) (path : str) : loaded str -> Prop :=
| od_missing : d path = None -> on_disk d path (Not_loaded cannot_open)
| od_bad s k : d path = Some s -> bad s = Some k -> k <= length (content s) -> on_disk d path (Not_loaded read_error)
| od_good s : d path = Some s -> (forall k, bad s = Some k -> length (content s) < k) -> on_disk d path (Loaded (content s)).
Definition append_to (out : str) (l : loaded str) : loaded str := match l with Loaded b => Loaded (out ++ b) | Not_loaded e => Not_loaded e end.

Theorem C72_file_bytes_partial : forall block d out path l, good_path block path -> on_disk d path l ->
  file_to_bytes block d out path = Ok (append_to out l).
Proof.
  intros block d out path l [L Z] D. unfold file_to_bytes, file_to_bytes_chunked. rewrite (proj2 (Nat.ltb_ge block (length path))) by lia. rewrite c_string_ok by (assumption || lia).
  inversion D as [E|s k E B K|s E B]; subst; rewrite E; [reflexivity| |].
  - rewrite (read_loop_bad _ _ k) by (assumption || lia). reflexivity.
  - destruct (read_loop_ok block s ltac:(lia) B (length (content s) + 1) 0 []) as (r & E1 & E2 & _); [lia|lia|]. rewrite E1. cbn [bind append_to app]. rewrite E2. reflexivity.
Qed.
Print Assumptions C72_file_bytes_partial.
(** A path as long as the buffer is read beyond its end; a path with a NUL opens another file. *)
Theorem C72_file_bytes_refuted :
  (forall block d out path, length path = block -> ~ In 0%N path -> file_to_bytes block d out path = Fail FUB)
  /\ (forall block d out p q, length (p ++ 0%N :: q) <= block -> ~ In 0%N p -> file_to_bytes block d out (p ++ 0%N :: q) = file_to_bytes block d out p).
Proof.
  split.
  - intros block d out path E Z. unfold file_to_bytes, file_to_bytes_chunked. rewrite E, Nat.ltb_irrefl, Nat.sub_diag, app_nil_r.
    assert (c_string path = None) as ->; [|reflexivity]. clear E. induction path as [|c p IH]; [reflexivity|]. cbn [c_string].
    destruct (N.eqb_spec c 0) as [->|Ne]; [exfalso; apply Z; left; reflexivity|]. rewrite IH; [reflexivity|]. intros X. apply Z. right. exact X.
  - intros block d out p q L Z. rewrite app_length in L. cbn [length] in L. unfold file_to_bytes, file_to_bytes_chunked. rewrite app_length. cbn [length].
    rewrite (proj2 (Nat.ltb_ge _ _)) by lia. rewrite (proj2 (Nat.ltb_ge block (length p))) by lia. rewrite (c_string_ok p) by (assumption || lia).
    assert (X : forall r, c_string ((p ++ 0%N :: q) ++ r) = Some p); [|rewrite X; reflexivity]. intros r. clear L. induction p as [|c p IH]; [reflexivity|]. cbn [app c_string].
    destruct (N.eqb_spec c 0) as [->|Ne]; [exfalso; apply Z; left; reflexivity|]. rewrite IH; [reflexivity|]. intros X. apply Z. right. exact X.
Qed.
Print Assumptions C72_file_bytes_refuted.
Example C72_case : good_path 4 (bs "ab") /\ on_disk (fun p => Some (mk_stream (bs "0123456789") None)) (bs "ab") (Loaded (bs "0123456789"))
  /\ file_to_bytes 4 (fun p => Some (mk_stream (bs "0123456789") None)) (bs "x") (bs "ab") = Ok (Loaded (bs "x0123456789")).
Proof. split; [split; [cbn; lia|cbn; intros [X|[X|[]]]; discriminate]|]. split; [apply (od_good _ _ (mk_stream (bs "0123456789") None)); [reflexivity|discriminate]|reflexivity]. Qed.

(** ** C73: loading a UTF-8 file *)
Theorem C73_utf8_file : forall block d path l, good_path block path -> on_disk d path l -> (forall b, l = Loaded b -> bytes b) ->
  match l with
  | Not_loaded e => load_utf8_file block d path = Ok (Not_loaded e)
  | Loaded b =>
    (load_utf8_file block d path = Ok (Loaded b) /\ exists cs, Forall scalar_value cs /\ b = concat (map utf8_encoding cs))
    \/ (load_utf8_file block d path = Ok (Not_loaded corrupted) /\ ~ exists cs, Forall scalar_value cs /\ b = concat (map utf8_encoding cs))
  end.
Proof.
  intros block d path l G D B. pose proof (C72_file_bytes_partial block d [] path l G D) as E. unfold load_utf8_file, load_utf8_file_into. rewrite E.
  destruct l as [b|e]; [|reflexivity]. cbn [append_to app bind length skipn]. destruct (C18_validity b (B b eq_refl)) as ((r & R) & V & _). rewrite R in V |- *. cbn [bind].
  destruct r as [[]|err]; [left|right]; (split; [reflexivity|]); [apply V; reflexivity|]. intros X. apply V in X. discriminate.
Qed.
Print Assumptions C73_utf8_file.
Example C73_case : load_utf8_file 4 (fun p => Some (mk_stream [97; 98; 99; 195; 169]%N None)) (bs "ab") = Ok (Loaded [97; 98; 99; 195; 169]%N)
  /\ load_utf8_file 4 (fun p => Some (mk_stream [97; 98; 99; 195]%N None)) (bs "ab") = Ok (Not_loaded corrupted).
Proof. split; reflexivity. Qed.

(** ** C74: loading a UTF-32 file *)
(** The bytes of a code unit, least significant first. *)
Definition little_endian (c : N) : str := [c mod 256; c / 256 mod 256; c / 65536 mod 256; c / 16777216 mod 256]%N.
Theorem C74_utf32_file : forall block d path l, good_path block path -> on_disk d path l -> (forall b, l = Loaded b -> bytes b) ->
  match l with
  | Not_loaded e => load_utf32le_file block d path = Ok (Not_loaded e)
  | Loaded b =>
    (exists cs, load_utf32le_file block d path = Ok (Loaded cs) /\ b = flat_map little_endian cs /\ Forall (fun c => c < 2 ^ 32)%N cs)
    \/ (load_utf32le_file block d path = Ok (Not_loaded corrupted) /\ forall cs, b <> flat_map little_endian cs)
  end.
Proof.
  intros block d path l G D B. pose proof (C72_file_bytes_partial block d [] path l G D) as E. unfold load_utf32le_file. rewrite E.
  destruct l as [b|e]; [|reflexivity]. cbn [append_to app bind]. specialize (B b eq_refl). destruct (Nat.eqb_spec (length b mod 4) 0) as [M|M]; cbn [negb].
  - left. exists (units32 b). split; [reflexivity|]. apply Nat.div_exact in M; [|lia]. revert M. generalize (length b / 4). intros n. clear E D G.
    revert b B. induction n as [|n IH]; intros b B M; [destruct b; [|cbn in M; lia]; split; [reflexivity|constructor]|].
    destruct b as [|x0 [|x1 [|x2 [|x3 b]]]]; cbn [length] in M; try lia. inversion B as [|? ? B0 B1]; inversion B1 as [|? ? B2 B3]; inversion B3 as [|? ? B4 B5]; inversion B5 as [|? ? B6 B7]; subst.
    destruct (IH b B7 ltac:(lia)) as [I1 I2]. cbn [units32 flat_map]. rewrite <- I1. clear IH I1 B B1 B3 B5 B7 M.
    assert (X : forall a q, (a < 256 -> (a + 256 * q) mod 256 = a /\ (a + 256 * q) / 256 = q)%N).
    { intros a q Ha. rewrite (N.mul_comm 256). rewrite N.mod_add, N.div_add by lia. rewrite N.mod_small, N.div_small by lia. split; lia. }
    set (q2 := (x2 + 256 * x3)%N). set (q1 := (x1 + 256 * q2)%N). set (c := (x0 + 256 * q1)%N).
    destruct (X x0 q1 B0) as [A1 A2]. destruct (X x1 q2 B2) as [A3 A4]. destruct (X x2 x3 B4) as [A5 A6]. fold c in A1, A2. fold q1 in A3, A4. fold q2 in A5, A6.
    split.
    + unfold little_endian. rewrite A1, A2, A3. change 65536%N with (256 * 256)%N. change 16777216%N with (256 * 256 * 256)%N.
      rewrite <- !N.div_div by lia. rewrite A2, A4, A5, A6. rewrite (N.mod_small x3) by exact B6. reflexivity.
    + constructor; [|exact I2]. change (2 ^ 32)%N with 4294967296%N. unfold c, q1, q2. lia.
  - right. split; [reflexivity|]. intros cs X. apply M. rewrite X. clear. replace (length (flat_map little_endian cs)) with (length cs * 4); [apply Nat.mod_mul; lia|].
    induction cs as [|c cs IH]; [reflexivity|]. cbn [flat_map]. rewrite app_length, <- IH. reflexivity.
Qed.
Print Assumptions C74_utf32_file.
Example C74_case : load_utf32le_file 4 (fun p => Some (mk_stream [97; 0; 0; 0; 0; 246; 1; 0]%N None)) (bs "ab") = Ok (Loaded [97; 0x1F600]%N)
  /\ load_utf32le_file 4 (fun p => Some (mk_stream [97; 0; 0]%N None)) (bs "ab") = Ok (Not_loaded corrupted).
Proof. split; reflexivity. Qed.
