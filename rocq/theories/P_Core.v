(** * Properties C05-C15, C47, C48, C50: buffers, token emission, HTML output, API entry points. *)
From Coq Require Import List NArith ZArith Bool Arith Lia.
From Verif Require Import M_Base L_Base M_Buffer L_Buffer S_Tokens M_Emit L_Emit M_Types L_Types
  S_Html M_Html L_Html M_Lang M_Api S_Api S_Ops L_Api.
Import ListNotations.

(** ** C05: validation in ulight_source_to_tokens *)

(** Each cause, in the order in which they are checked; [set_error] changes only the error
    members, and the list of callback invocations is empty. *)
Theorem C05_tokens_validation_partial : forall bld table st,
  (u_source st = None -> u_source_length st <> 0 ->
   source_to_tokens bld table st
   = Ok (STATUS_BAD_STATE, set_error st (bs "source is null, but source_length is nonzero."),
         Some []))
  /\ ((u_source st = None -> u_source_length st = 0) -> u_token_buffer st = None ->
   source_to_tokens bld table st
   = Ok (STATUS_BAD_BUFFER, set_error st (bs "token_buffer must not be null."), Some []))
  /\ ((u_source st = None -> u_source_length st = 0) -> u_token_buffer st <> None ->
   u_token_buffer_length st = 0 ->
   source_to_tokens bld table st
   = Ok (STATUS_BAD_BUFFER, set_error st (bs "token_buffer_length must be nonzero."), Some []))
  /\ ((u_source st = None -> u_source_length st = 0) -> u_token_buffer st <> None ->
   u_token_buffer_length st <> 0 -> u_flush_tokens st = None ->
   source_to_tokens bld table st
   = Ok (STATUS_BAD_BUFFER, set_error st (bs "flush_tokens must not be null."), Some []))
  /\ ((u_source st = None -> u_source_length st = 0) -> u_token_buffer st <> None ->
   u_token_buffer_length st <> 0 -> u_flush_tokens st <> None ->
   (u_lang st = LANG_NONE \/ (LANG_COUNT < u_lang st < 2147483648)%N) ->
   source_to_tokens bld table st
   = Ok (STATUS_BAD_LANG, set_error st (bs "The given language (numeric value) is invalid."),
         Some [])).
Proof.
  intros bld table st. split; [|split; [|split; [|split]]].
  - intros H1 H2. unfold source_to_tokens, tokens_precheck. rewrite H1.
    apply Nat.eqb_neq in H2. now rewrite H2.
  - intros H1 H2. unfold source_to_tokens, tokens_precheck. rewrite H2.
    destruct (u_source st); [reflexivity|]. now rewrite (H1 eq_refl).
  - intros H1 H2 H3. unfold source_to_tokens, tokens_precheck. rewrite H3.
    destruct (u_token_buffer st); [|congruence].
    destruct (u_source st); [reflexivity|]. now rewrite (H1 eq_refl).
  - intros H1 H2 H3 H4. unfold source_to_tokens, tokens_precheck. rewrite H4.
    destruct (u_token_buffer st); [|congruence]. apply Nat.eqb_neq in H3. rewrite H3.
    destruct (u_source st); [reflexivity|]. now rewrite (H1 eq_refl).
  - intros H1 H2 H3 H4 H5. apply tokens_bad_lang; [|exact H5]. repeat split; assumption.
Qed.
Print Assumptions C05_tokens_validation_partial.

(** What is missing from the full statement, and false of the code: the value
    ULIGHT_LANG_COUNT itself, which names no language, passes the check ('>' instead of '>=')
    and runs into an assertion that is reported as an internal error ... *)
Theorem C05_lang_count_refuted : exists st, u_lang st = LANG_COUNT /\
  forall table, exists st', source_to_tokens (mk_build true true) table st
                            = Ok (STATUS_INTERNAL_ERROR, st', None).
Proof.
  exists (mk_ustate (Some (bs "x")) 1 LANG_COUNT 0 (Some 1) 1 None (Some 2)
    None 0 None 0 None 0 None None None 0).
  split; [reflexivity|]. intros table. eexists. reflexivity.
Qed.
Print Assumptions C05_lang_count_refuted.

(** ... and values from 2^31 on become negative in the comparison and are truncated to 8 bits,
    so that they select a language. *)
Theorem C05_lang_wraparound_refuted : exists st, u_lang st = (2147483648 + LANG_TXT)%N /\
  forall table, table LANG_TXT = Some (fun _ _ => Ok (true, [])) ->
  source_to_tokens (mk_build true true) table st = Ok (STATUS_OK, st, Some []).
Proof.
  exists (mk_ustate (Some (bs "x")) 1 (2147483648 + LANG_TXT)%N 0 (Some 1) 1 None (Some 2)
    None 0 None 0 None 0 None None None 0).
  split; [reflexivity|]. intros table E. unfold source_to_tokens, tokens_precheck, tokens_body.
  assert (E1 : (2147483648 + LANG_TXT =? LANG_NONE)%N = false) by (vm_compute; reflexivity).
  assert (E2 : (Z.of_N LANG_COUNT <? to_int (2147483648 + LANG_TXT))%Z = false)
    by (vm_compute; reflexivity).
  assert (E3 : ((2147483648 + LANG_TXT) mod 256)%N = LANG_TXT) by (vm_compute; reflexivity).
  cbn [u_lang u_source u_source_length u_token_buffer u_token_buffer_length u_flush_tokens
       u_flags]. rewrite E1, E2, E3. unfold highlight. rewrite E. reflexivity.
Qed.
Print Assumptions C05_lang_wraparound_refuted.

(** A valid state is accepted: the tokens of the highlighter arrive at the callback, in chunks
    of at most the buffer's size. *)
Theorem C05_valid_state_runs : forall bld table st src h ok ops,
  (u_source st = None -> u_source_length st = 0) -> u_token_buffer st <> None ->
  u_token_buffer_length st <> 0 -> u_flush_tokens st <> None ->
  has_source st src -> (1 <= u_lang st < LANG_COUNT)%N -> table (u_lang st) = Some h ->
  h src (opt_strict (u_flags st)) = Ok (ok, ops) -> ops_in 0 (length src) ops ->
  exists cs, source_to_tokens bld table st
      = Ok (if ok then STATUS_OK else STATUS_BAD_CODE, st, Some cs)
    /\ token_output (opt_coalescing (u_flags st)) (u_token_buffer_length st) (length src) ops = Ok cs
    /\ well_formed (length src) (concat cs)
    /\ Forall (fun c => 0 < length c <= u_token_buffer_length st) cs.
Proof.
  intros bld table st src h ok ops H1 H2 H3 H4 H5 H6 H7 H8 H9.
  destruct (tokens_run bld table st src h ok ops) as (cs & A & B & C & D & E); auto.
  - repeat split; assumption.
  - exists cs. auto.
Qed.
Print Assumptions C05_valid_state_runs.

Definition demo_state : ustate :=
  set_lang (on_flush_text (set_text_buffer (on_flush_tokens (set_token_buffer
    (set_source ulight_init (bs "a<b")) (Some 1) 2) None (Some 3)) (Some 4) 5) None (Some 6))
    LANG_CPP.
Definition demo_table : N -> option highlighter := fun _ => Some (fun _ _ =>
  Ok (true, [OEmit 0 1 hl_name false; OEmit 1 1 hl_symbol_op false; OEmit 2 1 hl_name false])).

Example C05_case : source_to_tokens (mk_build true true) demo_table demo_state
  = Ok (STATUS_OK, demo_state,
        Some [[mk_token 0 1 hl_name; mk_token 1 1 hl_symbol_op]; [mk_token 2 1 hl_name]])
  /\ ops_in 0 3 [OEmit 0 1 hl_name false; OEmit 1 1 hl_symbol_op false; OEmit 2 1 hl_name false]
  /\ has_source demo_state (bs "a<b").
Proof.
  split; [vm_compute; reflexivity|]. split; [repeat (constructor; auto with arith)|].
  right. exists (bs "a<b"). split; [reflexivity|]. split; [apply le_n|reflexivity].
Qed.

(** ** C06: validation in ulight_source_to_html *)

Definition ready_upto (n : nat) (st : ustate) : Prop :=
  (1 <= n -> u_token_buffer st = None -> u_token_buffer_length st = 0)
  /\ (2 <= n -> u_text_buffer st <> None) /\ (3 <= n -> u_text_buffer_length st <> 0)
  /\ (4 <= n -> u_flush_text st <> None) /\ (5 <= n -> u_html_tag_name st <> None)
  /\ (6 <= n -> u_html_tag_name_length st <> 0) /\ (7 <= n -> u_html_attr_name st <> None)
  /\ (8 <= n -> u_html_attr_name_length st <> 0).

Local Ltac ready := exfalso;
  match goal with H : _ -> ?x <> ?x |- _ => apply H; [lia|reflexivity] end.

(** The causes in the order in which they are reported; [ready_upto n] says that the first [n]
    causes are absent. *)
Theorem C06_html_validation : forall bld table st,
  let rejected code text :=
    source_to_html bld table st = Ok (code, set_error st text, Some []) in
  (u_token_buffer st = None -> u_token_buffer_length st <> 0 ->
     rejected STATUS_BAD_BUFFER (bs "token_buffer is null, but token_buffer_length is nonzero."))
  /\ (ready_upto 1 st -> u_text_buffer st = None ->
     rejected STATUS_BAD_BUFFER (bs "text_buffer must not be null."))
  /\ (ready_upto 2 st -> u_text_buffer_length st = 0 ->
     rejected STATUS_BAD_BUFFER (bs "text_buffer_length must be nonzero."))
  /\ (ready_upto 3 st -> u_flush_text st = None ->
     rejected STATUS_BAD_BUFFER (bs "flush_text must not be null."))
  /\ (ready_upto 4 st -> u_html_tag_name st = None ->
     rejected STATUS_BAD_STATE (bs "html_tag_name must not be null."))
  /\ (ready_upto 5 st -> u_html_tag_name_length st = 0 ->
     rejected STATUS_BAD_STATE (bs "html_tag_name_length must be nonzero."))
  /\ (ready_upto 6 st -> u_html_attr_name st = None ->
     rejected STATUS_BAD_STATE (bs "html_attr_name must not be null."))
  /\ (ready_upto 7 st -> u_html_attr_name_length st = 0 ->
     rejected STATUS_BAD_STATE (bs "html_attr_name_length must be nonzero.")).
Proof.
  intros bld table st rejected. subst rejected. cbv beta.
  assert (G : forall code text, html_precheck st = Some (code, text) ->
    source_to_html bld table st = Ok (code, set_error st text, Some [])).
  { intros code text E. unfold source_to_html. now rewrite E. }
  unfold html_precheck in G. unfold ready_upto.
  split; [|split; [|split; [|split; [|split; [|split; [|split]]]]]].
  - intros H1 H2. apply G. apply Nat.eqb_neq in H2. rewrite H1, H2. reflexivity.
  - intros (R1 & R2 & R3 & R4 & R5 & R6 & R7 & R8) H. apply G.
    rewrite (token_first_ok st (R1 ltac:(lia))).
    rewrite H. reflexivity.
  - intros (R1 & R2 & R3 & R4 & R5 & R6 & R7 & R8) H. apply G.
    rewrite (token_first_ok st (R1 ltac:(lia))).
    destruct (u_text_buffer st); [|ready]. rewrite H. reflexivity.
  - intros (R1 & R2 & R3 & R4 & R5 & R6 & R7 & R8) H. apply G.
    rewrite (token_first_ok st (R1 ltac:(lia))).
    destruct (u_text_buffer st); [|ready].
    destruct (u_text_buffer_length st); [ready|]. rewrite H. reflexivity.
  - intros (R1 & R2 & R3 & R4 & R5 & R6 & R7 & R8) H. apply G.
    rewrite (token_first_ok st (R1 ltac:(lia))).
    destruct (u_text_buffer st); [|ready].
    destruct (u_text_buffer_length st); [ready|].
    destruct (u_flush_text st); [|ready]. rewrite H. reflexivity.
  - intros (R1 & R2 & R3 & R4 & R5 & R6 & R7 & R8) H. apply G.
    rewrite (token_first_ok st (R1 ltac:(lia))).
    destruct (u_text_buffer st); [|ready].
    destruct (u_text_buffer_length st); [ready|].
    destruct (u_flush_text st); [|ready].
    destruct (u_html_tag_name st); [|ready]. rewrite H. reflexivity.
  - intros (R1 & R2 & R3 & R4 & R5 & R6 & R7 & R8) H. apply G.
    rewrite (token_first_ok st (R1 ltac:(lia))).
    destruct (u_text_buffer st); [|ready].
    destruct (u_text_buffer_length st); [ready|].
    destruct (u_flush_text st); [|ready].
    destruct (u_html_tag_name st); [|ready].
    destruct (u_html_tag_name_length st); [ready|]. rewrite H. reflexivity.
  - intros (R1 & R2 & R3 & R4 & R5 & R6 & R7 & R8) H. apply G.
    rewrite (token_first_ok st (R1 ltac:(lia))).
    destruct (u_text_buffer st); [|ready].
    destruct (u_text_buffer_length st); [ready|].
    destruct (u_flush_text st); [|ready].
    destruct (u_html_tag_name st); [|ready].
    destruct (u_html_tag_name_length st); [ready|].
    destruct (u_html_attr_name st); [|ready]. rewrite H. reflexivity.
Qed.
Print Assumptions C06_html_validation.

(** Text is produced only if the preconditions of both stages hold. *)
Theorem C06_text_needs_valid_state : forall bld table st status st' out,
  source_to_html bld table st = Ok (status, st', Some out) -> out <> [] ->
  (u_text_buffer st <> None /\ u_text_buffer_length st <> 0 /\ u_flush_text st <> None
   /\ u_html_tag_name st <> None /\ u_html_tag_name_length st <> 0
   /\ u_html_attr_name st <> None /\ u_html_attr_name_length st <> 0)
  /\ (u_source st = None -> u_source_length st = 0)
  /\ u_token_buffer st <> None /\ u_token_buffer_length st <> 0.
Proof.
  intros bld table st status st' out E H.
  destruct (html_text_only_if_ready _ _ _ _ _ _ E H) as ((?&?&?&?&?&?&?&?)&?&?&?).
  repeat split; assumption.
Qed.
Print Assumptions C06_text_needs_valid_state.

Example C06_case :
  source_to_html (mk_build true true) demo_table demo_state
  = Ok (STATUS_OK, set_flush_tokens demo_state (Some internal_flush) (Some internal_flush),
        Some [bs "<h- d"; bs "ata-h"; bs "=name"; bs ">a</h"; bs "-><h-"; bs " data"; bs "-h=sy";
              bs "m_op>"; bs "&lt;<"; bs "/h-><"; bs "h- da"; bs "ta-h="; bs "name>"; bs "b</h-";
              bs ">"]).
Proof. vm_compute. reflexivity. Qed.

(** ** C07: buffers *)

Theorem C07_buffer_lossless : forall (A : Type) (cap : nat) (os : list (buf_op A)), 0 < cap ->
  exists b0 b, new_buffer cap = Ok b0 /\ run_ops b0 os = Ok b
    /\ concat (calls b) ++ cells b
       = flat_map (fun o => match o with Push e => [e] | AppendEach l => l | Append l => l
                            | Flush => [] end) os
    /\ Forall (fun c => 1 <= length c <= cap) (calls b)
    /\ length (cells b) <= cap.
Proof.
  intros A cap os H. destruct (new_buffer_ok A cap H) as (b0 & E0 & -> & Hok).
  destruct (run_ops_spec A os _ Hok) as (b & E & (H1 & H2 & H3) & H4 & H5).
  exists (mk_buffer cap [] []), b. cbn in H5. rewrite H5 in *.
  repeat split; assumption.
Qed.
Print Assumptions C07_buffer_lossless.

Example C07_case : exists b, run_ops (mk_buffer 3 [] []) [Append [1; 2]; Push 3; Append [4; 5; 6; 7];
    Flush; AppendEach [8; 9]] = Ok b
  /\ calls b = [[1; 2; 3]; [4; 5; 6]; [7]] /\ cells b = [8; 9].
Proof. eexists. split; [vm_compute; reflexivity|]. split; reflexivity. Qed.

(** ** C08-C10: HTML text *)

Theorem C08_html_independent_of_buffers : forall cap1 cap2 tag attr src cs1 cs2,
  0 < cap1 -> 0 < cap2 -> concat cs1 = concat cs2 -> well_formed (length src) (concat cs1) ->
  exists o1 o2, html_output cap1 tag attr src cs1 = Ok o1
    /\ html_output cap2 tag attr src cs2 = Ok o2 /\ concat o1 = concat o2.
Proof.
  intros cap1 cap2 tag attr src cs1 cs2 H1 H2 E Hw.
  destruct (html_output_spec cap1 tag attr src cs1 H1 Hw) as (o1 & E1 & P1 & _).
  rewrite E in Hw.
  destruct (html_output_spec cap2 tag attr src cs2 H2 Hw) as (o2 & E2 & P2 & _).
  exists o1, o2. rewrite P1, P2, E. auto.
Qed.
Print Assumptions C08_html_independent_of_buffers.

Theorem C09_html_round_trip : forall cap tag attr src cs,
  0 < cap -> ~ In (ch ">") tag -> ~ In (ch ">") attr ->
  well_formed (length src) (concat cs) ->
  exists out, html_output cap tag attr src cs = Ok out /\ html_text false (concat out) = Some src.
Proof.
  intros cap tag attr src cs H1 H2 H3 Hw.
  destruct (html_output_spec cap tag attr src cs H1 Hw) as (o & E & P & _).
  exists o. split; [exact E|]. rewrite P. now apply page_text.
Qed.
Print Assumptions C09_html_round_trip.

(** The hypothesis on the names is needed: a '>' inside a name ends the generated tag. *)
Example C09_names_matter :
  exists out, html_output 8 (bs "a>b") (bs "c") (bs "x") [[mk_token 0 1 hl_name]] = Ok out
  /\ html_text false (concat out) <> Some (bs "x").
Proof. eexists. split; [vm_compute; reflexivity|]. vm_compute. discriminate. Qed.

Theorem C10_html_no_injection : forall cap tag attr src cs,
  0 < cap -> well_formed (length src) (concat cs) ->
  exists out, html_output cap tag attr src cs = Ok out
    /\ html_doc tag attr
         (fun id => (exists t, In t (concat cs) /\ id = short_string (tk_type t))
                    /\ forall c, In c id -> (97 <= c <= 122)%N \/ c = 95%N)
         (concat out).
Proof.
  intros cap tag attr src cs H1 Hw.
  destruct (html_output_spec cap tag attr src cs H1 Hw) as (o & E & P & _).
  exists o. split; [exact E|]. rewrite P.
  eapply html_doc_mono; [|apply page_doc]. intros id Hn. split; [exact Hn|].
  destruct Hn as (t & _ & ->). apply short_string_chars.
Qed.
Print Assumptions C10_html_no_injection.

(** End to end: for any highlighter whose operations are in order and in bounds, the HTML
    produced by the API reads back as the source. *)
Theorem C09_api_round_trip : forall bld table st src tag attr h ops,
  html_ready st -> u_token_buffer st <> None -> u_token_buffer_length st <> 0 ->
  has_source st src ->
  has_text (u_html_tag_name st) (u_html_tag_name_length st) tag ->
  has_text (u_html_attr_name st) (u_html_attr_name_length st) attr ->
  ~ In (ch ">") tag -> ~ In (ch ">") attr ->
  (1 <= u_lang st < LANG_COUNT)%N -> table (u_lang st) = Some h ->
  h src (opt_strict (u_flags st)) = Ok (true, ops) -> ops_in 0 (length src) ops ->
  exists st' out, source_to_html bld table st = Ok (STATUS_OK, st', Some out)
    /\ html_text false (concat out) = Some src
    /\ html_doc tag attr (fun id => exists t, id = short_string t) (concat out).
Proof.
  intros bld table st src tag attr h ops H1 H2 H3 H4 H5 H6 H7 H8 H9 H10 H11 H12.
  destruct (html_run bld table st src tag attr h ops) as (st' & out & E & P & _); auto.
  exists st', out. split; [exact E|]. rewrite P.
  split; [apply page_text; auto; now apply tokens_of_wf|].
  eapply html_doc_mono; [|apply page_doc]. intros id (t & _ & ->). eauto.
Qed.
Print Assumptions C09_api_round_trip.

Example C08_C09_C10_case : forall cap, 0 < cap ->
  well_formed (length (bs "if (a<b) &c;"))
    (concat [[mk_token 0 2 hl_keyword]; [mk_token 4 3 hl_symbol_op; mk_token 9 2 hl_name]])
  /\ exists out, html_output cap (bs "h-") (bs "data-h") (bs "if (a<b) &c;")
       [[mk_token 0 2 hl_keyword]; [mk_token 4 3 hl_symbol_op; mk_token 9 2 hl_name]] = Ok out
     /\ concat out = bs "<h- data-h=kw>if</h-> (<h- data-h=sym_op>a&lt;b</h->) <h- data-h=name>&amp;c</h->;".
Proof.
  intros cap H.
  assert (W : well_formed (length (bs "if (a<b) &c;"))
    (concat [[mk_token 0 2 hl_keyword]; [mk_token 4 3 hl_symbol_op; mk_token 9 2 hl_name]])).
  { apply toks_in_well_formed. repeat (constructor; cbn; auto with arith). }
  split; [exact W|].
  destruct (html_output_spec cap (bs "h-") (bs "data-h") _ _ H W) as (out & E & P & _).
  exists out. split; [exact E|]. rewrite P. vm_compute. reflexivity.
Qed.

(** ** C11-C15: token emission *)

(** [ops_in lo hi ops]: the operations are performed in increasing source order within
    [lo, hi] (S_Ops); nested operations within their span. *)
Theorem C11_emission_well_formed : forall coal cap n ops, 0 < cap -> ops_in 0 n ops ->
  exists chunks, token_output coal cap n ops = Ok chunks
    /\ well_formed n (concat chunks)
    /\ Forall (fun c => 1 <= length c <= cap) chunks.
Proof.
  intros coal cap n ops Hc Ho.
  destruct (token_output_spec coal cap n ops Hc) as (cs & E & Ht & Hf).
  { now apply ops_in_bounds in Ho. }
  exists cs. split; [exact E|]. split; [|exact Hf]. rewrite Ht. now apply tokens_of_wf.
Qed.
Print Assumptions C11_emission_well_formed.

Theorem C12_coalescing_keeps_highlighting : forall coal1 coal2 cap1 cap2 n ops c1,
  token_output coal1 cap1 n ops = Ok c1 -> 0 < cap2 ->
  exists c2, token_output coal2 cap2 n ops = Ok c2
    /\ forall pos ty, highlighted (concat c1) pos ty <-> highlighted (concat c2) pos ty.
Proof.
  intros coal1 coal2 cap1 cap2 n ops c1 E H.
  destruct (token_output_any_coal _ coal2 _ _ _ _ cap2 E H) as (c2 & E2).
  exists c2. split; [exact E2|]. intros pos ty.
  rewrite (token_output_tokens _ _ _ _ _ E), (token_output_tokens _ _ _ _ _ E2).
  now rewrite !tokens_of_highlighted.
Qed.
Print Assumptions C12_coalescing_keeps_highlighting.

Theorem C13_tokens_independent_of_capacity : forall coal cap1 cap2 n ops c1,
  token_output coal cap1 n ops = Ok c1 -> 0 < cap2 ->
  exists c2, token_output coal cap2 n ops = Ok c2 /\ concat c2 = concat c1.
Proof. exact (fun coal cap1 cap2 n ops c1 => token_output_any_cap coal cap1 n ops c1 cap2). Qed.
Print Assumptions C13_tokens_independent_of_capacity.

Theorem C14_full_coalescing_partial : forall cap n ops c,
  (forall o, In o ops -> exists b l t f, o = OEmit b l t f) ->
  token_output true cap n ops = Ok c ->
  forall i t u, nth_error (concat c) i = Some t -> nth_error (concat c) (S i) = Some u ->
  ~ mergeable t u.
Proof.
  intros cap n ops c H E. rewrite (token_output_tokens _ _ _ _ _ E).
  apply tokens_of_separate. apply Forall_forall. intros o Ho.
  destruct (H o Ho) as (b & l & t & f & ->). exact I.
Qed.
Print Assumptions C14_full_coalescing_partial.

(** Not covered: highlighters with nested languages. There the statement is false: the first
    token of the nested language is never merged with the token before it. *)
Theorem C14_nested_refuted : exists cap n ops c t u,
  ops_in 0 n ops /\ token_output true cap n ops = Ok c
  /\ nth_error (concat c) 0 = Some t /\ nth_error (concat c) 1 = Some u /\ mergeable t u.
Proof.
  exists 8, 2, [OEmit 0 1 hl_symbol_punc false; ONested 8 1 1 [OEmit 0 1 hl_symbol_punc false]].
  do 3 eexists. split; [repeat (constructor; auto with arith)|].
  split; [vm_compute; reflexivity|]. repeat split.
Qed.
Print Assumptions C14_nested_refuted.

Theorem C15_nested_translation : forall coal cap ncap n pre off len nops c cn,
  token_output coal cap n (pre ++ [ONested ncap off len nops]) = Ok c ->
  token_output coal ncap len nops = Ok cn ->
  exists cp, token_output coal cap n pre = Ok cp
    /\ concat c = concat cp ++ map (fun t => mk_token (tk_begin t + off) (tk_len t) (tk_type t))
                                   (concat cn)
    /\ (forall t, In t (concat cn) -> off <= tk_begin (shift_token off t)
                  /\ tk_end (shift_token off t) <= off + len).
Proof.
  intros coal cap ncap n pre off len nops c cn E En.
  destruct (token_output_Ok _ _ _ _ _ E) as [Hc Hb]. apply Forall_app in Hb.
  destruct (token_output_spec coal cap n pre Hc) as (cp & Ep & Hp & _); [apply Hb|].
  exists cp. split; [exact Ep|]. split.
  - rewrite (token_output_tokens _ _ _ _ _ E), tokens_of_nested_last, Hp.
    now rewrite (token_output_tokens _ _ _ _ _ En).
  - intros t Ht. destruct (token_output_Ok _ _ _ _ _ En) as [_ Hbn].
    assert (Hlen : tk_end t <= len).
    { rewrite (token_output_tokens _ _ _ _ _ En) in Ht.
      exact (tokens_of_bounded coal nops len Hbn t Ht). }
    unfold tk_end in *. simpl. lia.
Qed.
Print Assumptions C15_nested_translation.

Example C11_C15_case :
  let ops := [OEmit 0 2 hl_name false; OEmit 2 1 hl_name false; OEmit 3 1 hl_name true;
              ONested 1 5 4 [OEmit 0 1 hl_number false; OEmit 1 2 hl_number false];
              OEmit 9 1 hl_error false] in
  ops_in 0 10 ops
  /\ token_output false 2 10 ops
     = Ok [[mk_token 0 2 hl_name; mk_token 2 2 hl_name];
           [mk_token 5 1 hl_number; mk_token 6 2 hl_number]; [mk_token 9 1 hl_error]]
  /\ token_output true 1 10 ops
     = Ok [[mk_token 0 4 hl_name]; [mk_token 5 3 hl_number]; [mk_token 9 1 hl_error]].
Proof.
  split; [|split; vm_compute; reflexivity].
  repeat (constructor; auto with arith).
Qed.

(** ** C47: highlight type names *)

Definition known_type (t : N) : Prop := In t (map fst highlight_type_table).

Theorem C47_type_names_partial : forall t,
  (known_type t -> t <> hl_none -> short_string t <> [])
  /\ (forall c, In c (short_string t) -> (97 <= c <= 122)%N \/ c = 95%N)
  /\ (~ known_type t -> short_string t = [] /\ long_string t = [])
  /\ (forall u, known_type t -> known_type u -> short_string t = short_string u ->
      t = u \/ (t = hl_name_shell_command /\ u = hl_name_shell_command_delim)
      \/ (u = hl_name_shell_command /\ t = hl_name_shell_command_delim))
  /\ (forall u, known_type t -> known_type u -> long_string t = long_string u -> t = u).
Proof.
  intros t. split; [apply short_string_nonempty|]. split; [apply short_string_chars|].
  split; [intros H; split; [now apply short_string_unknown|now apply long_string_unknown]|].
  split; [intros u; apply short_string_inj|intros u; apply long_string_inj].
Qed.
Print Assumptions C47_type_names_partial.

(** The exception is real: two different types share a short string. *)
Theorem C47_short_names_distinct_refuted : exists t u,
  known_type t /\ known_type u /\ t <> u /\ short_string t = short_string u
  /\ short_string t = bs "name_cmd".
Proof.
  exists hl_name_shell_command, hl_name_shell_command_delim.
  split; [|split; [|split; [discriminate|split; vm_compute; reflexivity]]];
    apply (@mem_In_N); vm_compute; reflexivity.
Qed.
Print Assumptions C47_short_names_distinct_refuted.

(** ** C48: State setters *)

Theorem C48_setters_partial : forall st s l f p n d a,
  let fields x := (u_source x, u_source_length x, u_lang x, u_flags x,
    (u_token_buffer x, u_token_buffer_length x), (u_flush_tokens_data x, u_flush_tokens x),
    (u_html_tag_name x, u_html_tag_name_length x), (u_html_attr_name x, u_html_attr_name_length x),
    (u_text_buffer x, u_text_buffer_length x), (u_flush_text_data x, u_flush_text x)) in
  let '(src, sl, la, fl, tb, ft, tn, an, xb, fx) := fields st in
  get_source (set_source st s) = Ok s
  /\ fields (set_source st s) = (Some s, length s, la, fl, tb, ft, tn, an, xb, fx)
  /\ fields (set_lang st l) = (src, sl, l, fl, tb, ft, tn, an, xb, fx)
  /\ fields (set_flags st f) = (src, sl, la, f, tb, ft, tn, an, xb, fx)
  /\ fields (set_token_buffer st p n) = (src, sl, la, fl, (p, n), ft, tn, an, xb, fx)
  /\ fields (on_flush_tokens st d a) = (src, sl, la, fl, tb, (d, a), tn, an, xb, fx)
  /\ fields (set_html_tag_name st s) = (src, sl, la, fl, tb, ft, (Some s, length s), an, xb, fx)
  /\ fields (set_text_buffer st p n) = (src, sl, la, fl, tb, ft, tn, an, (p, n), fx)
  /\ fields (on_flush_text st d a) = (src, sl, la, fl, tb, ft, tn, an, xb, (d, a)).
Proof.
  intros. cbn. repeat split. unfold get_source, set_source, view. cbn.
  rewrite Nat.leb_refl. cbn. now rewrite firstn_all.
Qed.
Print Assumptions C48_setters_partial.

(** set_html_attr_name overwrites the tag name's length and leaves the attribute name's. *)
Theorem C48_attr_setter_refuted : exists st s,
  let st' := set_html_attr_name st s in
  u_html_tag_name_length st' <> u_html_tag_name_length st
  /\ u_html_attr_name_length st' <> length s
  /\ view (u_html_attr_name st') (u_html_attr_name_length st') = Fail FUB.
Proof.
  exists ulight_init, (bs "class"). vm_compute. repeat split; discriminate.
Qed.
Print Assumptions C48_attr_setter_refuted.

(** ** C50: allocation failure *)

Theorem C50_new_state_partial : exists st, ulight_new true = Ok (Some st)
  /\ u_source st = None /\ u_lang st = LANG_NONE /\ u_token_buffer st = None
  /\ u_flush_tokens st = None /\ u_text_buffer st = None /\ u_flush_text st = None
  /\ u_error st = None
  /\ view (u_html_tag_name st) (u_html_tag_name_length st) = Ok (bs "h-")
  /\ view (u_html_attr_name st) (u_html_attr_name_length st) = Ok (bs "data-h").
Proof. eexists. split; [reflexivity|]. repeat split; vm_compute; reflexivity. Qed.
Print Assumptions C50_new_state_partial.

Theorem C50_allocation_failure_refuted : ulight_new false = Fail FUB.
Proof. reflexivity. Qed.
Print Assumptions C50_allocation_failure_refuted.
