(** * Properties of the command line tool (C142-C144) *)
From Coq Require Import List NArith ZArith Bool Arith Lia.
From Verif Require Import M_Base L_Base M_Chars S_Chars S_Utf8 M_Utf8 L_Utf8 L_Utf8b L_Wf8 M_Lang M_Io P_Io S_Html M_Types M_Api S_Api M_Languages S_Languages P_Languages M_Cli S_Cli.
Import ListNotations.

Lemma fwrites_all to chunks : Forall is_write (fwrites to None chunks) /\ Forall (writes_to to) (fwrites to None chunks)
  /\ output (fwrites to None chunks) = concat chunks.
Proof. induction chunks as [|c r (I1 & I2 & I3)]; cbn; repeat split; try constructor; auto; exact I || congruence. Qed.

Lemma fwrites_room to chunks : forall n, Forall is_write (fwrites to (Some n) chunks) /\ Forall (writes_to to) (fwrites to (Some n) chunks)
  /\ output (fwrites to (Some n) chunks) = firstn n (concat chunks).
Proof.
  induction chunks as [|c r IH]; intros n; cbn [fwrites output concat]; [rewrite firstn_nil; repeat split; constructor|].
  destruct (IH (n - length (firstn n c))) as (I1 & I2 & I3). split; [constructor; [exact I|exact I1]|]. split; [constructor; [reflexivity|exact I2]|].
  rewrite I3, firstn_app, firstn_length. f_equal. f_equal. lia.
Qed.

Lemma sizes : token_buffer_size <> 0 /\ text_buffer_size <> 0.
Proof. split; intros H; [discriminate H|]. apply Nat.eq_mul_0 in H as [H|H]; discriminate H. Qed.
Local Opaque token_buffer_size text_buffer_size.

Lemma cli_state_ready lang src : html_ready (cli_state lang src) /\ has_source (cli_state lang src) src /\ u_lang (cli_state lang src) = lang.
Proof.
  destruct sizes as [S1 S2]. split; [|split].
  - unfold html_ready, cli_state. cbn. repeat split; try discriminate; assumption.
  - right. exists src. cbn. rewrite firstn_all. auto.
  - reflexivity.
Qed.

Lemma highlight_ok bld w to lang src : accepted (debug bld) lang src ->
  exists chunks, cli_highlight bld w to lang src = Ok (fwrites to (room w) chunks)
    /\ html_text false (concat chunks) = Some src /\ html_doc (bs "h-") (bs "data-h") (fun id => exists t, id = short_string t) (concat chunks).
Proof.
  intros A. destruct (cli_state_ready lang src) as (R & S & L). rewrite <- L in A.
  destruct (C138_source_to_html_partial bld (cli_state lang src) src (bs "h-") (bs "data-h") R) as (st' & out & E & H1 & H2 & _);
    try exact S; try exact A.
  - cbn. discriminate.
  - exact (proj1 sizes).
  - exists (bs "h-"). repeat split. cbn. lia.
  - exists (bs "data-h"). repeat split. cbn. lia.
  - cbn. intuition discriminate.
  - cbn. intuition discriminate.
  - exists out. split; [|split; assumption]. unfold cli_highlight. rewrite E. reflexivity.
Qed.

(** The files that the tool is given *)
Definition output_of (w : world) (rest : list str) (to : option str) : Prop :=
  match rest with [] => to = None | path :: _ => to = Some path /\ can_open w path = true end.

Lemma valid_bytes b : valid_utf8 b -> bytes b.
Proof.
  intros (cs & V & ->). apply Forall_concat, Forall_map. eapply Forall_impl; [|exact V]. intros c H. exact (encoding_bytes c H).
Qed.
Lemma loads block w path b : good_path block path -> on_disk (readable w) path (Loaded b) -> valid_utf8 b ->
  load_utf8_file block (readable w) path = Ok (Loaded b).
Proof.
  intros G D V. destruct (C73_utf8_file block (readable w) path (Loaded b) G D) as [[E _]|[_ X]]; [intros ? [= <-]; apply valid_bytes, V|exact E|].
  exfalso. apply X. exact V.
Qed.
Lemma accepted_not_none debug lang src : accepted debug lang src -> (lang =? LANG_NONE)%N = false.
Proof. intros A. pose proof (accepted_lang _ _ _ A) as X. destruct (N.eqb_spec lang LANG_NONE) as [->|]; [|reflexivity]. exfalso. cbv in X. intuition congruence. Qed.

(** A run on a file that is loaded *)
Lemma cli_loaded bld block w program path rest to b : good_path block path -> on_disk (readable w) path (Loaded b) -> valid_utf8 b ->
  lang_from_path path <> LANG_NONE -> output_of w rest to ->
  cli bld block w (program :: path :: rest) = (let* es := cli_highlight bld w to (lang_from_path path) b in
    Ok (0%N, match to with None => es | Some out => [e_open out] ++ es ++ [e_close out] end)).
Proof.
  intros G D V L O. unfold cli. apply N.eqb_neq in L. rewrite L, (loads _ _ _ _ G D V). cbn [bind].
  destruct rest as [|out more]; cbn in O; [subst to; reflexivity|]. destruct O as [-> O]. rewrite O. reflexivity.
Qed.

(** ** C142: the output is HTML with the text of the file *)
Theorem C142_cli_partial : forall bld block w program path rest to b,
  good_path block path -> on_disk (readable w) path (Loaded b) -> valid_utf8 b -> accepted (debug bld) (lang_from_path path) b ->
  output_of w rest to -> room w = None ->
  exists es out, cli bld block w (program :: path :: rest) = Ok (0%N, es) /\ writes_exactly to out es
    /\ html_text false out = Some b /\ html_doc (bs "h-") (bs "data-h") (fun id => exists t, id = short_string t) out.
Proof.
  intros bld block w program path rest to b G D V A O R. pose proof (accepted_not_none _ _ _ A) as L. apply N.eqb_neq in L.
  destruct (highlight_ok bld w to _ _ A) as (chunks & E & H1 & H2). rewrite R in E. destruct (fwrites_all to chunks) as (F1 & F2 & F3).
  eexists _, (concat chunks). rewrite (cli_loaded bld block w program path rest to b G D V L O), E. cbn [bind]. split; [reflexivity|]. split; [|split; assumption].
  exists (fwrites to None chunks). repeat split; assumption.
Qed.
Print Assumptions C142_cli_partial.

(** The tool can do its work: the language is known, the input is readable and in UTF-8, the output can be opened. *)
Definition usable (w : world) (path : str) (rest : list str) : Prop :=
  lang_from_path path <> LANG_NONE /\ (exists b, on_disk (readable w) path (Loaded b) /\ valid_utf8 b) /\ exists to, output_of w rest to.

(** ** C143: the exit status *)
(** The run fails with a message, without touching any file, exactly if the tool cannot start to highlight. *)
Theorem C143_cli_status_partial : forall bld block w program,
  (exists es, cli bld block w [program] = Ok (EXIT_FAILURE, es) /\ only_message es)
  /\ forall path rest l, good_path block path -> on_disk (readable w) path l -> (forall b, l = Loaded b -> bytes b) ->
     (~ usable w path rest -> exists es, cli bld block w (program :: path :: rest) = Ok (EXIT_FAILURE, es) /\ only_message es)
     /\ (usable w path rest -> forall status es, cli bld block w (program :: path :: rest) = Ok (status, es) -> status = 0%N).
Proof.
  intros bld block w program. split; [eexists; split; [reflexivity|eexists; reflexivity]|]. intros path rest l G D B. split.
  - intros U. unfold cli. destruct (N.eqb_spec (lang_from_path path) LANG_NONE) as [L|L]; [eexists; split; [reflexivity|eexists; reflexivity]|].
    pose proof (C73_utf8_file block (readable w) path l G D B) as X. destruct l as [b|e]; [|rewrite X; eexists; split; [reflexivity|eexists; reflexivity]].
    destruct X as [[X V]|[X _]]; rewrite X; cbn [bind]; [|eexists; split; [reflexivity|eexists; reflexivity]].
    destruct rest as [|out more]; [exfalso; apply U; split; [exact L|]; split; [exists b; split; assumption|exists None; reflexivity]|].
    destruct (can_open w out) eqn:C; cbn [negb]; [|eexists; split; [reflexivity|eexists; reflexivity]].
    exfalso. apply U. split; [exact L|]. split; [exists b; split; assumption|]. exists (Some out). split; [reflexivity|exact C].
  - intros (L & (b & D' & V) & to & O) status es E. rewrite (cli_loaded bld block w program path rest to b G D' V L O) in E.
    destruct (cli_highlight bld w to (lang_from_path path) b); [|discriminate]. injection E as <- _. reflexivity.
Qed.
Print Assumptions C143_cli_status_partial.
(** When highlighting fails, the status is that of a success. *)
Definition broken_ts : world := mk_world (fun _ => Some (mk_stream (bs "'\x'") None)) (fun _ => true) None.
Theorem C143_cli_status_refuted : forall program,
  cli (mk_build true true) 4096 broken_ts [program; bs "a.ts"; bs "a.html"]
  = Ok (0%N, [e_open (bs "a.html"); e_some_writes (Some (bs "a.html")); e_error (bs "Error: An internal error occurred." ++ [10%N]); e_close (bs "a.html")]).
Proof. intros program. vm_compute. reflexivity. Qed.
Print Assumptions C143_cli_status_refuted.

(** ** C144: output that cannot be written *)
(** What fits is written, and there is no sign of a failure. *)
Theorem C144_cli_output_partial : forall bld block w program path rest to b n,
  good_path block path -> on_disk (readable w) path (Loaded b) -> valid_utf8 b -> accepted (debug bld) (lang_from_path path) b ->
  output_of w rest to -> room w = Some n ->
  exists es out, cli bld block w (program :: path :: rest) = Ok (0%N, es) /\ writes_exactly to (firstn n out) es
    /\ html_text false out = Some b.
Proof.
  intros bld block w program path rest to b n G D V A O R. pose proof (accepted_not_none _ _ _ A) as L. apply N.eqb_neq in L.
  destruct (highlight_ok bld w to _ _ A) as (chunks & E & H1 & H2). rewrite R in E. destruct (fwrites_room to chunks n) as (F1 & F2 & F3).
  eexists _, (concat chunks). rewrite (cli_loaded bld block w program path rest to b G D V L O), E. cbn [bind]. split; [reflexivity|]. split; [|assumption].
  exists (fwrites to (Some n) chunks). repeat split; assumption.
Qed.
Print Assumptions C144_cli_output_partial.
Theorem C144_cli_output_refuted : forall bld block w program path rest to b,
  good_path block path -> on_disk (readable w) path (Loaded b) -> valid_utf8 b -> accepted (debug bld) (lang_from_path path) b ->
  output_of w rest to -> room w = Some 0 -> b <> [] ->
  exists es, cli bld block w (program :: path :: rest) = Ok (0%N, es) /\ writes_exactly to [] es /\ html_text false [] <> Some b.
Proof.
  intros bld block w program path rest to b G D V A O R Hb. destruct (C144_cli_output_partial bld block w program path rest to b 0 G D V A O R) as (es & out & E & W & _).
  exists es. split; [exact E|]. split; [exact W|]. cbn. congruence.
Qed.
Print Assumptions C144_cli_output_refuted.

(** Concrete cases *)
Definition sample : str := bs "int x; // <y>".
Definition sample_world (n : option nat) : world := mk_world (fun p => if list_eq_dec N.eq_dec p (bs "d/a.java") then Some (mk_stream sample None) else None) (fun p => negb (mem (ch "/") p)) n.
Example C142_case : good_path 4096 (bs "d/a.java") /\ on_disk (readable (sample_world None)) (bs "d/a.java") (Loaded sample) /\ valid_utf8 sample
  /\ accepted true (lang_from_path (bs "d/a.java")) sample /\ output_of (sample_world None) [bs "a.html"] (Some (bs "a.html"))
  /\ cli (mk_build true true) 4096 (sample_world None) [bs "ulight"; bs "d/a.java"; bs "a.html"]
     = Ok (0%N, [e_open (bs "a.html");
                 e_write (Some (bs "a.html")) (bs "<h- data-h=kw_type>int</h-> <h- data-h=name>x</h-><h- data-h=sym_punc>;</h-> <h- data-h=cmt_dlim>//</h-><h- data-h=cmt> &lt;y&gt;</h->");
                 e_close (bs "a.html")]).
Proof.
  split; [split; [cbn; lia|cbn; intuition discriminate]|]. split; [apply (od_good _ _ (mk_stream sample None)); [reflexivity|discriminate]|].
  split; [exists sample; split; [unfold sample; repeat constructor; unfold scalar_value; cbn; lia|vm_compute; reflexivity]|].
  split; [left; vm_compute; tauto|]. split; [split; reflexivity|]. vm_compute. reflexivity.
Qed.
Example C143_case : (exists m, cli (mk_build true true) 4096 (sample_world None) [bs "ulight"; bs "b.java"] = Ok (EXIT_FAILURE, [e_error m]))
  /\ (exists m, cli (mk_build true true) 4096 (sample_world None) [bs "ulight"; bs "d/a"] = Ok (EXIT_FAILURE, [e_error m]))
  /\ (exists m, cli (mk_build true true) 4096 (sample_world None) [bs "ulight"; bs "d/a.java"; bs "no/a.html"] = Ok (EXIT_FAILURE, [e_error m])).
Proof. repeat split; eexists; vm_compute; reflexivity. Qed.
Example C144_case : room (sample_world (Some 30)) = Some 30
  /\ cli (mk_build true true) 4096 (sample_world (Some 30)) [bs "ulight"; bs "d/a.java"]
     = Ok (0%N, [e_write None (bs "<h- data-h=kw_type>int</h-> <h")]).
Proof. split; [reflexivity|]. vm_compute. reflexivity. Qed.
