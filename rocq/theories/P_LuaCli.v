(** * Lua files and the command line tool *)
From Coq Require Import List NArith Bool Arith Lia.
From Verif Require Import M_Base L_Base M_Chars S_Chars S_Utf8 M_Utf8 L_Utf8 L_Utf8b L_Wf8 M_Lang M_Io P_Io S_Html M_Types M_Api S_Api S_Tokens L_Api M_Languages S_Languages P_Languages M_Cli S_Cli P_Cli
  S_Json S_Lexemes L_Lexemes M_LangLua S_LangLua P_LangLua M_LuaApi P_LuaApi M_LuaCli.
Import ListNotations.

Local Opaque token_buffer_size text_buffer_size.
Lemma lua_ready src : html_ready (cli_state LANG_LUA src) /\ u_token_buffer (cli_state LANG_LUA src) <> None /\ u_token_buffer_length (cli_state LANG_LUA src) <> 0
  /\ has_source (cli_state LANG_LUA src) src
  /\ has_text (u_html_tag_name (cli_state LANG_LUA src)) (u_html_tag_name_length (cli_state LANG_LUA src)) (bs "h-")
  /\ has_text (u_html_attr_name (cli_state LANG_LUA src)) (u_html_attr_name_length (cli_state LANG_LUA src)) (bs "data-h")
  /\ u_lang (cli_state LANG_LUA src) = LANG_LUA.
Proof.
  destruct (cli_state_ready LANG_LUA src) as (R & S & L). split; [exact R|]. split; [cbn; discriminate|]. split; [exact (proj1 sizes)|]. split; [exact S|].
  split; [exists (bs "h-"); repeat split; cbn; lia|]. split; [exists (bs "data-h"); repeat split; cbn; lia|]. exact L.
Qed.

Lemma empty_comment : program lua_space lua_lexeme ([] ++ [(bs "--", Some hl_comment_delim); ([], Some hl_comment)]).
Proof.
  apply (program_lexeme _ _ [(bs "--", Some hl_comment_delim); ([], Some hl_comment)] []); [|constructor].
  apply lua_line_comment; [constructor|left; reflexivity|]. intros n v E. discriminate.
Qed.
(** ** C203: in debug builds there are Lua sources without HTML. *)
Theorem C203_lua_html_refuted : ~ (forall bld st src tag attr,
  html_ready st -> u_token_buffer st <> None -> u_token_buffer_length st <> 0 -> has_source st src ->
  has_text (u_html_tag_name st) (u_html_tag_name_length st) tag ->
  has_text (u_html_attr_name st) (u_html_attr_name_length st) attr -> u_lang st = LANG_LUA ->
  exists st' out, lua_source_to_html bld st = Ok (STATUS_OK, st', Some out)).
Proof.
  intros H. destruct (lua_ready (bs "--")) as (R & T1 & T2 & S & N1 & N2 & L).
  destruct (H (mk_build true true) _ _ _ _ R T1 T2 S N1 N2 L) as (st' & out & E).
  destruct (C203_lua_html_debug (mk_build true true) _ [] _ _ R T1 T2 empty_comment S N1 N2 L eq_refl) as (st2 & E' & _). rewrite E in E'. discriminate.
Qed.
Print Assumptions C203_lua_html_refuted.
Definition small_state : ustate := set_lang (on_flush_text (set_text_buffer (on_flush_tokens (set_token_buffer (set_source ulight_init (bs "[[]] --")) (Some 1) 2) (Some 5) (Some 6)) (Some 2) 3) (Some 3) (Some 4)) LANG_LUA.
Example C203_case : html_ready small_state /\ tokens_ready small_state /\ has_source small_state (bs "[[]] --")
  /\ (exists st' out, lua_source_to_html (mk_build true false) small_state = Ok (STATUS_OK, st', Some out) /\ html_text false (concat out) = Some (bs "[[]] --"))
  /\ (exists st', lua_source_to_html (mk_build true true) small_state = Ok (STATUS_INTERNAL_ERROR, st', None)).
Proof.
  split; [repeat split; try discriminate; cbn; lia|]. split; [repeat split; cbn; try discriminate; lia|].
  split; [right; eexists; split; [reflexivity|]; split; [cbn; lia|reflexivity]|]. split; [do 2 eexists; split; vm_compute; reflexivity|eexists; vm_compute; reflexivity].
Qed.

(** ** C204: the tool *)
Lemma lua_cli_loaded bld block w program path rest to b : good_path block path -> on_disk (readable w) path (Loaded b) -> valid_utf8 b ->
  lang_from_path path = LANG_LUA -> output_of w rest to ->
  any_cli bld block w (program :: path :: rest) = (let* es := lua_cli_highlight bld w to b in
    Ok (0%N, match to with None => es | Some out => [e_open out] ++ es ++ [e_close out] end)).
Proof.
  intros G D V L O. unfold any_cli. rewrite L. change (LANG_LUA =? LANG_NONE)%N with false. rewrite (loads _ _ _ _ G D V). cbn [bind].
  destruct rest as [|out more]; cbn in O; [subst to; reflexivity|]. destruct O as [-> O]. rewrite O. reflexivity.
Qed.
Theorem C204_cli_lua_partial : forall bld block w program path rest to b,
  good_path block path -> on_disk (readable w) path (Loaded b) -> valid_utf8 b -> lang_from_path path = LANG_LUA -> debug bld = false ->
  output_of w rest to -> room w = None ->
  exists es out, any_cli bld block w (program :: path :: rest) = Ok (0%N, es) /\ writes_exactly to out es
    /\ html_text false out = Some b /\ html_doc (bs "h-") (bs "data-h") (fun id => exists t, id = short_string t) out.
Proof.
  intros bld block w program path rest to b G D V L Db O R. destruct (lua_ready b) as (HR & T1 & T2 & S & N1 & N2 & HL).
  destruct (C203_lua_html_partial bld _ b _ _ HR T1 T2 S N1 N2) as (st' & out & E & H1 & H2 & _); [cbn; intuition discriminate|cbn; intuition discriminate|exact HL|left; exact Db|].
  destruct (fwrites_all to out) as (F1 & F2 & F3). rewrite (lua_cli_loaded bld block w program path rest to b G D V L O). unfold lua_cli_highlight. rewrite E. cbn [bind].
  rewrite N.eqb_refl. cbn [bind]. rewrite R. eexists _, (concat out). split; [reflexivity|]. split; [|split; assumption]. exists (fwrites to None out). repeat split; assumption.
Qed.
Print Assumptions C204_cli_lua_partial.
Theorem C204_cli_others : forall bld block w args, (forall program path rest, args = program :: path :: rest -> lang_from_path path <> LANG_LUA) ->
  any_cli bld block w args = cli bld block w args.
Proof.
  intros bld block w [|program [|path rest]] H; [reflexivity|reflexivity|]. specialize (H program path rest eq_refl). apply N.eqb_neq in H.
  unfold any_cli, cli, any_cli_highlight. rewrite H. reflexivity.
Qed.
Print Assumptions C204_cli_others.
(** In debug builds, a file that ends with a comment without text is reported as an error, with the exit status of success. *)
Theorem C204_cli_lua_debug : forall block w program path rest to l,
  good_path block path -> on_disk (readable w) path (Loaded (text l ++ bs "--")) -> valid_utf8 (text l ++ bs "--") -> lang_from_path path = LANG_LUA ->
  S_Lexemes.program lua_space lua_lexeme (l ++ [(bs "--", Some hl_comment_delim); ([], Some hl_comment)]) ->
  output_of w rest to ->
  any_cli (mk_build true true) block w (program :: path :: rest) = Ok (0%N,
    (let es := [e_some_writes to; e_error (bs "Error: An internal error occurred." ++ [10%N])] in match to with None => es | Some out => [e_open out] ++ es ++ [e_close out] end)).
Proof.
  intros block w program path rest to l G D V L P O. destruct (lua_ready (text l ++ bs "--")) as (HR & T1 & T2 & S & N1 & N2 & HL).
  rewrite (lua_cli_loaded _ block w program path rest to _ G D V L O).
  destruct (C203_lua_html_debug (mk_build true true) _ l _ _ HR T1 T2 P S N1 N2 HL eq_refl) as (st' & E & T).
  unfold lua_cli_highlight. rewrite E. cbn [bind]. change (STATUS_INTERNAL_ERROR =? STATUS_OK)%N with false. rewrite (has_text_view _ _ _ T). cbn [bind]. reflexivity.
Qed.
Print Assumptions C204_cli_lua_debug.
(** A script that ends in a comment without text *)
Definition script : str := bs "f" ++ [10%N] ++ bs "--".
Definition script_world : world := mk_world (fun p => if list_eq_dec N.eq_dec p (bs "a.lua") then Some (mk_stream script None) else None) (fun _ => true) None.
Example C204_case : lang_from_path (bs "a.lua") = LANG_LUA /\ exists l, text l ++ bs "--" = script
  /\ S_Lexemes.program lua_space lua_lexeme (l ++ [(bs "--", Some hl_comment_delim); ([], Some hl_comment)])
  /\ on_disk (readable script_world) (bs "a.lua") (Loaded script) /\ output_of script_world [] None.
Proof.
  split; [vm_compute; reflexivity|]. exists [(bs "f", Some hl_name); ([10%N], None)]. split; [reflexivity|]. split; [|split; [|reflexivity]].
  - apply (program_lexeme _ _ [(bs "f", Some hl_name)] _); [|apply (program_space _ _ [10%N]); [repeat constructor; cbn; tauto|exact empty_comment]].
    apply lua_name; [|intros h Hh; cbv in Hh; intuition discriminate|].
    + exists 102%N, []. split; [reflexivity|]. split; [|constructor]. left. unfold letter. lia.
    + intros c [= <-] H. unfold ident_or_non_ascii, ident_char, letter, digit in H. lia.
  - apply (od_good _ _ (mk_stream script None)); [reflexivity|discriminate].
Qed.
Example C204_release : good_path 4096 (bs "a.lua") /\ valid_utf8 script
  /\ any_cli (mk_build true false) 4096 script_world [bs "ulight"; bs "a.lua"]
     = Ok (0%N, [e_write None (bs "<h- data-h=name>f</h->" ++ [10%N] ++ bs "<h- data-h=cmt_dlim>--</h-><h- data-h=cmt></h->")]).
Proof.
  split; [split; [cbn; lia|cbn; intuition discriminate]|]. split; [exists script; split; [unfold script; repeat constructor; unfold scalar_value; cbn; lia|vm_compute; reflexivity]|].
  vm_compute. reflexivity.
Qed.
