(** * Model of the command line tool with Lua among the languages *)
From Coq Require Import List NArith Bool Arith.
From Verif Require Import M_Base M_Utf8 M_Lang M_Io M_Api M_Languages M_Cli M_LuaApi.
Import ListNotations.

(** main.cpp:66-71, as [cli_highlight] in M_Cli.v *)
Definition lua_cli_highlight (bld : build) (w : world) (to : option str) (src : str) : res (list effect) :=
  let* r := lua_source_to_html bld (cli_state LANG_LUA src) in
  let '(status, st, out) := r in
  let writes := match out with Some chunks => fwrites to (room w) chunks | None => [e_some_writes to] end in
  if (status =? STATUS_OK)%N then Ok writes
  else
    let* text := view (u_error st) (u_error_length st) in
    Ok (writes ++ [e_error (bs "Error: " ++ text ++ [10%N])]).
(** The same for every language *)
Definition any_cli_highlight (bld : build) (w : world) (to : option str) (lang : N) (src : str) : res (list effect) :=
  if (lang =? LANG_LUA)%N then lua_cli_highlight bld w to src else cli_highlight bld w to lang src.

(** main.cpp:16-72 (main), as [cli] in M_Cli.v, which has no Lua *)
Definition any_cli (bld : build) (block : nat) (w : world) (args : list str) : res (N * list effect) :=
  match args with
  | [] => Fail FAssert
  | [program] => Ok (EXIT_FAILURE, [e_error (bs "Usage: " ++ program ++ bs " INPUT_FILE [OUTPUT_FILE]" ++ [10%N])])
  | _ :: in_path :: rest =>
    let lang := lang_from_path in_path in
    if (lang =? LANG_NONE)%N
    then Ok (EXIT_FAILURE, [e_error (in_path ++ bs ": failed to recognize language from file path." ++ [10%N])])
    else
      let* input := load_utf8_file block (readable w) in_path in
      match input with
      | Not_loaded _ => Ok (EXIT_FAILURE, [e_error (in_path ++ bs ": failed to load file." ++ [10%N])])
      | Loaded src =>
        match rest with
        | [] => let* es := any_cli_highlight bld w None lang src in Ok (0%N, es)
        | out_path :: _ =>
          if negb (can_open w out_path)
          then Ok (EXIT_FAILURE, [e_error (out_path ++ bs ": failed to open file for output." ++ [10%N])] ++ closes false out_path)
          else
            let* es := any_cli_highlight bld w (Some out_path) lang src in
            Ok (0%N, [e_open out_path] ++ es ++ closes true out_path)
        end
      end
  end.
