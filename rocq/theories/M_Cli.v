(** * Model of the command line tool (src/main/cpp/main.cpp) *)
From Coq Require Import List NArith Bool Arith.
From Verif Require Import M_Base M_Utf8 M_Lang M_Io M_Api M_Languages.
Import ListNotations.

(** What the tool does, as seen from outside. [to] is None for stdout and Some path for the file opened by the tool. *)
Inductive effect : Type :=
| e_error (message : str)                  (* text written to stderr *)
| e_open (path : str)                      (* std::fopen(path, "wb") succeeded: the file exists and is empty *)
| e_write (to : option str) (bytes : str)  (* bytes accepted by the output *)
| e_some_writes (to : option str)          (* some unknown writes, before a failure inside the highlighter, see [api_result] *)
| e_close (path : str).                    (* std::fclose *)

(** The world: the files that can be read, the names that std::fopen can open for writing, and how many bytes the output
    accepts (None: all). *)
Record world : Type := mk_world { readable : disk; can_open : str -> bool; room : option nat }.

(** std::fwrite(str, 1, length, file) writes as much as fits; its result is ignored (main.cpp:61-63). *)
Fixpoint fwrites (to : option str) (room : option nat) (chunks : list str) : list effect :=
  match chunks with
  | [] => []
  | c :: r =>
    let fit := match room with None => c | Some n => firstn n c end in
    e_write to fit :: fwrites to (match room with None => None | Some n => Some (n - length fit) end) r
  end.

(** main.cpp:38-48, and the end of the lifetimes of the temporary and of unique_out, as a history of handles (M_Io.v). What
    is closed is the file named [path], as it is the only one that is opened. *)
Definition closes (opened : bool) (path : str) : list effect :=
  match perform_all [op_default; if opened then op_open else op_default; op_move_assign 0 1; op_destroy 1; op_destroy 0] no_files with
  | Some st => map (fun _ => e_close path) (closed st)
  | None => []
  end.

(** main.cpp:54-55: the sizes of the buffers *)
Definition token_buffer_size : nat := 1024.
Definition text_buffer_size : nat := 1024 * 32.
(** main.cpp:50-64: the state. The two buffers are at some addresses, so is the function made from the lambda; its data is
    the FILE. Simplification: when the file is empty, the pointer to the source may be null in the code. *)
Definition cli_state (lang : N) (src : str) : ustate :=
  on_flush_text
    (set_text_buffer (set_token_buffer (set_lang (set_source ulight_init src) lang) (Some 1) token_buffer_size) (Some 2) text_buffer_size)
    (Some 3) (Some 4).

(** main.cpp:66-71 *)
Definition cli_highlight (bld : build) (w : world) (to : option str) (lang : N) (src : str) : res (list effect) :=
  let* r := source_to_html bld (highlight_functions (debug bld)) (cli_state lang src) in
  let '(status, st, out) := r in
  let writes := match out with Some chunks => fwrites to (room w) chunks | None => [e_some_writes to] end in
  if (status =? STATUS_OK)%N then Ok writes
  else
    let* text := view (u_error st) (u_error_length st) in
    Ok (writes ++ [e_error (bs "Error: " ++ text ++ [10%N])]).

Definition EXIT_FAILURE : N := 1.

(** main.cpp:16-72 (main): the exit status and the effects. [args] are the arguments with the name of the program. [block]
    is BUFSIZ. A failure is an abnormal end of the process (or undefined behavior). Simplification: there is no entry for
    Lua in [highlight_functions]. *)
Definition cli (bld : build) (block : nat) (w : world) (args : list str) : res (N * list effect) :=
  match args with
  | [] => Fail FAssert
  | [program] => Ok (EXIT_FAILURE, [e_error (bs "Usage: " ++ program ++ bs " INPUT_FILE [OUTPUT_FILE]" ++ [10%N])])
  | _ :: in_path :: rest =>
    let lang := lang_from_path in_path in
    if (lang =? LANG_NONE)%N
    then Ok (EXIT_FAILURE, [e_error (in_path ++ bs ": failed to recognize language from file path." ++ [10%N])])
    else
      let* input := load_utf8_file block (readable w) in_path in
      match input with
      | Not_loaded _ => Ok (EXIT_FAILURE, [e_error (in_path ++ bs ": failed to load file." ++ [10%N])])
      | Loaded src =>
        match rest with
        | [] => let* es := cli_highlight bld w None lang src in Ok (0%N, es)
        | out_path :: _ =>
          if negb (can_open w out_path)
          then Ok (EXIT_FAILURE, [e_error (out_path ++ bs ": failed to open file for output." ++ [10%N])] ++ closes false out_path)
          else
            let* es := cli_highlight bld w (Some out_path) lang src in
            Ok (0%N, [e_open out_path] ++ es ++ closes true out_path)
        end
      end
  end.
