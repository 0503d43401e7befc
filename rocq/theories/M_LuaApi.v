(** * Model of the C API entry points when the language is Lua, and of the check of tokens in debug builds *)
From Coq Require Import List NArith Bool Arith.
From Verif Require Import M_Base M_Buffer S_Tokens M_Emit M_Types M_Html M_Lang M_Api M_LangLua.
Import ListNotations.

(** ulight.cpp:420-440 (body of the try block) with the entry highlight_lua of highlight_functions (highlight.hpp:84-113), which
    writes to the buffer itself. Simplification: the buffer is made after the highlighter has run. *)
Definition lua_tokens_body (st : ustate) : res (N * list (list token)) :=
  let* src := view (u_source st) (u_source_length st) in
  let* r := highlight_lua src (opt_strict (u_flags st)) in
  let* cs := lua_output (opt_coalescing (u_flags st)) (u_token_buffer_length st) (snd r) in
  Ok (if fst r then STATUS_OK else STATUS_BAD_CODE, cs).

(** ulight.cpp:395-455 (ulight_source_to_tokens), as [source_to_tokens] in M_Api.v *)
Definition lua_source_to_tokens (bld : build) (st : ustate) : res (api_result token) :=
  match tokens_precheck st with
  | Some (status, text) => Ok (status, set_error st text, Some [])
  | None =>
    match lua_tokens_body st with
    | Ok (status, cs) => Ok (status, st, Some cs)
    | Fail f => let* r := caught bld st f in Ok (r, None)
    end
  end.

(** ulight.cpp:500-531 (the flush_text lambda). The tokens are checked by ULIGHT_ASSERT, in builds without NDEBUG only
    (ulight.cpp:502-504). [render_chunk] in M_Html.v has the check in every build. *)
Definition render_chunk_in (dbg : bool) (tag attr src : str) (st : buffer N * nat) (ts : list token) : res (buffer N * nat) :=
  let* _ := check (negb dbg || check_flush_validity (length src) ts) FAssert in
  render_tokens tag attr src st ts.
Fixpoint render_chunks_in (dbg : bool) (tag attr src : str) (st : buffer N * nat) (cs : list (list token)) : res (buffer N * nat) :=
  match cs with
  | [] => Ok st
  | c :: r => let* st := render_chunk_in dbg tag attr src st c in render_chunks_in dbg tag attr src st r
  end.

(** ulight.cpp:457-558 (ulight_source_to_html), as [source_to_html] in M_Api.v *)
Definition lua_source_to_html (bld : build) (st : ustate) : res (api_result N) :=
  match html_precheck st with
  | Some (status, text) => Ok (status, set_error st text, Some [])
  | None =>
    let st := set_flush_tokens st (Some internal_flush) (Some internal_flush) in
    let* r := lua_source_to_tokens bld st in
    match r with
    | (status, st', None) => Ok (status, st', None)
    | (status, st', Some cs) =>
      let* src := view (u_source st) (u_source_length st) in
      let* tag := match cs with [] => Ok [] | _ => view (u_html_tag_name st) (u_html_tag_name_length st) end in
      let* attr := match cs with [] => Ok [] | _ => view (u_html_attr_name st) (u_html_attr_name_length st) end in
      let* out := new_buffer (u_text_buffer_length st) in
      match render_chunks_in (debug bld) tag attr src (out, 0) cs with
      | Fail f => let* r := caught bld st f in Ok (r, None)
      | Ok s =>
        if negb (status =? STATUS_OK)%N then Ok (status, st', Some (calls (fst s)))
        else match render_tail src s with
             | Ok out => Ok (STATUS_OK, st', Some (calls out))
             | Fail f => let* r := caught bld st' f in Ok (r, None)
             end
      end
    end
  end.
