(** * Model of the C API entry points and of the C++ State class. *)
From Coq Require Import List NArith ZArith Bool Arith.
From Verif Require Import M_Base M_Buffer S_Tokens M_Emit M_Types M_Html M_Lang.
Import ListNotations.

(** ulight.h:177-198 (ulight_status) *)
Definition STATUS_OK : N := 0.
Definition STATUS_BAD_BUFFER : N := 1.
Definition STATUS_BAD_LANG : N := 2.
Definition STATUS_BAD_TEXT : N := 3.
Definition STATUS_BAD_STATE : N := 4.
Definition STATUS_BAD_CODE : N := 5.
Definition STATUS_BAD_ALLOC : N := 6.
Definition STATUS_INTERNAL_ERROR : N := 7.

(** ulight.h:761-806 (ulight_state). Pointers to text are [option str] (None = null, Some m =
    pointer to memory holding m); buffers, callbacks and callback data are [option nat]
    (None = null, Some a = some address). *)
Record ustate : Type := mk_ustate {
  u_source : option str;
  u_source_length : nat;
  u_lang : N;
  u_flags : N;
  u_token_buffer : option nat;
  u_token_buffer_length : nat;
  u_flush_tokens_data : option nat;
  u_flush_tokens : option nat;
  u_html_tag_name : option str;
  u_html_tag_name_length : nat;
  u_html_attr_name : option str;
  u_html_attr_name_length : nat;
  u_text_buffer : option nat;
  u_text_buffer_length : nat;
  u_flush_text_data : option nat;
  u_flush_text : option nat;
  u_error : option str;
  u_error_length : nat
}.

(** ulight.cpp:318-348 (ulight_init) *)
Definition ulight_init : ustate :=
  mk_ustate None 0 LANG_NONE 0 None 0 None None
    (Some (bs "h-")) 2 (Some (bs "data-h")) 6 None 0 None None None 0.

(** ulight.cpp:353-358 (ulight_new): [alloc_ok] says whether ulight_alloc returned memory.
    ulight_init writes through the pointer without checking it; writing through null is UB. *)
Definition ulight_new (alloc_ok : bool) : res (option ustate) :=
  let* _ := check alloc_ok FUB in Ok (Some ulight_init).

(** ulight.cpp:370-375 (error) *)
Definition set_error (st : ustate) (text : str) : ustate :=
  mk_ustate (u_source st) (u_source_length st) (u_lang st) (u_flags st)
    (u_token_buffer st) (u_token_buffer_length st) (u_flush_tokens_data st) (u_flush_tokens st)
    (u_html_tag_name st) (u_html_tag_name_length st)
    (u_html_attr_name st) (u_html_attr_name_length st)
    (u_text_buffer st) (u_text_buffer_length st) (u_flush_text_data st) (u_flush_text st)
    (Some text) (length text).

(** Assignment of the two flush_tokens members (ulight.cpp:535-536). *)
Definition set_flush_tokens (st : ustate) (data fn : option nat) : ustate :=
  mk_ustate (u_source st) (u_source_length st) (u_lang st) (u_flags st)
    (u_token_buffer st) (u_token_buffer_length st) data fn
    (u_html_tag_name st) (u_html_tag_name_length st)
    (u_html_attr_name st) (u_html_attr_name_length st)
    (u_text_buffer st) (u_text_buffer_length st) (u_flush_text_data st) (u_flush_text st)
    (u_error st) (u_error_length st).

(** Reading a (pointer, length) pair as a string view and using its characters. *)
Definition view (p : option str) (n : nat) : res str :=
  match p with
  | None => if n =? 0 then Ok [] else Fail FUB
  | Some m => let* _ := check (n <=? length m) FUB in Ok (firstn n m)
  end.

(** int(state->lang) for a 32-bit unsigned enumeration value. *)
Definition to_int (v : N) : Z :=
  if (v <? 2147483648)%N then Z.of_N v else (Z.of_N v - 4294967296)%Z.

(** ulight.cpp:21-27 (to_options) and ulight.h:200-226: coalescing and strict. *)
Definition opt_coalescing (flags : N) : bool := N.testbit flags 0.
Definition opt_strict (flags : N) : bool := N.testbit flags 1.

(** highlight.hpp:26-31 (Highlight_Fn): source and strict option to success flag and output
    operations. options.coalescing is only used by emit (see M_Emit). *)
Definition highlighter : Type := str -> bool -> res (bool * list out_op).

(** The library's compile-time configuration: exceptions enabled, debug assertions enabled. *)
Record build : Type := mk_build { with_exceptions : bool; debug : bool }.

(** highlight.hpp:76-123 (highlight). [table] is highlight_functions, with None for the null
    entry of ULIGHT_LANG_NONE; [l] has already been converted to Lang (unsigned char).
    The result is the status with the operations performed on the output. *)
Definition highlight (table : N -> option highlighter) (l : N) (src : str) (strict : bool)
  : res (N * list out_op) :=
  if (LANG_COUNT <=? l)%N then Ok (STATUS_BAD_LANG, [])
  else match table l with
       | None => Ok (STATUS_BAD_LANG, [])
       | Some h => let* r := h src strict in
                   Ok (if fst r then STATUS_OK else STATUS_BAD_CODE, snd r)
       end.

(** Outcome of a failure inside the try block (ulight.cpp:431-454 and 542-557): with exceptions
    every assertion failure and exception other than Unicode_Error and bad_alloc (which no
    modelled code throws) becomes INTERNAL_ERROR; without exceptions the process ends. Failed
    debug assertions do not stop a release build, they are undefined behaviour there. *)
Definition caught (bld : build) (st : ustate) (f : failure) : res (N * ustate) :=
  let internal := Ok (STATUS_INTERNAL_ERROR, set_error st (bs "An internal error occurred.")) in
  match f with
  | FAssert => if with_exceptions bld then internal else Fail FAssert
  | FThrow => if with_exceptions bld then internal else Fail FThrow
  | FDebugAssert => if debug bld then (if with_exceptions bld then internal else Fail FDebugAssert)
                    else Fail FUB
  | FUB => Fail FUB
  | FFuel => Fail FFuel
  end.

(** Result of an API call: status, final state, and the calls made to the flush callback;
    None when the call failed inside the highlighter, in which case the calls made before the
    failure are not modelled. *)
Definition api_result (A : Type) : Type := (N * ustate * option (list (list A)))%type.

(** The part of ulight_source_to_tokens before the highlighter runs (ulight.cpp:399-418):
    None when the state is accepted. *)
Definition tokens_precheck (st : ustate) : option (N * str) :=
  if (match u_source st with None => true | _ => false end) && negb (u_source_length st =? 0)
  then Some (STATUS_BAD_STATE, bs "source is null, but source_length is nonzero.")
  else if match u_token_buffer st with None => true | _ => false end
  then Some (STATUS_BAD_BUFFER, bs "token_buffer must not be null.")
  else if u_token_buffer_length st =? 0
  then Some (STATUS_BAD_BUFFER, bs "token_buffer_length must be nonzero.")
  else if match u_flush_tokens st with None => true | _ => false end
  then Some (STATUS_BAD_BUFFER, bs "flush_tokens must not be null.")
  else if (u_lang st =? LANG_NONE)%N || (Z.of_N LANG_COUNT <? to_int (u_lang st))%Z
  then Some (STATUS_BAD_LANG, bs "The given language (numeric value) is invalid.")
  else None.

(** ulight.cpp:420-440 (body of the try block): status and calls to the token callback. *)
Definition tokens_body (table : N -> option highlighter) (st : ustate)
  : res (N * list (list token)) :=
  let* src := view (u_source st) (u_source_length st) in
  let* b := new_buffer (u_token_buffer_length st) in
  let* r := highlight table (u_lang st mod 256)%N src (opt_strict (u_flags st)) in
  let* b := replay (opt_coalescing (u_flags st)) (length src) b (snd r) in
  let* _ := check (negb (fst r =? STATUS_BAD_LANG)%N) FAssert in
  Ok (fst r, calls (flush b)).

(** ulight.cpp:395-455 (ulight_source_to_tokens) *)
Definition source_to_tokens (bld : build) (table : N -> option highlighter) (st : ustate)
  : res (api_result token) :=
  match tokens_precheck st with
  | Some (status, text) => Ok (status, set_error st text, Some [])
  | None =>
    match tokens_body table st with
    | Ok (status, cs) => Ok (status, st, Some cs)
    | Fail f => let* r := caught bld st f in Ok (r, None)
    end
  end.

(** ulight.cpp:464-490: checks of ulight_source_to_html. *)
Definition html_precheck (st : ustate) : option (N * str) :=
  if (match u_token_buffer st with None => true | _ => false end)
     && negb (u_token_buffer_length st =? 0)
  then Some (STATUS_BAD_BUFFER, bs "token_buffer is null, but token_buffer_length is nonzero.")
  else if match u_text_buffer st with None => true | _ => false end
  then Some (STATUS_BAD_BUFFER, bs "text_buffer must not be null.")
  else if u_text_buffer_length st =? 0
  then Some (STATUS_BAD_BUFFER, bs "text_buffer_length must be nonzero.")
  else if match u_flush_text st with None => true | _ => false end
  then Some (STATUS_BAD_BUFFER, bs "flush_text must not be null.")
  else if match u_html_tag_name st with None => true | _ => false end
  then Some (STATUS_BAD_STATE, bs "html_tag_name must not be null.")
  else if u_html_tag_name_length st =? 0
  then Some (STATUS_BAD_STATE, bs "html_tag_name_length must be nonzero.")
  else if match u_html_attr_name st with None => true | _ => false end
  then Some (STATUS_BAD_STATE, bs "html_attr_name must not be null.")
  else if u_html_attr_name_length st =? 0
  then Some (STATUS_BAD_STATE, bs "html_attr_name_length must be nonzero.")
  else None.

(** Address of the local lambda installed as flush callback (ulight.cpp:532-536). *)
Definition internal_flush : nat := 0.

(** ulight.cpp:457-558 (ulight_source_to_html). The token callback only appends to the text
    buffer, so it is run on all token chunks after the highlighter; an exception it throws
    surfaces in the try block of ulight_source_to_tokens. *)
Definition source_to_html (bld : build) (table : N -> option highlighter) (st : ustate)
  : res (api_result N) :=
  match html_precheck st with
  | Some (status, text) => Ok (status, set_error st text, Some [])
  | None =>
    let st := set_flush_tokens st (Some internal_flush) (Some internal_flush) in
    let* r := source_to_tokens bld table st in
    match r with
    | (status, st', None) => Ok (status, st', None)
    | (status, st', Some cs) =>
      let* src := view (u_source st) (u_source_length st) in
      (* The tag and attribute names are only read when a token is rendered. *)
      let* tag := match cs with [] => Ok [] | _ =>
                  view (u_html_tag_name st) (u_html_tag_name_length st) end in
      let* attr := match cs with [] => Ok [] | _ =>
                   view (u_html_attr_name st) (u_html_attr_name_length st) end in
      let* out := new_buffer (u_text_buffer_length st) in
      match render_chunks tag attr src (out, 0) cs with
      | Fail f => let* r := caught bld st f in Ok (r, None)
      | Ok s =>
        if negb (status =? STATUS_OK)%N then Ok (status, st', Some (calls (fst s)))
        else match render_tail src s with
             | Ok out => Ok (STATUS_OK, st', Some (calls out))
             | Fail f => let* r := caught bld st' f in Ok (r, None)
             end
      end
    end
  end.

(** ** The C++ wrapper class State (include/ulight/ulight.hpp) *)

(** ulight.hpp:416-426 (set_source, both overloads) *)
Definition set_source (st : ustate) (s : str) : ustate :=
  mk_ustate (Some s) (length s) (u_lang st) (u_flags st)
    (u_token_buffer st) (u_token_buffer_length st) (u_flush_tokens_data st) (u_flush_tokens st)
    (u_html_tag_name st) (u_html_tag_name_length st)
    (u_html_attr_name st) (u_html_attr_name_length st)
    (u_text_buffer st) (u_text_buffer_length st) (u_flush_text_data st) (u_flush_text st)
    (u_error st) (u_error_length st).

(** ulight.hpp:434-442 (set_lang) *)
Definition set_lang (st : ustate) (l : N) : ustate :=
  mk_ustate (u_source st) (u_source_length st) l (u_flags st)
    (u_token_buffer st) (u_token_buffer_length st) (u_flush_tokens_data st) (u_flush_tokens st)
    (u_html_tag_name st) (u_html_tag_name_length st)
    (u_html_attr_name st) (u_html_attr_name_length st)
    (u_text_buffer st) (u_text_buffer_length st) (u_flush_text_data st) (u_flush_text st)
    (u_error st) (u_error_length st).

(** ulight.hpp:450-458 (set_flags) *)
Definition set_flags (st : ustate) (f : N) : ustate :=
  mk_ustate (u_source st) (u_source_length st) (u_lang st) f
    (u_token_buffer st) (u_token_buffer_length st) (u_flush_tokens_data st) (u_flush_tokens st)
    (u_html_tag_name st) (u_html_tag_name_length st)
    (u_html_attr_name st) (u_html_attr_name_length st)
    (u_text_buffer st) (u_text_buffer_length st) (u_flush_text_data st) (u_flush_text st)
    (u_error st) (u_error_length st).

(** ulight.hpp:466-470 (set_token_buffer) *)
Definition set_token_buffer (st : ustate) (p : option nat) (n : nat) : ustate :=
  mk_ustate (u_source st) (u_source_length st) (u_lang st) (u_flags st)
    p n (u_flush_tokens_data st) (u_flush_tokens st)
    (u_html_tag_name st) (u_html_tag_name_length st)
    (u_html_attr_name st) (u_html_attr_name_length st)
    (u_text_buffer st) (u_text_buffer_length st) (u_flush_text_data st) (u_flush_text st)
    (u_error st) (u_error_length st).

(** ulight.hpp:472-476 (on_flush_tokens): the Function_Ref's invoker and entity. *)
Definition on_flush_tokens (st : ustate) (entity invoker : option nat) : ustate :=
  set_flush_tokens st entity invoker.

(** ulight.hpp:478-482 (set_html_tag_name) *)
Definition set_html_tag_name (st : ustate) (s : str) : ustate :=
  mk_ustate (u_source st) (u_source_length st) (u_lang st) (u_flags st)
    (u_token_buffer st) (u_token_buffer_length st) (u_flush_tokens_data st) (u_flush_tokens st)
    (Some s) (length s)
    (u_html_attr_name st) (u_html_attr_name_length st)
    (u_text_buffer st) (u_text_buffer_length st) (u_flush_text_data st) (u_flush_text st)
    (u_error st) (u_error_length st).

(** ulight.hpp:484-488 (set_html_attr_name): assigns html_tag_name_length, not
    html_attr_name_length. *)
Definition set_html_attr_name (st : ustate) (s : str) : ustate :=
  mk_ustate (u_source st) (u_source_length st) (u_lang st) (u_flags st)
    (u_token_buffer st) (u_token_buffer_length st) (u_flush_tokens_data st) (u_flush_tokens st)
    (u_html_tag_name st) (length s)
    (Some s) (u_html_attr_name_length st)
    (u_text_buffer st) (u_text_buffer_length st) (u_flush_text_data st) (u_flush_text st)
    (u_error st) (u_error_length st).

(** ulight.hpp:490-494 (set_text_buffer) *)
Definition set_text_buffer (st : ustate) (p : option nat) (n : nat) : ustate :=
  mk_ustate (u_source st) (u_source_length st) (u_lang st) (u_flags st)
    (u_token_buffer st) (u_token_buffer_length st) (u_flush_tokens_data st) (u_flush_tokens st)
    (u_html_tag_name st) (u_html_tag_name_length st)
    (u_html_attr_name st) (u_html_attr_name_length st)
    p n (u_flush_text_data st) (u_flush_text st)
    (u_error st) (u_error_length st).

(** ulight.hpp:496-505 (on_flush_text, both overloads) *)
Definition on_flush_text (st : ustate) (data action : option nat) : ustate :=
  mk_ustate (u_source st) (u_source_length st) (u_lang st) (u_flags st)
    (u_token_buffer st) (u_token_buffer_length st) (u_flush_tokens_data st) (u_flush_tokens st)
    (u_html_tag_name st) (u_html_tag_name_length st)
    (u_html_attr_name st) (u_html_attr_name_length st)
    (u_text_buffer st) (u_text_buffer_length st) data action
    (u_error st) (u_error_length st).

(** ulight.hpp:404-414 (get_source, get_u8source) *)
Definition get_source (st : ustate) : res str := view (u_source st) (u_source_length st).
