(** * Model of the main loop shared by several highlighters. *)
From Coq Require Import List NArith Bool Arith.
From Verif Require Import M_Base M_Emit M_Chars M_Api M_Utf8 M_Types M_Highlighter.

(** while (true) { consume_whitespace(); if (eof()) break; token }, with consume_whitespace() advancing
    over a character class: java.cpp:226-242, 257-262; python.cpp:278-299, 304-308 (there with the
    redundant loop condition !eof()). The other users cite their lines. *)
Definition token_loop {S} (ws : N -> bool) (token : M S unit) : M S unit :=
  hloop 1 (fun _ : unit =>
    let! r := get_rem in
    advance (length_if r ws) ;;
    let! e := eof in
    if e then ret (inr tt) else token ;; ret (inl tt)) tt.

(** The error token of these loops: one code point or one ill-formed sequence
    (java.cpp:238-240, python.cpp:293-297). *)
Definition emit_error_code_point {S} : M S unit :=
  let! r := get_rem in
  let! d := lift (decode_and_length_or_replacement r) in
  checkM (negb (snd d =? 0)) FAssert ;;
  emit_and_advance_c true (snd d) hl_error.

(** A chain of str.starts_with(...) ? ... : ... in the match_symbol functions of several languages: the first
    code of [l] that [s] starts with, or else [d]. *)
Definition first_of (s : str) (l : list str) (d : option str) : option str :=
  match find (starts_with s) l with Some t => Some t | None => d end.

(** The same loop with a class of code points: rust.cpp:251-269, 273-277 (there with the redundant loop condition
    !eof()). *)
Definition token_loop_utf8 {S} (ws : N -> bool) (token : M S unit) : M S unit :=
  hloop 1 (fun _ : unit =>
    let! r := get_rem in
    let! n := lift (utf8_length_if r ws) in
    advance n ;;
    let! e := eof in
    if e then ret (inr tt) else token ;; ret (inl tt)) tt.
