(** * Specification: the lines of a diff and how each is highlighted. *)
From Coq Require Import List NArith Bool Arith.
From Verif Require Import M_Base M_Types.
Import ListNotations.

Definition no_line_end (l : str) : Prop := ~ In 10%N l /\ ~ In 13%N l.

(** A line terminator followed by [rest]: CRLF, LF, or CR not followed by LF. *)
Definition line_end (t rest : str) : Prop :=
  t = [13; 10]%N \/ t = [10]%N \/ (t = [13]%N /\ forall r, rest <> 10%N :: r).

(** The lines of a text starting at position [pos], with the position and content of each. *)
Inductive diff_lines : nat -> str -> list (nat * str) -> Prop :=
| dl_nil pos : diff_lines pos [] []
| dl_last pos content : content <> [] -> no_line_end content ->
    diff_lines pos content [(pos, content)]
| dl_line pos content term rest lines : no_line_end content -> line_end term rest ->
    diff_lines (pos + length content + length term) rest lines ->
    diff_lines pos (content ++ term ++ rest) ((pos, content) :: lines).

(** The highlight of a line. *)
Definition line_type (l : str) : N :=
  if starts_with l (bs "--- ") || starts_with l (bs "+++ ") || starts_with l (bs "*** ")
     || forallb (N.eqb (ch "*")) l then hl_diff_heading
  else if starts_with l (bs "@@ ") then hl_diff_heading_hunk
  else match l with
       | c :: _ => if (c =? ch "-")%N then hl_diff_deletion
                   else if (c =? ch "+")%N then hl_diff_insertion
                   else if (c =? ch "!")%N then hl_diff_modification
                   else hl_diff_common
       | [] => hl_diff_common
       end.
