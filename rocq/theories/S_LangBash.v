(** * Specification: lines of simple commands. *)
From Coq Require Import List NArith Bool Arith.
From Verif Require Import M_Base M_Types M_Emit.
Import ListNotations.

(** A character without a special meaning to the shell inside a word: no quote, backslash, dollar
    sign, white space or metacharacter. *)
Definition plain_char (c : N) : Prop := ~ In c (bs "\'$ |&;()<>") /\ ~ In c [34; 9; 10; 11; 13]%N.
Definition plain_word (w : str) : Prop :=
  w <> [] /\ Forall plain_char w /\ ~ In (hd 0%N w) (bs "#}").

(** Lines of words that are separated by blanks *)
Inductive item := Word (w : str) | Blank (b : str) | Newline.
Fixpoint render (l : list item) : str :=
  match l with [] => [] | Word w :: l => w ++ render l | Blank b :: l => b ++ render l | Newline :: l => 10%N :: render l end.
Fixpoint simple_lines (l : list item) : Prop :=
  match l with
  | [] => True
  | Word w :: l => plain_word w /\ (match l with Word _ :: _ => False | _ => True end) /\ simple_lines l
  | Blank b :: l => b <> [] /\ Forall (fun c => c = 32 \/ c = 9)%N b /\ (match l with Blank _ :: _ => False | _ => True end) /\ simple_lines l
  | Newline :: l => simple_lines l
  end.

(** The tokens a user expects, from offset [i]; [first] holds when no word of the current line has been seen:
    the first word of a line is the command, the others are options if they start with a dash and arguments
    otherwise. *)
Fixpoint expected (first : bool) (i : nat) (l : list item) : list out_op :=
  match l with
  | [] => []
  | Word w :: l =>
    OEmit i (length w) (if first then hl_name_shell_command else if (hd 0 w =? ch "-")%N then hl_name_shell_option else hl_string) false
    :: expected false (i + length w) l
  | Blank b :: l => expected first (i + length b) l
  | Newline :: l => expected true (i + 1) l
  end.
