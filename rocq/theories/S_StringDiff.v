(** * Specification of edit scripts and unified diffs, independent of the code *)
From Coq Require Import List NArith Arith.
From Verif Require Import M_Base S_Parse M_StringDiff.
Import ListNotations.

(** [transforms s a b]: the edit script [s] turns the lines [a] into the lines [b]. *)
Inductive transforms : list edit -> list str -> list str -> Prop :=
| t_nil : transforms [] [] []
| t_common x s a b : transforms s a b -> transforms (e_common :: s) (x :: a) (x :: b)
| t_del x s a b : transforms s a b -> transforms (e_del :: s) (x :: a) b
| t_ins x s a b : transforms s a b -> transforms (e_ins :: s) a (x :: b).

(** The number of deletions and insertions. *)
Fixpoint cost (s : list edit) : nat :=
  match s with
  | [] => 0
  | e_common :: s' => cost s'
  | _ :: s' => S (cost s')
  end.

(** After an insertion there is no deletion, unless a common line comes between. *)
Definition deletions_first (s : list edit) : Prop :=
  forall a b c, s = a ++ e_ins :: b ++ e_del :: c -> In e_common b.

(** ** Unified diffs *)
(** A hunk: the four numbers of its header and its lines. *)
Record hunk := mk_hunk {
  h_from_start : nat; h_from_count : nat; h_to_start : nat; h_to_count : nat;
  h_lines : list (edit * str) }.
Definition old_side (ls : list (edit * str)) : list str :=
  map snd (filter (fun l => match fst l with e_ins => false | _ => true end) ls).
Definition new_side (ls : list (edit * str)) : list str :=
  map snd (filter (fun l => match fst l with e_del => false | _ => true end) ls).

(** [patches p q hs a b]: the hunks [hs], in order and without overlap, turn the lines [a], which
    start after [p] lines of the old text, into [b], which start after [q] lines of the new text.
    Each hunk is at the line numbers its header tells, and has as many lines of each side. *)
Inductive patches : nat -> nat -> list hunk -> list str -> list str -> Prop :=
| p_end p q a : patches p q [] a a
| p_hunk p q h hs keep a b :
    h_from_start h = p + length keep + 1 -> h_to_start h = q + length keep + 1 ->
    h_from_count h = length (old_side (h_lines h)) -> h_to_count h = length (new_side (h_lines h)) ->
    patches (p + length keep + h_from_count h) (q + length keep + h_to_count h) hs a b ->
    patches p q (h :: hs) (keep ++ old_side (h_lines h) ++ a) (keep ++ new_side (h_lines h) ++ b).

(** At most [c] common lines before the first change and after the last, and never more than
    twice as many in between; at least one change. *)
Definition context_ok (c : N) (ls : list (edit * str)) : Prop :=
  (exists e, In e (map fst ls) /\ e <> e_common)
  /\ forall a k b, map fst ls = a ++ repeat e_common k ++ b ->
     (N.of_nat k <= match a, b with [], _ | _, [] => c | _, _ => 2 * c end)%N.

(** [decimal_of n t]: [t] is [n] in decimal notation without leading zeros. *)
Definition decimal_of (n : nat) (t : str) : Prop :=
  digits_value 10 t (N.of_nat n) /\ t <> [] /\ Forall (fun c => 48 <= c <= 57)%N t /\ (n <> 0 -> hd 48%N t <> 48%N) /\ (n = 0 -> t = [48%N]).

(** A line as it is shown: the tabulator, the carriage return and the vertical tabulator as escapes. *)
Definition shown_line (l : str) : str :=
  flat_map (fun c => if (c =? 9)%N then bs "\t" else if (c =? 13)%N then bs "\r" else if (c =? 11)%N then bs "\v" else [c]) l.
(** The text of a unified diff. *)
Inductive hunk_text (h : hunk) : str -> Prop :=
| ht fs fc ts tc : decimal_of (h_from_start h) fs -> decimal_of (h_from_count h) fc ->
    decimal_of (h_to_start h) ts -> decimal_of (h_to_count h) tc ->
    hunk_text h (bs "@@ -" ++ fs ++ bs "," ++ fc ++ bs " +" ++ ts ++ bs "," ++ tc ++ bs " @@" ++ [10%N]
      ++ flat_map (fun l => (match fst l with e_common => 32 | e_del => 45 | e_ins => 43 end)%N :: shown_line (snd l) ++ [10%N]) (h_lines h)).
Inductive diff_text : list hunk -> str -> Prop :=
| dt_nil : diff_text [] []
| dt_cons h hs t u : hunk_text h t -> diff_text hs u -> diff_text (h :: hs) (t ++ u).

(** Lines joined with line feeds. *)
Fixpoint join_lines (ls : list str) : str :=
  match ls with
  | [] => []
  | [l] => l
  | l :: ls' => l ++ 10%N :: join_lines ls'
  end.
