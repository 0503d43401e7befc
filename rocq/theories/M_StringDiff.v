(** * Model of include/ulight/impl/string_diff.hpp: the shortest edit script and the printed diff. *)
From Coq Require Import List NArith ZArith Bool Arith.
From Verif Require Import M_Base.
Import ListNotations.

(** string_diff.hpp:24-34 (Edit_Type) *)
Inductive edit := e_del | e_common | e_ins.
Definition is_del (e : edit) : bool := match e with e_del => true | _ => false end.
Definition is_common (e : edit) : bool := match e with e_common => true | _ => false end.

(** A loop over the indices in [l], in order. *)
Fixpoint for_each {A} (l : list nat) (f : nat -> A -> res A) (a : A) : res A :=
  match l with
  | [] => Ok a
  | i :: l' => let* a' := f i a in for_each l' f a'
  end.
(** [v[i] = x] for an index in range *)
Fixpoint list_set {A} (l : list A) (i : nat) (x : A) : list A :=
  match l, i with
  | [], _ => []
  | _ :: l', O => x :: l'
  | y :: l', S i' => y :: list_set l' i' x
  end.

Definition size_max : N := (2 ^ 64 - 1)%N.

(** string_diff.hpp:44-50: the table [f_data] of the lambda [F]; [w] is to.size() + 1. The size of
    the allocation is taken not to overflow. *)
Definition F_get (w : nat) (t : list N) (i j : nat) : res N :=
  match nth_error t (i * w + j) with Some v => Ok v | None => Fail FDebugAssert end.
Definition F_set (w : nat) (t : list N) (i j : nat) (v : N) : res (list N) :=
  if i * w + j <? length t then Ok (list_set t (i * w + j) v) else Fail FDebugAssert.
(** from[k] for an index; undefined behavior out of range *)
Definition line_at (l : list str) (k : nat) : res str :=
  match nth_error l k with Some x => Ok x | None => Fail FUB end.

(** string_diff.hpp:52-71: filling the table *)
Definition fill_cell (from to : list str) (i j : nat) (t : list N) : res (list N) :=
  let w := length to + 1 in
  let* x := line_at from (i - 1) in
  let* y := line_at to (j - 1) in
  let* d := if str_eqb x y then F_get w t (i - 1) (j - 1) else Ok size_max in
  let* u := F_get w t (i - 1) j in
  let* l := F_get w t i (j - 1) in
  F_set w t i j (N.min d (N.min ((u + 1) mod 2 ^ 64) ((l + 1) mod 2 ^ 64))).
Definition fill_table (from to : list str) : res (list N) :=
  let n := length from in
  let m := length to in
  let w := m + 1 in
  let* t := for_each (seq 0 (n + 1)) (fun i t => F_set w t i 0 (N.of_nat i)) (repeat 0%N ((n + 1) * w)) in
  let* t := for_each (seq 0 (m + 1)) (fun j t => F_set w t 0 j (N.of_nat j)) t in
  for_each (seq 1 n) (fun i t => for_each (seq 1 m) (fun j t => fill_cell from to i j t) t) t.

(** string_diff.hpp:73-91: tracing back. [acc] holds what was pushed, last push first, so that it
    is the vector after std::ranges::reverse. *)
Fixpoint trace (fuel : nat) (from to : list str) (t : list N) (i j : nat) (acc : list edit) : res (list edit) :=
  if (i =? 0) && (j =? 0) then Ok acc
  else match fuel with
  | O => Fail FFuel
  | S fuel =>
    let w := length to + 1 in
    let* same := if negb (i =? 0) && negb (j =? 0) then
                   let* x := line_at from (i - 1) in let* y := line_at to (j - 1) in Ok (str_eqb x y)
                 else Ok false in
    if same then trace fuel from to t (i - 1) (j - 1) (e_common :: acc)
    else
      let* del := if negb (i =? 0) then
                    let* a := F_get w t i j in let* b := F_get w t (i - 1) j in Ok (a =? (b + 1) mod 2 ^ 64)%N
                  else Ok false in
      if del then trace fuel from to t (i - 1) j (e_del :: acc)
      else
        (* --j with j = 0 would wrap around *)
        let* _ := check (negb (j =? 0)) FUB in
        trace fuel from to t i (j - 1) (e_ins :: acc)
  end.

(** string_diff.hpp:93-106: partitioning each block without common elements. A block holds only
    deletions and insertions, so that std::ranges::partition has one possible result. *)
Fixpoint take_while {A} (p : A -> bool) (l : list A) : list A :=
  match l with x :: l' => if p x then x :: take_while p l' else [] | [] => [] end.
Fixpoint drop_while {A} (p : A -> bool) (l : list A) : list A :=
  match l with x :: l' => if p x then drop_while p l' else l | [] => [] end.
Fixpoint partition_blocks (fuel : nat) (l : list edit) : res (list edit) :=
  match l with
  | [] => Ok []
  | _ =>
    match fuel with
    | O => Fail FFuel
    | S fuel =>
      let skipped := take_while is_common l in
      let at_mod := drop_while is_common l in
      let block := take_while (fun e => negb (is_common e)) at_mod in
      let rest := drop_while (fun e => negb (is_common e)) at_mod in
      let* r := partition_blocks fuel rest in
      Ok (skipped ++ (filter is_del block ++ filter (fun e => negb (is_del e)) block) ++ r)
    end
  end.

(** string_diff.hpp:39-109 (shortest_edit_script) *)
Definition shortest_edit_script (from to : list str) : res (list edit) :=
  let* t := fill_table from to in
  let* out := trace (length from + length to) from to t (length from) (length to) [] in
  partition_blocks (length out) out.

(** string_diff.hpp:111-121 (split_lines), appending to an empty vector: the loop finds the next line
    feed from [prev] on. *)
Fixpoint split_lines_loop (fuel : nat) (s : str) (prev : nat) (out : list str) : res (list str) :=
  match find_ch s 10 prev with
  | Some pos =>
    match fuel with
    | O => Fail FFuel
    | S fuel => split_lines_loop fuel s (pos + 1) (out ++ [substr s prev (pos - prev)])
    end
  | None => let* _ := check (prev <=? length s) FThrow in Ok (out ++ [skipn prev s])
  end.
Definition split_lines (s : str) : res (list str) := split_lines_loop (length s + 1) s 0 [].

(** ansi.hpp: the escape codes used *)
Definition ansi_reset : str := 27%N :: bs "[0m".
Definition ansi_h_yellow : str := 27%N :: bs "[0;93m".
Definition ansi_h_cyan : str := 27%N :: bs "[0;96m".
Definition ansi_h_black : str := 27%N :: bs "[0;90m".
Definition ansi_h_red : str := 27%N :: bs "[0;91m".
Definition ansi_h_green : str := 27%N :: bs "[0;92m".

(** string_diff.hpp:123-155 (print_diff_line). [dirty] is formatting_dirty. *)
Fixpoint print_diff_line (fuel : nat) (line default_formatting : str) (use_color dirty : bool) : res str :=
  match line with
  | [] => Ok []
  | _ =>
    match fuel with
    | O => Fail FFuel
    | S fuel =>
      match find_first_of line [9; 13; 11]%N 0 with
      | None => Ok ((if dirty && use_color then default_formatting else []) ++ line)
      | Some safe_length =>
        let* c := match nth_error line safe_length with Some c => Ok c | None => Fail FUB end in
        let* shown := if (c =? 9)%N then Ok (bs "\t") else if (c =? 13)%N then Ok (bs "\r")
                      else if (c =? 11)%N then Ok (bs "\v") else Fail FAssert in
        let* rest := print_diff_line fuel (skipn (safe_length + 1) line) default_formatting use_color true in
        Ok ((if negb (safe_length =? 0) && dirty && use_color then default_formatting else [])
            ++ firstn safe_length line ++ (if use_color then ansi_h_yellow else []) ++ shown ++ rest)
      end
    end
  end.

(** string_diff.hpp:168-176: the prefix line counts *)
Fixpoint prefix_counts (p : edit -> bool) (edits : list edit) (k : nat) : list nat :=
  match edits with
  | [] => [k]
  | e :: edits' => k :: prefix_counts p edits' (k + if p e then 1 else 0)
  end.
Definition not_ins (e : edit) : bool := match e with e_ins => false | _ => true end.
Definition not_del (e : edit) : bool := match e with e_del => false | _ => true end.

(** string_diff.hpp:178-184: the positions of the changes, [k] being the position of the first edit *)
Fixpoint change_positions (edits : list edit) (k : nat) : list nat :=
  match edits with
  | [] => []
  | e :: edits' => if is_common e then change_positions edits' (S k) else k :: change_positions edits' (S k)
  end.

(** string_diff.hpp:190-234: the hunks. [merge] is the inner loop: the last change of the hunk and
    the changes after it. *)
Fixpoint merge (context_size : N) (last : nat) (later : list nat) : nat * list nat :=
  match later with
  | [] => (last, [])
  | next :: later' =>
    let gap := next - last - 1 in
    if ((2 * context_size) mod 2 ^ 64 <? N.of_nat gap)%N then (last, later)
    else merge context_size next later'
  end.
(** string_diff.hpp:225-230: [spare] is n - end *)
Fixpoint extend (context_size trailing : N) (spare stop : nat) : nat :=
  match spare with
  | O => stop
  | S spare => if (trailing <? context_size)%N then extend context_size (trailing + 1) spare (S stop) else stop
  end.
Fixpoint collect_hunks (fuel : nat) (n : nat) (context_size : N) (changes : list nat) : res (list (nat * nat)) :=
  match changes with
  | [] => Ok []
  | first :: later =>
    match fuel with
    | O => Fail FFuel
    | S fuel =>
      let (last, rest) := merge context_size first later in
      let begin := N.to_nat (N.of_nat first - context_size) in
      let stop := extend context_size 0 (n - (last + 1)) (last + 1) in
      let* hs := collect_hunks fuel n context_size rest in
      Ok ((begin, stop) :: hs)
    end
  end.

(** operator<< of std::size_t *)
Fixpoint decimal_loop (fuel : nat) (n : N) (acc : str) : str :=
  match fuel with
  | O => acc
  | S fuel =>
    let acc := (48 + n mod 10)%N :: acc in
    if (n / 10 =? 0)%N then acc else decimal_loop fuel (n / 10) acc
  end.
Definition decimal (n : nat) : str := decimal_loop (S n) (N.of_nat n) [].

(** string_diff.hpp:254-290: the lines of one hunk *)
Fixpoint print_edits (from to : list str) (use_color : bool) (edits : list edit) (from_index to_index : nat) : res str :=
  match edits with
  | [] => Ok []
  | e :: edits' =>
    let color := match e with e_common => ansi_h_black | e_del => ansi_h_red | e_ins => ansi_h_green end in
    let sign := match e with e_common => 32 | e_del => 45 | e_ins => 43 end%N in
    let* line := match e with e_ins => line_at to to_index | _ => line_at from from_index end in
    let* shown := print_diff_line (length line) line color use_color false in
    let* rest := print_edits from to use_color edits'
                   (if not_ins e then from_index + 1 else from_index)
                   (if not_del e then to_index + 1 else to_index) in
    Ok ((if use_color then color else []) ++ [sign] ++ shown ++ [10%N] ++ rest)
  end.
Definition count_at (l : list nat) (k : nat) : res nat :=
  match nth_error l k with Some x => Ok x | None => Fail FUB end.
(** string_diff.hpp:237-291: one hunk *)
Definition print_hunk (from to : list str) (use_color : bool) (edits : list edit)
    (from_prefix to_prefix : list nat) (h : nat * nat) : res str :=
  let (begin, stop) := h in
  let* fb := count_at from_prefix begin in
  let* fe := count_at from_prefix stop in
  let* tb := count_at to_prefix begin in
  let* te := count_at to_prefix stop in
  let* body := print_edits from to use_color (firstn (stop - begin) (skipn begin edits)) fb tb in
  Ok ((if use_color then ansi_h_cyan else [])
      ++ bs "@@ -" ++ decimal (fb + 1) ++ bs "," ++ decimal (fe - fb)
      ++ bs " +" ++ decimal (tb + 1) ++ bs "," ++ decimal (te - tb) ++ bs " @@"
      ++ (if use_color then ansi_reset else []) ++ [10%N] ++ body).
Fixpoint concat_res (l : list (res str)) : res str :=
  match l with
  | [] => Ok []
  | r :: l' => let* a := r in let* b := concat_res l' in Ok (a ++ b)
  end.

(** string_diff.hpp:157-292 (print_diff): what is written to the stream *)
Definition print_diff (from to : list str) (context_size : N) (use_color : bool) : res str :=
  let* edits := shortest_edit_script from to in
  let n := length edits in
  let from_prefix := prefix_counts not_ins edits 0 in
  let to_prefix := prefix_counts not_del edits 0 in
  let* hunks := collect_hunks n n context_size (change_positions edits 0) in
  concat_res (map (print_hunk from to use_color edits from_prefix to_prefix) hunks).

(** string_diff.hpp:294-308 (print_lines_diff) *)
Definition print_lines_diff (from to : str) (context_size : N) (use_color : bool) : res str :=
  let* from_lines := split_lines from in
  let* to_lines := split_lines to in
  print_diff from_lines to_lines context_size use_color.
