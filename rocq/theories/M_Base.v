(** * Base definitions of the model: code units, strings, outcomes. *)
From Coq Require Import List NArith Bool Arith Ascii.
From Coq Require String.
String Notation String.string String.string_of_list_byte String.list_byte_of_string : string_scope.
Bind Scope string_scope with String.string.
Import ListNotations.

(** A code unit ([char], [char8_t]) or code point ([char32_t]); a string view. *)
Definition str := list N.

(** String literal notation for the model: the code units of an ASCII literal. *)
Definition bs (s : String.string) : str := map N_of_ascii (String.list_ascii_of_string s).
Definition ch (s : String.string) : N := hd 0%N (bs s).

(** The ways in which an execution of the C++ code can go wrong.
    include/ulight/impl/assert.hpp:55-83 ([ULIGHT_ASSERT], [ULIGHT_ASSERT_UNREACHABLE],
    [ULIGHT_DEBUG_ASSERT], [ULIGHT_DEBUG_ASSERT_UNREACHABLE]); [FUB] is undefined behaviour
    (out-of-range read, remove_prefix beyond the end); [FThrow] is std::out_of_range
    thrown by [substr]; [FFuel] is exhaustion of the model's recursion fuel and is
    no behaviour of the code: theorems exclude it. *)
Inductive failure := FAssert | FDebugAssert | FUB | FThrow | FFuel.

Inductive res (A : Type) : Type :=
| Ok (a : A)
| Fail (f : failure).
Arguments Ok {A} a.
Arguments Fail {A} f.

Definition bind {A B} (m : res A) (k : A -> res B) : res B :=
  match m with Ok a => k a | Fail f => Fail f end.

Declare Scope res_scope.
Delimit Scope res_scope with res.
Notation "'let*' x ':=' m 'in' k" := (bind m (fun x => k))
  (at level 200, x pattern, right associativity) : res_scope.
Open Scope res_scope.

Definition check (b : bool) (f : failure) : res unit := if b then Ok tt else Fail f.

(** ** [std::basic_string_view] operations used by the code. *)

Fixpoint str_eqb (a b : str) : bool :=
  match a, b with
  | [], [] => true
  | x :: a', y :: b' => (x =? y)%N && str_eqb a' b'
  | _, _ => false
  end.

(** [operator<] on string views: lexicographic by unsigned code unit, shorter first. *)
Fixpoint str_ltb (a b : str) : bool :=
  match a, b with
  | _, [] => false
  | [], _ :: _ => true
  | x :: a', y :: b' => (x <? y)%N || ((x =? y)%N && str_ltb a' b')
  end.

(** [s.starts_with(p)] *)
Fixpoint starts_with (s p : str) {struct p} : bool :=
  match p, s with
  | [], _ => true
  | y :: p', x :: s' => (x =? y)%N && starts_with s' p'
  | _ :: _, [] => false
  end.

(** [s.starts_with(c)] *)
Definition starts_with_ch (s : str) (c : N) : bool :=
  match s with x :: _ => (x =? c)%N | [] => false end.

(** First index whose code unit satisfies [p]; [None] is [npos]. *)
Fixpoint find_if (p : N -> bool) (s : str) : option nat :=
  match s with
  | [] => None
  | x :: s' => if p x then Some 0 else option_map S (find_if p s')
  end.

(** The same search starting at position [start]: [s.find(c, start)] and friends
    (for [start > length] the standard library also answers [npos]). *)
Definition find_if_from (p : N -> bool) (s : str) (start : nat) : option nat :=
  option_map (fun i => start + i) (find_if p (skipn start s)).

Definition find_ch (s : str) (c : N) (start : nat) : option nat :=
  find_if_from (fun x => (x =? c)%N) s start.

Definition mem (c : N) (set : str) : bool := existsb (fun x => (x =? c)%N) set.

Definition find_first_of (s set : str) (start : nat) : option nat :=
  find_if_from (fun c => mem c set) s start.

Definition find_first_not_of (s set : str) (start : nat) : option nat :=
  find_if_from (fun c => negb (mem c set)) s start.

(** [s.find(needle, start)] *)
Fixpoint find_sub (s needle : str) : option nat :=
  if starts_with s needle then Some 0 else
  match s with
  | [] => None
  | _ :: s' => option_map S (find_sub s' needle)
  end.
Definition find_str (s needle : str) (start : nat) : option nat :=
  if (length s <? start)%nat then None
  else option_map (fun i => start + i) (find_sub (skipn start s) needle).

(** [s.find_last_of(c)] *)
Fixpoint find_last (c : N) (s : str) : option nat :=
  match s with
  | [] => None
  | x :: s' =>
    match find_last c s' with
    | Some i => Some (S i)
    | None => if (x =? c)%N then Some 0 else None
    end
  end.

(** [s.substr(pos, len)] for [pos <= s.length()]. *)
Definition substr (s : str) (pos len : nat) : str := firstn len (skipn pos s).

(** Length of the longest prefix all of whose units satisfy [p]. *)
Fixpoint prefix_len (p : N -> bool) (s : str) : nat :=
  match s with
  | [] => 0
  | x :: s' => if p x then S (prefix_len p s') else 0
  end.

(** A byte string: all code units below 256. *)
Definition bytes (s : str) : Prop := Forall (fun c => (c < 256)%N) s.
