(** * Model of the parsing helpers (src/main/cpp/parse_utils.cpp, include/ulight/impl/parse_utils.hpp,
    include/ulight/impl/numbers.hpp, include/ulight/impl/escapes.hpp). *)
From Coq Require Import List NArith ZArith Bool Arith.
From Verif Require Import M_Base M_Chars.
Import ListNotations.

(** lang/html.hpp:81 (is_html_whitespace) *)
Definition is_html_whitespace (c : N) : bool :=
  ((c =? 32) || (c =? 9) || (c =? 10) || (c =? 12) || (c =? 13))%N.

(** ** Blank lines *)

(** parse_utils.cpp:22-29 (State) *)
Inductive blank_state := maybe_blank | not_blank | blank.

(** parse_utils.cpp:32-65: the loop, at index [i] with [s] the text from there on. blank_end is
    only read in state blank, where it has been assigned; it starts as 0 here. Result: begin and
    length, (0, 0) when there is none. *)
Fixpoint blank_loop (st : blank_state) (blank_begin blank_end i : nat) (s : str) : nat * nat :=
  match s with
  | [] => match st with
          | blank => (blank_begin, i - blank_begin)
          | _ => (0, 0)
          end
  | c :: s' =>
    match st with
    | maybe_blank =>
      if N.eqb c 10 then blank_loop blank blank_begin (i + 1) (i + 1) s'
      else if negb (is_html_whitespace c) then blank_loop not_blank blank_begin blank_end (i + 1) s'
      else blank_loop maybe_blank blank_begin blank_end (i + 1) s'
    | not_blank =>
      if N.eqb c 10 then blank_loop maybe_blank (i + 1) blank_end (i + 1) s'
      else blank_loop not_blank blank_begin blank_end (i + 1) s'
    | blank =>
      if N.eqb c 10 then blank_loop blank blank_begin (i + 1) (i + 1) s'
      else if negb (is_html_whitespace c) then (blank_begin, blank_end - blank_begin)
      else blank_loop blank blank_begin blank_end (i + 1) s'
    end
  end.

(** parse_utils.cpp:19-72 (find_blank_line_sequence) *)
Definition find_blank_line_sequence (s : str) : nat * nat := blank_loop maybe_blank 0 0 0 s.

(** ** Lines and enclosed spans *)

(** parse_utils.cpp:90-99 (match_crlf_line): content length and terminator length *)
Definition match_crlf_line (s : str) : nat * nat :=
  match find_first_of s [13; 10]%N 0 with
  | None => (length s, 0)
  | Some n => (n, if N.eqb (nth n s 0%N) 13 && (n + 1 <? length s) && N.eqb (nth (n + 1) s 0%N) 10
                  then 2 else 1)
  end.

(** parse_utils.hpp:55-68 (Enclosed_Result): length and is_terminated *)
Record enclosed := mk_enclosed { en_length : nat; en_terminated : bool }.

(** parse_utils.hpp:82-117 (match_enclosed); the overload with characters is the one with
    one-element strings. *)
Definition match_enclosed (s prefix suffix : str) : enclosed :=
  if negb (starts_with s prefix) then mk_enclosed 0 false
  else match find_str s suffix (length prefix) with
       | None => mk_enclosed (length s) false
       | Some i => mk_enclosed (i + length suffix) true
       end.

(** ** Integer literals *)

(** Value of a digit in the usual notation. *)
Definition digit_val (c : N) : N :=
  (if between 48 57 c then c - 48 else if between 97 122 c then c - 87 else c - 55)%N.

(** std::from_chars for unsigned long long: the longest run of digits of the base (letters of
    either case), no sign and no prefix; fails when there is none or the value needs more than
    64 bits. *)
Definition from_chars_ull (s : str) (base : N) : option N :=
  let n := prefix_len (fun c => is_ascii_digit_base c (Z.of_N base)) s in
  if n =? 0 then None
  else let v := fold_left (fun acc c => acc * base + digit_val c)%N (firstn n s) 0%N in
       if (v <? 2 ^ 64)%N then Some v else None.

(** parse_utils.cpp:76-86 (parse_uinteger_digits) *)
Definition parse_uinteger_digits (s : str) (base : N) : option N := from_chars_ull s base.

(** parse_utils.cpp:101-116 (parse_uinteger_literal) *)
Definition parse_uinteger_literal (s : str) : option N :=
  match s with
  | [] => None
  | _ =>
    if starts_with s (bs "0b") then parse_uinteger_digits (skipn 2 s) 2
    else if starts_with s (bs "0x") then parse_uinteger_digits (skipn 2 s) 16
    else if starts_with_ch s 48 then parse_uinteger_digits s 8
    else parse_uinteger_digits s 10
  end.

(** static_cast<long long> of an unsigned 64-bit value *)
Definition to_int64 (v : N) : Z :=
  if (v <? 2 ^ 63)%N then Z.of_N v else (Z.of_N v - 2 ^ 64)%Z.

(** parse_utils.cpp:118-134 (parse_integer_literal) *)
Definition parse_integer_literal (s : str) : option Z :=
  match s with
  | [] => None
  | _ =>
    if starts_with_ch s 45 then
      match parse_uinteger_literal (skipn 1 s) with
      | Some p => Some (to_int64 ((2 ^ 64 - p) mod 2 ^ 64)%N)
      | None => None
      end
    else match parse_uinteger_literal s with
         | Some r => Some (to_int64 r)
         | None => None
         end
  end.

(** ** Digits *)

(** parse_utils.cpp:136-140 (match_digits) *)
Definition match_digits (s : str) (base : Z) : nat :=
  length_if s (fun c => is_ascii_digit_base c base).

(** parse_utils.cpp:149-163: the predicate with its captured state, and the scan of length_if.
    Result: matched length and erroneous. *)
Fixpoint separated_loop (s : str) (base : Z) (sep previous : N) (err : bool) : nat * bool :=
  match s with
  | [] => (0, err || (previous =? sep)%N)
  | c :: s' =>
    if (c =? sep)%N then
      let r := separated_loop s' base sep c (err || (previous =? sep)%N) in (S (fst r), snd r)
    else if is_ascii_digit_base c base then
      let r := separated_loop s' base sep c err in (S (fst r), snd r)
    else (0, err || (c =? sep)%N)
  end.

(** parse_utils.cpp:142-163 (match_separated_digits) *)
Definition match_separated_digits (s : str) (base : Z) (sep : N) : nat * bool :=
  if (sep =? 0)%N then (match_digits s base, false)
  else separated_loop s base sep sep false.

(** ** Numbers *)

(** numbers.hpp:57-68 (Number_Prefix): string, base, floating_point *)
Record number_prefix := mk_prefix { np_str : str; np_base : Z; np_float : bool }.

(** numbers.hpp:75-104 (Common_Number_Options). An unset match_suffix is None. *)
Record number_options := mk_number_options {
  no_minus : bool;
  no_plus : bool;
  no_prefixes : list number_prefix;
  no_exponents : list (str * Z);
  no_suffixes : list str;
  no_match_suffix : option (str -> nat);
  no_base : Z;
  no_zero_base : Z;
  no_separator : N;
  no_nonempty_integer : bool;
  no_nonempty_fraction : bool
}.

(** numbers.hpp:106-179 (Common_Number_Result) *)
Record number_result := mk_number {
  nr_length : nat;
  nr_sign : nat;
  nr_prefix : nat;
  nr_integer : nat;
  nr_radix_point : nat;
  nr_fractional : nat;
  nr_exponent_sep : nat;
  nr_exponent_digits : nat;
  nr_suffix : nat;
  nr_erroneous : bool
}.
Definition no_number : number_result := mk_number 0 0 0 0 0 0 0 0 0 false.

(** numbers.hpp:170-178 (is_non_integer) *)
Definition nr_is_non_integer (r : number_result) : bool :=
  negb (nr_radix_point r =? 0) || negb (nr_exponent_sep r =? 0) || negb (nr_exponent_digits r =? 0).

(** parse_utils.cpp:183-195: prefix length, allow_float and base *)
Fixpoint number_base (o : number_options) (s : str) (ps : list number_prefix)
  : res (nat * bool * Z) :=
  match ps with
  | [] => Ok (0, true, if starts_with_ch s 48 then no_zero_base o else no_base o)
  | p :: ps =>
    let* _ := check (negb (length (np_str p) =? 0)) FDebugAssert in
    if starts_with s (np_str p) then Ok (length (np_str p), np_float p, np_base p)
    else number_base o s ps
  end.

(** parse_utils.cpp:230-242: the first matching exponent separator; result: separator length,
    digits, error. The base of the separator is not used by the code. *)
Fixpoint number_exponent (s : str) (es : list (str * Z)) : nat * nat * bool :=
  match es with
  | [] => (0, 0, false)
  | e :: es =>
    if starts_with s (fst e) then
      let d := match_digits (skipn (length (fst e)) s) 10 in (length (fst e), d, d =? 0)
    else number_exponent s es
  end.

(** parse_utils.cpp:247-254 *)
Fixpoint number_suffix (s : str) (l : list str) : nat :=
  match l with
  | [] => 0
  | x :: l => if starts_with s x then length x else number_suffix s l
  end.

(** parse_utils.cpp:165-270 (match_common_number) *)
Definition match_common_number (s : str) (o : number_options) : res number_result :=
  let* _ := check (match no_suffixes o, no_match_suffix o with
                   | [], _ => true | _, None => true | _, Some _ => false end) FAssert in
  match s with
  | [] => Ok no_number
  | _ =>
    let sign := if (no_plus o && starts_with_ch s 43) || (no_minus o && starts_with_ch s 45)
                then 1 else 0 in
    let* pb := number_base o (skipn sign s) (no_prefixes o) in
    let '(prefix, allow_float, base) := pb in
    let length1 := sign + prefix in
    let '(integer, integer_error) :=
      match_separated_digits (skipn length1 s) base (no_separator o) in
    let err := no_nonempty_integer o && (integer =? 0) || integer_error in
    let length2 := length1 + integer in
    let dot := allow_float && starts_with_ch (skipn length2 s) 46 in
    let '(fractional, fractional_error) :=
      if dot then match_separated_digits (skipn (length2 + 1) s) base (no_separator o)
      else (0, false) in
    if dot && (prefix =? 0) && (integer =? 0)
       && ((length s <=? length2 + 1) || negb (is_ascii_digit (nth (length2 + 1) s 0%N)))
    then Ok no_number
    else
      let err := err || (dot && no_nonempty_fraction o && (fractional =? 0)) || fractional_error in
      let radix_point := if dot then 1 else 0 in
      let length3 := length2 + radix_point + fractional in
      if length3 =? 0 then Ok no_number
      else
        let '(exp_sep, exp_digits, exp_error) :=
          if allow_float && (length3 <? length s)
          then number_exponent (skipn length3 s) (no_exponents o) else (0, 0, false) in
        let length4 := length3 + exp_sep + exp_digits in
        let suffix :=
          if length4 <? length s then
            match no_suffixes o with
            | [] => match no_match_suffix o with
                    | Some f => f (skipn length4 s)
                    | None => 0
                    end
            | l => number_suffix (skipn length4 s) l
            end
          else 0 in
        let len := length4 + suffix in
        let* _ := check (sign + prefix + integer + radix_point + fractional + exp_sep + exp_digits
                         + suffix =? len) FDebugAssert in
        Ok (mk_number len sign prefix integer radix_point fractional exp_sep exp_digits suffix
              (err || exp_error || (prefix =? len)))
  end.

(** numbers.hpp:185-211 (Suffix_Number_Result, Base_Suffix) *)
Record suffix_number := mk_suffix_number {
  sn_digits : nat; sn_suffix : nat; sn_base : Z; sn_erroneous : bool }.
Definition no_suffix_number : suffix_number := mk_suffix_number 0 0 0 false.

(** parse_utils.cpp:295-313: the loop of match_suffix_number over the digits; [previous] is
    number[i - 1], None for i = 0. *)
Fixpoint suffix_digits_bad (l : str) (previous : option N) (sep : N) (base : Z) : bool :=
  match l with
  | [] => false
  | c :: l' =>
    let digit_value := (if between 65 90 c then Z.of_N c - 65 + 10
                        else if between 97 122 c then Z.of_N c - 97 + 10
                        else Z.of_N c - 48)%Z in
    if (base <=? digit_value)%Z then true
    else if negb (sep =? 0)%N && (c =? sep)%N
            && match previous with Some p => (p =? sep)%N | None => false end then true
    else suffix_digits_bad l' (Some c) sep base
  end.

(** parse_utils.cpp:272-329 (match_suffix_number). [determine_suffix] gives length and base. *)
Definition match_suffix_number (s : str) (determine_suffix : str -> nat * Z) (sep : N)
  : suffix_number :=
  let len := length_if s (fun c => (sep =? 0)%N || (c =? sep)%N || is_ascii_alphanumeric c) in
  if len <=? 1 then no_suffix_number
  else
    let number := firstn len s in
    let '(slen, base) := determine_suffix number in
    if (slen =? 0) || (len =? slen) then no_suffix_number
    else
      let erroneous := suffix_digits_bad (firstn (len - slen) number) None sep base in
      if erroneous && negb (is_ascii_digit (nth 0 number 0%N)) then no_suffix_number
      else mk_suffix_number (len - slen) slen base erroneous.

(** ** Escape sequences *)

(** escapes.hpp:30-55 (Common_Escape) *)
Inductive escape_kind :=
| octal_1_to_2 | octal_1_to_3 | octal_3 | octal_braced
| hex_1_to_2 | hex_1_to_inf | hex_2 | hex_4 | hex_8
| nonempty_braced | hex_braced | lf_cr_crlf.

(** escapes.hpp:15-28 (Escape_Result) *)
Record escape := mk_escape { es_length : nat; es_erroneous : bool }.

(** escapes.hpp:57-78 (escape_type_min_length) *)
Definition escape_type_min_length (k : escape_kind) : nat :=
  match k with
  | octal_1_to_2 | octal_1_to_3 | hex_1_to_2 | hex_1_to_inf | lf_cr_crlf => 1
  | hex_2 => 2 | octal_3 => 3 | hex_4 => 4 | hex_8 => 8
  | nonempty_braced | octal_braced | hex_braced => 0
  end.

(** escapes.hpp:80-102 (escape_type_max_length) *)
Definition escape_type_max_length (k : escape_kind) : nat :=
  match k with
  | octal_1_to_2 | hex_1_to_2 | hex_2 | lf_cr_crlf => 2
  | octal_1_to_3 | octal_3 => 3
  | hex_4 => 4 | hex_8 => 8
  | hex_1_to_inf | nonempty_braced | octal_braced | hex_braced => 0
  end.

(** escapes.hpp:106-120 (match_common_braced_escape) *)
Definition match_common_braced_escape (s : str) (p : N -> bool) : escape :=
  if negb (starts_with_ch s 123) then mk_escape 0 true
  else
    let lw := length_before s 125 1 in
    let digits := substr s 1 (lw - 1) in
    let erroneous := (lw <=? 1) || negb (forallb p digits) in
    let len := if (lw =? length s) || negb (N.eqb (nth lw s 0%N) 125) then lw else lw + 1 in
    mk_escape len erroneous.

(** escapes.hpp:124-195 (match_common_escape) *)
Definition match_common_escape (k : escape_kind) (s : str) : escape :=
  match k with
  | octal_1_to_2 | octal_1_to_3 =>
    let s := firstn (escape_type_max_length k) s in
    let len := length_if s is_ascii_octal_digit in mk_escape len (len =? 0)
  | octal_3 =>
    let len := length_if (firstn 3 s) is_ascii_octal_digit in mk_escape len (negb (len =? 3))
  | octal_braced => match_common_braced_escape s is_ascii_octal_digit
  | hex_1_to_2 =>
    let s := firstn 2 s in
    let len := length_if s is_ascii_hex_digit in mk_escape len (len =? 0)
  | hex_1_to_inf =>
    let len := length_if s is_ascii_hex_digit in mk_escape len (len =? 0)
  | hex_2 | hex_4 | hex_8 =>
    let m := escape_type_min_length k in
    let s := firstn m s in
    if length s <? m then mk_escape (length s) true
    else mk_escape (length s) (negb (forallb is_ascii_hex_digit s))
  | nonempty_braced =>
    if negb (starts_with_ch s 123) then mk_escape 0 true
    else match find_ch s 125 1 with
         | None => mk_escape (length s) true
         | Some i => mk_escape (i + 1) false
         end
  | hex_braced => match_common_braced_escape s is_ascii_hex_digit
  | lf_cr_crlf =>
    let len := if starts_with s [13; 10]%N then 2
               else if starts_with_ch s 13 || starts_with_ch s 10 then 1 else 0 in
    mk_escape len (len =? 0)
  end.

(** escapes.hpp:197-211 (match_common_escape with prefix_length); substr throws beyond the end *)
Definition match_common_escape_at (k : escape_kind) (s : str) (prefix : nat) : res escape :=
  let* _ := check (prefix <=? length s) FThrow in
  let r := match_common_escape k (skipn prefix s) in
  Ok (mk_escape (es_length r + prefix) (es_erroneous r)).
