(** * Model of UTF-8 decoding and encoding
    (include/ulight/impl/unicode.hpp, include/ulight/impl/unicode_algorithm.hpp).
    A char8_t is an [N] below 256; std::array<char8_t, 4> is a list of four. *)
From Coq Require Import List NArith ZArith Bool Arith.
From Verif Require Import M_Base.
Import ListNotations.
Local Open Scope N_scope.

(** unicode.hpp:32-41 (Error_Code) *)
Inductive error_code := no_data | missing_units | illegal_bits.

(** std::countl_one on an unsigned char: number of leading one bits. *)
Fixpoint countl_one_from (k : nat) (c : N) : N :=
  match k with
  | O => 0
  | S k' => if N.testbit c (N.of_nat k') then 1 + countl_one_from k' c else 0
  end.
Definition countl_one (c : N) : N := countl_one_from 8 c.

(** unicode.hpp:90-96 (unchecked_sequence_length). The lookup constant
    0b100'011'010'000'001 is 0x4681. *)
Definition unchecked_sequence_length (c : N) : nat :=
  N.to_nat (N.land (N.shiftr 0x4681 (countl_one c * 3)) 7).

(** unicode.hpp:109-143 (sequence_length_impl, its table, sequence_length) *)
Definition sequence_length (c : N) : nat :=
  let len := unchecked_sequence_length c in
  if (len =? 2)%nat && (c <? 0xC2) then 0%nat
  else if (len =? 4)%nat && (0xF4 <? c) then 0%nat
  else len.

(** unicode.hpp:378-389 (first_n_padded<4>) *)
Definition first_4_padded (s : str) : str := firstn 4 (firstn 4 s ++ [0; 0; 0; 0]).

(** unicode.hpp:358-376 (first_n_unchecked<4>) *)
Definition first_4_unchecked (s : str) : res str :=
  let* _ := check (4 <=? length s)%nat FDebugAssert in Ok (firstn 4 s).

Definition at_ (s : str) (i : nat) : N := nth i s 0.

(** unicode.hpp:194-236 (decode_unchecked), the portable switch (lines 216-235). *)
Definition decode_unchecked (s : str) (len : nat) : res N :=
  let* _ := check ((1 <=? len) && (len <=? 4))%nat FDebugAssert in
  Ok (match len with
      | 1%nat => at_ s 0
      | 2%nat => N.lor (N.shiftl (N.land (at_ s 0) 0x1f) 6) (N.land (at_ s 1) 0x3f)
      | 3%nat => N.lor (N.lor (N.shiftl (N.land (at_ s 0) 0x0f) 12)
                              (N.shiftl (N.land (at_ s 1) 0x3f) 6))
                       (N.land (at_ s 2) 0x3f)
      | 4%nat => N.lor (N.lor (N.lor (N.shiftl (N.land (at_ s 0) 0x07) 18)
                                     (N.shiftl (N.land (at_ s 1) 0x3f) 12))
                              (N.shiftl (N.land (at_ s 2) 0x3f) 6))
                       (N.land (at_ s 3) 0x3f)
      | _ => 0
      end).

(** unicode.hpp:161-177 (bit_compress): the x86 PEXT / ARM BEXT instruction on 32 bits. Bits of
    [x] selected by [m] are packed towards the least significant end. [k] is the number of bit
    positions left, [i] the current position. *)
Fixpoint bit_compress_from (k : nat) (i : N) (x m : N) : N :=
  match k with
  | O => 0
  | S k' =>
    if N.testbit m i
    then N.b2n (N.testbit x i) + 2 * bit_compress_from k' (N.succ i) x m
    else bit_compress_from k' (N.succ i) x m
  end.
Definition bit_compress (x m : N) : N := bit_compress_from 32 0 x m.

(** std::byteswap(std::bit_cast<uint32_t>(str)) on a little-endian machine: str[0] is the most
    significant byte (unicode.hpp:212). *)
Definition byteswapped (s : str) : N :=
  at_ s 0 * 16777216 + at_ s 1 * 65536 + at_ s 2 * 256 + at_ s 3.

(** unicode.hpp:201-206 (bit_compress_masks), read as little-endian integers. *)
Definition bit_compress_mask (len : nat) : N :=
  match len with
  | 1%nat => 0x7f000000
  | 2%nat => 0x1f3f0000
  | 3%nat => 0x0f3f3f00
  | _ => 0x073f3f3f
  end.

(** unicode.hpp:199-215: decode_unchecked on processors with a bit compression instruction. *)
Definition decode_unchecked_pext (s : str) (len : nat) : res N :=
  let* _ := check ((1 <=? len) && (len <=? 4))%nat FDebugAssert in
  Ok (bit_compress (byteswapped s) (bit_compress_mask len)).

(** unicode.hpp:247-261 (expectation_masks, expectation_values) *)
Definition expectation_masks (len : nat) : str :=
  match len with
  | 1%nat => [0x80; 0; 0; 0]
  | 2%nat => [0xE0; 0xC0; 0; 0]
  | 3%nat => [0xF0; 0xC0; 0xC0; 0]
  | _ => [0xF8; 0xC0; 0xC0; 0xC0]
  end.
Definition expectation_values (len : nat) : str :=
  match len with
  | 1%nat => [0; 0; 0; 0]
  | 2%nat => [0xC0; 0x80; 0; 0]
  | 3%nat => [0xE0; 0x80; 0x80; 0]
  | _ => [0xF0; 0x80; 0x80; 0x80]
  end.

(** unicode.hpp:311-316: (str32 & mask) == expected, byte by byte (all three are bit casts of
    four-byte arrays). *)
Definition matches_expectation (s : str) (len : nat) : bool :=
  forallb (fun i => N.land (at_ s i) (at_ (expectation_masks len) i)
                    =? at_ (expectation_values len) i) [0; 1; 2; 3]%nat.

(** unicode.hpp:269-292 (is_valid_second_utf8_byte) *)
Definition is_valid_second_utf8_byte (b_0 b_1 : N) : bool :=
  if negb (N.land b_1 0xC0 =? 0x80) then false
  else if (b_0 =? 0xE0) && (b_1 <? 0xA0) then false
  else if (b_0 =? 0xED) && (0xA0 <=? b_1) then false
  else if (b_0 =? 0xF0) && (b_1 <? 0x90) then false
  else if (b_0 =? 0xF4) && (0x8F <? b_1) then false
  else true.

(** unicode.hpp:306-356 (is_valid for a known sequence length) *)
Definition is_valid_sequence (s : str) (len : nat) : res bool :=
  let* _ := check ((1 <=? len) && (len <=? 4))%nat FDebugAssert in
  Ok (if negb (matches_expectation s len) then false else
      match len with
      | 2%nat => negb (at_ s 0 <? 0xC2)
      | 3%nat => if (at_ s 0 =? 0xE0) && (at_ s 1 <? 0xA0) then false
                 else if (at_ s 0 =? 0xED) && (0xA0 <=? at_ s 1) then false
                 else true
      | 4%nat => if (at_ s 0 =? 0xF0) && (at_ s 1 <? 0x90) then false
                 else if 0xF4 <? at_ s 0 then false
                 else if (at_ s 0 =? 0xF4) && (0x8F <? at_ s 1) then false
                 else true
      | _ => true
      end).

(** std::expected<T, Error_Code> *)
Inductive expected (A : Type) : Type :=
| Value (a : A)
| Unexpected (e : error_code).
Arguments Value {A} a.
Arguments Unexpected {A} e.

(** unicode.hpp:417-425 (decode for a known sequence length) *)
Definition decode_sequence (s : str) (len : nat) : res (expected N) :=
  let* v := is_valid_sequence s len in
  if negb v then Ok (Unexpected illegal_bits)
  else let* c := decode_unchecked s len in Ok (Value c).

(** unicode.hpp:437-457 (decode_and_length) *)
Definition decode_and_length (s : str) : res (expected (N * nat)) :=
  match s with
  | [] => Ok (Unexpected no_data)
  | b_0 :: _ =>
    let len := sequence_length b_0 in
    if (len =? 0)%nat then Ok (Unexpected illegal_bits)
    else if (length s <? len)%nat then Ok (Unexpected missing_units)
    else let* r := decode_sequence (first_4_padded s) len in
         Ok (match r with
             | Unexpected e => Unexpected e
             | Value c => Value (c, len)
             end)
  end.

(** unicode.hpp:459-464 (decode) *)
Definition decode (s : str) : res (expected N) :=
  let* r := decode_and_length s in
  Ok (match r with Unexpected e => Unexpected e | Value (c, _) => Value c end).

(** static_cast<int>(str.size()): the low 32 bits of the size as a signed number. *)
Definition int_of_size (n : nat) : Z :=
  let m := (Z.of_nat n mod 4294967296)%Z in
  if (m <? 2147483648)%Z then m else (m - 4294967296)%Z.

Definition REPLACEMENT : N := 0xFFFD.

(** Is byte [i] of a sequence acceptable after [b_0] (unicode.hpp:513-514, 549-550)? *)
Definition continuation_ok (b_0 b_i : N) (i : nat) : bool :=
  if (i =? 1)%nat then is_valid_second_utf8_byte b_0 b_i else N.land b_i 0xC0 =? 0x80.

(** unicode.hpp:506-519: the loop over the continuation bytes. [k] is expected - i. [Some i]
    means that the loop returned with length [i]; reading past the end of [s] is UB. *)
Fixpoint continuation_loop (s : str) (available : Z) (b_0 : N) (k i : nat) : res (option nat) :=
  match k with
  | O => Ok None
  | S k =>
    if (available <=? Z.of_nat i)%Z then Ok (Some i)
    else match nth_error s i with
         | None => Fail FUB
         | Some b_i =>
           if negb (continuation_ok b_0 b_i i) then Ok (Some i)
           else continuation_loop s available b_0 k (S i)
         end
  end.

(** unicode.hpp:489-523 (decode_and_length_or_replacement for string views) *)
Definition decode_and_length_or_replacement (s : str) : res (N * nat) :=
  match s with
  | [] => Ok (REPLACEMENT, 0%nat)
  | b_0 :: _ =>
    let expected := sequence_length b_0 in
    if (expected =? 0)%nat then Ok (REPLACEMENT, 1%nat)
    else
      let* r := continuation_loop s (int_of_size (length s)) b_0 (expected - 1) 1 in
      match r with
      | Some i => Ok (REPLACEMENT, i)
      | None => let* c := decode_unchecked (first_4_padded s) expected in Ok (c, expected)
      end
  end.

(** unicode.hpp:544-553: the loop of the array overload. *)
Fixpoint continuation_loop_array (s : str) (b_0 : N) (k i : nat) : option nat :=
  match k with
  | O => None
  | S k => if negb (continuation_ok b_0 (at_ s i) i) then Some i
           else continuation_loop_array s b_0 k (S i)
  end.

(** unicode.hpp:535-555 (decode_and_length_or_replacement for arrays of four) *)
Definition decode_and_length_or_replacement_array (s : str) : res (N * nat) :=
  let b_0 := at_ s 0 in
  let expected := sequence_length b_0 in
  if (expected =? 0)%nat then Ok (REPLACEMENT, 1%nat)
  else match continuation_loop_array s b_0 (expected - 1) 1 with
       | Some i => Ok (REPLACEMENT, i)
       | None => let* c := decode_unchecked s expected in Ok (c, expected)
       end.

(** str.remove_prefix(n): undefined when n exceeds the length. *)
Definition remove_prefix (s : str) (n : nat) : res str :=
  let* _ := check (n <=? length s)%nat FUB in Ok (skipn n s).

(** unicode.hpp:571-582 (is_valid for strings). Fuel: one step consumes at least one byte. *)
Fixpoint is_valid_loop (fuel : nat) (s : str) : res (expected unit) :=
  match s with
  | [] => Ok (Value tt)
  | _ =>
    match fuel with
    | O => Fail FFuel
    | S fuel =>
      let* next := decode_and_length s in
      match next with
      | Unexpected e => Ok (Unexpected e)
      | Value (_, len) => let* s := remove_prefix s len in is_valid_loop fuel s
      end
    end
  end.
Definition is_valid (s : str) : res (expected unit) := is_valid_loop (length s) s.

(** unicode.hpp:584-596 (code_points_unchecked) *)
Fixpoint code_points_loop (fuel : nat) (s : str) (result : nat) : res nat :=
  match s with
  | [] => Ok result
  | c :: _ =>
    match fuel with
    | O => Fail FFuel
    | S fuel => let* s := remove_prefix s (unchecked_sequence_length c) in
                code_points_loop fuel s (S result)
    end
  end.
Definition code_points_unchecked (s : str) : res nat := code_points_loop (length s) s 0%nat.

(** unicode.hpp:738-767 (encode8_unchecked): the code_units[0..length). char8_t(...) keeps the
    low eight bits. *)
Definition encode8_unchecked (c : N) : str :=
  let u8 x := x mod 256 in
  if c <? 0x80 then [u8 c]
  else if c <? 0x800 then
    [u8 (N.lor (N.shiftr c 6) 0xc0); u8 (N.lor (N.land c 0x3f) 0x80)]
  else if c <? 0x10000 then
    [u8 (N.lor (N.shiftr c 12) 0xe0); u8 (N.lor (N.land (N.shiftr c 6) 0x3f) 0x80);
     u8 (N.lor (N.land c 0x3f) 0x80)]
  else
    [u8 (N.lor (N.shiftr c 18) 0xf0); u8 (N.lor (N.land (N.shiftr c 12) 0x3f) 0x80);
     u8 (N.lor (N.land (N.shiftr c 6) 0x3f) 0x80); u8 (N.lor (N.land c 0x3f) 0x80)].

(** unicode_algorithm.hpp:23-53 (detail::find_if), as two loops. The second loop is entered with
    fewer than four bytes. [npos] is returned as None. *)
Fixpoint find_if_slow (fuel : nat) (p : N -> bool) (expected : bool) (s : str)
    (code_units : nat) : res (option nat) :=
  match s with
  | [] => Ok None
  | _ =>
    match fuel with
    | O => Fail FFuel
    | S fuel =>
      let* r := decode_and_length_or_replacement s in
      let '(code_point, len) := r in
      if Bool.eqb (p code_point) expected then Ok (Some code_units)
      else let* s := remove_prefix s len in
           find_if_slow fuel p expected s (code_units + len)
    end
  end.
Fixpoint find_if_fast (fuel : nat) (p : N -> bool) (expected : bool) (s : str)
    (code_units : nat) : res (option nat) :=
  if (4 <=? length s)%nat then
    match fuel with
    | O => Fail FFuel
    | S fuel =>
      let* units := first_4_unchecked s in
      let* r := decode_and_length_or_replacement_array units in
      let '(code_point, len) := r in
      if Bool.eqb (p code_point) expected then Ok (Some code_units)
      else let* s := remove_prefix s len in
           find_if_fast fuel p expected s (code_units + len)
    end
  else find_if_slow (length s) p expected s code_units.
Definition utf8_find (p : N -> bool) (expected : bool) (s : str) : res (option nat) :=
  find_if_fast (length s) p expected s 0%nat.

(** unicode_algorithm.hpp:86-126 (find_if, find_if_not, length_if, length_if_not) *)
Definition utf8_find_if (s : str) (p : N -> bool) : res (option nat) := utf8_find p true s.
Definition utf8_find_if_not (s : str) (p : N -> bool) : res (option nat) := utf8_find p false s.
Definition utf8_length_if (s : str) (p : N -> bool) : res nat :=
  let* r := utf8_find p false s in
  Ok (match r with Some i => i | None => length s end).
Definition utf8_length_if_not (s : str) (p : N -> bool) : res nat :=
  let* r := utf8_find p true s in
  Ok (match r with Some i => i | None => length s end).

(** unicode_algorithm.hpp:55-79 (check_if_any): the same two loops as detail::find_if, returning
    only whether the search succeeded; modelled by the model of detail::find_if.
    unicode_algorithm.hpp:128-168 (all_of, any_of, none_of, any_not_of). *)
Definition check_if_any (s : str) (p : N -> bool) (expected : bool) : res bool :=
  let* r := utf8_find p expected s in Ok (match r with Some _ => true | None => false end).
Definition utf8_all_of (s : str) (p : N -> bool) : res bool :=
  let* r := check_if_any s p false in Ok (negb r).
Definition utf8_any_of (s : str) (p : N -> bool) : res bool := check_if_any s p true.
Definition utf8_none_of (s : str) (p : N -> bool) : res bool :=
  let* r := check_if_any s p true in Ok (negb r).
Definition utf8_any_not_of (s : str) (p : N -> bool) : res bool := check_if_any s p false.

(** unicode.hpp:628-641 (Code_Point_Iterator::operator++): the remaining string after the
    increment. Both the thrown Unicode_Error and the assertion of builds without exceptions
    are FThrow. Dereferencing m_pointer at the end is UB. *)
Definition iterator_next (s : str) : res str :=
  match s with
  | [] => Fail FUB
  | c :: _ => let len := sequence_length c in
              if (len =? 0)%nat || (length s <? len)%nat then Fail FThrow else Ok (skipn len s)
  end.

(** unicode.hpp:650-662 (Code_Point_Iterator::operator* ) *)
Definition iterator_deref (s : str) : res N :=
  let* r := decode_and_length s in
  match r with Value (c, _) => Ok c | Unexpected _ => Fail FThrow end.

(** unicode.hpp:675-704 (Code_Point_View): for (char32_t c : Code_Point_View { s }). *)
Fixpoint code_point_view_loop (fuel : nat) (s : str) : res (list N) :=
  match s with
  | [] => Ok []
  | _ =>
    match fuel with
    | O => Fail FFuel
    | S fuel =>
      let* c := iterator_deref s in
      let* s := iterator_next s in
      let* r := code_point_view_loop fuel s in
      Ok (c :: r)
    end
  end.
Definition code_point_view (s : str) : res (list N) := code_point_view_loop (length s) s.
