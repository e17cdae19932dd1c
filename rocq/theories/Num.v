(** * Integer parsing and printing (Rust [core::num], [core::fmt::num]) *)
From Coq Require Import List NArith Bool Ascii String.
From Verif Require Import Str.
Import ListNotations.
Open Scope N_scope.
Open Scope list_scope.

(** [core::num::IntErrorKind] (the kinds an unsigned parse can produce). *)
Inductive int_err := IntEmpty | IntInvalidDigit | IntPosOverflow.

Definition u8_max : N := 255.
Definition u16_max : N := 65535.
Definition u32_max : N := 4294967295.
Definition u64_max : N := 18446744073709551615.
Definition u128_max : N := 340282366920938463463374607431768211455.

(** [char::to_digit(radix)], radix 10 or 16. *)
Definition to_digit (radix c : N) : option N :=
  let d :=
    if (48 <=? c) && (c <=? 57) then Some (c - 48)
    else if (97 <=? c) && (c <=? 102) then Some (c - 87)
    else if (65 <=? c) && (c <=? 70) then Some (c - 55)
    else None in
  match d with
  | Some v => if v <? radix then Some v else None
  | None => None
  end.

(** The digit loop of [from_str_radix]: per char, an invalid digit is reported
    before an overflow of the accumulated value. *)
Fixpoint parse_digits (radix max acc : N) (s : str) : res int_err N :=
  match s with
  | [] => Ok acc
  | c :: s' =>
      match to_digit radix c with
      | None => Err IntInvalidDigit
      | Some d =>
          let v := acc * radix + d in
          if max <? v then Err IntPosOverflow else parse_digits radix max v s'
      end
  end.

(** [uN::from_str_radix(s, radix)]; [s.parse::<uN>()] is radix 10.  A single
    leading ['+'] is accepted, a lone ["+"] or ["-"] is an invalid digit. *)
Definition parse_uint (radix max : N) (s : str) : res int_err N :=
  match s with
  | [] => Err IntEmpty
  | [c] => if (c =? c_plus) || (c =? c_minus) then Err IntInvalidDigit
           else parse_digits radix max 0 s
  | c :: s' => if c =? c_plus then parse_digits radix max 0 s'
               else parse_digits radix max 0 s
  end.

Definition parse_u8 := parse_uint 10 u8_max.
Definition parse_u16 := parse_uint 10 u16_max.
Definition parse_u32 := parse_uint 10 u32_max.
Definition parse_u64 := parse_uint 10 u64_max.

(** [Display], [LowerHex], [UpperHex] of unsigned integers. *)
Definition digit_lower (d : N) : char := if d <? 10 then 48 + d else 87 + d.
Definition digit_upper (d : N) : char := if d <? 10 then 48 + d else 55 + d.

Fixpoint show_radix_aux (fuel : nat) (digit : N -> char) (radix n : N) (acc : str) : str :=
  match fuel with
  | O => acc
  | S f =>
      let acc' := digit (n mod radix) :: acc in
      if n / radix =? 0 then acc' else show_radix_aux f digit radix (n / radix) acc'
  end.
(** [N.size_nat n] (the number of bits) bounds the number of digits, so the
    fuel never runs out (proved in NumLemmas.v). *)
Definition show_radix (digit : N -> char) (radix n : N) : str :=
  show_radix_aux (S (N.size_nat n)) digit radix n [].

Definition show_N (n : N) : str := show_radix digit_lower 10 n.
Definition show_hex (n : N) : str := show_radix digit_lower 16 n.
Definition show_HEX (n : N) : str := show_radix digit_upper 16 n.

(** [{:0w}]: zero padding on the left to width [w]. *)
Definition pad0 (w : nat) (s : str) : str := repeat 48 (w - List.length s)%nat ++ s.

Definition show_bool_int (b : bool) : str := if b then [49] else [48].
