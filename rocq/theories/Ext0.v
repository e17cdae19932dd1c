(** * A concrete instance of the external components

    Shows that the hypotheses [ext_total] and [ext_ok] can be met (PropExt.v),
    and lets whole documents with IPv4 addresses and floats be run in Coq.  The
    theorems about the code do not depend on this file.

    - Floats: the grammar of [core::num::dec2flt], correct rounding to nearest,
      ties to even; printing with the least number of digits that read back.
    - Hosts: the WHATWG host parser restricted to ASCII: percent escapes,
      non-ASCII characters and punycode checks are left out (the first two are
      rejected). *)
From Coq Require Import List NArith ZArith Bool Ascii String.
From Verif Require Import Str Num Net Types Ext.
Import ListNotations.
Open Scope N_scope.
Open Scope list_scope.

Definition ascii_lower (c : char) : char := if (65 <=? c) && (c <=? 90) then c + 32 else c.
Definition is_digit (c : char) : bool := (48 <=? c) && (c <=? 57).
Fixpoint take_digits (s : str) : str * str :=
  match s with
  | c :: s' => if is_digit c then let (d, r) := take_digits s' in (c :: d, r) else ([], s)
  | [] => ([], [])
  end.
Definition digits_value (ds : str) : N := fold_left (fun acc c => acc * 10 + (c - 48)) ds 0.

(** ** Floats with [p] fraction bits and [w] exponent bits

    A finite magnitude is [m * 2^k / 2^off] with [m < 2^(p+1)], and [2^p <= m]
    unless [k = 0]; its bit pattern is [k * 2^p + m]. *)
Section Float.
Variables p w : N.
Definition off : N := 2 ^ (w - 1) - 2 + p.
Definition inf : N := (2 ^ w - 1) * 2 ^ p.
Definition nan : N := inf + 2 ^ (p - 1).

(** Division rounded to nearest, ties to even. *)
Definition div_even (a b : N) : N :=
  let q := a / b in let r := a mod b in
  if (2 * r <? b) || ((2 * r =? b) && N.even q) then q else q + 1.
(** The least [k >= k0] with [num < den * 2^(p+1+k)]. *)
Fixpoint scale (fuel : nat) (num den k : N) : option N :=
  match fuel with
  | O => None
  | S f => if num <? den * 2 ^ (p + 1 + k) then Some k else scale f num den (k + 1)
  end.
(** The float nearest to [num / den]. *)
Definition round (num den : N) : N :=
  match scale (N.to_nat (2 ^ w - 2)) (num * 2 ^ off) den 0 with
  | Some k => N.min inf (k * 2 ^ p + div_even (num * 2 ^ off) (den * 2 ^ k))
  | None => inf
  end.

(** [digits * 10^exp10]; exponents that are out of sight are not computed with. *)
Definition decimal (ds : str) (exp10 : Z) : N :=
  let d := digits_value ds in
  if d =? 0 then 0
  else if (0 <=? exp10)%Z then
    if (400 <? exp10)%Z then inf else round (d * 10 ^ Z.to_N exp10) 1
  else if (Z.of_nat (List.length ds) + 1100 <? - exp10)%Z then 0
  else round d (10 ^ Z.to_N (- exp10)).

Definition exponent (s : str) : option Z :=
  match s with
  | [] => Some 0%Z
  | c :: s' =>
      if (c =? 101) || (c =? 69) then
        let '(neg, t) := match s' with
                         | d :: t => if d =? 45 then (true, t) else if d =? 43 then (false, t) else (false, s')
                         | [] => (false, [])
                         end in
        match take_digits t with
        | ([], _) | (_, _ :: _) => None
        | (ds, []) => Some (if neg : bool then (- Z.of_N (digits_value ds))%Z else Z.of_N (digits_value ds))
        end
      else None
  end.
Definition parse_body (s : str) : option N :=
  let l := map ascii_lower s in
  if str_eqb l (lit "inf") || str_eqb l (lit "infinity") then Some inf
  else if str_eqb l (lit "nan") then Some nan
  else
    let (ip, r) := take_digits s in
    let (fp, r2) := match r with
                    | c :: r' => if c =? 46 then take_digits r' else ([], r)
                    | [] => ([], [])
                    end in
    match ip ++ fp, exponent r2 with
    | [], _ | _, None => None
    | ds, Some e => Some (decimal ds (e - Z.of_nat (List.length fp)))
    end.
Definition parse_float (s : str) : res float_err N :=
  match s with
  | [] => Err FloatEmpty
  | c :: s' =>
      let '(neg, body) := if c =? 45 then (true, s') else if c =? 43 then (false, s') else (false, s) in
      match parse_body body with
      | Some x => Ok (if neg : bool then 2 ^ (p + w) + x else x)
      | None => Err FloatInvalid
      end
  end.

(** [d * 10^up / 10^down] without an exponent. *)
Definition plain_decimal (d up down : N) : str :=
  if down =? 0 then show_N (d * 10 ^ up)
  else show_N (d / 10 ^ down) ++ [46] ++ pad0 (N.to_nat down) (show_N (d mod 10 ^ down)).
(** The least [j >= j0] with [num * 10^j >= den]. *)
Fixpoint leading (fuel : nat) (num den j : N) : N :=
  match fuel with
  | O => j
  | S f => if den <=? num * 10 ^ j then j else leading f num den (j + 1)
  end.
(** The power of ten at or below [num / den]. *)
Definition decade (num den : N) : Z :=
  if den <=? num then (Z.of_nat (List.length (show_N (num / den))) - 1)%Z
  else (- Z.of_N (leading 1100 num den 1))%Z.
(** The two decimals with [n] digits around [num / den], the nearer one first. *)
Definition candidates (num den : N) (n : nat) : list str :=
  let e10 := decade num den in
  let z := (e10 - (Z.of_nat n - 1))%Z in
  let a := num * 10 ^ Z.to_N (- z) in let b := den * 10 ^ Z.to_N z in
  let d := a / b in
  let ds := if 2 * (a mod b) <? b then [d; d + 1] else [d + 1; d] in
  map (fun d => if d =? 10 ^ N.of_nat n then plain_decimal 1 (Z.to_N (e10 + 1)) (Z.to_N (- (e10 + 1)))
                else plain_decimal d (Z.to_N z) (Z.to_N (- z))) ds.
Definition exact (m k : N) : str :=
  if off <=? k then plain_decimal (m * 2 ^ (k - off)) 0 0
  else plain_decimal (m * 5 ^ (off - k)) 0 (off - k).
Definition reads_as (x : N) (s : str) : bool :=
  match parse_body s with Some y => y =? x | None => false end.
Definition show_magnitude (x : N) : str :=
  if inf <=? x then lit "inf"
  else
    let e := x / 2 ^ p in
    let m := if e =? 0 then x else 2 ^ p + x mod 2 ^ p in
    let k := e - 1 in
    if m =? 0 then lit "0"
    else match find (reads_as x) (flat_map (candidates (m * 2 ^ k) (2 ^ off)) (seq 1 17)) with
         | Some t => t
         | None => exact m k
         end.
Definition show_float (x : N) : str :=
  let m := x mod 2 ^ (p + w) in
  if inf <? m then lit "NaN"
  else (if N.testbit x (p + w) then [45] else []) ++ show_magnitude m.
End Float.

(** ** Hosts *)
Definition all_digits (radix : N) (s : str) : bool :=
  forallb (fun c => match to_digit radix c with Some _ => true | None => false end) s.
Definition value_of (radix : N) (s : str) : N :=
  fold_left (fun acc c => acc * radix + match to_digit radix c with Some d => d | None => 0 end) s 0.
(** The IPv4 number parser (of lower-case text). *)
Definition ipv4_number (s : str) : option N :=
  match s with
  | [] => None
  | 48 :: 120 :: r => if all_digits 16 r then Some (value_of 16 r) else None
  | 48 :: (_ :: _) as r => if all_digits 8 r then Some (value_of 8 r) else None
  | _ => if all_digits 10 s then Some (value_of 10 s) else None
  end.
Definition labels (s : str) : list str :=
  let l := split c_dot s in
  match rev l with
  | [] :: x :: r => rev (x :: r)
  | _ => l
  end.
Definition ends_in_number (s : str) : bool :=
  match rev (labels s) with
  | x :: _ => negb (is_empty x) && (all_digits 10 x || match ipv4_number x with Some _ => true | None => false end)
  | [] => false
  end.
Fixpoint option_all {A} (l : list (option A)) : option (list A) :=
  match l with
  | [] => Some []
  | Some x :: l' => match option_all l' with Some r => Some (x :: r) | None => None end
  | None :: _ => None
  end.
(** All parts but the last are bytes; the last one fills the remaining bytes. *)
Fixpoint ipv4_parts (left acc : N) (l : list N) : option N :=
  match l with
  | [] => None
  | [x] => if x <? 256 ^ left then Some (acc * 256 ^ left + x) else None
  | x :: l' => if x <? 256 then ipv4_parts (left - 1) (acc * 256 + x) l' else None
  end.
Definition ipv4 (s : str) : option N :=
  let l := labels s in
  if (4 <? List.length l)%nat then None
  else match option_all (map ipv4_number l) with
       | Some ns => ipv4_parts 4 0 ns
       | None => None
       end.
Definition host0 (s : str) : res str host :=
  match s with
  | 91 :: r =>
      match rev r with
      | 93 :: t => match parse_ip (rev t) with
                   | Some (V6 n) => Ok (HIpv6 n)
                   | _ => Err (lit "invalid IPv6 address")
                   end
      | _ => Err (lit "invalid IPv6 address")
      end
  | _ =>
      let d := map ascii_lower s in
      if is_empty d then Err (lit "empty host")
      else if negb (forallb domain_char d) then Err (lit "invalid domain character")
      else if ends_in_number d then
        match ipv4 d with
        | Some n => Ok (HIpv4 n)
        | None => Err (lit "invalid IPv4 address")
        end
      else Ok (HDomain d)
  end.

(** The instance. *)
Definition Ext0 : Ext := {|
  host_parse := host0;
  parse_f32 := parse_float 23 8;
  show_f32 := show_float 23 8;
  parse_f64 := parse_float 52 11;
  show_f64 := show_float 52 11
|}.
