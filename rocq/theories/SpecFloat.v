(** * Decimals and floats (C60).  Only definitions.

    Binary floats with [p] fraction bits and [w] exponent bits, given by their bit
    patterns: 23 and 8 for f32, 52 and 11 for f64. *)
From Coq Require Import List NArith ZArith Bool Ascii String.
From Verif Require Import Str Num Net Types Ext SpecVal.
Import ListNotations.
Open Scope N_scope.
Open Scope list_scope.

Definition digit (c : char) : Prop := 48 <= c /\ c <= 57.
Definition number (ds : str) : N := fold_left (fun n c => 10 * n + (c - 48)) ds 0.
(** [d * 10^z] as a fraction. *)
Definition scaled_num (d : N) (z : Z) : N := d * 10 ^ Z.to_N z.
Definition scaled_den (z : Z) : N := 10 ^ Z.to_N (- z).

(** Decimal texts: digits with at most one dot, at least one digit, and an exponent. *)
Definition exponent_text (t : str) (z : Z) : Prop :=
  (t = [] /\ z = 0%Z) \/
  exists e sign ds, t = e :: sign ++ ds /\ (e = 101 \/ e = 69) /\ ds <> [] /\ Forall digit ds /\
    (sign = [] /\ z = Z.of_N (number ds) \/ sign = [43] /\ z = Z.of_N (number ds) \/ sign = [45] /\ z = (- Z.of_N (number ds))%Z).
Definition decimal_text (t : str) (d : N) (z : Z) : Prop :=
  exists i f x ez, (t = i ++ x /\ f = [] \/ t = i ++ 46 :: f ++ x) /\ Forall digit i /\ Forall digit f /\ i ++ f <> [] /\
    exponent_text x ez /\ d = number (i ++ f) /\ z = (ez - Z.of_nat (List.length f))%Z.
(** The same text but for the case of ASCII letters. *)
Definition word (t u : str) : Prop :=
  Forall2 (fun c d => c = d \/ (97 <= d /\ d <= 122 /\ c + 32 = d)) t u.

Section Float.
Variables p w : N.
(** Magnitudes, as multiples of the least one above zero, [1 / 2^unit_exp].
    Infinity counts as what would be the next float above the finite ones. *)
Definition unit_exp : N := 2 ^ (w - 1) - 2 + p.
Definition infinity : N := (2 ^ w - 1) * 2 ^ p.
Definition magnitude (x : N) : N :=
  if x <? 2 ^ p then x else (2 ^ p + x mod 2 ^ p) * 2 ^ (x / 2 ^ p - 1).
(** How far [num / den] is from a float, in units of [1 / (den * 2^unit_exp)]. *)
Definition distance (num den x : N) : Z :=
  Z.abs (Z.of_N (num * 2 ^ unit_exp) - Z.of_N (den * magnitude x)).
(** Round to nearest, ties to even. *)
Definition nearest (num den x : N) : Prop :=
  x <= infinity /\
  forall y, y <= infinity ->
    (distance num den x <= distance num den y)%Z /\
    (distance num den x = distance num den y -> y <> x -> N.even x = true).
(** Texts of magnitudes and of floats. *)
Definition magnitude_text (t : str) (x : N) : Prop :=
  ((word t (lit "inf") \/ word t (lit "infinity")) /\ x = infinity) \/
  (word t (lit "nan") /\ x = infinity + 2 ^ (p - 1)) \/
  exists d z, decimal_text t d z /\ nearest (scaled_num d z) (scaled_den z) x.
Definition float_text (s : str) (x : N) : Prop :=
  exists sign t m, s = sign ++ t /\ magnitude_text t m /\
    (sign = [] /\ x = m \/ sign = [43] /\ x = m \/ sign = [45] /\ x = 2 ^ (p + w) + m).
(** The decimal for a float: it reads as the float, no decimal that does has fewer
    digits, and none with as many digits is closer, or as close and above it. *)
Definition no_worse (x d : N) (z : Z) (d' : N) (z' : Z) : Prop :=
  let a := (distance (scaled_num d z) (scaled_den z) x * Z.of_N (scaled_den z'))%Z in
  let b := (distance (scaled_num d' z') (scaled_den z') x * Z.of_N (scaled_den z))%Z in
  (a < b)%Z \/ (a = b /\ scaled_num d' z' * scaled_den z <= scaled_num d z * scaled_den z').
Definition shortest (x d : N) (z : Z) : Prop :=
  nearest (scaled_num d z) (scaled_den z) x /\
  forall n d' z', d' < 10 ^ n -> nearest (scaled_num d' z') (scaled_den z') x ->
    d < 10 ^ n /\ (10 ^ n <= 10 * d -> no_worse x d z d' z').
End Float.
(** Decimals written without exponent and without needless zeros in front. *)
Definition plain_text (t : str) (d : N) (z : Z) : Prop :=
  exists i f, Forall digit i /\ Forall digit f /\ (i = [48] \/ exists c r, i = c :: r /\ c <> 48) /\
    ((0 <= z)%Z /\ t = i /\ f = [] /\ number i = scaled_num d z \/
     (z < 0)%Z /\ t = i ++ 46 :: f /\ Z.of_nat (List.length f) = (- z)%Z /\ number (i ++ f) = d).
(** Printed floats. *)
Definition printed_magnitude (p w x : N) (t : str) : Prop :=
  x = infinity p w /\ t = lit "inf" \/
  x = 0 /\ t = lit "0" \/
  0 < x /\ x < infinity p w /\ exists d z, plain_text t d z /\ shortest p w x d z.
Definition printed_float (p w x : N) (s : str) : Prop :=
  let m := x mod 2 ^ (p + w) in
  infinity p w < m /\ s = lit "NaN" \/
  m <= infinity p w /\ exists sign t, s = sign ++ t /\ printed_magnitude p w m t /\
    (x < 2 ^ (p + w) /\ sign = [] \/ 2 ^ (p + w) <= x /\ sign = [45]).
(** The order of floats: by their values. *)
Definition signed_value (p w x : N) : Z :=
  let m := Z.of_N (magnitude p (x mod 2 ^ (p + w))) in if x <? 2 ^ (p + w) then m else (- m)%Z.
Definition a_number (p w x : N) : Prop := x mod 2 ^ (p + w) <= infinity p w.

(** What the float conversions of the standard library do. *)
Definition std_floats (E : Ext) : Prop :=
  (forall s x, parse_f32 s = Ok x <-> float_text 23 8 s x) /\
  (forall s x, parse_f64 s = Ok x <-> float_text 52 11 s x) /\
  (forall s, parse_f32 s <> Panic /\ parse_f64 s <> Panic) /\
  (forall s e, parse_f32 s = Err e \/ parse_f64 s = Err e -> (s = [] /\ e = FloatEmpty) \/ (s <> [] /\ e = FloatInvalid)) /\
  (forall x, x < 2 ^ 32 -> printed_float 23 8 x (show_f32 x)) /\
  (forall x, x < 2 ^ 64 -> printed_float 52 11 x (show_f64 x)).

(** Frame rates: a decimal with or without a sign whose nearest f64 is neither
    zero nor infinite. *)
Definition framerate_text (v : str) (x : f64) : Prop :=
  exists sign t d z m, core v (sign ++ t) /\ decimal_text t d z /\
    nearest 52 11 (scaled_num d z) (scaled_den z) m /\ 0 < m /\ m < infinity 52 11 /\
    (sign = [] /\ x = m \/ sign = [43] /\ x = m \/ sign = [45] /\ x = 2 ^ 63 + m).
