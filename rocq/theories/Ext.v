(** * External components that are not modelled

    Two dependencies of /repo are left abstract: the [url] crate's [Host::parse]
    (address.rs:40) and the conversion between decimal text and IEEE floats
    (Rust [core::num::dec2flt], [core::num::flt2dec]; attribute_type.rs:2361,
    2583, 2612, 2637, 2658 for parsing, 907, 924, 943, 1532 for printing).
    Every definition and theorem is parametric in an [Ext]; theorems that need
    to know something about it take [ext_ok] as an explicit hypothesis.
    Ext0.v builds a concrete [Ext] and proves [ext_ok] of it. *)
From Coq Require Import List NArith Bool Ascii String.
From Verif Require Import Str Num Net Types.
Import ListNotations.
Open Scope N_scope.
Open Scope list_scope.

(** [url::Host]. *)
Inductive host := HDomain (s : str) | HIpv4 (n : N) | HIpv6 (n : N).

Class Ext := {
  host_parse : str -> res str host;       (* Err carries the error's message *)
  parse_f32 : str -> res float_err f32;
  show_f32 : f32 -> str;
  parse_f64 : str -> res float_err f64;
  show_f64 : f64 -> str
}.

(** Characters that can occur in the printed form of a float: digits, '.', '-',
    and the letters of "inf" and "NaN". *)
Definition float_char (c : char) : bool :=
  ((48 <=? c) && (c <=? 57)) || mem_N c (lit ".-infNa").

(** Characters that cannot occur in a domain name accepted by [Host::parse]:
    non-ASCII, C0 controls, space, DEL and the URL standard's forbidden domain
    code points ("#%/:<>?@[\]^|"). *)
Definition domain_char (c : char) : bool :=
  (32 <? c) && (c <? 127) && negb (mem_N c (lit "#%/:<>?@[\]^|")).

(** External calls return, they do not panic. *)
Record ext_total (E : Ext) : Prop := {
  host_no_panic : forall s, host_parse s <> Panic;
  f32_no_panic : forall s, parse_f32 s <> Panic;
  f64_no_panic : forall s, parse_f64 s <> Panic
}.

Record ext_ok (E : Ext) : Prop := {
  ext_returns : ext_total E;
  (* results are values of the Rust types *)
  host_ipv4_range : forall s n, host_parse s = Ok (HIpv4 n) -> n <= u32_max;
  host_ipv6_range : forall s n, host_parse s = Ok (HIpv6 n) -> n <= u128_max;
  f32_range : forall s x, parse_f32 s = Ok x -> x <= u32_max;
  f64_range : forall s x, parse_f64 s = Ok x -> x <= u64_max;
  (* "".parse::<f64>() is an error *)
  f64_empty : parse_f64 [] = Err FloatEmpty;
  (* the dotted-quad form of an IPv4 address is read back as that address *)
  host_show_ip4 : forall n, n <= u32_max -> host_parse (show_ip4 n) = Ok (HIpv4 n);
  (* accepted domain names are non-empty, clean, and stable under re-parsing *)
  host_domain_chars : forall s d, host_parse s = Ok (HDomain d) ->
      d <> [] /\ forallb domain_char d = true;
  host_domain_stable : forall s d, host_parse s = Ok (HDomain d) ->
      host_parse d = Ok (HDomain d);
  (* a float that is not NaN prints to text that reads back as the same float *)
  f32_roundtrip : forall x, x <= u32_max -> f32_is_nan x = false ->
      parse_f32 (show_f32 x) = Ok x;
  f64_roundtrip : forall x, x <= u64_max -> f64_is_nan x = false ->
      parse_f64 (show_f64 x) = Ok x;
  f32_show_chars : forall x, show_f32 x <> [] /\ forallb float_char (show_f32 x) = true;
  f64_show_chars : forall x, show_f64 x <> [] /\ forallb float_char (show_f64 x) = true;
  (* text without '-' reads as a float without the sign bit *)
  f32_read_pos : forall s x, parse_f32 s = Ok x -> contains c_minus s = false -> f_neg 31 x = false;
  (* a float without the sign bit prints without '-' *)
  f32_show_pos : forall x, f_neg 31 x = false -> contains c_minus (show_f32 x) = false;
  f64_show_pos : forall x, f_neg 63 x = false -> contains c_minus (show_f64 x) = false
}.
