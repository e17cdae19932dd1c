(** * IP addresses (Rust [core::net]: [Ipv4Addr], [Ipv6Addr], [IpAddr])

    The standard library is not part of /repo.  /repo/src/address.rs:35 calls
    [IpAddr::from_str], address.rs:23 and :118 use the [Display] impls, and
    anonymizer.rs:90, :94 use [Ipv4Addr::from(u32)] / [Ipv6Addr::from(u128)]. *)
From Coq Require Import List NArith Bool Ascii String.
From Verif Require Import Str Num.
Import ListNotations.
Open Scope N_scope.
Open Scope list_scope.

(** An address is its numeric value: [V4 n] with n < 2^32, [V6 n] with n < 2^128. *)
Inductive ip := V4 (n : N) | V6 (n : N).
Definition ip_eqb (a b : ip) : bool :=
  match a, b with
  | V4 x, V4 y => x =? y
  | V6 x, V6 y => x =? y
  | _, _ => false
  end.

(** Big-endian digits of [n] in base [b], exactly [k] of them. *)
Fixpoint be_digits (k : nat) (b n : N) : list N :=
  match k with
  | O => []
  | S k' => be_digits k' b (n / b) ++ [n mod b]
  end.
Definition of_be (b : N) (l : list N) : N := fold_left (fun acc d => acc * b + d) l 0.

Definition octets4 (n : N) : list N := be_digits 4 256 n.
Definition segments6 (n : N) : list N := be_digits 8 65536 n.

(** [impl Display for Ipv4Addr]. *)
Definition show_ip4 (n : N) : str := join [c_dot] (map show_N (octets4 n)).

(** [impl Display for Ipv6Addr]: the longest (first longest) run of two or more
    zero segments is written as "::"; IPv4-mapped addresses are written
    "::ffff:a.b.c.d". *)
Record span := { sp_start : nat; sp_len : nat }.
Fixpoint zero_span (i : nat) (segs : list N) (longest current : span) : span :=
  match segs with
  | [] => longest
  | s :: rest =>
      if s =? 0 then
        let start := if Nat.eqb (sp_len current) 0 then i else sp_start current in
        let cur := {| sp_start := start; sp_len := S (sp_len current) |} in
        let lon := if Nat.ltb (sp_len longest) (sp_len cur) then cur else longest in
        zero_span (S i) rest lon cur
      else zero_span (S i) rest longest {| sp_start := 0; sp_len := 0 |}
  end.
Definition fmt_subslice (segs : list N) : str := join [c_colon] (map show_hex segs).
Definition show_ip6 (n : N) : str :=
  let segs := segments6 n in
  match segs with
  | [0; 0; 0; 0; 0; 65535; ab; cd] =>
      lit "::ffff:" ++ show_ip4 (ab * 65536 + cd)
  | _ =>
      let z := zero_span 0 segs {| sp_start := 0; sp_len := 0 |} {| sp_start := 0; sp_len := 0 |} in
      if Nat.ltb 1 (sp_len z) then
        fmt_subslice (firstn (sp_start z) segs) ++ lit "::" ++
        fmt_subslice (skipn (sp_start z + sp_len z) segs)
      else fmt_subslice segs
  end.
Definition show_ip (a : ip) : str :=
  match a with V4 n => show_ip4 n | V6 n => show_ip6 n end.

(** [core::net::parser]: readers consume a prefix of the input. *)
Definition reader (A : Type) := str -> option (A * str).

Fixpoint read_digits (radix : N) (left : nat) (acc : N) (s : str) : option (N * str) :=
  match s with
  | c :: s' =>
      match to_digit radix c with
      | Some d =>
          match left with
          | O => None
          | S l => read_digits radix l (acc * radix + d) s'
          end
      | None => Some (acc, s)
      end
  | [] => Some (acc, [])
  end.

(** [Parser::read_number(radix, Some(max_digits), allow_zero_prefix)]. *)
Definition read_number (radix : N) (max_digits : nat) (allow_zero_prefix : bool) (limit : N)
  : reader N := fun s =>
  match read_digits radix max_digits 0 s with
  | None => None
  | Some (v, rest) =>
      let count := (List.length s - List.length rest)%nat in
      if Nat.eqb count 0 then None
      else if negb allow_zero_prefix && starts_with_char 48 s && Nat.ltb 1 count then None
      else if v <=? limit then Some (v, rest) else None
  end.

Definition read_separator {A} (sep : char) (i : nat) (inner : reader A) : reader A := fun s =>
  match i with
  | O => inner s
  | S _ => match s with
           | x :: s' => if x =? sep then inner s' else None
           | [] => None
           end
  end.

(** The [left] groups that remain of [Parser::read_ipv4_addr]'s loop. *)
Fixpoint read_octets (left i : nat) : reader (list N) := fun s =>
  match left with
  | O => Some ([], s)
  | S l =>
      match read_separator c_dot i (read_number 10 3 false 255) s with
      | Some (o, rest) =>
          match read_octets l (S i) rest with
          | Some (os, rest') => Some (o :: os, rest')
          | None => None
          end
      | None => None
      end
  end.
Definition read_ipv4 : reader (list N) := read_octets 4 0.

(** [read_groups]: (groups read, whether they end in an embedded IPv4 address,
    rest).  [1 < left] is the code's [i < limit - 1]. *)
Fixpoint read_groups (left i : nat) (s : str) : list N * bool * str :=
  match left with
  | O => ([], false, s)
  | S l =>
      match (if Nat.ltb 1 left then read_separator c_colon i read_ipv4 s else None) with
      | Some (o, rest) =>
          match o with
          | [a; b; c; d] => ([a * 256 + b; c * 256 + d], true, rest)
          | _ => ([], false, s) (* unreachable: read_ipv4 yields four octets *)
          end
      | None =>
          match read_separator c_colon i (read_number 16 4 true 65535) s with
          | Some (g, rest) =>
              let '(gs, b, r) := read_groups l (S i) rest in (g :: gs, b, r)
          | None => ([], false, s)
          end
      end
  end.

Definition read_ipv6 : reader (list N) := fun s =>
  let '(head, head_ipv4, rest) := read_groups 8 0 s in
  if Nat.eqb (List.length head) 8 then Some (head, rest)
  else if head_ipv4 then None
  else match rest with
       | x :: y :: rest' =>
           if (x =? c_colon) && (y =? c_colon) then
             let limit := (8 - (List.length head + 1))%nat in
             let '(tail, _, r) := read_groups limit 0 rest' in
             Some (head ++ repeat 0 (8 - List.length head - List.length tail)%nat ++ tail, r)
           else None
       | _ => None
       end.

(** [IpAddr::from_str]; its error carries no data ([AddrParseError]). *)
Definition parse_ip (s : str) : option ip :=
  match read_ipv4 s with
  | Some (o, rest) => if is_empty rest then Some (V4 (of_be 256 o)) else None
  | None =>
      match read_ipv6 s with
      | Some (g, rest) => if is_empty rest then Some (V6 (of_be 65536 g)) else None
      | None => None
      end
  end.

