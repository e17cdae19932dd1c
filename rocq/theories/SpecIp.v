(** * IP addresses and their texts (spec for C61)

    RFC 4291 section 2.2 (the texts of an address; the same language as the rule
    IPv6address of RFC 3986), RFC 5952 section 4 (the text to print) and the dotted
    quads of RFC 3986 (no leading zeros).  Written over characters and numbers only. *)
From Coq Require Import List NArith Ascii String.
From Verif Require Import Str Net.
Import ListNotations.
Open Scope N_scope.
Open Scope list_scope.

(** ** Numbers *)
Definition digit_is (c d : N) : Prop :=
  48 <= c <= 57 /\ d = c - 48 \/ 65 <= c <= 70 /\ d = c - 55 \/ 97 <= c <= 102 /\ d = c - 87.
(** [s] is a possibly empty row of digits to the base [b] and stands for [n]. *)
Inductive digits_are (b : N) : str -> N -> Prop :=
| digits_none : digits_are b [] 0
| digits_more : forall s n c d, digits_are b s n -> digit_is c d -> d < b ->
    digits_are b (s ++ [c]) (n * b + d).
Definition no_leading_zero (s : str) : Prop := forall t, s = 48 :: t -> t = [].

(** Part of a dotted quad. *)
Definition octet_text (s : str) (n : N) : Prop :=
  digits_are 10 s n /\ (1 <= List.length s <= 3)%nat /\ no_leading_zero s /\ n <= 255.
(** Sixteen bits of an IPv6 address. *)
Definition group_text (s : str) (n : N) : Prop :=
  digits_are 16 s n /\ (1 <= List.length s <= 4)%nat.

(** ** Texts that are an address *)
Definition quad_text (s : str) (a b c d : N) : Prop :=
  exists p q r t, s = p ++ [46] ++ q ++ [46] ++ r ++ [46] ++ t /\
    octet_text p a /\ octet_text q b /\ octet_text r c /\ octet_text t d.
Definition ip4_text (s : str) (n : N) : Prop :=
  exists a b c d, quad_text s a b c d /\ n = ((a * 256 + b) * 256 + c) * 256 + d.

(** Groups with a colon between them; [quad] says that the last two of them may be
    written as a dotted quad. *)
Inductive groups_text (quad : bool) : str -> list N -> Prop :=
| groups_one : forall s g, group_text s g -> groups_text quad s [g]
| groups_quad : forall s a b c d, quad = true -> quad_text s a b c d ->
    groups_text quad s [a * 256 + b; c * 256 + d]
| groups_more : forall s g t l, group_text s g -> groups_text quad t l ->
    groups_text quad (s ++ [58] ++ t) (g :: l).
Definition groups_or_none (quad : bool) (s : str) (l : list N) : Prop :=
  s = [] /\ l = [] \/ groups_text quad s l.
(** All eight groups, or "::" in the place of at least one zero group. *)
Definition ip6_groups (s : str) (l : list N) : Prop :=
  groups_text true s l /\ List.length l = 8%nat \/
  exists p q front back k, s = p ++ [58; 58] ++ q /\
    groups_or_none false p front /\ groups_or_none true q back /\
    (1 <= k)%nat /\ l = front ++ repeat 0 k ++ back /\ List.length l = 8%nat.
Fixpoint groups_value (l : list N) : N :=
  match l with [] => 0 | g :: r => g * 65536 ^ N.of_nat (List.length r) + groups_value r end.
Definition ip6_text (s : str) (n : N) : Prop :=
  exists l, ip6_groups s l /\ n = groups_value l.
Definition ip_text (s : str) (a : ip) : Prop :=
  match a with V4 n => ip4_text s n | V6 n => ip6_text s n end.

(** ** The text that is printed *)
Definition lower (s : str) : Prop := Forall (fun c => ~ 65 <= c <= 70) s.
Definition printed_group (s : str) (n : N) : Prop :=
  group_text s n /\ no_leading_zero s /\ lower s.
Inductive printed_groups : str -> list N -> Prop :=
| printed_none : printed_groups [] []
| printed_one : forall s g, printed_group s g -> printed_groups s [g]
| printed_more : forall s g t h l, printed_group s g -> printed_groups t (h :: l) ->
    printed_groups (s ++ [58] ++ t) (g :: h :: l).
(** "::ffff:" and a quad for an IPv4-mapped address; otherwise "::" in the place of
    the longest run of zero groups, the first such run, if it has at least two. *)
Definition mapped (l : list N) : Prop := exists x y, l = [0; 0; 0; 0; 0; 65535; x; y].
Inductive printed_ip6 (l : list N) (s : str) : Prop :=
| printed_mapped : forall a b c d q, l = [0; 0; 0; 0; 0; 65535; a * 256 + b; c * 256 + d] ->
    quad_text q a b c d -> s = lit "::ffff:" ++ q -> printed_ip6 l s
| printed_full : ~ mapped l -> (forall p q, l <> p ++ [0; 0] ++ q) -> printed_groups s l -> printed_ip6 l s
| printed_short : forall front k back p q, ~ mapped l -> l = front ++ repeat 0 k ++ back -> (2 <= k)%nat ->
    (forall f j b, l = f ++ repeat 0 j ++ b ->
       (j <= k)%nat /\ (j = k -> (List.length front <= List.length f)%nat)) ->
    printed_groups p front -> printed_groups q back -> s = p ++ [58; 58] ++ q -> printed_ip6 l s.
Definition printed_ip (a : ip) (s : str) : Prop :=
  match a with
  | V4 n => ip4_text s n
  | V6 n => exists l, List.length l = 8%nat /\ Forall (fun g => g < 65536) l /\ n = groups_value l /\
      printed_ip6 l s
  end.
Definition address_value (a : ip) : Prop :=
  match a with V4 n => n < 2 ^ 32 | V6 n => n < 2 ^ 128 end.
