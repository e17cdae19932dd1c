(** * Specification vocabulary for the fuzz target (C87) *)
From Coq Require Import List NArith.
From Verif Require Import Str.
Import ListNotations.
Open Scope N_scope.
Open Scope list_scope.

(** Unicode scalar values (what a Rust [char] can be). *)
Definition scalar (c : N) : Prop := c < 55296 \/ 57344 <= c < 1114112.
(** The bytes of a char in UTF-8 (RFC 3629 section 3): the bits of the char from
    the highest to the lowest, six in every byte but the first. *)
Definition utf8 (c : N) : list N :=
  if c <? 128 then [c]
  else if c <? 2048 then [192 + c / 64; 128 + c mod 64]
  else if c <? 65536 then [224 + c / 4096; 128 + c / 64 mod 64; 128 + c mod 64]
  else [240 + c / 262144; 128 + c / 4096 mod 64; 128 + c / 64 mod 64; 128 + c mod 64].
