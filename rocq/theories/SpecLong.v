(** * Specification vocabulary for the length of errors (C77).  Only definitions. *)
From Coq Require Import List Arith NArith.
From Verif Require Import Str Num Net Types Ext SpecSize.
Open Scope nat_scope.

(** What the host parser says about a host it refuses takes at most [b] chars. *)
Definition complaints_within {E : Ext} (b : nat) : Prop :=
  forall s m, host_parse s = Err m -> text m <= b.
(** As long as a string can be on a machine of 64 bits. *)
Definition fits_memory (s : str) : Prop := (N.of_nat (text s) < u64_max)%N.
