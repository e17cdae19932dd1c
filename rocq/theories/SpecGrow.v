(** * Specification vocabulary for the length of printed sessions (C65).  Only definitions. *)
From Coq Require Import List Arith NArith.
From Verif Require Import Str Num Net Types Ext SpecSize.
Open Scope nat_scope.

(** Floats are printed with at most [m] chars. *)
Definition floats_within {E : Ext} (m : nat) : Prop :=
  (forall x, (x <= u32_max)%N -> text (show_f32 x) <= m) /\
  (forall x, (x <= u64_max)%N -> text (show_f64 x) <= m).
