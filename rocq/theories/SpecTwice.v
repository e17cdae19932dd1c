(** * Specification vocabulary for masking again (C63)

    Only definitions. *)
From Coq Require Import List NArith.
From Verif Require Import Str Net Types Anon SpecAnon.
Import ListNotations.

(** The clones of some values, made one after the other by one anonymizer. *)
Fixpoint mask_all (l : list aval) (a : anon) : list aval :=
  match l with
  | [] => []
  | v :: l' => fst (mask_val v a) :: mask_all l' (snd (mask_val v a))
  end.
