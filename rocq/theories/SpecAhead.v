(** * Specification vocabulary for lines before a document (C93)

    Only definitions. *)
From Coq Require Import List.
From Verif Require Import Str Types Ext Session SpecDoc.

Section WithExt.
Context {E : Ext}.
(** A line that is skipped: a blank one or, unless warnings are errors, one that is
    not supported. *)
Definition skipped (strict : bool) (x : str) : Prop :=
  blank x \/ strict = false /\ ~ blank x /\ exists n e, parse_sdp_line x n = Err (PUnsupported e x n).
End WithExt.
