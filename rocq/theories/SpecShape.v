(** * Specification vocabulary for the lines of masked documents (C91)

    Only definitions. *)
From Coq Require Import List NArith Ascii String.
From Verif Require Import Str Types.
Import ListNotations.
Open Scope list_scope.

(** How the lines begin in which masking changes anything. *)
Definition masked_kinds : list str :=
  [lit "o="; lit "c="; lit "a=candidate:"; lit "a=fingerprint:"; lit "a=ice-pwd:"; lit "a=ice-ufrag:";
   lit "a=remote-candidates:"; lit "a=ssrc:"].
(** The same line, or two lines of the same of these kinds. *)
Definition same_kind (x y : str) : Prop :=
  x = y \/ exists k x' y', In k masked_kinds /\ x = k ++ x' /\ y = k ++ y'.
(** The passwords and user names of ICE are not empty. *)
Definition named (x : attr) : Prop := x <> AIcePwd [] /\ x <> AIceUfrag [].
Definition all_named (s : session) : Prop :=
  Forall named (s_attribute s) /\ Forall (fun m => Forall named (m_attribute m)) (s_media s).
