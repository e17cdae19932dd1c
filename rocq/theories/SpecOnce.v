(** * Specification vocabulary for two sessions in one text (C90)

    Only definitions. *)
From Verif Require Import Str Types.

(** Two v= lines, two o= lines or two s= lines. *)
Inductive opens : sdp_type -> sdp_type -> Prop :=
| opens_version : forall v w, opens (TyVersion v) (TyVersion w)
| opens_origin : forall v w, opens (TyOrigin v) (TyOrigin w)
| opens_session : forall v w, opens (TySession v) (TySession w).
