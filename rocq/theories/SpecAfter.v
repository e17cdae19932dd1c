(** * Specification vocabulary for lines after a document (C94)

    Only definitions. *)
From Coq Require Import List.
From Verif Require Import Str Types SpecSections.
Import ListNotations.
Open Scope list_scope.

Definition begins {A} (l l' : list A) : Prop := exists x, l' = l ++ x.
(** A media section with more lines. *)
Definition media_longer (m m' : media) : Prop :=
  m_media m' = m_media m /\ begins (m_bandwidth m) (m_bandwidth m') /\ begins (m_attribute m) (m_attribute m') /\
  (m_connection m = None \/ m_connection m' = m_connection m).
(** The same session with more lines at its end: in the last section and in
    further ones or, if there are none, at session level. *)
Definition session_longer (s s' : session) : Prop :=
  s_version s' = s_version s /\ s_origin s' = s_origin s /\ s_session s' = s_session s /\
  ((s_media s = [] /\ begins (s_bandwidth s) (s_bandwidth s') /\ begins (s_attribute s) (s_attribute s')) \/
   (same_head s s' /\ exists first m m' more,
      s_media s = first ++ [m] /\ s_media s' = first ++ m' :: more /\ media_longer m m')).
