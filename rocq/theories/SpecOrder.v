(** * The order of lines within a section (C54).  Only definitions. *)
From Coq Require Import List NArith ZArith Bool Ascii String Permutation.
From Verif Require Import Str Num Net Types Ext Show Session SpecApi SpecDoc.
Import ListNotations.
Open Scope N_scope.
Open Scope list_scope.

(** Sessions that only differ in the order of attributes and bandwidths. *)
Definition media_alike (m m' : media) : Prop :=
  m_media m = m_media m' /\ m_connection m = m_connection m' /\
  Permutation (m_bandwidth m) (m_bandwidth m') /\ Permutation (m_attribute m) (m_attribute m').
Definition session_alike (s s' : session) : Prop :=
  s_version s = s_version s' /\ s_origin s = s_origin s' /\ s_session s = s_session s' /\
  s_timing s = s_timing s' /\ s_connection s = s_connection s' /\
  Permutation (s_bandwidth s) (s_bandwidth s') /\ Permutation (s_attribute s) (s_attribute s') /\
  Forall2 media_alike (s_media s) (s_media s').
(** What a warning says, without the number of its line. *)
Definition said (w : perr) : option (ierr * str) :=
  match w with PUnsupported e line _ => Some (e, line) | _ => None end.

Section WithExt.
Context {E : Ext}.
(** Lines of which there must not be two. *)
Definition line_is (P : sdp_type -> Prop) (line : str) : Prop :=
  ~ blank line /\ exists l, parse_sdp_line line 0 = Ok l /\ P (l_type l).
Definition at_most_one (P : str -> Prop) (l : list str) : Prop :=
  forall a x b y c, l = a ++ x :: b ++ y :: c -> P x -> ~ P y.
Definition is_name (t : sdp_type) : Prop := exists n, t = TySession n.
Definition is_timing (t : sdp_type) : Prop := exists x, t = TyTiming x.
Definition is_connection (t : sdp_type) : Prop := exists x, t = TyConnection x.
Definition is_simulcast (t : sdp_type) : Prop := exists x, t = TyAttribute (ASimulcast x).
(** Lines of one section, after the session's name, that can be put in any order. *)
Definition movable (before l : list str) : Prop :=
  Exists (line_is is_name) before /\ Forall (fun x => ~ line_is_media x) l /\
  at_most_one (line_is is_timing) l /\ at_most_one (line_is is_connection) l /\
  at_most_one (line_is is_simulcast) l.
End WithExt.
