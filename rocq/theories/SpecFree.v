(** * Lines that no rule about the whole session is about (C78).  Only definitions. *)
From Coq Require Import List NArith ZArith Bool Ascii String.
From Verif Require Import Str Num Net Types Ext Show Session SpecApi SpecDoc SpecOrder SpecVal SpecGrammar SpecRfc SpecRfc2.
Import ListNotations.
Open Scope N_scope.
Open Scope list_scope.

(** Attributes that can break a rule by being there, and by not being there. *)
Definition break_added : list string := ["rtcp-mux-only"; "rid"; "simulcast"; "extmap"]%string.
Definition break_removed : list string := ["rtcp-mux"; "rid"; "simulcast"]%string.
(** b= lines and a= lines of other attributes. *)
Definition outside (names : list string) (t : sdp_type) : Prop :=
  match t with
  | TyBandwidth _ => True
  | TyAttribute a => ~ In (sdp_name a) names
  | _ => False
  end.

Section WithExt.
Context {E : Ext}.
(** After these lines come lines of the session, or of a media section. *)
Definition in_session (before : list str) : Prop :=
  Exists (line_is is_name) before /\ Forall (fun x => ~ line_is_media x) before.
Definition in_media (before : list str) : Prop := Exists line_is_media before.
(** The line can be there. *)
Definition level_at (media_level : bool) (before : list str) : Prop :=
  if media_level then in_media before else in_session before.
Definition item_at (media_level : bool) (t : sdp_type) : Prop :=
  if media_level then media_item t else session_item t.
End WithExt.

(** ** One item more *)
Definition one_more {A} (o : option A) (l l' : list A) : Prop :=
  match o with
  | None => l' = l
  | Some x => exists p q, l = p ++ q /\ l' = p ++ x :: q
  end.
Definition a_bandwidth (t : sdp_type) : option bandwidth := match t with TyBandwidth b => Some b | _ => None end.
Definition an_attribute (t : sdp_type) : option attr := match t with TyAttribute a => Some a | _ => None end.
(** dtls-message of a media section is not kept. *)
Definition a_media_attribute (t : sdp_type) : option attr :=
  match t with
  | TyAttribute a => if String.eqb (sdp_name a) "dtls-message" then None else Some a
  | _ => None
  end.
Definition media_more (t : sdp_type) (m m' : media) : Prop :=
  m_media m' = m_media m /\ m_connection m' = m_connection m /\
  one_more (a_bandwidth t) (m_bandwidth m) (m_bandwidth m') /\
  one_more (a_media_attribute t) (m_attribute m) (m_attribute m').
(** [s'] is [s] and what the line [t] says, in the session or in a media section. *)
Definition session_more (media_level : bool) (t : sdp_type) (s s' : session) : Prop :=
  s_version s' = s_version s /\ s_origin s' = s_origin s /\ s_session s' = s_session s /\
  s_timing s' = s_timing s /\ s_connection s' = s_connection s /\
  (exists w1 w2, s_warnings s = w1 ++ w2 /\ s_warnings s' = w1 ++ map bump w2) /\
  if media_level
  then s_bandwidth s' = s_bandwidth s /\ s_attribute s' = s_attribute s /\
       exists before m m' after, s_media s = before ++ m :: after /\ s_media s' = before ++ m' :: after /\ media_more t m m'
  else s_media s' = s_media s /\ one_more (a_bandwidth t) (s_bandwidth s) (s_bandwidth s') /\
       one_more (an_attribute t) (s_attribute s) (s_attribute s').

(** ** Documents of the RFCs with more lines in their media sections *)
Definition image_line (t : str) : Prop :=
  gen framerate_line t \/ (gen imageattr_line t /\ (Z.of_nat (List.length t) < 2147483648)%Z).
(** Added somewhere after an m= line. *)
Inductive with_images {E : Ext} (ls : list str) : list str -> Prop :=
| images_none : with_images ls ls
| images_one : forall A t B m, with_images ls (A ++ B) -> In m A -> of_kind ["m"]%string m -> image_line t ->
    with_images ls (A ++ t :: B).
