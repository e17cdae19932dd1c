(** * Documents section by section (C56).  Only definitions. *)
From Coq Require Import List NArith Bool Ascii String Permutation.
From Verif Require Import Str Num Net Types Ext Session SpecApi SpecDoc SpecOrder.
Import ListNotations.
Open Scope N_scope.
Open Scope list_scope.

Section WithExt.
Context {E : Ext}.
(** An m= line and the lines up to the next one. *)
Definition section_text (x : list str) : Prop :=
  exists line body, x = line :: body /\ line_is_media line /\ Forall (fun y => ~ line_is_media y) body.
(** A document: the lines before the first m= line, and the sections. *)
Definition document_text (sdp : str) (head : list str) (secs : list (list str)) : Prop :=
  lines sdp = head ++ List.concat secs /\ Forall (fun y => ~ line_is_media y) head /\ Forall section_text secs.
End WithExt.

(** Sessions that agree in everything but their media sections and warnings. *)
Definition same_head (s s' : session) : Prop :=
  s_version s = s_version s' /\ s_origin s = s_origin s' /\ s_session s = s_session s' /\
  s_connection s = s_connection s' /\ s_bandwidth s = s_bandwidth s' /\ s_timing s = s_timing s' /\
  s_attribute s = s_attribute s'.
(** A session put together from those of its sections; warnings of the head
    occur in all of them. *)
Definition combined (ss : list session) (s : session) : Prop :=
  Forall (same_head s) ss /\ s_media s = flat_map s_media ss /\
  exists wh ws, map said (s_warnings s) = wh ++ List.concat ws /\
    Forall2 (fun s1 w => map said (s_warnings s1) = wh ++ w) ss ws.
