(** * C90: two sessions in one text *)
From Coq Require Import List NArith ZArith Ascii String Lia.
From Verif Require Import Str Num Net Types Ext AttrParse Media Session SpecDoc SpecOnce Ext0.
From Verif Require Import POnce.
Import ListNotations.
Open Scope N_scope.
Open Scope list_scope.

(** No accepted text has two v= lines, two o= lines or two s= lines. *)
Theorem C90_once : forall (E : Ext) sdp strict s l1 x l2 y l3 n m lx ly, lines sdp = l1 ++ x :: l2 ++ y :: l3 ->
  parse_sdp_line x n = Ok lx -> parse_sdp_line y m = Ok ly -> opens (l_type lx) (l_type ly) ->
  parse_sdp sdp strict <> Ok s.
Proof. exact @twice_unread. Qed.

(** A text that contains two accepted texts one after the other is not
    accepted, whatever precedes, separates and follows them. *)
Theorem C90_sessions : forall (E : Ext) a b s1 s2 strict1 strict2 strict before between after s,
  parse_sdp a strict1 = Ok s1 -> parse_sdp b strict2 = Ok s2 ->
  parse_sdp (before ++ a ++ between ++ b ++ after) strict <> Ok s.
Proof. exact @two_sessions. Qed.

(** ** Examples *)
Definition eol : str := [13; 10].
Definition text : str :=
  lit "v=0" ++ eol ++ lit "o=someone 4294967296 1 IN IP6 ::1" ++ eol ++ lit "s=-" ++ eol ++ lit "t=0 0" ++ eol ++
  lit "c=IN IP6 ::1" ++ eol.
Definition section_text : str := lit "m=audio 9 RTP/AVP 0" ++ eol.
(** An accepted text, the same after itself, and itself with a section. *)
Example C90_example : exists s s',
  parse_sdp (E := Ext0) text true = Ok s /\ parse_sdp (E := Ext0) (text ++ section_text) true = Ok s' /\
  parse_sdp (E := Ext0) (text ++ text) false = Err (PSequence (lit "version, origin or session at wrong level") 5).
Proof. eexists. eexists. split; [vm_compute; reflexivity|]. split; [vm_compute; reflexivity|]. vm_compute. reflexivity. Qed.
(** Glued together, with a comment before. *)
Example C90_example_glued : forall s, parse_sdp (E := Ext0) (lit ";" ++ text ++ [] ++ text ++ section_text) false <> Ok s.
Proof.
  intros s. eapply (C90_sessions Ext0 text text _ _ true true); vm_compute; reflexivity.
Qed.
(** Two o= lines that differ. *)
Example C90_example_origins : exists x y lx ly,
  parse_sdp_line (E := Ext0) x 1 = Ok lx /\ parse_sdp_line (E := Ext0) y 2 = Ok ly /\ x <> y /\ opens (l_type lx) (l_type ly).
Proof.
  exists (lit "o=me 7 1 IN IP6 ::1"), (lit " O = you 8 2 IN IP6 ::2"). eexists. eexists.
  split; [vm_compute; reflexivity|]. split; [vm_compute; reflexivity|]. split; [discriminate|]. constructor.
Qed.

(** Assumptions of everything above. *)
Definition theorems := (C90_once, C90_sessions).
Print Assumptions theorems.
