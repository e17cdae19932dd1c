(** * C92: what masking leaves readable *)
From Coq Require Import List NArith ZArith Ascii String Lia.
From Verif Require Import Str Num Net Types Ext Show AttrParse Media Session Anon SpecPrint SpecAnon SpecMask SpecShape Ext0.
From Verif Require Import PLeft.
Import ListNotations.
Open Scope N_scope.
Open Scope list_scope.

(** Every line of the print of a parsed session that is not of one of the eight
    kinds is also a line of the print of its masked clone: session names, rtcp
    lines with their addresses, identities, msids and others can be read. *)
Theorem C92_unchanged : forall (E : Ext), ext_ok E -> forall sdp strict s (h : list aval) x,
  parse_sdp sdp strict = Ok s -> In x (lines (show_session s)) -> (forall k y, In k masked_kinds -> x <> k ++ y) ->
  In x (lines (show_session (mask_document s (after anon_new h)))).
Proof. exact @unchanged. Qed.

(** The connection data of every media section can be read. *)
Theorem C92_connections : forall (E : Ext), ext_ok E -> forall sdp strict s (h : list aval) m c,
  parse_sdp sdp strict = Ok s -> In m (s_media s) -> m_connection m = Some c ->
  In (lit "c=" ++ show_connection c) (lines (show_session (mask_document s (after anon_new h)))).
Proof. exact @section_connection. Qed.

(** The user name in every candidate that has one can be read, although that of
    ice-ufrag lines is masked. *)
Theorem C92_users : forall (E : Ext), ext_ok E -> forall sdp strict s (h : list aval) m c u,
  parse_sdp sdp strict = Ok s -> In m (s_media s) -> In (ACandidate c) (m_attribute m) -> ufrag c = Some u ->
  exists p q, In (lit "a=candidate:" ++ p ++ lit " ufrag " ++ u ++ q) (lines (show_session (mask_document s (after anon_new h)))).
Proof. exact @candidate_user. Qed.

(** ** Example: the same name and address, masked and not. *)
Definition text : str := crlf_lines
  [lit "v=0"; lit "o=me 7 1 IN IP4 10.1.2.3"; lit "s=secret"; lit "t=0 0"; lit "m=audio 9 RTP/AVP 0"; lit "c=IN IP4 10.1.2.3";
   lit "a=rtcp:9 IN IP4 10.1.2.3"; lit "a=ice-ufrag:user"; lit "a=candidate:1 1 UDP 2113 10.1.2.3 5000 typ host ufrag user"].
Example C92_example : exists s, parse_sdp (E := Ext0) text true = Ok s /\ show_session (E := Ext0) s = text /\
  show_session (E := Ext0) (mask_document s anon_new) = crlf_lines
  [lit "v=0"; lit "o=origin-user-00000001 7 1 IN IP4 0.0.0.1"; lit "s=secret"; lit "t=0 0"; lit "m=audio 9 RTP/AVP 0"; lit "c=IN IP4 10.1.2.3";
   lit "a=rtcp:9 IN IP4 10.1.2.3"; lit "a=ice-ufrag:ice-user-00000001"; lit "a=candidate:1 1 UDP 2113 0.0.0.1 1 typ host ufrag user"].
Proof. eexists. split; [vm_compute; reflexivity|]. split; vm_compute; reflexivity. Qed.

(** Assumptions of everything above. *)
Definition theorems := (C92_unchanged, C92_connections, C92_users).
Print Assumptions theorems.
