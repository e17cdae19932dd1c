(** * C91: the lines of masked documents *)
From Coq Require Import List NArith ZArith Ascii String Lia.
From Verif Require Import Str Num Net Types Ext Show AttrParse Media Session Anon SpecPrint SpecAnon SpecMask SpecShape Ext0.
From Verif Require Import PShape.
Import ListNotations.
Open Scope N_scope.
Open Scope list_scope.

(** The print of a parsed session and that of its masked clone, with the clones
    of its media sections, have the same number of lines; each line is the same,
    but for those of eight kinds, of which each comes in the same place. *)
Theorem C91_texts : forall (E : Ext), ext_ok E -> forall sdp strict s (h : list aval), parse_sdp sdp strict = Ok s ->
  Forall2 same_kind (lines (show_session s)) (lines (show_session (mask_document s (after anon_new h)))).
Proof. exact @parsed_shape. Qed.

(** The same for all sessions without empty passwords and user names, with
    [session_lines] for the lines of their texts (C41). *)
Theorem C91_sessions : forall (E : Ext) (s : session) (h : list aval), all_named s ->
  Forall2 same_kind (session_lines s) (session_lines (mask_document s (after anon_new h))).
Proof. exact @masked_lines. Qed.

(** ** False of the code: empty passwords

    An empty password, which only calls can set, has no line of its own, but its
    mask has one. *)
Definition built (attributes : list attr) : session :=
  {| s_version := 0; s_origin := {| o_username := lit "-"; o_session_id := 1; o_session_version := 2; o_unicast_addr := TIp (V6 1) |};
     s_session := Some (lit "-"); s_connection := None; s_bandwidth := []; s_timing := Some {| t_start := 0; t_stop := 0 |};
     s_attribute := attributes; s_media := []; s_warnings := [] |}.
Theorem C91_empty_refuted : forall E : Ext, exists s,
  List.length (lines (show_session s)) = 5%nat /\ List.length (lines (show_session (mask_document s anon_new))) = 6%nat.
Proof. intros E. exists (built [AIcePwd []; AIceLite]). split; vm_compute; reflexivity. Qed.

(** ** Examples *)
Definition eol : str := [13; 10].
Definition text : str :=
  lit "v=0" ++ eol ++ lit "o=me 7 1 IN IP4 10.1.2.3" ++ eol ++ lit "s=secret" ++ eol ++ lit "t=0 0" ++ eol ++
  lit "c=IN IP4 10.1.2.3" ++ eol ++ lit "a=ice-lite" ++ eol ++ lit "m=audio 9 RTP/AVP 0" ++ eol ++ lit "a=ice-pwd:x" ++ eol ++ lit "a=mid:a" ++ eol.
Example C91_example : exists s, parse_sdp (E := Ext0) text true = Ok s /\ show_session (E := Ext0) s = text /\
  show_session (E := Ext0) (mask_document s anon_new) =
    lit "v=0" ++ eol ++ lit "o=origin-user-00000001 7 1 IN IP4 0.0.0.1" ++ eol ++ lit "s=secret" ++ eol ++ lit "t=0 0" ++ eol ++
    lit "c=IN IP4 0.0.0.1" ++ eol ++ lit "a=ice-lite" ++ eol ++ lit "m=audio 9 RTP/AVP 0" ++ eol ++ lit "a=ice-pwd:ice-password-00000001" ++ eol ++
    lit "a=mid:a" ++ eol.
Proof. eexists. split; [vm_compute; reflexivity|]. split; vm_compute; reflexivity. Qed.
(** The relation tells lines apart. *)
Example C91_example_kinds : ~ same_kind (lit "a=mid:a") (lit "a=mid:b") /\ ~ same_kind (lit "a=ice-pwd:a") (lit "a=ssrc:1").
Proof.
  split; (intros [K|(k & x & y & I & K & L)]; [discriminate K|];
    repeat (destruct I as [<-|I]; [(discriminate K || discriminate L)|]); destruct I).
Qed.

(** Assumptions of everything above. *)
Definition theorems := (C91_texts, C91_sessions, C91_empty_refuted).
Print Assumptions theorems.
