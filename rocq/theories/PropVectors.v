(** * C74: what the public loops over lines do with the caller's lines *)
From Coq Require Import List NArith Ascii String.
From Verif Require Import Str Num Net Types Ext Show AttrParse Media Session Vectors SpecApi SpecDoc SpecVal SpecSeq SpecVectors.
From Verif Require Import PVectors.
Import ListNotations.
Open Scope list_scope.

(** [parse_session_vector]: the lines before the first refused one are in the
    session, that line is gone, those after it are left. *)
Theorem C74_session : forall (E : Ext) s ls s' left r, session_vector s ls = (s', left, r) <-> session_reads s ls s' left r.
Proof. exact @session_iff. Qed.

(** [parse_media_vector]: likewise; with no lines at all it panics. *)
Theorem C74_media : forall (E : Ext) ls left r, media_vector ls = (left, r) <-> media_reads ls left r.
Proof. exact @media_iff. Qed.

(** After an error the caller can go on with the lines left: the refused line is skipped. *)
Theorem C74_resume : forall (E : Ext) s ls s1 rest e, session_vector s ls = (s1, rest, Err e) ->
  exists good l, ls = good ++ l :: rest /\ session_vector s1 rest = session_vector s (good ++ rest).
Proof. exact @resume. Qed.

(** The loops inside [parse_sdp] are these. *)
Theorem C74_same : forall E : Ext,
  (forall s ls, let '(s', rest, r) := session_vector s ls in parse_session_vector s ls = (s', r)) /\
  (forall ls, snd (media_vector ls) = parse_media_vector ls).
Proof. exact @same. Qed.

(** ** Examples *)
Definition at_line (n : nat) (t : sdp_type) : sdp_line := {| l_number := n; l_type := t; l_text := [] |}.
Definition empty : session :=
  session_new 0 {| o_username := lit "-"; o_session_id := 0; o_session_version := 0; o_unicast_addr := TIp (V6 1) |} [].
Definition zero_time : timing := {| t_start := 0; t_stop := 0 |}.

Example C74_example_session : forall E : Ext,
  let ls := [at_line 3 (TyBandwidth (BwAs 7)); at_line 4 (TyAttribute (AMid (lit "a"))); at_line 5 (TyTiming zero_time)] in
  session_vector empty ls =
    (session_add_bandwidth (BwAs 7) empty, [at_line 5 (TyTiming zero_time)],
     Err (PSequence (lit "Parsing error: mid:a not allowed at session level") 4)) /\
  session_vector (session_add_bandwidth (BwAs 7) empty) [at_line 5 (TyTiming zero_time)] =
    (session_set_timing zero_time (session_add_bandwidth (BwAs 7) empty), [], Ok tt).
Proof. intro E. split; vm_compute; reflexivity. Qed.

Definition video : media_line :=
  {| ml_media := Video; ml_port := 9; ml_port_count := 0; ml_proto := UdpTlsRtpSavpf; ml_formats := Integers [96%N] |}.
Example C74_example_media : forall E : Ext,
  media_vector [at_line 5 (TyMedia video); at_line 6 (TyAttribute (AMid (lit "a"))); at_line 7 (TyTiming zero_time);
                at_line 8 (TyMedia video)] =
    ([at_line 8 (TyMedia video)], Err (PSequence (lit "invalid type in media section") 7)) /\
  media_vector [at_line 8 (TyMedia video)] = ([], Ok [media_new video]) /\
  media_vector [] = ([], Panic).
Proof. intro E. split; [vm_compute; reflexivity|]. split; vm_compute; reflexivity. Qed.

(** Assumptions of everything above. *)
Definition theorems := (C74_session, C74_media, C74_resume, C74_same).
Print Assumptions theorems.
