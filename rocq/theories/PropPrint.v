(** * Theorems about printed sessions (C41) *)
From Coq Require Import List NArith ZArith Bool Ascii String.
From Verif Require Import Str Num Net Types Ext Show Address AttrParse Media Session.
From Verif Require Import SpecApi SpecDoc SpecVal SpecItems SpecPrint PPrint PPrint2.
Import ListNotations.
Open Scope N_scope.
Open Scope list_scope.

(** ** C41: one line per item *)
Theorem C41_lines : forall (E : Ext), ext_ok E -> forall s, session_clean s ->
  show_session s = crlf_lines (session_lines s) /\ lines (show_session s) = session_lines s /\
  Forall (fun l => ~ In 10 l) (session_lines s).
Proof. exact @session_lines_ok. Qed.

(** Parsed sessions have no line feed in any field. *)
Theorem C41_parsed : forall (E : Ext), ext_ok E -> forall sdp b s,
  parse_sdp sdp b = Ok s -> session_clean s.
Proof. exact @parsed_clean. Qed.

(** Attributes without a printed form (the first fmtp) do not get a line, except
    when there is no other attribute. *)
Example C41_example : forall E : Ext,
  let origin := {| o_username := lit "-"; o_session_id := 1; o_session_version := 2;
                   o_unicast_addr := TIp (V6 1) |} in
  let empty := AFmtp {| fmtp_payload_type := 96; fmtp_parameters := fmtp_defaults |} in
  let section attributes :=
    {| m_media := {| ml_media := Audio; ml_port := 9; ml_port_count := 0; ml_proto := RtpAvp;
                     ml_formats := Integers [96; 0] |};
       m_connection := Some {| conn_address := TIp (V6 1); conn_ttl := None; conn_amount := None |};
       m_bandwidth := [BwAs 1; BwTias 2]; m_attribute := attributes |} in
  let s attributes :=
    {| s_version := 0; s_origin := origin; s_session := Some (lit "x"); s_connection := None;
       s_bandwidth := []; s_timing := Some {| t_start := 0; t_stop := 0 |};
       s_attribute := [AIceLite]; s_media := [section attributes]; s_warnings := [] |} in
  session_clean (s [empty; AMid (lit "0"); ASendrecv]) /\
  session_lines (s [empty; AMid (lit "0"); ASendrecv]) =
    [lit "v=0"; lit "o=- 1 2 IN IP6 ::1"; lit "s=x"; lit "t=0 0"; lit "a=ice-lite";
     lit "m=audio 9 RTP/AVP 96 0"; lit "b=AS:1"; lit "b=TIAS:2"; lit "c=IN IP6 ::1";
     lit "a=mid:0"; lit "a=sendrecv"] /\
  session_lines (s [empty]) =
    [lit "v=0"; lit "o=- 1 2 IN IP6 ::1"; lit "s=x"; lit "t=0 0"; lit "a=ice-lite";
     lit "m=audio 9 RTP/AVP 96 0"; lit "b=AS:1"; lit "b=TIAS:2"; lit "c=IN IP6 ::1"; lit "a="] /\
  (* the condition is needed *)
  lines (show_session (s [AMid (lit "0" ++ [10] ++ lit "a=ice-lite")])) =
    session_lines (s [AMid (lit "0"); AIceLite]).
Proof.
  intros E origin empty section s. split; [|repeat split; vm_compute; reflexivity].
  split; [|vm_compute; intuition discriminate].
  repeat (constructor; [repeat constructor; vm_compute; intuition discriminate|]). constructor.
Qed.

(** Assumptions of everything above. *)
Definition theorems := (C41_lines, C41_parsed).
Print Assumptions theorems.
