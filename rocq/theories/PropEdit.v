(** * C58: editing the text and editing the session agree

    The calls that change a session, one after the other, and the changes that
    [edit] makes to the lines of its text. *)
From Coq Require Import List NArith ZArith Bool Ascii String Lia.
From Verif Require Import Str Num Net Types Ext Show Media Session SpecApi SpecDoc SpecVal SpecPrint SpecOrder SpecSections SpecEdit PPrint9 PPrint10 PEdit.
Import ListNotations.
Open Scope N_scope.
Open Scope list_scope.

(** The edited text is accepted if and only if the edited session obeys the rules
    for sessions, and then the two agree. *)
Theorem C58_edits : forall (E : Ext) sdp b s d ops d' sdp',
  parse_sdp sdp b = Ok s -> written sdp d -> edits ops d d' -> written sdp' d' -> 51 <= byte_len sdp' ->
  (forall s', parse_sdp sdp' b = Ok s' -> structural (fold_left (fun s op => run_session_op op s) ops s) /\
     agree s' (fold_left (fun s op => run_session_op op s) ops s)) /\
  (structural (fold_left (fun s op => run_session_op op s) ops s) -> exists s', parse_sdp sdp' b = Ok s').
Proof. exact @edited. Qed.
(** The same for sessions built with [SdpSession::new] and texts that start with the
    three lines for its arguments. *)
Theorem C58_from_scratch : forall (E : Ext) h v o name b ops d' sdp',
  start h v o name -> edits ops (h, []) d' -> written sdp' d' -> 51 <= byte_len sdp' ->
  (forall s', parse_sdp sdp' b = Ok s' -> structural (fold_left (fun s op => run_session_op op s) ops (session_new v o name)) /\
     s' = fold_left (fun s op => run_session_op op s) ops (session_new v o name)) /\
  (structural (fold_left (fun s op => run_session_op op s) ops (session_new v o name)) -> exists s', parse_sdp sdp' b = Ok s').
Proof. exact @started. Qed.
(** Lines to add: what is printed for a value says that value. *)
Theorem C58_lines : forall (E : Ext), ext_ok E -> forall ty,
  item_wf ty -> ~ item_lossy ty -> countable ty (List.length (printed_line ty)) -> says (printed_line ty) ty.
Proof.
  intros E X ty W L C. split; [intro B; apply Forall_inv in B; destruct ty; discriminate B|]. eexists. split; [exact (printed_line_parses X _ _ W L C) | reflexivity].
Qed.
(** Lines to delete can be found, in one way only. *)
Theorem C58_deletes : forall (E : Ext) p x, exists x', deletes p x x' /\ forall y, deletes p x y -> y = x'.
Proof. exact @deletes_once. Qed.

(** ** The theorems apply *)
Ltac notline := let l := fresh in let K := fresh in let T := fresh in
  intros (_ & l & K & T); vm_compute in K; first [discriminate K | injection K as <-; destruct T as (? & T); discriminate T].
Ltac notlines := repeat (apply Forall_cons; [notline|]); apply Forall_nil.
Ltac theline := split; [let K := fresh in intro K; apply Forall_inv in K; discriminate K
  | eexists; split; [vm_compute; reflexivity | reflexivity]].
Ltac otherline := let t := fresh in let l := fresh in let K := fresh in
  intros t (_ & l & K & <-); vm_compute in K; first [discriminate K | injection K as <-; reflexivity].
Ltac named := vm_compute; tauto.
Definition before : list str := [lit "v=0"; lit "o=- 1 2 IN IP6 ::1"; lit "s=-"; lit "t=0 0"].
Definition body : list str := [lit "c=IN IP6 ::1"; lit "a=mid:1"; lit "a=nothing-known"; lit "a=rtpmap:0 PCMU/8000"; lit "a=sendonly"].
Definition body' : list str := [lit "a=nothing-known"; lit "a=rtpmap:0 PCMU/8000"; lit "a=sendonly"; lit "c=IN IP6 ::2"; lit "a=rtpmap:96 opus/48000/2"].
Definition body2 : list str := [lit "a=sendrecv"; lit "c=IN IP6 ::2"; lit "a=sctp-port:5000"; lit "a=max-message-size:100"].
Definition text : str := crlf_lines (before ++ lit "m=audio 9 RTP/AVP 0 8" :: body).
Definition text' : str := crlf_lines (before ++ lit "a=ice-lite" :: lit "m=audio 9 RTP/AVP 0 8 96" :: body' ++ lit "m=application 5/1 UDP/DTLS/SCTP webrtc-datachannel" :: body2).
Definition audio (pts : list N) : media_line :=
  {| ml_media := Audio; ml_port := 9; ml_port_count := 0; ml_proto := RtpAvp; ml_formats := Integers pts |}.
Definition opus : rtpmap := {| rm_payload_type := 96; rm_codec_name := lit "opus"; rm_frequency := 48000; rm_channels := Some 2 |}.
Definition at2 : connection := {| conn_address := TIp (V6 2); conn_ttl := None; conn_amount := None |}.
Definition calls : list session_op :=
  [OpOnMedia 0 (OpRemoveAttribute TMid); OpOnMedia 0 (OpSetConnection at2); OpAddMedia Application ASendrecv 5 UdpDtlsSctp (TIp (V6 2));
   OpOnMedia 0 (OpAddCodec opus); OpSessionAttribute AIceLite; OpOnMedia 1 (OpAddDatachannel (lit "webrtc-datachannel") 5000 256 100);
   OpSessionAttribute (ASctpPort 1); OpOnMedia 2 OpRemoveCodecs].
Example calls_edit : forall E : Ext, edits calls (before, [(audio [0; 8], body)])
  (before ++ [lit "a=ice-lite"], [(audio [0; 8; 96], body'); (line_datachannel (new_line Application 5 UdpDtlsSctp) (lit "webrtc-datachannel") 5000, body2)]).
Proof.
  intro E.
  eapply edits_more; [eapply (edit_section 0 _ _ [] _ []); [reflexivity|]; apply edit_remove; repeat first [apply deletes_nil | apply deletes_not; [otherline|] | eapply deletes_line; [theline | reflexivity|]]|].
  eapply edits_more; [eapply (edit_section 0 _ _ [] _ []); [reflexivity|]; eapply (edit_connection _ _ _ _ (lit "c=IN IP6 ::2")); [repeat first [apply deletes_nil | apply deletes_not; [otherline|] | eapply deletes_line; [theline | reflexivity|]] | theline]|].
  eapply edits_more; [eapply (edit_add_media _ _ _ _ _ _ _ (lit "a=sendrecv") (lit "c=IN IP6 ::2")); [named | theline | theline]|].
  eapply edits_more; [eapply (edit_section 0 _ _ [] _ [_]); [reflexivity|]; eapply (edit_add_codec _ _ _ (lit "a=rtpmap:96 opus/48000/2")); theline|].
  eapply edits_more; [eapply (edit_session_attribute _ _ _ (lit "a=ice-lite")); [named | theline]|].
  eapply edits_more; [eapply (edit_section 1 _ _ [_] _ []); [reflexivity|]; eapply edit_sized_datachannel; [reflexivity| |]|].
  - eapply (edit_set _ _ _ _ (lit "a=sctp-port:5000")); [named| |theline]. repeat first [apply deletes_nil | apply deletes_not; [otherline|]].
  - eapply (edit_set _ _ _ _ (lit "a=max-message-size:100")); [named| |theline]. repeat first [apply deletes_nil | apply deletes_not; [otherline|]].
  - eapply edits_more; [apply edit_no_session_attribute; vm_compute; intuition discriminate|].
    eapply edits_more; [apply edit_no_section; cbn; lia|]. apply edits_none.
Qed.
Example text_written : forall E : Ext, written text (before, [(audio [0; 8], body)]).
Proof.
  intro E. exists (lit "m=audio 9 RTP/AVP 0 8" :: body ++ []). split; [vm_compute; reflexivity|]. split; [notlines|].
  constructor; [theline | notlines | constructor].
Qed.
Example text'_written : forall E : Ext, written text' (before ++ [lit "a=ice-lite"],
  [(audio [0; 8; 96], body'); (line_datachannel (new_line Application 5 UdpDtlsSctp) (lit "webrtc-datachannel") 5000, body2)]).
Proof.
  intro E. exists (lit "m=audio 9 RTP/AVP 0 8 96" :: body' ++ lit "m=application 5/1 UDP/DTLS/SCTP webrtc-datachannel" :: body2 ++ []).
  split; [vm_compute; reflexivity|]. split; [notlines|].
  constructor; [theline | notlines|]. constructor; [theline | notlines | constructor].
Qed.
Example text_edited : forall E : Ext, exists s s', parse_sdp text false = Ok s /\ parse_sdp text' false = Ok s' /\
  agree s' (fold_left (fun s op => run_session_op op s) calls s) /\ s_warnings s' <> s_warnings s /\ List.length (s_media s') = 2%nat.
Proof.
  intro E. eassert (H : parse_sdp text false = Ok _) by (vm_compute; reflexivity). eassert (H' : parse_sdp text' false = Ok _) by (vm_compute; reflexivity).
  eexists. eexists. split; [exact H|]. split; [exact H'|]. split; [|split; [discriminate | reflexivity]].
  exact (proj2 (proj1 (C58_edits E _ _ _ _ _ _ _ H (text_written E) (calls_edit E) (text'_written E) ltac:(vm_compute; discriminate)) _ H')).
Qed.

Definition start_calls : list session_op :=
  [OpAddMedia Audio ASendrecv 9 RtpAvp (TIp (V6 2)); OpSessionTiming {| t_start := 0; t_stop := 0 |}; OpOnMedia 0 (OpAddCodec opus); OpOnMedia 0 (OpSetPort 5)].
Definition start_text : str := crlf_lines (before ++ [lit "m=audio 5/1 RTP/AVP 96"; lit "a=sendrecv"; lit "c=IN IP6 ::2"; lit "a=rtpmap:96 opus/48000/2"]).
Definition start_origin : origin := {| o_username := lit "-"; o_session_id := 1; o_session_version := 2; o_unicast_addr := TIp (V6 1) |}.
Example built : forall E : Ext,
  parse_sdp start_text true = Ok (fold_left (fun s op => run_session_op op s) start_calls (session_new 0 start_origin (lit "-"))).
Proof.
  intro E. eassert (H : parse_sdp start_text true = Ok _) by (vm_compute; reflexivity). 
  match type of H with _ = Ok ?x => assert (Q : x = fold_left (fun s op => run_session_op op s) start_calls (session_new 0 start_origin (lit "-"))); [|rewrite H, Q; reflexivity] end.
  apply (C58_from_scratch E (firstn 3 before) 0 start_origin (lit "-") true start_calls
    (before, [(line_port (line_codec (new_line Audio 9 RtpAvp) 96) 5, [lit "a=sendrecv"; lit "c=IN IP6 ::2"; lit "a=rtpmap:96 opus/48000/2"])]) start_text);
    [| | |vm_compute; discriminate | exact H].
  - constructor; [theline|]. constructor; [theline|]. constructor; [theline|]. constructor.
  - eapply edits_more; [eapply (edit_add_media _ _ _ _ _ _ _ (lit "a=sendrecv") (lit "c=IN IP6 ::2")); [named | theline | theline]|].
    eapply edits_more; [eapply (edit_session_timing _ _ _ (lit "t=0 0")); theline|].
    eapply edits_more; [eapply (edit_section 0 _ _ [] _ []); [reflexivity|]; eapply (edit_add_codec _ _ _ (lit "a=rtpmap:96 opus/48000/2")); theline|].
    eapply edits_more; [eapply (edit_section 0 _ _ [] _ []); [reflexivity|]; apply edit_port|]. apply edits_none.
  - exists [lit "m=audio 5/1 RTP/AVP 96"; lit "a=sendrecv"; lit "c=IN IP6 ::2"; lit "a=rtpmap:96 opus/48000/2"].
    split; [vm_compute; reflexivity|]. split; [notlines|].
    exact (section_written (lit "m=audio 5/1 RTP/AVP 96") _ [lit "a=sendrecv"; lit "c=IN IP6 ::2"; lit "a=rtpmap:96 opus/48000/2"] [] [] ltac:(theline) ltac:(notlines) no_sections).
Qed.

Definition theorems := (C58_edits, C58_from_scratch, C58_lines, C58_deletes).
Print Assumptions theorems.
