(** * Theorems about printing sessions that were built with the API (C52) *)
From Coq Require Import List Arith NArith ZArith Bool Ascii String.
From Verif Require Import Str Num Net Types Ext Show Address AttrParse Media Session.
From Verif Require Import SpecApi SpecDoc SpecVal SpecItems SpecPrint SpecBuild PPrint3 PBuild.
Import ListNotations.
Open Scope N_scope.
Open Scope list_scope.

(** ** C52: exactly which of them are read back *)
Theorem C52_exactly : forall (E : Ext), ext_ok E -> forall s b, built_well s ->
  (Z.of_nat (List.length (show_session s)) < 2147483648)%Z ->
  (parse_sdp (show_session s) b = Ok s <->
   structural s /\ media_lines_solid s /\ 51 <= byte_len (show_session s)).
Proof. exact @built_parses. Qed.

(** Any number of audio and video sections, each with at least one codec. *)
Theorem C52_offers : forall (E : Ext), ext_ok E -> forall o name t os s b,
  solid (TyOrigin o) -> ~ In 10 name -> solid (TyTiming t) -> Forall offer_ok os ->
  s = fold_left (fun s op => run_session_op op s)
        (OpSessionTiming t :: all_offers 0 os) (session_new 0 o name) ->
  51 <= byte_len (show_session s) -> (Z.of_nat (List.length (show_session s)) < 2147483648)%Z ->
  parse_sdp (show_session s) b = Ok s.
Proof. exact @offers_parse. Qed.

(** ** Sessions that are not read back *)
Definition ex_origin : origin :=
  {| o_username := lit "-"; o_session_id := 1; o_session_version := 2; o_unicast_addr := TIp (V6 1) |}.
Definition ex_timing : timing := {| t_start := 0; t_stop := 0 |}.
Definition ex_add (mt : media_value) (proto : protocol_value) : session_op :=
  OpAddMedia mt ASendrecv 9 proto (TIp (V6 1)).
Definition build {E : Ext} (ops : list session_op) : session :=
  fold_left (fun s op => run_session_op op s) (OpSessionTiming ex_timing :: ops) (session_new 0 ex_origin (lit "-")).

(** Straight after add_media the session cannot be parsed: there are no formats. *)
Theorem C52_without_codecs_refuted : forall (E : Ext), exists s,
  s = build [ex_add Audio RtpAvp] /\ 51 <= byte_len (show_session s) /\
  forall b, exists e, parse_sdp (show_session s) b = Err e.
Proof.
  intro E. eexists. split; [reflexivity|]. split; [vm_compute; discriminate|].
  intros [|]; eexists; vm_compute; reflexivity.
Qed.

(** A data channel in the old format is read as another value, printed alike. *)
Theorem C52_old_datachannel_refuted : forall (E : Ext), exists s s',
  s = build [ex_add Application DtlsSctp; OpOnMedia 0 (OpAddDatachannel (lit "webrtc-datachannel") 5000 256 0)] /\
  parse_sdp (show_session s) true = Ok s' /\ s' <> s /\ show_session s' = show_session s.
Proof.
  intro E. eexists. eexists. split; [reflexivity|]. split; [vm_compute; reflexivity|].
  split; [vm_compute; discriminate|vm_compute; reflexivity].
Qed.

(** ** Examples *)
Definition ex_codec (pt : N) (name : str) : rtpmap :=
  {| rm_payload_type := pt; rm_codec_name := name; rm_frequency := 48000; rm_channels := Some 2 |}.
Definition ex_offer : offer :=
  {| of_kind := Audio; of_direction := ASendonly; of_port := 9; of_proto := UdpTlsRtpSavpf;
     of_address := TIp (V6 1); of_codecs := [ex_codec 109 (lit "opus"); ex_codec 0 (lit "PCMU")] |}.
Ltac solid_by X line :=
  split; [refine (line_means_wf X line 0%nat {| l_number := _; l_type := _; l_text := _ |} _); vm_compute; reflexivity|];
  split; [exact (fun f => f)|vm_compute; repeat constructor; intros H; repeat destruct H as [H|H]; try discriminate; contradiction].
Example C52_offer_example : forall E : Ext, ext_ok E ->
  solid (TyOrigin ex_origin) /\ solid (TyTiming ex_timing) /\ offer_ok ex_offer.
Proof.
  intros E X. split; [solid_by X (lit "o=- 1 2 IN IP6 ::1")|]. split; [solid_by X (lit "t=0 0")|]. split.
  - left. reflexivity.
  - right. left. reflexivity.
  - vm_compute. discriminate.
  - solid_by X (lit "c=IN IP6 ::1").
  - discriminate.
  - constructor; [split; [solid_by X (lit "a=rtpmap:109 opus/48000/2")|]|].
    { vm_compute. do 4 (split; [first [reflexivity|discriminate]|]). intros (H1 & H2). contradiction. }
    constructor; [split; [solid_by X (lit "a=rtpmap:0 PCMU/48000/2")|]|constructor].
    vm_compute. do 4 (split; [first [reflexivity|discriminate]|]). intros (H1 & H2). contradiction.
Qed.
Definition ex_text : str := crlf_lines
  [lit "v=0"; lit "o=- 1 2 IN IP6 ::1"; lit "s=-"; lit "t=0 0";
   lit "m=audio 9/1 UDP/TLS/RTP/SAVPF 109 0"; lit "c=IN IP6 ::1"; lit "a=sendonly";
   lit "a=rtpmap:109 opus/48000/2"; lit "a=rtpmap:0 PCMU/48000/2";
   lit "m=application 9/1 UDP/DTLS/SCTP webrtc-datachannel"; lit "c=IN IP6 ::1"; lit "a=sendrecv";
   lit "a=sctp-port:5000"; lit "a=max-message-size:1073741823"].
Example C52_example : forall E : Ext,
  show_session (build (all_offers 0 [ex_offer] ++
    [ex_add Application UdpDtlsSctp; OpOnMedia 1 (OpAddDatachannel (lit "webrtc-datachannel") 5000 256 1073741823)])) = ex_text /\
  parse_sdp ex_text true = Ok (build (all_offers 0 [ex_offer] ++
    [ex_add Application UdpDtlsSctp; OpOnMedia 1 (OpAddDatachannel (lit "webrtc-datachannel") 5000 256 1073741823)])).
Proof. intro E. split; vm_compute; reflexivity. Qed.

Definition theorems := (C52_exactly, C52_offers, C52_without_codecs_refuted, C52_old_datachannel_refuted).
Print Assumptions theorems.
