(** * The project's tests of editing and masking, run on the model

    Written by hand after src/media_type_tests.rs, src/lib_tests.rs,
    src/anonymizer_tests.rs and the [anonymize] tests of
    src/attribute_type_tests.rs.  Tests of the model, not theorems about it. *)
From Coq Require Import List NArith Bool Ascii String.
From Verif Require Import Str Num Net Types Ext Show Address AttrParse Media Session Anon Ext0.
Import ListNotations.
Open Scope N_scope.
Open Scope list_scope.
#[local] Existing Instance Ext0.

(** ** media_type_tests.rs *)
Definition dummy_media : media :=
  media_new {| ml_media := Audio; ml_port := 9; ml_port_count := 0; ml_proto := RtpSavpf;
               ml_formats := Integers [] |}.
Definition has (t : attr_type) (m : media) : bool :=
  match get_attribute t m with Some _ => true | None => false end.
Definition formats_len (m : media) : nat :=
  match get_formats m with Integers l => List.length l | Strings l => List.length l end.
Definition rtpmap_of (pt freq : N) (name : str) : rtpmap :=
  {| rm_payload_type := pt; rm_codec_name := name; rm_frequency := freq; rm_channels := None |}.
Definition test_params : fmtp_params :=
  Build_fmtp_params 0 false 4325392 0 0 0 0 0 0 None None None 48000 0 false false false false
    0 0 0 [] [] None [].
Definition test_fmtp (pt : N) : attr := AFmtp {| fmtp_payload_type := pt; fmtp_parameters := test_params |}.
Fixpoint add_all (l : list attr) (m : media) : media * bool :=
  match l with
  | [] => (m, true)
  | a :: r => match add_attribute a m with (m', Ok _) => add_all r m' | (m', _) => (m', false) end
  end.
Definition dummy_attributes : list attr :=
  [ ARtcpfb {| fb_payload_type := Wildcard; fb_feedback_type := FbAck; fb_parameter := []; fb_extra := [] |};
    test_fmtp 1; ASctpmap {| sm_port := 5000; sm_channels := 2 |}; ABundleOnly; ASctpPort 5000 ].
Definition strings_media : media := with_formats (Strings []) dummy_media.

Example test_get_set_port : get_port dummy_media = 9 /\ get_port (set_port 2048 dummy_media) = 2048.
Proof. split; reflexivity. Qed.

Definition codec_added (m : media) : bool :=
  match add_codec (rtpmap_of 96 1000 (lit "foobar")) m with
  | (m', Ok _) => Nat.eqb (formats_len m') 1 && has TRtpmap m'
  | _ => false
  end.
Example test_add_codec : codec_added dummy_media && codec_added strings_media = true.
Proof. vm_compute. reflexivity. Qed.

Definition codecs_removed (m : media) (extra : list attr) : bool :=
  match add_codec (rtpmap_of 96 1000 (lit "foobar")) m with
  | (m', Ok _) =>
      match add_all extra m' with
      | (m', true) =>
          let r := remove_codecs m' in
          Nat.eqb (formats_len m') 1 && has TRtpmap m' && forallb (fun a => has (attr_type_of a) m') extra &&
          Nat.eqb (formats_len r) 0 && negb (has TRtpmap r) && negb (has TRtcpfb r) && negb (has TFmtp r) &&
          negb (has TSctpmap r) && negb (has TSctpPort r)
      | _ => false
      end
  | _ => false
  end.
Example test_remove_codecs : codecs_removed dummy_media [] && codecs_removed strings_media dummy_attributes = true.
Proof. vm_compute. reflexivity. Qed.

Definition opt_is {A} (f : A -> bool) (o : option A) : bool := match o with Some a => f a | None => false end.
Definition datachannel (m : media) (size : N) (p : media -> bool) : bool :=
  match add_datachannel (lit "foo") 5000 256 size m with
  | (m', Ok _) => match get_type m' with Application => p m' | _ => false end
  | _ => false
  end.
Definition is_size (n : N) (a : attr) : bool := match a with AMaxMessageSize k => k =? n | _ => false end.
Definition is_sctp_port (n : N) (a : attr) : bool := match a with ASctpPort k => k =? n | _ => false end.
Definition is_sctpmap (p c : N) (a : attr) : bool :=
  match a with ASctpmap s => (sm_port s =? p) && (sm_channels s =? c) | _ => false end.
Example test_add_datachannel :
  datachannel dummy_media 0 (fun m => negb (has TSctpPort m) && negb (has TMaxMessageSize m) &&
                                      opt_is (is_sctpmap 5000 256) (get_attribute TSctpmap m)) &&
  datachannel dummy_media 1234 (fun m => negb (has TSctpPort m) &&
                                         opt_is (is_size 1234) (get_attribute TMaxMessageSize m)) &&
  datachannel (media_new {| ml_media := Audio; ml_port := 9; ml_port_count := 0; ml_proto := UdpDtlsSctp;
                            ml_formats := Integers [] |}) 5678
              (fun m => negb (has TSctpmap m) && opt_is (is_sctp_port 5000) (get_attribute TSctpPort m) &&
                        opt_is (is_size 5678) (get_attribute TMaxMessageSize m)) = true.
Proof. vm_compute. reflexivity. Qed.

Example test_parse_media_token :
  parse_media_token (lit "audio") = Ok Audio /\ parse_media_token (lit "VIDEO") = Ok Video /\
  parse_media_token (lit "aPplIcatIOn") = Ok Application /\
  is_ok (parse_media_token []) = false /\ is_ok (parse_media_token (lit "foobar")) = false.
Proof. repeat split. Qed.

Definition protocol_token (s : str) (v : protocol_value) : Prop :=
  parse_protocol_token s = Ok v /\ show_protocol_value v = to_upper s.
Example test_parse_protocol_token :
  protocol_token (lit "rtp/avp") RtpAvp /\
  protocol_token (lit "rtp/avpf") RtpAvpf /\
  protocol_token (lit "rtp/savp") RtpSavp /\
  protocol_token (lit "rtp/savpf") RtpSavpf /\
  protocol_token (lit "udp/tls/rtp/savp") UdpTlsRtpSavp /\
  protocol_token (lit "udp/tls/rtp/savpf") UdpTlsRtpSavpf /\
  protocol_token (lit "TCP/dtls/rtp/savp") TcpDtlsRtpSavp /\
  protocol_token (lit "tcp/DTLS/rtp/savpf") TcpDtlsRtpSavpf /\
  protocol_token (lit "dtLs/ScTP") DtlsSctp /\
  protocol_token (lit "udp/DTLS/sctp") UdpDtlsSctp /\
  protocol_token (lit "tcp/dtls/SCTP") TcpDtlsSctp /\
  is_ok (parse_protocol_token []) = false /\ is_ok (parse_protocol_token (lit "foobar")) = false.
Proof. repeat split. Qed.

Definition typed (t : sdp_type) : sdp_line := {| l_number := 0; l_type := t; l_text := [] |}.
Definition dummy_m : sdp_line := typed (TyMedia (m_media dummy_media)).
Definition dummy_c : sdp_line :=
  typed (TyConnection {| conn_address := TIp (V4 2130706433); conn_ttl := None; conn_amount := None |}).
Example test_media_vectors :
  forallb (fun l => match parse_media_vector l with Err _ => true | _ => false end)
    [ [typed (TySession (lit "hello"))]; [dummy_m; dummy_c; dummy_c];
      [dummy_m; typed (TyTiming {| t_start := 0; t_stop := 0 |})];
      [dummy_m; typed (TyAttribute AIceLite)] ] = true.
Proof. vm_compute. reflexivity. Qed.

(** ** lib_tests.rs *)
Definition dummy_session : option session :=
  match parse_origin (lit "mozilla 506705521068071134 0 IN IP4 0.0.0.0"),
        parse_connection (lit "IN IP4 198.51.100.7") with
  | Ok (TyOrigin o), Ok (TyConnection c) => Some (session_set_connection c (session_new 0 o (lit "-")))
  | _, _ => None
  end.
Definition lines (l : list str) : option (list sdp_line) :=
  fold_right (fun s r => match parse_sdp_line s 1, r with Ok x, Some r => Some (x :: r) | _, _ => None end)
    (Some []) l.
Definition session_vector (l : list str) : option (session * res perr unit) :=
  match dummy_session, lines l with Some s, Some l => Some (parse_session_vector s l) | _, _ => None end.
Example test_parse_session_vector :
  match session_vector [lit "a=sendrecv"], session_vector [lit "a=bundle-only"],
        session_vector [lit "v=0"], session_vector [lit "m=audio 0 UDP/TLS/RTP/SAVPF 0"] with
  | Some (s1, Ok _), Some (s2, Err _), Some (_, Err _), Some (_, Err _) =>
      List.length (s_attribute s1) = 1%nat /\ s_attribute s2 = []
  | _, _, _, _ => False
  end.
Proof. vm_compute. repeat constructor. Qed.

Definition sdp_vector (l : list str) : option bool := option_map (fun l => is_ok (parse_sdp_vector l)) (lines l).
Definition o_line : str := lit "o=ausername 4294967296 2 IN IP4 127.0.0.1".
Example test_parse_sdp_vector :
  map sdp_vector
    [ [lit "v=0"; o_line; lit "s=SIP Call"; lit "t=0 0"; lit "c=IN IP6 ::1"];
      [lit "v=0"; o_line; lit "s=SIP Call"; lit "t=0 0"; lit "m=video 56436 RTP/SAVPF 120"; lit "c=IN IP6 ::1"];
      [lit "v=0"; o_line; lit "s=SIP Call"; lit "t=0 0"; lit "m=video 56436 RTP/SAVPF 120"; lit "c=IN IP6 ::1";
       lit "a=rtcp-mux-only"];
      [lit "v=0"];
      [o_line; lit "a=sendrecv"; lit "a=sendrecv"; lit "a=sendrecv"];
      [lit "v=0"; lit "a=sendrecv"; lit "a=sendrecv"; lit "a=sendrecv"];
      [lit "v=0"; o_line; lit "a=sendrecv"; lit "a=sendrecv"] ] =
  [Some true; Some true; Some false; Some false; Some false; Some false; Some false].
Proof. vm_compute. reflexivity. Qed.

Definition media_added (d : attr) : option (session * res ierr unit) :=
  option_map (add_media Audio d 99 RtpSavpf (TIp (V4 2130706433))) dummy_session.
Example test_session_add_media :
  match media_added ASendrecv, media_added AIceLite with
  | Some (s, Ok _), Some (_, Err _) =>
      s_connection s <> None /\ s_attribute s = [] /\
      map (fun m => (m_attribute m, has TSendrecv m)) (s_media s) = [([ASendrecv], true)]
  | _, _ => False
  end.
Proof. vm_compute. repeat split. discriminate. Qed.

Definition crlf : str := [13; 10].
Definition default_fmtp_document : option (media * str) :=
  match add_codec (rtpmap_of 96 1001 (lit "boofar")) dummy_media with
  | (m, Ok _) =>
      match add_attribute (test_fmtp 96) m with
      | (m, Ok _) =>
          Some (m, List.concat (map (fun s => s ++ crlf ++ [10])
                       [lit "v=0"; lit "o=- 0 0 IN IP4 0.0.0.0"; lit "s=-"]) ++ lit "t=0 0" ++ crlf ++
                   show_media m ++ crlf ++ lit "c=IN IP4 0.0.0.0")
      | _ => None
      end
  | _ => None
  end.
Example test_default_fmtp_should_be_empty :
  match default_fmtp_document with
  | Some (m, doc) => has TRtpmap m && has TFmtp m && is_ok (parse_sdp doc true)
  | None => false
  end = true.
Proof. vm_compute. reflexivity. Qed.

Example test_mask_origin :
  match parse_origin (lit "mozilla 506705521068071134 0 IN IP4 0.0.0.0") with
  | Ok (TyOrigin o) =>
      let '(o1, a1) := mask_origin o anon_new in
      let '(o2, _) := mask_origin o a1 in
      map (fun o => (o_username o, o_unicast_addr o)) [o1; o2] =
      [(lit "origin-user-00000001", TIp (V4 1)); (lit "origin-user-00000001", TIp (V4 1))]
  | _ => False
  end.
Proof. vm_compute. reflexivity. Qed.

Definition mask_sdp_document : str :=
  List.concat (map (fun s => s ++ crlf ++ 10 :: repeat 32 8)
    [ lit "v=0"; o_line; lit "s=SIP Call"; lit "c=IN IP4 198.51.100.7/51"; lit "a=ice-pwd:12340";
      lit "a=ice-ufrag:4a799b2e";
      lit "a=fingerprint:sha-1 CD:34:D1:62:16:95:7B:B7:EB:74:E2:39:27:97:EB:0B:23:73:AC:BC";
      lit "t=0 0"; lit "m=video 56436 RTP/SAVPF 120";
      lit "a=candidate:77142221 1 udp 2113937151 192.168.137.1 54081 typ host";
      lit "a=remote-candidates:0 10.0.0.1 5555" ]) ++ lit "a=rtpmap:120 VP8/90000" ++ crlf.
Definition masked_as_expected (a : attr) : bool :=
  match a with
  | AFingerprint f => str_eqb (fp_bytes f) (to_byte_vec 1)
  | AIcePwd p => str_eqb p (lit "ice-password-00000001")
  | AIceUfrag u => str_eqb u (lit "ice-user-00000001")
  | ACandidate _ | ARemoteCandidate _ => false (* no media section is left, see PropAnon.v *)
  | _ => true
  end.
(** The test asserts something of the masked media attributes, but the masked
    session has none. *)
Example test_mask_sdp :
  match parse_sdp mask_sdp_document true with
  | Ok s =>
      let '(m, _) := mask_session s anon_new in
      o_username (s_origin m) = lit "origin-user-00000001" /\ o_unicast_addr (s_origin m) = TIp (V4 1) /\
      option_map conn_address (s_connection m) = Some (TIp (V4 2)) /\
      forallb masked_as_expected (s_attribute m ++ List.concat (map get_attributes (s_media m))) = true /\
      List.length (s_attribute m) = 3%nat
  | _ => False
  end.
Proof. vm_compute. repeat split. Qed.

(** ** attribute_type_tests.rs *)
Definition candidates : list str :=
  [ lit "candidate:0 1 TCP 2122252543 ::8 49760 typ host";
    lit "candidate:0 1 UDP 2122252543 172.16.156.106 19361 typ srflx";
    lit "candidate:1 1 TCP 1685987071 24.23.204.141 54609 typ srflx raddr 192.168.1.4 rport 61665 tcptype passive generation 1 ufrag +DGd" ].
Fixpoint mask_all (l : list str) (a : anon) : list attr :=
  match l with
  | [] => []
  | s :: r => match parse_attribute s with
              | Ok (TyAttribute x) => let '(y, a) := mask_attr x a in y :: mask_all r a
              | _ => []
              end
  end.
Example test_anonymize_attribute_candidate :
  map (fun a => match a with
                | ACandidate c => Some (cand_address c, cand_port c, raddr c, rport c)
                | _ => None
                end) (mask_all candidates anon_new) =
  [ Some (Ip (V6 1), 1, None, None); Some (Ip (V4 1), 2, None, None);
    Some (Ip (V4 2), 3, Some (Ip (V4 3)), Some 4) ].
Proof. vm_compute. reflexivity. Qed.

Example test_anonymize_attribute_fingerprint :
  map show_attr (mask_all [lit "fingerprint:sha-1 CD:34:D1:62:16:95:7B:B7:EB:74:E2:39:27:97:EB:0B:23:73:AC:BC"] anon_new) =
  [lit "fingerprint:sha-1 00:00:00:00:00:00:00:01"].
Proof. vm_compute. reflexivity. Qed.

Example test_anonymize_remote_candidate :
  map show_attr (mask_all [lit "remote-candidates:0 10.0.0.1 5555"] anon_new) =
  [lit "remote-candidates:0 0.0.0.1 1"].
Proof. vm_compute. reflexivity. Qed.

Example test_anonymize_attribute_ssrc :
  map show_attr (mask_all [lit "ssrc:2655508255 cname:{735484ea-4f6c-f74a-bd66-7425f8476c2e}";
    lit "ssrc:2082260239 msid:1d0cdb4e-5934-4f0f-9f88-40392cb60d31 315b086a-5cb6-4221-89de-caf0b038c79d"] anon_new) =
  [lit "ssrc:2655508255 cname:cname-00000001";
   lit "ssrc:2082260239 msid:1d0cdb4e-5934-4f0f-9f88-40392cb60d31 315b086a-5cb6-4221-89de-caf0b038c79d"].
Proof. vm_compute. reflexivity. Qed.

(** ** anonymizer_tests.rs *)
Fixpoint run {A B} (f : A -> anon -> B * anon) (l : list A) (a : anon) : list B :=
  match l with [] => [] | x :: r => let '(y, a) := f x a in y :: run f r a end.
Definition twice {A} (l : list A) : list A := l ++ l.
Example test_mask_ip :
  run mask_ip (twice [V4 2130706433; V6 0; V4 167772161; V6 528189235; V4 16843009; V6 1623734988148990]) anon_new =
  twice [V4 1; V6 1; V4 2; V6 2; V4 3; V6 3].
Proof. vm_compute. reflexivity. Qed.
Example test_mask_port : run mask_port (twice [0; 125; 12346]) anon_new = twice [1; 2; 3].
Proof. vm_compute. reflexivity. Qed.
Example test_mask_ice_password :
  run mask_ice_password (twice [lit "vasdfioqwenl14082`14"; lit "0"; lit "ncp	HY878hp(poh"]) anon_new =
  twice [lit "ice-password-00000001"; lit "ice-password-00000002"; lit "ice-password-00000003"].
Proof. vm_compute. reflexivity. Qed.
Example test_mask_ice_user :
  run mask_ice_user (twice [lit "user1"; lit "user2"; lit "8109q2asdf"]) anon_new =
  twice [lit "ice-user-00000001"; lit "ice-user-00000002"; lit "ice-user-00000003"].
Proof. vm_compute. reflexivity. Qed.
Example test_mask_cert_fingerprint :
  run mask_cert_finger_print (twice [[89; 74; 139]; [48; 255; 142]; [223; 46; 172]]) anon_new =
  twice [to_byte_vec 1; to_byte_vec 2; to_byte_vec 3].
Proof. vm_compute. reflexivity. Qed.
Example test_mask_cname :
  run mask_cname (twice [lit "mailto:foo@bar"; lit "JohnDoe"; lit "Jane Doe"]) anon_new =
  twice [lit "cname-00000001"; lit "cname-00000002"; lit "cname-00000003"].
Proof. vm_compute. reflexivity. Qed.
