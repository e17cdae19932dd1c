(** * Serialized values (C57).  Only definitions. *)
From Coq Require Import List NArith Bool Ascii String.
From Verif Require Import Str Num Net Types Ext Show Session Tools Serde SpecDoc SpecItems SpecTools.
Import ListNotations.
Open Scope N_scope.
Open Scope list_scope.
(** ** Shapes of serialized values *)
Inductive variant_shape {A : Type} :=
| VUnit | VNew (s : A) | VTuple (l : list A) | VStruct (l : list (string * A)).
Arguments variant_shape : clear implicits.
Inductive schema :=
| ScBool | ScUint (bits : N) | ScF32 | ScF64 | ScStr
| ScOption (s : schema) | ScSeq (s : schema) | ScTuple (l : list schema)
| ScStruct (name : string) (l : list (string * schema))
| ScEnum (name : string) (l : list (string * variant_shape schema))
| ScError.
Inductive conforms : schema -> sv -> Prop :=
| conforms_bool b : conforms ScBool (SvBool b)
| conforms_uint bits n : conforms (ScUint bits) (SvUint bits n)
| conforms_f32 x : conforms ScF32 (SvF32 x)
| conforms_f64 x : conforms ScF64 (SvF64 x)
| conforms_str s : conforms ScStr (SvStr s)
| conforms_none s : conforms (ScOption s) SvNone
| conforms_some s v : conforms s v -> conforms (ScOption s) (SvSome v)
| conforms_seq s l : Forall (conforms s) l -> conforms (ScSeq s) (SvSeq l)
| conforms_tuple ss l : Forall2 conforms ss l -> conforms (ScTuple ss) (SvTuple l)
| conforms_struct name ss l :
    Forall2 (fun s f => fst f = of_string (fst s) /\ conforms (snd s) (snd f)) ss l ->
    conforms (ScStruct name ss) (SvStruct (of_string name) l)
| conforms_unit name vs i v : nth_error vs i = Some (v, VUnit) ->
    conforms (ScEnum name vs) (SvUnitVariant (of_string name) i (of_string v))
| conforms_new name vs i v s x : nth_error vs i = Some (v, VNew s) -> conforms s x ->
    conforms (ScEnum name vs) (SvNewtypeVariant (of_string name) i (of_string v) x)
| conforms_tuple_variant name vs i v ss l : nth_error vs i = Some (v, VTuple ss) -> Forall2 conforms ss l ->
    conforms (ScEnum name vs) (SvTupleVariant (of_string name) i (of_string v) l)
| conforms_struct_variant name vs i v ss l : nth_error vs i = Some (v, VStruct ss) ->
    Forall2 (fun s f => fst f = of_string (fst s) /\ conforms (snd s) (snd f)) ss l ->
    conforms (ScEnum name vs) (SvStructVariant (of_string name) i (of_string v) l)
(** Errors: three or four fields. *)
| conforms_sequence m n :
    conforms ScError (SvStruct (lit "error")
      [(lit "type", SvStr (lit "Sequence")); (lit "message", SvStr m); (lit "line_number", SvUint 64 n)])
| conforms_line k m l n : k = lit "Line" \/ k = lit "Unsupported" ->
    conforms ScError (SvStruct (lit "error")
      [(lit "type", SvStr k); (lit "message", SvStr m); (lit "line", SvStr l); (lit "line_number", SvUint 64 n)]).

(** ** The shapes of the crate's types *)
Local Open Scope string_scope.
Definition units (name : string) (l : list string) : schema := ScEnum name (map (fun v => (v, VUnit)) l).
Definition ip_schema (human : bool) : schema :=
  if human then ScStr
  else ScEnum "IpAddr" [("V4", VNew (ScTuple (repeat (ScUint 8) 4))); ("V6", VNew (ScTuple (repeat (ScUint 8) 16)))].
Section Human.
Context (human : bool).
Definition address_schema : schema := ScEnum "Address" [("Fqdn", VNew ScStr); ("Ip", VNew (ip_schema human))].
Definition typed_address_schema : schema :=
  ScEnum "ExplicitlyTypedAddress"
    [("Fqdn", VStruct [("address_type", units "AddressType" ["IpV4"; "IpV6"]); ("domain", ScStr)]); ("Ip", VNew (ip_schema human))].
Definition payload_schema : schema := ScEnum "SdpAttributePayloadType" [("PayloadType", VNew (ScUint 8)); ("Wildcard", VUnit)].
Definition candidate_schema : schema :=
  ScStruct "SdpAttributeCandidate"
    [("foundation", ScStr); ("component", ScUint 32); ("transport", units "SdpAttributeCandidateTransport" ["Udp"; "Tcp"]);
     ("priority", ScUint 64); ("address", address_schema); ("port", ScUint 32);
     ("c_type", units "SdpAttributeCandidateType" ["Host"; "Srflx"; "Prflx"; "Relay"]);
     ("raddr", ScOption address_schema); ("rport", ScOption (ScUint 32));
     ("tcp_type", ScOption (units "SdpAttributeCandidateTcpType" ["Active"; "Passive"; "Simultaneous"]));
     ("generation", ScOption (ScUint 32)); ("ufrag", ScOption ScStr); ("networkcost", ScOption (ScUint 32));
     ("unknown_extensions", ScSeq (ScTuple [ScStr; ScStr]))].
Definition remote_candidate_schema : schema :=
  ScStruct "SdpAttributeRemoteCandidate" [("component", ScUint 32); ("address", address_schema); ("port", ScUint 32)].
Definition simulcast_version_schema : schema :=
  ScStruct "SdpAttributeSimulcastVersion"
    [("ids", ScSeq (ScStruct "SdpAttributeSimulcastId" [("id", ScStr); ("paused", ScBool)]))].
Definition simulcast_schema : schema :=
  ScStruct "SdpAttributeSimulcast" [("send", ScSeq simulcast_version_schema); ("receive", ScSeq simulcast_version_schema)].
Definition rtcp_schema : schema :=
  ScStruct "SdpAttributeRtcp" [("port", ScUint 16); ("unicast_addr", ScOption typed_address_schema)].
Definition rtcp_fb_schema : schema :=
  ScStruct "SdpAttributeRtcpFb"
    [("payload_type", payload_schema);
     ("feedback_type", units "SdpAttributeRtcpFbType" ["Ack"; "Ccm"; "Nack"; "TrrInt"; "Remb"; "TransCc"]);
     ("parameter", ScStr); ("extra", ScStr)].
Definition extmap_schema : schema :=
  ScStruct "SdpAttributeExtmap"
    [("id", ScUint 16); ("direction", ScOption (units "SdpAttributeDirection" ["Recvonly"; "Sendonly"; "Sendrecv"]));
     ("url", ScStr); ("extension_attributes", ScOption ScStr)].
Definition rtx_schema : schema := ScStruct "RtxFmtpParameters" [("apt", ScUint 8); ("rtx_time", ScOption (ScUint 32))].
Definition fmtp_params_schema : schema :=
  ScStruct "SdpAttributeFmtpParameters"
    [("packetization_mode", ScUint 32); ("level_asymmetry_allowed", ScBool); ("profile_level_id", ScUint 32);
     ("max_fs", ScUint 32); ("max_cpb", ScUint 32); ("max_dpb", ScUint 32); ("max_br", ScUint 32);
     ("max_mbps", ScUint 32); ("max_fr", ScUint 32); ("profile", ScOption (ScUint 8)); ("level_idx", ScOption (ScUint 8));
     ("tier", ScOption (ScUint 8)); ("maxplaybackrate", ScUint 32); ("maxaveragebitrate", ScUint 32); ("usedtx", ScBool);
     ("stereo", ScBool); ("useinbandfec", ScBool); ("cbr", ScBool); ("ptime", ScUint 32); ("minptime", ScUint 32);
     ("maxptime", ScUint 32); ("encodings", ScSeq (ScUint 8)); ("dtmf_tones", ScStr); ("rtx", ScOption rtx_schema);
     ("unknown_tokens", ScSeq ScStr)].
Definition fmtp_schema : schema :=
  ScStruct "SdpAttributeFmtp" [("payload_type", ScUint 8); ("parameters", fmtp_params_schema)].
Definition fingerprint_schema : schema :=
  ScStruct "SdpAttributeFingerprint"
    [("hash_algorithm", units "SdpAttributeFingerprintHashType" ["Sha1"; "Sha224"; "Sha256"; "Sha384"; "Sha512"]);
     ("fingerprint", ScSeq (ScUint 8))].
Definition xy_schema : schema :=
  ScEnum "SdpAttributeImageAttrXyRange"
    [("Range", VTuple [ScUint 32; ScUint 32; ScOption (ScUint 32)]); ("DiscreteValues", VNew (ScSeq (ScUint 32)))].
Definition image_set_schema : schema :=
  ScStruct "SdpAttributeImageAttrSet"
    [("x", xy_schema); ("y", xy_schema);
     ("sar", ScOption (ScEnum "SdpAttributeImageAttrSRange"
        [("Range", VTuple [ScF32; ScF32]); ("DiscreteValues", VNew (ScSeq ScF32))]));
     ("par", ScOption (ScStruct "SdpAttributeImageAttrPRange" [("min", ScF32); ("max", ScF32)])); ("q", ScOption ScF32)].
Definition image_set_list_schema : schema :=
  ScEnum "SdpAttributeImageAttrSetList" [("Sets", VNew (ScSeq image_set_schema)); ("Wildcard", VUnit)].
Definition image_attr_schema : schema :=
  ScStruct "SdpAttributeImageAttr" [("pt", payload_schema); ("send", image_set_list_schema); ("recv", image_set_list_schema)].
Definition sctpmap_schema : schema := ScStruct "SdpAttributeSctpmap" [("port", ScUint 16); ("channels", ScUint 32)].
Definition group_schema : schema :=
  ScStruct "SdpAttributeGroup"
    [("semantics", units "SdpAttributeGroupSemantic"
        ["LipSynchronization"; "FlowIdentification"; "SingleReservationFlow"; "AlternateNetworkAddressType";
         "ForwardErrorCorrection"; "DecodingDependency"; "Bundle"]);
     ("tags", ScSeq ScStr)].
Definition msid_schema : schema := ScStruct "SdpAttributeMsid" [("id", ScStr); ("appdata", ScOption ScStr)].
Definition msid_semantic_schema : schema :=
  ScStruct "SdpAttributeMsidSemantic" [("semantic", ScStr); ("msids", ScSeq ScStr)].
Definition rid_schema : schema :=
  ScStruct "SdpAttributeRid"
    [("id", ScStr); ("direction", units "SdpSingleDirection" ["Send"; "Recv"]); ("formats", ScSeq (ScUint 16));
     ("params", ScStruct "SdpAttributeRidParameters"
        [("max_width", ScUint 32); ("max_height", ScUint 32); ("max_fps", ScUint 32); ("max_fs", ScUint 32);
         ("max_br", ScUint 32); ("max_pps", ScUint 32); ("unknown", ScSeq ScStr)]);
     ("depends", ScSeq ScStr)].
Definition rtpmap_schema : schema :=
  ScStruct "SdpAttributeRtpmap"
    [("payload_type", ScUint 8); ("codec_name", ScStr); ("frequency", ScUint 32); ("channels", ScOption (ScUint 32))].
Definition ssrc_schema : schema :=
  ScStruct "SdpAttributeSsrc" [("id", ScUint 32); ("attribute", ScOption ScStr); ("value", ScOption ScStr)].
Definition attr_schema : schema :=
  ScEnum "SdpAttribute"
    [("BundleOnly", VUnit); ("Candidate", VNew candidate_schema);
     ("DtlsMessage", VNew (ScEnum "SdpAttributeDtlsMessage" [("Client", VNew ScStr); ("Server", VNew ScStr)]));
     ("EndOfCandidates", VUnit); ("Extmap", VNew extmap_schema); ("ExtmapAllowMixed", VUnit);
     ("Fingerprint", VNew fingerprint_schema); ("Fmtp", VNew fmtp_schema); ("FrameRate", VNew ScF64);
     ("Group", VNew group_schema); ("IceLite", VUnit); ("IceMismatch", VUnit); ("IceOptions", VNew (ScSeq ScStr));
     ("IcePacing", VNew (ScUint 64)); ("IcePwd", VNew ScStr); ("IceUfrag", VNew ScStr); ("Identity", VNew ScStr);
     ("ImageAttr", VNew image_attr_schema); ("Inactive", VUnit); ("Label", VNew ScStr);
     ("MaxMessageSize", VNew (ScUint 64)); ("MaxPtime", VNew (ScUint 64)); ("Mid", VNew ScStr); ("Msid", VNew msid_schema);
     ("MsidSemantic", VNew msid_semantic_schema); ("Ptime", VNew (ScUint 64)); ("Rid", VNew rid_schema); ("Recvonly", VUnit);
     ("RemoteCandidate", VNew remote_candidate_schema); ("Rtpmap", VNew rtpmap_schema); ("Rtcp", VNew rtcp_schema);
     ("Rtcpfb", VNew rtcp_fb_schema); ("RtcpMux", VUnit); ("RtcpMuxOnly", VUnit); ("RtcpRsize", VUnit);
     ("Sctpmap", VNew sctpmap_schema); ("SctpPort", VNew (ScUint 64)); ("Sendonly", VUnit); ("Sendrecv", VUnit);
     ("Setup", VNew (units "SdpAttributeSetup" ["Active"; "Actpass"; "Holdconn"; "Passive"]));
     ("Simulcast", VNew simulcast_schema); ("Ssrc", VNew ssrc_schema);
     ("SsrcGroup", VTuple
        [units "SdpSsrcGroupSemantic"
           ["Duplication"; "FlowIdentification"; "ForwardErrorCorrection"; "ForwardErrorCorrectionFr"; "Sim"];
         ScSeq ssrc_schema])].
Definition media_line_schema : schema :=
  ScStruct "SdpMediaLine"
    [("media", units "SdpMediaValue" ["Audio"; "Video"; "Application"]); ("port", ScUint 32); ("port_count", ScUint 32);
     ("proto", units "SdpProtocolValue"
        ["RtpAvp"; "RtpAvpf"; "RtpSavp"; "RtpSavpf"; "TcpDtlsRtpSavp"; "TcpDtlsRtpSavpf"; "UdpTlsRtpSavp";
         "UdpTlsRtpSavpf"; "DtlsSctp"; "UdpDtlsSctp"; "TcpDtlsSctp"]);
     ("formats", ScEnum "SdpFormatList" [("Integers", VNew (ScSeq (ScUint 32))); ("Strings", VNew (ScSeq ScStr))])].
Definition bandwidth_schema : schema :=
  ScEnum "SdpBandwidth"
    [("As", VNew (ScUint 32)); ("Ct", VNew (ScUint 32)); ("Tias", VNew (ScUint 32)); ("Unknown", VTuple [ScStr; ScUint 32])].
Definition connection_schema : schema :=
  ScStruct "SdpConnection"
    [("address", typed_address_schema); ("ttl", ScOption (ScUint 8)); ("amount", ScOption (ScUint 32))].
Definition origin_schema : schema :=
  ScStruct "SdpOrigin"
    [("username", ScStr); ("session_id", ScUint 64); ("session_version", ScUint 64); ("unicast_addr", typed_address_schema)].
Definition timing_schema : schema := ScStruct "SdpTiming" [("start", ScUint 64); ("stop", ScUint 64)].
Definition media_schema : schema :=
  ScStruct "SdpMedia"
    [("media", media_line_schema); ("connection", ScOption connection_schema); ("bandwidth", ScSeq bandwidth_schema);
     ("attribute", ScSeq attr_schema)].
Definition type_schema : schema :=
  ScEnum "SdpType"
    [("Attribute", VNew attr_schema); ("Bandwidth", VNew bandwidth_schema); ("Connection", VNew connection_schema);
     ("Media", VNew media_line_schema); ("Origin", VNew origin_schema); ("Session", VNew ScStr); ("Timing", VNew timing_schema);
     ("Version", VNew (ScUint 64))].
Definition line_schema : schema :=
  ScStruct "SdpLine" [("line_number", ScUint 64); ("sdp_type", type_schema); ("text", ScStr)].
Definition session_schema : schema :=
  ScStruct "SdpSession"
    [("version", ScUint 64); ("origin", origin_schema); ("session", ScOption ScStr); ("connection", ScOption connection_schema);
     ("bandwidth", ScSeq bandwidth_schema); ("timing", ScOption timing_schema); ("attribute", ScSeq attr_schema);
     ("media", ScSeq media_schema); ("warnings", ScSeq ScError)].
End Human.
Local Close Scope string_scope.

(** ** Numbers *)
Inductive in_range : sv -> Prop :=
| range_uint bits n : n < 2 ^ bits -> in_range (SvUint bits n)
| range_f32 x : x < 2 ^ 32 -> in_range (SvF32 x)
| range_f64 x : x < 2 ^ 64 -> in_range (SvF64 x)
| range_bool b : in_range (SvBool b)
| range_str s : in_range (SvStr s)
| range_none : in_range SvNone
| range_some v : in_range v -> in_range (SvSome v)
| range_seq l : Forall in_range l -> in_range (SvSeq l)
| range_tuple l : Forall in_range l -> in_range (SvTuple l)
| range_struct name l : Forall (fun f => in_range (snd f)) l -> in_range (SvStruct name l)
| range_unit e i v : in_range (SvUnitVariant e i v)
| range_new e i v x : in_range x -> in_range (SvNewtypeVariant e i v x)
| range_tuple_variant e i v l : Forall in_range l -> in_range (SvTupleVariant e i v l)
| range_struct_variant e i v l : Forall (fun f => in_range (snd f)) l -> in_range (SvStructVariant e i v l).
(** No float that is NaN or infinite. *)
Inductive all_finite : sv -> Prop :=
| finite_uint bits n : all_finite (SvUint bits n)
| finite_f32 x : f_mag 31 x < f32_inf -> all_finite (SvF32 x)
| finite_f64 x : f_mag 63 x < f64_inf -> all_finite (SvF64 x)
| finite_bool b : all_finite (SvBool b)
| finite_str s : all_finite (SvStr s)
| finite_none : all_finite SvNone
| finite_some v : all_finite v -> all_finite (SvSome v)
| finite_seq l : Forall all_finite l -> all_finite (SvSeq l)
| finite_tuple l : Forall all_finite l -> all_finite (SvTuple l)
| finite_struct name l : Forall (fun f => all_finite (snd f)) l -> all_finite (SvStruct name l)
| finite_unit e i v : all_finite (SvUnitVariant e i v)
| finite_new e i v x : all_finite x -> all_finite (SvNewtypeVariant e i v x)
| finite_tuple_variant e i v l : Forall all_finite l -> all_finite (SvTupleVariant e i v l)
| finite_struct_variant e i v l : Forall (fun f => all_finite (snd f)) l -> all_finite (SvStructVariant e i v l).
(** No object with two entries of the same name. *)
Inductive keys_differ : json -> Prop :=
| keys_null : keys_differ JNull
| keys_bool b : keys_differ (JBool b)
| keys_int n : keys_differ (JInt n)
| keys_f32 x : keys_differ (JF32 x)
| keys_f64 x : keys_differ (JF64 x)
| keys_str s : keys_differ (JStr s)
| keys_arr l : Forall keys_differ l -> keys_differ (JArr l)
| keys_obj l : NoDup (map fst l) -> Forall (fun f => keys_differ (snd f)) l -> keys_differ (JObj l).

(** ** Sessions *)
(** The IP addresses in a session. *)
Definition address_ips (a : address) : list ip := match a with Ip i => [i] | Fqdn _ => [] end.
Definition typed_ips (a : typed_address) : list ip := match a with TIp i => [i] | TFqdn _ _ => [] end.
Definition attr_ips (a : attr) : list ip :=
  match a with
  | ACandidate c => address_ips (cand_address c) ++ match raddr c with Some a => address_ips a | None => [] end
  | ARemoteCandidate c => address_ips (rc_address c)
  | ARtcp r => match rtcp_unicast_addr r with Some a => typed_ips a | None => [] end
  | _ => []
  end.
Definition item_ips (t : sdp_type) : list ip :=
  match t with
  | TyAttribute a => attr_ips a
  | TyConnection c => typed_ips (conn_address c)
  | TyOrigin o => typed_ips (o_unicast_addr o)
  | _ => []
  end.
(** They are numbers of 32 and 128 bits. *)
Definition ips_ok (s : session) : Prop := Forall (fun t => Forall ip_range (item_ips t)) (session_items s).
(** The only floats of accepted sessions that may not be finite are those of imageattr. *)
Definition images_finite (s : session) : Prop :=
  Forall (fun t => match t with TyAttribute (AImageAttr i) => all_finite (sv_image_attr i) | _ => True end) (session_items s).
