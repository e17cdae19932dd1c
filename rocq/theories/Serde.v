(** * Serialization (feature "serialize")

    What the derived [Serialize] implementations hand to a serializer, as a value
    of serde's data model, and what serde_json and positional formats make of it.
    The [Result]s of the serializer are not modelled: a serializer that fails ends
    the function with its error.  Only definitions. *)
From Coq Require Import List NArith Bool Ascii String.
From Verif Require Import Str Num Net Types Ext Show Session Tools.
Import ListNotations.
Open Scope N_scope.
Open Scope list_scope.

(** ** serde's data model *)
(** Calls to a [Serializer], as far as they occur here.  Integers come with the
    number of bits of their type, floats as bit patterns, variants with the name of
    the enum, their index and their name. *)
Inductive sv :=
| SvBool (b : bool)
| SvUint (bits : N) (n : N)
| SvF32 (x : f32)
| SvF64 (x : f64)
| SvStr (s : str)
| SvNone
| SvSome (v : sv)
| SvSeq (l : list sv)
| SvTuple (l : list sv)
| SvStruct (name : str) (fields : list (str * sv))
| SvUnitVariant (enum : str) (i : nat) (variant : str)
| SvNewtypeVariant (enum : str) (i : nat) (variant : str) (v : sv)
| SvTupleVariant (enum : str) (i : nat) (variant : str) (l : list sv)
| SvStructVariant (enum : str) (i : nat) (variant : str) (fields : list (str * sv)).

(** [Serialize] of [Option], [Vec] and [String] in serde. *)
Definition sv_option {A} (f : A -> sv) (o : option A) : sv :=
  match o with None => SvNone | Some x => SvSome (f x) end.
Definition sv_vec {A} (f : A -> sv) (l : list A) : sv := SvSeq (map f l).
Notation u8_sv := (SvUint 8).
Notation u16_sv := (SvUint 16).
Notation u32_sv := (SvUint 32).
Notation u64_sv := (SvUint 64).

(** [Serialize] of [IpAddr] in serde: the displayed text for human-readable
    formats, else the octets. *)
Definition sv_ip (human : bool) (a : ip) : sv :=
  if human then SvStr (show_ip a)
  else match a with
       | V4 n => SvNewtypeVariant (lit "IpAddr") 0 (lit "V4") (SvTuple (map u8_sv (be_digits 4 256 n)))
       | V6 n => SvNewtypeVariant (lit "IpAddr") 1 (lit "V6") (SvTuple (map u8_sv (be_digits 16 256 n)))
       end.

Section Human.
(** [Serializer::is_human_readable]. *)
Context (human : bool).

(** ** address.rs *)
(** address.rs:14-18 *)
Definition sv_address (a : address) : sv :=
  match a with
  | Fqdn s => SvNewtypeVariant (lit "Address") 0 (lit "Fqdn") (SvStr s)
  | Ip a => SvNewtypeVariant (lit "Address") 1 (lit "Ip") (sv_ip human a)
  end.
(** address.rs:69-73 *)
Definition sv_addr_type (a : addr_type) : sv :=
  match a with
  | IpV4 => SvUnitVariant (lit "AddressType") 0 (lit "IpV4")
  | IpV6 => SvUnitVariant (lit "AddressType") 1 (lit "IpV6")
  end.
(** address.rs:110-117 *)
Definition sv_typed_address (a : typed_address) : sv :=
  match a with
  | TFqdn t d => SvStructVariant (lit "ExplicitlyTypedAddress") 0 (lit "Fqdn")
      [(lit "address_type", sv_addr_type t); (lit "domain", SvStr d)]
  | TIp a => SvNewtypeVariant (lit "ExplicitlyTypedAddress") 1 (lit "Ip") (sv_ip human a)
  end.

(** ** attribute_type.rs *)
(** attribute_type.rs:92-97 *)
Definition sv_single_direction (d : single_direction) : sv :=
  match d with
  | Send => SvUnitVariant (lit "SdpSingleDirection") 0 (lit "Send")
  | Recv => SvUnitVariant (lit "SdpSingleDirection") 1 (lit "Recv")
  end.
(** attribute_type.rs:109-114 *)
Definition sv_payload_type (p : payload_type_t) : sv :=
  match p with
  | PayloadType n => SvNewtypeVariant (lit "SdpAttributePayloadType") 0 (lit "PayloadType") (u8_sv n)
  | Wildcard => SvUnitVariant (lit "SdpAttributePayloadType") 1 (lit "Wildcard")
  end.
(** attribute_type.rs:125-130 *)
Definition sv_transport (t : transport_t) : sv :=
  match t with
  | Udp => SvUnitVariant (lit "SdpAttributeCandidateTransport") 0 (lit "Udp")
  | Tcp => SvUnitVariant (lit "SdpAttributeCandidateTransport") 1 (lit "Tcp")
  end.
(** attribute_type.rs:142-149 *)
Definition sv_cand_type (t : cand_type) : sv :=
  match t with
  | Host => SvUnitVariant (lit "SdpAttributeCandidateType") 0 (lit "Host")
  | Srflx => SvUnitVariant (lit "SdpAttributeCandidateType") 1 (lit "Srflx")
  | Prflx => SvUnitVariant (lit "SdpAttributeCandidateType") 2 (lit "Prflx")
  | Relay => SvUnitVariant (lit "SdpAttributeCandidateType") 3 (lit "Relay")
  end.
(** attribute_type.rs:163-169 *)
Definition sv_tcp_type (t : tcp_type_t) : sv :=
  match t with
  | TcpActive => SvUnitVariant (lit "SdpAttributeCandidateTcpType") 0 (lit "Active")
  | TcpPassive => SvUnitVariant (lit "SdpAttributeCandidateTcpType") 1 (lit "Passive")
  | TcpSimultaneous => SvUnitVariant (lit "SdpAttributeCandidateTcpType") 2 (lit "Simultaneous")
  end.
(** attribute_type.rs:183-200 *)
Definition sv_candidate (c : candidate) : sv :=
  SvStruct (lit "SdpAttributeCandidate")
    [(lit "foundation", SvStr (foundation c)); (lit "component", u32_sv (component c));
     (lit "transport", sv_transport (transport c)); (lit "priority", u64_sv (priority c));
     (lit "address", sv_address (cand_address c)); (lit "port", u32_sv (cand_port c));
     (lit "c_type", sv_cand_type (c_type c)); (lit "raddr", sv_option sv_address (raddr c));
     (lit "rport", sv_option u32_sv (rport c)); (lit "tcp_type", sv_option sv_tcp_type (tcp_type c));
     (lit "generation", sv_option u32_sv (generation c)); (lit "ufrag", sv_option SvStr (ufrag c));
     (lit "networkcost", sv_option u32_sv (networkcost c));
     (lit "unknown_extensions", sv_vec (fun e => SvTuple [SvStr (fst e); SvStr (snd e)]) (unknown_extensions c))].
(** attribute_type.rs:306-311 *)
Definition sv_dtls_message (d : dtls_message) : sv :=
  match d with
  | DtlsClient s => SvNewtypeVariant (lit "SdpAttributeDtlsMessage") 0 (lit "Client") (SvStr s)
  | DtlsServer s => SvNewtypeVariant (lit "SdpAttributeDtlsMessage") 1 (lit "Server") (SvStr s)
  end.
(** attribute_type.rs:324-330 *)
Definition sv_remote_candidate (c : remote_candidate) : sv :=
  SvStruct (lit "SdpAttributeRemoteCandidate")
    [(lit "component", u32_sv (rc_component c)); (lit "address", sv_address (rc_address c));
     (lit "port", u32_sv (rc_port c))].
(** attribute_type.rs:355-360 *)
Definition sv_simulcast_id (i : simulcast_id) : sv :=
  SvStruct (lit "SdpAttributeSimulcastId") [(lit "id", SvStr (sid_id i)); (lit "paused", SvBool (sid_paused i))].
(** attribute_type.rs:389-393 *)
Definition sv_simulcast_version (v : simulcast_version) : sv :=
  SvStruct (lit "SdpAttributeSimulcastVersion") [(lit "ids", sv_vec sv_simulcast_id v)].
(** attribute_type.rs:418-423 *)
Definition sv_simulcast (s : simulcast) : sv :=
  SvStruct (lit "SdpAttributeSimulcast")
    [(lit "send", sv_vec sv_simulcast_version (sim_send s)); (lit "receive", sv_vec sv_simulcast_version (sim_receive s))].
(** attribute_type.rs:437-442 *)
Definition sv_rtcp (r : rtcp) : sv :=
  SvStruct (lit "SdpAttributeRtcp")
    [(lit "port", u16_sv (rtcp_port r)); (lit "unicast_addr", sv_option sv_typed_address (rtcp_unicast_addr r))].
(** attribute_type.rs:467-478.  The index is the position, not the discriminant. *)
Definition sv_rtcp_fb_type (t : rtcp_fb_type) : sv :=
  match t with
  | FbAck => SvUnitVariant (lit "SdpAttributeRtcpFbType") 0 (lit "Ack")
  | FbCcm => SvUnitVariant (lit "SdpAttributeRtcpFbType") 1 (lit "Ccm")
  | FbNack => SvUnitVariant (lit "SdpAttributeRtcpFbType") 2 (lit "Nack")
  | FbTrrInt => SvUnitVariant (lit "SdpAttributeRtcpFbType") 3 (lit "TrrInt")
  | FbRemb => SvUnitVariant (lit "SdpAttributeRtcpFbType") 4 (lit "Remb")
  | FbTransCc => SvUnitVariant (lit "SdpAttributeRtcpFbType") 5 (lit "TransCc")
  end.
(** attribute_type.rs:495-502 *)
Definition sv_rtcp_fb (f : rtcp_fb) : sv :=
  SvStruct (lit "SdpAttributeRtcpFb")
    [(lit "payload_type", sv_payload_type (fb_payload_type f)); (lit "feedback_type", sv_rtcp_fb_type (fb_feedback_type f));
     (lit "parameter", SvStr (fb_parameter f)); (lit "extra", SvStr (fb_extra f))].
(** attribute_type.rs:520-526 *)
Definition sv_direction (d : direction) : sv :=
  match d with
  | DRecvonly => SvUnitVariant (lit "SdpAttributeDirection") 0 (lit "Recvonly")
  | DSendonly => SvUnitVariant (lit "SdpAttributeDirection") 1 (lit "Sendonly")
  | DSendrecv => SvUnitVariant (lit "SdpAttributeDirection") 2 (lit "Sendrecv")
  end.
(** attribute_type.rs:540-547 *)
Definition sv_extmap (e : extmap) : sv :=
  SvStruct (lit "SdpAttributeExtmap")
    [(lit "id", u16_sv (ext_id e)); (lit "direction", sv_option sv_direction (ext_direction e));
     (lit "url", SvStr (ext_url e)); (lit "extension_attributes", sv_option SvStr (ext_attributes e))].
(** attribute_type.rs:563-568 *)
Definition sv_rtx (r : rtx_params) : sv :=
  SvStruct (lit "RtxFmtpParameters") [(lit "apt", u8_sv (rtx_apt r)); (lit "rtx_time", sv_option u32_sv (rtx_time r))].
(** attribute_type.rs:581-640 *)
Definition sv_fmtp_params (p : fmtp_params) : sv :=
  SvStruct (lit "SdpAttributeFmtpParameters")
    [(lit "packetization_mode", u32_sv (packetization_mode p));
     (lit "level_asymmetry_allowed", SvBool (level_asymmetry_allowed p));
     (lit "profile_level_id", u32_sv (profile_level_id p)); (lit "max_fs", u32_sv (max_fs p));
     (lit "max_cpb", u32_sv (max_cpb p)); (lit "max_dpb", u32_sv (max_dpb p)); (lit "max_br", u32_sv (max_br p));
     (lit "max_mbps", u32_sv (max_mbps p)); (lit "max_fr", u32_sv (max_fr p));
     (lit "profile", sv_option u8_sv (profile p)); (lit "level_idx", sv_option u8_sv (level_idx p));
     (lit "tier", sv_option u8_sv (tier p)); (lit "maxplaybackrate", u32_sv (maxplaybackrate p));
     (lit "maxaveragebitrate", u32_sv (maxaveragebitrate p)); (lit "usedtx", SvBool (usedtx p));
     (lit "stereo", SvBool (stereo p)); (lit "useinbandfec", SvBool (useinbandfec p)); (lit "cbr", SvBool (cbr p));
     (lit "ptime", u32_sv (ptime p)); (lit "minptime", u32_sv (minptime p)); (lit "maxptime", u32_sv (maxptime p));
     (lit "encodings", sv_vec u8_sv (encodings p)); (lit "dtmf_tones", SvStr (dtmf_tones p));
     (lit "rtx", sv_option sv_rtx (rtx p)); (lit "unknown_tokens", sv_vec SvStr (unknown_tokens p))].
(** attribute_type.rs:711-716 *)
Definition sv_fmtp (f : fmtp) : sv :=
  SvStruct (lit "SdpAttributeFmtp")
    [(lit "payload_type", u8_sv (fmtp_payload_type f)); (lit "parameters", sv_fmtp_params (fmtp_parameters f))].
(** attribute_type.rs:734-742 *)
Definition sv_hash_type (h : hash_type) : sv :=
  match h with
  | Sha1 => SvUnitVariant (lit "SdpAttributeFingerprintHashType") 0 (lit "Sha1")
  | Sha224 => SvUnitVariant (lit "SdpAttributeFingerprintHashType") 1 (lit "Sha224")
  | Sha256 => SvUnitVariant (lit "SdpAttributeFingerprintHashType") 2 (lit "Sha256")
  | Sha384 => SvUnitVariant (lit "SdpAttributeFingerprintHashType") 3 (lit "Sha384")
  | Sha512 => SvUnitVariant (lit "SdpAttributeFingerprintHashType") 4 (lit "Sha512")
  end.
(** attribute_type.rs:806-811 *)
Definition sv_fingerprint (f : fingerprint) : sv :=
  SvStruct (lit "SdpAttributeFingerprint")
    [(lit "hash_algorithm", sv_hash_type (fp_hash f)); (lit "fingerprint", sv_vec u8_sv (fp_bytes f))].
(** attribute_type.rs:873-878 *)
Definition sv_xy_range (r : xy_range) : sv :=
  match r with
  | XyRange a b s => SvTupleVariant (lit "SdpAttributeImageAttrXyRange") 0 (lit "Range") [u32_sv a; u32_sv b; sv_option u32_sv s]
  | XyDiscrete l => SvNewtypeVariant (lit "SdpAttributeImageAttrXyRange") 1 (lit "DiscreteValues") (sv_vec u32_sv l)
  end.
(** attribute_type.rs:897-902 *)
Definition sv_s_range (r : s_range) : sv :=
  match r with
  | SRange a b => SvTupleVariant (lit "SdpAttributeImageAttrSRange") 0 (lit "Range") [SvF32 a; SvF32 b]
  | SDiscrete l => SvNewtypeVariant (lit "SdpAttributeImageAttrSRange") 1 (lit "DiscreteValues") (sv_vec SvF32 l)
  end.
(** attribute_type.rs:915-920 *)
Definition sv_p_range (r : p_range) : sv :=
  SvStruct (lit "SdpAttributeImageAttrPRange") [(lit "min", SvF32 (par_min r)); (lit "max", SvF32 (par_max r))].
(** attribute_type.rs:928-936 *)
Definition sv_image_set (s : image_set) : sv :=
  SvStruct (lit "SdpAttributeImageAttrSet")
    [(lit "x", sv_xy_range (set_x s)); (lit "y", sv_xy_range (set_y s)); (lit "sar", sv_option sv_s_range (set_sar s));
     (lit "par", sv_option sv_p_range (set_par s)); (lit "q", sv_option SvF32 (set_q s))].
(** attribute_type.rs:948-953 *)
Definition sv_image_set_list (l : image_set_list) : sv :=
  match l with
  | Sets l => SvNewtypeVariant (lit "SdpAttributeImageAttrSetList") 0 (lit "Sets") (sv_vec sv_image_set l)
  | SetsWildcard => SvUnitVariant (lit "SdpAttributeImageAttrSetList") 1 (lit "Wildcard")
  end.
(** attribute_type.rs:970-976 *)
Definition sv_image_attr (i : image_attr) : sv :=
  SvStruct (lit "SdpAttributeImageAttr")
    [(lit "pt", sv_payload_type (img_pt i)); (lit "send", sv_image_set_list (img_send i));
     (lit "recv", sv_image_set_list (img_recv i))].
(** attribute_type.rs:994-999 *)
Definition sv_sctpmap (s : sctpmap) : sv :=
  SvStruct (lit "SdpAttributeSctpmap") [(lit "port", u16_sv (sm_port s)); (lit "channels", u32_sv (sm_channels s))].
(** attribute_type.rs:1013-1023 *)
Definition sv_group_semantic (g : group_semantic) : sv :=
  match g with
  | GLs => SvUnitVariant (lit "SdpAttributeGroupSemantic") 0 (lit "LipSynchronization")
  | GFid => SvUnitVariant (lit "SdpAttributeGroupSemantic") 1 (lit "FlowIdentification")
  | GSrf => SvUnitVariant (lit "SdpAttributeGroupSemantic") 2 (lit "SingleReservationFlow")
  | GAnat => SvUnitVariant (lit "SdpAttributeGroupSemantic") 3 (lit "AlternateNetworkAddressType")
  | GFec => SvUnitVariant (lit "SdpAttributeGroupSemantic") 4 (lit "ForwardErrorCorrection")
  | GDdp => SvUnitVariant (lit "SdpAttributeGroupSemantic") 5 (lit "DecodingDependency")
  | GBundle => SvUnitVariant (lit "SdpAttributeGroupSemantic") 6 (lit "Bundle")
  end.
(** attribute_type.rs:1041-1046 *)
Definition sv_group (g : group) : sv :=
  SvStruct (lit "SdpAttributeGroup")
    [(lit "semantics", sv_group_semantic (grp_semantics g)); (lit "tags", sv_vec SvStr (grp_tags g))].
(** attribute_type.rs:1060-1065 *)
Definition sv_msid (m : msid) : sv :=
  SvStruct (lit "SdpAttributeMsid") [(lit "id", SvStr (msid_id m)); (lit "appdata", sv_option SvStr (msid_appdata m))].
(** attribute_type.rs:1074-1079 *)
Definition sv_msid_semantic (m : msid_semantic) : sv :=
  SvStruct (lit "SdpAttributeMsidSemantic")
    [(lit "semantic", SvStr (ms_semantic m)); (lit "msids", sv_vec SvStr (ms_msids m))].
(** attribute_type.rs:1092-1103 *)
Definition sv_rid_params (p : rid_params) : sv :=
  SvStruct (lit "SdpAttributeRidParameters")
    [(lit "max_width", u32_sv (max_width p)); (lit "max_height", u32_sv (max_height p));
     (lit "max_fps", u32_sv (max_fps p)); (lit "max_fs", u32_sv (rid_max_fs p)); (lit "max_br", u32_sv (rid_max_br p));
     (lit "max_pps", u32_sv (max_pps p)); (lit "unknown", sv_vec SvStr (rid_unknown p))].
(** attribute_type.rs:1122-1130 *)
Definition sv_rid (r : rid) : sv :=
  SvStruct (lit "SdpAttributeRid")
    [(lit "id", SvStr (rid_id r)); (lit "direction", sv_single_direction (rid_direction r));
     (lit "formats", sv_vec u16_sv (rid_formats r)); (lit "params", sv_rid_params (rid_params_of r));
     (lit "depends", sv_vec SvStr (rid_depends r))].
(** attribute_type.rs:1155-1162 *)
Definition sv_rtpmap (r : rtpmap) : sv :=
  SvStruct (lit "SdpAttributeRtpmap")
    [(lit "payload_type", u8_sv (rm_payload_type r)); (lit "codec_name", SvStr (rm_codec_name r));
     (lit "frequency", u32_sv (rm_frequency r)); (lit "channels", sv_option u32_sv (rm_channels r))].
(** attribute_type.rs:1193-1200 *)
Definition sv_setup (s : setup) : sv :=
  match s with
  | SetupActive => SvUnitVariant (lit "SdpAttributeSetup") 0 (lit "Active")
  | SetupActpass => SvUnitVariant (lit "SdpAttributeSetup") 1 (lit "Actpass")
  | SetupHoldconn => SvUnitVariant (lit "SdpAttributeSetup") 2 (lit "Holdconn")
  | SetupPassive => SvUnitVariant (lit "SdpAttributeSetup") 3 (lit "Passive")
  end.
(** attribute_type.rs:1215-1221 *)
Definition sv_ssrc (s : ssrc) : sv :=
  SvStruct (lit "SdpAttributeSsrc")
    [(lit "id", u32_sv (ssrc_id s)); (lit "attribute", sv_option SvStr (ssrc_attribute s));
     (lit "value", sv_option SvStr (ssrc_value s))].
(** attribute_type.rs:1268-1276 *)
Definition sv_ssrc_group_semantic (s : ssrc_group_semantic) : sv :=
  match s with
  | SgDup => SvUnitVariant (lit "SdpSsrcGroupSemantic") 0 (lit "Duplication")
  | SgFid => SvUnitVariant (lit "SdpSsrcGroupSemantic") 1 (lit "FlowIdentification")
  | SgFec => SvUnitVariant (lit "SdpSsrcGroupSemantic") 2 (lit "ForwardErrorCorrection")
  | SgFecFr => SvUnitVariant (lit "SdpSsrcGroupSemantic") 3 (lit "ForwardErrorCorrectionFr")
  | SgSim => SvUnitVariant (lit "SdpSsrcGroupSemantic") 4 (lit "Sim")
  end.
(** attribute_type.rs:1292-1338 *)
Definition sv_attr (a : attr) : sv :=
  let unit := SvUnitVariant (lit "SdpAttribute") in
  let new := SvNewtypeVariant (lit "SdpAttribute") in
  match a with
  | ABundleOnly => unit 0%nat (lit "BundleOnly")
  | ACandidate a => new 1%nat (lit "Candidate") (sv_candidate a)
  | ADtlsMessage a => new 2%nat (lit "DtlsMessage") (sv_dtls_message a)
  | AEndOfCandidates => unit 3%nat (lit "EndOfCandidates")
  | AExtmap a => new 4%nat (lit "Extmap") (sv_extmap a)
  | AExtmapAllowMixed => unit 5%nat (lit "ExtmapAllowMixed")
  | AFingerprint a => new 6%nat (lit "Fingerprint") (sv_fingerprint a)
  | AFmtp a => new 7%nat (lit "Fmtp") (sv_fmtp a)
  | AFrameRate a => new 8%nat (lit "FrameRate") (SvF64 a)
  | AGroup a => new 9%nat (lit "Group") (sv_group a)
  | AIceLite => unit 10%nat (lit "IceLite")
  | AIceMismatch => unit 11%nat (lit "IceMismatch")
  | AIceOptions a => new 12%nat (lit "IceOptions") (sv_vec SvStr a)
  | AIcePacing a => new 13%nat (lit "IcePacing") (u64_sv a)
  | AIcePwd a => new 14%nat (lit "IcePwd") (SvStr a)
  | AIceUfrag a => new 15%nat (lit "IceUfrag") (SvStr a)
  | AIdentity a => new 16%nat (lit "Identity") (SvStr a)
  | AImageAttr a => new 17%nat (lit "ImageAttr") (sv_image_attr a)
  | AInactive => unit 18%nat (lit "Inactive")
  | ALabel a => new 19%nat (lit "Label") (SvStr a)
  | AMaxMessageSize a => new 20%nat (lit "MaxMessageSize") (u64_sv a)
  | AMaxPtime a => new 21%nat (lit "MaxPtime") (u64_sv a)
  | AMid a => new 22%nat (lit "Mid") (SvStr a)
  | AMsid a => new 23%nat (lit "Msid") (sv_msid a)
  | AMsidSemantic a => new 24%nat (lit "MsidSemantic") (sv_msid_semantic a)
  | APtime a => new 25%nat (lit "Ptime") (u64_sv a)
  | ARid a => new 26%nat (lit "Rid") (sv_rid a)
  | ARecvonly => unit 27%nat (lit "Recvonly")
  | ARemoteCandidate a => new 28%nat (lit "RemoteCandidate") (sv_remote_candidate a)
  | ARtpmap a => new 29%nat (lit "Rtpmap") (sv_rtpmap a)
  | ARtcp a => new 30%nat (lit "Rtcp") (sv_rtcp a)
  | ARtcpfb a => new 31%nat (lit "Rtcpfb") (sv_rtcp_fb a)
  | ARtcpMux => unit 32%nat (lit "RtcpMux")
  | ARtcpMuxOnly => unit 33%nat (lit "RtcpMuxOnly")
  | ARtcpRsize => unit 34%nat (lit "RtcpRsize")
  | ASctpmap a => new 35%nat (lit "Sctpmap") (sv_sctpmap a)
  | ASctpPort a => new 36%nat (lit "SctpPort") (u64_sv a)
  | ASendonly => unit 37%nat (lit "Sendonly")
  | ASendrecv => unit 38%nat (lit "Sendrecv")
  | ASetup a => new 39%nat (lit "Setup") (sv_setup a)
  | ASimulcast a => new 40%nat (lit "Simulcast") (sv_simulcast a)
  | ASsrc a => new 41%nat (lit "Ssrc") (sv_ssrc a)
  | ASsrcGroup sem l => SvTupleVariant (lit "SdpAttribute") 42 (lit "SsrcGroup") [sv_ssrc_group_semantic sem; sv_vec sv_ssrc l]
  end.

(** ** media_type.rs *)
(** media_type.rs:44-49 *)
Definition sv_media_value (m : media_value) : sv :=
  match m with
  | Audio => SvUnitVariant (lit "SdpMediaValue") 0 (lit "Audio")
  | Video => SvUnitVariant (lit "SdpMediaValue") 1 (lit "Video")
  | Application => SvUnitVariant (lit "SdpMediaValue") 2 (lit "Application")
  end.
(** media_type.rs:63-76 *)
Definition sv_protocol_value (p : protocol_value) : sv :=
  let unit := SvUnitVariant (lit "SdpProtocolValue") in
  match p with
  | RtpAvp => unit 0%nat (lit "RtpAvp")
  | RtpAvpf => unit 1%nat (lit "RtpAvpf")
  | RtpSavp => unit 2%nat (lit "RtpSavp")
  | RtpSavpf => unit 3%nat (lit "RtpSavpf")
  | TcpDtlsRtpSavp => unit 4%nat (lit "TcpDtlsRtpSavp")
  | TcpDtlsRtpSavpf => unit 5%nat (lit "TcpDtlsRtpSavpf")
  | UdpTlsRtpSavp => unit 6%nat (lit "UdpTlsRtpSavp")
  | UdpTlsRtpSavpf => unit 7%nat (lit "UdpTlsRtpSavpf")
  | DtlsSctp => unit 8%nat (lit "DtlsSctp")
  | UdpDtlsSctp => unit 9%nat (lit "UdpDtlsSctp")
  | TcpDtlsSctp => unit 10%nat (lit "TcpDtlsSctp")
  end.
(** media_type.rs:98-103 *)
Definition sv_format_list (f : format_list) : sv :=
  match f with
  | Integers l => SvNewtypeVariant (lit "SdpFormatList") 0 (lit "Integers") (sv_vec u32_sv l)
  | Strings l => SvNewtypeVariant (lit "SdpFormatList") 1 (lit "Strings") (sv_vec SvStr l)
  end.
(** media_type.rs:19-27 *)
Definition sv_media_line (m : media_line) : sv :=
  SvStruct (lit "SdpMediaLine")
    [(lit "media", sv_media_value (ml_media m)); (lit "port", u32_sv (ml_port m));
     (lit "port_count", u32_sv (ml_port_count m)); (lit "proto", sv_protocol_value (ml_proto m));
     (lit "formats", sv_format_list (ml_formats m))].

(** ** lib.rs *)
(** lib.rs:44-51 *)
Definition sv_bandwidth (b : bandwidth) : sv :=
  match b with
  | BwAs n => SvNewtypeVariant (lit "SdpBandwidth") 0 (lit "As") (u32_sv n)
  | BwCt n => SvNewtypeVariant (lit "SdpBandwidth") 1 (lit "Ct") (u32_sv n)
  | BwTias n => SvNewtypeVariant (lit "SdpBandwidth") 2 (lit "Tias") (u32_sv n)
  | BwUnknown tp n => SvTupleVariant (lit "SdpBandwidth") 3 (lit "Unknown") [SvStr tp; u32_sv n]
  end.
(** lib.rs:71-77 *)
Definition sv_connection (c : connection) : sv :=
  SvStruct (lit "SdpConnection")
    [(lit "address", sv_typed_address (conn_address c)); (lit "ttl", sv_option u8_sv (conn_ttl c));
     (lit "amount", sv_option u32_sv (conn_amount c))].
(** lib.rs:101-108 *)
Definition sv_origin (o : origin) : sv :=
  SvStruct (lit "SdpOrigin")
    [(lit "username", SvStr (o_username o)); (lit "session_id", u64_sv (o_session_id o));
     (lit "session_version", u64_sv (o_session_version o)); (lit "unicast_addr", sv_typed_address (o_unicast_addr o))].
(** lib.rs:139-144 *)
Definition sv_timing (t : timing) : sv :=
  SvStruct (lit "SdpTiming") [(lit "start", u64_sv (t_start t)); (lit "stop", u64_sv (t_stop t))].
(** media_type.rs:125-135 *)
Definition sv_media (m : media) : sv :=
  SvStruct (lit "SdpMedia")
    [(lit "media", sv_media_line (m_media m)); (lit "connection", sv_option sv_connection (m_connection m));
     (lit "bandwidth", sv_vec sv_bandwidth (m_bandwidth m)); (lit "attribute", sv_vec sv_attr (m_attribute m))].
(** lib.rs:152-165 *)
Definition sv_type (t : sdp_type) : sv :=
  let new := SvNewtypeVariant (lit "SdpType") in
  match t with
  | TyAttribute a => new 0%nat (lit "Attribute") (sv_attr a)
  | TyBandwidth b => new 1%nat (lit "Bandwidth") (sv_bandwidth b)
  | TyConnection c => new 2%nat (lit "Connection") (sv_connection c)
  | TyMedia m => new 3%nat (lit "Media") (sv_media_line m)
  | TyOrigin o => new 4%nat (lit "Origin") (sv_origin o)
  | TySession s => new 5%nat (lit "Session") (SvStr s)
  | TyTiming t => new 6%nat (lit "Timing") (sv_timing t)
  | TyVersion v => new 7%nat (lit "Version") (u64_sv v)
  end.
(** lib.rs:167-173; [usize] has 64 bits. *)
Definition sv_line (l : sdp_line) : sv :=
  SvStruct (lit "SdpLine")
    [(lit "line_number", u64_sv (N.of_nat (l_number l))); (lit "sdp_type", sv_type (l_type l)); (lit "text", SvStr (l_text l))].
(** error.rs:95-133, see [serialize_perr]. *)
Definition sv_perr (e : perr) : sv :=
  SvStruct (ser_name (serialize_perr e))
    (map (fun f => (fst f, match snd f with SerStr s => SvStr s | SerUsize n => u64_sv (N.of_nat n) end))
      (ser_fields (serialize_perr e))).
(** lib.rs:193-212 *)
Definition sv_session (s : session) : sv :=
  SvStruct (lit "SdpSession")
    [(lit "version", u64_sv (s_version s)); (lit "origin", sv_origin (s_origin s));
     (lit "session", sv_option SvStr (s_session s)); (lit "connection", sv_option sv_connection (s_connection s));
     (lit "bandwidth", sv_vec sv_bandwidth (s_bandwidth s)); (lit "timing", sv_option sv_timing (s_timing s));
     (lit "attribute", sv_vec sv_attr (s_attribute s)); (lit "media", sv_vec sv_media (s_media s));
     (lit "warnings", sv_vec sv_perr (s_warnings s))].
End Human.

(** ** Formats *)
(** What serde_json makes of a value ([serde_json::to_value]; human-readable).
    Floats that are not finite become null. *)
Inductive json :=
| JNull | JBool (b : bool) | JInt (n : N) | JF32 (x : f32) | JF64 (x : f64) | JStr (s : str)
| JArr (l : list json) | JObj (l : list (str * json)).
Definition f32_finite (x : f32) : bool := f_mag 31 x <? f32_inf.
Definition f64_finite (x : f64) : bool := f_mag 63 x <? f64_inf.
Fixpoint to_json (v : sv) : json :=
  match v with
  | SvBool b => JBool b
  | SvUint _ n => JInt n
  | SvF32 x => if f32_finite x then JF32 x else JNull
  | SvF64 x => if f64_finite x then JF64 x else JNull
  | SvStr s => JStr s
  | SvNone => JNull
  | SvSome v => to_json v
  | SvSeq l | SvTuple l => JArr (map to_json l)
  | SvStruct _ l => JObj (map (fun f => match f with (n, v) => (n, to_json v) end) l)
  | SvUnitVariant _ _ n => JStr n
  | SvNewtypeVariant _ _ n v => JObj [(n, to_json v)]
  | SvTupleVariant _ _ n l => JObj [(n, JArr (map to_json l))]
  | SvStructVariant _ _ n l => JObj [(n, JObj (map (fun f => match f with (n, v) => (n, to_json v) end) l))]
  end.

(** What is left for formats that write no names, such as bincode: the values in
    their order, with the index of each variant, a mark for each option and the
    length of each sequence. *)
Inductive positional :=
| PosWord (n : N) | PosText (s : str) | PosCount (n : nat).
Fixpoint to_positional (v : sv) : list positional :=
  match v with
  | SvBool b => [PosWord (if b then 1 else 0)]
  | SvUint _ n => [PosWord n]
  | SvF32 x => [PosWord x]
  | SvF64 x => [PosWord x]
  | SvStr s => [PosText s]
  | SvNone => [PosCount 0]
  | SvSome v => PosCount 1 :: to_positional v
  | SvSeq l => PosCount (List.length l) :: flat_map to_positional l
  | SvTuple l => flat_map to_positional l
  | SvStruct _ l => flat_map (fun f => match f with (_, v) => to_positional v end) l
  | SvUnitVariant _ i _ => [PosCount i]
  | SvNewtypeVariant _ i _ v => PosCount i :: to_positional v
  | SvTupleVariant _ i _ l => PosCount i :: flat_map to_positional l
  | SvStructVariant _ i _ l => PosCount i :: flat_map (fun f => match f with (_, v) => to_positional v end) l
  end.
