(** * Data types of /repo/src (error.rs, address.rs, attribute_type.rs,
    media_type.rs, lib.rs)

    Field names follow the Rust structs; a field name that two structs share is
    prefixed with the struct's name.  Rust integers (u8, u16, u32, u64, u128)
    are [N]; their ranges are stated as hypotheses or proved as invariants where
    they matter.  f32 and f64 are the [N] of their IEEE-754 bit pattern. *)
From Coq Require Import List NArith ZArith Bool Ascii String.
From Verif Require Import Str Num Net.
Import ListNotations.
Open Scope N_scope.
Open Scope list_scope.

(** ** Floats *)
Definition f32 := N.
Definition f64 := N.

(** A binary float format: number of value bits (without the sign bit) and the
    bit pattern of +infinity.  [mag] drops the sign bit. *)
Definition f_mag (bits : N) (x : N) : N := x mod (2 ^ bits).
Definition f_neg (bits : N) (x : N) : bool := N.testbit x bits.
Definition f_key (bits : N) (x : N) : Z :=
  if f_neg bits x then Z.opp (Z.of_N (f_mag bits x)) else Z.of_N (f_mag bits x).
Definition f32_inf : N := 2139095040. (* 0x7f80_0000 *)
Definition f64_inf : N := 9218868437227405312. (* 0x7ff0_0000_0000_0000 *)
Definition f32_is_nan (x : f32) : bool := f32_inf <? f_mag 31 x.
Definition f64_is_nan (x : f64) : bool := f64_inf <? f_mag 63 x.
Definition f64_is_infinite (x : f64) : bool := f_mag 63 x =? f64_inf.
Definition f64_is_zero (x : f64) : bool := f_mag 63 x =? 0. (* x == 0.0 *)
(** [a >= b] on f32: false if either is NaN; -0.0 = +0.0. *)
Definition f32_ge (a b : f32) : bool :=
  negb (f32_is_nan a) && negb (f32_is_nan b) && (f_key 31 b <=? f_key 31 a)%Z.

(** [core::num::dec2flt::ParseFloatError]. *)
Inductive float_err := FloatEmpty | FloatInvalid.

(** ** address.rs *)
(** address.rs:14-17 *)
Inductive address := Fqdn (s : str) | Ip (a : ip).
(** address.rs:67-72 *)
Inductive addr_type := IpV4 | IpV6.
Definition addr_type_eqb (a b : addr_type) : bool :=
  match a, b with IpV4, IpV4 | IpV6, IpV6 => true | _, _ => false end.
(** address.rs:107-115 *)
Inductive typed_address := TFqdn (t : addr_type) (domain : str) | TIp (a : ip).

(** ** error.rs *)
(** [SdpParserInternalError] (error.rs:15-28).  [url::ParseError] is represented
    by its message; [AddrParseError] by a constant. *)
Inductive ierr :=
| UnknownAddressType (s : str)
| AddressTypeMismatch (found expected : addr_type)
| EGeneric (msg : str)
| EUnsupported (msg : str)
| EInteger (k : int_err)
| EFloat (k : float_err)
| EDomain (msg : str)
| EIpAddress.
(** [SdpParserError] (error.rs:76-92). *)
Inductive perr :=
| PLine (e : ierr) (line : str) (line_number : nat)
| PUnsupported (e : ierr) (line : str) (line_number : nat)
| PSequence (message : str) (line_number : nat).

(** Generic error constructors with a message template (see [Str.fmt]). *)
Notation gen t := (EGeneric (fmt t%string [])).
Notation genf t args := (EGeneric (fmt t%string args)).
Notation unsup t := (EUnsupported (fmt t%string [])).
Notation unsupf t args := (EUnsupported (fmt t%string args)).

(** ** attribute_type.rs *)
(** attribute_type.rs:93-97 *)
Inductive single_direction := Send | Recv.
Definition single_direction_eqb (a b : single_direction) : bool :=
  match a, b with Send, Send | Recv, Recv => true | _, _ => false end.
(** attribute_type.rs:111-114 *)
Inductive payload_type_t := PayloadType (n : N) | Wildcard.
(** attribute_type.rs:127-130 *)
Inductive transport_t := Udp | Tcp.
(** attribute_type.rs:144-149 *)
Inductive cand_type := Host | Srflx | Prflx | Relay.
(** attribute_type.rs:165-169 *)
Inductive tcp_type_t := TcpActive | TcpPassive | TcpSimultaneous.
(** [SdpAttributeCandidate] (attribute_type.rs:185-200) *)
Record candidate := Build_candidate {
  foundation : str;
  component : N;
  transport : transport_t;
  priority : N;
  cand_address : address;
  cand_port : N;
  c_type : cand_type;
  raddr : option address;
  rport : option N;
  tcp_type : option tcp_type_t;
  generation : option N;
  ufrag : option str;
  networkcost : option N;
  unknown_extensions : list (str * str)
}.
(** attribute_type.rs:326-330 *)
Record remote_candidate := { rc_component : N; rc_address : address; rc_port : N }.
(** attribute_type.rs:308-311 *)
Inductive dtls_message := DtlsClient (s : str) | DtlsServer (s : str).
(** attribute_type.rs:357-360, :391-393, :420-423 *)
Record simulcast_id := { sid_id : str; sid_paused : bool }.
Definition simulcast_version := list simulcast_id.
Record simulcast := { sim_send : list simulcast_version; sim_receive : list simulcast_version }.
(** attribute_type.rs:439-442 *)
Record rtcp := { rtcp_port : N; rtcp_unicast_addr : option typed_address }.
(** attribute_type.rs:469-478 *)
Inductive rtcp_fb_type := FbAck | FbCcm | FbNack | FbTrrInt | FbRemb | FbTransCc.
(** attribute_type.rs:497-502 *)
Record rtcp_fb := { fb_payload_type : payload_type_t; fb_feedback_type : rtcp_fb_type;
                    fb_parameter : str; fb_extra : str }.
(** attribute_type.rs:522-526 *)
Inductive direction := DRecvonly | DSendonly | DSendrecv.
(** attribute_type.rs:542-547 *)
Record extmap := { ext_id : N; ext_direction : option direction; ext_url : str;
                   ext_attributes : option str }.
(** attribute_type.rs:565-568 *)
Record rtx_params := { rtx_apt : N; rtx_time : option N }.
(** [SdpAttributeFmtpParameters] (attribute_type.rs:583-640) *)
Record fmtp_params := Build_fmtp_params {
  packetization_mode : N;
  level_asymmetry_allowed : bool;
  profile_level_id : N;
  max_fs : N;
  max_cpb : N;
  max_dpb : N;
  max_br : N;
  max_mbps : N;
  max_fr : N;
  profile : option N;
  level_idx : option N;
  tier : option N;
  maxplaybackrate : N;
  maxaveragebitrate : N;
  usedtx : bool;
  stereo : bool;
  useinbandfec : bool;
  cbr : bool;
  ptime : N;
  minptime : N;
  maxptime : N;
  encodings : list N;
  dtmf_tones : str;
  rtx : option rtx_params;
  unknown_tokens : list str
}.
(** attribute_type.rs:713-716 *)
Record fmtp := { fmtp_payload_type : N; fmtp_parameters : fmtp_params }.
(** attribute_type.rs:736-742 *)
Inductive hash_type := Sha1 | Sha224 | Sha256 | Sha384 | Sha512.
(** attribute_type.rs:808-811 *)
Record fingerprint := { fp_hash : hash_type; fp_bytes : list N }.
(** attribute_type.rs:875-878 *)
Inductive xy_range := XyRange (min max : N) (step : option N) | XyDiscrete (l : list N).
(** attribute_type.rs:899-902 *)
Inductive s_range := SRange (min max : f32) | SDiscrete (l : list f32).
(** attribute_type.rs:917-920 *)
Record p_range := { par_min : f32; par_max : f32 }.
(** attribute_type.rs:930-936 *)
Record image_set := { set_x : xy_range; set_y : xy_range; set_sar : option s_range;
                      set_par : option p_range; set_q : option f32 }.
(** attribute_type.rs:950-953 *)
Inductive image_set_list := Sets (l : list image_set) | SetsWildcard.
(** attribute_type.rs:972-976 *)
Record image_attr := { img_pt : payload_type_t; img_send : image_set_list; img_recv : image_set_list }.
(** attribute_type.rs:996-999 *)
Record sctpmap := { sm_port : N; sm_channels : N }.
(** attribute_type.rs:1015-1023 *)
Inductive group_semantic := GLs | GFid | GSrf | GAnat | GFec | GDdp | GBundle.
(** attribute_type.rs:1043-1046 *)
Record group := { grp_semantics : group_semantic; grp_tags : list str }.
(** attribute_type.rs:1062-1065 *)
Record msid := { msid_id : str; msid_appdata : option str }.
(** attribute_type.rs:1076-1079 *)
Record msid_semantic := { ms_semantic : str; ms_msids : list str }.
(** [SdpAttributeRidParameters] (attribute_type.rs:1094-1103) *)
Record rid_params := Build_rid_params {
  max_width : N;
  max_height : N;
  max_fps : N;
  rid_max_fs : N;
  rid_max_br : N;
  max_pps : N;
  rid_unknown : list str
}.
(** attribute_type.rs:1124-1130 *)
Record rid := { rid_id : str; rid_direction : single_direction; rid_formats : list N;
                rid_params_of : rid_params; rid_depends : list str }.
(** attribute_type.rs:1157-1162 *)
Record rtpmap := { rm_payload_type : N; rm_codec_name : str; rm_frequency : N;
                   rm_channels : option N }.
(** attribute_type.rs:1195-1200 *)
Inductive setup := SetupActive | SetupActpass | SetupHoldconn | SetupPassive.
(** attribute_type.rs:1217-1221 *)
Record ssrc := { ssrc_id : N; ssrc_attribute : option str; ssrc_value : option str }.
(** attribute_type.rs:1270-1276 *)
Inductive ssrc_group_semantic := SgDup | SgFid | SgFec | SgFecFr | SgSim.

(** [SdpAttribute] (attribute_type.rs:1294-1338). *)
Inductive attr :=
| ABundleOnly
| ACandidate (a : candidate)
| ADtlsMessage (a : dtls_message)
| AEndOfCandidates
| AExtmap (a : extmap)
| AExtmapAllowMixed
| AFingerprint (a : fingerprint)
| AFmtp (a : fmtp)
| AFrameRate (a : f64)
| AGroup (a : group)
| AIceLite
| AIceMismatch
| AIceOptions (a : list str)
| AIcePacing (a : N)
| AIcePwd (a : str)
| AIceUfrag (a : str)
| AIdentity (a : str)
| AImageAttr (a : image_attr)
| AInactive
| ALabel (a : str)
| AMaxMessageSize (a : N)
| AMaxPtime (a : N)
| AMid (a : str)
| AMsid (a : msid)
| AMsidSemantic (a : msid_semantic)
| APtime (a : N)
| ARid (a : rid)
| ARecvonly
| ARemoteCandidate (a : remote_candidate)
| ARtpmap (a : rtpmap)
| ARtcp (a : rtcp)
| ARtcpfb (a : rtcp_fb)
| ARtcpMux
| ARtcpMuxOnly
| ARtcpRsize
| ASctpmap (a : sctpmap)
| ASctpPort (a : N)
| ASendonly
| ASendrecv
| ASetup (a : setup)
| ASimulcast (a : simulcast)
| ASsrc (a : ssrc)
| ASsrcGroup (sem : ssrc_group_semantic) (ssrcs : list ssrc).

(** [SdpAttributeType] (attribute_type.rs:1591-1635). *)
Inductive attr_type :=
| TBundleOnly
| TCandidate
| TDtlsMessage
| TEndOfCandidates
| TExtmap
| TExtmapAllowMixed
| TFingerprint
| TFmtp
| TFrameRate
| TGroup
| TIceLite
| TIceMismatch
| TIceOptions
| TIcePacing
| TIcePwd
| TIceUfrag
| TIdentity
| TImageAttr
| TInactive
| TLabel
| TMaxMessageSize
| TMaxPtime
| TMid
| TMsid
| TMsidSemantic
| TPtime
| TRid
| TRecvonly
| TRemoteCandidate
| TRtpmap
| TRtcp
| TRtcpfb
| TRtcpMux
| TRtcpMuxOnly
| TRtcpRsize
| TSctpmap
| TSctpPort
| TSendonly
| TSendrecv
| TSetup
| TSimulcast
| TSsrc
| TSsrcGroup.

(** [impl From<&SdpAttribute> for SdpAttributeType] (attribute_type.rs:1637-1685). *)
Definition attr_type_of (a : attr) : attr_type :=
  match a with
  | ABundleOnly => TBundleOnly
  | ACandidate _ => TCandidate
  | ADtlsMessage _ => TDtlsMessage
  | AEndOfCandidates => TEndOfCandidates
  | AExtmap _ => TExtmap
  | AExtmapAllowMixed => TExtmapAllowMixed
  | AFingerprint _ => TFingerprint
  | AFmtp _ => TFmtp
  | AFrameRate _ => TFrameRate
  | AGroup _ => TGroup
  | AIceLite => TIceLite
  | AIceMismatch => TIceMismatch
  | AIceOptions _ => TIceOptions
  | AIcePacing _ => TIcePacing
  | AIcePwd _ => TIcePwd
  | AIceUfrag _ => TIceUfrag
  | AIdentity _ => TIdentity
  | AImageAttr _ => TImageAttr
  | AInactive => TInactive
  | ALabel _ => TLabel
  | AMaxMessageSize _ => TMaxMessageSize
  | AMaxPtime _ => TMaxPtime
  | AMid _ => TMid
  | AMsid _ => TMsid
  | AMsidSemantic _ => TMsidSemantic
  | APtime _ => TPtime
  | ARid _ => TRid
  | ARecvonly => TRecvonly
  | ARemoteCandidate _ => TRemoteCandidate
  | ARtpmap _ => TRtpmap
  | ARtcp _ => TRtcp
  | ARtcpfb _ => TRtcpfb
  | ARtcpMux => TRtcpMux
  | ARtcpMuxOnly => TRtcpMuxOnly
  | ARtcpRsize => TRtcpRsize
  | ASctpmap _ => TSctpmap
  | ASctpPort _ => TSctpPort
  | ASendonly => TSendonly
  | ASendrecv => TSendrecv
  | ASetup _ => TSetup
  | ASimulcast _ => TSimulcast
  | ASsrc _ => TSsrc
  | ASsrcGroup _ _ => TSsrcGroup
  end.

(** Derived [PartialEq] of [SdpAttributeType] (attribute_type.rs:1590). *)
Definition attr_type_code (t : attr_type) : N :=
  match t with
  | TBundleOnly => 0
  | TCandidate => 1
  | TDtlsMessage => 2
  | TEndOfCandidates => 3
  | TExtmap => 4
  | TExtmapAllowMixed => 5
  | TFingerprint => 6
  | TFmtp => 7
  | TFrameRate => 8
  | TGroup => 9
  | TIceLite => 10
  | TIceMismatch => 11
  | TIceOptions => 12
  | TIcePacing => 13
  | TIcePwd => 14
  | TIceUfrag => 15
  | TIdentity => 16
  | TImageAttr => 17
  | TInactive => 18
  | TLabel => 19
  | TMaxMessageSize => 20
  | TMaxPtime => 21
  | TMid => 22
  | TMsid => 23
  | TMsidSemantic => 24
  | TPtime => 25
  | TRid => 26
  | TRecvonly => 27
  | TRemoteCandidate => 28
  | TRtpmap => 29
  | TRtcp => 30
  | TRtcpfb => 31
  | TRtcpMux => 32
  | TRtcpMuxOnly => 33
  | TRtcpRsize => 34
  | TSctpmap => 35
  | TSctpPort => 36
  | TSendonly => 37
  | TSendrecv => 38
  | TSetup => 39
  | TSimulcast => 40
  | TSsrc => 41
  | TSsrcGroup => 42
  end.
Definition attr_type_eqb (a b : attr_type) : bool := attr_type_code a =? attr_type_code b.

(** ** media_type.rs *)
(** media_type.rs:45-49 *)
Inductive media_value := Audio | Video | Application.
(** media_type.rs:64-76 *)
Inductive protocol_value :=
| RtpAvp | RtpAvpf | RtpSavp | RtpSavpf | TcpDtlsRtpSavp | TcpDtlsRtpSavpf
| UdpTlsRtpSavp | UdpTlsRtpSavpf | DtlsSctp | UdpDtlsSctp | TcpDtlsSctp.
(** media_type.rs:100-103 *)
Inductive format_list := Integers (l : list N) | Strings (l : list str).
(** media_type.rs:21-27 *)
Record media_line := { ml_media : media_value; ml_port : N; ml_port_count : N;
                       ml_proto : protocol_value; ml_formats : format_list }.

(** ** lib.rs *)
(** lib.rs:46-51 *)
Inductive bandwidth := BwAs (n : N) | BwCt (n : N) | BwTias (n : N) | BwUnknown (tp : str) (n : N).
(** lib.rs:73-77 *)
Record connection := { conn_address : typed_address; conn_ttl : option N; conn_amount : option N }.
(** lib.rs:103-108 *)
Record origin := { o_username : str; o_session_id : N; o_session_version : N;
                   o_unicast_addr : typed_address }.
(** lib.rs:141-144 *)
Record timing := { t_start : N; t_stop : N }.
(** [SdpMedia] (media_type.rs:127-135) *)
Record media := { m_media : media_line; m_connection : option connection;
                  m_bandwidth : list bandwidth; m_attribute : list attr }.
(** [SdpType] (lib.rs:154-165) *)
Inductive sdp_type :=
| TyAttribute (a : attr)
| TyBandwidth (b : bandwidth)
| TyConnection (c : connection)
| TyMedia (m : media_line)
| TyOrigin (o : origin)
| TySession (s : str)
| TyTiming (t : timing)
| TyVersion (v : N).
(** [SdpLine] (lib.rs:169-173) *)
Record sdp_line := { l_number : nat; l_type : sdp_type; l_text : str }.
(** [SdpSession] (lib.rs:195-212) *)
Record session := { s_version : N; s_origin : origin; s_session : option str;
                    s_connection : option connection; s_bandwidth : list bandwidth;
                    s_timing : option timing; s_attribute : list attr;
                    s_media : list media; s_warnings : list perr }.

(** ** Field updates ([x.f = v] in the Rust code) *)
Definition set_cand_address (v : address) (p : candidate) : candidate :=
  Build_candidate (foundation p) (component p) (transport p) (priority p) v (cand_port p) (c_type p) (raddr p) (rport p) (tcp_type p) (generation p) (ufrag p) (networkcost p) (unknown_extensions p).
Definition set_cand_port (v : N) (p : candidate) : candidate :=
  Build_candidate (foundation p) (component p) (transport p) (priority p) (cand_address p) v (c_type p) (raddr p) (rport p) (tcp_type p) (generation p) (ufrag p) (networkcost p) (unknown_extensions p).
Definition set_raddr (v : option address) (p : candidate) : candidate :=
  Build_candidate (foundation p) (component p) (transport p) (priority p) (cand_address p) (cand_port p) (c_type p) v (rport p) (tcp_type p) (generation p) (ufrag p) (networkcost p) (unknown_extensions p).
Definition set_rport (v : option N) (p : candidate) : candidate :=
  Build_candidate (foundation p) (component p) (transport p) (priority p) (cand_address p) (cand_port p) (c_type p) (raddr p) v (tcp_type p) (generation p) (ufrag p) (networkcost p) (unknown_extensions p).
Definition set_tcp_type (v : option tcp_type_t) (p : candidate) : candidate :=
  Build_candidate (foundation p) (component p) (transport p) (priority p) (cand_address p) (cand_port p) (c_type p) (raddr p) (rport p) v (generation p) (ufrag p) (networkcost p) (unknown_extensions p).
Definition set_generation (v : option N) (p : candidate) : candidate :=
  Build_candidate (foundation p) (component p) (transport p) (priority p) (cand_address p) (cand_port p) (c_type p) (raddr p) (rport p) (tcp_type p) v (ufrag p) (networkcost p) (unknown_extensions p).
Definition set_ufrag (v : option str) (p : candidate) : candidate :=
  Build_candidate (foundation p) (component p) (transport p) (priority p) (cand_address p) (cand_port p) (c_type p) (raddr p) (rport p) (tcp_type p) (generation p) v (networkcost p) (unknown_extensions p).
Definition set_networkcost (v : option N) (p : candidate) : candidate :=
  Build_candidate (foundation p) (component p) (transport p) (priority p) (cand_address p) (cand_port p) (c_type p) (raddr p) (rport p) (tcp_type p) (generation p) (ufrag p) v (unknown_extensions p).
Definition set_unknown_extensions (v : list (str * str)) (p : candidate) : candidate :=
  Build_candidate (foundation p) (component p) (transport p) (priority p) (cand_address p) (cand_port p) (c_type p) (raddr p) (rport p) (tcp_type p) (generation p) (ufrag p) (networkcost p) v.
Definition set_packetization_mode (v : N) (p : fmtp_params) : fmtp_params :=
  Build_fmtp_params v (level_asymmetry_allowed p) (profile_level_id p) (max_fs p) (max_cpb p) (max_dpb p) (max_br p) (max_mbps p) (max_fr p) (profile p) (level_idx p) (tier p) (maxplaybackrate p) (maxaveragebitrate p) (usedtx p) (stereo p) (useinbandfec p) (cbr p) (ptime p) (minptime p) (maxptime p) (encodings p) (dtmf_tones p) (rtx p) (unknown_tokens p).
Definition set_level_asymmetry_allowed (v : bool) (p : fmtp_params) : fmtp_params :=
  Build_fmtp_params (packetization_mode p) v (profile_level_id p) (max_fs p) (max_cpb p) (max_dpb p) (max_br p) (max_mbps p) (max_fr p) (profile p) (level_idx p) (tier p) (maxplaybackrate p) (maxaveragebitrate p) (usedtx p) (stereo p) (useinbandfec p) (cbr p) (ptime p) (minptime p) (maxptime p) (encodings p) (dtmf_tones p) (rtx p) (unknown_tokens p).
Definition set_profile_level_id (v : N) (p : fmtp_params) : fmtp_params :=
  Build_fmtp_params (packetization_mode p) (level_asymmetry_allowed p) v (max_fs p) (max_cpb p) (max_dpb p) (max_br p) (max_mbps p) (max_fr p) (profile p) (level_idx p) (tier p) (maxplaybackrate p) (maxaveragebitrate p) (usedtx p) (stereo p) (useinbandfec p) (cbr p) (ptime p) (minptime p) (maxptime p) (encodings p) (dtmf_tones p) (rtx p) (unknown_tokens p).
Definition set_max_fs (v : N) (p : fmtp_params) : fmtp_params :=
  Build_fmtp_params (packetization_mode p) (level_asymmetry_allowed p) (profile_level_id p) v (max_cpb p) (max_dpb p) (max_br p) (max_mbps p) (max_fr p) (profile p) (level_idx p) (tier p) (maxplaybackrate p) (maxaveragebitrate p) (usedtx p) (stereo p) (useinbandfec p) (cbr p) (ptime p) (minptime p) (maxptime p) (encodings p) (dtmf_tones p) (rtx p) (unknown_tokens p).
Definition set_max_cpb (v : N) (p : fmtp_params) : fmtp_params :=
  Build_fmtp_params (packetization_mode p) (level_asymmetry_allowed p) (profile_level_id p) (max_fs p) v (max_dpb p) (max_br p) (max_mbps p) (max_fr p) (profile p) (level_idx p) (tier p) (maxplaybackrate p) (maxaveragebitrate p) (usedtx p) (stereo p) (useinbandfec p) (cbr p) (ptime p) (minptime p) (maxptime p) (encodings p) (dtmf_tones p) (rtx p) (unknown_tokens p).
Definition set_max_dpb (v : N) (p : fmtp_params) : fmtp_params :=
  Build_fmtp_params (packetization_mode p) (level_asymmetry_allowed p) (profile_level_id p) (max_fs p) (max_cpb p) v (max_br p) (max_mbps p) (max_fr p) (profile p) (level_idx p) (tier p) (maxplaybackrate p) (maxaveragebitrate p) (usedtx p) (stereo p) (useinbandfec p) (cbr p) (ptime p) (minptime p) (maxptime p) (encodings p) (dtmf_tones p) (rtx p) (unknown_tokens p).
Definition set_max_br (v : N) (p : fmtp_params) : fmtp_params :=
  Build_fmtp_params (packetization_mode p) (level_asymmetry_allowed p) (profile_level_id p) (max_fs p) (max_cpb p) (max_dpb p) v (max_mbps p) (max_fr p) (profile p) (level_idx p) (tier p) (maxplaybackrate p) (maxaveragebitrate p) (usedtx p) (stereo p) (useinbandfec p) (cbr p) (ptime p) (minptime p) (maxptime p) (encodings p) (dtmf_tones p) (rtx p) (unknown_tokens p).
Definition set_max_mbps (v : N) (p : fmtp_params) : fmtp_params :=
  Build_fmtp_params (packetization_mode p) (level_asymmetry_allowed p) (profile_level_id p) (max_fs p) (max_cpb p) (max_dpb p) (max_br p) v (max_fr p) (profile p) (level_idx p) (tier p) (maxplaybackrate p) (maxaveragebitrate p) (usedtx p) (stereo p) (useinbandfec p) (cbr p) (ptime p) (minptime p) (maxptime p) (encodings p) (dtmf_tones p) (rtx p) (unknown_tokens p).
Definition set_max_fr (v : N) (p : fmtp_params) : fmtp_params :=
  Build_fmtp_params (packetization_mode p) (level_asymmetry_allowed p) (profile_level_id p) (max_fs p) (max_cpb p) (max_dpb p) (max_br p) (max_mbps p) v (profile p) (level_idx p) (tier p) (maxplaybackrate p) (maxaveragebitrate p) (usedtx p) (stereo p) (useinbandfec p) (cbr p) (ptime p) (minptime p) (maxptime p) (encodings p) (dtmf_tones p) (rtx p) (unknown_tokens p).
Definition set_profile (v : option N) (p : fmtp_params) : fmtp_params :=
  Build_fmtp_params (packetization_mode p) (level_asymmetry_allowed p) (profile_level_id p) (max_fs p) (max_cpb p) (max_dpb p) (max_br p) (max_mbps p) (max_fr p) v (level_idx p) (tier p) (maxplaybackrate p) (maxaveragebitrate p) (usedtx p) (stereo p) (useinbandfec p) (cbr p) (ptime p) (minptime p) (maxptime p) (encodings p) (dtmf_tones p) (rtx p) (unknown_tokens p).
Definition set_level_idx (v : option N) (p : fmtp_params) : fmtp_params :=
  Build_fmtp_params (packetization_mode p) (level_asymmetry_allowed p) (profile_level_id p) (max_fs p) (max_cpb p) (max_dpb p) (max_br p) (max_mbps p) (max_fr p) (profile p) v (tier p) (maxplaybackrate p) (maxaveragebitrate p) (usedtx p) (stereo p) (useinbandfec p) (cbr p) (ptime p) (minptime p) (maxptime p) (encodings p) (dtmf_tones p) (rtx p) (unknown_tokens p).
Definition set_tier (v : option N) (p : fmtp_params) : fmtp_params :=
  Build_fmtp_params (packetization_mode p) (level_asymmetry_allowed p) (profile_level_id p) (max_fs p) (max_cpb p) (max_dpb p) (max_br p) (max_mbps p) (max_fr p) (profile p) (level_idx p) v (maxplaybackrate p) (maxaveragebitrate p) (usedtx p) (stereo p) (useinbandfec p) (cbr p) (ptime p) (minptime p) (maxptime p) (encodings p) (dtmf_tones p) (rtx p) (unknown_tokens p).
Definition set_maxplaybackrate (v : N) (p : fmtp_params) : fmtp_params :=
  Build_fmtp_params (packetization_mode p) (level_asymmetry_allowed p) (profile_level_id p) (max_fs p) (max_cpb p) (max_dpb p) (max_br p) (max_mbps p) (max_fr p) (profile p) (level_idx p) (tier p) v (maxaveragebitrate p) (usedtx p) (stereo p) (useinbandfec p) (cbr p) (ptime p) (minptime p) (maxptime p) (encodings p) (dtmf_tones p) (rtx p) (unknown_tokens p).
Definition set_maxaveragebitrate (v : N) (p : fmtp_params) : fmtp_params :=
  Build_fmtp_params (packetization_mode p) (level_asymmetry_allowed p) (profile_level_id p) (max_fs p) (max_cpb p) (max_dpb p) (max_br p) (max_mbps p) (max_fr p) (profile p) (level_idx p) (tier p) (maxplaybackrate p) v (usedtx p) (stereo p) (useinbandfec p) (cbr p) (ptime p) (minptime p) (maxptime p) (encodings p) (dtmf_tones p) (rtx p) (unknown_tokens p).
Definition set_usedtx (v : bool) (p : fmtp_params) : fmtp_params :=
  Build_fmtp_params (packetization_mode p) (level_asymmetry_allowed p) (profile_level_id p) (max_fs p) (max_cpb p) (max_dpb p) (max_br p) (max_mbps p) (max_fr p) (profile p) (level_idx p) (tier p) (maxplaybackrate p) (maxaveragebitrate p) v (stereo p) (useinbandfec p) (cbr p) (ptime p) (minptime p) (maxptime p) (encodings p) (dtmf_tones p) (rtx p) (unknown_tokens p).
Definition set_stereo (v : bool) (p : fmtp_params) : fmtp_params :=
  Build_fmtp_params (packetization_mode p) (level_asymmetry_allowed p) (profile_level_id p) (max_fs p) (max_cpb p) (max_dpb p) (max_br p) (max_mbps p) (max_fr p) (profile p) (level_idx p) (tier p) (maxplaybackrate p) (maxaveragebitrate p) (usedtx p) v (useinbandfec p) (cbr p) (ptime p) (minptime p) (maxptime p) (encodings p) (dtmf_tones p) (rtx p) (unknown_tokens p).
Definition set_useinbandfec (v : bool) (p : fmtp_params) : fmtp_params :=
  Build_fmtp_params (packetization_mode p) (level_asymmetry_allowed p) (profile_level_id p) (max_fs p) (max_cpb p) (max_dpb p) (max_br p) (max_mbps p) (max_fr p) (profile p) (level_idx p) (tier p) (maxplaybackrate p) (maxaveragebitrate p) (usedtx p) (stereo p) v (cbr p) (ptime p) (minptime p) (maxptime p) (encodings p) (dtmf_tones p) (rtx p) (unknown_tokens p).
Definition set_cbr (v : bool) (p : fmtp_params) : fmtp_params :=
  Build_fmtp_params (packetization_mode p) (level_asymmetry_allowed p) (profile_level_id p) (max_fs p) (max_cpb p) (max_dpb p) (max_br p) (max_mbps p) (max_fr p) (profile p) (level_idx p) (tier p) (maxplaybackrate p) (maxaveragebitrate p) (usedtx p) (stereo p) (useinbandfec p) v (ptime p) (minptime p) (maxptime p) (encodings p) (dtmf_tones p) (rtx p) (unknown_tokens p).
Definition set_ptime (v : N) (p : fmtp_params) : fmtp_params :=
  Build_fmtp_params (packetization_mode p) (level_asymmetry_allowed p) (profile_level_id p) (max_fs p) (max_cpb p) (max_dpb p) (max_br p) (max_mbps p) (max_fr p) (profile p) (level_idx p) (tier p) (maxplaybackrate p) (maxaveragebitrate p) (usedtx p) (stereo p) (useinbandfec p) (cbr p) v (minptime p) (maxptime p) (encodings p) (dtmf_tones p) (rtx p) (unknown_tokens p).
Definition set_minptime (v : N) (p : fmtp_params) : fmtp_params :=
  Build_fmtp_params (packetization_mode p) (level_asymmetry_allowed p) (profile_level_id p) (max_fs p) (max_cpb p) (max_dpb p) (max_br p) (max_mbps p) (max_fr p) (profile p) (level_idx p) (tier p) (maxplaybackrate p) (maxaveragebitrate p) (usedtx p) (stereo p) (useinbandfec p) (cbr p) (ptime p) v (maxptime p) (encodings p) (dtmf_tones p) (rtx p) (unknown_tokens p).
Definition set_maxptime (v : N) (p : fmtp_params) : fmtp_params :=
  Build_fmtp_params (packetization_mode p) (level_asymmetry_allowed p) (profile_level_id p) (max_fs p) (max_cpb p) (max_dpb p) (max_br p) (max_mbps p) (max_fr p) (profile p) (level_idx p) (tier p) (maxplaybackrate p) (maxaveragebitrate p) (usedtx p) (stereo p) (useinbandfec p) (cbr p) (ptime p) (minptime p) v (encodings p) (dtmf_tones p) (rtx p) (unknown_tokens p).
Definition set_encodings (v : list N) (p : fmtp_params) : fmtp_params :=
  Build_fmtp_params (packetization_mode p) (level_asymmetry_allowed p) (profile_level_id p) (max_fs p) (max_cpb p) (max_dpb p) (max_br p) (max_mbps p) (max_fr p) (profile p) (level_idx p) (tier p) (maxplaybackrate p) (maxaveragebitrate p) (usedtx p) (stereo p) (useinbandfec p) (cbr p) (ptime p) (minptime p) (maxptime p) v (dtmf_tones p) (rtx p) (unknown_tokens p).
Definition set_dtmf_tones (v : str) (p : fmtp_params) : fmtp_params :=
  Build_fmtp_params (packetization_mode p) (level_asymmetry_allowed p) (profile_level_id p) (max_fs p) (max_cpb p) (max_dpb p) (max_br p) (max_mbps p) (max_fr p) (profile p) (level_idx p) (tier p) (maxplaybackrate p) (maxaveragebitrate p) (usedtx p) (stereo p) (useinbandfec p) (cbr p) (ptime p) (minptime p) (maxptime p) (encodings p) v (rtx p) (unknown_tokens p).
Definition set_rtx (v : option rtx_params) (p : fmtp_params) : fmtp_params :=
  Build_fmtp_params (packetization_mode p) (level_asymmetry_allowed p) (profile_level_id p) (max_fs p) (max_cpb p) (max_dpb p) (max_br p) (max_mbps p) (max_fr p) (profile p) (level_idx p) (tier p) (maxplaybackrate p) (maxaveragebitrate p) (usedtx p) (stereo p) (useinbandfec p) (cbr p) (ptime p) (minptime p) (maxptime p) (encodings p) (dtmf_tones p) v (unknown_tokens p).
Definition set_unknown_tokens (v : list str) (p : fmtp_params) : fmtp_params :=
  Build_fmtp_params (packetization_mode p) (level_asymmetry_allowed p) (profile_level_id p) (max_fs p) (max_cpb p) (max_dpb p) (max_br p) (max_mbps p) (max_fr p) (profile p) (level_idx p) (tier p) (maxplaybackrate p) (maxaveragebitrate p) (usedtx p) (stereo p) (useinbandfec p) (cbr p) (ptime p) (minptime p) (maxptime p) (encodings p) (dtmf_tones p) (rtx p) v.
Definition set_max_width (v : N) (p : rid_params) : rid_params :=
  Build_rid_params v (max_height p) (max_fps p) (rid_max_fs p) (rid_max_br p) (max_pps p) (rid_unknown p).
Definition set_max_height (v : N) (p : rid_params) : rid_params :=
  Build_rid_params (max_width p) v (max_fps p) (rid_max_fs p) (rid_max_br p) (max_pps p) (rid_unknown p).
Definition set_max_fps (v : N) (p : rid_params) : rid_params :=
  Build_rid_params (max_width p) (max_height p) v (rid_max_fs p) (rid_max_br p) (max_pps p) (rid_unknown p).
Definition set_rid_max_fs (v : N) (p : rid_params) : rid_params :=
  Build_rid_params (max_width p) (max_height p) (max_fps p) v (rid_max_br p) (max_pps p) (rid_unknown p).
Definition set_rid_max_br (v : N) (p : rid_params) : rid_params :=
  Build_rid_params (max_width p) (max_height p) (max_fps p) (rid_max_fs p) v (max_pps p) (rid_unknown p).
Definition set_max_pps (v : N) (p : rid_params) : rid_params :=
  Build_rid_params (max_width p) (max_height p) (max_fps p) (rid_max_fs p) (rid_max_br p) v (rid_unknown p).
Definition set_rid_unknown (v : list str) (p : rid_params) : rid_params :=
  Build_rid_params (max_width p) (max_height p) (max_fps p) (rid_max_fs p) (rid_max_br p) (max_pps p) v.
