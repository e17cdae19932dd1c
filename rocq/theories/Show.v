(** * Display: the printed form of every type *)
From Coq Require Import List NArith Bool Ascii String.
From Verif Require Import Str Num Net Types Ext.
Import ListNotations.
Open Scope N_scope.
Open Scope list_scope.

Section WithExt.
Context {E : Ext}.

(** ** Helpers (attribute_type.rs:19-89) *)
(** [option_to_string!] / [write_option_string!] with format "<pre>{}<suf>"
    (attribute_type.rs:21-38). *)
Definition show_opt {A} (pre : str) (show : A -> str) (suf : str) (o : option A) : str :=
  match o with Some x => pre ++ show x ++ suf | None => [] end.
(** [maybe_vector_to_string!] with format "<pre>{}<suf>" (attribute_type.rs:41-55). *)
Definition non_empty (s : str) : bool := negb (is_empty s).
Definition show_vec {A} (pre suf sep : str) (show : A -> str) (l : list A) : str :=
  match l with
  | [] => []
  | _ => pre ++ join sep (filter non_empty (map show l)) ++ suf
  end.
(** [non_empty_string_vec!] (attribute_type.rs:58-70). *)
Definition non_empty_vec (l : list str) : list str := filter non_empty l.
(** [maybe_print_param] at an integer type (attribute_type.rs:72-81). *)
Definition maybe_param (name : str) (v default : N) : str :=
  if v =? default then [] else name ++ show_N v.
(** [maybe_print_param] at [String] (attribute_type.rs:72-81). *)
Definition maybe_param_str (name v default : str) : str :=
  if str_eqb v default then [] else name ++ v.
(** [maybe_print_bool_param] (attribute_type.rs:83-89). *)
Definition maybe_bool_param (name : str) (v default : bool) : str :=
  if Bool.eqb v default then [] else name ++ [c_eq] ++ show_bool_int v.

(** ** address.rs *)
(** address.rs:19-26 *)
Definition show_address (a : address) : str :=
  match a with Fqdn s => s | Ip i => show_ip i end.
(** address.rs:74-82 *)
Definition show_addr_type (t : addr_type) : str :=
  match t with IpV4 => lit "IP4" | IpV6 => lit "IP6" end.
(** [AddressTyped for IpAddr] (address.rs:99-106) *)
Definition ip_addr_type (a : ip) : addr_type := match a with V4 _ => IpV4 | V6 _ => IpV6 end.
(** [AddressTyped for ExplicitlyTypedAddress] (address.rs:128-135) *)
Definition typed_addr_type (a : typed_address) : addr_type :=
  match a with TFqdn t _ => t | TIp i => ip_addr_type i end.
(** address.rs:118-126 *)
Definition show_typed_address (a : typed_address) : str :=
  lit "IN " ++ show_addr_type (typed_addr_type a) ++ sp ++
  match a with TFqdn _ d => d | TIp i => show_ip i end.
(** [ip_address_to_string] (network.rs:10-15) *)
Definition ip_address_to_string (a : ip) : str :=
  match a with V4 n => lit "IN IP4 " ++ show_ip4 n | V6 n => lit "IN IP6 " ++ show_ip6 n end.

(** ** attribute_type.rs *)
(** attribute_type.rs:99-107 *)
Definition show_single_direction (d : single_direction) : str :=
  match d with Send => lit "send" | Recv => lit "recv" end.
(** attribute_type.rs:116-123 *)
Definition show_payload_type (p : payload_type_t) : str :=
  match p with PayloadType n => show_N n | Wildcard => lit "*" end.
(** attribute_type.rs:132-140 *)
Definition show_transport (t : transport_t) : str :=
  match t with Udp => lit "UDP" | Tcp => lit "TCP" end.
(** attribute_type.rs:151-161 *)
Definition show_cand_type (t : cand_type) : str :=
  match t with
  | Host => lit "host" | Srflx => lit "srflx" | Prflx => lit "prflx" | Relay => lit "relay"
  end.
(** attribute_type.rs:171-180 *)
Definition show_tcp_type (t : tcp_type_t) : str :=
  match t with
  | TcpActive => lit "active" | TcpPassive => lit "passive" | TcpSimultaneous => lit "so"
  end.
(** attribute_type.rs:202-232 *)
Definition show_candidate (c : candidate) : str :=
  foundation c ++ sp ++ show_N (component c) ++ sp ++ show_transport (transport c) ++ sp ++
  show_N (priority c) ++ sp ++ show_address (cand_address c) ++ sp ++ show_N (cand_port c) ++
  lit " typ " ++ show_cand_type (c_type c) ++
  show_opt (lit " raddr ") show_address [] (raddr c) ++
  show_opt (lit " rport ") show_N [] (rport c) ++
  show_opt (lit " tcptype ") show_tcp_type [] (tcp_type c) ++
  show_opt (lit " generation ") show_N [] (generation c) ++
  show_opt (lit " ufrag ") (fun s => s) [] (ufrag c) ++
  show_opt (lit " network-cost ") show_N [] (networkcost c) ++
  flat_map (fun nv => sp ++ fst nv ++ sp ++ snd nv) (unknown_extensions c).
(** attribute_type.rs:313-321 *)
Definition show_dtls_message (m : dtls_message) : str :=
  match m with
  | DtlsClient s => lit "client " ++ s
  | DtlsServer s => lit "server " ++ s
  end.
(** attribute_type.rs:332-342 *)
Definition show_remote_candidate (c : remote_candidate) : str :=
  show_N (rc_component c) ++ sp ++ show_address (rc_address c) ++ sp ++ show_N (rc_port c).
(** attribute_type.rs:378-385 *)
Definition show_simulcast_id (i : simulcast_id) : str :=
  (if sid_paused i then [c_tilde] else []) ++ sid_id i.
(** attribute_type.rs:406-415 *)
Definition show_simulcast_version (v : simulcast_version) : str :=
  join [c_comma] (map show_simulcast_id v).
(** attribute_type.rs:425-434 *)
Definition show_simulcast (s : simulcast) : str :=
  join sp (non_empty_vec
    [ show_vec (lit "send ") [] [c_semi] show_simulcast_version (sim_send s);
      show_vec (lit "recv ") [] [c_semi] show_simulcast_version (sim_receive s) ]).
(** attribute_type.rs:457-464 *)
Definition show_rtcp (r : rtcp) : str :=
  match rtcp_unicast_addr r with
  | Some a => show_N (rtcp_port r) ++ sp ++ show_typed_address a
  | None => show_N (rtcp_port r)
  end.
(** attribute_type.rs:480-492 *)
Definition show_rtcp_fb_type (t : rtcp_fb_type) : str :=
  match t with
  | FbAck => lit "ack" | FbCcm => lit "ccm" | FbNack => lit "nack"
  | FbTrrInt => lit "trr-int" | FbRemb => lit "goog-remb" | FbTransCc => lit "transport-cc"
  end.
(** attribute_type.rs:504-517 *)
Definition show_rtcp_fb (f : rtcp_fb) : str :=
  show_payload_type (fb_payload_type f) ++ sp ++ show_rtcp_fb_type (fb_feedback_type f) ++
  (if is_empty (fb_parameter f) then []
   else sp ++ fb_parameter f ++ maybe_param_str sp (fb_extra f) []).
(** attribute_type.rs:528-537 *)
Definition show_direction (d : direction) : str :=
  match d with
  | DRecvonly => lit "recvonly" | DSendonly => lit "sendonly" | DSendrecv => lit "sendrecv"
  end.
(** attribute_type.rs:549-560 *)
Definition show_extmap (e : extmap) : str :=
  show_N (ext_id e) ++ show_opt [c_slash] show_direction [] (ext_direction e) ++ sp ++
  ext_url e ++ show_opt sp (fun s => s) [] (ext_attributes e).
(** attribute_type.rs:570-578 *)
Definition show_rtx (r : rtx_params) : str :=
  match rtx_time r with
  | Some t => lit "apt=" ++ show_N (rtx_apt r) ++ lit ";rtx-time=" ++ show_N t
  | None => lit "apt=" ++ show_N (rtx_apt r)
  end.
(** The parameter list of attribute_type.rs:664-704. *)
Definition fmtp_param_list (p : fmtp_params) : list str :=
  [ maybe_param_str (lit "profile-level-id=") (pad0 6 (show_hex (profile_level_id p))) (lit "42000a");
    maybe_bool_param (lit "level-asymmetry-allowed") (level_asymmetry_allowed p) false;
    maybe_param (lit "packetization-mode=") (packetization_mode p) 0;
    maybe_param (lit "max-fs=") (max_fs p) 0;
    maybe_param (lit "max-cpb=") (max_cpb p) 0;
    maybe_param (lit "max-dpb=") (max_dpb p) 0;
    maybe_param (lit "max-br=") (max_br p) 0;
    maybe_param (lit "max-mbps=") (max_mbps p) 0;
    maybe_param (lit "max-fr=") (max_fr p) 0;
    show_opt (lit "profile=") show_N [] (profile p);
    show_opt (lit "level-idx=") show_N [] (level_idx p);
    show_opt (lit "tier=") show_N [] (tier p);
    maybe_param (lit "maxplaybackrate=") (maxplaybackrate p) 48000;
    maybe_param (lit "maxaveragebitrate=") (maxaveragebitrate p) 0;
    maybe_param (lit "ptime=") (ptime p) 0;
    maybe_param (lit "minptime=") (minptime p) 0;
    maybe_param (lit "maxptime=") (maxptime p) 0;
    maybe_bool_param (lit "usedtx") (usedtx p) false;
    maybe_bool_param (lit "stereo") (stereo p) false;
    maybe_bool_param (lit "useinbandfec") (useinbandfec p) false;
    maybe_bool_param (lit "cbr") (cbr p) false;
    show_vec [] [] [c_comma] (fun s => s) (unknown_tokens p) ].
(** attribute_type.rs:642-708 *)
Definition show_fmtp_params (p : fmtp_params) : str :=
  match rtx p with
  | Some r => show_rtx r
  | None =>
      if non_empty (dtmf_tones p) then dtmf_tones p
      else match encodings p with
           | _ :: _ => join [c_slash] (map show_N (encodings p))
           | [] => join [c_semi] (non_empty_vec (fmtp_param_list p))
           end
  end.
(** attribute_type.rs:718-731 *)
Definition show_fmtp (f : fmtp) : str :=
  let parameters := show_fmtp_params (fmtp_parameters f) in
  if is_empty parameters then [] else show_N (fmtp_payload_type f) ++ sp ++ parameters.
(** attribute_type.rs:792-803 *)
Definition show_hash_type (h : hash_type) : str :=
  match h with
  | Sha1 => lit "sha-1" | Sha224 => lit "sha-224" | Sha256 => lit "sha-256"
  | Sha384 => lit "sha-384" | Sha512 => lit "sha-512"
  end.
(** attribute_type.rs:831-845 *)
Definition show_fingerprint (f : fingerprint) : str :=
  show_hash_type (fp_hash f) ++ sp ++
  join [c_colon] (map (fun b => pad0 2 (show_HEX b)) (fp_bytes f)).
(** attribute_type.rs:856-871 *)
Definition show_discrete {A} (show : A -> str) (l : list A) : str :=
  match l with
  | [x] => show x
  | _ => [c_lbr] ++ join [c_comma] (map show l) ++ [c_rbr]
  end.
(** attribute_type.rs:880-895 *)
Definition show_xy_range (r : xy_range) : str :=
  match r with
  | XyRange min max step =>
      [c_lbr] ++ show_N min ++ [c_colon] ++ show_opt [] show_N [c_colon] step ++
      show_N max ++ [c_rbr]
  | XyDiscrete l => show_discrete show_N l
  end.
(** attribute_type.rs:904-913 *)
Definition show_s_range (r : s_range) : str :=
  match r with
  | SRange min max => [c_lbr] ++ show_f32 min ++ [c_minus] ++ show_f32 max ++ [c_rbr]
  | SDiscrete l => show_discrete show_f32 l
  end.
(** attribute_type.rs:922-926 *)
Definition show_p_range (r : p_range) : str :=
  [c_lbr] ++ show_f32 (par_min r) ++ [c_minus] ++ show_f32 (par_max r) ++ [c_rbr].
(** attribute_type.rs:938-946 *)
Definition show_image_set (s : image_set) : str :=
  lit "[x=" ++ show_xy_range (set_x s) ++ lit ",y=" ++ show_xy_range (set_y s) ++
  show_opt (lit ",sar=") show_s_range [] (set_sar s) ++
  show_opt (lit ",par=") show_p_range [] (set_par s) ++
  show_opt (lit ",q=") show_f32 [] (set_q s) ++ [c_rbr].
(** attribute_type.rs:955-967 *)
Definition show_image_set_list (l : image_set_list) : str :=
  match l with
  | Sets sets => join sp (map show_image_set sets)
  | SetsWildcard => lit "*"
  end.
(** The closure [maybe_sets_to_string] (attribute_type.rs:980-986). *)
Definition maybe_sets (l : image_set_list) : option image_set_list :=
  match l with
  | Sets [] => None
  | Sets sets => Some (Sets sets)
  | x => Some x
  end.
(** attribute_type.rs:978-991 *)
Definition show_image_attr (a : image_attr) : str :=
  show_payload_type (img_pt a) ++
  show_opt (lit " send ") show_image_set_list [] (maybe_sets (img_send a)) ++
  show_opt (lit " recv ") show_image_set_list [] (maybe_sets (img_recv a)).
(** attribute_type.rs:1001-1010 *)
Definition show_sctpmap (s : sctpmap) : str :=
  show_N (sm_port s) ++ lit " webrtc-datachannel " ++ show_N (sm_channels s).
(** attribute_type.rs:1025-1038 *)
Definition show_group_semantic (g : group_semantic) : str :=
  match g with
  | GLs => lit "LS" | GFid => lit "FID" | GSrf => lit "SRF" | GAnat => lit "ANAT"
  | GFec => lit "FEC" | GDdp => lit "DDP" | GBundle => lit "BUNDLE"
  end.
(** attribute_type.rs:1048-1057 *)
Definition show_group (g : group) : str :=
  show_group_semantic (grp_semantics g) ++ show_vec sp [] sp (fun s => s) (grp_tags g).
(** attribute_type.rs:1067-1072 *)
Definition show_msid (m : msid) : str :=
  msid_id m ++ show_opt sp (fun s => s) [] (msid_appdata m).
(** attribute_type.rs:1081-1089 *)
Definition show_msid_semantic (m : msid_semantic) : str :=
  ms_semantic m ++ sp ++
  match ms_msids m with [] => lit "*" | l => join sp l end.
(** attribute_type.rs:1105-1119 *)
Definition show_rid_params (p : rid_params) : str :=
  join [c_semi] (non_empty_vec
    [ maybe_param (lit "max-width=") (max_width p) 0;
      maybe_param (lit "max-height=") (max_height p) 0;
      maybe_param (lit "max-fps=") (max_fps p) 0;
      maybe_param (lit "max-fs=") (rid_max_fs p) 0;
      maybe_param (lit "max-br=") (rid_max_br p) 0;
      maybe_param (lit "max-pps=") (max_pps p) 0;
      show_vec [] [] [c_semi] (fun s => s) (rid_unknown p) ]).
(** attribute_type.rs:1132-1152 *)
Definition show_rid (r : rid) : str :=
  rid_id r ++ sp ++ show_single_direction (rid_direction r) ++
  match join [c_semi] (non_empty_vec
          [ show_vec (lit "pt=") [] [c_comma] show_N (rid_formats r);
            show_rid_params (rid_params_of r);
            show_vec (lit "depends=") [] [c_comma] (fun s => s) (rid_depends r) ]) with
  | [] => []
  | x => sp ++ x
  end.
(** attribute_type.rs:1179-1190 *)
Definition show_rtpmap (r : rtpmap) : str :=
  show_N (rm_payload_type r) ++ sp ++ rm_codec_name r ++ [c_slash] ++ show_N (rm_frequency r) ++
  show_opt [c_slash] show_N [] (rm_channels r).
(** attribute_type.rs:1202-1212 *)
Definition show_setup (s : setup) : str :=
  match s with
  | SetupActive => lit "active" | SetupActpass => lit "actpass"
  | SetupHoldconn => lit "holdconn" | SetupPassive => lit "passive"
  end.
(** attribute_type.rs:1243-1249 *)
Definition show_ssrc (s : ssrc) : str :=
  show_N (ssrc_id s) ++ show_opt sp (fun x => x) [] (ssrc_attribute s) ++
  show_opt [c_colon] (fun x => x) [] (ssrc_value s).
(** attribute_type.rs:1278-1289 *)
Definition show_ssrc_group_semantic (s : ssrc_group_semantic) : str :=
  match s with
  | SgDup => lit "DUP" | SgFid => lit "FID" | SgFec => lit "FEC" | SgFecFr => lit "FEC-FR"
  | SgSim => lit "SIM"
  end.

(** attribute_type.rs:1687-1736 *)
Definition show_attr_type (t : attr_type) : str :=
  match t with
  | TBundleOnly => lit "bundle-only"
  | TCandidate => lit "candidate"
  | TDtlsMessage => lit "dtls-message"
  | TEndOfCandidates => lit "end-of-candidates"
  | TExtmap => lit "extmap"
  | TExtmapAllowMixed => lit "extmap-allow-mixed"
  | TFingerprint => lit "fingerprint"
  | TFmtp => lit "fmtp"
  | TFrameRate => lit "framerate"
  | TGroup => lit "group"
  | TIceLite => lit "ice-lite"
  | TIceMismatch => lit "ice-mismatch"
  | TIceOptions => lit "ice-options"
  | TIcePacing => lit "ice-pacing"
  | TIcePwd => lit "ice-pwd"
  | TIceUfrag => lit "ice-ufrag"
  | TIdentity => lit "identity"
  | TImageAttr => lit "imageattr"
  | TInactive => lit "inactive"
  | TLabel => lit "label"
  | TMaxMessageSize => lit "max-message-size"
  | TMaxPtime => lit "maxptime"
  | TMid => lit "mid"
  | TMsid => lit "msid"
  | TMsidSemantic => lit "msid-semantic"
  | TPtime => lit "ptime"
  | TRid => lit "rid"
  | TRecvonly => lit "recvonly"
  | TRemoteCandidate => lit "remote-candidates"
  | TRtpmap => lit "rtpmap"
  | TRtcp => lit "rtcp"
  | TRtcpfb => lit "rtcp-fb"
  | TRtcpMux => lit "rtcp-mux"
  | TRtcpMuxOnly => lit "rtcp-mux-only"
  | TRtcpRsize => lit "rtcp-rsize"
  | TSctpmap => lit "sctpmap"
  | TSctpPort => lit "sctp-port"
  | TSendonly => lit "sendonly"
  | TSendrecv => lit "sendrecv"
  | TSetup => lit "setup"
  | TSimulcast => lit "simulcast"
  | TSsrc => lit "ssrc"
  | TSsrcGroup => lit "ssrc-group"
  end.

(** The closure [attr_to_string] (attribute_type.rs:1516-1522). *)
Definition attr_to_string (t : attr_type) (s : str) : str :=
  if is_empty s then [] else show_attr_type t ++ [c_colon] ++ s.

(** attribute_type.rs:1513-1574 *)
Definition show_attr (a : attr) : str :=
  match a with
  | ABundleOnly => show_attr_type TBundleOnly
  | ACandidate x => attr_to_string TCandidate (show_candidate x)
  | ADtlsMessage x => attr_to_string TDtlsMessage (show_dtls_message x)
  | AEndOfCandidates => show_attr_type TEndOfCandidates
  | AExtmap x => attr_to_string TExtmap (show_extmap x)
  | AExtmapAllowMixed => show_attr_type TExtmapAllowMixed
  | AFingerprint x => attr_to_string TFingerprint (show_fingerprint x)
  | AFmtp x => attr_to_string TFmtp (show_fmtp x)
  | AFrameRate x => attr_to_string TFrameRate (show_f64 x)
  | AGroup x => attr_to_string TGroup (show_group x)
  | AIceLite => show_attr_type TIceLite
  | AIceMismatch => show_attr_type TIceMismatch
  | AIceOptions x => attr_to_string TIceOptions (join sp x)
  | AIcePacing x => attr_to_string TIcePacing (show_N x)
  | AIcePwd x => attr_to_string TIcePwd x
  | AIceUfrag x => attr_to_string TIceUfrag x
  | AIdentity x => attr_to_string TIdentity x
  | AImageAttr x => attr_to_string TImageAttr (show_image_attr x)
  | AInactive => show_attr_type TInactive
  | ALabel x => attr_to_string TLabel x
  | AMaxMessageSize x => attr_to_string TMaxMessageSize (show_N x)
  | AMaxPtime x => attr_to_string TMaxPtime (show_N x)
  | AMid x => attr_to_string TMid x
  | AMsid x => attr_to_string TMsid (show_msid x)
  | AMsidSemantic x => attr_to_string TMsidSemantic (show_msid_semantic x)
  | APtime x => attr_to_string TPtime (show_N x)
  | ARid x => attr_to_string TRid (show_rid x)
  | ARecvonly => show_attr_type TRecvonly
  | ARemoteCandidate x => attr_to_string TRemoteCandidate (show_remote_candidate x)
  | ARtpmap x => attr_to_string TRtpmap (show_rtpmap x)
  | ARtcp x => attr_to_string TRtcp (show_rtcp x)
  | ARtcpfb x => attr_to_string TRtcpfb (show_rtcp_fb x)
  | ARtcpMux => show_attr_type TRtcpMux
  | ARtcpMuxOnly => show_attr_type TRtcpMuxOnly
  | ARtcpRsize => show_attr_type TRtcpRsize
  | ASctpmap x => attr_to_string TSctpmap (show_sctpmap x)
  | ASctpPort x => attr_to_string TSctpPort (show_N x)
  | ASendonly => show_attr_type TSendonly
  | ASendrecv => show_attr_type TSendrecv
  | ASetup x => attr_to_string TSetup (show_setup x)
  | ASimulcast x => attr_to_string TSimulcast (show_simulcast x)
  | ASsrc x => attr_to_string TSsrc (show_ssrc x)
  | ASsrcGroup sem ssrcs =>
      attr_to_string TSsrcGroup (show_ssrc_group_semantic sem) ++ sp ++
      join sp (map show_ssrc ssrcs)
  end.

(** ** media_type.rs *)
(** media_type.rs:51-60 *)
Definition show_media_value (m : media_value) : str :=
  match m with
  | Audio => lit "audio" | Video => lit "video" | Application => lit "application"
  end.
(** media_type.rs:78-95 *)
Definition show_protocol_value (p : protocol_value) : str :=
  match p with
  | RtpAvp => lit "RTP/AVP"
  | RtpAvpf => lit "RTP/AVPF"
  | RtpSavp => lit "RTP/SAVP"
  | RtpSavpf => lit "RTP/SAVPF"
  | TcpDtlsRtpSavp => lit "TCP/DTLS/RTP/SAVP"
  | TcpDtlsRtpSavpf => lit "TCP/DTLS/RTP/SAVPF"
  | UdpTlsRtpSavp => lit "UDP/TLS/RTP/SAVP"
  | UdpTlsRtpSavpf => lit "UDP/TLS/RTP/SAVPF"
  | DtlsSctp => lit "DTLS/SCTP"
  | UdpDtlsSctp => lit "UDP/DTLS/SCTP"
  | TcpDtlsSctp => lit "TCP/DTLS/SCTP"
  end.
(** media_type.rs:105-113 *)
Definition show_format_list (f : format_list) : str :=
  match f with
  | Integers l => show_vec [] [] sp show_N l
  | Strings l => join sp l
  end.
(** media_type.rs:29-41 *)
Definition show_media_line (m : media_line) : str :=
  show_media_value (ml_media m) ++ sp ++ show_N (ml_port m) ++
  maybe_param [c_slash] (ml_port_count m) 0 ++ sp ++ show_protocol_value (ml_proto m) ++ sp ++
  show_format_list (ml_formats m).

(** ** lib.rs *)
(** lib.rs:53-63 *)
Definition show_bandwidth (b : bandwidth) : str :=
  match b with
  | BwAs n => lit "AS" ++ [c_colon] ++ show_N n
  | BwCt n => lit "CT" ++ [c_colon] ++ show_N n
  | BwTias n => lit "TIAS" ++ [c_colon] ++ show_N n
  | BwUnknown tp n => tp ++ [c_colon] ++ show_N n
  end.
(** lib.rs:79-85 *)
Definition show_connection (c : connection) : str :=
  show_typed_address (conn_address c) ++ show_opt [c_slash] show_N [] (conn_ttl c) ++
  show_opt [c_slash] show_N [] (conn_amount c).
(** lib.rs:110-121 *)
Definition show_origin (o : origin) : str :=
  o_username o ++ sp ++ show_N (o_session_id o) ++ sp ++ show_N (o_session_version o) ++ sp ++
  show_typed_address (o_unicast_addr o).
(** lib.rs:146-150 *)
Definition show_timing (t : timing) : str := show_N (t_start t) ++ sp ++ show_N (t_stop t).

(** media_type.rs:137-148 *)
Definition show_media (m : media) : str :=
  lit "m=" ++ show_media_line (m_media m) ++ crlf ++
  show_vec (lit "b=") crlf (crlf ++ lit "b=") show_bandwidth (m_bandwidth m) ++
  show_opt (lit "c=") show_connection crlf (m_connection m) ++
  show_vec (lit "a=") crlf (crlf ++ lit "a=") show_attr (m_attribute m).

(** lib.rs:269-275 *)
Definition get_session_text (s : session) : str :=
  match s_session s with Some t => t | None => sp end.
(** lib.rs:214-236 *)
Definition show_session (s : session) : str :=
  lit "v=" ++ show_N (s_version s) ++ crlf ++
  lit "o=" ++ show_origin (s_origin s) ++ crlf ++
  lit "s=" ++ get_session_text s ++ crlf ++
  show_opt (lit "t=") show_timing crlf (s_timing s) ++
  show_vec (lit "b=") crlf (crlf ++ lit "b=") show_bandwidth (s_bandwidth s) ++
  show_opt (lit "c=") show_connection crlf (s_connection s) ++
  show_vec (lit "a=") crlf (crlf ++ lit "a=") show_attr (s_attribute s) ++
  flat_map show_media (s_media s).

(** ** error.rs *)
(** [Display] of the wrapped std errors (core::num::IntErrorKind,
    dec2flt::FloatErrorKind, AddrParseError). *)
Definition show_int_err (k : int_err) : str :=
  match k with
  | IntEmpty => lit "cannot parse integer from empty string"
  | IntInvalidDigit => lit "invalid digit found in string"
  | IntPosOverflow => lit "number too large to fit in target type"
  end.
Definition show_float_err (k : float_err) : str :=
  match k with
  | FloatEmpty => lit "cannot parse float from empty string"
  | FloatInvalid => lit "invalid float literal"
  end.
(** error.rs:30-61 *)
Definition show_ierr (e : ierr) : str :=
  match e with
  | UnknownAddressType s => lit "Unknown address type: " ++ s
  | AddressTypeMismatch f x =>
      lit "Address is of a different type(1) than declared(2): " ++ show_addr_type f ++
      lit ", " ++ show_addr_type x
  | EGeneric m => lit "Parsing error: " ++ m
  | EUnsupported m => lit "Unsupported parsing error: " ++ m
  | EInteger k => lit "Integer parsing error: " ++ show_int_err k
  | EFloat k => lit "Float parsing error: " ++ show_float_err k
  | EDomain m => lit "Domain name parsing error: " ++ m
  | EIpAddress => lit "IP address parsing error: invalid IP address syntax"
  end.
(** error.rs:129-148 *)
Definition show_perr (e : perr) : str :=
  match e with
  | PLine e l n =>
      lit "Line error: " ++ show_ierr e ++ lit " in line(" ++ show_N (N.of_nat n) ++ lit "): " ++ l
  | PUnsupported e l n =>
      lit "Unsupported: " ++ show_ierr e ++ lit " in line(" ++ show_N (N.of_nat n) ++ lit "): " ++ l
  | PSequence m n =>
      lit "Sequence error in line(" ++ show_N (N.of_nat n) ++ lit "): " ++ m
  end.

End WithExt.
