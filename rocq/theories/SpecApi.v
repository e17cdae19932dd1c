(** * Specification vocabulary for the API properties (C07, C22-C25)

    Only definitions.  Attribute kinds are named by their SDP name. *)
From Coq Require Import List NArith Bool Ascii String.
From Verif Require Import Str Num Net Types Ext Media Session.
Import ListNotations.
Open Scope string_scope.
Open Scope list_scope.

(** SDP name of an attribute and of an attribute type. *)
Definition sdp_name (a : attr) : string :=
  match a with
  | ABundleOnly => "bundle-only"
  | ACandidate _ => "candidate"
  | ADtlsMessage _ => "dtls-message"
  | AEndOfCandidates => "end-of-candidates"
  | AExtmap _ => "extmap"
  | AExtmapAllowMixed => "extmap-allow-mixed"
  | AFingerprint _ => "fingerprint"
  | AFmtp _ => "fmtp"
  | AFrameRate _ => "framerate"
  | AGroup _ => "group"
  | AIceLite => "ice-lite"
  | AIceMismatch => "ice-mismatch"
  | AIceOptions _ => "ice-options"
  | AIcePacing _ => "ice-pacing"
  | AIcePwd _ => "ice-pwd"
  | AIceUfrag _ => "ice-ufrag"
  | AIdentity _ => "identity"
  | AImageAttr _ => "imageattr"
  | AInactive => "inactive"
  | ALabel _ => "label"
  | AMaxMessageSize _ => "max-message-size"
  | AMaxPtime _ => "maxptime"
  | AMid _ => "mid"
  | AMsid _ => "msid"
  | AMsidSemantic _ => "msid-semantic"
  | APtime _ => "ptime"
  | ARid _ => "rid"
  | ARecvonly => "recvonly"
  | ARemoteCandidate _ => "remote-candidates"
  | ARtpmap _ => "rtpmap"
  | ARtcp _ => "rtcp"
  | ARtcpfb _ => "rtcp-fb"
  | ARtcpMux => "rtcp-mux"
  | ARtcpMuxOnly => "rtcp-mux-only"
  | ARtcpRsize => "rtcp-rsize"
  | ASctpmap _ => "sctpmap"
  | ASctpPort _ => "sctp-port"
  | ASendonly => "sendonly"
  | ASendrecv => "sendrecv"
  | ASetup _ => "setup"
  | ASimulcast _ => "simulcast"
  | ASsrc _ => "ssrc"
  | ASsrcGroup _ _ => "ssrc-group"
  end.
Definition type_name (t : attr_type) : string :=
  match t with
  | TBundleOnly => "bundle-only"
  | TCandidate => "candidate"
  | TDtlsMessage => "dtls-message"
  | TEndOfCandidates => "end-of-candidates"
  | TExtmap => "extmap"
  | TExtmapAllowMixed => "extmap-allow-mixed"
  | TFingerprint => "fingerprint"
  | TFmtp => "fmtp"
  | TFrameRate => "framerate"
  | TGroup => "group"
  | TIceLite => "ice-lite"
  | TIceMismatch => "ice-mismatch"
  | TIceOptions => "ice-options"
  | TIcePacing => "ice-pacing"
  | TIcePwd => "ice-pwd"
  | TIceUfrag => "ice-ufrag"
  | TIdentity => "identity"
  | TImageAttr => "imageattr"
  | TInactive => "inactive"
  | TLabel => "label"
  | TMaxMessageSize => "max-message-size"
  | TMaxPtime => "maxptime"
  | TMid => "mid"
  | TMsid => "msid"
  | TMsidSemantic => "msid-semantic"
  | TPtime => "ptime"
  | TRid => "rid"
  | TRecvonly => "recvonly"
  | TRemoteCandidate => "remote-candidates"
  | TRtpmap => "rtpmap"
  | TRtcp => "rtcp"
  | TRtcpfb => "rtcp-fb"
  | TRtcpMux => "rtcp-mux"
  | TRtcpMuxOnly => "rtcp-mux-only"
  | TRtcpRsize => "rtcp-rsize"
  | TSctpmap => "sctpmap"
  | TSctpPort => "sctp-port"
  | TSendonly => "sendonly"
  | TSendrecv => "sendrecv"
  | TSetup => "setup"
  | TSimulcast => "simulcast"
  | TSsrc => "ssrc"
  | TSsrcGroup => "ssrc-group"
  end.

(** The 18 kinds allowed at session level and the 37 allowed at media level. *)
Definition session_names : list string := [
  "dtls-message"; "end-of-candidates"; "extmap"; "extmap-allow-mixed"; "fingerprint";
  "group"; "ice-lite"; "ice-options"; "ice-pacing"; "ice-pwd"; "ice-ufrag"; "identity";
  "inactive"; "msid-semantic"; "recvonly"; "sendonly"; "sendrecv"; "setup"].
Definition media_names : list string := [
  "bundle-only"; "candidate"; "end-of-candidates"; "extmap"; "extmap-allow-mixed";
  "fingerprint"; "fmtp"; "framerate"; "ice-mismatch"; "ice-options"; "ice-pwd";
  "ice-ufrag"; "imageattr"; "inactive"; "label"; "max-message-size"; "maxptime"; "mid";
  "msid"; "ptime"; "rid"; "recvonly"; "remote-candidates"; "rtpmap"; "rtcp"; "rtcp-fb";
  "rtcp-mux"; "rtcp-mux-only"; "rtcp-rsize"; "sctpmap"; "sctp-port"; "sendonly";
  "sendrecv"; "setup"; "simulcast"; "ssrc"; "ssrc-group"].

(** Decidable "has this name". *)
Definition named (n : string) (a : attr) : bool := String.eqb (sdp_name a) n.
Definition not_named (n : string) (a : attr) : bool := negb (named n a).

(** The same section, or session, with another attribute list. *)
Definition with_attrs (m : media) (l : list attr) : media :=
  {| m_media := m_media m; m_connection := m_connection m; m_bandwidth := m_bandwidth m;
     m_attribute := l |}.
Definition with_session_attrs (s : session) (l : list attr) : session :=
  {| s_version := s_version s; s_origin := s_origin s; s_session := s_session s;
     s_connection := s_connection s; s_bandwidth := s_bandwidth s; s_timing := s_timing s;
     s_attribute := l; s_media := s_media s; s_warnings := s_warnings s |}.
Definition with_session_media (s : session) (l : list media) : session :=
  {| s_version := s_version s; s_origin := s_origin s; s_session := s_session s;
     s_connection := s_connection s; s_bandwidth := s_bandwidth s; s_timing := s_timing s;
     s_attribute := s_attribute s; s_media := l; s_warnings := s_warnings s |}.

Section WithExt.
Context {E : Ext}.

(** ** Calls on a media section *)
Inductive media_op :=
| OpSetPort (p : N)
| OpAddBandwidth (b : bandwidth)
| OpSetConnection (c : connection)
| OpAddAttribute (a : attr)
| OpSetAttribute (a : attr)
| OpRemoveAttribute (t : attr_type)
| OpRemoveCodecs
| OpAddCodec (r : rtpmap)
| OpAddDatachannel (name : str) (port streams msg_size : N).
(** The section after the call (whether or not the call reports an error). *)
Definition run_media_op (op : media_op) (m : media) : media :=
  match op with
  | OpSetPort p => set_port p m
  | OpAddBandwidth b => add_bandwidth b m
  | OpSetConnection c => set_media_connection c m
  | OpAddAttribute a => fst (add_attribute a m)
  | OpSetAttribute a => fst (set_attribute a m)
  | OpRemoveAttribute t => remove_attribute t m
  | OpRemoveCodecs => remove_codecs m
  | OpAddCodec r => fst (add_codec r m)
  | OpAddDatachannel name port streams size => fst (add_datachannel name port streams size m)
  end.
(** Sections that can be built: the fields of [SdpMedia] are private. *)
Definition built_media (m : media) : Prop :=
  exists (l : media_line) (ops : list media_op),
    m = fold_left (fun m op => run_media_op op m) ops (media_new l).

(** ** Calls on a session *)
Inductive session_op :=
| OpSessionConnection (c : connection)
| OpSessionBandwidth (b : bandwidth)
| OpSessionTiming (t : timing)
| OpSessionAttribute (a : attr)
| OpSessionLines (l : list sdp_line)
| OpExtendMedia (l : list media)
| OpAddMedia (mt : media_value) (direction : attr) (port : N) (proto : protocol_value)
    (addr : typed_address)
| OpOnMedia (i : nat) (op : media_op).
Fixpoint on_nth {A} (i : nat) (f : A -> A) (l : list A) : list A :=
  match l, i with
  | [], _ => []
  | x :: l', O => f x :: l'
  | x :: l', S i' => x :: on_nth i' f l'
  end.
Definition run_session_op (op : session_op) (s : session) : session :=
  match op with
  | OpSessionConnection c => session_set_connection c s
  | OpSessionBandwidth b => session_add_bandwidth b s
  | OpSessionTiming t => session_set_timing t s
  | OpSessionAttribute a => fst (session_add_attribute a s)
  | OpSessionLines l => fst (parse_session_vector s l)
  | OpExtendMedia l => session_extend_media l s
  | OpAddMedia mt d p pr ad => fst (add_media mt d p pr ad s)
  | OpOnMedia i op =>
      with_session_media s (on_nth i (run_media_op op) (s_media s))
  end.
(** The sections handed to [extend_media] were built by calls themselves. *)
Definition op_ok (op : session_op) : Prop :=
  match op with OpExtendMedia l => Forall built_media l | _ => True end.
Definition built_session (s : session) : Prop :=
  exists v o n ops, Forall op_ok ops /\
    s = fold_left (fun s op => run_session_op op s) ops (session_new v o n).

(** All attributes of a session are legal at their level. *)
Definition levels_ok (s : session) : Prop :=
  Forall (fun a => In (sdp_name a) session_names) (s_attribute s) /\
  Forall (fun m => Forall (fun a => In (sdp_name a) media_names) (m_attribute m)) (s_media s).

(** The format list spells the payload types of these codecs. *)
Definition formats_are (f : format_list) (l : list rtpmap) : Prop :=
  match f with
  | Integers x => x = map rm_payload_type l
  | Strings x => x = map (fun r => show_N (rm_payload_type r)) l
  end.
Definition with_fmts (l : media_line) (f : format_list) : media_line :=
  {| ml_media := ml_media l; ml_port := ml_port l; ml_port_count := ml_port_count l;
     ml_proto := ml_proto l; ml_formats := f |}.

(** ** Codec operations (C23) *)
Inductive codec_op := ClearCodecs | AddCodec (r : rtpmap).
Definition run_codec_op (op : codec_op) (m : media) : media :=
  match op with ClearCodecs => remove_codecs m | AddCodec r => fst (add_codec r m) end.
(** The codecs in force after a sequence of operations. *)
Definition codecs_after (ops : list codec_op) : list rtpmap :=
  fold_left (fun l op => match op with ClearCodecs => [] | AddCodec r => l ++ [r] end) ops [].
Definition rtpmaps (m : media) : list rtpmap :=
  flat_map (fun a => match a with ARtpmap r => [r] | _ => [] end) (m_attribute m).
Definition codec_names : list string := ["rtpmap"; "fmtp"; "rtcp-fb"; "sctpmap"; "sctp-port"].
Definition is_codec (a : attr) : bool := existsb (String.eqb (sdp_name a)) codec_names.
End WithExt.
