(** * Specification vocabulary for the size of sessions (C64)

    Only definitions. *)
From Coq Require Import List Arith NArith.
From Verif Require Import Str Num Net Types Ext SpecItems.
Import ListNotations.
Open Scope nat_scope.
Open Scope list_scope.

(** ** What is kept of a line: one for every char of a string and one for every
    element of a list.  Numbers and other things of a fixed size are not counted. *)
Definition sum {A} (f : A -> nat) (l : list A) : nat := fold_right (fun x n => S (f x) + n) 0 l.
Definition opt {A} (f : A -> nat) (o : option A) : nat := match o with Some x => f x | None => 0 end.
Definition text (s : str) : nat := List.length s.
Definition pair_size (p : str * str) : nat := text (fst p) + text (snd p).

Definition address_size (x : address) : nat := match x with Fqdn d => text d | Ip _ => 0 end.
Definition typed_size (x : typed_address) : nat := match x with TFqdn _ d => text d | TIp _ => 0 end.
Definition candidate_size (c : candidate) : nat :=
  text (foundation c) + address_size (cand_address c) + opt address_size (raddr c) +
  opt text (ufrag c) + sum pair_size (unknown_extensions c).
Definition fmtp_size (p : fmtp_params) : nat :=
  List.length (encodings p) + text (dtmf_tones p) + sum text (unknown_tokens p).
Definition xy_size (r : xy_range) : nat :=
  match r with XyRange _ _ _ => 0 | XyDiscrete l => List.length l end.
Definition sar_size (r : s_range) : nat :=
  match r with SRange _ _ => 0 | SDiscrete l => List.length l end.
Definition image_set_size (x : image_set) : nat :=
  xy_size (set_x x) + xy_size (set_y x) + opt sar_size (set_sar x).
Definition image_list_size (l : image_set_list) : nat :=
  match l with Sets l => sum image_set_size l | SetsWildcard => 0 end.
Definition simulcast_size (l : list simulcast_version) : nat :=
  sum (sum (fun i => text (sid_id i))) l.
Definition ssrc_size (s : ssrc) : nat := opt text (ssrc_attribute s) + opt text (ssrc_value s).
Definition attr_size (a : attr) : nat :=
  match a with
  | ACandidate c => candidate_size c
  | ADtlsMessage (DtlsClient t | DtlsServer t) => text t
  | AExtmap e => text (ext_url e) + opt text (ext_attributes e)
  | AFingerprint f => List.length (fp_bytes f)
  | AFmtp f => fmtp_size (fmtp_parameters f)
  | AGroup g => sum text (grp_tags g)
  | AIceOptions l => sum text l
  | AIcePwd t | AIceUfrag t | AIdentity t | ALabel t | AMid t => text t
  | AImageAttr i => image_list_size (img_send i) + image_list_size (img_recv i)
  | AMsid m => text (msid_id m) + opt text (msid_appdata m)
  | AMsidSemantic m => text (ms_semantic m) + sum text (ms_msids m)
  | ARid r => text (rid_id r) + List.length (rid_formats r) + sum text (rid_depends r) +
              sum text (rid_unknown (rid_params_of r))
  | ARemoteCandidate c => address_size (rc_address c)
  | ARtpmap r => text (rm_codec_name r)
  | ARtcp r => opt typed_size (rtcp_unicast_addr r)
  | ARtcpfb f => text (fb_parameter f) + text (fb_extra f)
  | ASimulcast s => simulcast_size (sim_send s) + simulcast_size (sim_receive s)
  | ASsrc s => ssrc_size s
  | ASsrcGroup _ l => sum ssrc_size l
  | ABundleOnly | AEndOfCandidates | AExtmapAllowMixed | AIceLite | AIceMismatch | AInactive
  | ARecvonly | ARtcpMux | ARtcpMuxOnly | ARtcpRsize | ASendonly | ASendrecv
  | AFrameRate _ | AIcePacing _ | AMaxMessageSize _ | AMaxPtime _ | APtime _ | ASctpmap _
  | ASctpPort _ | ASetup _ => 0
  end.
Definition item_size (ty : sdp_type) : nat :=
  match ty with
  | TyAttribute a => attr_size a
  | TyBandwidth (BwUnknown t _) => text t
  | TyBandwidth (BwAs _ | BwCt _ | BwTias _) => 0
  | TyConnection c => typed_size (conn_address c)
  | TyMedia m => match ml_formats m with Integers l => List.length l | Strings l => sum text l end
  | TyOrigin o => text (o_username o) + typed_size (o_unicast_addr o)
  | TySession t => text t
  | TyTiming _ | TyVersion _ => 0
  end.

(** ** What is kept of a text: its items, the name of the session, and the lines
    that warnings show (their messages are not counted). *)
Definition warning_size (e : perr) : nat :=
  match e with PLine _ l _ | PUnsupported _ l _ => text l | PSequence _ _ => 0 end.
Definition session_size (s : session) : nat :=
  sum item_size (session_items s) + opt text (s_session s) + sum warning_size (s_warnings s).

(** The host parser makes domain names at most [k] times as long as their text
    (it may write a char as several). *)
Definition names_grow_by {E : Ext} (k : nat) : Prop :=
  forall s d, host_parse s = Ok (HDomain d) -> text d <= k * text s.
