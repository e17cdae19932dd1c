(** * Specification vocabulary for the items of sessions (C17, C19, C21, C35)

    Only definitions. *)
From Coq Require Import List NArith ZArith Bool Ascii String.
From Verif Require Import Str Num Net Types Ext SpecApi SpecDoc SpecVal.
Import ListNotations.
Open Scope N_scope.
Open Scope list_scope.

(** ** The items of a session *)
Definition of_option {A} (o : option A) : list A := match o with Some x => [x] | None => [] end.
Definition media_items (m : media) : list sdp_type :=
  TyMedia (m_media m) :: map TyConnection (of_option (m_connection m)) ++
  map TyBandwidth (m_bandwidth m) ++ map TyAttribute (m_attribute m).
Definition session_items (s : session) : list sdp_type :=
  TyVersion (s_version s) :: TyOrigin (s_origin s) ::
  map TyTiming (of_option (s_timing s)) ++ map TyConnection (of_option (s_connection s)) ++
  map TyBandwidth (s_bandwidth s) ++ map TyAttribute (s_attribute s) ++
  flat_map media_items (s_media s).

(** ** Ranges of numbers (C17) *)
Definition at_most (max : N) (o : option N) : Prop :=
  match o with Some n => n <= max | None => True end.
Definition u8 (n : N) : Prop := n <= 255.
Definition u16 (n : N) : Prop := n <= 65535.
Definition u32 (n : N) : Prop := n <= 4294967295.
Definition u64 (n : N) : Prop := n <= 18446744073709551615.
Definition u128 (n : N) : Prop := n <= 340282366920938463463374607431768211455.
Definition payload_range (p : payload_type_t) : Prop :=
  match p with PayloadType n => u8 n | Wildcard => True end.
Definition ip_range (a : ip) : Prop := match a with V4 n => u32 n | V6 n => u128 n end.
Definition address_range (a : address) : Prop := match a with Ip i => ip_range i | Fqdn _ => True end.
Definition typed_range (a : typed_address) : Prop :=
  match a with TIp i => ip_range i | TFqdn _ _ => True end.
Definition candidate_range (c : candidate) : Prop :=
  u32 (component c) /\ u64 (priority c) /\ cand_port c <= 65535 /\ at_most 65535 (rport c) /\
  at_most u32_max (generation c) /\ at_most u32_max (networkcost c) /\
  address_range (cand_address c) /\
  match raddr c with Some a => address_range a | None => True end.
Definition fmtp_range (p : fmtp_params) : Prop :=
  profile_level_id p <= 16777215 (* 0xffffff *) /\ packetization_mode p <= 2 /\
  at_most 2 (profile p) /\ at_most 31 (level_idx p) /\ at_most 1 (tier p) /\
  u32 (max_fs p) /\ u32 (max_cpb p) /\ u32 (max_dpb p) /\ u32 (max_br p) /\ u32 (max_mbps p) /\
  u32 (max_fr p) /\ u32 (maxplaybackrate p) /\ u32 (maxaveragebitrate p) /\
  u32 (ptime p) /\ u32 (minptime p) /\ u32 (maxptime p) /\
  Forall (fun n => n <= 128) (encodings p) /\
  match rtx p with Some r => u8 (rtx_apt r) /\ at_most u32_max (rtx_time r) | None => True end.
Definition rid_range (r : rid) : Prop :=
  Forall u16 (rid_formats r) /\ let p := rid_params_of r in
  u32 (max_width p) /\ u32 (max_height p) /\ u32 (max_fps p) /\ u32 (rid_max_fs p) /\
  u32 (rid_max_br p) /\ u32 (max_pps p).
Definition xy_range_range (r : xy_range) : Prop :=
  match r with
  | XyRange a b s => u32 a /\ u32 b /\ at_most u32_max s
  | XyDiscrete l => l <> [] /\ Forall u32 l
  end.
(** Bit patterns of f32. *)
Definition image_set_range (x : image_set) : Prop :=
  xy_range_range (set_x x) /\ xy_range_range (set_y x) /\
  match set_sar x with
  | Some (SRange a b) => u32 a /\ u32 b /\ f32_ge a b = false
  | Some (SDiscrete l) => l <> [] /\ Forall u32 l
  | None => True
  end /\
  match set_par x with
  | Some r => u32 (par_min r) /\ u32 (par_max r) /\ f32_ge (par_min r) (par_max r) = false
  | None => True
  end /\
  at_most u32_max (set_q x).
Definition image_list_range (l : image_set_list) : Prop :=
  match l with Sets l => Forall image_set_range l | SetsWildcard => True end.
Definition attr_range (a : attr) : Prop :=
  match a with
  | ACandidate c => candidate_range c
  | AExtmap e => u16 (ext_id e)
  | AFingerprint f => Forall u8 (fp_bytes f) /\ List.length (fp_bytes f) = hash_octets (fp_hash f)
  | AFmtp f => u8 (fmtp_payload_type f) /\ fmtp_range (fmtp_parameters f)
  | AFrameRate x => u64 x /\ f64_is_nan x = false /\ f64_is_infinite x = false /\ f64_is_zero x = false
  | AIcePacing n => n < 10000000000
  | AImageAttr i => payload_range (img_pt i) /\ image_list_range (img_send i) /\ image_list_range (img_recv i)
  | AMaxMessageSize n | AMaxPtime n | APtime n => u64 n
  | ARid r => rid_range r
  | ARemoteCandidate c => u32 (rc_component c) /\ rc_port c <= 65535 /\ address_range (rc_address c)
  | ARtpmap r => rm_payload_type r <= 127 /\ u32 (rm_frequency r) /\ at_most u32_max (rm_channels r)
  | ARtcp r => u16 (rtcp_port r) /\
      match rtcp_unicast_addr r with Some a => typed_range a | None => True end
  | ARtcpfb f => payload_range (fb_payload_type f)
  | ASctpmap s => u16 (sm_port s) /\ u32 (sm_channels s)
  | ASctpPort n => n <= 65535
  | ASsrc s => u32 (ssrc_id s)
  | ASsrcGroup _ l => l <> [] /\ Forall (fun s => u32 (ssrc_id s)) l
  | _ => True
  end.
Definition item_range (ty : sdp_type) : Prop :=
  match ty with
  | TyAttribute a => attr_range a
  | TyBandwidth (BwAs n) | TyBandwidth (BwCt n) | TyBandwidth (BwTias n)
  | TyBandwidth (BwUnknown _ n) => u32 n
  | TyConnection c =>
      typed_range (conn_address c) /\ at_most u8_max (conn_ttl c) /\ at_most u32_max (conn_amount c)
  | TyMedia m =>
      ml_port m <= 65535 /\ u32 (ml_port_count m) /\
      match ml_media m, ml_formats m with
      | Application, Strings l => l <> []
      | (Audio | Video), Integers l => l <> [] /\ Forall payload_listed l
      | _, _ => False
      end
  | TyOrigin o => u64 (o_session_id o) /\ u64 (o_session_version o) /\ typed_range (o_unicast_addr o)
  | TySession _ => True
  | TyTiming t => u64 (t_start t) /\ u64 (t_stop t)
  | TyVersion n => n = 0
  end.

(** ** Address families (C35) *)
Definition item_address (ty : sdp_type) : option typed_address :=
  match ty with
  | TyOrigin o => Some (o_unicast_addr o)
  | TyConnection c => Some (conn_address c)
  | TyAttribute (ARtcp r) => rtcp_unicast_addr r
  | _ => None
  end.
(** The address type and the address text of a value, by the kind of its line. *)
Definition declares (v : str) (ty : sdp_type) (family_word address_text : str) : Prop :=
  match ty with
  | TyOrigin _ => exists a b c d more, words v (a :: b :: c :: d :: family_word :: address_text :: more)
  | TyConnection _ => exists net rest opts, words v [net; family_word; rest] /\
      fields 47 rest (address_text :: opts)
  | TyAttribute _ => exists t name rest port net more, core v t /\ cut 58 t name rest /\
      means name "rtcp" /\ words rest (port :: net :: family_word :: address_text :: more)
  | _ => False
  end.
Definition ip_family (i : ip) : addr_type := match i with V4 _ => IpV4 | V6 _ => IpV6 end.

(** ** fmtp parameters (C21): the non-empty parts between semicolons. *)
Definition params_of (block : str) (params : list str) : Prop :=
  exists ts, fields 59 block ts /\ params = filter (fun x => match x with [] => false | _ => true end) ts.

(** ** Brackets (C19) *)
Definition count (c : N) (s : str) : nat := List.count_occ N.eq_dec s c.
