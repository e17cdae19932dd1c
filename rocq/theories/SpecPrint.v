(** * Specification vocabulary for printing (C10-C12, C41)

    Only definitions. *)
From Coq Require Import List NArith ZArith Bool Ascii String.
From Verif Require Import Str Num Net Types Ext Show SpecApi SpecDoc SpecVal SpecItems.
Import ListNotations.
Open Scope N_scope.
Open Scope list_scope.

(** ** The text fields of values (C41) *)
Definition address_texts (a : address) : list str := match a with Fqdn d => [d] | Ip _ => [] end.
Definition typed_texts (a : typed_address) : list str :=
  match a with TFqdn _ d => [d] | TIp _ => [] end.
Definition ssrc_texts (s : ssrc) : list str := of_option (ssrc_attribute s) ++ of_option (ssrc_value s).
Definition attr_texts (a : attr) : list str :=
  match a with
  | ACandidate c =>
      foundation c :: address_texts (cand_address c) ++
      flat_map address_texts (of_option (raddr c)) ++ of_option (ufrag c) ++
      flat_map (fun nv => [fst nv; snd nv]) (unknown_extensions c)
  | ADtlsMessage (DtlsClient t) | ADtlsMessage (DtlsServer t) => [t]
  | AExtmap e => ext_url e :: of_option (ext_attributes e)
  | AFmtp f => dtmf_tones (fmtp_parameters f) :: unknown_tokens (fmtp_parameters f)
  | AGroup g => grp_tags g
  | AIceOptions l => l
  | AIcePwd t | AIceUfrag t | AIdentity t | ALabel t | AMid t => [t]
  | AMsid m => msid_id m :: of_option (msid_appdata m)
  | AMsidSemantic m => ms_semantic m :: ms_msids m
  | ARid r => rid_id r :: rid_unknown (rid_params_of r) ++ rid_depends r
  | ARemoteCandidate c => address_texts (rc_address c)
  | ARtpmap r => [rm_codec_name r]
  | ARtcp r => flat_map typed_texts (of_option (rtcp_unicast_addr r))
  | ARtcpfb f => [fb_parameter f; fb_extra f]
  | ASimulcast s => flat_map (map sid_id) (sim_send s ++ sim_receive s)
  | ASsrc s => ssrc_texts s
  | ASsrcGroup _ l => flat_map ssrc_texts l
  | _ => []
  end.
Definition item_texts (ty : sdp_type) : list str :=
  match ty with
  | TyAttribute a => attr_texts a
  | TyBandwidth (BwUnknown t _) => [t]
  | TyBandwidth _ => []
  | TyConnection c => typed_texts (conn_address c)
  | TyMedia m => match ml_formats m with Strings l => l | Integers _ => [] end
  | TyOrigin o => o_username o :: typed_texts (o_unicast_addr o)
  | TySession t => [t]
  | TyTiming _ | TyVersion _ => []
  end.
Definition no_line_feed (ty : sdp_type) : Prop := Forall (fun t => ~ In 10 t) (item_texts ty).
Definition session_clean (s : session) : Prop :=
  Forall no_line_feed (session_items s) /\
  match s_session s with Some t => ~ In 10 t | None => True end.

Section WithExt.
Context {E : Ext}.

(** ** The lines of a printed session (C41) *)
Definition item_text (ty : sdp_type) : str :=
  match ty with
  | TyAttribute a => show_attr a
  | TyBandwidth b => show_bandwidth b
  | TyConnection c => show_connection c
  | TyMedia m => show_media_line m
  | TyOrigin o => show_origin o
  | TySession t => t
  | TyTiming t => show_timing t
  | TyVersion n => show_N n
  end.
Definition printed_line (ty : sdp_type) : str := line_letter ty :: 61 :: item_text ty.
(** An attribute without any text gets no line -- but if all attributes of a
    non-empty list are such, there is one line without a value. *)
Definition attribute_lines (l : list attr) : list str :=
  match l, filter (fun t => match t with [] => false | _ => true end) (map show_attr l) with
  | [], _ => []
  | _, [] => [lit "a="]
  | _, ts => map (app (lit "a=")) ts
  end.
Definition media_lines (m : media) : list str :=
  printed_line (TyMedia (m_media m)) ::
  map (fun b => printed_line (TyBandwidth b)) (m_bandwidth m) ++
  map (fun c => printed_line (TyConnection c)) (of_option (m_connection m)) ++
  attribute_lines (m_attribute m).
Definition session_lines (s : session) : list str :=
  printed_line (TyVersion (s_version s)) :: printed_line (TyOrigin (s_origin s)) ::
  printed_line (TySession (match s_session s with Some t => t | None => [32] end)) ::
  map (fun t => printed_line (TyTiming t)) (of_option (s_timing s)) ++
  map (fun b => printed_line (TyBandwidth b)) (s_bandwidth s) ++
  map (fun c => printed_line (TyConnection c)) (of_option (s_connection s)) ++
  attribute_lines (s_attribute s) ++ flat_map media_lines (s_media s).
Definition crlf_lines (l : list str) : str := flat_map (fun x => x ++ [13; 10]) l.

(** ** Values with a printed form (C11)

    Numbers are in range ([item_range]), texts are such that they can be told
    apart from what is around them. *)
Definition starts_solid (t : str) : Prop := exists c x, t = c :: x /\ is_ws c = false.
Definition ends_solid (t : str) : Prop := exists c x, t = x ++ [c] /\ is_ws c = false.
Definition ends_blank (t : str) : Prop := exists c x, t = x ++ [c] /\ is_ws c = true.
Definition no_blank (t : str) : Prop := Forall (fun c => is_ws c = false) t.
(** Host names are what the host parser makes of them. *)
Definition domain (d : str) : Prop := host_parse d = Ok (HDomain d).
Definition address_wf (a : address) : Prop := match a with Fqdn d => domain d | Ip _ => True end.
Definition typed_wf (a : typed_address) : Prop := match a with TFqdn _ d => domain d | TIp _ => True end.
Definition option_wf {A} (P : A -> Prop) (o : option A) : Prop :=
  match o with Some x => P x | None => True end.
(** A "name=value" token whose name is not known. *)
Definition unknown_token (known : str -> Prop) (t : str) : Prop :=
  ~ In 59 t /\ exists n v, cut 61 t n v /\ ~ known n.
Definition fmtp_wf (p : fmtp_params) : Prop :=
  (encodings p = [] /\ dtmf_tones p = [] /\
   Forall (unknown_token (fun n => Exists (means_upper n) fmtp_names)) (unknown_tokens p)) \/
  ((2 <= List.length (encodings p))%nat /\ p = set_encodings (encodings p) fmtp_defaults) \/
  (tones (dtmf_tones p) /\ p = set_dtmf_tones (dtmf_tones p) fmtp_defaults).
(** More than one aspect ratio is an ascending list. *)
Definition image_set_wf (x : image_set) : Prop :=
  match set_sar x with
  | Some (SRange a b) => f_neg 31 a = false /\ f_neg 31 b = false
  | Some (SDiscrete (y :: z :: l)) => ascends 0 (y :: z :: l)
  | _ => True
  end /\
  match set_par x with
  | Some r => f_neg 31 (par_min r) = false /\ f_neg 31 (par_max r) = false
  | None => True
  end.
Definition image_list_wf (l : image_set_list) : Prop :=
  match l with Sets l => Forall image_set_wf l | SetsWildcard => True end.
Definition image_wf (a : image_attr) : Prop :=
  image_list_wf (img_send a) /\ image_list_wf (img_recv a) /\
  ~ (img_send a = Sets [] /\ img_recv a = Sets []).
Definition rid_wf (r : rid) : Prop :=
  ~ In 32 (rid_id r) /\ starts_solid (rid_id r) /\
  Forall (unknown_token (fun n => Exists (is_word n) rid_names)) (rid_unknown (rid_params_of r)) /\
  Forall (fun d => ~ In 44 d /\ ~ In 59 d) (rid_depends r).
Definition simulcast_id_wf (i : simulcast_id) : Prop :=
  no_blank (sid_id i) /\ ~ In 44 (sid_id i) /\ ~ In 59 (sid_id i) /\
  (sid_paused i = false -> forall x, sid_id i <> 126 :: x).
Definition ssrc_wf (s : ssrc) : Prop :=
  match ssrc_attribute s, ssrc_value s with
  | None, None => True
  | None, Some _ => False
  | Some a, None => ~ In 58 a /\ ends_solid a
  | Some a, Some v => ~ In 58 a /\ (v = [] \/ ends_solid v)
  end.
Definition attr_wf (a : attr) : Prop :=
  match a with
  | ACandidate c =>
      word (foundation c) /\ address_wf (cand_address c) /\ option_wf address_wf (raddr c) /\
      option_wf word (ufrag c) /\
      Forall (fun nv => word (fst nv) /\ word (snd nv) /\
                        ~ Exists (means (fst nv)) extension_names) (unknown_extensions c)
  | ADtlsMessage (DtlsClient t) | ADtlsMessage (DtlsServer t) => ~ In 32 t /\ ends_solid t
  | AExtmap e =>
      word (ext_url e) /\
      option_wf (fun t => exists l, t = join [32] l /\ l <> [] /\ Forall word l /\ ~ In 0 t)
        (ext_attributes e)
  | AFmtp f => fmtp_wf (fmtp_parameters f)
  | AGroup g => Forall word (grp_tags g)
  | AIceOptions l => l <> [] /\ Forall word l
  | AIcePwd t | AIceUfrag t | AIdentity t | ALabel t | AMid t => starts_solid t /\ ends_solid t
  | AImageAttr i => image_wf i
  | AMsid m => word (msid_id m) /\ option_wf word (msid_appdata m)
  | AMsidSemantic m => word (ms_semantic m) /\ Forall word (ms_msids m)
  | ARid r => rid_wf r
  | ARemoteCandidate c => address_wf (rc_address c)
  | ARtpmap r => no_blank (rm_codec_name r) /\ ~ In 47 (rm_codec_name r)
  | ARtcp r => option_wf typed_wf (rtcp_unicast_addr r)
  | ARtcpfb f =>
      fb_parameter_ok (fb_feedback_type f)
        (match fb_parameter f with [] => None | p => Some p end) /\
      (fb_extra f = [] \/ (fb_parameter f <> [] /\ ends_solid (fb_extra f)))
  | ASimulcast s =>
      Forall (fun v => v <> [] /\ Forall simulcast_id_wf v) (sim_send s ++ sim_receive s) /\
      sim_send s ++ sim_receive s <> []
  | ASsrc s => ssrc_wf s
  | ASsrcGroup _ l => Forall (fun s => ssrc_attribute s = None /\ ssrc_value s = None) l
  | _ => True
  end.
Definition item_wf (ty : sdp_type) : Prop :=
  item_range ty /\
  match ty with
  | TyAttribute a => attr_wf a
  | TyBandwidth (BwUnknown t _) =>
      ~ In 58 t /\ (t = [] \/ starts_solid t) /\
      ~ means_upper t "AS" /\ ~ means_upper t "CT" /\ ~ means_upper t "TIAS"
  | TyConnection c => typed_wf (conn_address c) /\ (conn_ttl c = None -> conn_amount c = None)
  | TyMedia m => match ml_formats m with Strings l => Forall word l | Integers _ => True end
  | TyOrigin o => word (o_username o) /\ typed_wf (o_unicast_addr o)
  | _ => True
  end.

(** ** Values that do not survive being printed and parsed (C10, C12) *)
Definition fmtp_lossy (p : fmtp_params) : Prop :=
  (* nothing is printed for the default values *)
  p = fmtp_defaults \/
  (* with an apt, only apt and rtx-time are printed *)
  (exists r, rtx p = Some r /\ p <> set_rtx (Some r) fmtp_defaults) \/
  (* unknown parameters are printed with ',' between them *)
  (2 <= List.length (unknown_tokens p))%nat \/
  (* ... and last, so that a blank at the end gets lost *)
  Exists ends_blank (unknown_tokens p).
Definition set_nan (x : image_set) : Prop :=
  match set_sar x with
  | Some (SRange a b) => f32_is_nan a = true \/ f32_is_nan b = true
  | Some (SDiscrete l) => Exists (fun y => f32_is_nan y = true) l
  | None => False
  end \/
  match set_par x with
  | Some r => f32_is_nan (par_min r) = true \/ f32_is_nan (par_max r) = true
  | None => False
  end \/
  match set_q x with Some y => f32_is_nan y = true | None => False end.
(** NaN is not equal to itself, and its sign is not printed. *)
Definition image_nan (a : image_attr) : Prop :=
  Exists (fun l => match l with Sets l => Exists set_nan l | SetsWildcard => False end)
    [img_send a; img_recv a].
Definition rid_lossy (r : rid) : Prop :=
  let p := rid_params_of r in
  (* empty ids in a list are not printed *)
  (In [] (rid_depends r) /\ (2 <= List.length (rid_depends r))%nat) \/
  (* a blank at the end gets lost *)
  (exists t, last_of (rid_unknown p ++ rid_depends r) = Some t /\ ends_blank t) \/
  (* an unknown parameter pt comes first and is read as the list of formats *)
  (rid_formats r = [] /\ max_width p = 0 /\ max_height p = 0 /\ max_fps p = 0 /\ rid_max_fs p = 0 /\
   rid_max_br p = 0 /\ max_pps p = 0 /\ exists x l, rid_unknown p = (lit "pt=" ++ x) :: l).
Definition simulcast_lossy (s : simulcast) : Prop :=
  Exists (fun v =>
    (* an empty version is not printed *)
    v = [{| sid_id := []; sid_paused := false |}] \/
    (* '=' is not allowed after the direction, except in "rid=" (not printed) *)
    Exists (fun i => In 61 (sid_id i)) v) (sim_send s ++ sim_receive s).
Definition attr_lossy (a : attr) : Prop :=
  match a with
  | AFmtp f => fmtp_lossy (fmtp_parameters f)
  | AImageAttr i => image_nan i
  (* "*" is printed for no msids *)
  | AMsidSemantic m => ms_msids m = []
  | ARid r => rid_lossy r
  | ASimulcast s => simulcast_lossy s
  | _ => False
  end.
Definition item_lossy (ty : sdp_type) : Prop :=
  match ty with TyAttribute a => attr_lossy a | _ => False end.

(** ** Sessions that survive being printed and parsed (C10) *)
Definition session_wf (s : session) : Prop :=
  Forall item_wf (session_items s) /\ session_clean s /\
  option_wf (fun t => starts_solid t /\ ends_solid t) (s_session s) /\
  Forall (fun a => In (sdp_name a) session_names) (s_attribute s) /\
  Forall (fun m => Forall (fun a => In (sdp_name a) media_names) (m_attribute m)) (s_media s).
Definition session_lossy (s : session) : Prop := Exists item_lossy (session_items s).
(** NaN is not equal to itself. *)
Definition item_nan (ty : sdp_type) : Prop :=
  match ty with TyAttribute (AImageAttr i) => image_nan i | _ => False end.
End WithExt.
