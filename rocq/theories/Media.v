(** * Media sections (media_type.rs:150-476) *)
From Coq Require Import List NArith Bool Ascii String.
From Verif Require Import Str Num Net Types Ext Show Address AttrParse.
Import ListNotations.
Open Scope N_scope.
Open Scope list_scope.

Section WithExt.
Context {E : Ext}.

(** [SdpMedia::new] (media_type.rs:151-158). *)
Definition media_new (l : media_line) : media :=
  {| m_media := l; m_connection := None; m_bandwidth := []; m_attribute := [] |}.

(** Field updates of [SdpMedia] / [SdpMediaLine]. *)
Definition with_media_line (l : media_line) (m : media) : media :=
  {| m_media := l; m_connection := m_connection m; m_bandwidth := m_bandwidth m;
     m_attribute := m_attribute m |}.
Definition with_attributes (a : list attr) (m : media) : media :=
  {| m_media := m_media m; m_connection := m_connection m; m_bandwidth := m_bandwidth m;
     m_attribute := a |}.
Definition with_formats (f : format_list) (m : media) : media :=
  let l := m_media m in
  with_media_line {| ml_media := ml_media l; ml_port := ml_port l;
                     ml_port_count := ml_port_count l; ml_proto := ml_proto l;
                     ml_formats := f |} m.
Definition with_media_value (v : media_value) (m : media) : media :=
  let l := m_media m in
  with_media_line {| ml_media := v; ml_port := ml_port l;
                     ml_port_count := ml_port_count l; ml_proto := ml_proto l;
                     ml_formats := ml_formats l |} m.

(** Accessors (media_type.rs:160-194, :258-260). *)
Definition get_type (m : media) : media_value := ml_media (m_media m).
Definition get_port (m : media) : N := ml_port (m_media m).
Definition get_port_count (m : media) : N := ml_port_count (m_media m).
Definition get_proto (m : media) : protocol_value := ml_proto (m_media m).
Definition get_formats (m : media) : format_list := ml_formats (m_media m).
Definition get_bandwidth (m : media) : list bandwidth := m_bandwidth m.
Definition get_attributes (m : media) : list attr := m_attribute m.
Definition get_media_connection (m : media) : option connection := m_connection m.

(** [set_port] (media_type.rs:164-166). *)
Definition set_port (p : N) (m : media) : media :=
  let l := m_media m in
  with_media_line {| ml_media := ml_media l; ml_port := p;
                     ml_port_count := ml_port_count l; ml_proto := ml_proto l;
                     ml_formats := ml_formats l |} m.

(** [add_bandwidth] (media_type.rs:188-190). *)
Definition add_bandwidth (b : bandwidth) (m : media) : media :=
  {| m_media := m_media m; m_connection := m_connection m; m_bandwidth := m_bandwidth m ++ [b];
     m_attribute := m_attribute m |}.

(** [set_connection] (media_type.rs:262-264). *)
Definition set_media_connection (c : connection) (m : media) : media :=
  {| m_media := m_media m; m_connection := Some c; m_bandwidth := m_bandwidth m;
     m_attribute := m_attribute m |}.

(** Methods that return a [Result] give the value left behind in [&mut self]
    together with the result. *)

(** [add_attribute] (media_type.rs:196-204). *)
Definition add_attribute (a : attr) (m : media) : media * res ierr unit :=
  if negb (allowed_at_media_level a)
  then (m, Err (genf "{} not allowed at media level" [show_attr a]))
  else (with_attributes (m_attribute m ++ [a]) m, Ok tt).

(** [get_attribute] (media_type.rs:206-210). *)
Definition get_attribute (t : attr_type) (m : media) : option attr :=
  find (fun a => attr_type_eqb (attr_type_of a) t) (m_attribute m).

(** [get_attributes_of_type] (media_type.rs:251-256). *)
Definition get_attributes_of_type (t : attr_type) (m : media) : list attr :=
  filter (fun a => attr_type_eqb (attr_type_of a) t) (m_attribute m).

(** [remove_attribute] (media_type.rs:212-214). *)
Definition remove_attribute (t : attr_type) (m : media) : media :=
  with_attributes (filter (fun a => negb (attr_type_eqb (attr_type_of a) t)) (m_attribute m)) m.

(** [set_attribute] (media_type.rs:216-219). *)
Definition set_attribute (a : attr) (m : media) : media * res ierr unit :=
  add_attribute a (remove_attribute (attr_type_of a) m).

(** The predicate of [remove_codecs] (media_type.rs:229-236). *)
Definition is_codec_attr (a : attr) : bool :=
  match a with
  | ARtpmap _ | AFmtp _ | ARtcpfb _ | ASctpmap _ | ASctpPort _ => true
  | _ => false
  end.
(** [remove_codecs] (media_type.rs:221-239). *)
Definition remove_codecs (m : media) : media :=
  let m := with_formats (match get_formats m with Integers _ => Integers [] | Strings _ => Strings [] end) m in
  with_attributes (filter (fun a => negb (is_codec_attr a)) (m_attribute m)) m.

(** [add_codec] (media_type.rs:241-249). *)
Definition add_codec (r : rtpmap) (m : media) : media * res ierr unit :=
  let m := with_formats
             (match get_formats m with
              | Integers x => Integers (x ++ [rm_payload_type r])
              | Strings x => Strings (x ++ [show_N (rm_payload_type r)])
              end) m in
  add_attribute (ARtpmap r) m.

(** Sequencing of two [&mut self] steps with [?] between them. *)
Definition then_media (x : media * res ierr unit) (f : media -> media * res ierr unit)
  : media * res ierr unit :=
  match x with
  | (m, Ok _) => f m
  | (m, Err e) => (m, Err e)
  | (m, Panic) => (m, Panic)
  end.

(** [add_datachannel] (media_type.rs:266-295). *)
Definition add_datachannel (name : str) (port streams msg_size : N) (m : media)
  : media * res ierr unit :=
  then_media
    (match get_proto m with
     | UdpDtlsSctp | TcpDtlsSctp =>
         set_attribute (ASctpPort port) (with_formats (Strings [name]) m)
     | _ =>
         set_attribute (ASctpmap {| sm_port := port; sm_channels := streams |})
           (with_formats (Integers [port]) m)
     end)
    (fun m =>
       then_media
         (if 0 <? msg_size then set_attribute (AMaxMessageSize msg_size) m else (m, Ok tt))
         (fun m => (with_media_value Application m, Ok tt))).

(** media_type.rs:313-324 *)
Definition parse_media_token (s : str) : res ierr media_value :=
  match assoc_str (to_lower s)
          [ (lit "audio", Audio); (lit "video", Video); (lit "application", Application) ] with
  | Some v => Ok v
  | None => Err (unsupf "unsupported media value: {}" [s])
  end.

(** media_type.rs:326-345 *)
Definition parse_protocol_token (s : str) : res ierr protocol_value :=
  match assoc_str (to_upper s)
          [ (lit "RTP/AVP", RtpAvp); (lit "RTP/AVPF", RtpAvpf); (lit "RTP/SAVP", RtpSavp);
            (lit "RTP/SAVPF", RtpSavpf); (lit "TCP/DTLS/RTP/SAVP", TcpDtlsRtpSavp);
            (lit "TCP/DTLS/RTP/SAVPF", TcpDtlsRtpSavpf);
            (lit "UDP/TLS/RTP/SAVP", UdpTlsRtpSavp);
            (lit "UDP/TLS/RTP/SAVPF", UdpTlsRtpSavpf); (lit "DTLS/SCTP", DtlsSctp);
            (lit "UDP/DTLS/SCTP", UdpDtlsSctp); (lit "TCP/DTLS/SCTP", TcpDtlsSctp) ] with
  | Some v => Ok v
  | None => Err (unsupf "unsupported protocol value: {}" [s])
  end.

(** The pattern [1 | 2 | 19 | 64..=95 | 128..] (media_type.rs:380). *)
Definition format_out_of_range (n : N) : bool :=
  (n =? 1) || (n =? 2) || (n =? 19) || ((64 <=? n) && (n <=? 95)) || (128 <=? n).

(** media_type.rs:347-407 *)
Definition parse_media (s : str) : res ierr sdp_type :=
  let mv := split_whitespace s in
  if Nat.ltb (List.length mv) 4
  then Err (gen "media attribute must have at least four tokens")
  else
    t0 <- idx mv 0 ;;
    media <- parse_media_token t0 ;;
    t1 <- idx mv 1 ;;
    let ptokens := split c_slash t1 in
    port <- match ptokens with
            | [] => Err (gen "missing port token")
            | p :: _ => p_u32 p
            end ;;
    if 65535 <? port then Err (gen "media port token is too big")
    else
    port_count <- match ptokens with
                  | _ :: c :: _ => p_u32 c
                  | _ => Ok 0
                  end ;;
    t2 <- idx mv 2 ;;
    proto <- parse_protocol_token t2 ;;
    let fmt_slice := skipn 3 mv in
    formats <-
      match media with
      | Audio | Video =>
          l <- mapM (fun num =>
                       n <- p_u32 num ;;
                       if format_out_of_range n
                       then Err (gen "format number in media line is out of range")
                       else Ok n) fmt_slice ;;
          Ok (Integers l)
      | Application => Ok (Strings fmt_slice)
      end ;;
    Ok (TyMedia {| ml_media := media; ml_port := port; ml_port_count := port_count;
                   ml_proto := proto; ml_formats := formats |}).

(** The attribute arm of [parse_media_vector] (media_type.rs:439-460).  The code
    rebuilds the rtpmap field by field, which is the identity. *)
Definition media_line_attribute (a : attr) (m : media) : media * res ierr unit :=
  match a with
  | ADtlsMessage _ => (m, Ok tt)
  | ARtpmap r =>
      add_attribute
        (ARtpmap {| rm_payload_type := rm_payload_type r; rm_codec_name := rm_codec_name r;
                    rm_frequency := rm_frequency r; rm_channels := rm_channels r |}) m
  | _ => add_attribute a m
  end.

(** The loop of [parse_media_vector] (media_type.rs:424-476): [cur] is
    [sdp_media], [done] is [media_sections]. *)
Fixpoint media_loop (done : list media) (cur : media) (lines : list sdp_line)
  : res perr (list media) :=
  match lines with
  | [] => Ok (done ++ [cur])
  | l :: rest =>
      match l_type l with
      | TyConnection c =>
          match m_connection cur with
          | Some _ => Err (PSequence (fmt "connection type already exists at this media level" [])
                             (l_number l))
          | None => media_loop done (set_media_connection c cur) rest
          end
      | TyBandwidth b => media_loop done (add_bandwidth b cur) rest
      | TyAttribute a =>
          match media_line_attribute a cur with
          | (m, Ok _) => media_loop done m rest
          | (_, Err e) => Err (PSequence (show_ierr e) (l_number l))
          | (_, Panic) => Panic
          end
      | TyMedia v => media_loop (done ++ [cur]) (media_new v) rest
      | TyOrigin _ | TySession _ | TyTiming _ | TyVersion _ =>
          Err (PSequence (fmt "invalid type in media section" []) (l_number l))
      end
  end.
(** media_type.rs:409-476; [lines.remove(0)] panics on an empty vector.  What
    is left in [lines] is in Vectors.v. *)
Definition parse_media_vector (lines : list sdp_line) : res perr (list media) :=
  match lines with
  | [] => Panic
  | l :: rest =>
      match l_type l with
      | TyMedia v => media_loop [] (media_new v) rest
      | _ => Err (PSequence (fmt "first line in media section needs to be a media line" [])
                    (l_number l))
      end
  end.

End WithExt.
