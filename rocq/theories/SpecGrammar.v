(** * Grammar of printed sessions (C53)

    The rules follow the ABNF of RFC 8866 (SDP), 8839 (ICE), 8122 (fingerprint),
    4585 (rtcp-fb), 8285 (extmap), 6236 (imageattr), 8851 (rid), 8853 (simulcast),
    5576 (ssrc), 3605 (rtcp), 8830 (msid), 6184, 7587, 4588, 4733, 2198 (fmtp).
    They do not mention the printer or its types.  Where an RFC asks for a token,
    a rule only asks for a text that the separators around it tell apart, which
    is all that the parser asks for.  Only definitions. *)
From Coq Require Import List NArith ZArith Bool Ascii String.
From Verif Require Import Str Num Net Types Ext Show SpecApi SpecDoc SpecVal.
Import ListNotations.
Open Scope N_scope.
Open Scope list_scope.

(** ** ABNF (RFC 5234) *)
Inductive abnf :=
| Lit (s : string)                     (* this text *)
| Chr (P : N -> Prop)                  (* a character of this class *)
| Cat (a b : abnf)                     (* one after the other *)
| Or (a b : abnf)
| Many (a : abnf)                      (* any number of times *)
| Such (a : abnf) (P : str -> Prop).   (* a text that also has this property *)
Inductive gen : abnf -> str -> Prop :=
| gen_lit : forall s, gen (Lit s) (of_string s)
| gen_chr : forall (P : N -> Prop) c, P c -> gen (Chr P) [c]
| gen_cat : forall a b s t, gen a s -> gen b t -> gen (Cat a b) (s ++ t)
| gen_or_left : forall a b t, gen a t -> gen (Or a b) t
| gen_or_right : forall a b t, gen b t -> gen (Or a b) t
| gen_many_nil : forall a, gen (Many a) []
| gen_many_cons : forall a s t, gen a s -> gen (Many a) t -> gen (Many a) (s ++ t)
| gen_such : forall a (P : str -> Prop) t, gen a t -> P t -> gen (Such a P) t.

Fixpoint cats (l : list abnf) : abnf :=
  match l with [] => Lit "" | [a] => a | a :: l => Cat a (cats l) end.
Fixpoint alt (a : abnf) (l : list abnf) : abnf :=
  match l with [] => a | b :: l => Or a (alt b l) end.
Definition opt (a : abnf) : abnf := Or (Lit "") a.
Definition many1 (a : abnf) : abnf := Cat a (Many a).
Fixpoint times (n : nat) (a : abnf) : abnf :=
  match n with O => Lit "" | S n => Cat a (times n a) end.
(** [a] once or more, [s] between them. *)
Definition list_of (s : string) (a : abnf) : abnf := Cat a (Many (Cat (Lit s) a)).
Definition lits (l : list string) : abnf :=
  match l with [] => Such (Lit "") (fun _ => False) | s :: l => alt (Lit s) (map Lit l) end.

(** ** Characters and numbers *)
Definition any : abnf := Chr (fun _ => True).
Definition visible : abnf := Chr (fun c => is_ws c = false).
Definition none_of (s : string) : abnf := Chr (fun c => ~ In c (of_string s)).
Definition non_blank : abnf := many1 visible.
Definition digit : abnf := Chr (fun c => 48 <= c <= 57).
Definition pos_digit : abnf := Chr (fun c => 49 <= c <= 57).
Definition number : abnf := Or (Lit "0") (Cat pos_digit (Many digit)).
Definition upto (max : N) (a : abnf) : abnf := Such a (fun t => dec_value t <= max).
Definition upper_hex : abnf := Chr (fun c => 48 <= c <= 57 \/ 65 <= c <= 70).
Definition lower_hex : abnf := Chr (fun c => 48 <= c <= 57 \/ 97 <= c <= 102).
(** Floating-point numbers are printed by Rust's library, which is not modelled. *)
Definition r_float : abnf := many1 (Chr (fun c => 48 <= c <= 57 \/ In c (of_string ".-infNa"))).
(** Texts neither starting nor ending with a blank. *)
Definition r_text : abnf :=
  Or visible (cats [visible; Many any; visible]).

(** ** Addresses *)
Definition r_octet : abnf := upto 255 number.
Definition r_ip4_address : abnf := cats [r_octet; Lit "."; r_octet; Lit "."; r_octet; Lit "."; r_octet].
(** RFC 5952: lower case, no leading zeros; "::" for two or more groups. *)
Definition r_h16 : abnf :=
  Or (Lit "0")
     (Such (Cat (Chr (fun c => 49 <= c <= 57 \/ 97 <= c <= 102)) (Many lower_hex))
           (fun t => (List.length t <= 4)%nat)).
Definition r_groups (n : nat) : abnf :=
  match n with O => Lit "" | S n => Cat r_h16 (times n (Cat (Lit ":") r_h16)) end.
Fixpoint r_compressed (left right : nat) : abnf :=
  let here := cats [r_groups left; Lit "::"; r_groups right] in
  match right with O => here | S r => Or here (r_compressed left r) end.
Definition r_ip6_address : abnf :=
  alt (r_groups 8)
      [ r_compressed 0 6; r_compressed 1 5; r_compressed 2 4; r_compressed 3 3; r_compressed 4 2;
        r_compressed 5 1; r_compressed 6 0; Cat (Lit "::ffff:") r_ip4_address ].
Definition r_host_name : abnf := many1 (Chr (fun c => domain_char c = true)).
Definition r_address : abnf := alt r_ip4_address [r_ip6_address; r_host_name].
Definition r_typed_address : abnf :=
  alt (Cat (Lit "IN IP4 ") r_ip4_address)
      [ Cat (Lit "IN IP6 ") r_ip6_address;
        cats [Lit "IN IP"; lits ["4"; "6"]%string; Lit " "; r_host_name] ].

(** ** Attributes *)
Definition r_port : abnf := upto 65535 number.
Definition r_payload : abnf := Or (Lit "*") (upto 255 number).
Definition not_named (names : list string) (t : str) : Prop := ~ Exists (means t) names.

Definition r_candidate : abnf :=
  cats [ non_blank; Lit " "; upto u32_max number; Lit " "; lits ["UDP"; "TCP"]%string; Lit " ";
         upto u64_max number; Lit " ";
        r_address; Lit " "; r_port; Lit " typ "; lits ["host"; "srflx"; "prflx"; "relay"]%string;
        opt (Cat (Lit " raddr ") r_address);
        opt (Cat (Lit " rport ") r_port);
        opt (Cat (Lit " tcptype ") (lits ["active"; "passive"; "so"]%string));
        opt (Cat (Lit " generation ") (upto u32_max number));
        opt (Cat (Lit " ufrag ") non_blank);
        opt (Cat (Lit " network-cost ") (upto u32_max number));
        Many (cats [Lit " "; Such non_blank (not_named extension_names); Lit " "; non_blank]) ].
Definition r_remote_candidate : abnf := cats [upto u32_max number; Lit " "; r_address; Lit " "; r_port].
Definition r_dtls_message : abnf := cats [lits ["client"; "server"]%string; Lit " "; many1 (none_of " ")].
Definition r_extmap : abnf :=
  cats [ upto 65535 number; opt (Cat (Lit "/") (lits ["recvonly"; "sendonly"; "sendrecv"]%string));
        Lit " "; non_blank; opt (Cat (Lit " ") (list_of " " non_blank)) ].
Definition r_octets (n : nat) : abnf :=
  match n with O => Lit "" | S n => Cat (times 2 upper_hex) (times n (Cat (Lit ":") (times 2 upper_hex))) end.
Definition r_fingerprint : abnf :=
  alt (Cat (Lit "sha-1 ") (r_octets 20))
      [ Cat (Lit "sha-224 ") (r_octets 28); Cat (Lit "sha-256 ") (r_octets 32);
        Cat (Lit "sha-384 ") (r_octets 48); Cat (Lit "sha-512 ") (r_octets 64) ].
(** Media formats: parameters in any order; names that the parser does not know
    are free. *)
Definition r_named_number (max : N) (name : string) : abnf := cats [Lit name; Lit "="; upto max number].
Definition r_flag (name : string) : abnf := cats [Lit name; Lit "="; lits ["0"; "1"]%string].
Definition r_unknown_parameter : abnf :=
  Cat (Such (Many (none_of ";=")) (fun n => ~ Exists (means_upper n) fmtp_names))
      (Cat (Lit "=") (Many (none_of ";"))).
Definition r_fmtp_parameter : abnf :=
  alt (Cat (Lit "profile-level-id=") (times 6 lower_hex))
      (r_flag "level-asymmetry-allowed" :: r_named_number 2 "packetization-mode" ::
       r_named_number 2 "profile" :: r_named_number 31 "level-idx" :: r_named_number 1 "tier" ::
       map (r_named_number u32_max)
         ["max-fs"; "max-cpb"; "max-dpb"; "max-br"; "max-mbps"; "max-fr"; "maxplaybackrate";
          "maxaveragebitrate"; "ptime"; "minptime"; "maxptime"]%string ++
       map r_flag ["usedtx"; "stereo"; "useinbandfec"; "cbr"]%string ++ [r_unknown_parameter]).
Definition r_fmtp : abnf :=
  cats [ upto 255 number; Lit " ";
        alt (Cat (r_named_number 255 "apt") (opt (Cat (Lit ";") (r_named_number u32_max "rtx-time"))))
            [ cats [upto 128 number; Lit "/"; list_of "/" (upto 128 number)];
              Such (many1 any) tones;
              list_of ";" r_fmtp_parameter ] ].
Definition r_group : abnf :=
  Cat (lits ["LS"; "FID"; "SRF"; "ANAT"; "FEC"; "DDP"; "BUNDLE"]%string)
      (Many (Cat (Lit " ") non_blank)).
Definition r_xy_value_text : abnf := upto u32_max number.
Definition r_xy_range : abnf :=
  alt r_xy_value_text
      [ cats [ Lit "["; r_xy_value_text; Lit ":"; opt (Cat r_xy_value_text (Lit ":")); r_xy_value_text; Lit "]" ];
        cats [ Lit "["; r_xy_value_text; Lit ","; list_of "," r_xy_value_text; Lit "]" ] ].
Definition r_float_range_text : abnf := cats [Lit "["; r_float; Lit "-"; r_float; Lit "]"].
Definition r_sar_range : abnf :=
  alt r_float [ r_float_range_text; cats [Lit "["; r_float; Lit ","; list_of "," r_float; Lit "]"] ].
Definition r_image_set_text : abnf :=
  cats [ Lit "[x="; r_xy_range; Lit ",y="; r_xy_range; opt (Cat (Lit ",sar=") r_sar_range);
        opt (Cat (Lit ",par=") r_float_range_text); opt (Cat (Lit ",q=") r_float); Lit "]" ].
Definition r_image_list : abnf := Or (Lit "*") (list_of " " r_image_set_text).
Definition r_imageattr : abnf :=
  Cat r_payload
    (alt (cats [Lit " send "; r_image_list; Lit " recv "; r_image_list])
         [Cat (Lit " send ") r_image_list; Cat (Lit " recv ") r_image_list]).
Definition r_rid_id_text : abnf := Such (many1 (none_of " ")) (fun t => exists c x, t = c :: x /\ is_ws c = false).
Definition r_rid_unknown_text : abnf :=
  Cat (Such (Many (none_of ";=")) (fun n => ~ Exists (is_word n) rid_names))
      (Cat (Lit "=") (Many (none_of ";"))).
Definition r_rid_restriction : abnf :=
  alt (Cat (Lit "depends=") (opt (list_of "," (many1 (none_of ",;")))))
      (map (r_named_number u32_max) ["max-width"; "max-height"; "max-fps"; "max-fs"; "max-br"; "max-pps"]%string
       ++ [r_rid_unknown_text]).
Definition r_rid_formats_text : abnf := Cat (Lit "pt=") (list_of "," (upto 65535 number)).
Definition r_rid : abnf :=
  cats [ r_rid_id_text; Lit " "; lits ["send"; "recv"]%string;
        opt (Cat (Lit " ")
          (alt (list_of ";" r_rid_restriction)
               [ r_rid_formats_text; cats [r_rid_formats_text; Lit ";"; list_of ";" r_rid_restriction] ])) ].
Definition r_rtpmap : abnf :=
  cats [ upto 127 number; Lit " "; Many (Such visible (fun t => t <> [47])); Lit "/"; upto u32_max number;
        opt (Cat (Lit "/") (upto u32_max number)) ].
Definition r_rtcp : abnf := Cat r_port (opt (Cat (Lit " ") r_typed_address)).
Definition r_extra : abnf := opt (Cat (Lit " ") (Such (many1 any) (fun t => exists x c, t = x ++ [c] /\ is_ws c = false))).
Definition r_feedback : abnf :=
  alt (cats [Lit "ack "; lits ["rpsi"; "app"]%string; r_extra])
      [ Lit "ccm"; cats [Lit "ccm "; lits ["fir"; "tmmbr"; "tstr"; "vbcm"]%string; r_extra];
        Lit "nack"; cats [Lit "nack "; lits ["sli"; "pli"; "rpsi"; "app"]%string; r_extra];
        cats [Lit "trr-int "; Such (many1 any) (fun t => exists n, numeral u32_max t n); r_extra];
        Lit "goog-remb"; Lit "transport-cc" ].
Definition r_rtcp_fb : abnf := cats [r_payload; Lit " "; r_feedback].
(** A version: alternatives separated by commas, paused ones marked with '~'. *)
Definition r_sim_id : abnf := Many (Such visible (fun t => ~ In t [[44]; [59]])).
Definition r_sim_version : abnf := Such (list_of "," r_sim_id) (fun t => t <> []).
Definition r_sim_list : abnf := opt (list_of ";" r_sim_version).
Definition r_simulcast : abnf :=
  alt (cats [Lit "send "; r_sim_list; Lit " recv "; r_sim_list])
      [Cat (Lit "send ") r_sim_list; Cat (Lit "recv ") r_sim_list].
Definition r_ssrc : abnf :=
  Cat (upto u32_max number)
      (opt (cats [Lit " "; Many (none_of ":"); opt (Cat (Lit ":") (Many any))])).
Definition r_ssrc_group : abnf :=
  Cat (lits ["DUP"; "FID"; "FEC"; "FEC-FR"; "SIM"]%string) (many1 (Cat (Lit " ") (upto u32_max number))).

Definition flags : list string :=
  ["bundle-only"; "end-of-candidates"; "extmap-allow-mixed"; "ice-lite"; "ice-mismatch"; "inactive";
   "recvonly"; "rtcp-mux"; "rtcp-mux-only"; "rtcp-rsize"; "sendonly"; "sendrecv"]%string.
Definition values : list (string * abnf) :=
  [ ("candidate", r_candidate); ("dtls-message", r_dtls_message); ("extmap", r_extmap);
    ("fingerprint", r_fingerprint); ("fmtp", r_fmtp); ("framerate", r_float); ("group", r_group);
    ("ice-options", list_of " " non_blank);
    ("ice-pacing", Such number (fun t => (List.length t <= 10)%nat)); ("ice-pwd", r_text);
    ("ice-ufrag", r_text); ("identity", r_text); ("imageattr", r_imageattr); ("label", r_text);
    ("max-message-size", upto u64_max number); ("maxptime", upto u64_max number); ("mid", r_text);
    ("msid", Cat non_blank (opt (Cat (Lit " ") non_blank)));
    ("msid-semantic", cats [non_blank; Lit " "; list_of " " non_blank]);
    ("ptime", upto u64_max number); ("rid", r_rid); ("remote-candidates", r_remote_candidate);
    ("rtpmap", r_rtpmap); ("rtcp", r_rtcp); ("rtcp-fb", r_rtcp_fb);
    ("sctpmap", cats [r_port; Lit " webrtc-datachannel "; upto u32_max number]); ("sctp-port", r_port);
    ("setup", lits ["active"; "actpass"; "holdconn"; "passive"]%string); ("simulcast", r_simulcast);
    ("ssrc", r_ssrc); ("ssrc-group", r_ssrc_group) ]%string.
Definition r_attribute : abnf :=
  alt (lits flags) (map (fun nv => cats [Lit (fst nv); Lit ":"; snd nv]) values).

(** ** Lines *)
Definition r_numbers : abnf := many1 (Cat (Lit " ") (upto 127 number)).
Definition protocols : list string :=
  ["RTP/AVP"; "RTP/AVPF"; "RTP/SAVP"; "RTP/SAVPF"; "TCP/DTLS/RTP/SAVP"; "TCP/DTLS/RTP/SAVPF";
   "UDP/TLS/RTP/SAVP"; "UDP/TLS/RTP/SAVPF"; "DTLS/SCTP"; "UDP/DTLS/SCTP"; "TCP/DTLS/SCTP"]%string.
Definition r_version_line : abnf := Lit "v=0".
Definition r_origin_line : abnf :=
  cats [ Lit "o="; non_blank; Lit " "; upto u64_max number; Lit " "; upto u64_max number; Lit " ";
        r_typed_address ].
Definition r_name_line : abnf := Cat (Lit "s=") (Or (Lit " ") r_text).
Definition r_time_line : abnf := cats [Lit "t="; upto u64_max number; Lit " "; upto u64_max number].
Definition r_bandwidth_line : abnf :=
  cats [Lit "b="; Many (none_of ":"); Lit ":"; upto u32_max number].
Definition r_connection_line : abnf :=
  cats [ Lit "c="; r_typed_address;
        opt (cats [Lit "/"; upto 255 number; opt (Cat (Lit "/") (upto u32_max number))]) ].
Definition r_attribute_line : abnf := Cat (Lit "a=") r_attribute.
Definition r_media_line : abnf :=
  Or (cats [ Lit "m="; lits ["audio"; "video"]%string; Lit " "; r_port;
            opt (Cat (Lit "/") (upto u32_max number)); Lit " "; lits protocols; r_numbers ])
     (cats [ Lit "m=application "; r_port; opt (Cat (Lit "/") (upto u32_max number)); Lit " ";
            lits protocols; many1 (Cat (Lit " ") non_blank) ]).

Definition line_rule (ty : sdp_type) : abnf :=
  match ty with
  | TyAttribute _ => r_attribute_line | TyBandwidth _ => r_bandwidth_line
  | TyConnection _ => r_connection_line | TyMedia _ => r_media_line | TyOrigin _ => r_origin_line
  | TySession _ => r_name_line | TyTiming _ => r_time_line | TyVersion _ => r_version_line
  end.

(** ** Documents *)
Definition r_line (a : abnf) : abnf :=
  cats [Such a (fun t => ~ In 10 t); Chr (eq 13); Chr (eq 10)].
Definition r_section (first : list abnf) : abnf :=
  cats (first ++ [Many (r_line r_bandwidth_line); opt (r_line r_connection_line); Many (r_line r_attribute_line)]).
Definition document_text : abnf :=
  Cat (r_section [r_line r_version_line; r_line r_origin_line; r_line r_name_line; opt (r_line r_time_line)])
      (Many (r_section [r_line r_media_line])).

(** ** What is not printed, and the order of the lines *)
(** Nothing is printed for parameters that all have their default values. *)
Definition unprinted (a : attr) : Prop :=
  exists f, a = AFmtp f /\ fmtp_parameters f = fmtp_defaults.
Definition item_printable (ty : sdp_type) : Prop :=
  match ty with
  | TyAttribute a => ~ unprinted a
  | TySession t => t = [32] \/ (exists c x, t = c :: x /\ is_ws c = false) /\ (exists c x, t = x ++ [c] /\ is_ws c = false)
  | _ => True
  end.
Definition some_printed (l : list attr) : Prop := l = [] \/ exists a, In a l /\ ~ unprinted a.
Definition all_printed (s : session) : Prop :=
  some_printed (s_attribute s) /\ Forall (fun m => some_printed (m_attribute m)) (s_media s).
(** RFC 8866, section 5: the order of the lines of the session and of a media
    description. *)
Definition session_letters : str := lit "vosiuepcbtrzka".
Definition media_letters : str := lit "micbka".
Definition letters (text : str) : str := map (hd 0) (lines text).
Inductive in_order : str -> str -> Prop :=
| order_nil : forall ls, in_order ls []
| order_same : forall l ls t, in_order (l :: ls) t -> in_order (l :: ls) (l :: t)
| order_next : forall l ls t, in_order ls t -> in_order (l :: ls) t.
Inductive rfc_order : str -> Prop :=
| rfc_session : forall t ms, in_order session_letters t ->
    Forall (fun m => exists r, m = 109 :: r /\ ~ In 109 r /\ in_order media_letters m) ms ->
    rfc_order (t ++ List.concat ms).
(** RFC 8866 has connection, bandwidth and timing in this order, the printer the
    other way round. *)
Definition out_of_order (s : session) : Prop :=
  (s_timing s <> None /\ s_bandwidth s <> []) \/ (s_timing s <> None /\ s_connection s <> None) \/
  (s_bandwidth s <> [] /\ s_connection s <> None) \/
  Exists (fun m => m_bandwidth m <> [] /\ m_connection m <> None) (s_media s).
