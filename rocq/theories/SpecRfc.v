(** * The lines of the RFCs (spec for C62)

    Grammar rules of RFC 8866 (SDP), 8839 (ICE), 8122 (fingerprint), 4145 (setup),
    4585 and 5104 (rtcp-fb), 8285 (extmap), 5888 (group), 5576 (ssrc), 3605 (rtcp),
    8830 (msid), 8841 (SCTP), 8851 (rid), 8853 (simulcast), 4574 (label),
    6184, 7587, 4588, 4733, 2198 (fmtp), with the limits
    of the code written out where an RFC has none ([at_most]).  Words that ABNF
    compares without case are [nocase].  Only definitions. *)
From Coq Require Import List NArith Bool Ascii String.
From Verif Require Import Str Num Net Types Ext SpecApi SpecVal SpecIp SpecGrammar.
Import ListNotations.
Open Scope N_scope.
Open Scope list_scope.

(** ** Characters, words and numbers *)
Definition alpha_num (c : N) : Prop := 48 <= c <= 57 \/ 65 <= c <= 90 \/ 97 <= c <= 122.
Definition token_char (c : N) : Prop :=
  c = 33 \/ 35 <= c <= 39 \/ 42 <= c <= 43 \/ 45 <= c <= 46 \/ 48 <= c <= 57 \/ 65 <= c <= 90 \/ 94 <= c <= 126.
Definition ice_char (c : N) : Prop := alpha_num c \/ c = 43 \/ c = 47.
Definition vchar (c : N) : Prop := 33 <= c <= 126.
Definition row (least most : nat) (P : N -> Prop) : abnf :=
  Such (Many (Chr P)) (fun t => (least <= List.length t <= most)%nat).
Definition token : abnf := many1 (Chr token_char).
Definition vchars : abnf := many1 (Chr vchar).
(** Visible chars, ASCII or not. *)
Definition non_ws : abnf := many1 (Chr (fun c => 33 <= c /\ c <> 127 /\ is_ws c = false)).
Definition byte_string : abnf := many1 (Chr (fun c => c <> 0 /\ c <> 10 /\ c <> 13)).
Definition at_most (max : N) : abnf := upto max (many1 digit).
Definition nocase (w : string) : abnf := Such (Many any) (fun t => recased t (of_string w)).
Definition nocases (l : list string) : abnf :=
  match l with [] => Such (Lit "") (fun _ => False) | s :: l => alt (nocase s) (map nocase l) end.

Section WithExt.
Context {E : Ext}.

(** ** Addresses: IPv4, IPv6 in any form, and names that the URL library knows *)
Definition ip4 : abnf := Such (Many any) (fun t => exists n, ip4_text t n).
Definition ip6 : abnf := Such (Many any) (fun t => exists n, ip6_text t n).
Definition fqdn : abnf := Such (many1 (Chr (fun c => vchar c /\ c <> 58 /\ c <> 47))) (fun t => exists d, host_parse t = Ok (HDomain d)).
Definition address_rule : abnf := alt ip4 [ip6; fqdn].
Definition typed : abnf :=
  Or (cats [nocase "IN"; Lit " "; nocase "IP4"; Lit " "; Or ip4 fqdn])
     (cats [nocase "IN"; Lit " "; nocase "IP6"; Lit " "; Or ip6 fqdn]).

(** ** Attribute values *)
Definition port : abnf := at_most 65535.
(** RFC 8839, section 5.1. *)
Definition extension : abnf :=
  alt (cats [nocase "tcptype"; Lit " "; nocases ["active"; "passive"; "so"]%string])
      [ cats [nocase "generation"; Lit " "; at_most u32_max];
        cats [nocase "network-cost"; Lit " "; at_most u32_max];
        cats [nocase "ufrag"; Lit " "; row 4 256 ice_char];
        cats [Such token (not_named extension_names); Lit " "; vchars] ].
Definition rfc_candidate : abnf :=
  cats [ row 1 32 ice_char; Lit " "; row 1 3 (fun c => 48 <= c <= 57); Lit " "; nocases ["UDP"; "TCP"]%string; Lit " ";
         row 1 10 (fun c => 48 <= c <= 57); Lit " "; address_rule; Lit " "; port; Lit " "; nocase "typ"; Lit " ";
         nocases ["host"; "srflx"; "prflx"; "relay"]%string;
         opt (cats [Lit " "; nocase "raddr"; Lit " "; address_rule]); opt (cats [Lit " "; nocase "rport"; Lit " "; port]);
         Many (Cat (Lit " ") extension) ].
Definition one_remote : abnf := cats [row 1 3 (fun c => 48 <= c <= 57); Lit " "; address_rule; Lit " "; port].
Definition rfc_remote_candidates : abnf := list_of " " one_remote.
(** RFC 8122, section 5, with a length that fits the hash function. *)
Definition uhex : abnf := Chr (fun c => 48 <= c <= 57 \/ 65 <= c <= 70).
Definition octets (n : nat) : abnf :=
  match n with O => Lit "" | S n => Cat (Cat uhex uhex) (times n (Cat (Lit ":") (Cat uhex uhex))) end.
Definition rfc_fingerprint : abnf :=
  alt (Cat (Lit "sha-1 ") (octets 20))
      [ Cat (Lit "sha-224 ") (octets 28); Cat (Lit "sha-256 ") (octets 32);
        Cat (Lit "sha-384 ") (octets 48); Cat (Lit "sha-512 ") (octets 64) ].
Definition rfc_extmap : abnf :=
  cats [ at_most 65535; opt (Cat (Lit "/") (nocases ["sendonly"; "recvonly"; "sendrecv"]%string)); Lit " "; non_ws;
         opt (Cat (Lit " ") (list_of " " non_ws)) ].
Definition rfc_group : abnf :=
  Cat (nocases ["LS"; "FID"; "SRF"; "ANAT"; "FEC"; "DDP"; "BUNDLE"]%string) (Many (Cat (Lit " ") token)).
Definition rfc_msid : abnf := Cat (row 1 64 token_char) (opt (Cat (Lit " ") (row 1 64 token_char))).
Definition rfc_msid_semantic : abnf := cats [opt (Lit " "); token; Many (Cat (Lit " ") token)].
Definition rfc_rtpmap : abnf :=
  cats [at_most 127; Lit " "; token; Lit "/"; at_most u32_max; opt (Cat (Lit "/") (at_most u32_max))].
Definition rfc_rtcp : abnf := Cat port (opt (Cat (Lit " ") typed)).
(** RFC 4585, section 4.2, and RFC 5104, section 7. *)
Definition rest : abnf := opt (Cat (Lit " ") (list_of " " non_ws)).
Definition rfc_rtcp_fb : abnf :=
  cats [ Or (Lit "*") (at_most 255); Lit " ";
         alt (cats [Lit "ack "; lits ["rpsi"; "app"]%string; rest])
             [ Lit "nack"; cats [Lit "nack "; lits ["sli"; "pli"; "rpsi"; "app"]%string; rest];
               cats [Lit "ccm "; lits ["fir"; "tmmbr"; "tstr"; "vbcm"]%string; rest];
               Cat (Lit "trr-int ") (at_most u32_max); Lit "goog-remb"; Lit "transport-cc" ] ].
Definition rfc_ssrc : abnf :=
  cats [at_most u32_max; Lit " "; token; opt (Cat (Lit ":") byte_string)].
Definition rfc_ssrc_group : abnf :=
  Cat (nocases ["DUP"; "FID"; "FEC"; "FEC-FR"; "SIM"]%string) (many1 (Cat (Lit " ") (at_most u32_max))).
(** RFC 8853, section 5.1. *)
Definition rid_char (c : N) : Prop := alpha_num c \/ c = 45 \/ c = 95.
Definition rid_identifier : abnf := many1 (Chr rid_char).
Definition stream_list : abnf := list_of ";" (list_of "," (Cat (opt (Lit "~")) rid_identifier)).
Definition rfc_simulcast : abnf :=
  alt (Cat (Lit "send ") stream_list)
      [ Cat (Lit "recv ") stream_list; cats [Lit "send "; stream_list; Lit " recv "; stream_list];
        cats [Lit "recv "; stream_list; Lit " send "; stream_list] ].
(** RFC 8851, section 10, where every restriction has a value. *)
Definition rid_restriction : abnf :=
  alt (cats [Lit "depends="; list_of "," rid_identifier])
      (map (fun n => cats [Lit n; Lit "="; at_most u32_max])
         ["max-width"; "max-height"; "max-fps"; "max-fs"; "max-br"; "max-pps"]%string ++
       [ cats [Such rid_identifier (fun n => ~ Exists (is_word n) rid_names /\ n <> lit "pt"); Lit "=";
               Many (Chr (fun c => vchar c /\ c <> 59))] ]).
Definition rid_formats_rule : abnf := Cat (Lit "pt=") (list_of "," (at_most 65535)).
Definition rfc_rid : abnf :=
  cats [ rid_identifier; Lit " "; lits ["send"; "recv"]%string;
         opt (Cat (Lit " ") (Cat (Or rid_formats_rule rid_restriction) (Many (Cat (Lit ";") rid_restriction)))) ].
(** Media formats (the registrations of H.264, VP8, AV1, Opus, RTX, RED, telephone events). *)
Definition fmtp_parameter : abnf :=
  alt (cats [nocase "profile-level-id"; Lit "="; Such (many1 (Chr (fun c => 48 <= c <= 57 \/ 65 <= c <= 70 \/ 97 <= c <= 102)))
              (fun t => List.length t = 6%nat)])
      (map (fun nm => cats [nocase (fst nm); Lit "="; at_most (snd nm)])
         [("packetization-mode", 2); ("level-asymmetry-allowed", 1); ("max-mbps", u32_max); ("max-fs", u32_max);
          ("max-cpb", u32_max); ("max-dpb", u32_max); ("max-br", u32_max); ("max-fr", u32_max); ("profile", 2);
          ("level-idx", 31); ("tier", 1); ("maxplaybackrate", u32_max); ("maxaveragebitrate", u32_max);
          ("ptime", u32_max); ("maxptime", u32_max); ("minptime", u32_max); ("usedtx", 1); ("stereo", 1);
          ("useinbandfec", 1); ("cbr", 1)]%string ++
       [ cats [Such token (fun n => ~ Exists (means_upper n) fmtp_names); Lit "=";
               Many (Chr (fun c => vchar c /\ c <> 59))] ]).
Definition event : abnf := Or (at_most 100) (cats [at_most 100; Lit "-"; at_most 100]).
Definition rfc_fmtp : abnf :=
  cats [ at_most 255; Lit " ";
         alt (list_of ";" fmtp_parameter)
             [ cats [nocase "apt"; Lit "="; at_most 255; opt (cats [Lit ";"; nocase "rtx-time"; Lit "="; at_most u32_max])];
               cats [at_most 128; Lit "/"; list_of "/" (at_most 128)];
               list_of "," event ] ].

(** ** Attribute lines *)
Definition rfc_values : list (string * abnf) :=
  [ ("candidate", rfc_candidate); ("remote-candidates", rfc_remote_candidates); ("fingerprint", rfc_fingerprint);
    ("extmap", rfc_extmap); ("group", rfc_group); ("msid", rfc_msid); ("msid-semantic", rfc_msid_semantic);
    ("rtpmap", rfc_rtpmap); ("rtcp", rfc_rtcp); ("rtcp-fb", rfc_rtcp_fb); ("ssrc", rfc_ssrc);
    ("ssrc-group", rfc_ssrc_group); ("simulcast", rfc_simulcast); ("rid", rfc_rid); ("fmtp", rfc_fmtp);
    ("ice-ufrag", row 4 256 ice_char); ("ice-pwd", row 22 256 ice_char); ("ice-options", list_of " " (many1 (Chr ice_char)));
    ("ice-pacing", row 1 10 (fun c => 48 <= c <= 57)); ("mid", token); ("label", token);
    ("identity", vchars); ("setup", nocases ["active"; "passive"; "actpass"; "holdconn"]%string);
    ("sctp-port", port); ("sctpmap", cats [port; Lit " "; nocase "webrtc-datachannel"; Lit " "; at_most u32_max]);
    ("max-message-size", at_most u64_max); ("ptime", at_most u64_max); ("maxptime", at_most u64_max);
    ("dtls-message", cats [lits ["client"; "server"]%string; Lit " "; vchars]) ]%string.
Definition rfc_attributes : list (string * abnf) :=
  map (fun n => (n, Cat (Lit "a=") (Lit n))) flags ++
  map (fun nv => (fst nv, cats [Lit "a="; Lit (fst nv); Lit ":"; snd nv])) rfc_values.

(** ** Other lines *)
(** Static and dynamic payload types (RFC 3551); 64 to 95 are taken by RTCP (RFC 5761). *)
Definition payload : abnf := Such (many1 digit) (fun t => payload_listed (dec_value t)).
Definition ports : abnf := Cat port (opt (Cat (Lit "/") (at_most u32_max))).
Definition rfc_lines : list (string * abnf) :=
  [ ("v", Lit "v=0");
    ("o", cats [Lit "o="; non_ws; Lit " "; at_most u64_max; Lit " "; at_most u64_max; Lit " "; typed]);
    ("s", Cat (Lit "s=") byte_string);
    ("t", cats [Lit "t="; at_most u64_max; Lit " "; at_most u64_max]);
    ("b", cats [Lit "b="; token; Lit ":"; at_most u32_max]);
    ("c", cats [Lit "c="; typed]);
    ("c", cats [ Lit "c="; nocase "IN"; Lit " "; nocase "IP4"; Lit " "; ip4; Lit "/"; at_most 255;
                 opt (Cat (Lit "/") (at_most u32_max)) ]);
    ("c", cats [Lit "c="; nocase "IN"; Lit " "; nocase "IP6"; Lit " "; ip6; Lit "/"; at_most 255]);
    ("m", cats [ Lit "m="; lits ["audio"; "video"]%string; Lit " "; ports; Lit " "; lits protocols;
                 many1 (Cat (Lit " ") payload) ]);
    ("m", cats [ Lit "m=application "; ports; Lit " "; lits protocols; many1 (Cat (Lit " ") token) ]) ]%string.

(** What a line is read as. *)
Definition item_name (ty : sdp_type) : string :=
  match ty with
  | TyAttribute a => sdp_name a | TyBandwidth _ => "b" | TyConnection _ => "c" | TyMedia _ => "m"
  | TyOrigin _ => "o" | TySession _ => "s" | TyTiming _ => "t" | TyVersion _ => "v"
  end.

(** ** Documents *)
(** A line of one of the given kinds. *)
Definition of_kind (kinds : list string) (t : str) : Prop :=
  exists k r, In k kinds /\ In (k, r) (rfc_attributes ++ rfc_lines) /\ gen r t.
Definition session_kinds : list string := ["t"; "c"; "b"]%string ++ session_names.
Definition media_kinds : list string :=
  ["b"; "bundle-only"; "candidate"; "dtls-message"; "end-of-candidates"; "extmap"; "extmap-allow-mixed"; "fingerprint"; "fmtp";
   "ice-mismatch"; "ice-options"; "ice-pwd"; "ice-ufrag"; "inactive"; "label"; "max-message-size"; "maxptime"; "mid"; "msid";
   "ptime"; "recvonly"; "remote-candidates"; "rid"; "rtpmap"; "rtcp"; "rtcp-fb"; "rtcp-mux"; "rtcp-mux-only"; "rtcp-rsize";
   "sctpmap"; "sctp-port"; "sendonly"; "sendrecv"; "setup"; "simulcast"; "ssrc"; "ssrc-group"]%string.
Definition with_one (k : string) (ls : list str) : Prop := Exists (of_kind [k]) ls.
(** Lines that refer to each other.  A rid line declares an identifier for a
    direction; a simulcast line uses those of its lists; a rid line restricted to
    payload types uses them; an m= line lists payload types. *)
Definition declares_rid (d : single_direction) (id t : str) : Prop :=
  exists rest, t = lit "a=rid:" ++ id ++ 32 :: of_string (single_direction_name d) ++ rest /\ word id /\
    (rest = [] \/ exists r, rest = 32 :: r).
Definition uses_rid (d : single_direction) (id t : str) : Prop :=
  exists v before list after body streams alts, t = lit "a=simulcast:" ++ v /\
    words v (before ++ of_string (single_direction_name d) :: list :: after) /\
    (list = body \/ list = lit "rid=" ++ body) /\ fields 59 body streams /\
    Exists (fun x => fields 44 x alts) streams /\ (In id alts \/ In (126 :: id) alts).
Definition uses_payload (n : N) (t : str) : Prop :=
  exists v c before params pts rest fs, t = lit "a=rid:" ++ v /\ core v c /\ c = before ++ 32 :: params /\
    fields 59 params ((lit "pt=" ++ pts) :: rest) /\ fields 44 pts fs /\
    Exists (fun f => exists x, core f x /\ numeral u16_max x n) fs.
Definition lists_payload (n : N) (t : str) : Prop :=
  exists v kind port proto fmts d, t = lit "m=" ++ v /\ words v (kind :: port :: proto :: fmts) /\ In d fmts /\
    d <> [] /\ Forall is_digit d /\ dec_value d = n /\ (forall r, d = 48 :: r -> r = []).
Definition refers_within (m : str) (ls : list str) : Prop :=
  (forall d id t, In t ls -> uses_rid d id t -> Exists (declares_rid d id) ls) /\
  (forall n t, In t ls -> uses_payload n t -> lists_payload n m).
(** An m= line and lines of that section, with one c= line at most. *)
Definition rfc_section (ls : list str) : Prop :=
  exists m a c b, ls = m :: a ++ c ++ b /\ of_kind ["m"]%string m /\
    Forall (of_kind media_kinds) a /\ Forall (of_kind ["c"]%string) c /\ (List.length c <= 1)%nat /\ Forall (of_kind media_kinds) b /\
    (with_one "rtcp-mux-only" ls -> with_one "rtcp-mux" ls) /\ refers_within m (a ++ b).
Definition rfc_document (ls : list str) (sections : nat) : Prop :=
  exists v o s head secs, ls = v :: o :: s :: head ++ List.concat secs /\
    of_kind ["v"]%string v /\ of_kind ["o"]%string o /\ of_kind ["s"]%string s /\
    Forall (of_kind session_kinds) head /\ with_one "t" head /\ Forall rfc_section secs /\
    (with_one "c" head \/ Forall (with_one "c") secs) /\
    ~ (with_one "extmap" head /\ Exists (with_one "extmap") secs) /\ List.length secs = sections.

(** ** Rules of the RFCs that go further than the code, in whole lines *)
Definition feedback_payload : abnf := Or (Lit "*") (at_most 255).
Definition rfc_beyond : list abnf :=
  [ (* RFC 8285, section 8: a direction can be "inactive" *)
    cats [ Lit "a=extmap:"; at_most 65535; Lit "/"; nocases ["sendonly"; "recvonly"; "sendrecv"; "inactive"]%string; Lit " "; non_ws ];
    (* RFC 8122, section 5: the name of a hash function, in any case of letters *)
    cats [Lit "a=fingerprint:"; nocase "sha-1"; Lit " "; octets 20];
    (* RFC 4585, section 4.2: ack without a parameter *)
    cats [Lit "a=rtcp-fb:"; feedback_payload; Lit " "; lits ["ack"; "nack"]%string];
    (* ... and in any case of letters *)
    cats [Lit "a=rtcp-fb:"; feedback_payload; Lit " "; nocase "nack"];
    (* ... and with another parameter *)
    cats [Lit "a=rtcp-fb:"; feedback_payload; Lit " nack "; token];
    (* RFC 8851, section 10: a restriction without a value *)
    cats [Lit "a=rid:"; rid_identifier; Lit " "; lits ["send"; "recv"]%string; Lit " "; rid_identifier];
    (* RFC 5576, section 4.2: any number of identifiers *)
    cats [Lit "a=ssrc-group:"; nocases ["FID"; "FEC"]%string; Many (Cat (Lit " ") (at_most u32_max))];
    (* RFC 8866, section 6.4: milliseconds with a fraction *)
    cats [Lit "a=ptime:"; many1 digit; opt (Cat (Lit ".") (many1 digit))];
    (* RFC 8866, section 9: a number of multicast groups *)
    cats [Lit "c=IN IP6 "; ip6; Lit "/"; many1 digit];
    (* RFC 8839, section 5.1: other transports *)
    cats [ Lit "a=candidate:"; row 1 32 ice_char; Lit " "; row 1 3 (fun c => 48 <= c <= 57); Lit " "; token; Lit " ";
           row 1 10 (fun c => 48 <= c <= 57); Lit " "; ip6; Lit " "; port; Lit " typ host" ];
    (* ... and other types *)
    cats [ Lit "a=candidate:"; row 1 32 ice_char; Lit " "; row 1 3 (fun c => 48 <= c <= 57); Lit " UDP ";
           row 1 10 (fun c => 48 <= c <= 57); Lit " "; ip6; Lit " "; port; Lit " typ "; token ];
    (* RFC 5888, section 4: other semantics *)
    cats [Lit "a=group:"; token; Many (Cat (Lit " ") token)];
    (* RFC 8866, section 5.14: other media and protocols *)
    cats [Lit "m="; token; Lit " "; ports; Lit " "; lits protocols; many1 (Cat (Lit " ") payload)];
    cats [Lit "m=audio "; ports; Lit " "; list_of "/" token; many1 (Cat (Lit " ") payload)];
    (* RFC 8866, section 5.4: session information *)
    Cat (Lit "i=") byte_string;
    (* RFC 8866, section 5.13: any attribute *)
    Cat (Lit "a=") token ].
End WithExt.
