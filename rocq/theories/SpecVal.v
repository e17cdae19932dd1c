(** * Specification vocabulary for the values of lines (C13-C21, C34-C36, C42,
    C44, C47)

    Only definitions: what a line of an SDP text means, given by grammars over
    the text.  Known words are given by their spelling. *)
From Coq Require Import List NArith ZArith Bool Ascii String.
From Verif Require Import Str Num Net Types Ext SpecApi SpecDoc.
Import ListNotations.
Open Scope N_scope.
Open Scope list_scope.

(** ** Text *)
(** [t] is [v] without the whitespace around it. *)
Definition core (v t : str) : Prop :=
  exists w1 w2, v = w1 ++ t ++ w2 /\ blank w1 /\ blank w2 /\
    (t = [] \/ (exists c x, t = c :: x /\ is_ws c = false) /\
               (exists c x, t = x ++ [c] /\ is_ws c = false)).

(** The words of a text: separated, possibly preceded and followed, by whitespace. *)
Definition word (t : str) : Prop := t <> [] /\ Forall (fun c => is_ws c = false) t.
Inductive words : str -> list str -> Prop :=
| words_none : forall w, blank w -> words w []
| words_last : forall w t, blank w -> word t -> words (w ++ t) [t]
| words_more : forall w t c s l, blank w -> word t -> is_ws c = true -> words s l ->
    words (w ++ t ++ c :: s) (t :: l).

(** The fields of a text: what is between the separators. *)
Inductive fields (sep : N) : str -> list str -> Prop :=
| fields_last : forall s, ~ In sep s -> fields sep s [s]
| fields_more : forall t s l, ~ In sep t -> fields sep s l -> fields sep (t ++ sep :: s) (t :: l).
(** A text cut at its first separator. *)
Definition cut (sep : N) (s a b : str) : Prop := s = a ++ sep :: b /\ ~ In sep a.

(** ** Numbers *)
Definition is_digit (c : N) : Prop := 48 <= c <= 57.
Definition dec_value (ds : str) : N := fold_left (fun a c => 10 * a + (c - 48)) ds 0.
(** Decimal digits, optionally preceded by one '+'. *)
Definition numeral (max : N) (s : str) (n : N) : Prop :=
  exists ds, (s = ds \/ s = 43 :: ds) /\ ds <> [] /\ Forall is_digit ds /\
             n = dec_value ds /\ n <= max.
Definition hex_digit (c d : N) : Prop :=
  (48 <= c <= 57 /\ d = c - 48) \/ (65 <= c <= 70 /\ d = c - 55) \/ (97 <= c <= 102 /\ d = c - 87).
Definition hex_numeral (max : N) (s : str) (n : N) : Prop :=
  exists cs ds, (s = cs \/ s = 43 :: cs) /\ cs <> [] /\ Forall2 hex_digit cs ds /\
                n = fold_left (fun a d => 16 * a + d) ds 0 /\ n <= max.

(** ** Known words *)
Definition same_letter (c d : N) : Prop := ascii_lower c = ascii_lower d.
Definition recased (s t : str) : Prop := Forall2 same_letter s t.
(** [s] spells the (ASCII) word [w] in any case.  Rust's Unicode case mapping
    also takes a few other chars for ASCII letters. *)
Inductive spells (special : list (N * str)) : str -> str -> Prop :=
| spells_nil : spells special [] []
| spells_char : forall c d s w, same_letter c d -> spells special s w ->
    spells special (c :: s) (d :: w)
| spells_special : forall c p s w, In (c, p) special -> spells special s w ->
    spells special (c :: s) (p ++ w).
(** KELVIN SIGN. *)
Definition lower_special : list (N * str) := [(8490, lit "k")].
(** SHARP S, DOTLESS I, LONG S and the Latin ligatures. *)
Definition upper_special : list (N * str) :=
  [ (223, lit "SS"); (305, lit "I"); (383, lit "S"); (64256, lit "FF"); (64257, lit "FI");
    (64258, lit "FL"); (64259, lit "FFI"); (64260, lit "FFL"); (64261, lit "ST");
    (64262, lit "ST") ].
Definition means (s : str) (name : string) : Prop := spells lower_special s (of_string name).
Definition means_upper (s : str) (name : string) : Prop := spells upper_special s (of_string name).
(** Case-sensitive words. *)
Definition is_word (s : str) (name : string) : Prop := s = of_string name.

Definition media_name (m : media_value) : string :=
  match m with Audio => "audio" | Video => "video" | Application => "application" end.
Definition protocol_name (p : protocol_value) : string :=
  match p with
  | RtpAvp => "RTP/AVP" | RtpAvpf => "RTP/AVPF" | RtpSavp => "RTP/SAVP" | RtpSavpf => "RTP/SAVPF"
  | TcpDtlsRtpSavp => "TCP/DTLS/RTP/SAVP" | TcpDtlsRtpSavpf => "TCP/DTLS/RTP/SAVPF"
  | UdpTlsRtpSavp => "UDP/TLS/RTP/SAVP" | UdpTlsRtpSavpf => "UDP/TLS/RTP/SAVPF"
  | DtlsSctp => "DTLS/SCTP" | UdpDtlsSctp => "UDP/DTLS/SCTP" | TcpDtlsSctp => "TCP/DTLS/SCTP"
  end.
Definition addr_type_name (t : addr_type) : string :=
  match t with IpV4 => "IP4" | IpV6 => "IP6" end.
Definition transport_name (t : transport_t) : string :=
  match t with Udp => "udp" | Tcp => "tcp" end.
Definition cand_type_name (t : cand_type) : string :=
  match t with Host => "host" | Srflx => "srflx" | Prflx => "prflx" | Relay => "relay" end.
Definition tcp_type_name (t : tcp_type_t) : string :=
  match t with TcpActive => "active" | TcpPassive => "passive" | TcpSimultaneous => "so" end.
Definition direction_name (d : direction) : string :=
  match d with DRecvonly => "recvonly" | DSendonly => "sendonly" | DSendrecv => "sendrecv" end.
Definition single_direction_name (d : single_direction) : string :=
  match d with Send => "send" | Recv => "recv" end.
Definition hash_name (h : hash_type) : string :=
  match h with
  | Sha1 => "sha-1" | Sha224 => "sha-224" | Sha256 => "sha-256" | Sha384 => "sha-384"
  | Sha512 => "sha-512"
  end.
(** Length of a hash in octets: its number of bits over 8. *)
Definition hash_octets (h : hash_type) : nat :=
  match h with Sha1 => 160 / 8 | Sha224 => 224 / 8 | Sha256 => 256 / 8 | Sha384 => 384 / 8
             | Sha512 => 512 / 8 end%nat.
Definition group_name (g : group_semantic) : string :=
  match g with
  | GLs => "LS" | GFid => "FID" | GSrf => "SRF" | GAnat => "ANAT" | GFec => "FEC" | GDdp => "DDP"
  | GBundle => "BUNDLE"
  end.
Definition ssrc_group_name (g : ssrc_group_semantic) : string :=
  match g with
  | SgDup => "DUP" | SgFid => "FID" | SgFec => "FEC" | SgFecFr => "FEC-FR" | SgSim => "SIM"
  end.
Definition setup_name (s : setup) : string :=
  match s with
  | SetupActive => "active" | SetupActpass => "actpass" | SetupHoldconn => "holdconn"
  | SetupPassive => "passive"
  end.
Definition fb_name (t : rtcp_fb_type) : string :=
  match t with
  | FbAck => "ack" | FbCcm => "ccm" | FbNack => "nack" | FbTrrInt => "trr-int"
  | FbRemb => "goog-remb" | FbTransCc => "transport-cc"
  end.

Section WithExt.
Context {E : Ext}.

(** ** Addresses *)
(** An IP literal (with a colon) or what the URL host parser makes of it. *)
Definition host_address (h : host) : address :=
  match h with HDomain d => Fqdn d | HIpv4 n => Ip (V4 n) | HIpv6 n => Ip (V6 n) end.
Definition reads_address (s : str) (a : address) : Prop :=
  (In 58 s /\ exists i, parse_ip s = Some i /\ a = Ip i) \/
  (~ (In 58 s /\ exists i, parse_ip s = Some i) /\
   exists h, host_parse s = Ok h /\ a = host_address h).
(** ... of the declared family. *)
Definition reads_typed (t : addr_type) (s : str) (a : typed_address) : Prop :=
  (exists d, reads_address s (Fqdn d) /\ a = TFqdn t d) \/
  (t = IpV4 /\ exists n, reads_address s (Ip (V4 n)) /\ a = TIp (V4 n)) \/
  (t = IpV6 /\ exists n, reads_address s (Ip (V6 n)) /\ a = TIp (V6 n)).
Definition family (a : typed_address) : addr_type :=
  match a with TFqdn t _ => t | TIp (V4 _) => IpV4 | TIp (V6 _) => IpV6 end.

(** ** Lines other than attributes *)
Definition version_value (v : str) (n : N) : Prop :=
  exists t, core v t /\ numeral u64_max t 0 /\ n = 0.

Definition origin_value (v : str) (o : origin) : Prop :=
  exists user id ver net ty addr more t,
    words v (user :: id :: ver :: net :: ty :: addr :: more) /\
    o_username o = user /\ numeral u64_max id (o_session_id o) /\
    numeral u64_max ver (o_session_version o) /\
    means_upper net "IN" /\ means_upper ty (addr_type_name t) /\
    reads_typed t addr (o_unicast_addr o).

Definition connection_value (v : str) (c : connection) : Prop :=
  exists net ty rest t,
    words v [net; ty; rest] /\ means_upper net "IN" /\ means_upper ty (addr_type_name t) /\
    exists addr opts, fields 47 rest (addr :: opts) /\ reads_typed t addr (conn_address c) /\
      match opts with
      | [] => conn_ttl c = None /\ conn_amount c = None
      | [ttl] => (exists n, conn_ttl c = Some n /\ numeral u8_max ttl n) /\ conn_amount c = None
      | ttl :: amount :: _ =>
          (exists n, conn_ttl c = Some n /\ numeral u8_max ttl n) /\
          (exists n, conn_amount c = Some n /\ numeral u32_max amount n)
      end.

Definition bandwidth_value (v : str) (b : bandwidth) : Prop :=
  exists t ty num n, core v t /\ fields 58 t [ty; num] /\ numeral u32_max num n /\
    ((means_upper ty "AS" /\ b = BwAs n) \/ (means_upper ty "CT" /\ b = BwCt n) \/
     (means_upper ty "TIAS" /\ b = BwTias n) \/
     (~ means_upper ty "AS" /\ ~ means_upper ty "CT" /\ ~ means_upper ty "TIAS" /\
      b = BwUnknown ty n)).

Definition timing_value (v : str) (x : timing) : Prop :=
  exists a b, words v [a; b] /\ numeral u64_max a (t_start x) /\ numeral u64_max b (t_stop x).

(** Payload types that may be listed in an m= line. *)
Definition payload_listed (n : N) : Prop :=
  n < 128 /\ n <> 1 /\ n <> 2 /\ n <> 19 /\ ~ (64 <= n <= 95).
Definition media_line_value (v : str) (m : media_line) : Prop :=
  exists kind port proto fmts,
    words v (kind :: port :: proto :: fmts) /\ fmts <> [] /\
    means kind (media_name (ml_media m)) /\
    (exists p more, fields 47 port (p :: more) /\ numeral 65535 p (ml_port m) /\
       match more with [] => ml_port_count m = 0 | c :: _ => numeral u32_max c (ml_port_count m) end) /\
    means_upper proto (protocol_name (ml_proto m)) /\
    match ml_media m with
    | Application => ml_formats m = Strings fmts
    | Audio | Video => exists l, ml_formats m = Integers l /\
        Forall2 (fun t n => numeral u32_max t n /\ payload_listed n) fmts l
    end.

(** ** Attributes *)
Definition payload_value (s : str) (p : payload_type_t) : Prop :=
  match p with Wildcard => is_word s "*" | PayloadType n => numeral u8_max s n end.

(** Name/value pairs, in order: the values given to one name. *)
Inductive given (is : str -> Prop) : list (str * str) -> list str -> Prop :=
| given_nil : given is [] []
| given_here : forall n v ps vs, is n -> given is ps vs -> given is ((n, v) :: ps) (v :: vs)
| given_other : forall n v ps vs, ~ is n -> given is ps vs -> given is ((n, v) :: ps) vs.
(** Every value given to a name is readable and the last one counts; [none] if
    there is none. *)
Definition field_of {A} (is : str -> Prop) (ps : list (str * str)) (reads : str -> A -> Prop)
  (none : A) (x : A) : Prop :=
  exists vs, given is ps vs /\ Forall (fun v => exists y, reads v y) vs /\
    match last_of vs with None => x = none | Some v => reads v x end.
Definition some_reads {A} (reads : str -> A -> Prop) (v : str) (o : option A) : Prop :=
  exists x, o = Some x /\ reads v x.
Definition option_field {A} (is : str -> Prop) (ps : list (str * str))
  (reads : str -> A -> Prop) (o : option A) : Prop :=
  field_of is ps (some_reads reads) None o.
(** The pairs with none of the given names, in order. *)
Inductive others (known : str -> Prop) : list (str * str) -> list (str * str) -> Prop :=
| others_nil : others known [] []
| others_keep : forall n v ps us, ~ known n -> others known ps us ->
    others known ((n, v) :: ps) ((n, v) :: us)
| others_drop : forall n v ps us, known n -> others known ps us ->
    others known ((n, v) :: ps) us.
Fixpoint in_pairs (l : list str) : option (list (str * str)) :=
  match l with
  | [] => Some []
  | [_] => None
  | a :: b :: l' => match in_pairs l' with Some p => Some ((a, b) :: p) | None => None end
  end.
Definition extension_names : list string :=
  ["generation"; "network-cost"; "raddr"; "rport"; "tcptype"; "ufrag"]%string.
Definition candidate_value (v : str) (c : candidate) : Prop :=
  exists found comp trans prio addr port typ ty exts ps,
    words v (found :: comp :: trans :: prio :: addr :: port :: typ :: ty :: exts) /\
    foundation c = found /\ numeral u32_max comp (component c) /\
    means trans (transport_name (transport c)) /\ numeral u64_max prio (priority c) /\
    reads_address addr (cand_address c) /\ numeral 65535 port (cand_port c) /\
    means typ "typ" /\ means ty (cand_type_name (c_type c)) /\
    in_pairs exts = Some ps /\
    option_field (fun n => means n "generation") ps (numeral u32_max) (generation c) /\
    option_field (fun n => means n "network-cost") ps (numeral u32_max) (networkcost c) /\
    option_field (fun n => means n "raddr") ps reads_address (raddr c) /\
    option_field (fun n => means n "rport") ps (numeral 65535) (rport c) /\
    option_field (fun n => means n "tcptype") ps (fun s t => means s (tcp_type_name t)) (tcp_type c) /\
    option_field (fun n => means n "ufrag") ps (fun s x => x = s) (ufrag c) /\
    others (fun n => Exists (means n) extension_names) ps (unknown_extensions c).

Definition remote_candidate_value (v : str) (c : remote_candidate) : Prop :=
  exists comp addr port more, words v (comp :: addr :: port :: more) /\
    numeral u32_max comp (rc_component c) /\ reads_address addr (rc_address c) /\
    numeral 65535 port (rc_port c).

Definition dtls_value (v : str) (m : dtls_message) : Prop :=
  exists t role text, core v t /\ fields 32 t [role; text] /\
    ((is_word role "client" /\ m = DtlsClient text) \/ (is_word role "server" /\ m = DtlsServer text)).

Definition extmap_value (v : str) (e : extmap) : Prop :=
  exists id url more, words v (id :: url :: more) /\ ext_url e = url /\
    match ext_direction e with
    | None => ~ In 47 id /\ numeral u16_max id (ext_id e)
    | Some d => exists a b, cut 47 id a b /\ numeral u16_max a (ext_id e) /\
                            means b (direction_name d)
    end /\
    match more with
    | [] => ext_attributes e = None
    | _ => ext_attributes e = Some (join [32] more) /\ Forall (fun w => ~ In 0 w) more
    end.

Definition fingerprint_value (v : str) (f : fingerprint) : Prop :=
  exists hash text bytes, words v [hash; text] /\ is_word hash (hash_name (fp_hash f)) /\
    fields 58 text bytes /\
    Forall2 (fun t n => byte_len t = 2 /\ hex_numeral 255 t n) bytes (fp_bytes f) /\
    List.length bytes = hash_octets (fp_hash f).

Definition framerate_value (v : str) (x : f64) : Prop :=
  exists t, core v t /\ parse_f64 t = Ok x /\
    f64_is_nan x = false /\ f64_is_infinite x = false /\ f64_is_zero x = false.

Definition group_value (v : str) (g : group) : Prop :=
  exists sem, words v (sem :: grp_tags g) /\ means_upper sem (group_name (grp_semantics g)).

Definition msid_value (v : str) (m : msid) : Prop :=
  exists more, words v (msid_id m :: more) /\ msid_appdata m = hd_error more.

Definition msid_semantic_value (v : str) (m : msid_semantic) : Prop :=
  words v (ms_semantic m :: ms_msids m).

Definition rtpmap_value (v : str) (r : rtpmap) : Prop :=
  exists pt codec more freq rest, words v (pt :: codec :: more) /\
    numeral 127 pt (rm_payload_type r) /\
    fields 47 codec (rm_codec_name r :: freq :: rest) /\ numeral u32_max freq (rm_frequency r) /\
    match rest with
    | [] => rm_channels r = None
    | ch :: _ => exists n, rm_channels r = Some n /\ numeral u32_max ch n
    end.

Definition rtcp_value (v : str) (r : rtcp) : Prop :=
  exists port more, words v (port :: more) /\ numeral u16_max port (rtcp_port r) /\
    match more with
    | [] => rtcp_unicast_addr r = None
    | net :: ty :: addr :: _ =>
        means_upper net "IN" /\ exists t a, means_upper ty (addr_type_name t) /\
        reads_typed t addr a /\ rtcp_unicast_addr r = Some a
    | _ => False
    end.

Definition sctpmap_value (v : str) (s : sctpmap) : Prop :=
  exists port app ch, words v [port; app; ch] /\ numeral u16_max port (sm_port s) /\
    means app "webrtc-datachannel" /\ numeral u32_max ch (sm_channels s).

(** Cut at the first three spaces at most. *)
Fixpoint space_parts (n : nat) (s : str) (l : list str) : Prop :=
  match n with
  | O => False
  | S O => l = [s]
  | S n' => (~ In 32 s /\ l = [s]) \/
            exists a b r, cut 32 s a b /\ l = a :: r /\ space_parts n' b r
  end.
Definition fb_parameter_ok (t : rtcp_fb_type) (p : option str) : Prop :=
  match t, p with
  | FbAck, Some x => In x [lit "rpsi"; lit "app"]
  | FbCcm, Some x => In x [lit "fir"; lit "tmmbr"; lit "tstr"; lit "vbcm"]
  | FbNack, Some x => In x [lit "sli"; lit "pli"; lit "rpsi"; lit "app"]
  | FbTrrInt, Some x => exists n, numeral u32_max x n
  | (FbCcm | FbNack | FbRemb | FbTransCc), None => True
  | _, _ => False
  end.
Definition rtcp_fb_value (v : str) (f : rtcp_fb) : Prop :=
  exists t pt ty more, core v t /\ space_parts 4 t (pt :: ty :: more) /\
    payload_value pt (fb_payload_type f) /\ is_word ty (fb_name (fb_feedback_type f)) /\
    fb_parameter_ok (fb_feedback_type f) (hd_error more) /\
    fb_parameter f = hd [] more /\ fb_extra f = hd [] (tl more).

Definition ssrc_value_ (t : str) (s : ssrc) : Prop :=
  (~ In 32 t /\ numeral u32_max t (ssrc_id s) /\ ssrc_attribute s = None /\ ssrc_value s = None) \/
  exists id rest, cut 32 t id rest /\ numeral u32_max id (ssrc_id s) /\
    ((~ In 58 rest /\ ssrc_attribute s = Some rest /\ ssrc_value s = None) \/
     exists a b, cut 58 rest a b /\ ssrc_attribute s = Some a /\ ssrc_value s = Some b).
Definition ssrc_line_value (v : str) (s : ssrc) : Prop := exists t, core v t /\ ssrc_value_ t s.
Definition ssrc_group_value (v : str) (sem : ssrc_group_semantic) (l : list ssrc) : Prop :=
  exists w ids, words v (w :: ids) /\ means_upper w (ssrc_group_name sem) /\ ids <> [] /\
    Forall2 (fun t s => numeral u32_max t (ssrc_id s) /\ ssrc_attribute s = None /\
                        ssrc_value s = None) ids l.

(** Simulcast: versions separated by ';', alternatives by ',', '~' = paused. *)
Definition simulcast_id_value (t : str) (i : simulcast_id) : Prop :=
  if sid_paused i then t = 126 :: sid_id i
  else t = sid_id i /\ forall x, t <> 126 :: x.
Definition simulcast_version_value (t : str) (x : simulcast_version) : Prop :=
  exists alts, fields 44 t alts /\ Forall2 simulcast_id_value alts x.
Definition simulcast_list_value (t : str) (l : list simulcast_version) : Prop :=
  exists body vs, (cut 61 t (lit "rid") body \/ (~ In 61 t /\ body = t)) /\
    fields 59 body vs /\ Forall2 simulcast_version_value vs l.
Definition simulcast_value (v : str) (s : simulcast) : Prop :=
  exists d first more, words v (d :: first :: more) /\
  exists dir l1 l2, is_word d (single_direction_name dir) /\ simulcast_list_value first l1 /\
    match more with
    | [] => l2 = []
    | d2 :: second :: _ =>
        is_word d2 (single_direction_name (match dir with Send => Recv | Recv => Send end)) /\
        simulcast_list_value second l2
    | _ => False
    end /\
    match dir with
    | Send => sim_send s = l1 /\ sim_receive s = l2
    | Recv => sim_send s = l2 /\ sim_receive s = l1
    end.

(** ** fmtp *)
Definition flag_numeral (v : str) (b : bool) : Prop := numeral 1 v (if b then 1 else 0).
(** The parameters of H.264, VP8, AV1 and Opus that are known. *)
Definition fmtp_names : list string :=
  ["PROFILE-LEVEL-ID"; "PACKETIZATION-MODE"; "LEVEL-ASYMMETRY-ALLOWED"; "MAX-MBPS"; "MAX-FS";
   "MAX-CPB"; "MAX-DPB"; "MAX-BR"; "MAX-FR"; "PROFILE"; "LEVEL-IDX"; "TIER"; "MAXPLAYBACKRATE";
   "MAXAVERAGEBITRATE"; "PTIME"; "MAXPTIME"; "MINPTIME"; "USEDTX"; "STEREO"; "USEINBANDFEC";
   "CBR"; "APT"; "RTX-TIME"]%string.
Definition fmtp_defaults : fmtp_params :=
  {| packetization_mode := 0; level_asymmetry_allowed := false;
     profile_level_id := 66 * 65536 + 10; (* 42000a *)
     max_fs := 0; max_cpb := 0; max_dpb := 0; max_br := 0; max_mbps := 0; max_fr := 0;
     profile := None; level_idx := None; tier := None;
     maxplaybackrate := 48000; maxaveragebitrate := 0;
     usedtx := false; stereo := false; useinbandfec := false; cbr := false;
     ptime := 0; minptime := 0; maxptime := 0;
     encodings := []; dtmf_tones := []; rtx := None; unknown_tokens := [] |}.
(** Reading the parameters in order: an apt starts anew, an rtx-time belongs to
    the last apt before it (there must be one). *)
Inductive rtx_value : list (str * str) -> option rtx_params -> Prop :=
| rtx_none : rtx_value [] None
| rtx_apt_ : forall ps r n v x, rtx_value ps r -> means_upper n "APT" -> numeral u8_max v x ->
    rtx_value (ps ++ [(n, v)]) (Some {| rtx_apt := x; rtx_time := None |})
| rtx_time_ : forall ps r n v x, rtx_value ps (Some r) -> means_upper n "RTX-TIME" ->
    numeral u32_max v x ->
    rtx_value (ps ++ [(n, v)]) (Some {| rtx_apt := rtx_apt r; rtx_time := Some x |})
| rtx_other : forall ps r n v, rtx_value ps r -> ~ means_upper n "APT" ->
    ~ means_upper n "RTX-TIME" -> rtx_value (ps ++ [(n, v)]) r.
Definition fmtp_list_value (tokens : list str) (p : fmtp_params) : Prop :=
  exists ps, Forall2 (fun t nv => cut 61 t (fst nv) (snd nv)) tokens ps /\
  let num name default := field_of (fun n => means_upper n name) ps (numeral u32_max) default in
  let flag name := field_of (fun n => means_upper n name) ps flag_numeral false in
  let opt name max := option_field (fun n => means_upper n name) ps (numeral max) in
  field_of (fun n => means_upper n "PROFILE-LEVEL-ID") ps (hex_numeral 16777215)
    (66 * 65536 + 10) (profile_level_id p) /\
  field_of (fun n => means_upper n "PACKETIZATION-MODE") ps (numeral 2) 0 (packetization_mode p) /\
  flag "LEVEL-ASYMMETRY-ALLOWED"%string (level_asymmetry_allowed p) /\
  num "MAX-MBPS"%string 0 (max_mbps p) /\ num "MAX-FS"%string 0 (max_fs p) /\
  num "MAX-CPB"%string 0 (max_cpb p) /\ num "MAX-DPB"%string 0 (max_dpb p) /\
  num "MAX-BR"%string 0 (max_br p) /\ num "MAX-FR"%string 0 (max_fr p) /\
  opt "PROFILE"%string 2 (profile p) /\ opt "LEVEL-IDX"%string 31 (level_idx p) /\
  opt "TIER"%string 1 (tier p) /\
  num "MAXPLAYBACKRATE"%string 48000 (maxplaybackrate p) /\
  num "MAXAVERAGEBITRATE"%string 0 (maxaveragebitrate p) /\
  num "PTIME"%string 0 (ptime p) /\ num "MAXPTIME"%string 0 (maxptime p) /\
  num "MINPTIME"%string 0 (minptime p) /\
  flag "USEDTX"%string (usedtx p) /\ flag "STEREO"%string (stereo p) /\
  flag "USEINBANDFEC"%string (useinbandfec p) /\ flag "CBR"%string (cbr p) /\
  rtx_value ps (rtx p) /\ encodings p = [] /\ dtmf_tones p = [] /\
  exists us, others (fun n => Exists (means_upper n) fmtp_names) ps us /\
             unknown_tokens p = map (fun nv => fst nv ++ 61 :: snd nv) us.

(** A telephone event: a number up to 100 or an ascending range of such numbers. *)
Definition tone (t : str) : Prop :=
  (exists n, numeral 100 t n) \/
  exists a b x y, cut 45 t a b /\ numeral 100 a x /\ numeral 100 b y /\ x < y.
Definition tones (t : str) : Prop := exists ts, fields 44 t ts /\ Forall tone ts.
Definition fmtp_block_value (t : str) (p : fmtp_params) : Prop :=
  (In 61 t /\ exists ts, fields 59 t ts /\
     fmtp_list_value (filter (fun x => match x with [] => false | _ => true end) ts) p) \/
  (~ In 61 t /\ In 47 t /\ exists ts, fields 47 t ts /\ Forall2 (numeral 128) ts (encodings p) /\
     p = set_encodings (encodings p) fmtp_defaults) \/
  (~ In 61 t /\ ~ In 47 t /\ p = set_dtmf_tones (dtmf_tones p) fmtp_defaults /\
     ((tones t /\ dtmf_tones p = t) \/ (~ tones t /\ dtmf_tones p = lit "0-15"))).
Definition fmtp_value (v : str) (f : fmtp) : Prop :=
  exists t pt block, core v t /\ cut 32 t pt block /\
    numeral u8_max pt (fmtp_payload_type f) /\ fmtp_block_value block (fmtp_parameters f).

(** ** rid *)
Definition rid_names : list string :=
  ["max-width"; "max-height"; "max-fps"; "max-fs"; "max-br"; "max-pps"; "depends"]%string.
Definition rid_params_value (params : list str) (p : rid_params) (depends : list str) : Prop :=
  exists ps, Forall2 (fun t nv => cut 61 t (fst nv) (snd nv)) params ps /\
  let num name := field_of (fun n => is_word n name) ps (numeral u32_max) 0 in
  num "max-width"%string (max_width p) /\ num "max-height"%string (max_height p) /\
  num "max-fps"%string (max_fps p) /\ num "max-fs"%string (rid_max_fs p) /\
  num "max-br"%string (rid_max_br p) /\ num "max-pps"%string (max_pps p) /\
  (exists vs ds, given (fun n => is_word n "depends") ps vs /\ Forall2 (fields 44) vs ds /\
                 depends = List.concat ds) /\
  exists us, others (fun n => Exists (is_word n) rid_names) ps us /\
             rid_unknown p = map (fun nv => fst nv ++ 61 :: snd nv) us.
Definition rid_value (v : str) (r : rid) : Prop :=
  exists t dir more, core v t /\ space_parts 3 t (rid_id r :: dir :: more) /\
    is_word dir (single_direction_name (rid_direction r)) /\
    match more with
    | [] => rid_formats r = [] /\ rid_params_value [] (rid_params_of r) (rid_depends r)
    | params :: _ => exists ps, fields 59 params ps /\
        ((exists pts fs rest, ps = (lit "pt=" ++ pts) :: rest /\ fields 44 pts fs /\
            Forall2 (fun f n => exists x, core f x /\ numeral u16_max x n) fs (rid_formats r) /\
            rid_params_value rest (rid_params_of r) (rid_depends r)) \/
         ((forall x rest, ps <> (lit "pt=" ++ x) :: rest) /\ rid_formats r = [] /\
            rid_params_value ps (rid_params_of r) (rid_depends r)))
    end.

(** ** imageattr *)
(** Pieces are joined until as many of them opened as closed a bracket. *)
Definition weight (t : str) : Z :=
  (if contains 91 t then 1 else 0) - (if contains 93 t then 1 else 0).
Definition balance (l : list str) : Z := fold_right (fun t z => (weight t + z)%Z) 0%Z l.
Definition open_group (l : list str) : Prop :=
  forall p q, l = p ++ q -> p <> [] -> balance p <> 0%Z.
Definition closed_group (l : list str) : Prop :=
  exists init t, l = init ++ [t] /\ open_group init /\ balance l = 0%Z.
Definition bracket_tokens (sep : N) (s : str) (tokens : list str) : Prop :=
  exists groups left, fields sep s (List.concat groups ++ left) /\
    Forall closed_group groups /\ open_group left /\ tokens = map (join [sep]) groups.
Definition braced (s inner : str) : Prop := s = [91] ++ inner ++ [93].
Definition xy_value (s : str) (r : xy_range) : Prop :=
  (exists n, numeral u32_max s n /\ r = XyDiscrete [n]) \/
  exists inner, braced s inner /\
    ((exists a b c x y z, fields 58 inner [a; b; c] /\ numeral u32_max a x /\
        numeral u32_max b z /\ numeral u32_max c y /\ r = XyRange x y (Some z)) \/
     (exists a b x y, fields 58 inner [a; b] /\ numeral u32_max a x /\ numeral u32_max b y /\
        r = XyRange x y None) \/
     (exists ts l, fields 44 inner ts /\ Forall2 (numeral u32_max) ts l /\
        (2 <= List.length l)%nat /\ r = XyDiscrete l)).
Definition float_range (inner : str) (x y : f32) : Prop :=
  exists a b, fields 45 inner [a; b] /\ parse_f32 a = Ok x /\ parse_f32 b = Ok y /\
              f32_ge x y = false.
Fixpoint ascends (x : f32) (l : list f32) : Prop :=
  match l with [] => True | y :: l' => f32_ge x y = false /\ ascends y l' end.
(** A bracketed value with neither '-' nor ',' is ignored. *)
Definition sar_value (s : str) (r : option s_range) : Prop :=
  ((forall x, s <> 91 :: x) /\ exists x, parse_f32 s = Ok x /\ r = Some (SDiscrete [x])) \/
  exists inner, braced s inner /\
    ((In 45 inner /\ exists x y, float_range inner x y /\ r = Some (SRange x y)) \/
     (~ In 45 inner /\ In 44 inner /\ exists ts l, fields 44 inner ts /\
        Forall2 (fun t x => parse_f32 t = Ok x) ts l /\ ascends 0 l /\ r = Some (SDiscrete l)) \/
     (~ In 45 inner /\ ~ In 44 inner /\ r = None)).
Definition par_value (s : str) (r : p_range) : Prop :=
  exists inner, braced s inner /\ float_range inner (par_min r) (par_max r).
(** The values given with a prefix. *)
Inductive prefixed (prefix : str) : list str -> list str -> Prop :=
| prefixed_nil : prefixed prefix [] []
| prefixed_here : forall v l vs, prefixed prefix l vs -> prefixed prefix ((prefix ++ v) :: l) (v :: vs)
| prefixed_other : forall t l vs, (forall v, t <> prefix ++ v) -> prefixed prefix l vs ->
    prefixed prefix (t :: l) vs.
Definition somes {A} (l : list (option A)) : list A :=
  flat_map (fun o => match o with Some x => [x] | None => [] end) l.
Definition image_set_value (s : str) (x : image_set) : Prop :=
  exists inner xt yt opts, braced s inner /\
    bracket_tokens 44 inner ((lit "x=" ++ xt) :: (lit "y=" ++ yt) :: opts) /\
    xy_value xt (set_x x) /\ xy_value yt (set_y x) /\
    (exists vs rs, prefixed (lit "sar=") opts vs /\ Forall2 sar_value vs rs /\
                   set_sar x = last_of (somes rs)) /\
    (exists vs rs, prefixed (lit "par=") opts vs /\ Forall2 par_value vs rs /\
                   set_par x = last_of rs) /\
    (exists vs rs, prefixed (lit "q=") opts vs /\
                   Forall2 (fun t y => parse_f32 t = Ok y) vs rs /\ set_q x = last_of rs).
Definition image_list_value (ts : list str) (l : image_set_list) : Prop :=
  (ts = [lit "*"] /\ l = SetsWildcard) \/
  (ts <> [] /\ exists sets, Forall2 image_set_value ts sets /\ l = Sets sets).
Definition image_attr_value (v : str) (a : image_attr) : Prop :=
  exists t pt d first more dir l1 l2, core v t /\ bracket_tokens 32 t (pt :: d :: first ++ more) /\
    payload_value pt (img_pt a) /\ is_word d (single_direction_name dir) /\
    image_list_value first l1 /\
    match more with
    | [] => l2 = Sets []
    | d2 :: second =>
        is_word d2 (single_direction_name (match dir with Send => Recv | Recv => Send end)) /\
        image_list_value second l2
    end /\
    match dir with
    | Send => img_send a = l1 /\ img_recv a = l2
    | Recv => img_send a = l2 /\ img_recv a = l1
    end.

(** ** All attributes: what the text after the colon means *)
Definition number_value (max : N) (v : str) (n : N) : Prop :=
  exists t, core v t /\ numeral max t n.
Definition text_value (v t : str) : Prop := core v t /\ t <> [].
Definition attr_value (v : str) (a : attr) : Prop :=
  match a with
  | ABundleOnly | AEndOfCandidates | AExtmapAllowMixed | AIceLite | AIceMismatch | AInactive
  | ARecvonly | ARtcpMux | ARtcpMuxOnly | ARtcpRsize | ASendonly | ASendrecv => False
  | ACandidate x => candidate_value v x
  | ADtlsMessage x => dtls_value v x
  | AExtmap x => extmap_value v x
  | AFingerprint x => fingerprint_value v x
  | AFmtp x => fmtp_value v x
  | AFrameRate x => framerate_value v x
  | AGroup x => group_value v x
  | AIceOptions x => words v x /\ x <> []
  | AIcePacing n => number_value 9999999999 v n
  | AIcePwd t | AIceUfrag t | AIdentity t | ALabel t | AMid t => text_value v t
  | AImageAttr x => image_attr_value v x
  | AMaxMessageSize n | AMaxPtime n | APtime n => number_value u64_max v n
  | AMsid x => msid_value v x
  | AMsidSemantic x => msid_semantic_value v x
  | ARid x => rid_value v x
  | ARemoteCandidate x => remote_candidate_value v x
  | ARtpmap x => rtpmap_value v x
  | ARtcp x => rtcp_value v x
  | ARtcpfb x => rtcp_fb_value v x
  | ASctpmap x => sctpmap_value v x
  | ASctpPort n => number_value 65535 v n
  | ASetup x => exists t, core v t /\ means t (setup_name x)
  | ASimulcast x => simulcast_value v x
  | ASsrc x => ssrc_line_value v x
  | ASsrcGroup sem l => ssrc_group_value v sem l
  end.
(** A flag is its name alone; any other attribute is its name, a colon and a
    value.  (A name alone is read as having the empty value.) *)
Definition flag_attribute (a : attr) : Prop :=
  match a with
  | ABundleOnly | AEndOfCandidates | AExtmapAllowMixed | AIceLite | AIceMismatch | AInactive
  | ARecvonly | ARtcpMux | ARtcpMuxOnly | ARtcpRsize | ASendonly | ASendrecv => True
  | _ => False
  end.
Definition attribute_value (v : str) (a : attr) : Prop :=
  exists t, core v t /\
    ((~ In 58 t /\ means t (sdp_name a) /\ (flag_attribute a \/ attr_value [] a)) \/
     (exists name rest, cut 58 t name rest /\ means name (sdp_name a) /\ attr_value rest a)).

(** ** All lines *)
Definition line_letter (ty : sdp_type) : N :=
  match ty with
  | TyAttribute _ => 97 | TyBandwidth _ => 98 | TyConnection _ => 99 | TyMedia _ => 109
  | TyOrigin _ => 111 | TySession _ => 115 | TyTiming _ => 116 | TyVersion _ => 118
  end.
Definition type_value (v : str) (ty : sdp_type) : Prop :=
  match ty with
  | TyAttribute a => attribute_value v a
  | TyBandwidth b => bandwidth_value v b
  | TyConnection c => connection_value v c
  | TyMedia m => media_line_value v m
  | TyOrigin o => origin_value v o
  | TySession s => v = s
  | TyTiming t => timing_value v t
  | TyVersion n => version_value v n
  end.
(** The brackets of an imageattr are counted with an i32. *)
Definition countable (ty : sdp_type) (length : nat) : Prop :=
  match ty with TyAttribute (AImageAttr _) => (Z.of_nat length < 2147483648)%Z | _ => True end.
Definition line_means (line : str) (ty : sdp_type) : Prop :=
  exists w1 c w2 v, line = w1 ++ [c] ++ w2 ++ 61 :: v /\ blank w1 /\ blank w2 /\
    same_letter c (line_letter ty) /\ type_value v ty.
(** ** Texts without unsupported lines *)
Inductive lines_mean : list str -> list sdp_type -> Prop :=
| lines_mean_nil : lines_mean [] []
| lines_mean_blank : forall line rest ts, blank line -> lines_mean rest ts ->
    lines_mean (line :: rest) ts
| lines_mean_line : forall line rest ty ts, ~ blank line -> line_means line ty ->
    lines_mean rest ts -> lines_mean (line :: rest) (ty :: ts).
End WithExt.

(** Two upper-case hexadecimal digits. *)
Definition hex_pair (n : N) : str :=
  let digit d := if d <? 10 then 48 + d else 55 + d in [digit (n / 16); digit (n mod 16)].

(** ** Reordering fmtp parameters (C21) *)
Definition fmtp_parameter_named (token : str) (names : list string) : Prop :=
  exists n v, cut 61 token n v /\ Exists (means_upper n) names.
(** Two parameters that do not interact: not two unknown ones, not two of the
    same name, not two of apt and rtx-time. *)
Definition independent (a b : str) : Prop :=
  In 61 a /\ In 61 b /\
  (fmtp_parameter_named a fmtp_names \/ fmtp_parameter_named b fmtp_names) /\
  (forall x, In x fmtp_names ->
     ~ (fmtp_parameter_named a [x] /\ fmtp_parameter_named b [x])) /\
  ~ (fmtp_parameter_named a ["APT"; "RTX-TIME"]%string /\
     fmtp_parameter_named b ["APT"; "RTX-TIME"]%string).
Inductive reordered : list str -> list str -> Prop :=
| reordered_same : forall l, reordered l l
| reordered_swap : forall l a b r, independent a b -> reordered (l ++ a :: b :: r) (l ++ b :: a :: r)
| reordered_trans : forall x y z, reordered x y -> reordered y z -> reordered x z.

(** ** Equality of addresses (C34) *)
Definition same_address (a b : address) : Prop :=
  match a, b with
  | Fqdn x, Fqdn y => recased x y
  | Ip x, Ip y => x = y
  | _, _ => False
  end.
Definition same_typed_address (a b : typed_address) : Prop :=
  match a, b with
  | TFqdn t x, TFqdn u y => t = u /\ recased x y
  | TIp x, TIp y => x = y
  | _, _ => False
  end.
Definition ascii_name (a : address) : Prop :=
  match a with Fqdn d => Forall (fun c => c < 128) d | Ip _ => True end.
Definition ascii_typed_name (a : typed_address) : Prop :=
  match a with TFqdn _ d => Forall (fun c => c < 128) d | TIp _ => True end.
