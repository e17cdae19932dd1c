(** * Theorems about single lines: C13, C14, C16, C18, C20, C36, C42, C44, C47

    The grammars ([line_means], [media_line_value], [numeral], [words], ...) are
    in SpecVal.v. *)
From Coq Require Import List NArith ZArith Bool Ascii String.
From Verif Require Import Str Num Net Types Ext Show Address AttrParse Media Session.
From Verif Require Import SpecApi SpecDoc SpecVal NetLemmas PVal PVal2 PVal8 PVal9 PropDoc.
Import ListNotations.
Open Scope N_scope.
Open Scope list_scope.

(** ** C47: what every line means *)
Theorem C47_accepted_line_means : forall (E : Ext) line n l,
  parse_sdp_line line n = Ok l ->
  l_number l = n /\ l_text l = line /\ line_means line (l_type l).
Proof. exact @line_fwd. Qed.

Theorem C47_accepted_lines : forall (E : Ext) line n l,
  countable (l_type l) (List.length line) ->
  (parse_sdp_line line n = Ok l <->
   l_number l = n /\ l_text l = line /\ line_means line (l_type l)).
Proof. exact @line_iff. Qed.

Theorem C47_one_meaning : forall (E : Ext) line a b,
  countable a (List.length line) -> countable b (List.length line) ->
  line_means line a -> line_means line b -> a = b.
Proof. exact @line_means_fun. Qed.

(** Strict parsing as a whole. *)
Theorem C47_strict_documents : forall (E : Ext) d s,
  doc_ok d -> (Z.of_nat (List.length (doc_text d)) < 2147483648)%Z ->
  (parse_sdp (doc_text d) true = Ok s <->
   51 <= byte_len (doc_text d) /\ s_warnings s = [] /\
   exists ts, lines_mean (doc_lines d) ts /\ (4 <= List.length ts)%nat /\
              Assembles ts s /\ structural s).
Proof. exact @strict_document. Qed.

Ltac line_example :=
  intros E; match goal with |- line_means ?line ?ty =>
    refine (proj2 (proj2 (C47_accepted_line_means E line 0 {| l_number := 0; l_type := ty; l_text := line |} _)));
    vm_compute; reflexivity
  end.
Example C47_example_rtpmap : forall E : Ext,
  line_means (lit "A = Rtpmap:+109 opus/48000/2 ")
    (TyAttribute (ARtpmap {| rm_payload_type := 109; rm_codec_name := lit "opus";
                             rm_frequency := 48000; rm_channels := Some 2 |})).
Proof. line_example. Qed.
Example C47_example_imageattr : forall E : Ext,
  line_means (lit "a=imageattr:* recv * send [x=[320:16:640],y=240] [x=1,y=[2,3]]")
    (TyAttribute (AImageAttr
       {| img_pt := Wildcard;
          img_send := Sets [{| set_x := XyRange 320 640 (Some 16); set_y := XyDiscrete [240];
                               set_sar := None; set_par := None; set_q := None |};
                            {| set_x := XyDiscrete [1]; set_y := XyDiscrete [2; 3];
                               set_sar := None; set_par := None; set_q := None |}];
          img_recv := SetsWildcard |})).
Proof. line_example. Qed.
Example C47_example_rid : forall E : Ext,
  line_means (lit "a=rid:hi send pt=97,98;max-width=1;foo=2;depends=a,b;max-width=3")
    (TyAttribute (ARid
       {| rid_id := lit "hi"; rid_direction := Send; rid_formats := [97; 98];
          rid_params_of := {| max_width := 3; max_height := 0; max_fps := 0; rid_max_fs := 0;
                              rid_max_br := 0; max_pps := 0; rid_unknown := [lit "foo=2"] |};
          rid_depends := [lit "a"; lit "b"] |})).
Proof. line_example. Qed.
Example C47_example_document : forall E : Ext,
  let d := {| d_lines := map (fun x => (x, CRLF)) (ex_head ++ ex_video); d_last := [] |} in
  doc_ok d /\ exists s, parse_sdp (doc_text d) true = Ok s /\
  exists ts, lines_mean (doc_lines d) ts /\ Assembles ts s.
Proof.
  intros E d.
  assert (D : doc_ok d).
  { split; [|intros []]. repeat (constructor; [split; [|exact I]; cbn; intuition discriminate|]).
    constructor. }
  split; [exact D|].
  assert (P : exists s, parse_sdp (doc_text d) true = Ok s) by (eexists; vm_compute; reflexivity).
  destruct P as [s P]. exists s. split; [exact P|].
  apply (C47_strict_documents E d s D eq_refl) in P.
  destruct P as (_ & _ & ts & M & _ & A & _). exists ts. auto.
Qed.

(** ** C13: IP addresses *)
Theorem C13_text_reads_back : forall a : ip, ip_ok a -> parse_ip (show_ip a) = Some a.
Proof. exact parse_show_ip. Qed.

Theorem C13_texts_differ : forall a b : ip, ip_ok a -> ip_ok b -> show_ip a = show_ip b -> a = b.
Proof. exact show_ip_inj. Qed.

Theorem C13_parsed_in_range : forall s a, parse_ip s = Some a -> ip_ok a.
Proof. exact parse_ip_ok. Qed.

(** Through the address parser, which hands an IPv4 address to the URL host
    parser, and in a whole line. *)
Theorem C13_address_reads_back : forall E : Ext, ext_ok E -> forall a n, ip_ok a ->
  address_from_str (show_ip a) = Ok (Ip a) /\
  parse_sdp_line (lit "c=" ++ show_typed_address (TIp a)) n =
    Ok {| l_number := n;
          l_type := TyConnection {| conn_address := TIp a; conn_ttl := None; conn_amount := None |};
          l_text := lit "c=" ++ show_typed_address (TIp a) |}.
Proof.
  intros E X a n H. split; [exact (address_printed X a H) | exact (connection_printed X a n H)].
Qed.

Example C13_example :
  show_ip (V6 (2 ^ 112 * 8193 + 2 ^ 32 * 1)) = lit "2001::1:0:0" /\
  show_ip (V6 (65535 * 2 ^ 32 + 127 * 2 ^ 24 + 1)) = lit "::ffff:127.0.0.1" /\
  show_ip (V4 4294967295) = lit "255.255.255.255" /\
  parse_ip (lit "1:0:0:2:0:0:0:3") = parse_ip (lit "1:0:0:2::3") /\ parse_ip (lit "1::2::3") = None.
Proof. vm_compute. repeat split. Qed.

(** ** C14: integers *)
Theorem C14_integers_exact : forall max s n, parse_uint 10 max s = Ok n <-> numeral max s n.
Proof. intros max s n. symmetry. apply numeral_iff. Qed.

Theorem C14_printed_integers : forall max n, n <= max ->
  numeral max (show_N n) n /\ parse_uint 10 max (show_N n) = Ok n.
Proof.
  intros max n H. split; [exact (numeral_printed max n H) | apply numeral_iff, numeral_printed, H].
Qed.

Theorem C14_number_attributes : forall (E : Ext) v n l (c : N -> attr) name max,
  In (c, name, max) [(AMaxMessageSize, lit "max-message-size", u64_max); (APtime, lit "ptime", u64_max);
                     (AMaxPtime, lit "maxptime", u64_max); (ASctpPort, lit "sctp-port", 65535);
                     (AIcePacing, lit "ice-pacing", 9999999999)] ->
  (parse_sdp_line (lit "a=" ++ name ++ 58 :: v) n = Ok l <->
   exists x, number_value max v x /\
     l = {| l_number := n; l_type := TyAttribute (c x); l_text := lit "a=" ++ name ++ 58 :: v |}).
Proof. exact @number_lines. Qed.

Theorem C14_timing_lines : forall (E : Ext) v n l,
  parse_sdp_line (lit "t=" ++ v) n = Ok l <->
  exists x, timing_value v x /\
    l = {| l_number := n; l_type := TyTiming x; l_text := lit "t=" ++ v |}.
Proof. exact @timing_line_iff. Qed.

Example C14_example :
  numeral u8_max (lit "+007") 7 /\ numeral u8_max (lit "255") 255 /\
  ~ (exists n, numeral u8_max (lit "256") n) /\ ~ (exists n, numeral u8_max (lit "-1") n) /\
  ~ (exists n, numeral u8_max (lit "") n) /\ ~ (exists n, numeral u8_max (lit "++1") n).
Proof.
  split; [apply numeral_iff; reflexivity|]. split; [apply numeral_iff; reflexivity|].
  repeat split; intros (n & H); apply numeral_iff in H; vm_compute in H; discriminate.
Qed.

(** ** C16: m= lines *)
Theorem C16_media_lines : forall (E : Ext) v n l,
  parse_sdp_line (lit "m=" ++ v) n = Ok l <->
  exists m, media_line_value v m /\
    l = {| l_number := n; l_type := TyMedia m; l_text := lit "m=" ++ v |}.
Proof. exact @media_line_iff. Qed.

Ltac value_example C iff :=
  match goal with |- ?value ?v ?x =>
    let K := fresh in
    assert (K : exists y, C x = C y /\ value v y) by (apply iff; vm_compute; reflexivity);
    let y := fresh in let H := fresh in
    destruct K as (y & K & H); injection K as K; rewrite K; exact H
  end.
Example C16_example :
  media_line_value (lit " AUDIO 9/2 udp/TLS/RTP/SAVPF 109 +9 0")
    {| ml_media := Audio; ml_port := 9; ml_port_count := 2; ml_proto := UdpTlsRtpSavpf;
       ml_formats := Integers [109; 9; 0] |} /\
  forall m, ~ media_line_value (lit "audio 9 RTP/AVP 64") m /\ ~ media_line_value (lit "audio 65536 RTP/AVP 0") m /\
            ~ media_line_value (lit "audio 9 RTP/AVP") m.
Proof.
  split; [value_example TyMedia media_iff|].
  intro m. repeat split; intro H;
    (assert (K : parse_media (trim (lit "audio 9 RTP/AVP 64")) = Ok (TyMedia m) \/
                 parse_media (trim (lit "audio 65536 RTP/AVP 0")) = Ok (TyMedia m) \/
                 parse_media (trim (lit "audio 9 RTP/AVP")) = Ok (TyMedia m));
     [rewrite !media_iff; eauto 6 | vm_compute in K; intuition discriminate]).
Qed.

(** ** C18: fingerprints *)
Theorem C18_fingerprint_lines : forall (E : Ext) v n l,
  parse_sdp_line (lit "a=fingerprint:" ++ v) n = Ok l <->
  exists f, fingerprint_value v f /\
    l = {| l_number := n; l_type := TyAttribute (AFingerprint f); l_text := lit "a=fingerprint:" ++ v |}.
Proof. exact @fingerprint_line_iff. Qed.

Theorem C18_printed_fingerprint : forall (E : Ext) f,
  List.length (fp_bytes f) = hash_octets (fp_hash f) -> Forall (fun b => b <= 255) (fp_bytes f) ->
  show_attr (AFingerprint f) =
    lit "fingerprint:" ++ of_string (hash_name (fp_hash f)) ++ [32] ++
    join [58] (map hex_pair (fp_bytes f)) /\
  forall n, exists text, parse_sdp_line (lit "a=" ++ show_attr (AFingerprint f)) n =
    Ok {| l_number := n; l_type := TyAttribute (AFingerprint f); l_text := text |}.
Proof.
  intros E f L F. split; [apply (@fingerprint_printed E f L F)|].
  intro n. exact (@fingerprint_reparsed E f n L F).
Qed.

Example C18_example : forall E : Ext,
  (exists l, parse_sdp_line (lit "a=fingerprint:sha-1 CD:34:D1:62:16:95:7B:B7:EB:74:E2:39:27:97:EB:0B:23:73:AC:BC") 0 = Ok l) /\
  (exists l, parse_sdp_line (lit "a=fingerprint:sha-1 +A:34:D1:62:16:95:7B:B7:EB:74:E2:39:27:97:EB:0B:23:73:AC:bc") 0 = Ok l) /\
  (exists e, parse_sdp_line (lit "a=fingerprint:sha-1 CD:34:D1:62:16:95:7B:B7:EB:74:E2:39:27:97:EB:0B:23:73:AC") 0 = Err e).
Proof. intro E. repeat split; eexists; vm_compute; reflexivity. Qed.

(** ** C20: telephone events *)
Theorem C20_tones : forall (E : Ext) pt n block k,
  numeral u8_max pt n -> core block block -> block <> [] -> ~ In 61 block -> ~ In 47 block ->
  forall x, (tones block /\ x = block) \/ (~ tones block /\ x = lit "0-15") ->
  parse_sdp_line (lit "a=fmtp:" ++ pt ++ 32 :: block) k =
    Ok {| l_number := k;
          l_type := TyAttribute (AFmtp {| fmtp_payload_type := n;
                                          fmtp_parameters := set_dtmf_tones x fmtp_defaults |});
          l_text := lit "a=fmtp:" ++ pt ++ 32 :: block |}.
Proof. exact @tones_line. Qed.

Theorem C20_tones_decided : forall t, tones t \/ ~ tones t.
Proof. exact tones_dec. Qed.

Definition tones_of (l : res perr sdp_line) : option str :=
  match l with
  | Ok {| l_type := TyAttribute (AFmtp f) |} => Some (dtmf_tones (fmtp_parameters f))
  | _ => None
  end.
Example C20_example : forall E : Ext,
  tones_of (parse_sdp_line (lit "a=fmtp:101 0-15,66,70-100") 0) = Some (lit "0-15,66,70-100") /\
  tones_of (parse_sdp_line (lit "a=fmtp:101 15-0") 0) = Some (lit "0-15") /\
  tones_of (parse_sdp_line (lit "a=fmtp:101 0-101") 0) = Some (lit "0-15") /\
  tones_of (parse_sdp_line (lit "a=fmtp:101 garbage") 0) = Some (lit "0-15").
Proof. intro E. vm_compute. repeat split. Qed.

(** ** C36: flags take no value, other attributes need one *)
Theorem C36_flags : forall (E : Ext) a name n,
  flag_attribute a -> means name (sdp_name a) -> ~ In 58 name -> core name name ->
  parse_sdp_line (lit "a=" ++ name) n =
    Ok {| l_number := n; l_type := TyAttribute a; l_text := lit "a=" ++ name |} /\
  forall v l, parse_sdp_line (lit "a=" ++ name ++ 58 :: v) n <> Ok l.
Proof. exact @flag_line. Qed.

Theorem C36_values_needed : forall (E : Ext) a name n v l,
  ~ flag_attribute a -> means name (sdp_name a) -> ~ In 58 name -> core name name ->
  (forall x, parse_f64 [] <> Ok x) -> blank v ->
  parse_sdp_line (lit "a=" ++ name) n <> Ok l /\
  parse_sdp_line (lit "a=" ++ name ++ 58 :: v) n <> Ok l.
Proof. exact @value_line. Qed.

Example C36_example : forall E : Ext,
  (exists l, parse_sdp_line (lit "a=RTCP-mux") 0 = Ok l) /\
  (exists e, parse_sdp_line (lit "a=rtcp-mux:") 0 = Err (PLine e (lit "a=rtcp-mux:") 0)) /\
  (exists l, parse_sdp_line (lit "a=mid:x") 0 = Ok l) /\
  (exists e, parse_sdp_line (lit "a=mid: ") 0 = Err (PLine e (lit "a=mid: ") 0)) /\
  (exists e, parse_sdp_line (lit "a=mid") 0 = Err (PLine e (lit "a=mid") 0)).
Proof. intro E. repeat split; eexists; vm_compute; reflexivity. Qed.

(** ** C42: simulcast *)
Theorem C42_simulcast_lines : forall (E : Ext) v n l,
  parse_sdp_line (lit "a=simulcast:" ++ v) n = Ok l <->
  exists s, simulcast_value v s /\
    l = {| l_number := n; l_type := TyAttribute (ASimulcast s); l_text := lit "a=simulcast:" ++ v |}.
Proof. exact @simulcast_line_iff. Qed.

Theorem C42_either_order : forall (E : Ext) v w a b s n,
  words v [lit "send"; a; lit "recv"; b] -> words w [lit "recv"; b; lit "send"; a] ->
  (parse_sdp_line (lit "a=simulcast:" ++ v) n =
     Ok {| l_number := n; l_type := TyAttribute (ASimulcast s); l_text := lit "a=simulcast:" ++ v |} <->
   parse_sdp_line (lit "a=simulcast:" ++ w) n =
     Ok {| l_number := n; l_type := TyAttribute (ASimulcast s); l_text := lit "a=simulcast:" ++ w |}).
Proof. exact @simulcast_swap_line. Qed.

Theorem C42_same_direction_twice : forall (E : Ext) v d a b more n l,
  words v (d :: a :: d :: b :: more) -> parse_sdp_line (lit "a=simulcast:" ++ v) n <> Ok l.
Proof. exact @simulcast_twice. Qed.

Example C42_example : forall E : Ext,
  parse_sdp_line (lit "a=simulcast:recv rid=a,~b;~~c send x") 0 =
    Ok {| l_number := 0;
          l_type := TyAttribute (ASimulcast
            {| sim_send := [[{| sid_id := lit "x"; sid_paused := false |}]];
               sim_receive := [[{| sid_id := lit "a"; sid_paused := false |};
                                {| sid_id := lit "b"; sid_paused := true |}];
                               [{| sid_id := lit "~c"; sid_paused := true |}]] |});
          l_text := lit "a=simulcast:recv rid=a,~b;~~c send x" |}.
Proof. intro E. vm_compute. reflexivity. Qed.

(** ** C44: c= and o= lines *)
Theorem C44_connection_lines : forall (E : Ext) v n l,
  parse_sdp_line (lit "c=" ++ v) n = Ok l <->
  exists c, connection_value v c /\
    l = {| l_number := n; l_type := TyConnection c; l_text := lit "c=" ++ v |}.
Proof. exact @connection_line_iff. Qed.

Theorem C44_origin_lines : forall (E : Ext) v n l,
  parse_sdp_line (lit "o=" ++ v) n = Ok l <->
  exists o, origin_value v o /\
    l = {| l_number := n; l_type := TyOrigin o; l_text := lit "o=" ++ v |}.
Proof. exact @origin_line_iff. Qed.

Example C44_example : forall E : Ext,
  connection_value (lit " in Ip6 ff02::1/255/3")
    {| conn_address := TIp (V6 338963523518870617245727861364146307073); conn_ttl := Some 255; conn_amount := Some 3 |} /\
  origin_value (lit "me 1 2 IN IP6 ::1 ignored")
    {| o_username := lit "me"; o_session_id := 1; o_session_version := 2; o_unicast_addr := TIp (V6 1) |} /\
  (exists e, parse_sdp_line (lit "c=IN IP4 ::1") 0 = Err e) /\
  (exists e, parse_sdp_line (lit "c=IN IP6 ::1/256") 0 = Err e) /\
  (exists e, parse_sdp_line (lit "o=- 1 2 IN IP6") 0 = Err e).
Proof.
  intro E. split; [|split].
  - value_example TyConnection connection_iff.
  - value_example TyOrigin origin_iff.
  - repeat split; eexists; vm_compute; reflexivity.
Qed.

(** Assumptions of everything above. *)
Definition theorems :=
  (C47_accepted_line_means, C47_accepted_lines, C47_one_meaning, C47_strict_documents,
   C13_text_reads_back, C13_texts_differ, C13_parsed_in_range, C13_address_reads_back,
   C14_integers_exact, C14_printed_integers, C14_number_attributes, C14_timing_lines,
   C16_media_lines, C18_fingerprint_lines, C18_printed_fingerprint, C20_tones, C20_tones_decided,
   C36_flags, C36_values_needed, C42_simulcast_lines, C42_either_order, C42_same_direction_twice,
   C44_connection_lines, C44_origin_lines).
Print Assumptions theorems.
