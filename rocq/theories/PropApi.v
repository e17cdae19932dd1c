(** * Theorems about the construction API: C22-C25

    The vocabulary ([sdp_name], [media_names], [session_names], [built_media],
    [built_session], [named], ...) is in SpecApi.v. *)
From Coq Require Import List NArith Bool Ascii String.
From Verif Require Import Str Num Net Types Ext Media Session SpecApi PApi.
Import ListNotations.
Open Scope N_scope.
Open Scope list_scope.

(** ** C22: the attributes of a section built by any sequence of calls. *)
Theorem C22_media_attributes : forall (E : Ext) (m : media), built_media m ->
  Forall (fun a => In (sdp_name a) media_names) (m_attribute m) /\
  (forall a, In (sdp_name a) media_names ->
     add_attribute a m = (with_attrs m (m_attribute m ++ [a]), Ok tt) /\
     set_attribute a m =
       (with_attrs m (filter (not_named (sdp_name a)) (m_attribute m) ++ [a]), Ok tt) /\
     get_attributes_of_type (attr_type_of a) (fst (set_attribute a m)) = [a]) /\
  (forall a, ~ In (sdp_name a) media_names ->
     (exists e, add_attribute a m = (m, Err e)) /\ (exists e, set_attribute a m = (m, Err e))) /\
  (forall t, remove_attribute t m =
     with_attrs m (filter (not_named (type_name t)) (m_attribute m)) /\
     get_attribute t (remove_attribute t m) = None) /\
  (forall t, get_attributes_of_type t m = filter (named (type_name t)) (m_attribute m) /\
     get_attribute t m = hd_error (filter (named (type_name t)) (m_attribute m))).
Proof. exact @media_attribute_laws. Qed.
Print Assumptions C22_media_attributes.

(** [attr_type_of] and the names agree, so [t] above ranges over the kinds. *)
Theorem C22_types_are_names : forall (a : attr) (t : attr_type),
  attr_type_of a = t <-> sdp_name a = type_name t.
Proof. exact type_of_name. Qed.
Print Assumptions C22_types_are_names.

Definition ex_line : media_line :=
  {| ml_media := Video; ml_port := 9; ml_port_count := 0; ml_proto := UdpTlsRtpSavpf;
     ml_formats := Integers [96; 97] |}.
Definition ex_vp8 : rtpmap :=
  {| rm_payload_type := 120; rm_codec_name := lit "VP8"; rm_frequency := 90000; rm_channels := None |}.
Definition ex_ops : list media_op :=
  [OpAddAttribute (AMid (lit "v1")); OpAddCodec ex_vp8; OpAddAttribute ARtcpMux;
   OpSetAttribute (AMid (lit "v2")); OpAddAttribute AIceLite; OpAddAttribute (AMid (lit "v3"));
   OpSetPort 12].
Example C22_example : forall E : Ext,
  let m := fold_left (fun m op => run_media_op op m) ex_ops (media_new ex_line) in
  built_media m /\
  m_attribute m = [ARtpmap ex_vp8; ARtcpMux; AMid (lit "v2"); AMid (lit "v3")] /\
  get_attribute TMid m = Some (AMid (lit "v2")) /\
  m_attribute (fst (set_attribute (AMid (lit "v4")) m)) = [ARtpmap ex_vp8; ARtcpMux; AMid (lit "v4")] /\
  snd (set_attribute AIceLite m) <> Ok tt.
Proof.
  intros E m. split; [exists ex_line, ex_ops; reflexivity|]. repeat split. discriminate.
Qed.

(** ** C23: codecs. *)
Theorem C23_remove_codecs : forall m : media,
  m_media (remove_codecs m) =
    with_fmts (m_media m) (match ml_formats (m_media m) with
                           | Integers _ => Integers [] | Strings _ => Strings [] end) /\
  m_connection (remove_codecs m) = m_connection m /\
  m_bandwidth (remove_codecs m) = m_bandwidth m /\
  m_attribute (remove_codecs m) =
    filter (fun a => negb (existsb (String.eqb (sdp_name a))
      ["rtpmap"; "fmtp"; "rtcp-fb"; "sctpmap"; "sctp-port"]%string)) (m_attribute m).
Proof. exact remove_codecs_spec. Qed.
Print Assumptions C23_remove_codecs.

Theorem C23_add_codec : forall (E : Ext) (r : rtpmap) (m : media), exists m',
  add_codec r m = (m', Ok tt) /\
  m_media m' =
    with_fmts (m_media m) (match ml_formats (m_media m) with
                           | Integers x => Integers (x ++ [rm_payload_type r])
                           | Strings x => Strings (x ++ [show_N (rm_payload_type r)]) end) /\
  m_connection m' = m_connection m /\ m_bandwidth m' = m_bandwidth m /\
  m_attribute m' = m_attribute m ++ [ARtpmap r].
Proof. exact @add_codec_spec. Qed.
Print Assumptions C23_add_codec.

Theorem C23_codecs_consistent : forall (E : Ext) (ops : list codec_op) (m : media),
  let m' := fold_left (fun m op => run_codec_op op m) ops (remove_codecs m) in
  rtpmaps m' = codecs_after ops /\
  formats_are (ml_formats (m_media m')) (codecs_after ops) /\
  filter (fun a => negb (is_codec a)) (m_attribute m') =
  filter (fun a => negb (is_codec a)) (m_attribute m).
Proof. exact @codecs_consistent. Qed.
Print Assumptions C23_codecs_consistent.

Definition ex_opus : rtpmap :=
  {| rm_payload_type := 109; rm_codec_name := lit "opus"; rm_frequency := 48000; rm_channels := Some 2 |}.
Example C23_example : forall E : Ext,
  let m := fold_left (fun m op => run_media_op op m) ex_ops (media_new ex_line) in
  let m' := fold_left (fun m op => run_codec_op op m)
              [AddCodec ex_vp8; ClearCodecs; AddCodec ex_opus; AddCodec ex_vp8] (remove_codecs m) in
  ml_formats (m_media m') = Integers [109; 120] /\
  m_attribute m' = [ARtcpMux; AMid (lit "v2"); AMid (lit "v3"); ARtpmap ex_opus; ARtpmap ex_vp8].
Proof. intros E. split; reflexivity. Qed.

(** ** C24: data channels. *)
Theorem C24_add_datachannel : forall (E : Ext) (name : str) (port streams size : N) (m : media),
  exists m', add_datachannel name port streams size m = (m', Ok tt) /\
  let new_style := match ml_proto (m_media m) with UdpDtlsSctp | TcpDtlsSctp => true | _ => false end in
  let sctp := (if new_style then "sctp-port" else "sctpmap")%string in
  m_media m' = {| ml_media := Application; ml_port := ml_port (m_media m);
                  ml_port_count := ml_port_count (m_media m); ml_proto := ml_proto (m_media m);
                  ml_formats := if new_style then Strings [name] else Integers [port] |} /\
  m_connection m' = m_connection m /\ m_bandwidth m' = m_bandwidth m /\
  filter (named sctp) (m_attribute m') =
    [if new_style then ASctpPort port else ASctpmap {| sm_port := port; sm_channels := streams |}] /\
  filter (named "max-message-size") (m_attribute m') =
    (if 0 <? size then [AMaxMessageSize size]
     else filter (named "max-message-size") (m_attribute m)) /\
  (forall n, n <> sctp -> n <> "max-message-size"%string ->
     filter (named n) (m_attribute m') = filter (named n) (m_attribute m)) /\
  filter (fun a => not_named sctp a && not_named "max-message-size" a) (m_attribute m') =
  filter (fun a => not_named sctp a && not_named "max-message-size" a) (m_attribute m).
Proof. exact @add_datachannel_spec. Qed.
Print Assumptions C24_add_datachannel.

(** With size 0 a stale size survives: the section still announces the old limit. *)
Example C24_example : forall E : Ext,
  let m := media_new {| ml_media := Video; ml_port := 9; ml_port_count := 0;
                        ml_proto := UdpDtlsSctp; ml_formats := Strings [] |} in
  let m1 := fst (add_datachannel (lit "a") 5000 256 1000 m) in
  let m2 := fst (add_datachannel (lit "b") 5001 256 0 m1) in
  m_attribute m1 = [ASctpPort 5000; AMaxMessageSize 1000] /\
  m_attribute m2 = [AMaxMessageSize 1000; ASctpPort 5001] /\
  ml_formats (m_media m2) = Strings [lit "b"].
Proof. intros E. repeat split; reflexivity. Qed.

(** ** C25: sessions. *)
Theorem C25_add_media : forall (E : Ext) (mt : media_value) (d : attr) (port : N)
    (proto : protocol_value) (addr : typed_address) (s : session),
  (In (sdp_name d) media_names ->
   add_media mt d port proto addr s =
   (with_session_media s (s_media s ++
      [{| m_media := {| ml_media := mt; ml_port := port; ml_port_count := 1; ml_proto := proto;
                        ml_formats := Integers [] |};
          m_connection := Some {| conn_address := addr; conn_ttl := None; conn_amount := None |};
          m_bandwidth := []; m_attribute := [d] |}]), Ok tt)) /\
  (~ In (sdp_name d) media_names -> exists e, add_media mt d port proto addr s = (s, Err e)).
Proof. exact @add_media_spec. Qed.
Print Assumptions C25_add_media.

Theorem C25_add_attribute : forall (E : Ext) (a : attr) (s : session),
  (In (sdp_name a) session_names ->
   session_add_attribute a s = (with_session_attrs s (s_attribute s ++ [a]), Ok tt)) /\
  (~ In (sdp_name a) session_names -> exists e, session_add_attribute a s = (s, Err e)).
Proof. exact @session_add_attribute_spec. Qed.
Print Assumptions C25_add_attribute.

Theorem C25_built_sessions_are_legal : forall (E : Ext) (s : session), built_session s ->
  Forall (fun a => In (sdp_name a) session_names) (s_attribute s) /\
  Forall (fun m => Forall (fun a => In (sdp_name a) media_names) (m_attribute m)) (s_media s).
Proof. exact @built_session_levels. Qed.
Print Assumptions C25_built_sessions_are_legal.

Definition ex_addr : typed_address := TFqdn IpV4 (lit "example.com").
Definition ex_session_ops : list session_op :=
  [OpSessionAttribute AIceLite; OpSessionAttribute ARtcpMux;
   OpAddMedia Audio ASendrecv 9 RtpSavpf ex_addr; OpAddMedia Video AIceLite 9 RtpSavpf ex_addr;
   OpOnMedia 0 (OpAddCodec ex_opus)].
Example C25_example : forall E : Ext,
  let o := {| o_username := lit "-"; o_session_id := 1; o_session_version := 2;
              o_unicast_addr := ex_addr |} in
  let s := fold_left (fun s op => run_session_op op s) ex_session_ops (session_new 0 o (lit " x ")) in
  built_session s /\ s_attribute s = [AIceLite] /\ List.length (s_media s) = 1%nat /\
  map m_attribute (s_media s) = [[ASendrecv; ARtpmap ex_opus]].
Proof.
  intros E o s. split.
  - exists 0, o, (lit " x "), ex_session_ops. split; [repeat constructor|reflexivity].
  - repeat split; reflexivity.
Qed.
