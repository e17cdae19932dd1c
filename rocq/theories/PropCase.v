(** * Case of keywords (C15)

    [line_variant x x'] (SpecCase.v) lists the places where ASCII letters may
    change case: the line type; attribute names; network and address types of
    origin, connection and rtcp; media type and protocol; known bandwidth
    types; transport, "typ", type, known extension names and tcptype of a
    candidate; directions of an extmap; known fmtp parameter names; semantics
    of group and ssrc-group; the sctpmap application and the setup role. *)
From Coq Require Import List NArith ZArith Bool Ascii String Lia.
From Verif Require Import Str Num Net Types Ext Show Address AttrParse Media Session
  SpecApi SpecDoc SpecVal SpecCase PVal PCase Ext0.
Import ListNotations.
Open Scope N_scope.
Open Scope list_scope.

(** A line and its variant give the same value, or errors of the same kind. *)
Theorem C15_line : forall (E : Ext) x x' n, line_variant x x' ->
  erase_detail_line (parse_sdp_line x n) = erase_detail_line (parse_sdp_line x' n).
Proof. exact @line_case. Qed.

(** Texts that differ in such letters give the same session, with warnings of
    the same kind for the same lines, or errors of the same kind and place. *)
Theorem C15_document : forall (E : Ext) sdp1 sdp2 b, 51 <= byte_len sdp1 -> 51 <= byte_len sdp2 ->
  Forall2 line_variant (lines sdp1) (lines sdp2) ->
  erase_detail_result (parse_sdp sdp1 b) = erase_detail_result (parse_sdp sdp2 b).
Proof. exact @case_document. Qed.

(** In strict mode exactly the same session. *)
Theorem C15_strict : forall (E : Ext) sdp1 sdp2 s, 51 <= byte_len sdp2 ->
  Forall2 line_variant (lines sdp1) (lines sdp2) ->
  parse_sdp sdp1 true = Ok s -> parse_sdp sdp2 true = Ok s.
Proof. exact @case_strict. Qed.

(** ** The hypothesis on concrete lines *)
Ltac recase := repeat constructor; reflexivity.
Ltac by_words := do 2 eexists; split; [apply words_sws; vm_compute; reflexivity|];
  split; [apply words_sws; vm_compute; reflexivity|].
Ltac letters c d v v' := right; exists [], c, d, [], v, v'; split; [reflexivity|]; split; [reflexivity|];
  split; [constructor|]; split; [constructor|]; split; [reflexivity|].
Ltac attribute := right; left; split; [reflexivity|]; do 2 eexists;
  split; [apply core_trim; vm_compute; reflexivity|]; split; [apply core_trim; vm_compute; reflexivity|].
Ltac named := right; do 4 eexists; split; [apply cut_splitn2; vm_compute; reflexivity|];
  split; [apply cut_splitn2; vm_compute; reflexivity|]; split; [repeat constructor; reflexivity|].
Ltac named_word := apply means_iff; vm_compute; reflexivity.

Example C15_lines :
  line_variant (lit "v=0") (lit "V=0") /\
  line_variant (lit "o=- 1 2 IN IP6 ::1") (lit "O=- 1 2 In ip6 ::1") /\
  line_variant (lit "c=IN IP4 192.0.2.1") (lit "C=in iP4 192.0.2.1") /\
  line_variant (lit "b=TIAS:5") (lit "b=tiAS:5") /\
  line_variant (lit "m=audio 9 UDP/TLS/RTP/SAVPF 0") (lit "M=aUDIo 9 udp/tLS/rtp/savpf 0") /\
  line_variant (lit "a=rtcp-mux") (lit "A=RTCP-Mux") /\
  line_variant (lit "a=candidate:1 1 UDP 5 ::1 9 typ host tcptype active generation 3 X y")
               (lit "a=CANDIDATE:1 1 udp 5 ::1 9 TYP Host TcpType ACTIVE GeneratioN 3 X y") /\
  line_variant (lit "a=extmap:3/sendonly uri") (lit "a=Extmap:3/SENDonly uri") /\
  line_variant (lit "a=fmtp:96 minptime=1;x=2") (lit "a=fmtp:96 MinPTime=1;x=2") /\
  line_variant (lit "a=setup:actpass") (lit "a=SetUp:ActPass").
Proof.
  split; [letters 118 86 (lit "0") (lit "0"); left; reflexivity|].
  split; [letters 111 79 (lit "- 1 2 IN IP6 ::1") (lit "- 1 2 In ip6 ::1"); do 5 right; split; [reflexivity|];
          by_words; cbn; repeat split; recase|].
  split; [letters 99 67 (lit "IN IP4 192.0.2.1") (lit "in iP4 192.0.2.1"); do 3 right; left; split; [reflexivity|];
          by_words; cbn; repeat split; recase|].
  split; [letters 98 98 (lit "TIAS:5") (lit "tiAS:5"); do 2 right; left; split; [reflexivity|];
          exists (lit "TIAS:5"), (lit "tiAS:5"), (lit "TIAS"), (lit "tiAS"), (lit "5");
          split; [apply core_trim; reflexivity|]; split; [apply core_trim; reflexivity|];
          split; [apply cut_splitn2; reflexivity|]; split; [apply cut_splitn2; reflexivity|];
          right; split; [recase|]; do 2 right; left; apply means_upper_iff; reflexivity|].
  split; [letters 109 77 (lit "audio 9 UDP/TLS/RTP/SAVPF 0") (lit "aUDIo 9 udp/tLS/rtp/savpf 0"); do 4 right; left;
          split; [reflexivity|]; by_words; cbn; repeat split; recase|].
  split; [letters 97 65 (lit "rtcp-mux") (lit "RTCP-Mux"); attribute; left; split;
          [intros H; repeat (destruct H as [H|H]; [discriminate|]); exact H|recase]|].
  split; [letters 97 97 (lit "candidate:1 1 UDP 5 ::1 9 typ host tcptype active generation 3 X y")
            (lit "CANDIDATE:1 1 udp 5 ::1 9 TYP Host TcpType ACTIVE GeneratioN 3 X y"); attribute; named;
          right; left; split; [named_word|]; by_words; split; [cbn; repeat split; recase|]|].
  { cbn [skipn]. apply extensions_pair; [right; split; [recase|do 4 right; left; named_word]
                                     |right; split; [recase|named_word]|].
    apply extensions_pair; [right; split; [recase|left; named_word]|left; reflexivity|].
    apply extensions_pair; [left; reflexivity|left; reflexivity|]. constructor. }
  split; [letters 97 97 (lit "extmap:3/sendonly uri") (lit "Extmap:3/SENDonly uri"); attribute; named;
          do 2 right; left; split; [named_word|]|].
  { do 6 eexists. split; [apply words_sws; vm_compute; reflexivity|]. split; [apply words_sws; vm_compute; reflexivity|].
    split; [apply cut_splitn2; vm_compute; reflexivity|]. split; [apply cut_splitn2; vm_compute; reflexivity|]. recase. }
  split; [letters 97 97 (lit "fmtp:96 minptime=1;x=2") (lit "fmtp:96 MinPTime=1;x=2"); attribute; named;
          do 3 right; left; split; [named_word|]|].
  { do 7 eexists. split; [apply core_trim; vm_compute; reflexivity|]. split; [apply core_trim; vm_compute; reflexivity|].
    split; [apply cut_splitn2; vm_compute; reflexivity|]. split; [apply cut_splitn2; vm_compute; reflexivity|].
    split; [apply fields_split; vm_compute; reflexivity|]. split; [apply fields_split; vm_compute; reflexivity|].
    constructor; [|constructor; [left; reflexivity|constructor]].
    right. do 3 eexists. split; [apply cut_splitn2; vm_compute; reflexivity|]. split; [apply cut_splitn2; vm_compute; reflexivity|].
    right. split; [recase|]. apply Exists_exists. exists "MINPTIME"%string. split; [vm_compute; auto 30|].
    apply means_upper_iff; vm_compute; reflexivity. }
  letters 97 97 (lit "setup:actpass") (lit "SetUp:ActPass"); attribute; named.
  do 7 right. left. split; [named_word|]. do 2 eexists.
  split; [apply core_trim; vm_compute; reflexivity|]. split; [apply core_trim; vm_compute; reflexivity|]. recase.
Qed.

(** ... and the values they have in common. *)
Example C15_values :
  parse_sdp_line (E:=Ext0) (lit "C=in iP4 192.0.2.1") 3 =
    Ok {| l_number := 3; l_text := lit "C=in iP4 192.0.2.1";
          l_type := TyConnection {| conn_address := TIp (V4 3221225985); conn_ttl := None; conn_amount := None |} |} /\
  parse_sdp_line (E:=Ext0) (lit "b=tiAS:5") 3 =
    Ok {| l_number := 3; l_text := lit "b=tiAS:5"; l_type := TyBandwidth (BwTias 5) |} /\
  parse_sdp_line (E:=Ext0) (lit "a=SetUp:ActPass") 3 =
    Ok {| l_number := 3; l_text := lit "a=SetUp:ActPass"; l_type := TyAttribute (ASetup SetupActpass) |}.
Proof. split; [vm_compute; reflexivity|]. split; vm_compute; reflexivity. Qed.

(** ** Other keywords are compared letter by letter *)
Definition accepted {E : Ext} (x : str) : Prop := exists l, parse_sdp_line x 0 = Ok l.
Definition case_sensitive {E : Ext} (x x' : str) : Prop := recased x x' /\ accepted x /\ ~ accepted x'.
Ltac sensitive := split; [recase|]; split; [eexists; vm_compute; reflexivity|]; intros [l L]; vm_compute in L; discriminate L.
Theorem C15_other_keywords_refuted : exists E : Ext,
  case_sensitive (lit "a=dtls-message:client x") (lit "a=dtls-message:Client x") /\
  case_sensitive (lit "a=fingerprint:sha-1 00:01:02:03:04:05:06:07:08:09:0A:0B:0C:0D:0E:0F:10:11:12:13")
                 (lit "a=fingerprint:SHA-1 00:01:02:03:04:05:06:07:08:09:0A:0B:0C:0D:0E:0F:10:11:12:13") /\
  case_sensitive (lit "a=rid:1 send") (lit "a=rid:1 Send") /\
  case_sensitive (lit "a=simulcast:send 1") (lit "a=simulcast:SEND 1") /\
  case_sensitive (lit "a=rtcp-fb:96 nack") (lit "a=rtcp-fb:96 NACK") /\
  case_sensitive (lit "a=imageattr:* send *") (lit "a=imageattr:* SEND *").
Proof.
  exists Ext0. split; [sensitive|]. split; [sensitive|]. split; [sensitive|]. split; [sensitive|].
  split; sensitive.
Qed.

Definition theorems := (C15_line, C15_document, C15_strict, C15_other_keywords_refuted).
Print Assumptions theorems.
