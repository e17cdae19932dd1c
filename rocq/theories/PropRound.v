(** * Theorems about printing and parsing again (C10, C11, C12) *)
From Coq Require Import List Arith NArith ZArith Bool Ascii String.
From Verif Require Import Str Num Net Types Ext Show Address AttrParse Media Session.
From Verif Require Import SpecApi SpecDoc SpecVal SpecItems SpecPrint PPrint3 PPrint9 PPrint10 PPrint11.
Import ListNotations.
Open Scope N_scope.
Open Scope list_scope.

(** ** C11: the line printed for a well-formed value is read as that value *)
Theorem C11_lines : forall (E : Ext), ext_ok E -> forall ty n,
  item_wf ty -> ~ item_lossy ty -> countable ty (List.length (printed_line ty)) ->
  parse_sdp_line (printed_line ty) n = Ok {| l_number := n; l_type := ty; l_text := printed_line ty |}.
Proof. exact @printed_line_parses. Qed.

(** In particular for attributes.  The length only matters for imageattr, whose
    brackets are counted with 32 bits. *)
Theorem C11_attributes : forall (E : Ext), ext_ok E -> forall a n,
  attr_range a -> attr_wf a -> ~ attr_lossy a ->
  (forall i, a = AImageAttr i -> (Z.of_nat (List.length (show_attr a)) < 2147483646)%Z) ->
  parse_sdp_line (lit "a=" ++ show_attr a) n =
  Ok {| l_number := n; l_type := TyAttribute a; l_text := lit "a=" ++ show_attr a |}.
Proof. exact @printed_attribute_parses. Qed.

(** ** C12: parsed values are well-formed *)
Theorem C12_parsed_wf : forall (E : Ext), ext_ok E -> forall line n l,
  parse_sdp_line line n = Ok l -> item_wf (l_type l).
Proof. exact @line_means_wf. Qed.

(** What was parsed, printed and parsed again is the same value; printing it once
    more gives the same line. *)
Theorem C12_reparsed : forall (E : Ext), ext_ok E -> forall line n l n',
  parse_sdp_line line n = Ok l -> ~ item_lossy (l_type l) ->
  countable (l_type l) (List.length (printed_line (l_type l))) ->
  exists l', parse_sdp_line (printed_line (l_type l)) n' = Ok l' /\
    l_type l' = l_type l /\ printed_line (l_type l') = printed_line (l_type l).
Proof. exact @line_round_trip. Qed.

(** The lossy values are exactly those that are not the same after that; NaN is
    left out as it is not even equal to itself. *)
Theorem C12_exactly : forall (E : Ext), ext_ok E -> forall line n l n',
  parse_sdp_line line n = Ok l -> ~ item_nan (l_type l) ->
  countable (l_type l) (List.length (printed_line (l_type l))) ->
  ((exists l', parse_sdp_line (printed_line (l_type l)) n' = Ok l' /\ l_type l' = l_type l) <->
   ~ item_lossy (l_type l)).
Proof. exact @line_exactly. Qed.

(** ** C10: sessions *)
Theorem C10_well_formed : forall (E : Ext), ext_ok E -> forall s b,
  session_wf s -> structural s -> ~ session_lossy s ->
  51 <= byte_len (show_session s) -> (Z.of_nat (List.length (show_session s)) < 2147483648)%Z ->
  parse_sdp (show_session s) b = Ok (with_warnings s []).
Proof. exact @printed_session_parses. Qed.

Theorem C10_parsed_wf : forall (E : Ext), ext_ok E -> forall sdp b s,
  parse_sdp sdp b = Ok s -> session_wf s /\ structural s.
Proof. exact @parsed_session_wf. Qed.

Theorem C10_round_trip : forall (E : Ext), ext_ok E -> forall sdp b s b',
  parse_sdp sdp b = Ok s -> ~ session_lossy s ->
  51 <= byte_len (show_session s) -> (Z.of_nat (List.length (show_session s)) < 2147483648)%Z ->
  parse_sdp (show_session s) b' = Ok (with_warnings s []).
Proof. exact @session_round_trip. Qed.

(** The exceptions are exactly the lossy values and the short texts. *)
Theorem C10_exactly : forall (E : Ext), ext_ok E -> forall sdp b s b',
  parse_sdp sdp b = Ok s -> ~ Exists item_nan (session_items s) ->
  (Z.of_nat (List.length (show_session s)) < 2147483648)%Z ->
  (parse_sdp (show_session s) b' = Ok (with_warnings s []) <->
   51 <= byte_len (show_session s) /\ ~ session_lossy s).
Proof. exact @session_exactly. Qed.

(** The exceptions: documents that do not survive. *)
Definition document_with (attributes : list str) : str :=
  crlf_lines ([lit "v=0"; lit "o=- 1 2 IN IP6 ::1"; lit "s=-"; lit "t=0 0"; lit "c=IN IP6 ::1";
               lit "m=video 9 RTP/AVP 96"] ++ attributes).
Definition does_not_survive {E : Ext} (sdp : str) : Prop :=
  exists s, parse_sdp sdp true = Ok s /\
    forall b, match parse_sdp (show_session s) b with
              | Ok s' => s' <> with_warnings s []
              | _ => True
              end.
Ltac lost := eexists; split; [vm_compute; reflexivity|]; intros [|]; vm_compute; first [exact I | discriminate].
Theorem C10_exceptions_refuted : forall E : Ext,
  (* nothing is printed for default fmtp parameters *)
  does_not_survive (document_with [lit "a=fmtp:96 packetization-mode=0"]) /\
  does_not_survive (document_with [lit "a=fmtp:96 packetization-mode=0"; lit "a=ptime:1"]) /\
  (* with an apt, only apt and rtx-time are printed *)
  does_not_survive (document_with [lit "a=fmtp:96 apt=97;max-fs=1"]) /\
  (* unknown parameters are printed with ',' between them *)
  does_not_survive (document_with [lit "a=fmtp:96 x=1;y=2"]) /\
  (* a blank after an unknown parameter is lost *)
  does_not_survive (document_with [lit "a=fmtp:96 x=1 ;max-fs=1"]) /\
  (* an msid-semantic without msids is printed with "*" *)
  does_not_survive (crlf_lines [lit "v=0"; lit "o=- 1 2 IN IP6 ::1"; lit "s=-"; lit "t=0 0";
                                lit "c=IN IP6 ::1"; lit "a=msid-semantic:WMS"]) /\
  (* rid: empty ids among others, a blank at the end, an unknown pt in front *)
  does_not_survive (document_with [lit "a=rid:a send depends=b,,c"]) /\
  does_not_survive (document_with [lit "a=rid:a send depends=b ;max-width=1"]) /\
  does_not_survive (document_with [lit "a=rid:a send max-width=0;pt=96"]) /\
  (* simulcast: '=' in an id, an empty version (not the first simulcast attribute,
     for which there would have to be a rid without a name) *)
  does_not_survive (document_with [lit "a=rid:a=b send"; lit "a=simulcast:send rid=a=b"]) /\
  does_not_survive (document_with [lit "a=rid:a send"; lit "a=simulcast:send a"; lit "a=simulcast:recv a;;b"]) /\
  (* the printed form has less than 51 bytes *)
  does_not_survive (crlf_lines [lit "v=0"; lit "o=- 1 2 IN IP6 ::1"; lit "s=                              "; lit "t=0 0"]).
Proof. intro E. repeat match goal with |- _ /\ _ => split end; lost. Qed.

Definition printed_for_a_value {E : Ext} (line : str) : Prop :=
  exists ty, item_wf ty /\ ~ item_lossy ty /\ printed_line ty = line.
(** Values and their lines, for all kinds that do not need floats: *)
Ltac kept X :=
  match goal with |- _ ?line => eexists; split; [refine (C12_parsed_wf _ X line 0%nat _ _); vm_compute; reflexivity|] end;
  split; [|vm_compute; reflexivity].
Example C11_example : forall E : Ext, ext_ok E ->
  Forall printed_for_a_value [
    lit "a=bundle-only";
    lit "a=candidate:1 1 UDP 2113 ::1 9 typ srflx raddr ::2 rport 0 tcptype so generation 1 ufrag u network-cost 2 x y";
    lit "a=dtls-message:client tls";
    lit "a=end-of-candidates";
    lit "a=extmap:1/sendonly urn:x a b";
    lit "a=extmap-allow-mixed";
    lit "a=fingerprint:sha-1 00:01:02:03:04:05:06:07:08:09:0A:0B:0C:0D:0E:0F:10:11:12:13";
    lit "a=group:BUNDLE a b";
    lit "a=ice-lite";
    lit "a=ice-mismatch";
    lit "a=ice-options:trickle x";
    lit "a=ice-pacing:50";
    lit "a=ice-pwd:p w";
    lit "a=ice-ufrag:u";
    lit "a=identity:abc";
    lit "a=inactive";
    lit "a=label:l";
    lit "a=max-message-size:1";
    lit "a=maxptime:60";
    lit "a=mid:0";
    lit "a=msid:a b";
    lit "a=ptime:10";
    lit "a=recvonly";
    lit "a=remote-candidates:1 ::1 9";
    lit "a=rtpmap:111 opus/48000/2";
    lit "a=rtcp:9 IN IP6 ::1";
    lit "a=rtcp-fb:* nack pli x";
    lit "a=rtcp-mux";
    lit "a=rtcp-mux-only";
    lit "a=rtcp-rsize";
    lit "a=sctpmap:5000 webrtc-datachannel 256";
    lit "a=sctp-port:5000";
    lit "a=sendonly";
    lit "a=sendrecv";
    lit "a=setup:actpass";
    lit "a=ssrc:1 cname:a b";
    lit "a=ssrc-group:FID 1 2";
    lit "b=X-YZ:128";
    lit "c=IN IP6 ::1/12/3";
    lit "m=application 9/2 UDP/DTLS/SCTP webrtc-datachannel";
    lit "o=- 1 2 IN IP6 ::1";
    lit "s= x ";
    lit "t=1 2";
    lit "v=0"] /\
  Forall printed_for_a_value [
    lit "a=fmtp:96 profile-level-id=42e01f;max-fs=3600;x=1";
    lit "a=fmtp:101 0-15,66";
    lit "a=fmtp:97 apt=96;rtx-time=3000";
    lit "a=fmtp:98 111/111";
    lit "a=imageattr:* send [x=[1:2:3],y=5] recv *";
    lit "a=msid-semantic:WMS *";
    lit "a=rid:1 send pt=96,97;max-width=5;x=y;depends=2,3";
    lit "a=simulcast:send 1,~2;3 recv 4"].
Proof.
  intros E X. split.
  - repeat (constructor; [kept X; intros []|]). constructor.
  - constructor; [|constructor; [|constructor; [|constructor; [|constructor; [|constructor; [|constructor; [|constructor; [|constructor]]]]]]]].
    all: kept X.
    1-4: intros [L|[(r & L & K)|[L|L]]]; [discriminate L| |apply Nat.leb_le in L; discriminate L|].
    all: try (cbn in L; injection L as <-; apply K; reflexivity).
    all: try solve [inversion L].
    all: try discriminate L.
    1: (inversion L as [? ? L' | ? ? L']; [apply ends_blank_last in L'; discriminate L' | inversion L']).
    + intro L. unfold item_lossy, attr_lossy, image_nan in L. cbn in L.
      repeat match goal with
             | H : Exists _ _ |- _ => inversion H; clear H; subst
             | H : _ \/ _ |- _ => destruct H
             | H : set_nan _ |- _ => unfold set_nan in H; cbn in H
             end; contradiction.
    + intro L. discriminate L.
    + intros [[L _]|[(t & L & K)|(L & _)]]; [vm_compute in L; intuition discriminate | |discriminate L].
      injection L as <-. apply ends_blank_last in K. discriminate K.
    + intro L. cbn [item_lossy attr_lossy l_type] in L. unfold simulcast_lossy in L. cbn in L.
      repeat match goal with
             | H : Exists _ _ |- _ => inversion H; clear H; subst
             | H : _ \/ _ |- _ => destruct H
             | H : In _ _ |- _ => vm_compute in H; intuition discriminate
             end; discriminate.
Qed.

Definition rid_depending (ids : list str) : sdp_type :=
  TyAttribute (ARid {| rid_id := lit "a"; rid_direction := Send; rid_formats := [];
    rid_params_of := {| max_width := 0; max_height := 0; max_fps := 0; rid_max_fs := 0; rid_max_br := 0;
                        max_pps := 0; rid_unknown := [] |};
    rid_depends := ids |}).
(** Both sides of [C12_exactly]: an empty id among others is lost, one alone is not. *)
Example C12_exactly_example : forall E : Ext, ext_ok E ->
  (exists l, parse_sdp_line (lit "a=rid:a send depends=b,,c") 0 = Ok l /\ item_lossy (l_type l) /\
     printed_line (l_type l) = lit "a=rid:a send depends=b,c" /\
     ~ exists l', parse_sdp_line (printed_line (l_type l)) 0 = Ok l' /\ l_type l' = l_type l) /\
  (exists l, parse_sdp_line (lit "a=rid:a send depends=") 0 = Ok l /\
     printed_line (l_type l) = lit "a=rid:a send depends=" /\ ~ item_lossy (l_type l)).
Proof.
  intros E X. split.
  - assert (P : exists l, parse_sdp_line (lit "a=rid:a send depends=b,,c") 0 = Ok l /\ l_type l = rid_depending [lit "b"; []; lit "c"])
      by (eexists; split; vm_compute; reflexivity).
    destruct P as (l & P & T). exists l. split; [exact P|].
    assert (K : item_lossy (l_type l)) by (rewrite T; left; split; cbn; auto 10).
    split; [exact K|]. split; [rewrite T; vm_compute; reflexivity|]. intro Q.
    refine (proj1 (C12_exactly E X _ 0 l 0 P _ _) Q K); rewrite T; [exact (fun F => F) | exact I].
  - assert (P : exists l, parse_sdp_line (lit "a=rid:a send depends=") 0 = Ok l /\ l_type l = rid_depending [[]])
      by (eexists; split; vm_compute; reflexivity).
    destruct P as (l & P & T). exists l. split; [exact P|]. split; [rewrite T; vm_compute; reflexivity|].
    refine (proj1 (C12_exactly E X _ 0 l 0 P _ _) _); rewrite T; [exact (fun F => F) | exact I|].
    eexists. split; vm_compute; reflexivity.
Qed.

(** Assumptions of everything above. *)
Definition theorems := (C11_lines, C11_attributes, C12_parsed_wf, C12_reparsed, C12_exactly, C10_well_formed,
  C10_parsed_wf, C10_round_trip, C10_exactly, C10_exceptions_refuted).
Print Assumptions theorems.
