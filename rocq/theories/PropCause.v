(** * C69: why attribute lines and texts are refused *)
From Coq Require Import List NArith ZArith Bool Ascii String Lia.
From Verif Require Import Str Num Net Types Ext Ext0 Show AttrParse Session.
From Verif Require Import SpecApi SpecDoc SpecVal SpecUnsup SpecWhy SpecCause PPanic PUnsup PWhy PCause6 PCause7.
Import ListNotations.
Open Scope N_scope.
Open Scope list_scope.

(** The error for any line: the first rule it breaks, of those for attributes or
    of those for other lines (C68). *)
Theorem C69_lines : forall (E : Ext) line n e, (Z.of_nat (List.length line) < 2147483648)%Z ->
  (parse_sdp_line line n = Err (PLine e line n) <-> refused line e).
Proof. exact @refused_why. Qed.

(** The value of an attribute alone, as [SdpAttribute::from_str] reads it. *)
Theorem C69_attributes : forall (E : Ext) v e, (forall m, e <> EUnsupported m) ->
  (Z.of_nat (List.length v) < 2147483648)%Z -> (attr_from_str (trim v) = Err e <-> attribute_wrong v e).
Proof. intros E v e He L. symmetry. exact (attribute_why v e He L). Qed.

(** Texts with a line error: the last line that is refused, with its number; in
    strict mode only if no line is unsupported. *)
Theorem C69_texts : forall E : Ext, ext_total E -> forall d strict e line k, doc_ok d ->
  (Z.of_nat (List.length (doc_text d)) < 2147483648)%Z -> 51 <= byte_len (doc_text d) ->
  (parse_sdp (doc_text d) strict = Err (PLine e line k) <->
   (exists pre post, doc_lines d = pre ++ line :: post /\ k = List.length pre /\ ~ blank line /\ refused line e /\
      (forall x e', In x post -> ~ blank x -> ~ refused x e')) /\
   (strict = true -> forall x, In x (doc_lines d) -> ~ blank x -> ~ line_unsupported x)).
Proof. exact @text_why. Qed.

(** What these errors say. *)
Theorem C69_messages : forall (E : Ext) line m, attribute_line_wrong line (EGeneric m) -> listed_text m.
Proof. exact @attribute_texts. Qed.

(** Texts of the code that are never used. *)
Definition unused_attribute_texts : list string :=
  [ "Ssrc attribute is missing ssrc-id value"; "imageattr's sar discrete value list must have at least two values" ]%string.
Definition unused_attribute_start : string := "Hash algoritm expects ".
Theorem C69_unused : forall (E : Ext) line n m, (Z.of_nat (List.length line) < 2147483648)%Z -> attribute_line line ->
  In m (map of_string unused_attribute_texts) \/ (exists t, m = of_string unused_attribute_start ++ t) ->
  parse_sdp_line line n <> Err (PLine (EGeneric m) line n).
Proof.
  intros E line n m L A U H. apply (C69_lines E _ _ _ L) in H. destruct H as [H|[H _]]; [|contradiction].
  apply C69_messages in H.
  assert (P : forall p t, In p attribute_prefixes -> m <> of_string p ++ t).
  { intros p t I K. unfold attribute_prefixes in I. cbn [In] in I.
    destruct U as [U|(u & U)]; [unfold unused_attribute_texts in U; cbn [In map] in U; destruct U as [U|[U|[]]]|]; rewrite <- U in K || rewrite U in K;
      repeat (destruct I as [I|I]; [subst p; discriminate|]); exact I. }
  assert (F : forall f t, In f flags -> m <> of_string f ++ t).
  { intros p t I K. unfold flags in I. cbn [In] in I.
    destruct U as [U|(u & U)]; [unfold unused_attribute_texts in U; cbn [In map] in U; destruct U as [U|[U|[]]]|]; rewrite <- U in K || rewrite U in K;
      repeat (destruct I as [I|I]; [subst p; discriminate|]); exact I. }
  destruct H as [H|[(p & t & I & H)|(f & I & H)]]; [|exact (P p t I H) | exact (F f _ I H)].
  destruct U as [U|(u & U)].
  - assert (D : forallb (fun t => negb (existsb (str_eqb (of_string t)) (map of_string attribute_messages))) unused_attribute_texts = true)
      by (vm_compute; reflexivity).
    rewrite forallb_forall in D. apply in_map_iff in U. destruct U as (x & <- & I). specialize (D _ I).
    assert (X : existsb (str_eqb (of_string x)) (map of_string attribute_messages) = true); [|rewrite X in D; discriminate].
    apply existsb_exists. exists (of_string x). split; [exact H | apply StrLemmas.str_eqb_refl].
  - assert (D : forallb (fun x => negb (str_eqb (firstn 22 (of_string x)) (of_string unused_attribute_start))) attribute_messages = true)
      by (vm_compute; reflexivity).
    rewrite forallb_forall in D. apply in_map_iff in H. destruct H as (x & Q & I). specialize (D _ I).
    rewrite Q, U in D. cbv beta in D. change (firstn 22 (of_string unused_attribute_start ++ u)) with (of_string unused_attribute_start) in D.
    rewrite StrLemmas.str_eqb_refl in D. discriminate.
Qed.

(** Concrete cases. *)
Definition refused_attributes : list (str * ierr) :=
  [
    (lit "a=candidate:0 1 UDP 1 ::1 9 typ host rport 65536", complains "ICE candidate rport can only be a bit 16bit number");
    (lit "a=candidate:0 1 UDP 1 ::1 9 typ host rport 65535 tcptype x", complains "Unknown tcptype value in candidate line");
    (lit "a=candidate:0 1 UDP 1 ::1 9 typ", complains "Candidate needs to have minimum eigth tokens");
    (lit "a=candidate:0 1 SCTP 1 ::1 9 typ host", complains "Unknonw candidate transport value");
    (lit "a=candidate:0 1 UDP 1 ::1 65536 type host", complains "ICE candidate port can only be a bit 16bit number");
    (lit "a=candidate:0 1 UDP 1 ::1 9 type host", complains "Candidate attribute token must be 'typ'");
    (lit "a=candidate:0 1 UDP 1 ::1 9 typ hosts", complains "Unknow candidate type value");
    (lit "a=candidate:0 x SCTP y ::1 9 typ hosts", EInteger IntInvalidDigit);
    (lit "a=candidate:0 1 UDP 1 ::1 9 typ host generation 1 raddr ::1 generation -1", EInteger IntInvalidDigit);
    (lit "a=remote-candidates", complains "Remote-candidate attribute is missing component ID");
    (lit "a=remote-candidates: 0", complains "Remote-candidate attribute is missing connection address");
    (lit "a=remote-candidates:0 ::1", complains "Remote-candidate attribute is missing port number");
    (lit "a=remote-candidates:0 ::1 70000", complains "Remote-candidate port can only be a bit 16bit number");
    (lit "a=extmap:1", complains "Extmap needs to have at least two tokens");
    (lit "a=extmap:1/both x", complains "Unsupported direction in extmap value");
    ((lit "a=extmap:1/sendrecv uri a" ++ [0] ++ lit "b"), complains "Illegal character in extmap extension attributes");
    (lit "a=fingerprint:sha-1 CD:3", complains "fingerpint's byte tokens must have 2 hexdigits");
    (lit "a=fingerprint:sha-1", complains "Fingerprint needs to have two tokens");
    (lit "a=fingerprint:sha-1 00:11:22", complains "fingerprint has 3 bytes but should have 20 bytes");
    (lit "a=fingerprint:sha-1 00:1x", EInteger IntInvalidDigit);
    (lit "a=group", complains "Group attribute is missing semantics token");
    (lit "a=ssrc-group", complains "Ssrc group attribute is missing semantics");
    (lit "a=ssrc-group:FID", complains "Ssrc group must contain at least one ssrc");
    (lit "a=ssrc-group:FID 1 x", EInteger IntInvalidDigit);
    (lit "a=msid", complains "Msid attribute is missing msid-id token");
    (lit "a=msid-semantic", complains "Msid-semantic attribute is missing msid-semantic token");
    (lit "a=rtpmap", complains "Rtpmap missing payload type");
    (lit "a=rtpmap:128 opus/x", complains "Rtpmap payload type must be less then 127");
    (lit "a=rtpmap:1", complains "Rtpmap missing payload type"); (lit "a=rtpmap:1 opus/x", EInteger IntInvalidDigit);
    (lit "a=rtcp", complains "Rtcp attribute is missing port number"); (lit "a=rtcp:65536", EInteger IntPosOverflow);
    (lit "a=rtcp:9 UN IP6 ::1", complains "nettype must be IN");
    (lit "a=rtcp:9 IN", complains "Rtcp attribute is missing address type token");
    (lit "a=rtcp:9 IN IP6", complains "Rtcp attribute is missing ip address token");
    (lit "a=rtcp:9 IN IP5 ::1", UnknownAddressType (lit "IP5"));
    (lit "a=sctpmap:1 2", complains "Sctpmap needs to have three tokens");
    (lit "a=sctpmap:65536 x y", EInteger IntPosOverflow);
    (lit "a=sctpmap:1 x y", complains "Unsupported sctpmap type token");
    (lit "a=sctpmap:1 webrtc-datachannel x", EInteger IntInvalidDigit);
    (lit "a=simulcast", complains "Simulcast attribute is missing send/recv value");
    (lit "a=simulcast:both x", complains "Unknown direction description found: 'both'");
    (lit "a=simulcast:send", complains "Simulcast attribute must have an alternatives list after the direction token");
    (lit "a=simulcast:send pt=1", complains "Simulcast attribute has unknown list descriptor '""pt""'");
    (lit "a=simulcast:send rid=1 send", complains "Simulcast attribute has defined two times the same direction");
    (lit "a=simulcast:send rid=1 recv", complains """Simulcast has defined a second direction but""""no second list of simulcast stream versions""");
    (lit "a=simulcast:send 1 recv pt=1", complains "Simulcast attribute has unknown list descriptor '""pt""'");
    (lit "a=dtls-message:client", complains "dtls-message must have a role token and a value token.");
    (lit "a=dtls-message:both x", complains "dtls-message has unknown role token 'both'");
    (lit "a=sctp-port:65536", complains "Sctpport port 65536 can only be a bit 16bit number");
    (lit "a=sctp-port:x", EInteger IntInvalidDigit);
    (lit "a=framerate:nan", complains "FrameRate attribute must be a number");
    (lit "a=framerate:inf", complains "FrameRate attribute cannot be finite");
    (lit "a=framerate:0", complains "FrameRate attribute cannot be zero"); (lit "a=framerate:x", EFloat FloatInvalid);
    (lit "a=rtcp-fb:1 trr-int", complains "The rtcpfb trr-int feedback type needs a parameter");
    (lit "a=rtcp-fb:1 trr-int x""y", complains "Unknown rtcpfb trr-int parameter: ""x\""y""");
    (lit "a=rtcp-fb:1", complains "Error parsing rtcpfb: no feedback type");
    (lit "a=rtcp-fb:x nack", EInteger IntInvalidDigit);
    (lit "a=fmtp:1 usedtx=2", complains "The fmtp parameter 'usedtx' must be 0 or 1");
    (lit "a=fmtp:1 profile-level-id=1000000", complains "The fmtp parameter 'profile-level-id' must be in range [0,0xffffff]");
    (lit "a=fmtp:1 profile-level-id=xyz", EInteger IntInvalidDigit);
    (lit "a=fmtp:1 packetization-mode=3", complains "The fmtp parameter 'packetization-mode' must be 0,1 or 2");
    (lit "a=fmtp:1 level-asymmetry-allowed=2", complains "The fmtp parameter 'level-asymmetry-allowed' must be 0 or 1");
    (lit "a=fmtp:1 profile=3", complains "The fmtp parameter 'profile' must be in the range [0,2]");
    (lit "a=fmtp:1 level-idx=32", complains "The fmtp parameter 'level-idx' must be in the range [0,31]");
    (lit "a=fmtp:1 tier=2", complains "The fmtp parameter 'tier' must be in the range [0,1]");
    (lit "a=fmtp:1 rtx-time=3", complains "RTX codec must have an APT field");
    (lit "a=fmtp:1 apt=96;rtx-time=x", EInteger IntInvalidDigit);
    (lit "a=fmtp:1 a=b;c", complains "A fmtp parameter must be either a telephone event, a parameter list or a red codec list");
    (lit "a=fmtp:1 1/129", complains "Red codec must be in range [0,128]");
    (lit "a=fmtp:x max-fs=1", EInteger IntInvalidDigit);
    (lit "a=rid:1", complains "A rid attribute must at least have an id and a direction token.");
    (lit "a=rid:1 both", complains "Unknown direction description found: 'both'");
    (lit "a=rid:1 both max-width", complains "A rid parameter needs to be of form 'param=value'");
    (lit "a=rid:1 send max-width=x", EInteger IntInvalidDigit); (lit "a=rid:1 send pt=1,x", EInteger IntInvalidDigit);
    (lit "a=imageattr", EInteger IntEmpty); (lit "a=imageattr:x", EInteger IntInvalidDigit);
    (lit "a=imageattr:1", complains "imageattr's second token must be a direction token");
    (lit "a=imageattr:1 both", complains "Unknown direction description found: 'both'");
    (lit "a=imageattr:1 send", complains "imageattr must have a parameter set after a direction token");
    (lit "a=imageattr:1 send [x=1", complains "imageattr must have a parameter set after a direction token");
    (lit "a=imageattr:1 send x", complains "imageattr sets must be enclosed by ']'");
    (lit "a=imageattr:1 send []", complains "The first token in an imageattr set must begin with 'x='");
    (lit "a=imageattr:1 send [y=1]", complains "The first token in an imageattr set must begin with 'x='");
    (lit "a=imageattr:1 send [x=1]", complains "imageattr set is missing the 'y=' token");
    (lit "a=imageattr:1 send [x=1,x=1]", complains "The second token in an imageattr set must begin with 'y='");
    (lit "a=imageattr:1 send [x=[1,y=1]", complains "imageattr set is missing the 'x=' token");
    (lit "a=imageattr:1 send [x=[1:2:3:4],y=1]", complains "imageattr's xyrange must contain 2 or 3 fields");
    (lit "a=imageattr:1 send [x=[1],y=1]", complains "imageattr's discrete value list must have at least two elements");
    (lit "a=imageattr:1 send [x=[1:2:x],y=1]", EInteger IntInvalidDigit);
    (lit "a=imageattr:1 send [x=1,y=1,sar=[1-2-3]]", complains "imageattr's par and sar ranges must have two components");
    (lit "a=imageattr:1 send [x=1,y=1,sar=[2-1]]", complains "In imageattr's par and sar ranges, first must be < than the second");
    (lit "a=imageattr:1 send [x=1,y=1,sar=[2,1]]", complains "imageattr's sar discrete value list must contain ascending values");
    (lit "a=imageattr:1 send [x=1,y=1,sar=[2,1]x]", complains "imageattr's sar value is missing closing tag ']'");
    (lit "a=imageattr:1 send [x=1,y=1,par=1]", complains "imageattr's par value must start with '['");
    (lit "a=imageattr:1 send [x=1,y=1,par=[1-2]x]", complains "imageattr's par value must be enclosed with ']'");
    (lit "a=imageattr:1 send [x=1,y=1,q=x]", EFloat FloatInvalid);
    (lit "a=imageattr:1 send [x=1,y=1] send", complains "imageattr's second direction token must be different from the first one");
    (lit "a=imageattr:1 send [x=1,y=1] recv", complains "imageattr must have a parameter set after a direction token");
    (lit "a=imageattr:1 send * recv * x", complains "imageattr must not contain any token after the second set list");
    (lit "a=imageattr:1 send * both", complains "Unknown direction description found: 'both'");
    (lit "a=ice-options", complains "ice-options is required to have a value");
    (lit "a=ice-pacing:10000000000", complains "ice-pacing value is not a 10 digit integer");
    (lit "a=ice-pacing", EInteger IntEmpty); (lit "a=mid:", complains "This attribute is required to have a value");
    (lit "a=setup:on", complains "Unsupported setup value");
    (lit "a=maxptime:99999999999999999999", EInteger IntPosOverflow); (lit "a=ssrc:x", EInteger IntInvalidDigit);
    (lit "A=Rtcp-Mux: x", complains "rtcp-mux attribute is not allowed to have a value");
    (lit "a=imageattr:[", complains "imageattr requires a payload token");
    (lit "a=imageattr:1 send [x=[1:2]3,y=1]", complains "imageattr's xyrange has no closing tag ']'");
    (lit "a=rtpmap:1 opus", complains "Rtpmap missing codec name");
    (lit "a=candidate:0 1 UDP 1 ::g 9 typ host", EIpAddress) ].
Example C69_examples : Forall (fun le => attribute_line_wrong (E:=Ext0) (fst le) (snd le)) refused_attributes.
Proof.
  assert (F : map (fun le => parse_sdp_line (E:=Ext0) (fst le) 7) refused_attributes =
              map (fun le => Err (PLine (snd le) (fst le) 7)) refused_attributes) by (vm_compute; reflexivity).
  assert (A : forallb (fun le => match fst le with
                | c :: e :: d :: _ => (ascii_lower c =? 97) && (e =? 61) && negb (is_ws d) | _ => false end &&
              Nat.ltb (List.length (fst le)) 1000) refused_attributes = true) by (vm_compute; reflexivity).
  rewrite forallb_forall in A. apply Forall_forall. intros [line e] I. assert (P := ext_in_map F _ I). specialize (A _ I).
  cbn [fst snd] in *. clear F I. apply andb_prop in A. destruct A as [A B]. apply Nat.ltb_lt in B.
  apply C69_lines in P; [|lia]. destruct P as [P|[P _]]; [exact P|]. exfalso. apply P. clear P B.
  destruct line as [|c [|q [|d v]]]; try discriminate. apply andb_prop in A. destruct A as [A W]. apply andb_prop in A. destruct A as [A Q].
  apply N.eqb_eq in A, Q. subst q. exists [], c, [], (d :: v). split; [reflexivity|]. split; [constructor|]. split; [constructor|].
  split; [|exists 97; split; [reflexivity | exact A]]. intro Bl. inversion Bl as [|? ? K]. rewrite K in W. discriminate.
Qed.
(** Every text of the list is used. *)
Example C69_all_used : forallb (fun t => existsb (fun le => match snd le with EGeneric m => str_eqb m (of_string t) | _ => false end)
  refused_attributes) attribute_messages = true.
Proof. vm_compute. reflexivity. Qed.
(** A text: the last line refused, with its number. *)
Example C69_document :
  parse_sdp (E:=Ext0) (lit "v=0" ++ [10] ++ lit "o=- 1 2 IN IP6 ::1" ++ [10] ++ lit "s=-" ++ [10] ++
    lit "a=group" ++ [10] ++ lit "t=0 0" ++ [10] ++ [10] ++ lit "a=mid" ++ [10] ++ lit "a=foo" ++ [10] ++ lit "m=video 9 RTP/AVP 96" ++ [10]) false
  = Err (PLine (complains "This attribute is required to have a value") (lit "a=mid") 6).
Proof. vm_compute. reflexivity. Qed.

Definition theorems := (C69_lines, C69_attributes, C69_texts, C69_messages, C69_unused).
Print Assumptions theorems.
