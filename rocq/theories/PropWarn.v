(** * C67: what warnings say *)
From Coq Require Import List NArith ZArith Bool Ascii String Lia.
From Verif Require Import Str Num Net Types Ext Show Session SpecApi SpecDoc SpecVal SpecUnsup SpecWarn PWarn.
Import ListNotations.
Open Scope N_scope.
Open Scope list_scope.

(** The message with which a line of ASCII chars is set aside. *)
Theorem C67_messages : forall (E : Ext) line n m, ascii_text line ->
  (parse_sdp_line line n = Err (PUnsupported (EUnsupported m) line n) <-> line_warns line m).
Proof. exact @line_says. Qed.

(** The warnings of a session are these messages, in order, with the lines they
    are about and their numbers. *)
Theorem C67_warnings : forall (E : Ext) d b s, doc_ok d -> Forall ascii_text (doc_lines d) ->
  parse_sdp (doc_text d) b = Ok s ->
  exists ts us, lines_read 0 (doc_lines d) ts us /\ Forall2 warning_says (s_warnings s) us.
Proof. exact @warnings_say. Qed.

(** Every ASCII text has a quotation; no other text has the same one; it can be
    printed on one line. *)
Theorem C67_every_quoted : forall s, ascii_text s -> exists q, quoted s q.
Proof. exact every_quoted. Qed.
Theorem C67_quotes_differ : forall s t q, quoted s q -> quoted t q -> s = t.
Proof. exact quoted_inj. Qed.
Theorem C67_quotes_visible : forall s q, quoted s q -> Forall (fun c => 32 <= c < 127) q.
Proof. exact quoted_visible. Qed.

(** The hash algorithm, the name and the kind of media are not quoted: the
    messages of different lines may be the same. *)
Theorem C67_messages_differ_refuted : forall E : Ext, exists line line' m, line <> line' /\
  line_warns line m /\ line_warns line' m.
Proof.
  intro E. exists (lit "a=Unknown"), (lit "a=unknown:1"), (lit "Unknown attribute type unknown").
  split; [discriminate|].
  split; apply (C67_messages E _ 0); try (repeat constructor; fail); vm_compute; reflexivity.
Qed.

(** Concrete cases: every message. *)
Definition message_examples : list (str * str) :=
  [ (lit "a=X-Google:1", lit "Unknown attribute type x-google");
    (lit "A = fingerprint: MD5 00", lit "fingerprint contains an unsupported hash algorithm 'MD5'");
    (lit "a=fmtp:96", lit "Fmtp attributes require a payload type and a parameter block.");
    (lit "a=group:""x a", lit "Unknown group semantic '""\""X""' found");
    (lit "a=group:" ++ [1] ++ lit "\" ++ [127] ++ lit " a", lit "Unknown group semantic '""\u{1}\\\u{7f}""' found");
    (lit "a=ssrc-group:" ++ [30] ++ lit "z", lit "Unknown ssrc semantic '""\u{1e}Z""' found");
    (lit "a=rtcp-fb:96 Ack x", lit "Unknown rtcpfb feedback type: ""Ack""");
    (lit "a=rtcp-fb:96 ack " ++ [0] ++ lit " z", lit "Unknown rtcpfb ack parameter: ""\0""");
    (lit "a=rtcp-fb:96 ack", lit "The rtcpfb ack feeback type needs a parameter:");
    (lit "a=rtcp-fb:96 nack " ++ [9] ++ lit "pli", lit "Unknown rtcpfb nack parameter: ""\tpli""");
    (lit "a=rtcp-fb:96 ccm a" ++ [13] ++ lit "b", lit "Unknown rtcpfb ccm parameter: ""a\rb""");
    (lit "a=rtcp-fb:96 goog-remb y", lit "Unknown rtcpfb goog-remb parameter: ""y""");
    (lit "a=rtcp-fb:96 transport-cc  x", lit "Unknown rtcpfb transport-cc parameter: """"");
    (lit "a=candidate:0 1 UDP 1 ::1 9 typ host generation", lit "Ice candidate extension name without value");
    (lit "m=Text 9 RTP/AVP 0", lit "unsupported media value: Text");
    (lit "m=audio 9/2 udp/Whatever 1", lit "unsupported protocol value: udp/Whatever") ].
Example C67_examples : forall E : Ext,
  Forall (fun lm => line_warns (fst lm) (snd lm)) message_examples.
Proof.
  intro E.
  repeat (apply Forall_cons; [apply (C67_messages E _ 0); [repeat constructor | vm_compute; reflexivity]|]).
  constructor.
Qed.

Definition warned : doc :=
  {| d_lines := map (fun l => (l, CRLF))
       [lit "v=0"; lit "o=- 1 1 IN IP6 ::1"; lit "s=-"; lit "t=0 0"; lit "a=Unknown"; lit "m=text 9 RTP/AVP 0";
        lit "a=group:q"];
     d_last := [] |}.
Example C67_document : forall E : Ext, exists s, parse_sdp (doc_text warned) false = Ok s /\
  s_warnings s =
    [ PUnsupported (EUnsupported (lit "Unknown attribute type unknown")) (lit "a=Unknown") 4;
      PUnsupported (EUnsupported (lit "unsupported media value: text")) (lit "m=text 9 RTP/AVP 0") 5;
      PUnsupported (EUnsupported (lit "Unknown group semantic '""Q""' found")) (lit "a=group:q") 6 ].
Proof. intro E. eexists. split; vm_compute; reflexivity. Qed.

Definition theorems := (C67_messages, C67_warnings, C67_every_quoted, C67_quotes_differ, C67_quotes_visible,
  C67_messages_differ_refuted, C67_examples, C67_document).
Print Assumptions theorems.
