(** * The sample files of the project (examples/sdps), run as in .travis.yml

    Each file is read by the example program with the arguments it is called with
    there; the build fails unless every run ends with status 0.  Tests of the
    model, not theorems. *)
From Coq Require Import List NArith Bool Ascii String.
From Verif Require Import Str Num Net Types Ext Ext0 Show Session Tools.
Import ListNotations.
Open Scope N_scope.
Open Scope list_scope.

Definition lf_lines (l : list string) : str := flat_map (fun x => of_string x ++ [10]) l.

Definition sdp_02 : list string :=
  [ "v=0";
    "o=- 4294967296 2 IN IP4 127.0.0.1";
    "s=SIP Call";
    "c=IN IP4 198.51.100.7";
    "t=0 0";
    "m=video 56436 RTP/SAVPF 120";
    "a=rtpmap:120 VP8/90000" ]%string.
Definition sdp_03 : list string :=
  [ "; Many RTCP-FB feed back types take a parameter";
    "; Most of these will not parse.";
    "; One can experiment by commenting out individual lines.";
    "; Note: comment lines only work in the example parser.";
    "v=0";
    "o=- 4294967296 2 IN IP4 127.0.0.1";
    "s=SIP Call";
    "c=IN IP4 198.51.100.7";
    "t=0 0";
    "m=video 56436 RTP/SAVPF 120";
    "a=rtpmap:120 VP8/90000";
    "a=rtpmap:122 red/90000";
    "a=rtcp-fb:120 ack rpsi";
    "a=rtcp-fb:120 ack app";
    "a=rtcp-fb:120 ack app foo";
    "a=rtcp-fb:120 ack foo bar";
    "a=rtcp-fb:120 ack foo bar baz";
    "a=rtcp-fb:120 nack";
    "a=rtcp-fb:120 nack pli";
    "a=rtcp-fb:120 nack sli";
    "a=rtcp-fb:120 nack rpsi";
    "a=rtcp-fb:120 nack app";
    "a=rtcp-fb:120 nack app foo";
    "a=rtcp-fb:120 nack app foo bar";
    "a=rtcp-fb:120 nack foo bar baz";
    "a=rtcp-fb:120 trr-int 0";
    "a=rtcp-fb:120 trr-int 123";
    "a=rtcp-fb:120 goog-remb";
    "a=rtcp-fb:120 ccm fir";
    "a=rtcp-fb:120 ccm tmmbr";
    "a=rtcp-fb:120 ccm tstr";
    "a=rtcp-fb:120 ccm vbcm 123 456 789";
    "a=rtcp-fb:120 ccm foo";
    "a=rtcp-fb:120 ccm foo bar baz";
    "a=rtcp-fb:120 foo";
    "a=rtcp-fb:120 foo bar";
    "a=rtcp-fb:120 foo bar baz";
    "a=extmap:1 urn:ietf:params:rtp-hdrext:ssrc-audio-level" ]%string.
Definition sdp_04 : list string :=
  [ "v=0";
    "o=- 4294967296 2 IN IP4 127.0.0.1";
    "s=SIP Call";
    "t=0 0";
    "m=video 56436 RTP/SAVPF 120";
    "c=IN IP4 198.51.100.7";
    "a=rtpmap:120 VP8/90000" ]%string.
Definition sdp_05 : list string :=
  [ "v=0";
    "o=- 4294967296 2 IN IP4 127.0.0.1";
    "s=SIP Call";
    "c=IN IP4 224.0.0.1/100/12";
    "t=0 0";
    "a=ice-lite" ]%string.
Definition sdp_06 : list string :=
  [ "v=0";
    "o=- 4294967296 2 IN IP4 127.0.0.1";
    "s=SIP Call";
    "c=IN IP4 198.51.100.7";
    "b=CT:5000";
    "b=FOOBAR:10";
    "b=AS:4";
    "t=0 0";
    "m=video 56436 RTP/SAVPF 120";
    "a=rtpmap:120 VP8/90000";
    "m=audio 12345/2 RTP/SAVPF 0";
    "a=rtpmap:0 PCMU/8000" ]%string.
Definition sdp_07 : list string :=
  [ "v=0";
    "o=- 4294967296 2 IN IP4 127.0.0.1";
    "s= ";
    "c=IN IP4 198.51.100.7";
    "t=0 0";
    "m=video 56436 RTP/SAVPF 120";
    "b=CT:1000";
    "a=rtpmap:120 VP8/90000" ]%string.
Definition sdp_08 : list string :=
  [ ";";
    "; This example fails to parse because of a mismatched fingerprint length";
    ";";
    "v=0";
    "o=Mozilla-SIPUA-35.0a1 5184 0 IN IP4 0.0.0.0";
    "s=SIP Call";
    "c=IN IP4 224.0.0.1/100/12";
    "t=0 0";
    "a=ice-ufrag:4a799b2e";
    "a=ice-pwd:e4cc12a910f106a0a744719425510e17";
    "a=ice-lite";
    "a=ice-options:trickle foo";
    "a=msid-semantic:WMS stream streama";
    "a=msid-semantic:foo stream";
    "a=fingerprint:sha-256 DF:2E:AC:8A:FD:0A:8E:99:BF:5D:E8:3C:E7:FA:FB:08:3B:3C:54:1D:D7:D4:05:77:A0:72:9B:14:08:6D:0F:4C";
    "a=identity:eyJpZHAiOnsiZG9tYWluIjoiZXhhbXBsZS5vcmciLCJwcm90b2NvbCI6ImJvZ3VzIn0sImFzc2VydGlvbiI6IntcImlkZW50aXR5XCI6XCJib2JAZXhhbXBsZS5vcmdcIixcImNvbnRlbnRzXCI6XCJhYmNkZWZnaGlqa2xtbm9wcXJzdHV2d3l6XCIsXCJzaWduYXR1cmVcIjpcIjAxMDIwMzA0MDUwNlwifSJ9";
    "a=group:BUNDLE first second";
    "a=group:BUNDLE third";
    "a=group:LS first third";
    "m=audio 9 RTP/SAVPF 109 9 0 8 101";
    "c=IN IP4 0.0.0.0";
    "a=mid:first";
    "a=rtpmap:109 opus/48000/2";
    "a=ptime:20";
    "a=maxptime:20";
    "a=rtpmap:9 G722/8000";
    "a=rtpmap:0 PCMU/8000";
    "a=rtpmap:8 PCMA/8000";
    "a=rtpmap:101 telephone-event/8000";
    "a=fmtp:101 0-15,66,32-34,67";
    "a=ice-ufrag:00000000";
    "a=ice-pwd:0000000000000000000000000000000";
    "a=sendonly";
    "a=extmap:1 urn:ietf:params:rtp-hdrext:ssrc-audio-level";
    "a=setup:actpass";
    "a=rtcp-mux";
    "a=msid:stream track";
    "a=candidate:0 1 UDP 2130379007 10.0.0.36 62453 typ host";
    "a=candidate:2 1 UDP 1694236671 24.6.134.204 62453 typ srflx raddr 10.0.0.36 rport 62453";
    "a=candidate:3 1 UDP 100401151 162.222.183.171 49761 typ relay raddr 162.222.183.171 rport 49761";
    "a=candidate:6 1 UDP 16515071 162.222.183.171 51858 typ relay raddr 162.222.183.171 rport 51858";
    "a=candidate:3 2 UDP 100401150 162.222.183.171 62454 typ relay raddr 162.222.183.171 rport 62454";
    "a=candidate:2 2 UDP 1694236670 24.6.134.204 55428 typ srflx raddr 10.0.0.36 rport 55428";
    "a=candidate:6 2 UDP 16515070 162.222.183.171 50340 typ relay raddr 162.222.183.171 rport 50340";
    "a=candidate:0 2 UDP 2130379006 10.0.0.36 55428 typ host";
    "a=rtcp:62454 IN IP4 162.222.183.171";
    "a=end-of-candidates";
    "a=ssrc:5150";
    "m=video 9 RTP/SAVPF 120 121 122 123";
    "c=IN IP6 ::1";
    "a=fingerprint:sha-1 DF:FA:FB:08:3B:3C:54:1D:D7:D4:05:77:A0:72:9B:14:08:6D:0F:4C:2E:AC:8A:FD:0A:8E:99:BF:5D:E8:3C:E7";
    "a=mid:second";
    "a=rtpmap:120 VP8/90000";
    "a=rtpmap:121 VP9/90000";
    "a=rtpmap:122 red/90000";
    "a=rtpmap:123 ulpfec/90000";
    "a=recvonly";
    "a=rtcp-fb:120 nack";
    "a=rtcp-fb:120 nack pli";
    "a=rtcp-fb:120 ccm fir";
    "a=rtcp-fb:121 nack";
    "a=rtcp-fb:121 nack pli";
    "a=rtcp-fb:121 ccm fir";
    "a=setup:active";
    "a=rtcp-mux";
    "a=msid:streama tracka";
    "a=msid:streamb trackb";
    "a=candidate:0 1 UDP 2130379007 10.0.0.36 59530 typ host";
    "a=candidate:0 2 UDP 2130379006 10.0.0.36 64378 typ host";
    "a=candidate:2 2 UDP 1694236670 24.6.134.204 64378 typ srflx raddr 10.0.0.36 rport 64378";
    "a=candidate:6 2 UDP 16515070 162.222.183.171 64941 typ relay raddr 162.222.183.171 rport 64941";
    "a=candidate:6 1 UDP 16515071 162.222.183.171 64800 typ relay raddr 162.222.183.171 rport 64800";
    "a=candidate:2 1 UDP 1694236671 24.6.134.204 59530 typ srflx raddr 10.0.0.36 rport 59530";
    "a=candidate:3 1 UDP 100401151 162.222.183.171 62935 typ relay raddr 162.222.183.171 rport 62935";
    "a=candidate:3 2 UDP 100401150 162.222.183.171 61026 typ relay raddr 162.222.183.171 rport 61026";
    "a=rtcp:61026";
    "a=end-of-candidates";
    "a=ssrc:1111 foo";
    "a=ssrc:1111 foo:bar";
    "a=imageattr:120 send * recv *";
    "m=audio 9 RTP/SAVPF 0";
    "a=mid:third";
    "a=rtpmap:0 PCMU/8000";
    "a=ice-lite";
    "a=ice-options:foo bar";
    "a=msid:noappdata";
    "a=bundle-only" ]%string.
Definition sdp_09 : list string :=
  [ "v=0";
    "o=- 4294967296 2 IN IP4 127.0.0.1";
    "s=SIP Call";
    "c=IN IP4 198.51.100.7";
    "t=0 0";
    "m=audio 9 RTP/SAVPF 109 9 0 8 101";
    "c=IN IP4 0.0.0.0";
    "a=mid:first";
    "a=rtpmap:109 opus/48000/2";
    "a=ptime:20";
    "a=maxptime:20";
    "a=rtpmap:9 G722/8000";
    "a=rtpmap:0 PCMU/8000";
    "a=rtpmap:8 PCMA/8000";
    "a=rtpmap:101 telephone-event/8000";
    "a=fmtp:101 0-15";
    "a=fmtp:101 0-5.";
    "a=fmtp:101 0-15,66,67";
    "a=fmtp:101 0,1,2-4,5-15,66,67";
    "a=fmtp:101 5,6,7";
    "a=fmtp:101 0";
    "a=fmtp:101 1";
    "a=fmtp:101 123";
    "a=fmtp:101 0-123";
    "a=fmtp:101 -12";
    "a=fmtp:101 12-";
    "a=fmtp:101 1,12-,4";
    "a=fmtp:101 ,2,3";
    "a=fmtp:101 ,,,2,3";
    "a=fmtp:101 1,,,,,,,,3";
    "a=fmtp:101 1,2,3,";
    "a=fmtp:101 1-2-3";
    "a=fmtp:101 112233";
    "a=fmtp:101 33-2" ]%string.
Definition sdp_10 : list string :=
  [ "v=0";
    "o=- 4294967296 2 IN IP4 127.0.0.1";
    "s=SIP Call";
    "c=IN IP4 198.51.100.7";
    "t=0 0";
    "m=video 9 RTP/SAVPF 97 120 121 122 123";
    "c=IN IP6 ::1";
    "a=fingerprint:sha-1 DF:FA:FB:08:3B:3C:54:1D:D7:D4:05:77:A0:72:9B:14:08:6D:0F:4C";
    "a=rtpmap:97 H264/90000";
    "a=rtpmap:120 VP8/90000";
    "a=rtpmap:121 VP9/90000";
    "a=rtpmap:122 red/90000";
    "a=rtpmap:123 ulpfec/90000" ]%string.
Definition sdp_11 : list string :=
  [ ";";
    "; This example fails to parse because a=ice-lite is session only";
    ";";
    "v=0";
    "o=Mozilla-SIPUA-35.0a1 5184 0 IN IP4 0.0.0.0";
    "s=SIP Call";
    "c=IN IP4 224.0.0.1/100/12";
    "t=0 0";
    "a=ice-ufrag:4a799b2e";
    "a=ice-pwd:e4cc12a910f106a0a744719425510e17";
    "a=ice-lite";
    "a=msid-semantic:WMS stream streama";
    "a=fingerprint:sha-256 DF:2E:AC:8A:FD:0A:8E:99:BF:5D:E8:3C:E7:FA:FB:08:3B:3C:54:1D:D7:D4:05:77:A0:72:9B:14:08:6D:0F:4C";
    "a=group:BUNDLE first second";
    "a=group:BUNDLE third";
    "a=group:LS first third";
    "m=audio 9 RTP/SAVPF 109 9 0 8 101";
    "c=IN IP4 0.0.0.0";
    "a=mid:first";
    "a=rtpmap:109 opus/48000/2";
    "a=ptime:20";
    "a=maxptime:20";
    "a=rtpmap:9 G722/8000";
    "a=rtpmap:0 PCMU/8000";
    "a=rtpmap:8 PCMA/8000";
    "a=rtpmap:101 telephone-event/8000";
    "a=fmtp:101 0-15,66,32-34,67";
    "a=ice-ufrag:00000000";
    "a=ice-pwd:0000000000000000000000000000000";
    "a=sendonly";
    "a=extmap:1 urn:ietf:params:rtp-hdrext:ssrc-audio-level";
    "a=setup:actpass";
    "a=rtcp-mux";
    "a=msid:stream track";
    "a=candidate:0 1 UDP 2130379007 10.0.0.36 62453 typ host";
    "a=candidate:2 1 UDP 1694236671 24.6.134.204 62453 typ srflx raddr 10.0.0.36 rport 62453";
    "a=candidate:3 1 UDP 100401151 162.222.183.171 49761 typ relay raddr 162.222.183.171 rport 49761";
    "a=candidate:6 1 UDP 16515071 162.222.183.171 51858 typ relay raddr 162.222.183.171 rport 51858";
    "a=candidate:3 2 UDP 100401150 162.222.183.171 62454 typ relay raddr 162.222.183.171 rport 62454";
    "a=candidate:2 2 UDP 1694236670 24.6.134.204 55428 typ srflx raddr 10.0.0.36 rport 55428";
    "a=candidate:6 2 UDP 16515070 162.222.183.171 50340 typ relay raddr 162.222.183.171 rport 50340";
    "a=candidate:0 2 UDP 2130379006 10.0.0.36 55428 typ host";
    "m=video 9 RTP/SAVPF 97 98 120";
    "c=IN IP6 ::1";
    "a=mid:second";
    "a=rtpmap:97 H264/90000";
    "a=rtpmap:98 H264/90000";
    "a=rtpmap:120 VP8/90000";
    "a=recvonly";
    "a=setup:active";
    "a=rtcp-mux";
    "a=msid:streama tracka";
    "a=msid:streamb trackb";
    "a=candidate:0 1 UDP 2130379007 10.0.0.36 59530 typ host";
    "a=candidate:0 2 UDP 2130379006 10.0.0.36 64378 typ host";
    "a=candidate:2 2 UDP 1694236670 24.6.134.204 64378 typ srflx raddr 10.0.0.36 rport 64378";
    "a=candidate:6 2 UDP 16515070 162.222.183.171 64941 typ relay raddr 162.222.183.171 rport 64941";
    "a=candidate:6 1 UDP 16515071 162.222.183.171 64800 typ relay raddr 162.222.183.171 rport 64800";
    "a=candidate:2 1 UDP 1694236671 24.6.134.204 59530 typ srflx raddr 10.0.0.36 rport 59530";
    "a=candidate:3 1 UDP 100401151 162.222.183.171 62935 typ relay raddr 162.222.183.171 rport 62935";
    "a=candidate:3 2 UDP 100401150 162.222.183.171 61026 typ relay raddr 162.222.183.171 rport 61026";
    "m=audio 9 RTP/SAVPF 0";
    "a=mid:third";
    "a=rtpmap:0 PCMU/8000";
    "a=ice-lite";
    "a=msid:noappdata" ]%string.
Definition sdp_12 : list string :=
  [ "v=0";
    "o=Mozilla-SIPUA-35.0a1 27987 0 IN IP4 0.0.0.0";
    "s=SIP Call";
    "t=0 0";
    "a=ice-ufrag:8a39d2ae";
    "a=ice-pwd:601d53aba51a318351b3ecf5ee00048f";
    "a=fingerprint:sha-256 30:FF:8E:2B:AC:9D:ED:70:18:10:67:C8:AE:9E:68:F3:86:53:51:B0:AC:31:B7:BE:6D:CF:A4:2E:D3:6E:B4:28";
    "m=audio 9 RTP/SAVPF 109 9 0 8 101";
    "c=IN IP4 0.0.0.0";
    "a=rtpmap:109 opus/48000/2";
    "a=ptime:20";
    "a=rtpmap:9 G722/8000";
    "a=rtpmap:0 PCMU/8000";
    "a=rtpmap:8 PCMA/8000";
    "a=rtpmap:101 telephone-event/8000";
    "a=fmtp:101 0-15";
    "a=sendrecv";
    "a=extmap:1 urn:ietf:params:rtp-hdrext:ssrc-audio-level";
    "a=extmap:2/sendonly some_extension";
    "a=extmap:3 some_other_extension some_params some more params";
    "a=setup:actpass";
    "a=rtcp-mux";
    "m=video 9 RTP/SAVPF 120 126 97";
    "c=IN IP4 0.0.0.0";
    "a=rtpmap:120 VP8/90000";
    "a=rtpmap:126 H264/90000";
    "a=rtpmap:97 H264/90000";
    "a=sendrecv";
    "a=rtcp-fb:120 ack rpsi";
    "a=rtcp-fb:120 ack app foo";
    "a=rtcp-fb:120 ack foo";
    "a=rtcp-fb:120 nack";
    "a=rtcp-fb:120 nack sli";
    "a=rtcp-fb:120 nack pli";
    "a=rtcp-fb:120 nack rpsi";
    "a=rtcp-fb:120 nack app foo";
    "a=rtcp-fb:120 nack foo";
    "a=rtcp-fb:120 ccm fir";
    "a=rtcp-fb:120 ccm tmmbr";
    "a=rtcp-fb:120 ccm tstr";
    "a=rtcp-fb:120 ccm vbcm";
    "a=rtcp-fb:120 ccm foo";
    "a=rtcp-fb:120 trr-int 10";
    "a=rtcp-fb:120 goog-remb";
    "a=rtcp-fb:120 foo";
    "a=rtcp-fb:126 nack";
    "a=rtcp-fb:126 nack pli";
    "a=rtcp-fb:126 ccm fir";
    "a=rtcp-fb:97 nack";
    "a=rtcp-fb:97 nack pli";
    "a=rtcp-fb:97 ccm fir";
    "a=rtcp-fb:* ccm tmmbr";
    "a=setup:actpass";
    "a=rtcp-mux";
    "m=application 9 DTLS/SCTP 5000";
    "c=IN IP4 0.0.0.0";
    "a=sctpmap:5000 webrtc-datachannel 16";
    "a=setup:actpass" ]%string.
Definition sdp_13 : list string :=
  [ "v=0";
    "o=Mozilla-SIPUA-35.0a1 27987 0 IN IP4 0.0.0.0";
    "s=SIP Call";
    "t=0 0";
    "a=ice-ufrag:8a39d2ae";
    "a=ice-pwd:601d53aba51a318351b3ecf5ee00048f";
    "a=fingerprint:sha-256 30:FF:8E:2B:AC:9D:ED:70:18:10:67:C8:AE:9E:68:F3:86:53:51:B0:AC:31:B7:BE:6D:CF:A4:2E:D3:6E:B4:28";
    "m=application 9 UDP/DTLS/SCTP webrtc-datachannel";
    "c=IN IP4 0.0.0.0";
    "a=sctp-port:5000";
    "a=max-message-size:10000";
    "a=setup:actpass" ]%string.
Definition sdp_14 : list string :=
  [ "v=0";
    "o=Mozilla-SIPUA-35.0a1 5184 0 IN IP4 0.0.0.0";
    "s=SIP Call";
    "c=IN IP4 224.0.0.1/100/12";
    "t=0 0";
    "a=candidate:0 1 UDP 2130379007 10.0.0.36 62453 typ host";
    "m=audio 9 RTP/SAVPF 109 9 0 8 101";
    "c=IN IP4 0.0.0.0";
    "a=rtpmap:109 opus/48000/2" ]%string.
Definition sdp_15 : list string :=
  [ "v=0";
    "o=Mozilla-SIPUA-35.0a1 5184 0 IN IP4 0.0.0.0";
    "s=SIP Call";
    "c=IN IP4 224.0.0.1/100/12";
    "t=0 0";
    "a=bundle-only";
    "m=audio 9 RTP/SAVPF 109 9 0 8 101";
    "c=IN IP4 0.0.0.0";
    "a=rtpmap:109 opus/48000/2" ]%string.
Definition sdp_16 : list string :=
  [ "v=0";
    "o=Mozilla-SIPUA-35.0a1 5184 0 IN IP4 0.0.0.0";
    "s=SIP Call";
    "c=IN IP4 224.0.0.1/100/12";
    "t=0 0";
    "a=fmtp:109 0-15";
    "m=audio 9 RTP/SAVPF 109 9 0 8 101";
    "c=IN IP4 0.0.0.0";
    "a=rtpmap:109 opus/48000/2" ]%string.
Definition sdp_17 : list string :=
  [ "v=0";
    "o=Mozilla-SIPUA-35.0a1 5184 0 IN IP4 0.0.0.0";
    "s=SIP Call";
    "c=IN IP4 224.0.0.1/100/12";
    "t=0 0";
    "a=ice-mismatch";
    "m=audio 9 RTP/SAVPF 109 9 0 8 101";
    "c=IN IP4 0.0.0.0";
    "a=rtpmap:109 opus/48000/2" ]%string.
Definition sdp_18 : list string :=
  [ "v=0";
    "o=Mozilla-SIPUA-35.0a1 5184 0 IN IP4 0.0.0.0";
    "s=SIP Call";
    "c=IN IP4 224.0.0.1/100/12";
    "t=0 0";
    "a=imageattr:120 send * recv *";
    "m=video 9 RTP/SAVPF 120";
    "c=IN IP4 0.0.0.0";
    "a=rtpmap:120 VP8/90000" ]%string.
Definition sdp_19 : list string :=
  [ "v=0";
    "o=Mozilla-SIPUA-35.0a1 5184 0 IN IP4 0.0.0.0";
    "s=SIP Call";
    "c=IN IP4 224.0.0.1/100/12";
    "t=0 0";
    "a=label:foobar";
    "m=video 9 RTP/SAVPF 120";
    "c=IN IP4 0.0.0.0";
    "a=rtpmap:120 VP8/90000" ]%string.
Definition sdp_20 : list string :=
  [ "v=0";
    "o=Mozilla-SIPUA-35.0a1 5184 0 IN IP4 0.0.0.0";
    "s=SIP Call";
    "c=IN IP4 224.0.0.1/100/12";
    "t=0 0";
    "a=maxptime:100";
    "m=video 9 RTP/SAVPF 120";
    "c=IN IP4 0.0.0.0";
    "a=rtpmap:120 VP8/90000" ]%string.
Definition sdp_21 : list string :=
  [ "v=0";
    "o=Mozilla-SIPUA-35.0a1 5184 0 IN IP4 0.0.0.0";
    "s=SIP Call";
    "c=IN IP4 224.0.0.1/100/12";
    "t=0 0";
    "a=mid:foobar";
    "m=video 9 RTP/SAVPF 120";
    "c=IN IP4 0.0.0.0";
    "a=rtpmap:120 VP8/90000" ]%string.
Definition sdp_22 : list string :=
  [ "v=0";
    "o=Mozilla-SIPUA-35.0a1 5184 0 IN IP4 0.0.0.0";
    "s=SIP Call";
    "c=IN IP4 224.0.0.1/100/12";
    "t=0 0";
    "a=msid:foobar";
    "m=video 9 RTP/SAVPF 120";
    "c=IN IP4 0.0.0.0";
    "a=rtpmap:120 VP8/90000" ]%string.
Definition sdp_23 : list string :=
  [ "v=0";
    "o=Mozilla-SIPUA-35.0a1 5184 0 IN IP4 0.0.0.0";
    "s=SIP Call";
    "c=IN IP4 224.0.0.1/100/12";
    "t=0 0";
    "a=ptime:50";
    "m=video 9 RTP/SAVPF 120";
    "c=IN IP4 0.0.0.0";
    "a=rtpmap:120 VP8/90000" ]%string.
Definition sdp_24 : list string :=
  [ "v=0";
    "o=Mozilla-SIPUA-35.0a1 5184 0 IN IP4 0.0.0.0";
    "s=SIP Call";
    "c=IN IP4 224.0.0.1/100/12";
    "t=0 0";
    "a=remote-candidates:0 10.0.0.1 5555";
    "m=video 9 RTP/SAVPF 120";
    "c=IN IP4 0.0.0.0";
    "a=rtpmap:120 VP8/90000" ]%string.
Definition sdp_25 : list string :=
  [ "v=0";
    "o=Mozilla-SIPUA-35.0a1 5184 0 IN IP4 0.0.0.0";
    "s=SIP Call";
    "c=IN IP4 224.0.0.1/100/12";
    "t=0 0";
    "a=rtcp:5555";
    "m=video 9 RTP/SAVPF 120";
    "c=IN IP4 0.0.0.0";
    "a=rtpmap:120 VP8/90000" ]%string.
Definition sdp_26 : list string :=
  [ "v=0";
    "o=Mozilla-SIPUA-35.0a1 5184 0 IN IP4 0.0.0.0";
    "s=SIP Call";
    "c=IN IP4 224.0.0.1/100/12";
    "t=0 0";
    "a=rtcp-fb:120 nack";
    "m=video 9 RTP/SAVPF 120";
    "c=IN IP4 0.0.0.0";
    "a=rtpmap:120 VP8/90000" ]%string.
Definition sdp_27 : list string :=
  [ "v=0";
    "o=Mozilla-SIPUA-35.0a1 5184 0 IN IP4 0.0.0.0";
    "s=SIP Call";
    "c=IN IP4 224.0.0.1/100/12";
    "t=0 0";
    "a=rtcp-mux";
    "m=video 9 RTP/SAVPF 120";
    "c=IN IP4 0.0.0.0";
    "a=rtpmap:120 VP8/90000" ]%string.
Definition sdp_28 : list string :=
  [ "v=0";
    "o=Mozilla-SIPUA-35.0a1 5184 0 IN IP4 0.0.0.0";
    "s=SIP Call";
    "c=IN IP4 224.0.0.1/100/12";
    "t=0 0";
    "a=rtcp-rsize";
    "m=video 9 RTP/SAVPF 120";
    "c=IN IP4 0.0.0.0";
    "a=rtpmap:120 VP8/90000" ]%string.
Definition sdp_29 : list string :=
  [ "v=0";
    "o=Mozilla-SIPUA-35.0a1 5184 0 IN IP4 0.0.0.0";
    "s=SIP Call";
    "c=IN IP4 224.0.0.1/100/12";
    "t=0 0";
    "a=rtpmap:120 VP8/90000";
    "m=video 9 RTP/SAVPF 120";
    "c=IN IP4 0.0.0.0" ]%string.
Definition sdp_30 : list string :=
  [ "v=0";
    "o=Mozilla-SIPUA-35.0a1 5184 0 IN IP4 0.0.0.0";
    "s=SIP Call";
    "c=IN IP4 224.0.0.1/100/12";
    "t=0 0";
    "a=sctpmap:5000";
    "m=video 9 RTP/SAVPF 120";
    "c=IN IP4 0.0.0.0";
    "a=rtpmap:120 VP8/90000" ]%string.
Definition sdp_31 : list string :=
  [ "v=0";
    "o=Mozilla-SIPUA-35.0a1 5184 0 IN IP4 0.0.0.0";
    "s=SIP Call";
    "c=IN IP4 224.0.0.1/100/12";
    "t=0 0";
    "a=ssrc:5000";
    "m=video 9 RTP/SAVPF 120";
    "c=IN IP4 0.0.0.0";
    "a=rtpmap:120 VP8/90000" ]%string.
Definition sdp_32 : list string :=
  [ "v=0";
    "o=Mozilla-SIPUA-35.0a1 5184 0 IN IP4 0.0.0.0";
    "s=SIP Call";
    "c=IN IP4 224.0.0.1/100/12";
    "t=0 0";
    "a=ssrc-group:FID 5000";
    "m=video 9 RTP/SAVPF 120";
    "c=IN IP4 0.0.0.0";
    "a=rtpmap:120 VP8/90000" ]%string.
Definition sdp_33 : list string :=
  [ "v=0";
    "o=Mozilla-SIPUA-35.0a1 5184 0 IN IP4 0.0.0.0";
    "s=SIP Call";
    "c=IN IP4 224.0.0.1/100/12";
    "t=0 0";
    "m=video 9 RTP/SAVPF 120";
    "c=IN IP4 0.0.0.0";
    "a=rtpmap:120 VP8/90000";
    "a=imageattr:flob" ]%string.
Definition sdp_34 : list string :=
  [ "v=0";
    "o=- 4294967296 2 IN IP4 127.0.0.1";
    "s=SIP Call";
    "c=IN IP4 198.51.100.7";
    "b=CT:5000";
    "t=0 0";
    "m=video 56436 RTP/SAVPF 120";
    "a=rtpmap:120 VP8/90000";
    "a=sendrecv" ]%string.
Definition sdp_35 : list string :=
  [ "v=0";
    "o=- 4294967296 2 IN IP4 127.0.0.1";
    "s=SIP Call";
    "c=IN IP4 198.51.100.7";
    "b=CT:5000";
    "t=0 0";
    "m=video 56436 RTP/SAVPF 120";
    "a=rtpmap:120 VP8/90000";
    "a=sendrecv" ]%string.
Definition sdp_36 : list string :=
  [ "v=0";
    "o=- 4294967296 2 IN IP4 127.0.0.1";
    "s=SIP Call";
    "c=IN IP4 198.51.100.7";
    "b=CT:5000";
    "t=0 0";
    "m=video 56436 RTP/SAVPF 120";
    "a=rtpmap:120 VP8/90000";
    "a=sendrecv" ]%string.
Definition sdp_37 : list string :=
  [ "v=0";
    "o=- 4294967296 2 IN IP4 127.0.0.1";
    "s=SIP Call";
    "c=IN IP4 198.51.100.7";
    "b=CT:5000";
    "t=0 0";
    "m=video 56436 RTP/SAVPF 120";
    "a=rtpmap:120 VP8/90000";
    "a=recvonly" ]%string.
Definition sdp_38 : list string :=
  [ "v=0";
    "o=- 4294967296 2 IN IP4 127.0.0.1";
    "s=SIP Call";
    "c=IN IP4 198.51.100.7";
    "b=CT:5000";
    "t=0 0";
    "m=video 56436 RTP/SAVPF 120";
    "a=rtpmap:120 VP8/90000";
    "a=sendonly" ]%string.
Definition sdp_39 : list string :=
  [ "v=0";
    "o=Mozilla-SIPUA-35.0a1 5184 0 IN IP4 0.0.0.0";
    "s=SIP Call";
    "c=IN IP4 224.0.0.1/100/12";
    "t=0 0";
    "m=video 9 RTP/SAVPF 120";
    "c=IN IP4 0.0.0.0";
    "a=rtpmap:120 VP8/90000" ]%string.
Definition sdp_40 : list string :=
  [ "v=0";
    "o=Mozilla-SIPUA-35.0a1 5184 0 IN IP4 0.0.0.0";
    "s=SIP Call";
    "c=IN IP4 224.0.0.1/100/12";
    "t=0 0";
    "m=video 9 RTP/SAVPF 120";
    "c=IN IP4 0.0.0.0";
    "a=rtpmap:120 VP8/90000" ]%string.
Definition sdp_41 : list string :=
  [ "v=0";
    "o=- 1109973417102828257 2 IN IP4 127.0.0.1";
    "s=-";
    "t=0 0";
    "a=group:BUNDLE audio video";
    "a=msid-semantic: WMS 1PBxet5BYh0oYodwsvNM4k6KiO2eWCX40VIP";
    "m=audio 32952 UDP/TLS/RTP/SAVPF 111 103 104 0 8 107 106 105 13 126";
    "c=IN IP4 128.64.32.16";
    "a=rtcp:32952 IN IP4 128.64.32.16";
    "a=candidate:77142221 1 udp 2113937151 192.168.137.1 54081 typ host generation 0";
    "a=candidate:77142221 2 udp 2113937151 192.168.137.1 54081 typ host generation 0";
    "a=candidate:983072742 1 udp 2113937151 172.22.0.56 54082 typ host generation 0";
    "a=candidate:983072742 2 udp 2113937151 172.22.0.56 54082 typ host generation 0";
    "a=candidate:2245074553 1 udp 1845501695 32.64.128.1 62397 typ srflx raddr 192.168.137.1 rport 54081 generation 0";
    "a=candidate:2245074553 2 udp 1845501695 32.64.128.1 62397 typ srflx raddr 192.168.137.1 rport 54081 generation 0";
    "a=candidate:2479353907 1 udp 1845501695 32.64.128.1 54082 typ srflx raddr 172.22.0.56 rport 54082 generation 0";
    "a=candidate:2479353907 2 udp 1845501695 32.64.128.1 54082 typ srflx raddr 172.22.0.56 rport 54082 generation 0";
    "a=candidate:1243276349 1 tcp 1509957375 192.168.137.1 0 typ host generation 0";
    "a=candidate:1243276349 2 tcp 1509957375 192.168.137.1 0 typ host generation 0";
    "a=candidate:1947960086 1 tcp 1509957375 172.22.0.56 0 typ host generation 0";
    "a=candidate:1947960086 2 tcp 1509957375 172.22.0.56 0 typ host generation 0";
    "a=candidate:1808221584 1 udp 33562367 128.64.32.16 32952 typ relay raddr 32.64.128.1 rport 62398 generation 0";
    "a=candidate:1808221584 2 udp 33562367 128.64.32.16 32952 typ relay raddr 32.64.128.1 rport 62398 generation 0";
    "a=candidate:507872740 1 udp 33562367 128.64.32.16 40975 typ relay raddr 32.64.128.1 rport 54085 generation 0";
    "a=candidate:507872740 2 udp 33562367 128.64.32.16 40975 typ relay raddr 32.64.128.1 rport 54085 generation 0";
    "a=ice-ufrag:xQuJwjX3V3eMA81k";
    "a=ice-pwd:ZUiRmjS2GDhG140p73dAsSVP";
    "a=ice-options:google-ice";
    "a=fingerprint:sha-256 59:4A:8B:73:A7:73:53:71:88:D7:4D:58:28:0C:79:72:31:29:9B:05:37:DD:58:43:C2:D4:85:A2:B3:66:38:7A";
    "a=setup:active";
    "a=extmap:1 urn:ietf:params:rtp-hdrext:ssrc-audio-level";
    "a=sendrecv";
    "a=mid:audio";
    "a=rtcp-mux";
    "a=crypto:1 AES_CM_128_HMAC_SHA1_80 inline:/U44g3ULdtapeiSg+T3n6dDLBKIjpOhb/NXAL/2b";
    "a=rtpmap:111 opus/48000/2";
    "a=rtpmap:103 ISAC/16000";
    "a=rtpmap:104 ISAC/32000";
    "a=rtpmap:0 PCMU/8000";
    "a=rtpmap:8 PCMA/8000";
    "a=rtpmap:107 CN/48000";
    "a=rtpmap:106 CN/32000";
    "a=rtpmap:105 CN/16000";
    "a=rtpmap:13 CN/8000";
    "a=rtpmap:126 telephone-event/8000";
    "a=maxptime:60";
    "a=ssrc:2271517329 cname:mKDNt7SQf6pwDlIn";
    "a=ssrc:2271517329 msid:1PBxet5BYh0oYodwsvNM4k6KiO2eWCX40VIP 1PBxet5BYh0oYodwsvNM4k6KiO2eWCX40VIPa0";
    "a=ssrc:2271517329 mslabel:1PBxet5BYh0oYodwsvNM4k6KiO2eWCX40VIP";
    "a=ssrc:2271517329 label:1PBxet5BYh0oYodwsvNM4k6KiO2eWCX40VIPa0";
    "m=video 32952 UDP/TLS/RTP/SAVPF 100 116 117";
    "c=IN IP4 128.64.32.16";
    "a=rtcp:32952 IN IP4 128.64.32.16";
    "a=candidate:77142221 1 udp 2113937151 192.168.137.1 54081 typ host generation 0";
    "a=candidate:77142221 2 udp 2113937151 192.168.137.1 54081 typ host generation 0";
    "a=candidate:983072742 1 udp 2113937151 172.22.0.56 54082 typ host generation 0";
    "a=candidate:983072742 2 udp 2113937151 172.22.0.56 54082 typ host generation 0";
    "a=candidate:2245074553 1 udp 1845501695 32.64.128.1 62397 typ srflx raddr 192.168.137.1 rport 54081 generation 0";
    "a=candidate:2245074553 2 udp 1845501695 32.64.128.1 62397 typ srflx raddr 192.168.137.1 rport 54081 generation 0";
    "a=candidate:2479353907 1 udp 1845501695 32.64.128.1 54082 typ srflx raddr 172.22.0.56 rport 54082 generation 0";
    "a=candidate:2479353907 2 udp 1845501695 32.64.128.1 54082 typ srflx raddr 172.22.0.56 rport 54082 generation 0";
    "a=candidate:1243276349 1 tcp 1509957375 192.168.137.1 0 typ host generation 0";
    "a=candidate:1243276349 2 tcp 1509957375 192.168.137.1 0 typ host generation 0";
    "a=candidate:1947960086 1 tcp 1509957375 172.22.0.56 0 typ host generation 0";
    "a=candidate:1947960086 2 tcp 1509957375 172.22.0.56 0 typ host generation 0";
    "a=candidate:1808221584 1 udp 33562367 128.64.32.16 32952 typ relay raddr 32.64.128.1 rport 62398 generation 0";
    "a=candidate:1808221584 2 udp 33562367 128.64.32.16 32952 typ relay raddr 32.64.128.1 rport 62398 generation 0";
    "a=candidate:507872740 1 udp 33562367 128.64.32.16 40975 typ relay raddr 32.64.128.1 rport 54085 generation 0";
    "a=candidate:507872740 2 udp 33562367 128.64.32.16 40975 typ relay raddr 32.64.128.1 rport 54085 generation 0";
    "a=ice-ufrag:xQuJwjX3V3eMA81k";
    "a=ice-pwd:ZUiRmjS2GDhG140p73dAsSVP";
    "a=ice-options:google-ice";
    "a=fingerprint:sha-256 59:4A:8B:73:A7:73:53:71:88:D7:4D:58:28:0C:79:72:31:29:9B:05:37:DD:58:43:C2:D4:85:A2:B3:66:38:7A";
    "a=setup:active";
    "a=extmap:2 urn:ietf:params:rtp-hdrext:toffset";
    "a=extmap:3 http://www.webrtc.org/experiments/rtp-hdrext/abs-send-time";
    "a=sendrecv";
    "a=mid:video";
    "a=rtcp-mux";
    "a=crypto:1 AES_CM_128_HMAC_SHA1_80 inline:/U44g3ULdtapeiSg+T3n6dDLBKIjpOhb/NXAL/2b";
    "a=rtpmap:100 VP8/90000";
    "a=rtcp-fb:100 ccm fir";
    "a=rtcp-fb:100 nack";
    "a=rtcp-fb:100 goog-remb";
    "a=rtpmap:116 red/90000";
    "a=rtpmap:117 ulpfec/90000";
    "a=ssrc:54724160 cname:mKDNt7SQf6pwDlIn";
    "a=ssrc:54724160 msid:1PBxet5BYh0oYodwsvNM4k6KiO2eWCX40VIP 1PBxet5BYh0oYodwsvNM4k6KiO2eWCX40VIPv0";
    "a=ssrc:54724160 mslabel:1PBxet5BYh0oYodwsvNM4k6KiO2eWCX40VIP";
    "a=ssrc:54724160 label:1PBxet5BYh0oYodwsvNM4k6KiO2eWCX40VIPv0";
    "" ]%string.

(** The runs: the file and whether --expect-failure is passed. *)
Definition runs : list (list string * bool) :=
  [ (sdp_02, false);
    (sdp_03, true);
    (sdp_04, false);
    (sdp_05, false);
    (sdp_06, false);
    (sdp_07, false);
    (sdp_08, true);
    (sdp_09, false);
    (sdp_10, false);
    (sdp_11, true);
    (sdp_12, true);
    (sdp_13, false);
    (sdp_14, true);
    (sdp_15, true);
    (sdp_16, true);
    (sdp_17, true);
    (sdp_18, true);
    (sdp_19, true);
    (sdp_20, true);
    (sdp_21, true);
    (sdp_22, true);
    (sdp_23, true);
    (sdp_24, true);
    (sdp_25, true);
    (sdp_26, true);
    (sdp_27, true);
    (sdp_28, true);
    (sdp_29, true);
    (sdp_30, true);
    (sdp_31, true);
    (sdp_32, true);
    (sdp_33, true);
    (sdp_34, false);
    (sdp_35, false);
    (sdp_36, false);
    (sdp_37, false);
    (sdp_38, false);
    (sdp_39, false);
    (sdp_40, false);
    (sdp_41, true) ].
Definition status (r : list string * bool) : N :=
  file_parser (E := Ext0) ([lit "file_parser"; lit "x.sdp"] ++ (if snd r then [lit "--expect-failure"] else []))
    (fun _ => Contents (lf_lines (fst r))).
Example all_runs : map status runs = repeat 0 40.
Proof. vm_compute. reflexivity. Qed.
(** Without the expectation, or with the wrong one, the status is another. *)
Example all_wrong_runs : forallb (fun r => negb (status (fst r, negb (snd r)) =? 0)) runs = true.
Proof. vm_compute. reflexivity. Qed.
