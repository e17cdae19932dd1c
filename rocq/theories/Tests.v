(** * The inputs of the project's own tests, run on the model

    Generated from src/attribute_type_tests.rs, src/lib_tests.rs,
    src/media_type_tests.rs and tests/parse_sdp_tests.rs: every text passed to a
    parse function with the outcome the test asserts, and every text that a test
    parses and prints again.  These are tests of the model, not theorems about
    it; [Ext0] stands for the external components. *)
From Coq Require Import List NArith Bool Ascii String.
From Verif Require Import Str Num Net Types Ext Show Address AttrParse Media Session Ext0.
Import ListNotations.
Open Scope N_scope.
Open Scope list_scope.

(** "\r" and "\n" in the texts below stand for the characters. *)
Fixpoint unescape (s : str) : str :=
  match s with
  | 92 :: 114 :: r => 13 :: unescape r
  | 92 :: 110 :: r => 10 :: unescape r
  | c :: r => c :: unescape r
  | [] => []
  end.
Definition accepts {E A} (f : str -> res E A) (l : list string) : bool :=
  forallb (fun t => is_ok (f (unescape (of_string t)))) l.
Definition rejects {E A} (f : str -> res E A) (l : list string) : bool :=
  forallb (fun t => match f (unescape (of_string t)) with Err _ => true | _ => false end) l.
Definition prints_back {E A} (f : str -> res E A) (show : A -> option str) (l : list string) : bool :=
  forallb (fun t => let s := unescape (of_string t) in
                    match f s with
                    | Ok x => match show x with Some s' => str_eqb s' s | None => false end
                    | _ => false
                    end) l.
#[local] Existing Instance Ext0.
Definition show_attribute_type (ty : sdp_type) : option str :=
  match ty with TyAttribute a => Some (show_attr a) | _ => None end.
Definition show_media_type (ty : sdp_type) : option str :=
  match ty with TyMedia m => Some (show_media_line m) | _ => None end.
Definition line s := parse_sdp_line s 0.
Definition strict s := parse_sdp s true.
Definition lenient s := parse_sdp s false.

Example test_1 : prints_back parse_attribute show_attribute_type [
    "candidate:0 1 UDP 2122252543 172.16.156.106 49760 typ host";
    "candidate:foo 1 UDP 2122252543 172.16.156.106 49760 typ host";
    "candidate:0 1 TCP 2122252543 172.16.156.106 49760 typ host";
    "candidate:0 1 TCP 2122252543 ::1 49760 typ host";
    "candidate:0 1 TCP 2122252543 2001:db8:4860::4444 49760 typ host";
    "candidate:0 1 UDP 2122252543 172.16.156.106 49760 typ srflx";
    "candidate:0 1 UDP 2122252543 172.16.156.106 49760 typ prflx";
    "candidate:0 1 UDP 2122252543 172.16.156.106 49760 typ relay";
    "candidate:0 1 TCP 2122252543 172.16.156.106 49760 typ host tcptype active";
    "candidate:0 1 TCP 2122252543 172.16.156.106 49760 typ host tcptype passive";
    "candidate:0 1 TCP 2122252543 172.16.156.106 49760 typ host tcptype so";
    "candidate:0 1 TCP 2122252543 172.16.156.106 49760 typ host ufrag foobar";
    "candidate:0 1 TCP 2122252543 172.16.156.106 49760 typ host network-cost 50";
    "candidate:1 1 UDP 1685987071 24.23.204.141 54609 typ srflx raddr 192.168.1.4 rport 61665 generation 0";
    "candidate:1 1 UDP 1685987071 24.23.204.141 54609 typ srflx raddr 192.168.1.4 rport 61665";
    "candidate:1 1 TCP 1685987071 24.23.204.141 54609 typ srflx raddr 192.168.1.4 rport 61665 tcptype passive";
    "candidate:1 1 TCP 1685987071 24.23.204.141 54609 typ srflx raddr 192.168.1.4 rport 61665 tcptype passive generation 1";
    "candidate:1 1 TCP 1685987071 24.23.204.141 54609 typ srflx raddr 192.168.1.4 rport 61665 tcptype passive generation 1 ufrag +DGd";
    "candidate:1 1 TCP 1685987071 24.23.204.141 54609 typ srflx raddr 192.168.1.4 rport 61665 tcptype passive generation 1 ufrag +DGd network-cost 1";
    "candidate:0 1 TCP 2122252543 172.16.156.106 49760 typ host unsupported foo";
    "candidate:0 1 TCP 2122252543 172.16.156.106 49760 typ host unsupported foo more_unsupported bar";
    "dtls-message:client SGVsbG8gV29ybGQ=";
    "dtls-message:server SGVsbG8gV29ybGQ=";
    "dtls-message:client IGlzdCBl/W4gUeiBtaXQg+JSB1bmQCAkJJkSNEQ=";
    "dtls-message:server IGlzdCBl/W4gUeiBtaXQg+JSB1bmQCAkJJkSNEQ=";
    "end-of-candidates";
    "extmap:1/sendonly urn:ietf:params:rtp-hdrext:ssrc-audio-level";
    "extmap:2/sendrecv urn:ietf:params:rtp-hdrext:ssrc-audio-level";
    "extmap:3 http://www.webrtc.org/experiments/rtp-hdrext/abs-send-time";
    "extmap:3 http://www.webrtc.org/experiments/rtp-hdrext/abs-send-time ext_attributes";
    "fingerprint:sha-1 CD:34:D1:62:16:95:7B:B7:EB:74:E2:39:27:97:EB:0B:23:73:AC:BC";
    "fingerprint:sha-224 CD:34:D1:62:16:95:7B:B7:EB:74:E2:39:27:97:EB:0B:23:73:AC:BC:27:97:EB:0B:23:73:AC:BC";
    "fingerprint:sha-256 CD:34:D1:62:16:95:7B:B7:EB:74:E2:39:27:97:EB:0B:23:73:AC:BC:27:97:EB:0B:23:73:AC:BC:CD:34:D1:62";
    "fingerprint:sha-384 CD:34:D1:62:16:95:7B:B7:EB:74:E2:39:27:97:EB:0B:23:73:AC:BC:27:97:EB:0B:23:73:AC:BC:CD:34:D1:62:16:95:7B:B7:EB:74:E2:39:27:97:EB:0B:23:73:AC:BC";
    "fingerprint:sha-512 CD:34:D1:62:16:95:7B:B7:EB:74:E2:39:27:97:EB:0B:23:73:AC:BC:97:EB:0B:23:73:AC:BC:CD:34:D1:62:16:95:7B:B7:EB:74:E2:39:27:EB:0B:23:73:AC:BC:27:97:EB:0B:23:73:AC:BC:27:97:EB:0B:23:73:BC:EB:0B:23";
    "fmtp:109 maxplaybackrate=46000;stereo=1;useinbandfec=1";
    "fmtp:126 profile-level-id=42e01f;level-asymmetry-allowed=1;packetization-mode=1";
    "fmtp:66 0-15";
    "fmtp:109 0-15,66";
    "fmtp:66 111/115";
    "fmtp:8 maxplaybackrate=46000";
    "fmtp:8 maxaveragebitrate=46000";
    "fmtp:8 maxaveragebitrate=46000;ptime=60;minptime=20;maxptime=120";
    "fmtp:8 max-cpb=1234;max-dpb=32000;max-br=3;max-mbps=46000;usedtx=1;cbr=1";
    "fmtp:97 apt=96";
    "fmtp:97 apt=96;rtx-time=3000";
    "fmtp:102 packetization-mode=1;sprop-parameter-sets=Z0LAFYyNQKD5APCIRqA=,aM48gA==";
    "fmtp:97 profile=2;level-idx=3;tier=1";
    "framerate:1";
    "framerate:60";
    "framerate:23.5";
    "framerate:4294967297";
    "group:LS";
    "group:LS 1 2";
    "group:FID 1 2";
    "group:SRF 1 2";
    "group:FEC S1 R1";
    "group:ANAT S1 R1";
    "group:DDP L1 L2 L3";
    "group:BUNDLE sdparta_0 sdparta_1 sdparta_2";
    "bundle-only";
    "ice-lite";
    "extmap-allow-mixed";
    "ice-mismatch";
    "ice-options:trickle";
    "ice-pacing:50";
    "ice-pwd:e3baa26dd2fa5030d881d385f1e36cce";
    "ice-ufrag:58b99ead";
    "identity:eyJpZHAiOnsiZG9tYWluIjoiZXhhbXBsZS5vcmciLCJwcm90b2NvbCI6ImJvZ3VzIn0sImFzc2VydGlvbiI6IntcImlkZW50aXR5XCI6XCJib2JAZXhhbXBsZS5vcmdcIixcImNvbnRlbnRzXCI6XCJhYmNkZWZnaGlqa2xtbm9wcXJzdHV2d3l6XCIsXCJzaWduYXR1cmVcIjpcIjAxMDIwMzA0MDUwNlwifSJ9";
    "imageattr:120 send * recv *";
    "imageattr:99 send [x=320,y=240] recv [x=320,y=240]";
    "imageattr:97 send [x=800,y=640,sar=1.1,q=0.6] [x=480,y=320] recv [x=330,y=250]";
    "imageattr:97 send [x=[480:16:800],y=[320:16:640],par=[1.2-1.3],q=0.6] [x=[176:8:208],y=[144:8:176],par=[1.2-1.3]] recv *";
    "imageattr:99 send [x=320,y=240]";
    "inactive";
    "label:1";
    "label:foobar";
    "label:foobar barfoo";
    "maxptime:60";
    "mid:sdparta_0";
    "mid:sdparta_0 sdparta_1 sdparta_2";
    "msid:{5a990edd-0568-ac40-8d97-310fc33f3411}";
    "msid:{5a990edd-0568-ac40-8d97-310fc33f3411} {218cfa1c-617d-2249-9997-60929ce4c405}";
    "msid-semantic:WMS *";
    "msid-semantic:WMS foo";
    "ptime:30";
    "rid:foo send pt=10";
    "rid:110 send pt=9,10";
    "rid:110 send pt=9,10;max-fs=10";
    "rid:110 send pt=9,10;max-width=10;depends=1,2,3";
    "rid:110 recv max-mbps=420;max-cpb=3;max-dpb=3";
    "rid:110 recv scale-down-by=1.35;depends=1,2,3";
    "rid:110 recv max-width=10;depends=1,2,3";
    "rid:110 recv max-fs=10;UNKNOWN=100;depends=1,2,3";
    "rid:foo send";
    "rid:110 send pt=9";
    "rid:110 send pt=9,10;max-fs=10;UNKNOWN=100;depends=1,2,3";
    "rid:110 recv max-fps=42;max-fs=10;max-br=3;max-pps=1000";
    "recvonly";
    "remote-candidates:0 10.0.0.1 5555";
    "remote-candidates:12345 ::1 5555";
    "sendonly";
    "sendrecv";
    "setup:active";
    "setup:passive";
    "setup:actpass";
    "setup:holdconn";
    "rtcp:5000";
    "rtcp:9 IN IP4 0.0.0.0";
    "rtcp:9 IN IP6 2001:db8::1";
    "rtcp-fb:101 ack rpsi";
    "rtcp-fb:101 ack app";
    "rtcp-fb:101 ccm";
    "rtcp-fb:101 ccm fir";
    "rtcp-fb:101 ccm tmmbr";
    "rtcp-fb:101 ccm tstr";
    "rtcp-fb:101 ccm vbcm";
    "rtcp-fb:101 nack";
    "rtcp-fb:101 nack sli";
    "rtcp-fb:101 nack pli";
    "rtcp-fb:101 nack rpsi";
    "rtcp-fb:101 nack app";
    "rtcp-fb:101 trr-int 1";
    "rtcp-fb:101 goog-remb";
    "rtcp-fb:101 transport-cc";
    "rtcp-mux";
    "rtcp-mux-only";
    "rtcp-rsize";
    "rtpmap:109 opus/48000";
    "rtpmap:109 opus/48000/2";
    "sctpmap:5000 webrtc-datachannel 256";
    "sctp-port:5000";
    "max-message-size:1";
    "max-message-size:100000";
    "max-message-size:4294967297";
    "max-message-size:0";
    "simulcast:send 1";
    "simulcast:recv test";
    "simulcast:recv ~test";
    "simulcast:recv test;foo";
    "simulcast:recv foo,bar";
    "simulcast:recv foo,bar;test";
    "simulcast:send 1;4,5 recv 6;7";
    "simulcast:send 1,2,3;~4,~5 recv 6;~7,~8";
    "ssrc:2655508255";
    "ssrc:2655508255 foo";
    "ssrc:2655508255 cname:{735484ea-4f6c-f74a-bd66-7425f8476c2e}";
    "ssrc:2082260239 msid:1d0cdb4e-5934-4f0f-9f88-40392cb60d31 315b086a-5cb6-4221-89de-caf0b038c79d"]%string = true.
Proof. vm_compute. reflexivity. Qed.

Example test_2 : accepts parse_attribute [
    "candidate:1 1 TCP 1685987071 24.23.204.141 54609 typ srflx raddr 192.168.1.4 rport 61665 tcptype passive generation 1 ufrag +DGd network-cost 1 unsupported foo";
    "candidate:0 1 TCP 2122252543 ::8 49760 typ host";
    "candidate:0 1 UDP 2122252543 172.16.156.106 19361 typ srflx";
    "candidate:1 1 TCP 1685987071 24.23.204.141 54609 typ srflx raddr 192.168.1.4 rport 61665 tcptype passive generation 1 ufrag +DGd";
    "dtls-message:client SGVsbG8gV29ybGQ=";
    "dtls-message:server SGVsbG8gV29ybGQ=";
    "fmtp:109 maxplaybackrate=48000;stereo=1;useinbandfec=1";
    "fmtp:109 maxplaybackrate=48000; stereo=1; useinbandfec=1";
    "fmtp:109 maxplaybackrate=48000; stereo=1;useinbandfec=1";
    "fmtp:8 ;maxplaybackrate=48000";
    "fmtp:8 packetization-mode=2;;maxplaybackrate=48000";
    "fmtp:8 packetization-mode=2; maxplaybackrate=48000";
    "fmtp:8 maxplaybackrate=48000;";
    "fmtp:8 x-google-start-bitrate=800; maxplaybackrate=48000;";
    "fingerprint:sha-1 CD:34:D1:62:16:95:7B:B7:EB:74:E2:39:27:97:EB:0B:23:73:AC:BC";
    "imageattr:97 recv [x=800,y=640,sar=1.1] send [x=330,y=250]";
    "imageattr:100 recv [x=320,y=240]";
    "imageattr:97 recv [x=800,y=640,sar=1.1,foo=[123,456],q=0.5] send [x=330,y=250,bar=foo,sar=[20-40]]";
    "imageattr:97 recv [x=800,y=640,sar=1.1,foo=abc xyz,q=0.5] send [x=330,y=250,bar=foo,sar=[20-40]]";
    "imageattr:* recv [x=800,y=[50,80,30],sar=1.1] send [x=330,y=250,sar=[1.1,1.3,1.9],q=0.1]";
    "imageattr:97 send [x=[480:16:800],y=[100,200,300],par=[1.2-1.3],q=0.6] [x=1080,y=[144:176],sar=[0.5-0.7]] recv *";
    "remote-candidates:0 10.0.0.1 5555";
    "rid:110 send pt=9, 10;max-fs=10;UNKNOWN=100; depends=1, 2, 3";
    "rid:110 send max-fs=10";
    "rid:110 recv max-width=1920;max-height=1080";
    "rid:foo send";
    "rid:110 send pt=9";
    "rid:110 send pt=9,10;max-fs=10;UNKNOWN=100;depends=1,2,3";
    "rid:110 recv max-fps=42;max-fs=10;max-br=3;max-pps=1000";
    "simulcast: send rid=foo;bar";
    "ssrc:2655508255 cname:{735484ea-4f6c-f74a-bd66-7425f8476c2e}";
    "ssrc:2082260239 msid:1d0cdb4e-5934-4f0f-9f88-40392cb60d31 315b086a-5cb6-4221-89de-caf0b038c79d";
    "extmap:3 http://www.webrtc.org/experiments/rtp-hdrext/abs-send-time";
    "extmap:1/sendonly urn:ietf:params:rtp-hdrext:ssrc-audio-level"]%string = true.
Proof. vm_compute. reflexivity. Qed.

Example test_3 : rejects parse_attribute [
    "candidate:0 1 UDP 2122252543 172.16.156.106 49760 typ";
    "candidate:0 foo UDP 2122252543 172.16.156.106 49760 typ host";
    "candidate:0 1 FOO 2122252543 172.16.156.106 49760 typ host";
    "candidate:0 1 UDP foo 172.16.156.106 49760 typ host";
    "candidate:0 1 UDP 2122252543 372.16.356 49760 typ host";
    "candidate:0 1 UDP 2122252543 172.16.156.106 70000 typ host";
    "candidate:0 1 UDP 2122252543 172.16.156.106 49760 type host";
    "candidate:0 1 UDP 2122252543 172.16.156.106 49760 typ fost";
    "candidate:0 1 TCP 2122252543 172.16.156.106 49760 typ host unsupported";
    "candidate:0 1 TCP 2122252543 172.16.156.106 49760 typ host network-cost";
    "candidate:1 1 UDP 1685987071 24.23.204.141 54609 typ srflx raddr 192.168.1.4 rport 61665 generation B";
    "candidate:0 1 TCP 2122252543 172.16.156.106 49760 typ host network-cost C";
    "candidate:1 1 UDP 1685987071 24.23.204.141 54609 typ srflx raddr 1%92.168.1 rport 61665";
    "candidate:0 1 TCP 2122252543 172.16.156.106 49760 typ host tcptype foobar";
    "candidate:1 1 UDP 1685987071 24.23.204.141 54609 typ srflx raddr 192.168.1.4 rport 70000";
    "dtls-message:client";
    "dtls-message:server";
    "dtls-message:unsupported SGVsbG8gV29ybGQ=";
    "end-of-candidates foobar";
    "extmap:1/sendrecv";
    "extmap:a/sendrecv urn:ietf:params:rtp-hdrext:ssrc-audio-level";
    "extmap:4/unsupported urn:ietf:params:rtp-hdrext:ssrc-audio-level";
    "fingerprint:sha-1";
    "fingerprint:unsupported CD:34:D1:62:16:95:7B:B7:EB:74:E1:39:27:97:EB:0B:23:73:AC:BC";
    "fingerprint:sha-1 CDA:34:D1:62:16:95:7B:B7:EB:74:E1:39:27:97:EB:0B:23:73:AC:BC";
    "fingerprint:sha-1 CD:34:D1:62:16:95:7B:B7:EB:74:E1:39:27:97:EB:0B:23:73:AC:";
    "fingerprint:sha-1 CD:34:D1:62:16:95:7B:B7:EB:74:E1:39:27:97:EB:0B:23:73:AC";
    "fingerprint:sha-1 CX:34:D1:62:16:95:7B:B7:EB:74:E1:39:27:97:EB:0B:23:73:AC:BC";
    "fingerprint:sha-1 0xCD:34:D1:62:16:95:7B:B7:EB:74:E2:39:27:97:EB:0B:23:73:AC:BC";
    "fingerprint:sha-1 CD:0x34:D1:62:16:95:7B:B7:EB:74:E2:39:27:97:EB:0B:23:73:AC:BC";
    "fingerprint:sha-1 CD::D1:62:16:95:7B:B7:EB:74:E2:39:27:97:EB:0B:23:73:AC:BC";
    "fingerprint:sha-1 CD:0000A:D1:62:16:95:7B:B7:EB:74:E2:39:27:97:EB:0B:23:73:AC:BC";
    "fingerprint:sha-1 CD:B:D1:62:16:95:7B:B7:EB:74:E2:39:27:97:EB:0B:23:73:AC:BC";
    "fmtp:77 ";
    "fmtp:109 stereo=2;";
    "fmtp:109 111/129;";
    "fmtp:109 packetization-mode=3;";
    "fmtp:109 maxplaybackrate=48000stereo=1;";
    "framerate:";
    "framerate:abc";
    "framerate:0";
    "group:";
    "bundle-only foobar";
    "ice-lite foobar";
    "extmap-allow-mixed 100";
    "ice-mismatch foobar";
    "ice-options:";
    "ice-pacing:";
    "ice-pacing:10000000000";
    "ice-pacing:50 100";
    "ice-pacing:foobar";
    "ice-pwd:";
    "ice-ufrag:";
    "identity:";
    "imageattr:";
    "imageattr:100";
    "imageattr:120 send * recv * send *";
    "imageattr:99 send [x=320]";
    "imageattr:99 recv [y=240]";
    "imageattr:99 send [x=320,y=240";
    "imageattr:99 send x=320,y=240]";
    "imageattr:97 send [x=800,y=640,sar=1.1] send [x=330,y=250]";
    "inactive foobar";
    "label:";
    "maxptime:";
    "maxptime:60 100";
    "maxptime:foobar";
    "mid:";
    "msid:";
    "msid-semantic:";
    "ptime:";
    "rid:";
    "rid:120 send pt=";
    "rid:120 send pt=;max-width=10";
    "rid:120 send pt=9;max-width=";
    "rid:120 send pt=9;max-width=;max-width=10";
    "recvonly foobar";
    "remote-candidates:abc 10.0.0.1 5555";
    "remote-candidates:0 10.0.0.1 70000";
    "remote-candidates:0 10.0.0.1";
    "remote-candidates:0";
    "remote-candidates:";
    "sendonly foobar";
    "sendrecv foobar";
    "setup:";
    "setup:foobar";
    "rtcp:";
    "rtcp:70000";
    "rtcp:9 IN";
    "rtcp:9 IN IP4";
    "rtcp:9 IN IP4 ::1";
    "rtcp-fb:101 unknown";
    "rtcp-fb:101 ack";
    "rtcp-fb:101 ccm unknwon";
    "rtcp-fb:101 nack unknown";
    "rtcp-fb:101 trr-int";
    "rtcp-fb:101 trr-int a";
    "rtcp-fb:101 goog-remb unknown";
    "rtcp-fb:101 transport-cc unknown";
    "rtcp-mux foobar";
    "rtcp-mux-only bar";
    "rtcp-rsize foobar";
    "rtpmap: ";
    "rtpmap:109 ";
    "rtpmap:109 opus";
    "rtpmap:128 opus/48000";
    "sctpmap:70000 webrtc-datachannel";
    "sctpmap:70000 webrtc-datachannel 256";
    "sctpmap:5000 unsupported 256";
    "sctpmap:5000 webrtc-datachannel 2a";
    "sctp-port:";
    "sctp-port:70000";
    "max-message-size:";
    "max-message-size:abc";
    "simulcast:";
    "simulcast:send";
    "simulcast:foobar 1";
    "simulcast:send 1 foobar 2";
    "simulcast: send foo=8;10";
    "ssrc:";
    "ssrc:foo";
    "ssrc-group:";
    "ssrc-group:BLAH";
    "ssrc-group:FID";
    "unknown"]%string = true.
Proof. vm_compute. reflexivity. Qed.

Example test_4 : accepts parse_origin [
    "mozilla 506705521068071134 0 IN IP4 0.0.0.0";
    "mozilla 506705521068071134 0 IN IP6 2001:db8::1"]%string = true.
Proof. vm_compute. reflexivity. Qed.

Example test_5 : accepts parse_connection [
    "IN IP4 198.51.100.7";
    "IN IP4 127.0.0.1";
    "IN IP4 127.0.0.1/10/10";
    "IN IP6 ::1";
    "IN IP6 ::1/1/1";
    "IN   IP4   127.0.0.1";
    "IN IP4 0.0.0.0"]%string = true.
Proof. vm_compute. reflexivity. Qed.

Example test_6 : accepts parse_version [
    "0"]%string = true.
Proof. vm_compute. reflexivity. Qed.

Example test_7 : rejects parse_version [
    "1";
    "11";
    "a"]%string = true.
Proof. vm_compute. reflexivity. Qed.

Example test_8 : rejects parse_origin [
    "";
    "mozilla ";
    "mozilla 506705521068071134 ";
    "mozilla 506705521068071134 0 ";
    "mozilla 506705521068071134 0 UNSUPPORTED IP4 0.0.0.0";
    "mozilla 506705521068071134 0 IN ";
    "mozilla 506705521068071134 0 IN IP4 ";
    "mozilla 506705521068071134 0 IN IP1 0.0.0.0";
    "mozilla 506705521068071134 0 IN IP4 1.1.1.256";
    "mozilla 506705521068071134 0 IN IP6 ::g";
    "mozilla 506705521068071134 0 IN IP4 ::1"]%string = true.
Proof. vm_compute. reflexivity. Qed.

Example test_9 : rejects parse_connection [
    "IN IP4";
    "IN IP4 0.0.0.0 foobar";
    "UNSUPPORTED IP4 0.0.0.0";
    "IN IP1 0.0.0.0";
    "IN IP4 1.1.1.256";
    "IN IP6 ::g";
    "IN IP4 ::1"]%string = true.
Proof. vm_compute. reflexivity. Qed.

Example test_10 : accepts parse_bandwidth [
    "AS:1";
    "CT:123";
    "TIAS:12345";
    "UNSUPPORTED:12345"]%string = true.
Proof. vm_compute. reflexivity. Qed.

Example test_11 : rejects parse_bandwidth [
    "TIAS";
    "TIAS:12345:xyz"]%string = true.
Proof. vm_compute. reflexivity. Qed.

Example test_12 : accepts parse_timing [
    "0 0"]%string = true.
Proof. vm_compute. reflexivity. Qed.

Example test_13 : rejects parse_timing [
    "a 0";
    "0 a";
    "0";
    "0 0 0"]%string = true.
Proof. vm_compute. reflexivity. Qed.

Example test_14 : accepts line [
    "v=0";
    "s=somesession";
    "a=rtpmap:8 PCMA/8000";
    "a=sendrecv";
    "a=bundle-only";
    "m=audio 0 UDP/TLS/RTP/SAVPF 0";
    "o=ausername 4294967296 2 IN IP4 127.0.0.1";
    "s=SIP Call";
    "t=0 0";
    "c=IN IP6 ::1";
    "m=video 56436 RTP/SAVPF 120";
    "a=rtcp-mux-only"]%string = true.
Proof. vm_compute. reflexivity. Qed.

Example test_15 : rejects line [
    "";
    "e=foobar";
    "i=foobar";
    "k=foobar";
    "p=foobar";
    "r=foobar";
    "u=foobar";
    "z=foobar";
    "y=foobar";
    "ab=foobar";
    "abcd";
    "ab cd";
    "v=";
    "o=";
    "=abc";
    "a=rtpmap:200 PCMA/8000"]%string = true.
Proof. vm_compute. reflexivity. Qed.

Example test_16 : rejects strict [
    "";
    "fooooobarrrr";
    "v=0\r\n\no=- 0 0 IN IP4 0.0.0.0\r\n\ns=-\r\n";
    "v=0\r\n\no=- 0 0 IN IP4 0.0.0.0\r\n\ns=-\r\n\nt=0 foobar\r\n\nm=audio 0 UDP/TLS/RTP/SAVPF 0\r\n";
    "v=0\r\n\no=- 0 0 IN IP4 0.0.0.0\r\n\ns=-\r\n\nt=0 0\r\n\nm=foobar 0 UDP/TLS/RTP/SAVPF 0\r\n";
    "v=0\r\n\no=- 0 0 IN IP4 0.0.0.0\r\n\ns=-\r\n\nt=0 0\r\n\na=bundle-only\r\n\nm=audio 0 UDP/TLS/RTP/SAVPF 0\r\n";
    "v=0\r\n\no=- 0 0 IN IP4 0.0.0.0\r\n\ns=-\r\n\nt=0 0\r\n\nm=audio 0 UDP/TLS/RTP/SAVPF 0\r\n\na=rtcp:34er21\r\n";
    "v=0\r\n\no=- 0 0 IN IP4 0.a.b.0\r\n\ns=-\r\n\nt=0 0\r\n\nm=audio 0 UDP/TLS/RTP/SAVPF 0\r\n";
    "v=0\r\n\no=- 0 0 IN IP4 0.a.b.0\r\n\ns=-\r\n\nt=0 0\r\n\na=bundle-only\r\n\nm=audio 0 UDP/TLS/RTP/SAVPF 0\r\n";
    "v=0\r\n\no=- 0 0 IN IP4 0.a.b.0\r\n\ns=-\r\n\nt=0 0\r\n\nm=audio 0 UDP/TLS/RTP/SAVPF 0\r\n\na=ice-lite\r\n"]%string = true.
Proof. vm_compute. reflexivity. Qed.

Example test_17 : accepts strict [
    "v=0\r\n\no=- 0 0 IN IP6 ::1\r\n\ns=-\r\n\nc=IN IP6 ::1\r\n\nt=0 0\r\n";
    "v=0\r\n\n        o=ausername 4294967296 2 IN IP4 127.0.0.1\r\n\n        s=SIP Call\r\n\n        c=IN IP4 198.51.100.7/51\r\n\n        a=ice-pwd:12340\r\n\n        a=ice-ufrag:4a799b2e\r\n\n        a=fingerprint:sha-1 CD:34:D1:62:16:95:7B:B7:EB:74:E2:39:27:97:EB:0B:23:73:AC:BC\r\n\n        t=0 0\r\n\n        m=video 56436 RTP/SAVPF 120\r\n\n        a=candidate:77142221 1 udp 2113937151 192.168.137.1 54081 typ host\r\n\n        a=remote-candidates:0 10.0.0.1 5555\r\n\n        a=rtpmap:120 VP8/90000\r\n";
    "v=0\r\no=- 1 1 IN IP4 0.0.0.0\r\ns=-\r\nt=0 0\r\nc=IN IP4 0.0.0.0\r\nm=audio 0 UDP/TLS/RTP/SAVPF 0\r\n";
    "v=0\r\no=mozilla...THIS_IS_SDPARTA-52.0a1 506705521068071134 0 IN IP4 0.0.0.0\r\ns=-\r\nt=0 0\r\na=fingerprint:sha-256 CD:34:D1:62:16:95:7B:B7:EB:74:E2:39:27:97:EB:0B:23:73:AC:BC:BF:2F:E3:91:CB:57:A9:9D:4A:A2:0B:40\r\na=group:BUNDLE sdparta_0\r\na=ice-options:trickle\r\na=msid-semantic:WMS *\r\nm=audio 9 UDP/TLS/RTP/SAVPF 109 9 0 8\r\nc=IN IP4 0.0.0.0\r\na=sendrecv\r\na=extmap:1/sendonly urn:ietf:params:rtp-hdrext:ssrc-audio-level\r\na=fmtp:109 maxplaybackrate=48000;stereo=1;useinbandfec=1\r\na=ice-pwd:e3baa26dd2fa5030d881d385f1e36cce\r\na=ice-ufrag:58b99ead\r\na=mid:sdparta_0\r\na=msid:{5a990edd-0568-ac40-8d97-310fc33f3411} {218cfa1c-617d-2249-9997-60929ce4c405}\r\na=rtcp-mux\r\na=rtpmap:109 opus/48000/2\r\na=rtpmap:9 G722/8000/1\r\na=rtpmap:0 PCMU/8000\r\na=rtpmap:8 PCMA/8000\r\na=setup:actpass\r\na=ssrc:2655508255 cname:{735484ea-4f6c-f74a-bd66-7425f8476c2e}\r\n";
    "v=0\r\no=mozilla...THIS_IS_SDPARTA-52.0a1 506705521068071134 0 IN IP4 0.0.0.0\r\ns=-\r\nt=0 0\r\na=extmap-allow-mixed\r\n\na=fingerprint:sha-256 CD:34:D1:62:16:95:7B:B7:EB:74:E2:39:27:97:EB:0B:23:73:AC:BC:BF:2F:E3:91:CB:57:A9:9D:4A:A2:0B:40\r\na=group:BUNDLE sdparta_2\r\na=ice-options:trickle\r\na=msid-semantic:WMS *\r\nm=video 9 UDP/TLS/RTP/SAVPF 126 120 97\r\nc=IN IP4 0.0.0.0\r\na=recvonly\r\na=fmtp:126 profile-level-id=42e01f;level-asymmetry-allowed=1;packetization-mode=1\r\na=fmtp:120 max-fs=12288;max-fr=60\r\na=fmtp:97 profile-level-id=42e01f;level-asymmetry-allowed=1\r\na=ice-pwd:e3baa26dd2fa5030d881d385f1e36cce\r\na=ice-ufrag:58b99ead\r\na=mid:sdparta_2\r\na=rtcp-fb:126 nack\r\na=rtcp-fb:126 nack pli\r\na=rtcp-fb:126 ccm fir\r\na=rtcp-fb:126 goog-remb\r\na=rtcp-fb:120 nack\r\na=rtcp-fb:120 nack pli\r\na=rtcp-fb:120 ccm fir\r\na=rtcp-fb:120 goog-remb\r\na=rtcp-fb:97 nack\r\na=rtcp-fb:97 nack pli\r\na=rtcp-fb:97 ccm fir\r\na=rtcp-fb:97 goog-remb\r\na=rtcp-mux\r\na=rtpmap:126 H264/90000\r\na=rtpmap:120 VP8/90000\r\na=rtpmap:97 H264/90000\r\na=setup:actpass\r\na=extmap-allow-mixed\r\n\na=ssrc:2709871439 cname:{735484ea-4f6c-f74a-bd66-7425f8476c2e}";
    "v=0\r\no=mozilla...THIS_IS_SDPARTA-52.0a2 3327975756663609975 0 IN IP4 0.0.0.0\r\ns=-\r\nt=0 0\r\na=sendrecv\r\na=fingerprint:sha-256 AC:72:CB:D6:1E:A3:A3:B0:E7:97:77:25:03:4B:5B:FF:19:6C:02:C6:93:7D:EB:5C:81:6F:36:D9:02:32:F8:23\r\na=ice-options:trickle\r\na=msid-semantic:WMS *\r\nm=application 49760 DTLS/SCTP 5000\r\nc=IN IP4 172.16.156.106\r\na=candidate:0 1 UDP 2122252543 172.16.156.106 49760 typ host\r\na=sendrecv\r\na=end-of-candidates\r\na=ice-pwd:24f485c580129b36447b65df77429a82\r\na=ice-ufrag:4cba30fe\r\na=mid:sdparta_0\r\na=sctpmap:5000 webrtc-datachannel 256\r\na=setup:active\r\na=ssrc:3376683177 cname:{62f78ee0-620f-a043-86ca-b69f189f1aea}\r\n";
    "v=0\r\n\no=- 3836772544440436510 2 IN IP4 127.0.0.1\r\n\ns=-\r\n\nt=0 0\r\n\na=group:BUNDLE audio video\r\n\na=msid-semantic: WMS HWpbmTmXleVSnlssQd80bPuw9cxQFroDkkBP\r\n\nm=audio 9 UDP/TLS/RTP/SAVPF 111 103 104 9 0 8 106 105 13 126\r\n\nc=IN IP4 0.0.0.0\r\n\na=rtcp:9 IN IP4 0.0.0.0\r\n\na=ice-ufrag:A4by\r\n\na=ice-pwd:Gfvb2rbYMiW0dZz8ZkEsXICs\r\n\na=fingerprint:sha-256 15:B0:92:1F:C7:40:EE:22:A6:AF:26:EF:EA:FF:37:1D:B3:EF:11:0B:8B:73:4F:01:7D:C9:AE:26:4F:87:E0:95\r\n\na=setup:actpass\r\n\na=mid:audio\r\n\na=extmap:1 urn:ietf:params:rtp-hdrext:ssrc-audio-level\r\n\na=sendrecv\r\n\na=rtcp-mux\r\n\na=rtpmap:111 opus/48000/2\r\n\na=rtcp-fb:111 transport-cc\r\n\na=fmtp:111 minptime=10;useinbandfec=1\r\n\na=rtpmap:103 ISAC/16000\r\n\na=rtpmap:104 ISAC/32000\r\n\na=rtpmap:9 G722/8000\r\n\na=rtpmap:0 PCMU/8000\r\n\na=rtpmap:8 PCMA/8000\r\n\na=rtpmap:106 CN/32000\r\n\na=rtpmap:105 CN/16000\r\n\na=rtpmap:13 CN/8000\r\n\na=rtpmap:126 telephone-event/8000\r\n\na=ssrc:162559313 cname:qPTZ+BI+42mgbOi+\r\n\na=ssrc:162559313 msid:HWpbmTmXleVSnlssQd80bPuw9cxQFroDkkBP f6188af5-d8d6-462c-9c75-f12bc41fe322\r\n\na=ssrc:162559313 mslabel:HWpbmTmXleVSnlssQd80bPuw9cxQFroDkkBP\r\n\na=ssrc:162559313 label:f6188af5-d8d6-462c-9c75-f12bc41fe322\r\n\nm=video 9 UDP/TLS/RTP/SAVPF 100 101 107 116 117 96 97 99 98\r\n\nc=IN IP4 0.0.0.0\r\n\na=rtcp:9 IN IP4 0.0.0.0\r\n\na=ice-ufrag:A4by\r\n\na=ice-pwd:Gfvb2rbYMiW0dZz8ZkEsXICs\r\n\na=fingerprint:sha-256 15:B0:92:1F:C7:40:EE:22:A6:AF:26:EF:EA:FF:37:1D:B3:EF:11:0B:8B:73:4F:01:7D:C9:AE:26:4F:87:E0:95\r\n\na=setup:actpass\r\n\na=mid:video\r\n\na=extmap:2 urn:ietf:params:rtp-hdrext:toffset\r\n\na=extmap:3 http://www.webrtc.org/experiments/rtp-hdrext/abs-send-time\r\n\na=extmap:4 urn:3gpp:video-orientation\r\n\na=extmap:5 http://www.ietf.org/id/draft-holmer-rmcat-transport-wide-cc-extensions-01\r\n\na=extmap:6 http://www.webrtc.org/experiments/rtp-hdrext/playout-delay\r\n\na=sendrecv\r\n\na=rtcp-mux\r\n\na=rtcp-rsize\r\n\na=rtpmap:100 VP8/90000\r\n\na=rtcp-fb:100 ccm fir\r\n\na=rtcp-fb:100 nack\r\n\na=rtcp-fb:100 nack pli\r\n\na=rtcp-fb:100 goog-remb\r\n\na=rtcp-fb:100 transport-cc\r\n\na=rtpmap:101 VP9/90000\r\n\na=rtcp-fb:101 ccm fir\r\n\na=rtcp-fb:101 nack\r\n\na=rtcp-fb:101 nack pli\r\n\na=rtcp-fb:101 goog-remb\r\n\na=rtcp-fb:101 transport-cc\r\n\na=rtpmap:107 H264/90000\r\n\na=rtcp-fb:107 ccm fir\r\n\na=rtcp-fb:107 nack\r\n\na=rtcp-fb:107 nack pli\r\n\na=rtcp-fb:107 goog-remb\r\n\na=rtcp-fb:107 transport-cc\r\n\na=fmtp:107 level-asymmetry-allowed=1;packetization-mode=1;profile-level-id=42e01f\r\n\na=rtpmap:116 red/90000\r\n\na=rtpmap:117 ulpfec/90000\r\n\na=rtpmap:96 rtx/90000\r\n\na=fmtp:96 apt=100\r\n\na=rtpmap:97 rtx/90000\r\n\na=fmtp:97 apt=101\r\n\na=rtpmap:99 rtx/90000\r\n\na=fmtp:99 apt=107\r\n\na=rtpmap:98 rtx/90000\r\n\na=fmtp:98 apt=116\r\n\na=ssrc-group:FID 3156517279 2673335628\r\n\na=ssrc:3156517279 cname:qPTZ+BI+42mgbOi+\r\n\na=ssrc:3156517279 msid:HWpbmTmXleVSnlssQd80bPuw9cxQFroDkkBP b6ec5178-c611-403f-bbec-3833ed547c09\r\n\na=ssrc:3156517279 mslabel:HWpbmTmXleVSnlssQd80bPuw9cxQFroDkkBP\r\n\na=ssrc:3156517279 label:b6ec5178-c611-403f-bbec-3833ed547c09\r\n\na=ssrc:2673335628 cname:qPTZ+BI+42mgbOi+\r\n\na=ssrc:2673335628 msid:HWpbmTmXleVSnlssQd80bPuw9cxQFroDkkBP b6ec5178-c611-403f-bbec-3833ed547c09\r\n\na=ssrc:2673335628 mslabel:HWpbmTmXleVSnlssQd80bPuw9cxQFroDkkBP\r\n\na=ssrc:2673335628 label:b6ec5178-c611-403f-bbec-3833ed547c09\r\n";
    "v=0\r\n\no=mozilla...THIS_IS_SDPARTA-55.0a1 983028567300715536 0 IN IP4 0.0.0.0\r\n\ns=-\r\n\nt=0 0\r\n\na=fingerprint:sha-256 68:42:13:88:B6:C1:7D:18:79:07:8A:C6:DC:28:D6:DC:DD:E3:C9:41:E7:80:A7:FE:02:65:FB:76:A0:CD:58:ED\r\n\na=ice-options:trickle\r\n\na=msid-semantic:WMS *\r\n\nm=video 9 UDP/TLS/RTP/SAVPF 120 121 126 97\r\n\nc=IN IP4 0.0.0.0\r\n\na=sendrecv\r\n\na=extmap:1 http://www.webrtc.org/experiments/rtp-hdrext/abs-send-time\r\n\na=extmap:2 urn:ietf:params:rtp-hdrext:toffset\r\n\na=extmap:3/sendonly urn:ietf:params:rtp-hdrext:sdes:rtp-stream-id\r\n\na=fmtp:126 profile-level-id=42e01f;level-asymmetry-allowed=1;packetization-mode=1\r\n\na=fmtp:97 profile-level-id=42e01f;level-asymmetry-allowed=1\r\n\na=fmtp:120 max-fs=12288;max-fr=60\r\n\na=fmtp:121 max-fs=12288;max-fr=60\r\n\na=ice-pwd:4af388405d558b91f5ba6c2c48f161bf\r\n\na=ice-ufrag:ce1ac488\r\n\na=mid:sdparta_0\r\n\na=msid:{fb6d1fa3-d993-f244-a0fe-d9fb99214c23} {8be9a0f7-9272-6c42-90f3-985d55bd8de5}\r\n\na=rid:foo send\r\n\na=rid:bar send\r\n\na=rtcp-fb:120 nack\r\n\na=rtcp-fb:120 nack pli\r\n\na=rtcp-fb:120 ccm fir\r\n\na=rtcp-fb:120 goog-remb\r\n\na=rtcp-fb:121 nack\r\n\na=rtcp-fb:121 nack pli\r\n\na=rtcp-fb:121 ccm fir\r\n\na=rtcp-fb:121 goog-remb\r\n\na=rtcp-fb:126 nack\r\n\na=rtcp-fb:126 nack pli\r\n\na=rtcp-fb:126 ccm fir\r\n\na=rtcp-fb:126 goog-remb\r\n\na=rtcp-fb:97 nack\r\n\na=rtcp-fb:97 nack pli\r\n\na=rtcp-fb:97 ccm fir\r\n\na=rtcp-fb:97 goog-remb\r\n\na=rtcp-mux\r\n\na=rtpmap:120 VP8/90000\r\n\na=rtpmap:121 VP9/90000\r\n\na=rtpmap:126 H264/90000\r\n\na=rtpmap:97 H264/90000\r\n\na=setup:actpass\r\n\na=simulcast: send rid=foo;bar\r\n\na=ssrc:2988475468 cname:{77067f00-2e8d-8b4c-8992-cfe338f56851}\r\n\na=ssrc:1649784806 cname:{77067f00-2e8d-8b4c-8992-cfe338f56851}\r\n";
    "v=0\r\no=mozilla...THIS_IS_SDPARTA-55.0a1 7548296603161351381 0 IN IP4 0.0.0.0\r\ns=-\r\nt=0 0\r\na=fingerprint:sha-256 B1:47:49:4F:7D:83:03:BE:E9:FC:73:A3:FB:33:38:40:0B:3B:6A:56:78:EB:EE:D5:6D:2D:D5:3A:B6:13:97:E7\r\na=ice-options:trickle\r\na=msid-semantic:WMS *\r\nm=video 9 UDP/TLS/RTP/SAVPF 120\r\nc=IN IP4 0.0.0.0\r\n\n    a=recvonly\r\na=extmap:1 http://www.webrtc.org/experiments/rtp-hdrext/abs-send-time\r\na=extmap:2 urn:ietf:params:rtp-hdrext:toffset\r\na=fmtp:120 max-fs=12288;max-fr=60\r\na=ice-pwd:c886e2caf2ae397446312930cd1afe51\r\na=ice-ufrag:f57396c0\r\na=mid:sdparta_0\r\na=rtcp-fb:120 nack\r\na=rtcp-fb:120 nack pli\r\na=rtcp-fb:120 ccm fir\r\na=rtcp-fb:120 goog-remb\r\na=rtcp-mux\r\na=rtpmap:120 VP8/90000\r\na=setup:active\r\na=ssrc:2564157021 cname:{cae1cd32-7433-5b48-8dc8-8e3f8b2f96cd}\r\na=simulcast: recv rid=foo;bar\r\na=rid:foo recv\r\na=rid:bar recv\r\na=extmap:3/recvonly urn:ietf:params:rtp-hdrext:sdes:rtp-stream-id\r\n";
    "v=0\r\n\no=- 3836772544440436510 2 IN IP4 127.0.0.1\r\n\ns=-\r\n\nt=0 0\r\n\na=group:BUNDLE audio video\r\n\na=msid-semantic: WMS HWpbmTmXleVSnlssQd80bPuw9cxQFroDkkBP\r\n\nm=audio 9 UDP/TLS/RTP/SAVPF 111 103 104 9 0 8 106 105 13 126\r\n\nc=IN IP4 0.0.0.0\r\n\na=rtcp:9 IN IP4 0.0.0.0\r\n\na=ice-ufrag:A4by\r\n\na=ice-pwd:Gfvb2rbYMiW0dZz8ZkEsXICs\r\n\na=fingerprint:sha-256 15:B0:92:1F:C7:40:EE:22:A6:AF:26:EF:EA:FF:37:1D:B3:EF:11:0B:8B:73:4F:01:7D:C9:AE:26:4F:87:E0:95\r\n\na=setup:actpass\r\n\na=mid:audio\r\n\na=extmap:1 urn:ietf:params:rtp-hdrext:ssrc-audio-level\r\n\na=sendrecv\r\n\na=rtcp-mux\r\n\na=rtcp-mux-only\r\n\na=rtpmap:111 opus/48000/2\r\n\na=rtcp-fb:111 transport-cc\r\n\na=fmtp:111 minptime=10;useinbandfec=1\r\n\na=rtpmap:103 ISAC/16000\r\n\na=rtpmap:104 ISAC/32000\r\n\na=rtpmap:9 G722/8000\r\n\na=rtpmap:0 PCMU/8000\r\n\na=rtpmap:8 PCMA/8000\r\n\na=rtpmap:106 CN/32000\r\n\na=rtpmap:105 CN/16000\r\n\na=rtpmap:13 CN/8000\r\n\na=rtpmap:126 telephone-event/8000\r\n\na=ssrc:162559313 cname:qPTZ+BI+42mgbOi+\r\n\na=ssrc:162559313 msid:HWpbmTmXleVSnlssQd80bPuw9cxQFroDkkBP f6188af5-d8d6-462c-9c75-f12bc41fe322\r\n\na=ssrc:162559313 mslabel:HWpbmTmXleVSnlssQd80bPuw9cxQFroDkkBP\r\n\na=ssrc:162559313 label:f6188af5-d8d6-462c-9c75-f12bc41fe322\r\n\nm=video 9 UDP/TLS/RTP/SAVPF 100 101 107 116 117 96 97 99 98\r\n\nc=IN IP4 0.0.0.0\r\n\na=rtcp:9 IN IP4 0.0.0.0\r\n\na=ice-ufrag:A4by\r\n\na=ice-pwd:Gfvb2rbYMiW0dZz8ZkEsXICs\r\n\na=fingerprint:sha-256 15:B0:92:1F:C7:40:EE:22:A6:AF:26:EF:EA:FF:37:1D:B3:EF:11:0B:8B:73:4F:01:7D:C9:AE:26:4F:87:E0:95\r\n\na=setup:actpass\r\n\na=mid:video\r\n\na=extmap:2 urn:ietf:params:rtp-hdrext:toffset\r\n\na=extmap:3 http://www.webrtc.org/experiments/rtp-hdrext/abs-send-time\r\n\na=extmap:4 urn:3gpp:video-orientation\r\n\na=extmap:5 http://www.ietf.org/id/draft-holmer-rmcat-transport-wide-cc-extensions-01\r\n\na=extmap:6 http://www.webrtc.org/experiments/rtp-hdrext/playout-delay\r\n\na=sendrecv\r\n\na=rtcp-mux\r\n\na=rtcp-rsize\r\n\na=rtpmap:100 VP8/90000\r\n\na=rtcp-fb:100 ccm fir\r\n\na=rtcp-fb:100 nack\r\n\na=rtcp-fb:100 nack pli\r\n\na=rtcp-fb:100 goog-remb\r\n\na=rtcp-fb:100 transport-cc\r\n\na=rtpmap:101 VP9/90000\r\n\na=rtcp-fb:101 ccm fir\r\n\na=rtcp-fb:101 nack\r\n\na=rtcp-fb:101 nack pli\r\n\na=rtcp-fb:101 goog-remb\r\n\na=rtcp-fb:101 transport-cc\r\n\na=rtpmap:107 H264/90000\r\n\na=rtcp-fb:107 ccm fir\r\n\na=rtcp-fb:107 nack\r\n\na=rtcp-fb:107 nack pli\r\n\na=rtcp-fb:107 goog-remb\r\n\na=rtcp-fb:107 transport-cc\r\n\na=fmtp:107 level-asymmetry-allowed=1;packetization-mode=1;profile-level-id=42e01f\r\n\na=rtpmap:116 red/90000\r\n\na=rtpmap:117 ulpfec/90000\r\n\na=rtpmap:96 rtx/90000\r\n\na=fmtp:96 apt=100\r\n\na=rtpmap:97 rtx/90000\r\n\na=fmtp:97 apt=101\r\n\na=rtpmap:99 rtx/90000\r\n\na=fmtp:99 apt=107\r\n\na=rtpmap:98 rtx/90000\r\n\na=fmtp:98 apt=116\r\n\na=ssrc-group:FID 3156517279 2673335628\r\n\na=ssrc:3156517279 cname:qPTZ+BI+42mgbOi+\r\n\na=ssrc:3156517279 msid:HWpbmTmXleVSnlssQd80bPuw9cxQFroDkkBP b6ec5178-c611-403f-bbec-3833ed547c09\r\n\na=ssrc:3156517279 mslabel:HWpbmTmXleVSnlssQd80bPuw9cxQFroDkkBP\r\n\na=ssrc:3156517279 label:b6ec5178-c611-403f-bbec-3833ed547c09\r\n\na=ssrc:2673335628 cname:qPTZ+BI+42mgbOi+\r\n\na=ssrc:2673335628 msid:HWpbmTmXleVSnlssQd80bPuw9cxQFroDkkBP b6ec5178-c611-403f-bbec-3833ed547c09\r\n\na=ssrc:2673335628 mslabel:HWpbmTmXleVSnlssQd80bPuw9cxQFroDkkBP\r\n\na=ssrc:2673335628 label:b6ec5178-c611-403f-bbec-3833ed547c09\r\n"]%string = true.
Proof. vm_compute. reflexivity. Qed.

Example test_18 : accepts lenient [
    "v=0\r\n\no=- 0 0 IN IP4 0.0.0.0\r\n\ns=-\r\n\nc=IN IP4 198.51.100.7\r\n\nt=0 0\r\n\nm=audio 0 UDP/TLS/RTP/SAVPF 0\r\n\na=unsupported\r\n";
    "v=0\r\n\n\r\n\no=- 0 0 IN IP4 0.0.0.0\r\n\n \r\n\ns=-\r\n\nc=IN IP4 0.0.0.0\r\n\nt=0 0\r\n\nm=audio 0 UDP/TLS/RTP/SAVPF 0\r\n";
    "v=0\r\n\n\r\n\no=- 0 0 IN IP4 0.0.0.0\r\n\n \r\n\ns= \r\n\nc=IN IP4 0.0.0.0\r\n\nt=0 0\r\n\nm=audio 0 UDP/TLS/RTP/SAVPF 0\r\n";
    "v=0\r\no=- 0 0 IN IP4 0.0.0.0\r\ns=-\r\nt=0 0\r\nb=AS:1\r\nb=CT:123\r\nb=TIAS:12345\r\nb=UNKNOWN:9\r\nc=IN IP6 ::1/1/1\r\na=ice-options:trickle\r\nm=audio 0 UDP/TLS/RTP/SAVPF 0\r\n";
    "v=0\r\no=- 0 0 IN IP4 0.0.0.0\r\ns=-\r\nt=0 0\r\nm=video 0 UDP/TLS/RTP/SAVPF 0\r\nb=AS:1\r\nb=CT:123\r\nb=TIAS:12345\r\nc=IN IP4 0.0.0.0\r\na=sendrecv\r\n"]%string = true.
Proof. vm_compute. reflexivity. Qed.

Example test_19 : accepts parse_media_token [
    "audio";
    "VIDEO";
    "aPplIcatIOn"]%string = true.
Proof. vm_compute. reflexivity. Qed.

Example test_20 : rejects parse_media_token [
    "";
    "foobar"]%string = true.
Proof. vm_compute. reflexivity. Qed.

Example test_21 : rejects parse_protocol_token [
    "";
    "foobar"]%string = true.
Proof. vm_compute. reflexivity. Qed.

Example test_22 : prints_back parse_media show_media_type [
    "audio 9 UDP/TLS/RTP/SAVPF 109";
    "video 9 UDP/TLS/RTP/SAVPF 126";
    "application 9 DTLS/SCTP 5000";
    "application 9 UDP/DTLS/SCTP webrtc-datachannel";
    "audio 9 UDP/TLS/RTP/SAVPF 109 9 0 8";
    "audio 0 UDP/TLS/RTP/SAVPF 8";
    "audio 9/2 UDP/TLS/RTP/SAVPF 8"]%string = true.
Proof. vm_compute. reflexivity. Qed.

Example test_23 : rejects parse_media [
    "video 9 UDP/TLS/RTP/SAVPF";
    "video 75123 UDP/TLS/RTP/SAVPF 8";
    "invalid 9 UDP/TLS/RTP/SAVPF 8";
    "audio / UDP/TLS/RTP/SAVPF 8";
    "audio 9 invalid/invalid 8";
    "audio 9 UDP/TLS/RTP/SAVPF 300"]%string = true.
Proof. vm_compute. reflexivity. Qed.

Example test_24 : prints_back strict (fun s => Some (show_session s)) [
    "v=0\r\no=- 1 1 IN IP4 0.0.0.0\r\ns=-\r\nt=0 0\r\nc=IN IP4 0.0.0.0\r\nm=audio 0 UDP/TLS/RTP/SAVPF 0\r\n";
    "v=0\r\no=- 0 0 IN IP4 0.0.0.0\r\ns=-\r\nt=0 0\r\nb=AS:1\r\nb=CT:123\r\nb=TIAS:12345\r\nb=UNKNOWN:9\r\nc=IN IP6 ::1/1/1\r\na=ice-options:trickle\r\nm=audio 0 UDP/TLS/RTP/SAVPF 0\r\n";
    "v=0\r\no=- 0 0 IN IP4 0.0.0.0\r\ns=-\r\nt=0 0\r\nm=video 0 UDP/TLS/RTP/SAVPF 0\r\nb=AS:1\r\nb=CT:123\r\nb=TIAS:12345\r\nc=IN IP4 0.0.0.0\r\na=sendrecv\r\n";
    "v=0\r\no=mozilla...THIS_IS_SDPARTA-52.0a2 3327975756663609975 0 IN IP4 0.0.0.0\r\ns=-\r\nt=0 0\r\na=sendrecv\r\na=fingerprint:sha-256 AC:72:CB:D6:1E:A3:A3:B0:E7:97:77:25:03:4B:5B:FF:19:6C:02:C6:93:7D:EB:5C:81:6F:36:D9:02:32:F8:23\r\na=ice-options:trickle\r\na=msid-semantic:WMS *\r\nm=application 49760 DTLS/SCTP 5000\r\nc=IN IP4 172.16.156.106\r\na=candidate:0 1 UDP 2122252543 172.16.156.106 49760 typ host\r\na=sendrecv\r\na=end-of-candidates\r\na=ice-pwd:24f485c580129b36447b65df77429a82\r\na=ice-ufrag:4cba30fe\r\na=mid:sdparta_0\r\na=sctpmap:5000 webrtc-datachannel 256\r\na=setup:active\r\na=ssrc:3376683177 cname:{62f78ee0-620f-a043-86ca-b69f189f1aea}\r\n";
    "v=0\r\no=- 0 0 IN IP6 2001:db8::4444\r\ns=-\r\nt=0 0\r\na=ice-pacing:500\r\nm=video 0 UDP/TLS/RTP/SAVPF 0\r\nb=UNSUPPORTED:12345\r\nc=IN IP6 ::1\r\na=rtcp:9 IN IP6 2001:db8::8888\r\na=rtcp-fb:* nack\r\na=extmap:1/recvonly urn:ietf:params:rtp-hdrext:toffset\r\na=extmap:2/sendonly urn:ietf:params:rtp-hdrext:toffset\r\na=extmap:3/sendrecv urn:ietf:params:rtp-hdrext:toffset\r\na=imageattr:* send [x=330,y=250,sar=[1.1,1.3,1.9],q=0.1] recv [x=800,y=[50,80,30],sar=1.1]\r\na=imageattr:97 send [x=[480:16:800],y=[100,200,300],par=[1.2-1.3],q=0.6] [x=1080,y=[144:176],sar=[0.5-0.7]] recv *\r\na=sendrecv\r\n"]%string = true.
Proof. vm_compute. reflexivity. Qed.
