(** * C66: errors about the order of lines name the rule that is broken

    Only statements; the proofs are in PSeq.v. *)
From Coq Require Import List Arith NArith ZArith Ascii String.
From Verif Require Import Str Num Net Types Ext Show Session SpecApi SpecDoc SpecVal SpecUnsup SpecSeq.
From Verif Require Import PDoc2 PSeq.
Import ListNotations.
Open Scope nat_scope.
Open Scope list_scope.

(** A sequence error is reported exactly if every line means something or is set
    aside, and then for the first rule that is broken. *)
Theorem C66_sequence_errors : forall (E : Ext) d b m n,
  doc_ok d -> (Z.of_nat (List.length (doc_text d)) < 2147483648)%Z ->
  (parse_sdp (doc_text d) b = Err (PSequence m n) <->
   (51 <= byte_len (doc_text d))%N /\
   exists l us, kept 0 (doc_lines d) l us /\ (b = true -> us = []) /\ broken l m n).
Proof. exact @sequence_iff. Qed.

(** A misplaced line is the line with the number given. *)
Theorem C66_line_given : forall (E : Ext) d b m n,
  doc_ok d -> (Z.of_nat (List.length (doc_text d)) < 2147483648)%Z ->
  parse_sdp (doc_text d) b = Err (PSequence m n) ->
  In m whole_rules \/
  exists line t, nth_error (doc_lines d) n = Some line /\ ~ blank line /\ line_means line t /\
    (misplaced_in_session t m \/ exists before, misplaced_in_media before t m).
Proof. exact @sequence_line. Qed.

(** ** Cases *)
Definition plain (ls : list str) : str := flat_map (fun l => l ++ [13; 10]%N) ls.
Definition head : list str := [lit "v=0"; lit "o=- 0 0 IN IP6 ::1"; lit "s=-"; lit "t=0 0"].
Definition conn : str := lit "c=IN IP6 ::1".
Definition audio : str := lit "m=audio 9 RTP/SAVPF 0 8".

(** That the second line is not an origin is said with number 1, also if the
    second line that means something is further down. *)
Theorem C66_number_refuted : exists ls, forall (E : Ext),
  parse_sdp (plain ls) false = Err (PSequence (lit "second line needs to be origin") 1) /\
  nth_error ls 1 = Some [] /\ nth_error ls 2 = Some (lit "s=-") /\ nth_error ls 3 = Some (lit "o=- 0 0 IN IP6 ::1").
Proof.
  exists [lit "v=0"; []; lit "s=-"; lit "o=- 0 0 IN IP6 ::1"; lit "t=0 0"; conn; audio]. intro E.
  split; [vm_compute; reflexivity|]. repeat split.
Qed.

Example C66_rules : forall E : Ext,
  parse_sdp (plain [lit "v=0"; lit "a=mid:aaaaaaaaaaaaaaaaaaaaaaaaaaaaaaaaaaaaaaaaaaaaaaaaaaaaaaaaa"; lit "s=-"]) false
    = Err (PSequence (lit "SDP neeeds at least 4 lines") 0) /\
  parse_sdp (plain (tl head ++ [conn; audio; lit "a=sendrecv"])) false = Err (PSequence (lit "first line needs to be version number") 0) /\
  parse_sdp (plain ([lit "v=0"; lit "s=-"; lit "t=0 0"; conn; audio; lit "a=sendrecv"])) false = Err (PSequence (lit "second line needs to be origin") 1) /\
  parse_sdp (plain ([lit "v=0"; lit "o=- 0 0 IN IP6 ::1"; lit "t=0 0"; conn; audio])) false = Err (PSequence (lit "third line needs to be session") 2) /\
  parse_sdp (plain (head ++ [conn; []; lit "s=again"; audio])) false = Err (PSequence (lit "version, origin or session at wrong level") 6) /\
  parse_sdp (plain (head ++ [conn; lit "a=unknown"; lit "a=mid:x"; audio])) false
    = Err (PSequence (lit "Parsing error: mid:x not allowed at session level") 6) /\
  parse_sdp (plain (head ++ [audio; conn; lit "a=mid:x"; conn])) false = Err (PSequence (lit "connection type already exists at this media level") 7) /\
  parse_sdp (plain (head ++ [conn; audio; lit "t=0 0"])) false = Err (PSequence (lit "invalid type in media section") 6) /\
  parse_sdp (plain (head ++ [conn; audio; audio; lit "a=ice-lite"])) false
    = Err (PSequence (lit "Parsing error: ice-lite not allowed at media level") 7).
Proof. intro E. repeat split; vm_compute; reflexivity. Qed.
Example C66_whole : forall E : Ext,
  parse_sdp (plain ([lit "v=0"; lit "o=- 0 0 IN IP6 ::1"; lit "s=-"; conn; audio])) false = Err (PSequence (lit "Missing timing type at session level") 0) /\
  parse_sdp (plain (head ++ [audio; conn; audio])) false
    = Err (PSequence (lit "Without connection type at session level all media sections must have connection types") 0) /\
  parse_sdp (plain (head ++ [lit "a=extmap:1 x"; conn; audio; lit "a=extmap:2 y"; lit "a=rtcp-mux-only"])) false
    = Err (PSequence (lit "Extmap can't be define at session and media level") 0) /\
  parse_sdp (plain (head ++ [conn; audio; lit "a=rtcp-mux-only"; lit "a=rid:x send pt=99"])) false
    = Err (PSequence (lit "rtcp-mux-only media sections must also contain the rtcp-mux attribute") 0) /\
  parse_sdp (plain (head ++ [conn; audio; lit "a=rid:x send pt=99"; lit "a=simulcast:send y"])) false
    = Err (PSequence (lit "Rid pts must be declared in the media section") 0) /\
  parse_sdp (plain (head ++ [conn; audio; lit "a=rid:x send pt=8"; lit "a=simulcast:recv x"])) false
    = Err (PSequence (lit "Simulcast RIDs must be defined in any rid attribute") 0).
Proof. intro E. repeat split; vm_compute; reflexivity. Qed.

Definition theorems := (C66_sequence_errors, C66_line_given, C66_number_refuted).
Print Assumptions theorems.
