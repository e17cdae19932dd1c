(** * C48: which lines are set aside as unsupported *)
From Coq Require Import List NArith ZArith Bool Ascii String Lia.
From Verif Require Import Str Num Net Types Ext Session SpecApi SpecDoc SpecVal SpecUnsup PUnsup.
Import ListNotations.
Open Scope N_scope.
Open Scope list_scope.

(** Lines: no other line is reported as unsupported. *)
Theorem C48_unsupported_lines : forall (E : Ext) line n,
  (exists e, parse_sdp_line line n = Err (PUnsupported e line n)) <-> line_unsupported line.
Proof. exact @line_unsupported_iff. Qed.

(** No unsupported line has a meaning. *)
Theorem C48_not_both : forall (E : Ext) line ty, countable ty (List.length line) ->
  line_means line ty -> ~ line_unsupported line.
Proof. exact @means_not_unsupported. Qed.

(** Relaxed parsing as a whole: every line means something or is unsupported;
    the session consists of the meanings, with a warning for each unsupported
    line in its place. *)
Theorem C48_relaxed_documents : forall (E : Ext) d s us,
  doc_ok d -> (Z.of_nat (List.length (doc_text d)) < 2147483648)%Z ->
  ((exists ws, parse_sdp (doc_text d) false = Ok (with_warnings s ws) /\ Forall2 warning_for ws us) <->
   51 <= byte_len (doc_text d) /\
   exists ts, lines_read 0 (doc_lines d) ts us /\ (4 <= List.length ts)%nat /\
              Assembles ts s /\ structural s).
Proof. exact @relaxed_document. Qed.

(** Concrete cases: one of each kind, and lines that are rejected instead. *)
Definition unsupported_examples : list str :=
  [ lit "a=unknown"; lit "A = x-google:1"; lit "a= fingerprint: md5 00"; lit "a=fingerprint:SHA-1 x";
    lit "a=fmtp:96"; lit "a=fmtp"; lit "a=group:XYZ a"; lit "a=ssrc-group:none";
    lit "a=rtcp-fb:nonsense unknown"; lit "a=rtcp-fb:96 ack"; lit "a=rtcp-fb:96 goog-remb x";
    lit "a=candidate:0 1 UDP 1 ::1 9 typ host generation 0 last";
    lit "m=text 9 RTP/AVP 0"; lit "m=text x y z"; lit "m=audio 9/2 UDP/WHATEVER 1" ].
Example C48_unsupported : forall E : Ext, Forall line_unsupported unsupported_examples.
Proof.
  intro E.
  repeat (apply Forall_cons; [apply (C48_unsupported_lines E _ 0); eexists; vm_compute; reflexivity|]).
  constructor.
Qed.
Definition rejected_examples : list str :=
  [ lit "a=sendrecv:x"; lit "a=fingerprint:md5"; lit "a=fmtp:x y=z"; lit "a=group"; lit "a=rtcp-fb:96";
    lit "a=rtcp-fb:96 trr-int x"; lit "a=candidate:0 1 UDP 1 ::1 9 typ host generation x last";
    lit "a=candidate:0 1 UDP 1 ::1 9 typ"; lit "m=text 9 RTP/AVP"; lit "m=audio x UDP/WHATEVER 1";
    lit "a="; lit "e=me@example.com"; lit "i=information"; lit "z=0"; lit "x=unknown" ].
Example C48_rejected : forall E : Ext, Forall (fun l => ~ line_unsupported l) rejected_examples.
Proof.
  intro E.
  repeat (apply Forall_cons; [intro U; apply (C48_unsupported_lines E _ 0) in U; destruct U as (e & U);
    vm_compute in U; discriminate U|]).
  constructor.
Qed.
Definition example_lines : list str :=
  [lit "v=0"; lit "o=- 0 0 IN IP6 ::1"; lit "s=-"; lit "a=what:ever"; lit "t=0 0"; [];
   lit "m=text 9 RTP/AVP 0"; lit "c=IN IP6 ::1"].
Example C48_document : forall E : Ext,
  exists s ts, lines_read 0 example_lines ts [(lit "a=what:ever", 3%nat); (lit "m=text 9 RTP/AVP 0", 6%nat)] /\
    Assembles ts s /\ s_connection s <> None /\ s_media s = [].
Proof.
  intro E.
  pose (d := {| d_lines := map (fun x => (x, CRLF)) example_lines; d_last := [] |}).
  assert (D : doc_ok d).
  { split; [|intros []]. repeat (constructor; [split; [|exact I]; cbn; intuition discriminate|]).
    constructor. }
  destruct (parse_sdp (doc_text d) false) as [s| |] eqn:P; [|vm_compute in P; discriminate..].
  assert (Q : exists ws, parse_sdp (doc_text d) false = Ok (with_warnings s ws) /\
            Forall2 warning_for ws [(lit "a=what:ever", 3%nat); (lit "m=text 9 RTP/AVP 0", 6%nat)]).
  { exists (s_warnings s). split; [rewrite P; destruct s; reflexivity|].
    vm_compute in P. injection P as <-. cbn [s_warnings].
    repeat constructor; eexists; reflexivity. }
  apply (C48_relaxed_documents E d s _ D eq_refl) in Q. destruct Q as (_ & ts & R & _ & A & _).
  exists s, ts. split; [exact R|]. split; [exact A|].
  vm_compute in P. injection P as <-. split; [discriminate | reflexivity].
Qed.
Definition theorems := (C48_unsupported_lines, C48_not_both, C48_relaxed_documents).
Print Assumptions theorems.
