(** * C53: printed sessions follow the grammar of the RFCs

    [gen document_text t] says that the text [t] is derived by the rules of
    SpecGrammar, which do not mention the printer. *)
From Coq Require Import List NArith Bool Ascii String.
From Verif Require Import Str Num Net Types Ext Show Address AttrParse Media Session.
From Verif Require Import SpecApi SpecDoc SpecVal SpecItems SpecPrint SpecGrammar.
From Verif Require Import PGram PGram2 PGram3 PGram4.
Import ListNotations.
Open Scope N_scope.
Open Scope list_scope.

(** Every value that can come out of a line is printed as its rule says, except
    for parameters of formats (fmtp) that all have their default values and
    names of sessions with a blank at an end. *)
Theorem C53_lines : forall (E : Ext), ext_ok E -> forall line n l, parse_sdp_line line n = Ok l ->
  (gen (line_rule (l_type l)) (printed_line (l_type l)) <-> item_printable (l_type l)).
Proof. exact @accepted_line_derived. Qed.
(** The same of any value in range and told apart from what is around it. *)
Theorem C53_items : forall (E : Ext), ext_ok E -> forall ty, item_wf ty ->
  (gen (line_rule ty) (printed_line ty) <-> item_printable ty).
Proof. exact @line_derived_iff. Qed.
(** Exactly the sessions with no list of attributes of which nothing is printed. *)
Theorem C53_documents : forall (E : Ext), ext_ok E -> forall sdp b s, parse_sdp sdp b = Ok s ->
  (gen document_text (show_session s) <-> all_printed s).
Proof. exact @accepted_derived. Qed.
Theorem C53_sessions : forall (E : Ext), ext_ok E -> forall s, session_wf s ->
  (gen document_text (show_session s) <-> all_printed s).
Proof. exact @session_derived_iff. Qed.
(** The order of RFC 8866 is kept exactly if no two of timing, bandwidth and
    connection are given together. *)
Theorem C53_order : forall (E : Ext), ext_ok E -> forall sdp b s, parse_sdp sdp b = Ok s ->
  (rfc_order (letters (show_session s)) <-> ~ out_of_order s).
Proof. exact @accepted_order. Qed.
(** So it never is for a session with a connection or a bandwidth of its own. *)
Theorem C53_never_in_order : forall (E : Ext), ext_ok E -> forall sdp b s, parse_sdp sdp b = Ok s ->
  s_connection s <> None \/ s_bandwidth s <> [] -> ~ rfc_order (letters (show_session s)).
Proof. exact @accepted_bad_order. Qed.

(** ** False of the code *)
Definition ordered_text : str := crlf_lines
  [lit "v=0"; lit "o=- 1 2 IN IP6 ::1"; lit "s=-"; lit "c=IN IP6 ::1"; lit "b=AS:64"; lit "t=0 0"; lit "m=audio 9 RTP/AVP 0"].
Ltac same := apply order_same. Ltac next := apply order_next.
Lemma ordered_text_ordered : rfc_order (letters ordered_text).
Proof.
  apply (rfc_session [118; 111; 115; 99; 98; 116] [[109]]).
  - unfold session_letters. vm_compute (lit "vosiuepcbtrzka"). same. next. same. next. same. do 5 next. same. next. same. next. same. constructor.
  - constructor; [|constructor]. exists []. split; [reflexivity|]. split; [intros []|]. vm_compute. same. constructor.
Qed.
(** "Printing keeps the order of the lines that RFC 8866 asks for". *)
Theorem C53_order_kept_refuted : exists sdp, rfc_order (letters sdp) /\
  forall (E : Ext), ext_ok E -> exists s, parse_sdp sdp true = Ok s /\ ~ rfc_order (letters (show_session s)).
Proof.
  exists ordered_text. split; [exact ordered_text_ordered|]. intros E X.
  eassert (H : parse_sdp ordered_text true = Ok _) by (vm_compute; reflexivity).
  eexists. split; [exact H|]. apply (C53_never_in_order E X _ _ _ H). left. discriminate.
Qed.
Definition default_text : str := crlf_lines
  [lit "v=0"; lit "o=- 1 2 IN IP6 ::1"; lit "s=-"; lit "t=0 0"; lit "m=audio 9 RTP/AVP 101"; lit "c=IN IP6 ::1";
   lit "a=fmtp:101 max-fs=0"].
(** "Every accepted session is printed as the grammar says": here the last line is "a=". *)
Theorem C53_all_accepted_refuted : exists sdp, forall (E : Ext), ext_ok E -> exists s, parse_sdp sdp true = Ok s /\
  List.last (lines (show_session s)) [] = lit "a=" /\ ~ gen document_text (show_session s).
Proof.
  exists default_text. intros E X.
  eassert (H : parse_sdp default_text true = Ok _) by (vm_compute; reflexivity).
  eexists. split; [exact H|]. split; [vm_compute; reflexivity|].
  rewrite (C53_documents E X _ _ _ H). intros [_ P]. apply Forall_inv in P.
  destruct P as [P|(a & [<-|[]] & U)]; [discriminate|]. apply U. eexists. split; [reflexivity|]. vm_compute. reflexivity.
Qed.

(** ** Examples *)
Definition full_text : str := crlf_lines
  [lit "v=0"; lit "o=- 1 2 IN IP6 ::1"; lit "s=-"; lit "t=0 0"; lit "a=group:BUNDLE a b"; lit "a=ice-lite";
   lit "m=video 9 UDP/TLS/RTP/SAVPF 96 97"; lit "c=IN IP6 ::1"; lit "a=mid:a"; lit "a=rtpmap:96 VP8/90000";
   lit "a=fmtp:96 max-fs=12288;max-fr=60"; lit "a=rtcp-fb:96 nack pli"; lit "a=rid:hi send pt=96;max-width=1280";
   lit "a=simulcast:send hi"; lit "a=fingerprint:sha-1 4A:AD:B9:B1:3F:82:18:3B:54:02:12:DF:3E:5D:49:6B:19:E5:7C:AB";
   lit "a=candidate:0 1 UDP 2122252543 ::1 61665 typ host"; lit "a=imageattr:96 send [x=320,y=240]"; lit "a=ssrc:1 cname:c"].
Example C53_example : forall (E : Ext), ext_ok E -> exists s, parse_sdp full_text true = Ok s /\
  gen document_text (show_session s) /\ rfc_order (letters (show_session s)).
Proof.
  intros E X. eassert (H : parse_sdp full_text true = Ok _) by (vm_compute; reflexivity).
  eexists. split; [exact H|]. split.
  - apply (C53_documents E X _ _ _ H). split.
    + right. eexists. split; [left; reflexivity|]. intros (f & Z & _). discriminate.
    + constructor; [|constructor]. right. eexists. split; [left; reflexivity|]. intros (f & Z & _). discriminate.
  - apply (C53_order E X _ _ _ H). intros [[_ B]|[[_ B]|[[B _]|B]]]; try (apply B; reflexivity).
    apply Exists_exists in B. destruct B as (m & [<-|[]] & B & _). apply B. reflexivity.
Qed.
(** The rules do tell texts apart. *)
Lemma number_inv : forall t, gen number t -> t = [48] \/ hd 0 t <> 48.
Proof.
  intros t G. inversion G as [| | |a b x G1|a b x G1| | |]; subst; [left; inversion G1; reflexivity | right].
  inversion G1 as [| |a b x y G2 G3| | | | |]; subst. inversion G2 as [|P c Hc| | | | | |]; subst.
  cbn. intros ->. destruct Hc as [Hc _]. vm_compute in Hc. exact (Hc eq_refl).
Qed.
Example C53_not_padded : ~ gen number (lit "007").
Proof. intro G. apply number_inv in G. destruct G as [G|G]; [discriminate | exact (G eq_refl)]. Qed.
Example C53_not_a_port : ~ gen r_port (lit "70000").
Proof.
  intro G. inversion G as [| | | | | | |a P t G1 H]; subst. vm_compute in H. exact (H eq_refl).
Qed.
Example C53_port : gen r_port (lit "7000").
Proof. change (lit "7000") with (show_N 7000). apply g_upto. vm_compute. discriminate. Qed.
Example C53_no_text : ~ gen r_attribute_line (lit "a=").
Proof. exact no_empty_attribute. Qed.

Definition theorems := (C53_lines, C53_items, C53_documents, C53_sessions, C53_order, C53_never_in_order,
  C53_order_kept_refuted, C53_all_accepted_refuted).
Print Assumptions theorems.
