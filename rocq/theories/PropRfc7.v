(** * C83: masked documents and the rules of the RFCs *)
From Coq Require Import List NArith ZArith Ascii String Lia.
From Verif Require Import Str Num Net Types Ext Show AttrParse Media Session Anon SpecVal SpecDoc SpecPrint SpecGrammar SpecRfc SpecAnon SpecMask Ext0.
From Verif Require Import PMask2 PPrint PRfc27.
Import ListNotations.
Open Scope N_scope.
Open Scope list_scope.

(** The clone of a document of lines of C62, with the clones of its sections,
    is printed line by line following the rules of C62, except for what C81
    leaves out and the masks of C82 that follow none. *)
Theorem C83_documents : forall E : Ext, ext_ok E -> masked_names_are_domains -> forall sdp strict s (h : list aval),
  Forall (fun t => SpecDoc.blank t \/ exists kinds, of_kind kinds t) (lines sdp) -> parse_sdp sdp strict = Ok s ->
  ports_fit (flat_map SpecAnon.fields h ++ document_fields s) ->
  exists ls, show_session (mask_document s (after anon_new h)) = crlf_lines ls /\
    Forall (fun l => ((exists kinds, of_kind kinds l) \/ l = lit "a=" \/ exists v, l = lit "a=ssrc:" ++ v ++ [58]) \/
      exists v, l = lit "a=ice-ufrag:ice-user-" ++ v \/ l = lit "a=ice-pwd:ice-password-" ++ v \/ l = lit "a=fingerprint:" ++ v) ls.
Proof.
  intros E OK D sdp strict s h F P PF. eexists. split; [apply session_is_lines|]. exact (masked_documents OK D sdp strict s h F P PF).
Qed.

(** ** Example *)
Definition eol : str := [13; 10].
Example C83_example : exists s,
  parse_sdp (E := Ext0) (lit "v=0" ++ eol ++ lit "o=me 7 1 IN IP4 10.1.2.3" ++ eol ++ lit "s=-" ++ eol ++ lit "t=0 0" ++ eol ++
    lit "c=IN IP6 2001:db8::1" ++ eol ++ lit "a=ice-ufrag:4a79" ++ eol ++ lit "m=audio 9 UDP/TLS/RTP/SAVPF 111" ++ eol ++
    lit "a=candidate:0 1 UDP 2122252543 10.1.2.3 49760 typ host" ++ eol ++ lit "a=ssrc:5 cname:{me}" ++ eol) false = Ok s /\
  show_session (E := Ext0) (mask_document s (after anon_new [VIp (V4 1)])) = crlf_lines [lit "v=0"; lit "o=origin-user-00000001 7 1 IN IP4 0.0.0.2"; lit "s=-"; lit "t=0 0";
    lit "c=IN IP6 ::1"; lit "a=ice-ufrag:ice-user-00000001"; lit "m=audio 9 UDP/TLS/RTP/SAVPF 111";
    lit "a=candidate:0 1 UDP 2122252543 0.0.0.2 1 typ host"; lit "a=ssrc:5 cname:cname-00000001"].
Proof. eexists. split; [vm_compute; reflexivity|]. vm_compute. reflexivity. Qed.
(** The host parser of the reference instance takes the masked names. *)
Example C83_example_names : masked_names_are_domains (E := Ext0).
Proof. exact masked_names_ext0. Qed.

(** Assumptions of everything above. *)
Definition theorems := C83_documents.
Print Assumptions theorems.
