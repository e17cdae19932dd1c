(** * Theorems about printing masked values (C51) *)
From Coq Require Import List Arith NArith ZArith Bool Ascii String.
From Verif Require Import Str Num Net Types Ext Show Address AttrParse Media Session Anon.
From Verif Require Import SpecApi SpecDoc SpecVal SpecItems SpecPrint SpecAnon SpecMask.
From Verif Require Import Ext0 PExt0 PMask PMask2.
Import ListNotations.
Open Scope N_scope.
Open Scope list_scope.

(** ** C51: masked values can be printed and parsed, except fingerprints *)
Theorem C51_lines : forall (E : Ext), ext_ok E -> masked_names_are_domains ->
  forall (h : list aval) v ty ty' n,
  line_value v = Some ty -> line_value (fst (mask_val v (after anon_new h))) = Some ty' ->
  ports_fit (flat_map SpecAnon.fields (h ++ [v])) -> no_fingerprint (SpecAnon.fields v) ->
  item_wf ty -> ~ item_lossy ty -> countable ty' (List.length (printed_line ty')) ->
  parse_sdp_line (printed_line ty') n = Ok {| l_number := n; l_type := ty'; l_text := printed_line ty' |}.
Proof. exact @masked_line_parses. Qed.

(** The clone of a session, which comes without media sections. *)
Theorem C51_sessions : forall (E : Ext), ext_ok E -> masked_names_are_domains ->
  forall (h : list aval) s s' b, s' = fst (mask_session s (after anon_new h)) ->
  session_wf s -> structural s -> ~ Exists attr_lossy (s_attribute s) ->
  ports_fit (flat_map SpecAnon.fields (h ++ [VSession s])) -> no_fingerprint (SpecAnon.fields (VSession s)) ->
  51 <= byte_len (show_session s') -> (Z.of_nat (List.length (show_session s')) < 2147483648)%Z ->
  parse_sdp (show_session s') b = Ok s'.
Proof. exact @masked_session_parses. Qed.

(** ... to which the clones of the media sections have been added. *)
Theorem C51_documents : forall (E : Ext), ext_ok E -> masked_names_are_domains ->
  forall (h : list aval) s s' b, s' = mask_document s (after anon_new h) ->
  session_wf s -> structural s -> ~ session_lossy s ->
  ports_fit (flat_map SpecAnon.fields h ++ document_fields s) -> no_fingerprint (document_fields s) ->
  51 <= byte_len (show_session s') -> (Z.of_nat (List.length (show_session s')) < 2147483648)%Z ->
  parse_sdp (show_session s') b = Ok s'.
Proof. exact @masked_document_parses. Qed.

(** The host parser of the reference instance takes the masked names. *)
Theorem C51_names_of_the_instance : masked_names_are_domains (E := Ext0).
Proof. exact masked_names_ext0. Qed.

(** A masked fingerprint has 8 bytes: whatever was masked before, its line is
    rejected. *)
Theorem C51_fingerprints_refuted : forall (E : Ext) (h : list aval) f n,
  exists e, parse_sdp_line
    (printed_line (TyAttribute (fst (mask_attr (AFingerprint f) (after anon_new h))))) n = Err e.
Proof. exact @masked_fingerprint_rejected. Qed.

(** After 65535 other ports the next one gets the number 65536. *)
Theorem C51_ports_refuted : forall (E : Ext), exists (h : list aval) x x', forall n,
  item_wf (TyAttribute x) /\ ~ item_lossy (TyAttribute x) /\
  no_fingerprint (SpecAnon.fields (VAttr x)) /\
  fst (mask_attr x (after anon_new h)) = x' /\
  exists e, parse_sdp_line (printed_line (TyAttribute x')) n = Err e.
Proof.
  intro E. exists (many_ports (N.to_nat 65535)), (one_candidate 65535), (one_candidate 65536). intro n.
  destruct (masked_port_rejected n) as (H1 & H2 & H3 & H4).
  split; [exact H1|]. split; [exact H2|]. split; [|split; [exact H3|exact H4]].
  constructor; [intros (b & K); discriminate K|]. constructor; [intros (b & K); discriminate K|constructor].
Qed.

(** ** Examples *)
Definition masked_document_text : str := crlf_lines
  [lit "v=0"; lit "o=alice 1 2 IN IP6 host.example"; lit "s=-"; lit "c=IN IP4 10.0.0.1"; lit "t=0 0";
   lit "a=ice-pwd:secret"; lit "m=audio 9 RTP/AVP 0"; lit "a=candidate:1 1 UDP 2113 10.0.0.1 5000 typ host";
   lit "a=ssrc:1 cname:me"].
Definition expected_text : str := crlf_lines
  [lit "v=0"; lit "o=origin-user-00000001 1 2 IN IP6 fqdn-00000001"; lit "s=-"; lit "t=0 0"; lit "c=IN IP4 0.0.0.1";
   lit "a=ice-pwd:ice-password-00000001"; lit "m=audio 9 RTP/AVP 0";
   lit "a=candidate:1 1 UDP 2113 0.0.0.1 1 typ host"; lit "a=ssrc:1 cname:cname-00000001"].
Example C51_example : exists s,
  parse_sdp (E := Ext0) masked_document_text true = Ok s /\
  show_session (E := Ext0) (mask_document s anon_new) = expected_text /\
  parse_sdp (E := Ext0) expected_text true = Ok (mask_document s anon_new) /\
  distinct KPort (document_fields s) = 1 /\ List.length (document_fields s) = 7%nat /\
  forallb (fun f => match f with FFp _ => false | _ => true end) (document_fields s) = true.
Proof.
  eexists. split; [vm_compute; reflexivity|]. split; [vm_compute; reflexivity|]. split; [vm_compute; reflexivity|].
  split; [vm_compute; reflexivity|]. split; vm_compute; reflexivity.
Qed.

Definition theorems := (C51_lines, C51_sessions, C51_documents, C51_names_of_the_instance,
  C51_fingerprints_refuted, C51_ports_refuted).
Print Assumptions theorems.
