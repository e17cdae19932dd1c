(** * C84: masked documents with fingerprints cannot be read *)
From Coq Require Import List NArith ZArith Ascii String Lia.
From Verif Require Import Str Num Net Types Ext Show AttrParse Media Session Anon SpecDoc SpecAnon SpecMask SpecPrint Ext0.
From Verif Require Import PMask3.
Import ListNotations.
Open Scope N_scope.
Open Scope list_scope.

(** The masks of fingerprints have eight bytes, fewer than any hash: no masked
    clone of a session with a fingerprint can be parsed once printed, whatever
    else is in it and whatever has been masked before, in both modes. *)
Theorem C84_session : forall (E : Ext) (s : session) (h : list aval) f strict r,
  In (AFingerprint f) (s_attribute s) ->
  parse_sdp (show_session (fst (mask_session s (after anon_new h)))) strict <> Ok r.
Proof. exact @masked_session_unread. Qed.

(** The same with the clones of the media sections added, for a fingerprint
    at the session or in any section. *)
Theorem C84_document : forall (E : Ext) (s : session) (h : list aval) f strict r,
  In (AFingerprint f) (s_attribute s) \/ (exists m, In m (s_media s) /\ In (AFingerprint f) (m_attribute m)) ->
  parse_sdp (show_session (mask_document s (after anon_new h))) strict <> Ok r.
Proof. exact @masked_document_unread. Qed.

(** Fingerprints are the only obstacle: the masked print of a parsed session,
    without values that printing loses, can be parsed if and only if it has
    no fingerprint at all; and then it is read as just the masked session. *)
Theorem C84_exactly : forall (E : Ext), ext_ok E -> masked_names_are_domains ->
  forall sdp strict strict' (h : list aval) s s',
  parse_sdp sdp strict = Ok s -> ~ session_lossy s -> ports_fit (flat_map SpecAnon.fields h ++ document_fields s) ->
  s' = mask_document s (after anon_new h) ->
  51 <= byte_len (show_session s') -> (Z.of_nat (List.length (show_session s')) < 2147483648)%Z ->
  ((exists r, parse_sdp (show_session s') strict' = Ok r) <->
   (forall f, ~ In (AFingerprint f) (s_attribute s)) /\
   (forall m f, In m (s_media s) -> ~ In (AFingerprint f) (m_attribute m))) /\
  (forall r, parse_sdp (show_session s') strict' = Ok r -> r = s').
Proof. exact @masked_document_exactly. Qed.

(** ** Examples *)
Definition eol : str := [13; 10].
Definition text (fp : str) : str :=
  lit "v=0" ++ eol ++ lit "o=me 7 1 IN IP4 10.1.2.3" ++ eol ++ lit "s=-" ++ eol ++ lit "t=0 0" ++ eol ++
  lit "c=IN IP4 10.1.2.3" ++ eol ++ lit "m=audio 9 UDP/TLS/RTP/SAVPF 111" ++ eol ++ fp.
(** A text that is parsed with its fingerprint, and its masked print. *)
Example C84_example : exists s e,
  parse_sdp (E := Ext0) (text (lit "a=fingerprint:sha-1 CD:34:D1:62:16:95:7B:B7:EB:74:E2:39:27:97:EB:0B:23:73:AC:BC" ++ eol)) true = Ok s /\
  show_session (E := Ext0) (mask_document s anon_new) = crlf_lines [lit "v=0"; lit "o=origin-user-00000001 7 1 IN IP4 0.0.0.1"; lit "s=-"; lit "t=0 0";
    lit "c=IN IP4 0.0.0.1"; lit "m=audio 9 UDP/TLS/RTP/SAVPF 111"; lit "a=fingerprint:sha-1 00:00:00:00:00:00:00:01"] /\
  parse_sdp (E := Ext0) (show_session (E := Ext0) (mask_document s anon_new)) false = Err (PLine e (lit "a=fingerprint:sha-1 00:00:00:00:00:00:00:01") 6).
Proof.
  eexists. eexists. split; [vm_compute; reflexivity|]. split; [vm_compute; reflexivity|]. vm_compute. reflexivity.
Qed.
(** Without the fingerprint the masked print is parsed. *)
Example C84_example_without : exists s s',
  parse_sdp (E := Ext0) (text []) true = Ok s /\ parse_sdp (E := Ext0) (show_session (E := Ext0) (mask_document s anon_new)) true = Ok s'.
Proof. eexists. eexists. split; [vm_compute; reflexivity|]. vm_compute. reflexivity. Qed.

(** What C84_exactly supposes is true of both texts. *)
Example C84_example_supposed : forall fp, In fp [[]; lit "a=fingerprint:sha-1 CD:34:D1:62:16:95:7B:B7:EB:74:E2:39:27:97:EB:0B:23:73:AC:BC" ++ eol] ->
  exists s, parse_sdp (E := Ext0) (text fp) true = Ok s /\ ~ session_lossy s /\
  ports_fit (flat_map SpecAnon.fields [VPort 7] ++ document_fields s) /\
  (51 <=? byte_len (show_session (E := Ext0) (mask_document s (after anon_new [VPort 7])))) = true /\
  (Z.of_nat (List.length (show_session (E := Ext0) (mask_document s (after anon_new [VPort 7])))) <? 2147483648)%Z = true.
Proof.
  intros fp [<-|[<-|[]]]; (eexists; split; [vm_compute; reflexivity|]; split;
    [intro K; unfold session_lossy in K; apply Exists_exists in K; destruct K as (x & I & K); vm_compute in I;
     repeat (destruct I as [<-|I]; [exact K|]); destruct I|]; split; [intro K; vm_compute in K; discriminate K|split; vm_compute; reflexivity]).
Qed.

(** Assumptions of everything above. *)
Definition theorems := (C84_session, C84_document, C84_exactly).
Print Assumptions theorems.
