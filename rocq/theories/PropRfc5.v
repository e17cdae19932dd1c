(** * C81: documents written as the RFCs write them are printed so *)
From Coq Require Import List NArith ZArith Ascii String Lia.
From Verif Require Import Str Num Net Types Ext Show AttrParse Media Session SpecDoc SpecVal SpecPrint SpecGrammar SpecRfc Ext0.
From Verif Require Import PRfc25.
Import ListNotations.
Open Scope N_scope.
Open Scope list_scope.

(** Every line of what is printed for a document of lines of C62, in any order
    in which it is accepted, follows a rule of C62; or it is what is printed for
    attributes that have all lost their text, or for an ssrc line that has lost
    its value. *)
Theorem C81_documents : forall E : Ext, ext_ok E -> forall sdp strict s,
  Forall (fun t => blank t \/ exists kinds, of_kind kinds t) (lines sdp) -> parse_sdp sdp strict = Ok s ->
  Forall (fun l => (exists kinds, of_kind kinds l) \/ l = lit "a=" \/ exists v, l = lit "a=ssrc:" ++ v ++ [58]) (lines (show_session s)).
Proof. exact @documents_again. Qed.

(** ** Examples *)
Definition start : str := lit "v=0" ++ [13; 10] ++ lit "o=- 007 1 in ip6 ::1" ++ [13; 10] ++ lit "s=a " ++ [13; 10] ++ lit "t=00 0" ++ [13; 10] ++ lit "c=IN IP6 ::1" ++ [13; 10].
Example C81_example : forall E : Ext, exists s,
  parse_sdp (start ++ lit "a=ice-options:x" ++ [13; 10] ++ lit "m=audio 09 UDP/TLS/RTP/SAVPF 111" ++ [13; 10] ++ lit "a=fmtp:111 STEREO=1" ++ [13; 10] ++
    lit "a=ssrc:01 cname:x" ++ [13; 10]) false = Ok s /\
  lines (show_session s) = [lit "v=0"; lit "o=- 7 1 IN IP6 ::1"; lit "s=a"; lit "t=0 0"; lit "c=IN IP6 ::1"; lit "a=ice-options:x";
    lit "m=audio 9 UDP/TLS/RTP/SAVPF 111"; lit "a=fmtp:111 stereo=1"; lit "a=ssrc:1 cname:x"].
Proof. intro E. eexists. split; [vm_compute; reflexivity|]. vm_compute. reflexivity. Qed.
(** The two exceptions. *)
Example C81_example_lost : forall E : Ext, exists s,
  parse_sdp (start ++ lit "m=audio 09 UDP/TLS/RTP/SAVPF 111" ++ [13; 10] ++ lit "a=fmtp:111 stereo=0" ++ [13; 10] ++
    lit "m=video 9 RTP/AVPF 96" ++ [13; 10] ++ lit "a=ssrc:1 cname: " ++ [13; 10]) false = Ok s /\
  lines (show_session s) = [lit "v=0"; lit "o=- 7 1 IN IP6 ::1"; lit "s=a"; lit "t=0 0"; lit "c=IN IP6 ::1";
    lit "m=audio 9 UDP/TLS/RTP/SAVPF 111"; lit "a="; lit "m=video 9 RTP/AVPF 96"; lit "a=ssrc:1 cname:"].
Proof. intro E. eexists. split; [vm_compute; reflexivity|]. vm_compute. reflexivity. Qed.

(** Assumptions of everything above. *)
Definition theorems := C81_documents.
Print Assumptions theorems.
