(** * C70: what comes of a text *)
From Coq Require Import List NArith ZArith Bool Ascii String Lia.
From Verif Require Import Str Num Net Types Ext Ext0 Show Session SpecApi SpecDoc SpecVal SpecUnsup SpecWarn SpecWhy SpecCause.
From Verif Require Import SpecSeq SpecOutcome PDoc2 POutcome.
Import ListNotations.
Open Scope N_scope.
Open Scope list_scope.

(** Every line is of exactly one kind: it means one thing (C47), it is
    unsupported (C48), or it is refused for one reason (C68, C69). *)
Theorem C70_lines : forall E : Ext, ext_total E -> forall line, (Z.of_nat (List.length line) < 2147483648)%Z ->
  exists k, is_kind line k /\ forall k', is_kind line k' -> k' = k.
Proof. exact @line_kinds. Qed.

(** What the parser says of a text is what comes of it. *)
Theorem C70_outcome : forall E : Ext, ext_total E -> forall d strict r, doc_ok d ->
  (Z.of_nat (List.length (doc_text d)) < 2147483648)%Z -> parse_sdp (doc_text d) strict = r -> outcome d strict r.
Proof. exact @sound. Qed.

(** For ASCII texts nothing else does. *)
Theorem C70_exactly : forall E : Ext, ext_total E -> forall d strict r, doc_ok d ->
  (Z.of_nat (List.length (doc_text d)) < 2147483648)%Z -> Forall ascii_text (doc_lines d) ->
  (parse_sdp (doc_text d) strict = r <-> outcome d strict r).
Proof. intros E T d b r D Sh A. split; [exact (sound T d b r D Sh) | exact (complete T d b r D Sh A)]. Qed.
Theorem C70_one : forall E : Ext, ext_total E -> forall d strict, doc_ok d ->
  (Z.of_nat (List.length (doc_text d)) < 2147483648)%Z -> Forall ascii_text (doc_lines d) ->
  exists r, outcome d strict r /\ forall r', outcome d strict r' -> r' = r.
Proof.
  intros E T d b D Sh A. exists (parse_sdp (doc_text d) b). split; [apply (sound T); auto|].
  intros r' O. symmetry. apply (complete T d b r' D Sh A O).
Qed.

(** Concrete cases: one text for each outcome. *)
Definition text (ls : list string) : doc := {| d_lines := map (fun l => (of_string l, CRLF)) ls; d_last := [] |}.
Definition opening_lines : list string := ["v=0"; "o=- 1 2 IN IP6 ::1"; "s=-"; "t=0 0"; "c=IN IP6 ::1"]%string.
Lemma text_ok : forall ls, forallb (fun l => negb (existsb (N.eqb 10) (of_string l))) ls = true -> doc_ok (text ls).
Proof.
  intros ls H. split; [|intros []]. unfold text. cbn [d_lines]. apply Forall_forall. intros x I. apply in_map_iff in I.
  destruct I as (l & <- & I). rewrite forallb_forall in H. specialize (H _ I). split; [|exact Logic.I]. cbn [fst].
  intro K. assert (X : existsb (N.eqb 10) (of_string l) = true) by (apply existsb_exists; exists 10; auto). rewrite X in H. discriminate.
Qed.
Ltac come T := apply (C70_outcome _ T); [apply text_ok; vm_compute; reflexivity | vm_compute; reflexivity | vm_compute; reflexivity].
Example C70_empty : forall E : Ext, ext_total E -> outcome (text []) true (Err (PLine (complains "empty SDP") [] 0)).
Proof. intros E T. come T. Qed.
Example C70_short : forall E : Ext, ext_total E ->
  outcome (text ["v=0"%string]) true (Err (PLine (complains "string too short to be valid SDP") (lit "v=0" ++ [13; 10]) 0)).
Proof. intros E T. come T. Qed.
(** An unsupported line, a refused line and an order that is broken: *)
Definition bad_text : doc := text (opening_lines ++ ["a=foo"; "a=mid"; "a=bar"; "a=group"; "s=-"]%string).
Example C70_strict : forall E : Ext, ext_total E ->
  outcome bad_text true (Err (PUnsupported (EUnsupported (lit "Unknown attribute type foo")) (lit "a=foo") 5)).
Proof. intros E T. come T. Qed.
Example C70_relaxed : forall E : Ext, ext_total E ->
  outcome bad_text false (Err (PLine (complains "Group attribute is missing semantics token") (lit "a=group") 8)).
Proof. intros E T. come T. Qed.
Example C70_disordered : forall E : Ext, ext_total E ->
  outcome (text (opening_lines ++ ["a=foo"; "a=mid:1"; "s=-"]%string)) false
    (Err (PSequence (lit "Parsing error: mid:1 not allowed at session level") 6)).
Proof. intros E T. come T. Qed.
Example C70_accepted : forall E : Ext, ext_total E -> exists s,
  outcome (text (opening_lines ++ ["a=foo"; "m=audio 9 RTP/AVP 0"; "a=mid:1"]%string)) false (Ok s) /\
  s_warnings s = [PUnsupported (EUnsupported (lit "Unknown attribute type foo")) (lit "a=foo") 5].
Proof.
  intros E T. eexists. split; [apply (C70_outcome _ T); [apply text_ok; vm_compute; reflexivity | vm_compute; reflexivity | vm_compute; reflexivity]|].
  reflexivity.
Qed.

Definition theorems := (C70_lines, C70_outcome, C70_exactly, C70_one).
Print Assumptions theorems.
