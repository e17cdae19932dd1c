(** * C56: documents section by section

    A document is given by the lines before its first m= line, the head, and its
    media sections, see [document_text].  An m= line is a line that the parser
    accepts as one. *)
From Coq Require Import List NArith Bool Ascii String Permutation Lia.
From Verif Require Import Str Num Net Types Ext Show Session SpecApi SpecDoc SpecPrint SpecOrder SpecSections PSections.
Import ListNotations.
Open Scope N_scope.
Open Scope list_scope.

(** If a document is accepted, then so is the head with each of the sections
    alone, and its session is made of those. *)
Theorem C56_parts : forall (E : Ext) sdp b s head secs ts,
  document_text sdp head secs -> secs <> [] -> parse_sdp sdp b = Ok s ->
  Forall2 (fun x t => document_text t head [x] /\ 51 <= byte_len t) secs ts ->
  exists ss, Forall2 (fun t s1 => parse_sdp t b = Ok s1) ts ss /\ combined ss s.
Proof. exact @whole_parts. Qed.
(** And conversely. *)
Theorem C56_whole : forall (E : Ext) sdp b head secs ts ss,
  document_text sdp head secs -> secs <> [] -> 51 <= byte_len sdp ->
  Forall2 (fun x t => document_text t head [x]) secs ts ->
  Forall2 (fun t s1 => parse_sdp t b = Ok s1) ts ss ->
  exists s, parse_sdp sdp b = Ok s /\ combined ss s.
Proof. exact @parts_whole. Qed.
(** Sections can be left out and repeated. *)
Theorem C56_choice : forall (E : Ext) sdp sdp' b s head secs secs',
  document_text sdp head secs -> secs <> [] -> parse_sdp sdp b = Ok s ->
  document_text sdp' head secs' -> incl secs' secs -> 51 <= byte_len sdp' ->
  exists s', parse_sdp sdp' b = Ok s' /\ same_head s s' /\ incl (s_media s') (s_media s) /\
    List.length (s_media s') = List.length secs'.
Proof. exact @other_sections. Qed.
(** They can be put in another order. *)
Theorem C56_order : forall (E : Ext) sdp sdp' b s head secs secs',
  document_text sdp head secs -> parse_sdp sdp b = Ok s ->
  document_text sdp' head secs' -> Permutation secs secs' -> 51 <= byte_len sdp' ->
  exists s', parse_sdp sdp' b = Ok s' /\ same_head s s' /\ Permutation (s_media s) (s_media s') /\
    Permutation (map said (s_warnings s)) (map said (s_warnings s')).
Proof. exact @permuted_sections. Qed.
(** Documents with the same head can be joined. *)
Theorem C56_join : forall (E : Ext) sdp1 sdp2 sdp b s1 s2 head secs1 secs2,
  document_text sdp1 head secs1 -> document_text sdp2 head secs2 -> secs1 <> [] -> secs2 <> [] ->
  parse_sdp sdp1 b = Ok s1 -> parse_sdp sdp2 b = Ok s2 ->
  document_text sdp head (secs1 ++ secs2) -> 51 <= byte_len sdp ->
  exists s, parse_sdp sdp b = Ok s /\ same_head s s1 /\ same_head s s2 /\ s_media s = s_media s1 ++ s_media s2.
Proof. exact @joined_sections. Qed.

(** ** False of the code: m= lines that are not supported

    Such a line is skipped if warnings are not errors, but not the lines after it:
    they become part of the section before, or make the document fail. *)
Ltac notline := let l := fresh in let K := fresh in let T := fresh in
  intros (_ & l & K & T); vm_compute in K; first [discriminate K | injection K as <-; destruct T as (? & T); discriminate T].
Ltac notlines := repeat (apply Forall_cons; [notline|]); apply Forall_nil.
Ltac theline := split; [let K := fresh in intro K; apply Forall_inv in K; discriminate K
  | eexists; split; [vm_compute; reflexivity | eexists; reflexivity]].
Definition head_lines : list str := [lit "v=0"; lit "o=- 1 2 IN IP6 ::1"; lit "s=-"; lit "t=0 0"; lit "a=ice-lite"; lit "a=unheard-of"].
Definition audio_lines : list str := [lit "m=audio 9 RTP/AVP 0"; lit "c=IN IP6 ::1"; lit "a=mid:1"].
Definition text_lines : list str := [lit "m=text 9 RTP/AVP 98"; lit "a=sendonly"].
Definition text_lines_c : list str := [lit "m=text 9 RTP/AVP 98"; lit "c=IN IP6 ::1"].
Theorem C56_unsupported_section_refuted : forall (E : Ext),
  (exists e line body n, text_lines = line :: body /\ has_type line 109 /\
     parse_sdp_line line n = Err (PUnsupported e line n) /\
     exists s s', parse_sdp (crlf_lines (head_lines ++ audio_lines)) false = Ok s /\
       parse_sdp (crlf_lines (head_lines ++ audio_lines ++ text_lines)) false = Ok s' /\
       map m_attribute (s_media s) = [[AMid (lit "1")]] /\ map m_attribute (s_media s') = [[AMid (lit "1"); ASendonly]]) /\
  exists e line, parse_sdp (crlf_lines (head_lines ++ audio_lines ++ text_lines_c)) false = Err (PSequence e line).
Proof.
  intro E. split.
  - eexists. exists (lit "m=text 9 RTP/AVP 98"), [lit "a=sendonly"], 0%nat. split; [reflexivity|]. split.
    + exists [], [], (lit "text 9 RTP/AVP 98"). repeat split; try constructor. discriminate.
    + split; [vm_compute; reflexivity|]. eexists. eexists. split; [vm_compute; reflexivity|]. split; [vm_compute; reflexivity|].
      split; reflexivity.
  - eexists. eexists. vm_compute. reflexivity.
Qed.

(** ** The theorems apply *)
Definition video_lines : list str := [lit "m=video 9 RTP/AVP 96"; lit "c=IN IP6 ::2"; lit "a=nothing-known"; lit "a=recvonly"].
Definition whole : str := crlf_lines (head_lines ++ List.concat [audio_lines; video_lines]).
Example whole_text : forall E : Ext, document_text whole head_lines [audio_lines; video_lines].
Proof.
  intro E. split; [vm_compute; reflexivity|]. split; [notlines|].
  constructor; [eexists; eexists; split; [reflexivity|]; split; [theline | notlines]|].
  constructor; [eexists; eexists; split; [reflexivity|]; split; [theline | notlines]|]. constructor.
Qed.
Example whole_parts_text : forall E : Ext, Forall2 (fun x t => document_text t head_lines [x] /\ 51 <= byte_len t)
  [audio_lines; video_lines] [crlf_lines (head_lines ++ audio_lines); crlf_lines (head_lines ++ video_lines)].
Proof.
  intro E. constructor; [|constructor; [|constructor]]; (split; [|vm_compute; discriminate]);
    (split; [vm_compute; reflexivity|]; split; [notlines|]; constructor; [eexists; eexists; split; [reflexivity|]; split; [theline | notlines]|]; constructor).
Qed.
Example whole_reversed : forall E : Ext, exists s s', parse_sdp whole false = Ok s /\
  parse_sdp (crlf_lines (head_lines ++ video_lines ++ audio_lines)) false = Ok s' /\ s_media s' = rev (s_media s) /\
  List.length (s_media s) = 2%nat /\ List.length (s_warnings s) = 2%nat /\
  exists ss, Forall2 (fun t s1 => parse_sdp t false = Ok s1)
    [crlf_lines (head_lines ++ audio_lines); crlf_lines (head_lines ++ video_lines)] ss /\ combined ss s.
Proof.
  intro E. eassert (H : parse_sdp whole false = Ok _) by (vm_compute; reflexivity).
  eexists. eexists. split; [exact H|]. split; [vm_compute; reflexivity|]. split; [reflexivity|]. split; [reflexivity|]. split; [reflexivity|].
  exact (C56_parts E whole false _ _ _ _ (whole_text E) ltac:(discriminate) H (whole_parts_text E)).
Qed.

Definition theorems := (C56_parts, C56_whole, C56_choice, C56_order, C56_join, C56_unsupported_section_refuted).
Print Assumptions theorems.
