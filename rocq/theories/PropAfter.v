(** * C94: lines after a document *)
From Coq Require Import List NArith ZArith Ascii String Lia.
From Verif Require Import Str Num Net Types Ext AttrParse Media Session SpecDoc SpecSections SpecAfter Ext0.
From Verif Require Import PAfter.
Import ListNotations.
Open Scope N_scope.
Open Scope list_scope.

(** If an accepted text that ends in a line feed is still accepted with more text
    after it, in either mode, then nothing of the session (its warnings aside) is lost or changed:
    there are only more items in its last media section and further sections. If
    there are no media sections, then there may be more at session level, and
    the timing and connection data may be replaced. *)
Theorem C94_after : forall (E : Ext) a after strict strict' s s',
  parse_sdp (a ++ [c_lf]) strict = Ok s -> parse_sdp (a ++ c_lf :: after) strict' = Ok s' -> session_longer s s'.
Proof. exact @longer. Qed.

(** ** False of sessions without media sections: the timing can change. *)
Definition eol : str := [13; 10].
Definition head_text : str :=
  lit "v=0" ++ eol ++ lit "o=someone 4294967296 1 IN IP6 ::1" ++ eol ++ lit "s=-" ++ eol ++ lit "t=0 0" ++ eol ++ lit "b=AS:7" ++ [13].
Theorem C94_timing_refuted : forall E : Ext, exists after s s',
  parse_sdp (head_text ++ [c_lf]) true = Ok s /\ parse_sdp (head_text ++ c_lf :: after) true = Ok s' /\ s_timing s <> s_timing s'.
Proof.
  intros E. exists (lit "t=1 2" ++ eol). eexists. eexists. split; [vm_compute; reflexivity|]. split; [vm_compute; reflexivity|]. discriminate.
Qed.

(** ** Example: more lines in the last section, and another one. *)
Definition text : str := head_text ++ c_lf :: lit "c=IN IP6 ::1" ++ eol ++ lit "m=audio 9 RTP/AVP 0" ++ eol ++ lit "a=mid:1" ++ [13].
Definition more : str := lit "a=sendonly" ++ eol ++ lit "m=video 9 RTP/AVP 97" ++ eol.
Example C94_example : exists s s', parse_sdp (E := Ext0) (text ++ [c_lf]) true = Ok s /\
  parse_sdp (E := Ext0) (text ++ c_lf :: more) true = Ok s' /\
  map m_attribute (s_media s) = [[AMid (lit "1")]] /\ map m_attribute (s_media s') = [[AMid (lit "1"); ASendonly]; []] /\ same_head s s'.
Proof.
  eexists. eexists. split; [vm_compute; reflexivity|]. split; [vm_compute; reflexivity|]. split; [vm_compute; reflexivity|].
  split; [vm_compute; reflexivity|]. vm_compute. repeat split.
Qed.

(** Assumptions of everything above. *)
Definition theorems := (C94_after, C94_timing_refuted).
Print Assumptions theorems.
