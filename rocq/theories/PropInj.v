(** * C59: what is printed tells sessions apart *)
From Coq Require Import List NArith ZArith Bool Ascii String Lia.
From Verif Require Import Str Num Net Types Ext Show Media Session SpecApi SpecDoc SpecVal SpecItems SpecPrint PPrint10 PInj.
Import ListNotations.
Open Scope N_scope.
Open Scope list_scope.

(** Sessions whose items are well-formed and survive printing are the same, but for
    warnings, if their texts are.  Neither need to obey the structural rules, and
    their texts may be too short to be parsed. *)
Theorem C59_sessions : forall (E : Ext), ext_ok E -> forall s s',
  session_wf s -> session_wf s' -> ~ session_lossy s -> ~ session_lossy s' ->
  (Z.of_nat (List.length (show_session s)) < 2147483648)%Z ->
  (show_session s = show_session s' <-> with_warnings s [] = with_warnings s' []).
Proof.
  intros E X s s' W W' L L' C. split; [exact (sessions_apart X s s' W W' L L' C)|].
  intro Q. change (show_session (with_warnings s []) = show_session (with_warnings s' [])). rewrite Q. reflexivity.
Qed.
(** In particular those that were parsed. *)
Theorem C59_accepted : forall (E : Ext), ext_ok E -> forall sdp b s sdp' b' s',
  parse_sdp sdp b = Ok s -> parse_sdp sdp' b' = Ok s' -> ~ session_lossy s -> ~ session_lossy s' ->
  (Z.of_nat (List.length (show_session s)) < 2147483648)%Z ->
  show_session s = show_session s' -> with_warnings s [] = with_warnings s' [].
Proof.
  intros E X sdp b s sdp' b' s' P P' L L' C. destruct (parsed_session_wf X _ _ _ P) as [W _]. destruct (parsed_session_wf X _ _ _ P') as [W' _].
  exact (sessions_apart X s s' W W' L L' C).
Qed.
(** The same line by line. *)
Theorem C59_lines : forall (E : Ext), ext_ok E -> forall a b,
  item_wf a -> item_wf b -> ~ item_lossy a -> ~ item_lossy b ->
  (Z.of_nat (List.length (printed_line a)) < 2147483648)%Z -> printed_line a = printed_line b -> a = b.
Proof. exact @items_apart. Qed.
(** False of the code: different accepted sessions with the same text. *)
Definition base (attributes media_attributes : list str) : str :=
  crlf_lines ([lit "v=0"; lit "o=- 1 2 IN IP6 ::1"; lit "s=-"; lit "t=0 0"; lit "c=IN IP6 ::1"] ++ attributes ++
              lit "m=video 9 RTP/AVP 96 97" :: media_attributes).
Definition confused {E : Ext} (x x' y y' : list str) : Prop :=
  exists s s', parse_sdp (base x x') true = Ok s /\ parse_sdp (base y y') true = Ok s' /\
    s <> s' /\ show_session s = show_session s'.
Ltac conf := eexists; eexists; split; [vm_compute; reflexivity|]; split; [vm_compute; reflexivity|]; split; [discriminate | vm_compute; reflexivity].
Theorem C59_all_accepted_refuted : forall E : Ext,
  (* default parameters are not printed, not even their payload type *)
  confused [] [lit "a=fmtp:96 packetization-mode=0"; lit "a=ptime:1"] [] [lit "a=fmtp:97 packetization-mode=0"; lit "a=ptime:1"] /\
  confused [] [lit "a=fmtp:96 packetization-mode=0"; lit "a=ptime:1"] [] [lit "a=ptime:1"] /\
  (* with an apt, nothing else is *)
  confused [] [lit "a=fmtp:96 apt=97;max-fs=1"] [] [lit "a=fmtp:96 apt=97"] /\
  (* two parameters that are not known, or one with a comma *)
  confused [] [lit "a=fmtp:96 x=1;y=2"] [] [lit "a=fmtp:96 x=1,y=2"] /\
  (* no msid, or all *)
  confused [lit "a=msid-semantic:WMS"] [] [lit "a=msid-semantic:WMS *"] [].
Proof. intro E. repeat match goal with |- _ /\ _ => split end; conf. Qed.

(** ** The theorems apply *)
Example told_apart : forall E : Ext, exists s s', parse_sdp (base [lit "a=ice-lite"] [lit "a=ptime:1"; lit "a=mid:x"]) true = Ok s /\
  parse_sdp (base [lit "a=ice-lite"] [lit "a=mid:x"; lit "a=ptime:1"]) false = Ok s' /\ ~ session_lossy s /\ ~ session_lossy s' /\
  (Z.of_nat (List.length (show_session s)) < 2147483648)%Z /\ show_session s <> show_session s'.
Proof.
  intro E. eexists. eexists. split; [vm_compute; reflexivity|]. split; [vm_compute; reflexivity|].
  split; [|split; [|split; [vm_compute; reflexivity | vm_compute; discriminate]]];
    intro K; unfold session_lossy in K; apply Exists_exists in K; destruct K as (ty & I & K); vm_compute in I;
    repeat (destruct I as [<-|I]; [exact K|]); destruct I.
Qed.

Definition theorems := (C59_sessions, C59_accepted, C59_lines, C59_all_accepted_refuted).
Print Assumptions theorems.
