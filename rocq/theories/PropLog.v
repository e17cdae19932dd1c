(** * C71: what parsing writes to the log *)
From Coq Require Import List NArith ZArith Bool Ascii String Lia.
From Coq Require Import ZifyBool ZifyNat ZifyN.
From Verif Require Import Str Num Net Types Ext Ext0 Show Session SpecApi SpecDoc SpecVal SpecPrint Log SpecLog PDoc2 PCause6 PLog.
Import ListNotations.
Open Scope N_scope.
Open Scope list_scope.

(** The program with the log is the program without it. *)
Theorem C71_same_result : forall (E : Ext) sdp strict, snd (parse_sdp_log sdp strict) = parse_sdp sdp strict.
Proof. intros E sdp b. rewrite parse_log. reflexivity. Qed.
Theorem C71_same_line : forall (E : Ext) line n, snd (parse_sdp_line_log line n) = parse_sdp_line line n.
Proof. intros E line n. rewrite line_log. reflexivity. Qed.

(** First one record for every line that means something and is not an
    attribute, also after a refused line and if the text is refused; then one
    for every warning, if the text is accepted. *)
Theorem C71_log : forall E : Ext, ext_total E -> forall d strict, doc_ok d ->
  (Z.of_nat (List.length (doc_text d)) < 2147483648)%Z -> 51 <= byte_len (doc_text d) -> forall log,
  fst (parse_sdp_log (doc_text d) strict) = log <->
  exists tr, lines_trace (doc_lines d) tr /\ log = tr ++ warned (parse_sdp (doc_text d) strict).
Proof.
  intros E T d b D Sh B log. rewrite parse_log. cbn [fst]. destruct (log_sound T d D Sh B) as (tr & H & ->). split.
  - intros <-. exists tr. auto.
  - intros (tr' & H' & ->). rewrite (trace_fun _ _ H _ H' (doc_short d D Sh)). reflexivity.
Qed.
(** Nothing is read of a text that is too short, and nothing written. *)
Theorem C71_short : forall (E : Ext) sdp strict, byte_len sdp < 51 -> fst (parse_sdp_log sdp strict) = [].
Proof.
  intros E sdp b B. rewrite parse_log. cbn [fst]. unfold traces. replace (byte_len sdp <? 51) with true by lia. unfold parse_sdp.
  destruct (is_empty sdp); [reflexivity|]. replace (byte_len sdp <? 51) with true by lia. reflexivity.
Qed.

(** Attributes are not written: what is traced does not depend on them. *)
Theorem C71_attributes : forall E : Ext, ext_total E -> forall d d' strict strict', doc_ok d -> doc_ok d' ->
  (Z.of_nat (List.length (doc_text d)) < 2147483648)%Z -> (Z.of_nat (List.length (doc_text d')) < 2147483648)%Z ->
  51 <= byte_len (doc_text d) -> 51 <= byte_len (doc_text d') -> but_attributes d d' ->
  exists tr, fst (parse_sdp_log (doc_text d) strict) = tr ++ warned (parse_sdp (doc_text d) strict) /\
    fst (parse_sdp_log (doc_text d') strict') = tr ++ warned (parse_sdp (doc_text d') strict').
Proof.
  intros E T d d' b b' D D' Sh Sh' B B' H. rewrite !parse_log. cbn [fst].
  destruct (log_sound T d D Sh B) as (tr & L & ->). destruct (log_sound T d' D' Sh' B') as (tr' & L' & ->).
  exists tr. split; [reflexivity|]. f_equal. apply (but_trace _ _ H (doc_short d D Sh)) in L.
  exact (trace_fun _ _ L' _ L (doc_short d' D' Sh')).
Qed.

(** A record can be read back: with the letter instead of the word it is a line
    that means the same, *)
Theorem C71_read_back : forall E : Ext, ext_ok E -> forall line ty w, (Z.of_nat (List.length line) < 2147483648)%Z ->
  line_means line ty -> noun ty = Some w -> (forall m, ty <> TyMedia m) ->
  exists text, trace_of ty = [(Trace, of_string w ++ [58; 32] ++ text)] /\ line_means (line_letter ty :: 61 :: text) ty.
Proof. intros E X line ty w Sx M Nn Nm. exists (item_text ty). exact (read_back X line ty w Sx M Nn Nm). Qed.
(** but the number of ports of a media line is not written. *)
Theorem C71_read_back_media : forall E : Ext, ext_ok E -> forall line m, (Z.of_nat (List.length line) < 2147483648)%Z ->
  line_means line (TyMedia m) ->
  exists a b c x, trace_of (TyMedia m) = [(Trace, of_string "media: " ++ a ++ [44; 32] ++ b ++ [44; 32] ++ c ++ [44; 32] ++ x)] /\
    ~ In 44 a /\ ~ In 44 b /\ ~ In 44 c /\
    line_means (109 :: 61 :: a ++ [32] ++ b ++ [32] ++ c ++ [32] ++ x) (TyMedia (without_count m)).
Proof. exact @media_back. Qed.
Theorem C71_ports_written_refuted : forall E : Ext, exists line line' t t',
  snd (parse_sdp_line_log line 0) = Ok t /\ snd (parse_sdp_line_log line' 0) = Ok t' /\ l_type t <> l_type t' /\
  fst (parse_sdp_line_log line 0) = fst (parse_sdp_line_log line' 0).
Proof.
  intro E. exists (lit "m=audio 9/2 RTP/SAVPF 0"), (lit "m=audio 9 RTP/SAVPF 0"). eexists. eexists.
  split; [vm_compute; reflexivity|]. split; [vm_compute; reflexivity|]. split; [|vm_compute; reflexivity]. cbn. discriminate.
Qed.

(** Concrete cases. *)
Definition text (ls : list string) : str := flat_map (fun l => of_string l ++ [13; 10]) ls.
Definition opening_lines : list string := ["v=00"; "o=-  1 2 IN IP6 ::1"; "s= a "; "t=0 0"; "b=as:7"; "c=IN IP6 ::0/3"]%string.
Definition says (lv : level) (m : string) : record := (lv, of_string m).
Example C71_accepted : forall E : Ext, exists s,
  parse_sdp_log (text (opening_lines ++ ["a=ice-pwd:secret"; "a=foo"; "m=audio 9/2 RTP/SAVPF 0 8"]%string)) false =
    ([says Trace "version: 0"; says Trace "origin: - 1 2 IN IP6 ::1"; says Trace "session:  a "; says Trace "timing: 0 0";
      says Trace "bandwidth: AS:7"; says Trace "connection: IN IP6 ::/3"; says Trace "media: audio, 9, RTP/SAVPF, 0 8";
      says Warn "Warning: Unsupported: Unsupported parsing error: Unknown attribute type foo in line(7): a=foo"], Ok s).
Proof. intro E. eexists. vm_compute. reflexivity. Qed.
(** A refused text: everything that could be read is traced, no warning is. *)
Example C71_refused : forall E : Ext, exists e,
  parse_sdp_log (text (["a=foo"; "v=1"]%string ++ tl opening_lines ++ ["s="; "t=1 x"; "v=0"]%string)) false =
    ([says Trace "origin: - 1 2 IN IP6 ::1"; says Trace "session:  a "; says Trace "timing: 0 0";
      says Trace "bandwidth: AS:7"; says Trace "connection: IN IP6 ::/3"; says Trace "session: "; says Trace "version: 0"], Err e).
Proof. intro E. eexists. vm_compute. reflexivity. Qed.

Definition theorems := (C71_same_result, C71_same_line, C71_log, C71_short, C71_attributes, C71_read_back, C71_read_back_media,
  C71_ports_written_refuted).
Print Assumptions theorems.
