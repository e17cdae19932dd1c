(** * C93: lines before a document *)
From Coq Require Import List NArith ZArith Ascii String Lia.
From Verif Require Import Str Num Net Types Ext AttrParse Media Session SpecDoc SpecAhead Ext0.
From Verif Require Import PAhead.
Import ListNotations.
Open Scope N_scope.
Open Scope list_scope.

(** If an accepted text is still accepted with lines before it, then each of
    them is skipped, and the session is the same but for the warnings. *)
Theorem C93_before : forall (E : Ext) a strict s before strict' s',
  parse_sdp a strict = Ok s -> parse_sdp (before ++ c_lf :: a) strict' = Ok s' ->
  Forall (skipped strict') (lines (before ++ [c_lf])) /\ with_warnings s' [] = with_warnings s [].
Proof. exact @ahead. Qed.

(** Lines that are skipped can be put before it. *)
Theorem C93_skipped : forall (E : Ext) a strict s before strict',
  parse_sdp a strict = Ok s -> (strict' = true -> s_warnings s = []) ->
  Forall (skipped strict') (lines (before ++ [c_lf])) -> exists s', parse_sdp (before ++ c_lf :: a) strict' = Ok s'.
Proof. exact @ahead_back. Qed.

(** ** False of texts that are glued together

    Without a line feed between the two, what is before can replace the first
    line, so that not every line of it is skipped. *)
Definition eol : str := [13; 10].
Definition text : str :=
  lit "v=0" ++ eol ++ lit "o=someone 4294967296 1 IN IP6 ::1" ++ eol ++ lit "s=-" ++ eol ++ lit "t=0 0" ++ eol.
Definition glue : str := lit "v=0" ++ eol ++ lit "a=x-".
Theorem C93_glued_refuted : forall E : Ext, exists s s',
  parse_sdp text true = Ok s /\ parse_sdp (glue ++ text) false = Ok s' /\
  ~ Forall (skipped false) (lines glue).
Proof.
  intros E. eexists. eexists. split; [vm_compute; reflexivity|]. split; [vm_compute; reflexivity|].
  intro F. assert (L : lines glue = [lit "v=0"; lit "a=x-"]) by (vm_compute; reflexivity). rewrite L in F.
  inversion F as [|? ? S _]; subst. destruct S as [B|(_ & _ & n & e & P)].
  - inversion B as [|? ? K _]. discriminate K.
  - vm_compute in P. discriminate P.
Qed.

(** ** Example: a blank line and an attribute that is not supported. *)
Example C93_example : forall E : Ext, exists s s',
  parse_sdp text true = Ok s /\ parse_sdp ((eol ++ lit "a=x-later") ++ c_lf :: text) false = Ok s' /\
  List.length (s_warnings s') = 1%nat /\ with_warnings s' [] = s /\
  (exists e, parse_sdp ((eol ++ lit "a=x-later") ++ c_lf :: text) true = Err e) /\
  exists e, parse_sdp ((eol ++ lit "a=sendonly") ++ c_lf :: text) false = Err e.
Proof.
  intros E. eexists. eexists. split; [vm_compute; reflexivity|]. split; [vm_compute; reflexivity|]. split; [reflexivity|].
  split; [reflexivity|]. split; eexists; vm_compute; reflexivity.
Qed.

(** Assumptions of everything above. *)
Definition theorems := (C93_before, C93_skipped, C93_glued_refuted).
Print Assumptions theorems.
