(** * C65: printing what was accepted gives at most a fixed multiple of its text

    Only statements; the proofs are in PGrow.v and PGrow2.v. *)
From Coq Require Import List Arith NArith Lia Ascii String.
From Verif Require Import Str Num Net Types Ext Show Session SpecVal SpecFloat SpecSize SpecGrow.
From Verif Require Import Ext0 PExt0 PGrow PGrow2 PropSize.
Import ListNotations.
Open Scope nat_scope.
Open Scope list_scope.

(** What is printed of an accepted text is at most so many times as long. *)
Theorem C65_sessions : forall (E : Ext) k m, ext_ok E -> 1 <= k -> names_grow_by k -> floats_within m ->
  forall sdp b s, parse_sdp sdp b = Ok s ->
  text (show_session s) <= (510 + 6 * m) * S k * text sdp.
Proof. exact grow. Qed.

(** Floats as Rust prints them are never longer than 359 chars. *)
Theorem C65_floats : forall E : Ext, std_floats E -> floats_within 359.
Proof. exact floats_std. Qed.

(** So with floats as Rust reads and prints them, and hosts that are at most
    lowercased, the factor is a number. *)
Theorem C65_factor : forall E : Ext, ext_ok E -> std_floats E -> names_grow_by 1 ->
  forall sdp b s, parse_sdp sdp b = Ok s -> text (show_session s) <= 2664 * (2 * text sdp).
Proof.
  intros E O F K sdp b s H. assert (G := grow E 1 359 O (le_n 1) K (floats_std E F) sdp b s H).
  rewrite Nat.mul_assoc. exact G.
Qed.
Theorem C65_factor_of_the_instance : forall sdp b s,
  parse_sdp (E := Ext0) sdp b = Ok s -> text (show_session (E := Ext0) s) <= 2664 * (2 * text sdp).
Proof. exact (C65_factor Ext0 ext0_ok PFloat4.ext0_std C64_names_of_the_instance). Qed.

(** ** Cases *)
Definition lines (ls : list str) : str := flat_map (fun l => l ++ [13; 10]%N) ls.
Definition large_exponent : str :=
  lines [lit "v=0"; lit "o=- 0 0 IN IP6 ::1"; lit "s=-"; lit "t=0 0"; lit "c=IN IP6 ::1"; lit "m=video 9 RTP/SAVPF 0"; lit "a=framerate:1e150"].
(** Some factor is needed: a text can print as more than twice its length. *)
Theorem C65_length_refuted : exists sdp s, parse_sdp (E := Ext0) sdp false = Ok s /\ 2 * text sdp < text (show_session (E := Ext0) s).
Proof.
  assert (K : match parse_sdp (E := Ext0) large_exponent false with
              | Ok s => Nat.ltb (2 * text large_exponent) (text (show_session (E := Ext0) s)) | _ => false end = true) by (vm_compute; reflexivity).
  destruct (parse_sdp (E := Ext0) large_exponent false) as [s| |] eqn:Q; try discriminate K.
  exists large_exponent, s. split; [exact Q | apply Nat.ltb_lt; exact K].
Qed.
(** The smallest single takes "0." and 45 decimals. *)
Example C65_smallest : show_float 23 8 (2 ^ 31 + 1) = lit "-0." ++ repeat 48%N 44 ++ [49%N].
Proof. vm_compute. reflexivity. Qed.
Example C65_case : exists s, parse_sdp (E := Ext0) example_text false = Ok s /\ text (show_session (E := Ext0) s) < text example_text.
Proof.
  destruct (parse_sdp (E := Ext0) example_text false) as [s| |] eqn:Q; vm_compute in Q; try discriminate Q.
  exists s. split; [reflexivity|]. injection Q as <-. apply Nat.ltb_lt. vm_compute. reflexivity.
Qed.

Definition theorems := (C65_sessions, C65_floats, C65_factor, C65_factor_of_the_instance, C65_length_refuted).
Print Assumptions theorems.
