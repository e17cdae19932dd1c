(** * C77: errors and warnings take at most a fixed multiple of the text

    Only statements; the proofs are in PLong.v and PLong2.v.  Lengths are in chars.
    The texts are ASCII where the errors quote them: the model's [to_upper] and
    [debug_str] are those of Rust for such texts. *)
From Coq Require Import List Arith NArith Lia Ascii String.
From Verif Require Import Str Num Net Types Ext Show Session SpecVal SpecFloat SpecWarn SpecSize SpecGrow SpecLong.
From Verif Require Import Ext0 PExt0 PGrow2 PLong2 PropSize.
Import ListNotations.
Open Scope nat_scope.
Open Scope list_scope.

(** The error of a line is at most seven times as long as the line, plus what the
    host parser says, a fixed text and the number of the line. *)
Theorem C77_lines : forall (E : Ext) B, complaints_within B -> forall line n e, ascii_text line ->
  parse_sdp_line line n = Err e -> text (show_perr e) <= 7 * text line + 230 + B + text (show_N (N.of_nat n)).
Proof. intros E B HB line n e _. exact (line_text B HB line n e). Qed.

(** All warnings of an accepted text together. *)
Theorem C77_warnings : forall (E : Ext) B, complaints_within B -> forall sdp b s, ascii_text sdp -> fits_memory sdp ->
  parse_sdp sdp b = Ok s -> sum (fun w => text (show_perr w)) (s_warnings s) <= (258 + B) * text sdp.
Proof. intros E B HB sdp b s _. exact (warnings_text B HB sdp b s). Qed.

(** The error of a refused text: either of a line, or of the order of lines, and
    then it can show an attribute as the crate prints it. *)
Theorem C77_refused : forall (E : Ext) B, complaints_within B -> forall sdp b e, ascii_text sdp -> fits_memory sdp ->
  parse_sdp sdp b = Err e ->
  match e with
  | PSequence _ _ => forall k m, ext_ok E -> 1 <= k -> names_grow_by k -> floats_within m ->
      text (show_perr e) <= 646 + m + (120 + 6 * m) * (S k * text sdp)
  | _ => text (show_perr e) <= 7 * text sdp + 250 + B
  end.
Proof. intros E B HB sdp b e _. exact (refused_text B HB sdp b e). Qed.

(** So with floats as Rust prints them, hosts that are at most lowercased and
    complaints of at most 100 chars, one number does. *)
Theorem C77_factor : forall E : Ext, ext_ok E -> std_floats E -> names_grow_by 1 -> complaints_within 100 ->
  forall sdp b e, ascii_text sdp -> fits_memory sdp -> parse_sdp sdp b = Err e ->
  text (show_perr e) <= 1005 + 2274 * (2 * text sdp).
Proof.
  intros E O F K B sdp b e _ M H. assert (G := refused_text 100 B sdp b e M H).
  destruct e; [| | exact (G 1 359 O (le_n 1) K (floats_std E F))]; clear - G; unfold text in *; lia.
Qed.
Theorem C77_complaints_of_the_instance : complaints_within (E := Ext0) 30.
Proof.
  intros s m H. cbn [host_parse Ext0] in H. unfold host0 in H.
  repeat match type of H with
  | (match ?x with _ => _ end) = Err _ => destruct x; try discriminate H
  | (let _ := _ in _) = Err _ => cbv zeta in H
  end; injection H as <-; apply Nat.leb_le; vm_compute; reflexivity.
Qed.

(** Six times the line, whatever is added, is not enough: DEL takes six chars in
    quotes. *)
Theorem C77_six_refuted : forall (E : Ext) c, exists line e, ascii_text line /\
  parse_sdp_line line 0 = Err e /\ 6 * text line + c < text (show_perr e).
Proof.
  intros E c. exists (long_line (c + 100)). assert (L := long_length (c + 100) 0).
  destruct (parse_sdp_line (long_line (c + 100)) 0) as [l|e|]; [destruct L| |destruct L]. exists e. split; [|split; [reflexivity|]].
  - unfold long_line. apply Forall_app. split; [repeat constructor|]. apply Forall_forall. intros x I. apply repeat_spec in I. subst. reflexivity.
  - assert (Q : text (long_line (c + 100)) = 13 + S (c + 100)); [|lia].
    unfold text, long_line. rewrite app_length. unfold deletes. rewrite repeat_length. reflexivity.
Qed.

(** ** Cases *)
Example C77_line_case : forall E : Ext, exists e, parse_sdp_line (lit "a=ssrc-group:""X") 7 = Err e /\
  show_perr e = lit "Unsupported: Unsupported parsing error: Unknown ssrc semantic '""\""X""' found in line(7): a=ssrc-group:""X".
Proof. intro E. eexists. split; vm_compute; reflexivity. Qed.
Definition lines (ls : list str) : str := flat_map (fun l => l ++ [13; 10]%N) ls.
Example C77_sequence_case : exists e,
  parse_sdp (E := Ext0) (lines [lit "v=0"; lit "o=- 0 0 IN IP4 0.0.0.0"; lit "s=-"; lit "t=0 0"; lit "a=framerate:1e9"; lit "m=video 9 RTP/SAVPF 0"]) false = Err e /\
  show_perr e = lit "Sequence error in line(4): Parsing error: framerate:1000000000 not allowed at session level".
Proof. eexists. split; vm_compute; reflexivity. Qed.
Example C77_warning_case : exists s,
  parse_sdp (E := Ext0) (lines [lit "v=0"; lit "o=- 0 0 IN IP4 0.0.0.0"; lit "s=-"; lit "t=0 0"; lit "c=IN IP4 0.0.0.0"; lit "a=x"; lit "a=y"]) false = Ok s /\
  map show_perr (s_warnings s) =
    [lit "Unsupported: Unsupported parsing error: Unknown attribute type x in line(5): a=x";
     lit "Unsupported: Unsupported parsing error: Unknown attribute type y in line(6): a=y"].
Proof. eexists. split; vm_compute; reflexivity. Qed.

Definition theorems := (C77_lines, C77_warnings, C77_refused, C77_factor, C77_complaints_of_the_instance, C77_six_refuted).
Print Assumptions theorems.
