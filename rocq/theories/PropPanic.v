(** * Theorems about panics: C01

    [Panic] is the model's outcome for an index out of bounds, [unwrap] of
    nothing, [unreachable!], a slice at a wrong position and an i32 overflow in
    a debug build. *)
From Coq Require Import List NArith ZArith Bool Ascii String Lia.
From Verif Require Import Str Num Net Types Ext AttrParse Media Session PPanic.
Import ListNotations.
Open Scope N_scope.
Open Scope list_scope.

Theorem C01_never_panics : forall E : Ext, ext_total E ->
  forall text : str, (Z.of_nat (List.length text) < 2 ^ 31)%Z ->
  (forall strict, parse_sdp text strict <> Panic) /\
  (forall n, parse_sdp_line text n <> Panic) /\
  attr_from_str text <> Panic.
Proof.
  intros E OK text H. split; [|split].
  - intros b. exact (parse_sdp_np OK text b H).
  - intros n. exact (parse_sdp_line_np OK text n H).
  - exact (attr_from_str_np OK text H).
Qed.
Print Assumptions C01_never_panics.

(** Already parsed lines, in any number and order; a vector of media lines only
    panics when empty, and is never passed empty by the above. *)
Theorem C01_assembly_never_panics : forall (E : Ext) (lines : list sdp_line),
  parse_sdp_vector lines <> Panic /\
  (forall s, snd (parse_session_vector s lines) <> Panic) /\
  (parse_media_vector lines = Panic <-> lines = []).
Proof.
  intros E lines. split; [exact (vector_np lines)|]. split; [exact (session_vector_np lines)|].
  exact (media_vector_np lines).
Qed.
Print Assumptions C01_assembly_never_panics.

(** Without the bound on the length the claim is false. *)
Theorem C01_never_panics_unbounded_refuted : exists text : str,
  forall (E : Ext) strict, parse_sdp text strict = Panic.
Proof.
  exists (long_text (Z.to_nat 2147483648)). intros E strict. apply overflow_text.
  rewrite Z2Nat.id; lia.
Qed.
Print Assumptions C01_never_panics_unbounded_refuted.

(** Malformed input that reaches the indexing in several parsers. *)
Example C01_example : forall E : Ext,
  (exists e, parse_sdp_line (lit "c=IN IP4 1.2.3.4/") 3 = Err e) /\
  (exists e, parse_sdp_line (lit "b=AS") 3 = Err e) /\
  (exists e, parse_sdp_line (lit "a=imageattr:97 send [") 3 = Err e) /\
  (exists e, parse_sdp_line (lit "a=fingerprint:sha-1 A") 3 = Err e) /\
  (exists e, parse_sdp_line (lit "a=") 3 = Err e) /\
  (exists e, parse_sdp (lit "v=0" ++ repeat c_lf 60) true = Err e).
Proof. intros E. repeat split; eexists; vm_compute; reflexivity. Qed.
