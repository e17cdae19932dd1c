(** * C87: the fuzz target *)
From Coq Require Import List NArith ZArith Ascii String Lia.
From Verif Require Import Str Num Net Types Ext Session Fuzz SpecFuzz PPanic Ext0.
From Verif Require Import PFuzz.
Import ListNotations.
Open Scope N_scope.
Open Scope list_scope.

(** Bytes are taken for a text exactly if they are the UTF-8 of one, and for no
    other text: nothing is skipped or replaced. *)
Theorem C87_utf8 : forall data s, from_utf8 data = Some s <-> Forall scalar s /\ data = flat_map utf8 s.
Proof. exact from_utf8_iff. Qed.

(** The length of a text as the code counts it is the number of these bytes. *)
Theorem C87_length : forall data s, from_utf8 data = Some s -> byte_len s = N.of_nat (List.length data).
Proof. exact from_utf8_length. Qed.

(** Every panic of the parser in strict mode is found by some input, and only
    these: no text is out of reach of the fuzzer. *)
Theorem C87_reach : forall (E : Ext) data,
  fuzz_target data = Panic <-> exists s, Forall scalar s /\ data = flat_map utf8 s /\ parse_sdp s true = Panic.
Proof. exact @fuzz_iff. Qed.

(** No input of less than 2 GiB makes it panic ... *)
Theorem C87_never_panics : forall E : Ext, ext_total E -> forall data,
  (Z.of_nat (List.length data) < 2 ^ 31)%Z -> fuzz_target data <> Panic.
Proof.
  intros E OK data L P. apply fuzz_iff in P. destruct P as (s & F & -> & P). revert P. apply parse_sdp_np; [exact OK|].
  unfold short. pose proof (utf8_bytes s) as B. pose proof (StrLemmas.byte_len_length s) as K. lia.
Qed.
(** ... but a longer one does. *)
Theorem C87_never_panics_refuted : exists data, forall E : Ext, fuzz_target data = Panic.
Proof.
  exists (flat_map utf8 (long_text (Z.to_nat 2147483648))). intro E. apply fuzz_iff.
  exists (long_text (Z.to_nat 2147483648)). split; [apply long_scalar|]. split; [reflexivity|].
  apply overflow_text. rewrite Z2Nat.id; lia.
Qed.

(** ** Examples *)
Example C87_example : from_utf8 [118; 61; 195; 188; 226; 130; 172; 240; 159; 152; 128] = Some [118; 61; 252; 8364; 128512].
Proof. vm_compute. reflexivity. Qed.
(** Overlong forms, surrogates, numbers above 10FFFF, lone and missing
    continuation bytes. *)
Example C87_example_refused :
  map from_utf8 [[192; 128]; [224; 159; 191]; [237; 160; 128]; [244; 144; 128; 128]; [128]; [226; 130]; [255]] =
  [None; None; None; None; None; None; None].
Proof. vm_compute. reflexivity. Qed.
Example C87_example_parsed : fuzz_target (E := Ext0) (flat_map utf8 (lit "v=0" ++ [13; 10])) = Ok tt.
Proof. vm_compute. reflexivity. Qed.

(** Assumptions of everything above. *)
Definition theorems := (C87_utf8, C87_length, C87_reach, C87_never_panics, C87_never_panics_refuted).
Print Assumptions theorems.
