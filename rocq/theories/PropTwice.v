(** * C63: masking again changes nothing

    Only statements; the proofs are in PTwice.v. *)
From Coq Require Import List NArith Ascii String.
From Verif Require Import Str Num Net Types Anon SpecAnon SpecMask SpecTwice PTwice.
Import ListNotations.
Open Scope N_scope.

(** The clones made by a fresh anonymizer are their own clones under a fresh one:
    in any number and of any kinds, also when the masks of a kind have run out
    and are given out again. *)
Theorem C63_clones : forall l, mask_all (mask_all l anon_new) anon_new = mask_all l anon_new.
Proof. exact masking_twice. Qed.

(** The same for one session with its media sections. *)
Theorem C63_documents : forall s,
  mask_document (mask_document s anon_new) anon_new = mask_document s anon_new.
Proof. exact document_twice. Qed.

(** It takes a fresh anonymizer: the one that made the clone takes a mask for a
    value it has not seen. *)
Theorem C63_same_anonymizer_refuted : exists v,
  fst (mask_val (fst (mask_val v anon_new)) (snd (mask_val v anon_new))) <> fst (mask_val v anon_new).
Proof. exists (VHost (lit "example.org")). vm_compute. discriminate. Qed.

(** ** Cases *)
(** Three values, two of them equal, and one that is the mask of another: the
    clones differ from the values and are kept by the second round. *)
Example C63_case :
  let l := [VHost (lit "fqdn-00000002"); VHost (lit "a"); VPort 9; VHost (lit "fqdn-00000002")] in
  mask_all l anon_new = [VHost (lit "fqdn-00000001"); VHost (lit "fqdn-00000002"); VPort 1; VHost (lit "fqdn-00000001")] /\
  mask_all l anon_new <> l /\
  mask_all (mask_all l anon_new) anon_new = mask_all l anon_new.
Proof. vm_compute. repeat split; discriminate. Qed.
(** Past the number of masks a fingerprint can have: 300 different fingerprints
    get 256 different masks. *)
Example C63_case_wrapped :
  let l := map (fun n => VFp [N.of_nat n; 1]) (seq 1 300) in
  nth 0 (mask_all l anon_new) (VPort 0) = VFp [0; 0; 0; 0; 0; 0; 0; 1] /\
  nth 256 (mask_all l anon_new) (VPort 0) = VFp [0; 0; 0; 0; 0; 0; 0; 1] /\
  mask_all (mask_all l anon_new) anon_new = mask_all l anon_new.
Proof. vm_compute. repeat split. Qed.
(** Not any list is kept: the first mask of a fresh anonymizer is number 1. *)
Example C63_case_unmasked : mask_all [VPort 2] anon_new <> [VPort 2].
Proof. vm_compute. discriminate. Qed.

Definition theorems := (C63_clones, C63_documents, C63_same_anonymizer_refuted).
Print Assumptions theorems.
