(** * Proofs: masked host names and the concrete host parser (C51) *)
From Coq Require Import List NArith ZArith Lia Bool Ascii String.
From Coq Require Import ZifyBool ZifyNat ZifyN.
From Verif Require Import Str Num Net Types Ext Ext0 SpecAnon SpecPrint SpecMask.
From Verif Require Import StrLemmas NumLemmas PExt0.
Import ListNotations.
Open Scope N_scope.
Open Scope list_scope.

Lemma split_one : forall c s, ~ In c s -> split c s = [s].
Proof.
  intros c s H. unfold split. apply split_by_none. apply forallb_forall. intros x Hx.
  destruct (N.eqb_spec c x); [subst; contradiction|reflexivity].
Qed.
Lemma masked_names_ext0 : masked_names_are_domains (E := Ext0).
Proof.
  intros n s (ds & -> & D & _). unfold domain. change (host_parse (Ext := Ext0)) with host0.
  assert (D' : forall c, In c ds -> In c (map N.of_nat (seq 48 10))).
  { intros c H. rewrite Forall_forall in D. specialize (D _ H). apply in_map_iff. exists (N.to_nat c).
    rewrite N2Nat.id. split; [reflexivity|]. apply in_seq. lia. }
  assert (T : forall P : N -> bool, forallb P (map N.of_nat (seq 48 10)) = true -> forall c, In c ds -> P c = true).
  { intros P K c H. rewrite forallb_forall in K. exact (K _ (D' _ H)). }
  rewrite host0_name_ok.
  - assert (L : labels (lit "fqdn-" ++ ds) = [lit "fqdn-" ++ ds]).
    { unfold labels. rewrite split_one; [reflexivity|]. intro K. apply in_app_or in K. destruct K as [K|K].
      - cbn in K; unfold c_dot in K; lia.
      - pose proof (T (fun c => negb (c =? c_dot)) eq_refl _ K) as Q. discriminate Q. }
    unfold ends_in_number. rewrite L. reflexivity.
  - rewrite map_app. f_equal. rewrite <- (map_id ds) at 2. apply map_ext_in. intros c H.
    pose proof (T (fun c => ascii_lower c =? c) eq_refl _ H) as Q. now apply N.eqb_eq in Q.
  - discriminate.
  - rewrite forallb_app. apply andb_true_iff. split; [reflexivity|]. apply forallb_forall. intros c H.
    exact (T domain_char eq_refl _ H).
Qed.
