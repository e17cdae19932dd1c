(** * Proofs about the texts of errors (C73) *)
From Coq Require Import List NArith Ascii String Lia.
From Verif Require Import Str Num Net Types Ext Show SpecVal SpecWhy PWhy SpecErr.
Import ListNotations.
Open Scope N_scope.
Open Scope list_scope.

Lemma reads_shown : forall e, reads e (show_ierr e).
Proof.
  intros []; cbn [show_ierr].
  - constructor.
  - replace (lit "Address is of a different type(1) than declared(2): " ++ show_addr_type found ++ lit ", " ++ show_addr_type expected)
      with (of_string ("Address is of a different type(1) than declared(2): " ++ match found with IpV4 => "IP4"%string | IpV6 => "IP6"%string end ++
        ", " ++ match expected with IpV4 => "IP4"%string | IpV6 => "IP6"%string end)%string) by (destruct found, expected; reflexivity).
    apply (reads_mismatch found expected match found with IpV4 => "IP4"%string | IpV6 => "IP6"%string end match expected with IpV4 => "IP4"%string | IpV6 => "IP6"%string end);
      [destruct found; cbn; eauto|destruct expected; cbn; eauto].
  - constructor.
  - constructor.
  - destruct k;
      [apply (reads_int IntEmpty "cannot parse integer from empty string"%string)
      |apply (reads_int IntInvalidDigit "invalid digit found in string"%string)
      |apply (reads_int IntPosOverflow "number too large to fit in target type"%string)]; cbn; eauto.
  - destruct k;
      [apply (reads_float FloatEmpty "cannot parse float from empty string"%string)
      |apply (reads_float FloatInvalid "invalid float literal"%string)]; cbn; eauto.
  - constructor.
  - constructor.
Qed.
Lemma reads_only : forall e t, reads e t -> t = show_ierr e.
Proof.
  intros e t R. destruct R as [|f x tf tx F X| | |k t I|k t I| |]; cbn [show_ierr]; try reflexivity.
  - cbn in F, X. repeat (destruct F as [F|F]; [injection F as <- <-|]); try (destruct F);
      repeat (destruct X as [X|X]; [injection X as <- <-|]); try (destruct X); reflexivity.
  - cbn in I. repeat (destruct I as [I|I]; [injection I as <- <-; reflexivity|]). destruct I.
  - cbn in I. repeat (destruct I as [I|I]; [injection I as <- <-; reflexivity|]). destruct I.
Qed.
Lemma reads_iff : forall e t, reads e t <-> t = show_ierr e.
Proof. split; [apply reads_only|]. intros ->. apply reads_shown. Qed.

Lemma show_ierr_inj : forall a b, show_ierr a = show_ierr b -> a = b.
Proof.
  intros [s|f x|m|m|k|k|m|] [s'|f' x'|m'|m'|k'|k'|m'|] H;
    try (cbn in H; discriminate H); try reflexivity;
    try (cbn in H; injection H as ->; reflexivity).
  - destruct f, x, f', x'; try reflexivity; cbn in H; discriminate H.
  - destruct k, k'; try reflexivity; cbn in H; discriminate H.
  - destruct k, k'; try reflexivity; cbn in H; discriminate H.
Qed.
Lemma reads_inj : forall a b t, reads a t -> reads b t -> a = b.
Proof. intros a b t A B. apply reads_only in A, B. apply show_ierr_inj. congruence. Qed.

Lemma reports_iff : forall e t, reports e t <-> t = show_perr e.
Proof.
  intros e t. split.
  - intros [x l n r d R D|x l n r d R D|m n d D]; cbn [show_perr]; apply decimal_iff in D; subst d.
    + apply reads_only in R. subst r. reflexivity.
    + apply reads_only in R. subst r. reflexivity.
    + reflexivity.
  - intros ->. destruct e as [e l n|e l n|m n]; cbn [show_perr]; constructor; try apply reads_shown; apply decimal_iff; reflexivity.
Qed.
