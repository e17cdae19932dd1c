(** * Encodings of files and texts (C88) *)
From Coq Require Import List Arith NArith ZArith Lia Bool Ascii String.
From Coq Require Import ZifyBool ZifyNat ZifyN.
From Verif Require Import Str Num Net Types Ext Session Tools Fuzz Disk SpecFuzz SpecDoc SpecTools.
From Verif Require Import StrLemmas PPanic PDoc PDoc2 PMask3 PFuzz PTools.
Import ListNotations.
Open Scope N_scope.
Open Scope list_scope.

(** ** Byte order marks *)
Lemma strip_cr_cons : forall c s, c <> c_cr -> exists u, strip_cr (c :: s) = c :: u.
Proof.
  intros c s H. destruct (exists_last (l := c :: s)) as (p & z & Q); [discriminate|]. unfold strip_cr. rewrite Q, rev_unit.
  destruct (N.eqb_spec z c_cr) as [Z|Z]; [|exists s; symmetry; exact Q]. rewrite rev_involutive.
  destruct p as [|d p]; [injection Q as Q1 Q2; subst; contradiction|]. injection Q as <- _. eauto.
Qed.
Lemma first_line : forall c t, c <> c_lf -> c <> c_cr -> exists u r, lines (c :: t) = (c :: u) :: r.
Proof.
  intros c t L C. assert (NC : forall p, contains c_lf p = false -> no_lf (c :: p)).
  { intros p H. unfold no_lf. apply contains_not_In. intros [->|I]; [contradiction|].
    apply contains_not_In in H. contradiction. }
  destruct (split_once c_lf t) as [[p q]|] eqn:S.
  - apply split_once_some in S. destruct S as [-> N]. rewrite app_comm_cons. rewrite lines_lf by exact (NC _ N).
    destruct (strip_cr_cons c p C) as (u & ->). eauto.
  - apply split_once_none_inv in S. rewrite lines_last by (discriminate || exact (NC _ S)). eauto.
Qed.

Section WithExt.
Context {E : Ext}.
Lemma bom_line : forall u n, exists e, parse_sdp_line (65279 :: u) n = Err (PLine e (65279 :: u) n).
Proof.
  intros u n. unfold parse_sdp_line. destruct (contains c_eq (65279 :: u)) eqn:C; [|cbn [negb]; cbv zeta; eauto].
  cbn [negb]. cbv zeta. destruct (splitn2_cases c_eq (65279 :: u)) as [(K & _)|(a & b & Q & K & ->)]; [congruence|].
  destruct a as [|c a]; [discriminate Q|]. injection Q as <- _.
  assert (B : (1 <? byte_len (trim (65279 :: a))) = true).
  { assert (T : exists a', trim (65279 :: a) = 65279 :: a').
    { unfold trim. rewrite trim_start_id by (exists 65279, a; auto).
      assert (S : starts_ok (65279 :: a)) by (exists 65279, a; auto).
      apply trim_end_starts in S. destruct S as (d & x & Q & W). destruct (trim_end_suffix (65279 :: a)) as (w & Q2 & _).
      rewrite Q in Q2 |- *. injection Q2 as <- _. eauto. }
    destruct T as (a' & ->). change (byte_len (65279 :: a')) with (3 + byte_len a'). lia. }
  rewrite B. eauto.
Qed.
Lemma bom_text : forall t b r, parse_sdp (65279 :: t) b <> Ok r.
Proof.
  intros t b r P. apply document in P. destruct P as (_ & ts & ws & R & _).
  destruct (first_line 65279 t ltac:(discriminate) ltac:(discriminate)) as (u & l & Q). rewrite Q in R.
  destruct (reads_each _ _ _ _ R (65279 :: u)) as [K|(k & [(y & K)|(e & K)])].
  - left. reflexivity.
  - inversion K; subst. discriminate.
  - destruct (bom_line u k) as (e & H). congruence.
  - destruct (bom_line u k) as (e' & H). congruence.
Qed.

(** ** Files *)
Lemma contents_iff : forall disk f t, disk_file disk f = Contents t <->
  Forall scalar t /\ disk f = Some (flat_map utf8 t).
Proof.
  intros disk f t. unfold disk_file. split.
  - destruct (disk f) as [d|]; [|discriminate]. destruct (from_utf8 d) as [s|] eqn:U; [|discriminate]. intro H. injection H as <-.
    apply from_utf8_iff in U. destruct U as (F & ->). auto.
  - intros (F & ->). rewrite utf8_reads by exact F. reflexivity.
Qed.
Lemma not_utf8 : forall disk p f rest, (forall t, Forall scalar t -> disk f <> Some (flat_map utf8 t)) ->
  file_parser (p :: f :: rest) (disk_file disk) = 101.
Proof.
  intros disk p f rest N. cbn [file_parser]. destruct (disk_file disk f) as [| |t] eqn:D; [reflexivity|reflexivity|].
  apply contents_iff in D. destruct D as (F & D). destruct (N t F D).
Qed.
Lemma disk_status : forall disk args c,
  (forall f data, disk f = Some data -> (Z.of_nat (List.length data) < 1073741824)%Z) ->
  (exits (disk_file disk) args c <-> file_parser args (disk_file disk) = c).
Proof.
  intros disk args c L. apply exit_status. intros f t D. apply contents_iff in D. destruct D as (F & D). specialize (L _ _ D).
  pose proof (utf8_bytes t) as B. pose proof (byte_len_length t). lia.
Qed.
Lemma bom_file : forall disk p f data, disk f = Some (239 :: 187 :: 191 :: data) -> file_parser [p; f] (disk_file disk) = 101.
Proof.
  intros disk p f data D. cbn [file_parser]. destruct (disk_file disk f) as [| |t] eqn:C; [reflexivity|reflexivity|].
  unfold disk_file in C. rewrite D in C. change (239 :: 187 :: 191 :: data) with (utf8 65279 ++ data) in C.
  rewrite utf8_read in C by (right; lia). destruct (from_utf8 data) as [s|]; [|discriminate]. injection C as <-.
  destruct (first_line 65279 s ltac:(discriminate) ltac:(discriminate)) as (u & l & ->).
  cbn [filter]. rewrite trim_start_id by (exists 65279, u; auto). cbn [starts_with_char]. change (negb (65279 =? 59)) with true. cbv iota.
  set (k := filter _ l). assert (J : exists w, join crlf ((65279 :: u) :: k) = 65279 :: w).
  { destruct k; cbn [join]; [eauto|]. cbn [app]. eauto. }
  destruct J as (w & ->). pose proof (bom_text w true) as B. destruct (parse_sdp (65279 :: w) true) as [r|e|]; [destruct (B r eq_refl)|reflexivity|reflexivity].
Qed.
End WithExt.
