(** * The fuzz target (C87) *)
From Coq Require Import List Arith NArith ZArith Lia Bool Ascii String.
From Coq Require Import ZifyBool ZifyNat ZifyN.
From Verif Require Import Str Num Net Types Ext Session Fuzz SpecFuzz.
From Verif Require Import StrLemmas PPanic.
Import ListNotations.
Open Scope N_scope.
Open Scope list_scope.

Lemma utf8_read : forall c r, scalar c -> from_utf8 (utf8 c ++ r) = option_map (cons c) (from_utf8 r).
Proof.
  intros c r S. unfold utf8, scalar in *. destruct (N.ltb_spec c 128) as [H|H].
  - cbn [app from_utf8]. replace (c <? 128) with true by lia. reflexivity.
  - destruct (N.ltb_spec c 2048) as [H2|H2]; [|destruct (N.ltb_spec c 65536) as [H3|H3]].
    + pose proof (N.div_mod c 64 ltac:(lia)) as D. pose proof (N.mod_lt c 64 ltac:(lia)) as M.
      set (q := c / 64) in *. set (m := c mod 64) in *. clearbody q m. cbn [app from_utf8]. unfold between, is_cont, between.
      replace (192 + q <? 128) with false by lia. replace ((194 <=? 192 + q) && (192 + q <=? 223)) with true by lia.
      replace ((128 <=? 128 + m) && (128 + m <=? 191)) with true by lia.
      do 2 f_equal. lia.
    + rewrite <- (N.div_div c 64 64 ltac:(lia) ltac:(lia) : c / 64 / 64 = c / 4096).
      pose proof (N.div_mod c 64 ltac:(lia)) as D. pose proof (N.mod_lt c 64 ltac:(lia)) as M.
      set (q := c / 64) in *. set (m := c mod 64) in *. clearbody q m.
      pose proof (N.div_mod q 64 ltac:(lia)) as D2. pose proof (N.mod_lt q 64 ltac:(lia)) as M2.
      set (q2 := q / 64) in *. set (m2 := q mod 64) in *. clearbody q2 m2.
      cbn [app from_utf8]. unfold second_of_3, is_cont, between.
      replace (224 + q2 <? 128) with false by lia. replace ((194 <=? 224 + q2) && (224 + q2 <=? 223)) with false by lia.
      replace ((224 <=? 224 + q2) && (224 + q2 <=? 239)) with true by lia.
      match goal with |- (if ?b then _ else _) = _ => replace b with true end.
      * do 2 f_equal. lia.
      * destruct (N.eqb_spec (224 + q2) 224); [lia|]. destruct (N.eqb_spec (224 + q2) 237); lia.
    + rewrite <- (N.div_div c 4096 64 ltac:(lia) ltac:(lia) : c / 4096 / 64 = c / 262144).
      rewrite <- (N.div_div c 64 64 ltac:(lia) ltac:(lia) : c / 64 / 64 = c / 4096).
      pose proof (N.div_mod c 64 ltac:(lia)) as D. pose proof (N.mod_lt c 64 ltac:(lia)) as M.
      set (q := c / 64) in *. set (m := c mod 64) in *. clearbody q m.
      pose proof (N.div_mod q 64 ltac:(lia)) as D2. pose proof (N.mod_lt q 64 ltac:(lia)) as M2.
      set (q2 := q / 64) in *. set (m2 := q mod 64) in *. clearbody q2 m2.
      pose proof (N.div_mod q2 64 ltac:(lia)) as D3. pose proof (N.mod_lt q2 64 ltac:(lia)) as M3.
      set (q3 := q2 / 64) in *. set (m3 := q2 mod 64) in *. clearbody q3 m3.
      cbn [app from_utf8]. unfold second_of_4, is_cont, between.
      replace (240 + q3 <? 128) with false by lia. replace ((194 <=? 240 + q3) && (240 + q3 <=? 223)) with false by lia.
      replace ((224 <=? 240 + q3) && (240 + q3 <=? 239)) with false by lia.
      replace ((240 <=? 240 + q3) && (240 + q3 <=? 244)) with true by lia.
      match goal with |- (if ?b then _ else _) = _ => replace b with true end.
      * do 2 f_equal. lia.
      * destruct (N.eqb_spec (240 + q3) 240); [lia|]. destruct (N.eqb_spec (240 + q3) 244); lia.
Qed.
Lemma utf8_reads : forall s, Forall scalar s -> from_utf8 (flat_map utf8 s) = Some s.
Proof.
  intros s H. induction H as [|c s C H IH]; [reflexivity|]. cbn [flat_map]. rewrite utf8_read, IH by exact C. reflexivity.
Qed.

Lemma digits : forall q m, m < 64 -> (q * 64 + m) / 64 = q /\ (q * 64 + m) mod 64 = m.
Proof.
  intros q m M. split.
  - symmetry. apply (N.div_unique _ 64 q m M). lia.
  - symmetry. apply (N.mod_unique _ 64 q m M). lia.
Qed.
Lemma utf8_2 : forall b0 b1, 194 <= b0 <= 223 -> 128 <= b1 <= 191 ->
  let c := (b0 - 192) * 64 + (b1 - 128) in scalar c /\ utf8 c = [b0; b1].
Proof.
  intros b0 b1 B0 B1 c. split; [unfold scalar, c; lia|]. unfold utf8.
  destruct (N.ltb_spec c 128); [unfold c in *; lia|]. destruct (N.ltb_spec c 2048); [|unfold c in *; lia].
  destruct (digits (b0 - 192) (b1 - 128)) as (D & M); [lia|]. unfold c. rewrite D, M. repeat f_equal; lia.
Qed.
Lemma utf8_3 : forall b0 b1 b2, 224 <= b0 <= 239 -> second_of_3 b0 b1 = true -> 128 <= b2 <= 191 ->
  let c := (b0 - 224) * 4096 + (b1 - 128) * 64 + (b2 - 128) in scalar c /\ utf8 c = [b0; b1; b2].
Proof.
  intros b0 b1 b2 B0 B1 B2 c. unfold second_of_3, between in B1.
  assert (R : 128 <= b1 <= 191) by (destruct (b0 =? 224), (b0 =? 237); lia).
  assert (S : scalar c /\ 2048 <= c < 65536).
  { unfold scalar, c. destruct (N.eqb_spec b0 224); [lia|]. destruct (N.eqb_spec b0 237); lia. }
  destruct S as (S & L). split; [exact S|]. unfold utf8.
  destruct (N.ltb_spec c 128); [lia|]. destruct (N.ltb_spec c 2048); [lia|]. destruct (N.ltb_spec c 65536); [|lia].
  rewrite <- (N.div_div c 64 64 ltac:(lia) ltac:(lia) : c / 64 / 64 = c / 4096).
  replace c with (((b0 - 224) * 64 + (b1 - 128)) * 64 + (b2 - 128)) by (unfold c; lia).
  destruct (digits ((b0 - 224) * 64 + (b1 - 128)) (b2 - 128)) as (D & M); [lia|]. rewrite D, M.
  destruct (digits (b0 - 224) (b1 - 128)) as (D' & M'); [lia|]. rewrite D', M'. repeat f_equal; lia.
Qed.
Lemma utf8_4 : forall b0 b1 b2 b3, 240 <= b0 <= 244 -> second_of_4 b0 b1 = true -> 128 <= b2 <= 191 -> 128 <= b3 <= 191 ->
  let c := (b0 - 240) * 262144 + (b1 - 128) * 4096 + (b2 - 128) * 64 + (b3 - 128) in scalar c /\ utf8 c = [b0; b1; b2; b3].
Proof.
  intros b0 b1 b2 b3 B0 B1 B2 B3 c. unfold second_of_4, between in B1.
  assert (R : 128 <= b1 <= 191) by (destruct (b0 =? 240), (b0 =? 244); lia).
  assert (S : 65536 <= c < 1114112).
  { unfold c. destruct (N.eqb_spec b0 240); [lia|]. destruct (N.eqb_spec b0 244); lia. }
  split; [unfold scalar; lia|]. unfold utf8.
  destruct (N.ltb_spec c 128); [lia|]. destruct (N.ltb_spec c 2048); [lia|]. destruct (N.ltb_spec c 65536); [lia|].
  rewrite <- (N.div_div c 4096 64 ltac:(lia) ltac:(lia) : c / 4096 / 64 = c / 262144).
  rewrite <- (N.div_div c 64 64 ltac:(lia) ltac:(lia) : c / 64 / 64 = c / 4096).
  replace c with ((((b0 - 240) * 64 + (b1 - 128)) * 64 + (b2 - 128)) * 64 + (b3 - 128)) by (unfold c; lia).
  destruct (digits (((b0 - 240) * 64 + (b1 - 128)) * 64 + (b2 - 128)) (b3 - 128)) as (D & M); [lia|]. rewrite D, M.
  destruct (digits ((b0 - 240) * 64 + (b1 - 128)) (b2 - 128)) as (D' & M'); [lia|]. rewrite D', M'.
  destruct (digits (b0 - 240) (b1 - 128)) as (D2 & M2); [lia|]. rewrite D2, M2. repeat f_equal; lia.
Qed.
Lemma mapped : forall c (o : option str) s, option_map (cons c) o = Some s -> exists t, o = Some t /\ s = c :: t.
Proof. intros c [t|] s H; [|discriminate]. injection H as <-. eauto. Qed.
Lemma utf8_only : forall n data s, (List.length data <= n)%nat -> from_utf8 data = Some s -> Forall scalar s /\ data = flat_map utf8 s.
Proof.
  induction n as [|n IH]; intros data s L H.
  - destruct data; [|cbn in L; lia]. injection H as <-. split; [constructor|reflexivity].
  - destruct data as [|b0 r0]; [injection H as <-; split; [constructor|reflexivity]|]. cbn [from_utf8] in H.
    destruct (N.ltb_spec b0 128) as [B|B].
    + apply mapped in H. destruct H as (t & H & ->). apply IH in H; [|cbn in L; lia]. destruct H as (F & ->).
      split; [constructor; [unfold scalar; lia|exact F]|]. cbn [flat_map]. unfold utf8 at 2. replace (b0 <? 128) with true by lia. reflexivity.
    + destruct (between 194 b0 223) eqn:B2; [|destruct (between 224 b0 239) eqn:B3; [|destruct (between 240 b0 244) eqn:B4; [|discriminate]]].
      * destruct r0 as [|b1 r1]; [discriminate|]. destruct (is_cont b1) eqn:C1; [|discriminate].
        apply mapped in H. destruct H as (t & H & ->). apply IH in H; [|cbn in L; lia]. destruct H as (F & ->).
        unfold is_cont, between in *. destruct (utf8_2 b0 b1) as (S & U); [lia|lia|]. split; [constructor; assumption|].
        cbn [flat_map]. rewrite U. reflexivity.
      * destruct r0 as [|b1 [|b2 r2]]; [discriminate|discriminate|]. destruct (second_of_3 b0 b1) eqn:C1; [|discriminate]. destruct (is_cont b2) eqn:C2; [|discriminate].
        apply mapped in H. destruct H as (t & H & ->). apply IH in H; [|cbn in L; lia]. destruct H as (F & ->).
        unfold is_cont, between in *. destruct (utf8_3 b0 b1 b2) as (S & U); [lia|exact C1|lia|]. split; [constructor; assumption|].
        cbn [flat_map]. rewrite U. reflexivity.
      * destruct r0 as [|b1 [|b2 [|b3 r3]]]; [discriminate|discriminate|discriminate|]. destruct (second_of_4 b0 b1) eqn:C1; [|discriminate].
        destruct (is_cont b2) eqn:C2; [|discriminate]. destruct (is_cont b3) eqn:C3; [|discriminate].
        apply mapped in H. destruct H as (t & H & ->). apply IH in H; [|cbn in L; lia]. destruct H as (F & ->).
        unfold is_cont, between in *. destruct (utf8_4 b0 b1 b2 b3) as (S & U); [lia|exact C1|lia|lia|]. split; [constructor; assumption|].
        cbn [flat_map]. rewrite U. reflexivity.
Qed.
Lemma from_utf8_iff : forall data s, from_utf8 data = Some s <-> Forall scalar s /\ data = flat_map utf8 s.
Proof.
  intros data s. split; [exact (utf8_only _ _ _ (le_n _))|]. intros (F & ->). exact (utf8_reads s F).
Qed.
Lemma utf8_bytes : forall s, byte_len s = N.of_nat (List.length (flat_map utf8 s)).
Proof.
  induction s as [|c s IH]; [reflexivity|]. cbn [flat_map]. rewrite app_length, Nat2N.inj_add, <- IH.
  change (byte_len (c :: s)) with (utf8_len c + byte_len s). f_equal. unfold utf8_len, utf8.
  destruct (c <? 128); [reflexivity|]. destruct (c <? 2048); [reflexivity|]. destruct (c <? 65536); reflexivity.
Qed.
Lemma from_utf8_length : forall data s, from_utf8 data = Some s -> byte_len s = N.of_nat (List.length data).
Proof. intros data s H. apply from_utf8_iff in H. destruct H as (_ & ->). apply utf8_bytes. Qed.

Section WithExt.
Context {E : Ext}.
Lemma fuzz_iff : forall data, fuzz_target data = Panic <-> exists s, Forall scalar s /\ data = flat_map utf8 s /\ parse_sdp s true = Panic.
Proof.
  intro data. unfold fuzz_target. split.
  - destruct (from_utf8 data) as [s|] eqn:U; [|discriminate]. intro H. exists s. apply from_utf8_iff in U. destruct U as (F & ->).
    split; [exact F|]. split; [reflexivity|]. destruct (parse_sdp s true); [discriminate|discriminate|reflexivity].
  - intros (s & F & -> & P). rewrite utf8_reads by exact F. rewrite P. reflexivity.
Qed.
Lemma brackets_scalar : forall n, Forall scalar (brackets n).
Proof. induction n as [|n IH]; cbn [brackets]; [constructor|]. constructor; [left; reflexivity|]. constructor; [left; reflexivity|exact IH]. Qed.
Lemma long_scalar : forall n, Forall scalar (long_text n).
Proof.
  intro n. apply Forall_app. split; [|apply brackets_scalar].
  assert (A : forallb (fun c => c <? 128) (lit "a=imageattr:[") = true) by (vm_compute; reflexivity).
  apply Forall_forall. intros c I. rewrite forallb_forall in A. specialize (A c I). left. lia.
Qed.
End WithExt.
