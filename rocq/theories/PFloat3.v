(** * Lemmas for C60: there is one way to print a float *)
From Coq Require Import List NArith ZArith Bool Ascii String Lia.
From Coq Require Import ZifyBool ZifyNat ZifyN.
From Verif Require Import Str Num Net Types Ext Ext0 StrLemmas NumLemmas PExt0 SpecFloat PFloat PFloat2.
Import ListNotations.
Open Scope N_scope.
Open Scope list_scope.

(** ** Digits *)
Lemma number_snoc : forall l c, number (l ++ [c]) = 10 * number l + (c - 48).
Proof. intros l c. unfold number. rewrite fold_left_app. reflexivity. Qed.
Lemma number_app : forall a b, number (a ++ b) = number a * 10 ^ N.of_nat (List.length b) + number b.
Proof. intros a b. rewrite !number_value. apply digits_value_app. Qed.
Lemma number_lt : forall l, Forall digit l -> number l < 10 ^ N.of_nat (List.length l).
Proof. intros l H. rewrite number_value. apply value_bound. exact H. Qed.
Lemma number_inj : forall a b, Forall digit a -> Forall digit b -> List.length a = List.length b -> number a = number b -> a = b.
Proof.
  intro a. induction a as [|c a IH] using rev_ind; intros b A B L Q.
  - destruct b; [reflexivity | discriminate L].
  - destruct b as [|d b _] using rev_ind; [rewrite app_length in L; cbn [List.length] in L; lia|].
    apply Forall_app in A. apply Forall_app in B. destruct A as [A1 A2]. destruct B as [B1 B2]. apply Forall_inv in A2. apply Forall_inv in B2. unfold digit in A2, B2.
    rewrite !number_snoc in Q. rewrite !app_length in L. cbn [List.length] in L.
    rewrite (IH b A1 B1) by lia. f_equal. f_equal. assert (number a = number b) by lia. lia.
Qed.
Definition canonical (i : str) : Prop := i = [48] \/ exists c r, i = c :: r /\ c <> 48.
Lemma canonical_inj : forall a b, Forall digit a -> Forall digit b -> canonical a -> canonical b -> number a = number b -> a = b.
Proof.
  assert (Low : forall a, Forall digit a -> canonical a -> a = [48] \/ 10 ^ N.of_nat (List.length a - 1) <= number a).
  { intros a A [->|(c & r & -> & C)]; [left; reflexivity|]. right. change (c :: r) with ([c] ++ r). rewrite number_app. cbn [app List.length]. rewrite Nat.sub_succ, Nat.sub_0_r.
    apply Forall_inv in A. unfold digit in A. assert (1 <= number [c]) by (change (number [c]) with (10 * 0 + (c - 48)); lia). nia. }
  intros a b A B Ca Cb Q. assert (Ha := number_lt a A). assert (Hb := number_lt b B).
  assert (La : (1 <= List.length a)%nat) by (destruct Ca as [->|(c & r & -> & _)]; cbn; lia). assert (Lb : (1 <= List.length b)%nat) by (destruct Cb as [->|(c & r & -> & _)]; cbn; lia).
  destruct (Low a A Ca) as [->|Pa]; destruct (Low b B Cb) as [->|Pb].
  - reflexivity.
  - change (number [48]) with 0 in Q. pose proof (tp (N.of_nat (List.length b - 1))). lia.
  - change (number [48]) with 0 in Q. pose proof (tp (N.of_nat (List.length a - 1))). lia.
  - apply number_inj; [exact A | exact B | | exact Q].
    assert (K : forall m n : nat, (1 <= n)%nat -> 10 ^ N.of_nat (n - 1) < 10 ^ N.of_nat m -> (n <= m)%nat).
    { intros m n H1 H. apply N.pow_lt_mono_r_iff in H; lia. }
    rewrite Q in *. assert (List.length a <= List.length b)%nat by (apply K; [exact La | lia]). assert (List.length b <= List.length a)%nat by (apply K; [exact Lb | lia]). lia.
Qed.
Lemma plain_unique : forall t1 t2 d z, plain_text t1 d z -> plain_text t2 d z -> t1 = t2.
Proof.
  intros t1 t2 d z (i1 & f1 & A1 & B1 & C1 & H1) (i2 & f2 & A2 & B2 & C2 & H2).
  destruct H1 as [(Z1 & -> & -> & V1)|(Z1 & -> & L1 & V1)]; destruct H2 as [(Z2 & -> & -> & V2)|(Z2 & -> & L2 & V2)]; try lia.
  - apply canonical_inj; try assumption. congruence.
  - assert (L : List.length f1 = List.length f2) by lia. rewrite number_app in V1, V2. assert (K1 := number_lt f1 B1). assert (K2 := number_lt f2 B2). rewrite L in *.
    set (t := 10 ^ N.of_nat (List.length f2)) in *. assert (Q : number i1 = number i2).
    { clear -V1 V2 K1 K2. destruct (N.lt_trichotomy (number i1) (number i2)) as [H|[H|H]]; [nia | exact H | nia]. }
    rewrite (canonical_inj i1 i2) by assumption. f_equal. f_equal. apply number_inj; try assumption. rewrite Q in V1. lia.
Qed.
Lemma digit_count : forall d, 0 < d -> exists k, 10 ^ k <= d /\ d < 10 ^ (k + 1).
Proof.
  intros d H. exists (N.of_nat (List.length (show_N d) - 1)). destruct (length_bounds d ltac:(lia)) as [A B]. split; [exact A|].
  assert (show_N d <> []) by apply show_N_nonempty. destruct (show_N d) as [|c s]; [congruence|]. cbn [List.length] in *. rewrite Nat.sub_succ, Nat.sub_0_r.
  replace (N.of_nat (List.length s) + 1) with (N.of_nat (S (List.length s))) by lia. exact B.
Qed.
Section Float.
Variables p w : N.
Hypothesis P : 1 <= p.
Hypothesis W : 2 <= w.
Lemma shortest_pos : forall x d z, 0 < x -> shortest p w x d z -> 0 < d.
Proof.
  intros x d z X [R _]. destruct (N.eq_dec d 0) as [->|]; [|lia]. exfalso.
  assert (K : nearest p w (scaled_num 0 z) (scaled_den z) 0).
  { apply (near_zero p w P W). unfold scaled_num. rewrite !N.mul_0_l, N.mul_0_r. apply tp. }
  assert (Q := nearest_unique p w P W _ _ _ _ (tp _) R K). lia.
Qed.
Lemma shortest_le : forall x d1 z1 d2 z2, 0 < x -> (z1 <= z2)%Z -> shortest p w x d1 z1 -> shortest p w x d2 z2 -> d1 = d2 /\ z1 = z2.
Proof.
  intros x d1 z1 d2 z2 X Z S1 S2. assert (D1 := shortest_pos _ _ _ X S1). assert (D2 := shortest_pos _ _ _ X S2). destruct S1 as [R1 B1]. destruct S2 as [R2 B2].
  destruct (digit_count d1 D1) as (k1 & A1 & C1). destruct (digit_count d2 D2) as (k2 & A2 & C2).
  destruct (B2 _ _ _ C1 R1) as [L2 _]. destruct (B1 _ _ _ C2 R2) as [L1 _].
  assert (k1 = k2). { apply N.le_antisymm; [assert (H : 10 ^ k1 < 10 ^ (k2 + 1)) by lia | assert (H : 10 ^ k2 < 10 ^ (k1 + 1)) by lia]; apply N.pow_lt_mono_r_iff in H; lia. }
  subst k2. destruct (B1 _ _ _ C2 R2) as [_ N1]. destruct (B2 _ _ _ C1 R1) as [_ N2].
  assert (T : 10 ^ (k1 + 1) = 10 * 10 ^ k1) by (rewrite N.add_1_r; apply N.pow_succ_r').
  specialize (N1 ltac:(lia)). specialize (N2 ltac:(lia)). unfold no_worse in N1, N2.
  assert (V : scaled_num d2 z2 * scaled_den z1 = scaled_num d1 z1 * scaled_den z2) by lia. unfold scaled_num, scaled_den in V.
  assert (Q : d1 = d2 * 10 ^ Z.to_N (z2 - z1)).
  { rewrite <- N.mul_assoc, (cross z1 z2 Z) in V. pose proof (tp (Z.to_N z1)) as H1. pose proof (tp (Z.to_N (- z2))) as H2. set (u := up z1) in *. set (v := dn z2) in *. set (t := 10 ^ Z.to_N (z2 - z1)) in *.
    clearbody u v t. clear -V H1 H2. assert (0 < u * v) by nia. assert (d1 * (u * v) = d2 * t * (u * v)) by nia. nia. }
  destruct (Z.eq_dec z1 z2) as [->|Ne]; [rewrite Z.sub_diag in Q; cbn in Q; split; [lia | reflexivity]|]. exfalso.
  replace (Z.to_N (z2 - z1)) with (N.succ (Z.to_N (z2 - z1) - 1)) in Q by lia. rewrite N.pow_succ_r' in Q. pose proof (tp (Z.to_N (z2 - z1) - 1)) as H. set (t := 10 ^ (Z.to_N (z2 - z1) - 1)) in *. clearbody t.
  set (a := 10 ^ k1) in *. clearbody a. clear -Q H T C1 A2. nia.
Qed.
Lemma shortest_unique : forall x d1 z1 d2 z2, 0 < x -> shortest p w x d1 z1 -> shortest p w x d2 z2 -> d1 = d2 /\ z1 = z2.
Proof.
  intros x d1 z1 d2 z2 X S1 S2. destruct (Z.le_ge_cases z1 z2) as [H|H]; [exact (shortest_le _ _ _ _ _ X H S1 S2)|].
  destruct (shortest_le _ _ _ _ _ X H S2 S1) as [-> ->]. split; reflexivity.
Qed.
Lemma infinity_pos : 0 < infinity p w.
Proof. unfold infinity. pose proof (w_pow p w P W). pose proof (pow_pos 2 p). nia. Qed.
Lemma magnitude_unique : forall x t1 t2, printed_magnitude p w x t1 -> printed_magnitude p w x t2 -> t1 = t2.
Proof.
  intros x t1 t2 H1 H2. pose proof infinity_pos as Pi. unfold printed_magnitude in *.
  destruct H1 as [[X1 ->]|[[X1 ->]|(L1 & U1 & d1 & z1 & T1 & S1)]]; destruct H2 as [[X2 ->]|[[X2 ->]|(L2 & U2 & d2 & z2 & T2 & S2)]]; try reflexivity; try (exfalso; lia).
  destruct (shortest_unique _ _ _ _ _ L1 S1 S2) as [-> ->]. exact (plain_unique _ _ _ _ T1 T2).
Qed.
Lemma printed_unique : forall x s1 s2, printed_float p w x s1 -> printed_float p w x s2 -> s1 = s2.
Proof.
  intros x s1 s2. unfold printed_float. cbv zeta. set (m := x mod 2 ^ (p + w)). clearbody m.
  intros [[M1 ->]|(M1 & g1 & t1 & -> & T1 & G1)] [[M2 ->]|(M2 & g2 & t2 & -> & T2 & G2)]; try reflexivity; try (exfalso; lia).
  rewrite (magnitude_unique _ _ _ T1 T2). f_equal. destruct G1 as [[G1 ->]|[G1 ->]]; destruct G2 as [[G2 ->]|[G2 ->]]; try reflexivity; lia.
Qed.
Hypothesis Big : magnitude p (inf p w) <= 10 ^ 401 * 2 ^ unit_exp p w.
Hypothesis Small : 2 * 2 ^ unit_exp p w < 10 ^ 1100.
Hypothesis Digits : 2 ^ (p + 1) < 10 ^ 16.
Lemma show_printed : forall x, x < 2 ^ (p + w + 1) -> printed_float p w x (show_float p w x).
Proof.
  intros x X. unfold printed_float, show_float. cbv zeta. assert (Tp : 2 ^ (p + w + 1) = 2 * 2 ^ (p + w)) by (rewrite N.add_1_r; apply N.pow_succ_r').
  assert (Pp := pow_pos 2 (p + w) ltac:(clear; lia)).
  assert (B : N.testbit x (p + w) = (2 ^ (p + w) <=? x)).
  { rewrite N.testbit_eqb. set (t := 2 ^ (p + w)) in *. clearbody t. clear -X Tp Pp.
    destruct (N.leb_spec t x) as [L|L].
    - assert (x / t = 1) by (symmetry; apply N.div_unique with (x - t); lia). rewrite H. reflexivity.
    - rewrite N.div_small by lia. reflexivity. }
  change (infinity p w) with (inf p w). set (m := x mod 2 ^ (p + w)). destruct (N.ltb_spec (inf p w) m) as [L|L]; [left; split; [exact L | reflexivity]|].
  right. split; [exact L|]. exists (if N.testbit x (p + w) then [45] else []), (show_magnitude p w m). split; [reflexivity|]. split.
  - destruct (N.eq_dec m (inf p w)) as [E|Ne]; [rewrite E; left; split; [reflexivity|]; unfold show_magnitude; rewrite N.leb_refl; reflexivity|].
    destruct (N.eq_dec m 0) as [E|Nz].
    + rewrite E. right. left. split; [reflexivity|]. unfold show_magnitude. assert (K := infinity_pos). change (infinity p w) with (inf p w) in K.
      assert (K2 : (inf p w <=? 0) = false) by (apply N.leb_gt; exact K). rewrite K2. rewrite N.div_0_l by (apply N.pow_nonzero; clear; lia). reflexivity.
    + apply (magnitude_printed p w P W Big Small Digits); clear -L Ne Nz; lia.
  - rewrite B. destruct (N.leb_spec (2 ^ (p + w)) x) as [K|K]; [right | left]; split; try reflexivity; exact K.
Qed.
Lemma show_iff : forall x s, x < 2 ^ (p + w + 1) -> (show_float p w x = s <-> printed_float p w x s).
Proof.
  intros x s X. split; [intros <-; exact (show_printed x X) | intro H; exact (printed_unique _ _ _ (show_printed x X) H)].
Qed.
End Float.
