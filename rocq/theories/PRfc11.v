(** * Lemmas for C75: decimals *)
From Coq Require Import List NArith ZArith Bool Ascii String Lia.
From Coq Require Import ZifyBool ZifyNat ZifyN.
From Verif Require Import Str Num Net Types Ext Show StrLemmas NumLemmas SpecVal SpecFloat SpecRfc2 PFloat PFloat2 PFloat4.
Import ListNotations.
Open Scope N_scope.
Open Scope list_scope.

Notation mag := (magnitude 23).
Lemma p23 : 1 <= 23. Proof. lia. Qed.
Lemma w8 : 2 <= 8. Proof. lia. Qed.
(** The multiples of 2^-20 up to 16 are floats. *)
Lemma grid : forall k, k < 2 ^ 24 -> exists y, y <= infinity 23 8 /\ mag y = k * 2 ^ 129.
Proof.
  intros k K. destruct (N.eq_dec k 0) as [->|K0]; [exists 0; split; [apply N.le_0_l | rewrite (mag_0 23 8 p23 w8); reflexivity]|].
  set (l := N.log2 k). assert (L : 2 ^ l <= k < 2 ^ N.succ l) by (apply N.log2_spec; lia).
  assert (l <= 23).
  { destruct (N.le_gt_cases l 23) as [|G]; [assumption|]. assert (2 ^ 24 <= 2 ^ l) by (apply N.pow_le_mono_r; lia). lia. }
  set (j := 23 - l).
  assert (Q1 : 2 ^ 23 = 2 ^ l * 2 ^ j) by (rewrite <- N.pow_add_r; f_equal; unfold j; lia).
  assert (Q2 : 2 ^ 24 = 2 ^ N.succ l * 2 ^ j) by (rewrite <- N.pow_add_r; f_equal; unfold j; lia).
  assert (Pj : 0 < 2 ^ j) by (apply N.neq_0_lt_0, N.pow_nonzero; lia).
  assert (B1 : 2 ^ 23 <= k * 2 ^ j) by (rewrite Q1; apply N.mul_le_mono_r; lia).
  assert (B2 : k * 2 ^ j < 2 ^ 24) by (rewrite Q2; apply N.mul_lt_mono_pos_r; lia).
  exists ((129 - j) * 2 ^ 23 + k * 2 ^ j). split.
  - unfold infinity. change ((2 ^ 8 - 1) * 2 ^ 23) with (253 * 2 ^ 23 + 2 ^ 24). lia.
  - rewrite (mag_pattern 23 8 p23 w8) by (try (change (23 + 1) with 24); lia).
    rewrite <- N.mul_assoc, <- N.pow_add_r. f_equal. f_equal. unfold j. lia.
Qed.
Lemma close : forall n x, n < 10 ^ 5 -> nearest 23 8 n 10000 x ->
  (Z.abs (Z.of_N (n * 2 ^ 149) - Z.of_N (10000 * mag x)) <= Z.of_N (10000 * 2 ^ 129))%Z.
Proof.
  intros n x H [_ Near]. set (k := n * 2 ^ 20 / 10000).
  assert (D : n * 2 ^ 20 = 10000 * k + n * 2 ^ 20 mod 10000) by (apply N.div_mod; lia).
  assert (M : n * 2 ^ 20 mod 10000 < 10000) by (apply N.mod_lt; lia).
  assert (K : k < 2 ^ 24). { change (10 ^ 5) with 100000 in H. change (2 ^ 20) with 1048576 in D. change (2 ^ 24) with 16777216. lia. }
  destruct (grid k K) as (y & Y & My). destruct (Near y Y) as [Le _]. unfold distance in Le. rewrite My in Le.
  change (unit_exp 23 8) with 149 in Le. eapply Z.le_trans; [exact Le|].
  replace (n * 2 ^ 149) with (n * 2 ^ 20 * 2 ^ 129) by (rewrite <- N.mul_assoc, <- N.pow_add_r; reflexivity).
  set (r := n * 2 ^ 20 mod 10000) in *. rewrite D. clearbody r k. nia.
Qed.
Lemma below : forall n m x y, n < m -> m < 10 ^ 5 -> nearest 23 8 n 10000 x -> nearest 23 8 m 10000 y -> mag x < mag y.
Proof.
  intros n m x y L M X Y. assert (A := close n x ltac:(lia) X). assert (B := close m y M Y).
  assert (C : n * 2 ^ 149 + 2 ^ 149 <= m * 2 ^ 149). { replace (n * 2 ^ 149 + 2 ^ 149) with ((n + 1) * 2 ^ 149) by ring. apply N.mul_le_mono_r. lia. }
  assert (G : 3 * (10000 * 2 ^ 129) < 2 ^ 149) by reflexivity.
  revert A B C G. generalize (mag x) (mag y) (n * 2 ^ 149) (m * 2 ^ 149) (2 ^ 149). generalize (10000 * 2 ^ 129). intros. lia.
Qed.
Lemma not_ge : forall n m x y, n < m -> m < 10 ^ 5 -> nearest 23 8 n 10000 x -> nearest 23 8 m 10000 y -> f32_ge x y = false.
Proof.
  intros n m x y L M X Y. assert (B := below n m x y L M X Y). destruct (f32_ge x y) eqn:G; [|reflexivity].
  destruct X as [X _], Y as [Y _]. assert (I : infinity 23 8 < 2 ^ 31) by reflexivity.
  assert (I2 : 2 ^ 31 < 2 ^ 32) by reflexivity.
  apply ge_value in G; [|lia|lia]. destruct G as (_ & _ & G). exfalso. revert G. unfold signed_value. change (23 + 8) with 31.
  rewrite !N.mod_small by lia. rewrite (proj2 (N.ltb_lt x _)), (proj2 (N.ltb_lt y _)) by lia. lia.
Qed.
Lemma zero_near : nearest 23 8 0 10000 0.
Proof. apply (near_zero 23 8); [lia|lia|reflexivity]. Qed.

Lemma dec_digits : forall l, Forall dec l -> Forall digit l.
Proof. intros l. apply Forall_impl. intros c C. exact C. Qed.
Lemma pow10 : forall n, 0 < 10 ^ n. Proof. intro n. apply N.neq_0_lt_0, N.pow_nonzero. lia. Qed.
Lemma dec_number : forall l, dec_value l = number l.
Proof. reflexivity. Qed.

Section WithExt.
Context {E : Ext}.
Hypothesis F : std_floats E.

Lemma read_decimal : forall t d z x, decimal_text t d z -> nearest 23 8 (scaled_num d z) (scaled_den z) x -> parse_f32 t = Ok x.
Proof. intros t d z x D Nx. apply (proj1 F). exists [], t, x. split; [reflexivity|]. split; [right; right; exists d, z; auto | auto]. Qed.
Lemma point_text : forall i f, Forall dec i -> Forall dec f -> i ++ f <> [] -> decimal_text (i ++ 46 :: f) (number (i ++ f)) (- Z.of_nat (List.length f)).
Proof.
  intros i f I G Ne. exists i, f, [], 0%Z. split; [right; rewrite app_nil_r; reflexivity|]. split; [apply dec_digits, I|]. split; [apply dec_digits, G|].
  split; [exact Ne|]. split; [left; auto|]. split; [reflexivity | lia].
Qed.
Lemma worth_read : forall t n, worth t n -> (forall f, t <> 46 :: f) -> exists x, parse_f32 t = Ok x /\ nearest 23 8 n 10000 x.
Proof.
  intros t n (i & f & -> & I & G & L & W) Nt.
  assert (Ne : i ++ f <> []) by (destruct i; [destruct (Nt f eq_refl) | discriminate]).
  assert (D := point_text i f I G Ne). set (z := (- Z.of_nat (List.length f))%Z) in *.
  assert (Nr := round_nearest 23 8 p23 w8 (scaled_num (number (i ++ f)) z) (scaled_den z) (pow10 _)).
  exists (Ext0.round 23 8 (scaled_num (number (i ++ f)) z) (scaled_den z)). split; [exact (read_decimal _ _ _ _ D Nr)|].
  refine (proj1 (same_value 23 8 p23 w8 _ _ _ _ _ (pow10 _) _ _ Nr)); [lia|].
  unfold scaled_num, scaled_den. replace (Z.to_N z) with 0 by (unfold z; lia). replace (Z.to_N (- z)) with (N.of_nat (List.length f)) by (unfold z; lia).
  rewrite W. change (10 ^ 4) with 10000. change (10 ^ 0) with 1. rewrite <- (dec_number (i ++ f)). lia.
Qed.
Lemma plain_read : forall i f, Forall dec i -> Forall dec f -> i <> [] -> exists x, parse_f32 (i ++ 46 :: f) = Ok x.
Proof.
  intros i f I G Ne. assert (D := point_text i f I G ltac:(destruct i; [congruence | discriminate])).
  eexists. exact (read_decimal _ _ _ _ D (round_nearest 23 8 p23 w8 _ _ (pow10 _))).
Qed.

(** ** Doubles *)
Lemma p52 : 1 <= 52. Proof. lia. Qed.
Lemma w11 : 2 <= 11. Proof. lia. Qed.
Lemma finite64 : forall num den m, 0 < num -> 0 < den -> den <= 10 ^ 300 -> num <= den * 10 ^ 300 -> nearest 52 11 num den m ->
  0 < m /\ m < infinity 52 11.
Proof.
  intros num den m A B C D [Le Near]. split.
  - apply N.neq_0_lt_0. intros ->. destruct (Near 1) as [H _]; [discriminate|]. unfold distance in H. rewrite (mag_0 52 11 p52 w11) in H.
    change (magnitude 52 1) with 1 in H. change (unit_exp 52 11) with 1074 in H.
    assert (10 ^ 300 < 2 ^ 1074) by reflexivity.
    assert (X : den < num * 2 ^ 1074) by (apply N.lt_le_trans with (2 ^ 1074); [lia|]; rewrite <- (N.mul_1_l (2 ^ 1074)) at 1; apply N.mul_le_mono_r; lia).
    revert H X. generalize (num * 2 ^ 1074). intros. lia.
  - apply N.le_lteq in Le. destruct Le as [|Q]; [assumption|]. exfalso. destruct (Near 0) as [H _]; [apply N.le_0_l|]. unfold distance in H.
    rewrite (mag_0 52 11 p52 w11), Q in H. change (unit_exp 52 11) with 1074 in H. change (infinity 52 11) with (Ext0.inf 52 11) in H. rewrite (mag_inf 52 11 p52 w11) in H.
    change (52 + 1 + (2 ^ 11 - 3)) with 2098 in H.
    assert (X : num * 2 ^ 1074 <= den * (10 ^ 300 * 2 ^ 1074)) by (rewrite N.mul_assoc; apply N.mul_le_mono_r; exact D).
    assert (Y : 2 * (10 ^ 300 * 2 ^ 1074) < 2 ^ 2098) by reflexivity.
    assert (Z : 2 * (den * (10 ^ 300 * 2 ^ 1074)) < den * 2 ^ 2098).
    { replace (2 * (den * (10 ^ 300 * 2 ^ 1074))) with (den * (2 * (10 ^ 300 * 2 ^ 1074))) by ring. apply N.mul_lt_mono_pos_l; assumption. }
    revert H X Z. generalize (num * 2 ^ 1074) (den * (10 ^ 300 * 2 ^ 1074)) (den * 2 ^ 2098). intros. lia.
Qed.
End WithExt.
