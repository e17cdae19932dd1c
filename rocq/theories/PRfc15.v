(** * Lemmas for C79: printed ratios *)
From Coq Require Import List NArith ZArith Bool Ascii String Lia.
From Coq Require Import ZifyBool ZifyNat ZifyN.
From Verif Require Import Str Num Net Types Ext Show Address AttrParse Media Session StrLemmas NumLemmas.
From Verif Require Import SpecApi SpecDoc SpecVal SpecPrint SpecGrammar SpecRfc SpecFloat SpecRfc2 SpecRfc3.
From Verif Require Import PVal9 PPrint4 PRfc PRfc9 PSettle PFloat PFloat2 PFloat3 PFloat4 PRfc11 PRfc12 PRfc14.
Import ListNotations.
Open Scope N_scope.
Open Scope list_scope.

Lemma close_to : forall num den x, 0 < den -> num < 10 * den -> nearest 23 8 num den x ->
  (Z.abs (Z.of_N (num * 2 ^ 149) - Z.of_N (den * mag x)) <= Z.of_N (den * 2 ^ 129))%Z.
Proof.
  intros num den x P H [_ Near]. set (k := num * 2 ^ 20 / den).
  assert (D : num * 2 ^ 20 = den * k + num * 2 ^ 20 mod den) by (apply N.div_mod; lia).
  assert (M : num * 2 ^ 20 mod den < den) by (apply N.mod_lt; lia).
  assert (K : k < 2 ^ 24).
  { apply N.lt_le_trans with (10 * 2 ^ 20); [|vm_compute; discriminate]. apply N.div_lt_upper_bound; [lia|].
    replace (den * (10 * 2 ^ 20)) with (10 * den * 2 ^ 20) by ring. apply N.mul_lt_mono_pos_r; [reflexivity | exact H]. }
  destruct (grid k K) as (y & Y & My). destruct (Near y Y) as [Le _]. unfold distance in Le. rewrite My in Le.
  change (unit_exp 23 8) with 149 in Le. eapply Z.le_trans; [exact Le|].
  replace (num * 2 ^ 149) with (num * 2 ^ 20 * 2 ^ 129) by (rewrite <- N.mul_assoc, <- N.pow_add_r; reflexivity).
  set (r := num * 2 ^ 20 mod den) in *. rewrite D. clearbody r k. nia.
Qed.
(** No more than ten. *)
Lemma under_ten : forall n num den x, n < 10 ^ 5 -> 0 < den -> nearest 23 8 n 10000 x -> nearest 23 8 num den x -> num < 10 * den.
Proof.
  intros n num den x H P X Y. destruct (N.lt_ge_cases num (10 * den)) as [|G]; [assumption|]. exfalso.
  assert (A := close n x H X). destruct (grid (10 * 2 ^ 20) ltac:(reflexivity)) as (y & Iy & My). destruct Y as [_ Y]. destruct (Y y Iy) as [Le _].
  unfold distance in Le. change (unit_exp 23 8) with 149 in Le. rewrite My in Le. change (10 * 2 ^ 20 * 2 ^ 129) with (10 * 2 ^ 149) in Le.
  change (10 ^ 5) with 100000 in H. assert (U : 3 * (10000 * 2 ^ 129) < 2 ^ 149) by reflexivity.
  assert (L : mag x < 10 * 2 ^ 149). { revert A U. generalize (mag x) (2 ^ 149) (2 ^ 129). intros. nia. }
  assert (G1 : den * (10 * 2 ^ 149) <= num * 2 ^ 149) by (replace (den * (10 * 2 ^ 149)) with (10 * den * 2 ^ 149) by ring; apply N.mul_le_mono_r, G).
  assert (G2 : den * mag x < den * (10 * 2 ^ 149)) by (apply N.mul_lt_mono_pos_l; assumption).
  revert Le G1 G2. generalize (den * mag x) (den * (10 * 2 ^ 149)) (num * 2 ^ 149). intros. lia.
Qed.
Lemma power_around : forall e, 1 <= e -> exists n, 10 ^ n <= e < 10 ^ N.succ n.
Proof.
  intros e Q. assert (B : exists k, e < 10 ^ N.of_nat k).
  { exists (N.to_nat e). rewrite N2Nat.id. apply N.pow_gt_lin_r. lia. }
  destruct B as [k B]. induction k as [|k IH]; [cbn in B; lia|].
  destruct (N.le_gt_cases (10 ^ N.of_nat k) e) as [L|L]; [|exact (IH L)].
  exists (N.of_nat k). split; [exact L|]. replace (N.succ (N.of_nat k)) with (N.of_nat (S k)) by lia. exact B.
Qed.
(** The shortest decimal of a float next to a number of ten-thousandths is that number. *)
Lemma same_decimal : forall n x d z, 1 <= n < 10 ^ 5 -> nearest 23 8 n 10000 x -> shortest 23 8 x d z ->
  (-4 <= z)%Z /\ d * 10 ^ Z.to_N (z + 4) = n.
Proof.
  intros n x d z [N1 N2] X [Y S]. assert (P := pow10 (Z.to_N (- z))). change (10 ^ Z.to_N (- z)) with (scaled_den z) in P.
  assert (T := under_ten n _ _ x N2 P X Y). assert (A := close n x N2 X). assert (B := close_to _ _ x P T Y).
  assert (U : 3 * (10000 * 2 ^ 129) < 2 ^ 149) by reflexivity.
  destruct (Z.le_gt_cases (-4) z) as [Z4|Z4].
  - split; [exact Z4|]. set (m := d * 10 ^ Z.to_N (z + 4)).
    assert (Q : m * scaled_den z = scaled_num d z * 10000).
    { unfold m, scaled_den, scaled_num. change 10000 with (10 ^ 4). rewrite <- !N.mul_assoc, <- !N.pow_add_r. do 2 f_equal. lia. }
    clearbody m. revert A B Q P U. generalize (scaled_den z) (scaled_num d z) (mag x). intros den num g A B Q P U.
    assert (R : (Z.abs (Z.of_N m * Z.of_N (2 ^ 149) - 10000 * Z.of_N g) <= 10000 * Z.of_N (2 ^ 129))%Z).
    { apply (Z.mul_le_mono_pos_l _ _ (Z.of_N den)); [lia|]. rewrite <- (Z.abs_eq (Z.of_N den)) at 1 by lia. rewrite <- Z.abs_mul.
      replace (Z.of_N den * (Z.of_N m * Z.of_N (2 ^ 149) - 10000 * Z.of_N g))%Z with (10000 * (Z.of_N (num * 2 ^ 149) - Z.of_N (den * g)))%Z.
      - rewrite Z.abs_mul. change (Z.abs 10000) with 10000%Z. rewrite (N2Z.inj_mul den (2 ^ 129)) in B. nia.
      - rewrite !N2Z.inj_mul. replace (Z.of_N den * (Z.of_N m * Z.of_N (2 ^ 149) - 10000 * Z.of_N g))%Z with (Z.of_N (m * den) * Z.of_N (2 ^ 149) - 10000 * Z.of_N den * Z.of_N g)%Z by (rewrite N2Z.inj_mul; ring).
        rewrite Q, N2Z.inj_mul. change (Z.of_N 10000) with 10000%Z. ring. }
    revert A R U. generalize (2 ^ 149) (2 ^ 129). intros u v A R U. destruct (N.eq_dec m n) as [|Ne]; [assumption|]. exfalso.
    destruct (N.lt_ge_cases m n); nia.
  - exfalso. destruct (power_around n N1) as (k & K1 & K2).
    assert (X' : nearest 23 8 (scaled_num n (-4)) (scaled_den (-4)) x).
    { unfold scaled_num, scaled_den. change (Z.to_N (-4)) with 0. change (Z.to_N (- -4)) with 4. change (10 ^ 4) with 10000. rewrite N.pow_0_r, N.mul_1_r. exact X. }
    destruct (S (N.succ k) n (-4)%Z K2 X') as [L _]. rewrite N.pow_succ_r' in L.
    set (e := Z.to_N (-5 - z)). assert (Dn : scaled_den z = 100000 * 10 ^ e).
    { unfold scaled_den. change 100000 with (10 ^ 5). rewrite <- N.pow_add_r. f_equal. unfold e. lia. }
    assert (Nm : scaled_num d z = d) by (unfold scaled_num; replace (Z.to_N z) with 0 by lia; rewrite N.pow_0_r; lia).
    rewrite Nm, Dn in B. clear - A B U L K1. pose proof (pow10 e) as Pe.
    assert (G : d + 1 <= 10 * n) by lia. clear L K1.
    assert (W : 10 ^ e <= 10 ^ e * 1) by lia. clear W.
    revert A B U Pe. generalize (10 ^ e) (mag x). intros q g A B U Pe.
    change (2 ^ 149) with (2 ^ 20 * 2 ^ 129) in *. revert A B U. generalize (2 ^ 129). intros v A B U. change (2 ^ 20) with 1048576 in *.
    assert (V : 0 < v) by (destruct v; lia).
    assert (B1 : (Z.of_N (100000 * q * g) <= Z.of_N (d * (1048576 * v)) + Z.of_N (100000 * q * v))%Z) by lia.
    assert (A1 : (Z.of_N (n * (1048576 * v)) <= Z.of_N (10000 * g) + Z.of_N (10000 * v))%Z) by lia.
    assert (A2 : 10 * q * (n * (1048576 * v)) <= 100000 * q * g + 100000 * q * v) by nia.
    assert (A3 : 10 * q * (n * (1048576 * v)) <= d * (1048576 * v) + 200000 * q * v) by lia.
    assert (A4 : (10 * n * q) * (1048576 * v) >= ((d + 1) * q) * (1048576 * v)) by (apply N.le_ge, N.mul_le_mono_r, N.mul_le_mono_r; exact G).
    assert (A5 : d * (1048576 * v) <= d * q * (1048576 * v)) by (apply N.mul_le_mono_r; nia).
    assert (A6 : 0 < q * v) by nia. nia.
Qed.
Lemma exact_whole : forall k x, k < 10 -> nearest 23 8 (k * 10000) 10000 x -> whole32 x.
Proof.
  intros k x K [_ Near]. destruct (grid (k * 2 ^ 20)) as (y & Iy & My).
  { apply N.lt_le_trans with (10 * 2 ^ 20); [apply N.mul_lt_mono_pos_r; [reflexivity | exact K] | vm_compute; discriminate]. }
  destruct (Near y Iy) as [Le _]. unfold distance in Le. rewrite My in Le. change (unit_exp 23 8) with 149 in Le.
  exists k. replace (k * 2 ^ 20 * 2 ^ 129) with (k * 2 ^ 149) in Le by (rewrite <- N.mul_assoc, <- N.pow_add_r; reflexivity).
  revert Le. generalize (mag x) (2 ^ 149). intros. nia.
Qed.
Lemma not_whole : forall n x, n < 10 ^ 5 -> nearest 23 8 n 10000 x -> ~ whole32 x -> n mod 10000 <> 0.
Proof.
  intros n x H X W M. apply W. apply (exact_whole (n / 10000)); [change (10 ^ 5) with 100000 in H; lia|].
  replace (n / 10000 * 10000) with n by lia. exact X.
Qed.
Lemma in_range : forall n x, 1 <= n < 10 ^ 5 -> nearest 23 8 n 10000 x -> 0 < x /\ x < infinity 23 8.
Proof.
  intros n x [N1 N2] X. assert (A := close n x N2 X). assert (U : 3 * (10000 * 2 ^ 129) < 2 ^ 149) by reflexivity. split.
  - destruct (N.eq_dec x 0) as [->|]; [|lia]. exfalso. rewrite (mag_0 23 8 p23 w8) in A. revert A U. generalize (2 ^ 149) (2 ^ 129). intros. nia.
  - destruct X as [X _]. destruct (N.eq_dec x (infinity 23 8)) as [->|]; [|lia]. exfalso. revert A.
    change (10 ^ 5) with 100000 in N2. assert (V : mag (infinity 23 8) = 2 ^ 277) by (vm_compute; reflexivity). rewrite V.
    assert (W : 100000 * 2 ^ 149 < 2 ^ 277) by reflexivity. revert W U. generalize (2 ^ 277) (2 ^ 149) (2 ^ 129). intros. nia.
Qed.

Section WithExt.
Context {E : Ext}.
Hypothesis St : std_floats E.

Lemma decimal_printed : forall n x, 1 <= n < 10 ^ 5 -> nearest 23 8 n 10000 x -> n mod 10000 <> 0 ->
  exists e f c, show_f32 x = e :: 46 :: f ++ [c] /\ dec e /\ Forall dec f /\ 49 <= c <= 57 /\ (List.length f <= 3)%nat /\
    n * 10 ^ N.of_nat (List.length (f ++ [c])) = dec_value (e :: f ++ [c]) * 10 ^ 4.
Proof.
  intros n x H X M. destruct (in_range n x H X) as [X0 X1]. assert (I31 : infinity 23 8 < 2 ^ (23 + 8)) by reflexivity.
  assert (Mx : x mod 2 ^ (23 + 8) = x) by (apply N.mod_small; lia).
  assert (Pr : printed_float 23 8 x (show_f32 x)) by (apply (proj1 (proj2 (proj2 (proj2 (proj2 St))))); apply N.lt_trans with (2 ^ (23 + 8)); [lia | reflexivity]).
  destruct (printed_shape 23 8 x (show_f32 x)) as (t & d & z & T & Sh & D & C); [left; reflexivity | rewrite Mx; exact X0 | rewrite Mx; exact X1 | exact Pr|].
  rewrite Mx in Sh. destruct C as [[_ Q]|[C _]]; [|lia]. rewrite Q. clear Q Pr Mx I31.
  destruct (same_decimal n x d z H X Sh) as [Z4 Sd].
  destruct (plain_shape 23 8 x t d z X0 D T Sh) as [(c & r & -> & _ & _ & Z0)|(i & f & c & -> & I & F & C & Nm & Zl)].
  - exfalso. apply M. rewrite <- Sd. replace (Z.to_N (z + 4)) with (Z.to_N z + 4) by lia. rewrite N.pow_add_r. change (10 ^ 4) with 10000. rewrite N.mul_assoc. apply N.mod_mul. lia.
  - set (g := f ++ [c]) in *. assert (Lg : List.length g = S (List.length f)) by (unfold g; rewrite app_length; cbn; lia).
    assert (G : Forall dec g) by (apply Forall_app; split; [exact F | constructor; [unfold dec; lia | constructor]]).
    assert (W : n * 10 ^ N.of_nat (List.length g) = d * 10 ^ 4).
    { rewrite <- Sd, <- N.mul_assoc, <- N.pow_add_r. do 2 f_equal. lia. }
    assert (Pg := pow10 (N.of_nat (List.length g))).
    assert (B : number i < 10).
    { rewrite number_app in Nm. change (10 ^ 5) with (10 * 10 ^ 4) in H. set (q := 10 ^ N.of_nat (List.length g)) in *. 
      apply (N.mul_lt_mono_pos_r q); [exact Pg|]. apply N.le_lt_trans with d; [lia|]. apply (N.mul_lt_mono_pos_r (10 ^ 4)); [reflexivity|]. rewrite <- W.
      replace (10 * q * 10 ^ 4) with (10 * 10 ^ 4 * q) by ring. apply N.mul_lt_mono_pos_r; [exact Pg | apply H]. }
    assert (Qi : exists e, i = [e] /\ dec e).
    { destruct I as [->|(e & r & -> & Ce & R)]; [exists 48; split; [reflexivity | unfold dec; lia]|]. destruct r as [|c0 r]; [exists e; split; [reflexivity | unfold dec; lia]|].
      exfalso. pose proof (dec_at_least e (c0 :: r) ltac:(lia)) as A. change (dec_value (e :: c0 :: r)) with (number (e :: c0 :: r)) in A.
      cbn [List.length] in A. rewrite Nat2N.inj_succ, N.pow_succ_r' in A. pose proof (pow10 (N.of_nat (List.length r))). lia. }
    destruct Qi as (e & -> & Ce). exists e, f, c. split; [reflexivity|]. split; [exact Ce|]. split; [exact F|]. split; [exact C|]. split; [lia|].
    fold g. rewrite W. change (e :: g) with ([e] ++ g). rewrite <- Nm. reflexivity.
Qed.
Lemma sp_printed : forall n x, ratio n x -> ~ whole32 x -> gen spvalue (show_f32 x) /\ worth (show_f32 x) n.
Proof.
  intros n x [H X] W. assert (M := not_whole n x (proj2 H) X W).
  destruct (decimal_printed n x ltac:(lia) X M) as (e & f & c & -> & Ee & F & C & L & V). split.
  - set (g := f ++ [c]) in *. assert (G : Forall dec g) by (apply Forall_app; split; [exact F | constructor; [unfold dec; lia | constructor]]).
    assert (Lg : (1 <= List.length g <= 4)%nat) by (unfold g; rewrite app_length; cbn [List.length]; lia). clearbody g. clear F C L.
    destruct (N.eq_dec e 48) as [->|Ne].
    + apply gen_or_left. rewrite dec_value_zero in V. destruct g as [|c0 g]; [cbn in Lg; lia|]. inversion G as [|? ? G0 G1]; subst. unfold dec in G0.
      assert (C0 : c0 <> 48).
      { intros ->. rewrite dec_value_zero in V. pose proof (dec_value_bound g G1) as B. cbn [List.length] in V. rewrite Nat2N.inj_succ, N.pow_succ_r' in V.
        change (10 ^ 4) with (10 * 1000) in V. set (q := 10 ^ N.of_nat (List.length g)) in *. clearbody q. set (v := dec_value g) in *. clearbody v. clear - V B H. nia. }
      replace (48 :: 46 :: c0 :: g) with (List.concat [lit "0."; [c0]; g]) by (cbn [List.concat app]; rewrite app_nil_r; reflexivity).
      apply g_cats. constructor; [constructor|]. constructor; [constructor; lia|]. constructor; [|constructor]. apply PRfc9.g_row; [exact G1 | cbn in Lg; lia].
    + apply gen_or_right. replace (e :: 46 :: g) with (List.concat [[e]; lit "."; g]) by (cbn [List.concat app]; rewrite app_nil_r; reflexivity).
      apply g_cats. constructor; [constructor; unfold dec in Ee; lia|]. constructor; [constructor|]. constructor; [|constructor]. apply PRfc9.g_row; [exact G | exact Lg].
  - exists [e], (f ++ [c]). split; [reflexivity|]. split; [constructor; [exact Ee | constructor]|]. split; [apply Forall_app; split; [exact F | constructor; [unfold dec; lia | constructor]]|].
    split; [rewrite app_length; cbn [List.length]; lia | exact V].
Qed.
Lemma q_printed : forall x, q_good x -> ~ whole32 x -> gen qvalue (show_f32 x).
Proof.
  intros x (k & K & X) W. assert (H : k * 100 < 10 ^ 5) by (change (10 ^ 5) with 100000; lia). assert (M := not_whole _ x H X W).
  assert (K0 : 1 <= k) by (destruct (N.eq_dec k 0) as [->|]; [destruct (M eq_refl) | lia]).
  assert (K1 : k < 100) by (destruct (N.eq_dec k 100) as [->|]; [destruct (M eq_refl) | lia]).
  destruct (decimal_printed (k * 100) x (conj (ltac:(lia) : 1 <= k * 100) H) X M) as (e & f & c & -> & Ee & F & C & L & V).
  change (e :: f ++ [c]) with ((e :: f) ++ [c]) in V. rewrite dec_value_snoc, app_length in V. cbn [List.length] in V.
  assert (Bf : dec_value (e :: f) = (e - 48) * 10 ^ N.of_nat (List.length f) + dec_value f).
  { change (e :: f) with ([e] ++ f). change (number ([e] ++ f) = (e - 48) * 10 ^ N.of_nat (List.length f) + number f). rewrite number_app.
    assert (number [e] = e - 48) by (unfold number; cbn [fold_left]; lia). lia. }
  unfold dec in Ee. replace (List.length f + 1)%nat with (S (List.length f)) in V by lia. rewrite Nat2N.inj_succ, N.pow_succ_r' in V. change (10 ^ 4) with 10000 in V.
  assert (e = 48 /\ (List.length f <= 1)%nat) as [-> Lf].
  { destruct f as [|f1 [|f2 [|f3 [|]]]]; cbn [List.length] in *; [| | | |lia].
    - change (10 ^ N.of_nat 0) with 1 in *. change (dec_value []) with 0 in Bf. lia.
    - change (10 ^ N.of_nat 1) with 10 in *. lia.
    - change (10 ^ N.of_nat 2) with 100 in *. lia.
    - change (10 ^ N.of_nat 3) with 1000 in *. lia. }
  apply gen_or_left. change (48 :: 46 :: f ++ [c]) with (lit "0." ++ f ++ [c]). apply gen_cat; [constructor|]. apply PRfc9.g_row.
  - apply Forall_app. split; [exact F | constructor; [unfold dec; lia | constructor]].
  - rewrite app_length. cbn [List.length]. lia.
Qed.
End WithExt.
