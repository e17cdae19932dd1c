(** * Proofs for C65: the length of a printed float *)
From Coq Require Import List NArith ZArith Bool Ascii String Lia.
From Coq Require Import ZifyBool ZifyNat ZifyN.
From Verif Require Import Str Num Net Types Ext Ext0 StrLemmas NumLemmas PExt0 SpecFloat PFloat PFloat2 PFloat3 PFloat4 SpecSize SpecGrow.
Import ListNotations.
Open Scope N_scope.
Open Scope list_scope.

Lemma plain_short : forall d z k, d < 10 ^ N.of_nat k -> (1 <= k)%nat ->
  (List.length (plain_decimal d (Z.to_N z) (Z.to_N (- z))) <= k + 1 + Z.abs_nat z)%nat.
Proof.
  intros d z k D K. unfold plain_decimal. destruct (N.eqb_spec (Z.to_N (- z)) 0) as [Q|Q].
  - etransitivity; [apply (show_N_short _ (k + Z.abs_nat z)); [|lia]|lia].
    replace (N.of_nat (k + Z.abs_nat z)) with (N.of_nat k + Z.to_N z) by lia. rewrite N.pow_add_r.
    apply N.mul_lt_mono_pos_r; [apply tp | exact D].
  - rewrite !app_length, pad0_length.
    2:{ apply show_N_short; [|lia]. rewrite N2Nat.id. apply N.mod_lt, N.pow_nonzero. lia. }
    cbn [List.length]. assert (H : (List.length (show_N (d / 10 ^ Z.to_N (- z))) <= k)%nat).
    { apply show_N_short; [|exact K]. eapply N.le_lt_trans; [|exact D]. apply N.div_le_upper_bound; [apply N.pow_nonzero; lia|].
      pose proof (tp (Z.to_N (- z))). nia. }
    lia.
Qed.

Section Float.
Variables p w : N.
Hypothesis P : 1 <= p.
Hypothesis W : 2 <= w.
Hypothesis Big : magnitude p (inf p w) <= 10 ^ 401 * 2 ^ unit_exp p w.
Hypothesis Small : 2 * 2 ^ unit_exp p w < 10 ^ 1100.
Hypothesis Digits : 2 ^ (p + 1) < 10 ^ 16.
Hypothesis Top : magnitude p (inf p w) <= 10 ^ 309 * 2 ^ unit_exp p w.
Hypothesis Bottom : 2 ^ unit_exp p w <= 10 ^ 324.
Notation U := (2 ^ unit_exp p w).

Section One.
Variable x : N.
Hypothesis X0 : 0 < x.
Hypothesis X1 : x < inf p w.
Notation V := (magnitude p x).
Notation e10 := (decade V U).

Lemma decade_range : (-324 <= e10 <= 308)%Z.
Proof.
  destruct (in_decade p w P W Big Small Digits x X0 X1) as [L H]. unfold below in L. unfold above in H.
  assert (V0 : 0 < V) by (exact (V_pos p w P W x X0)).
  assert (V1 : V < magnitude p (inf p w)) by (apply (mag_lt p w P W); exact X1).
  assert (U0 : 0 < U) by (apply pow_pos; lia).
  set (e := e10) in *. clearbody e. rewrite N.mul_1_l in L, H. split.
  - apply Z.nlt_ge. intro K.
    assert (Q : 10 ^ Z.to_N (e + 1) = 1) by (replace (Z.to_N (e + 1)) with 0 by lia; reflexivity). rewrite Q in H.
    assert (M : 10 ^ 324 <= 10 ^ Z.to_N (- (e + 1))) by (apply N.pow_le_mono_r; lia).
    set (a := 10 ^ 324) in *. set (b := 10 ^ Z.to_N (- (e + 1))) in *. set (u := U) in *. set (v := V) in *. clearbody a b u v.
    clear Big Small Digits Top. nia.
  - apply Z.nlt_ge. intro K.
    assert (Q : 10 ^ Z.to_N (- e) = 1) by (replace (Z.to_N (- e)) with 0 by lia; reflexivity). rewrite Q in L.
    assert (M : 10 ^ 309 <= 10 ^ Z.to_N e) by (apply N.pow_le_mono_r; lia).
    set (a := 10 ^ 309) in *. set (b := 10 ^ Z.to_N e) in *. set (u := U) in *. set (v := V) in *. set (t := magnitude p (inf p w)) in *. clearbody a b u v t.
    clear Big Small Digits Bottom. nia.
Qed.

Lemma cand_short : forall n c, (1 <= n <= 17)%nat -> c <= 10 ^ N.of_nat n -> (List.length (cand_text p w x n c) <= 358)%nat.
Proof.
  intros n c Nn C. assert (R := decade_range). unfold cand_text, rep. destruct (N.eqb_spec c (10 ^ N.of_nat n)) as [Q|Q].
  - etransitivity; [apply (plain_short 1 _ 1); [reflexivity | lia]|lia].
  - etransitivity; [apply (plain_short c _ n); [|lia]|lia]. set (a := 10 ^ N.of_nat n) in *. clearbody a. clear Big Small Digits Top Bottom. lia.
Qed.

Lemma found_short : (List.length (show_magnitude p w x) <= 358)%nat.
Proof.
  rewrite show_magnitude_find by assumption.
  destruct (fewest p w P W Big Small Digits x X0 X1) as (t & _ & _ & F & _). rewrite F.
  apply find_flat_map in F. destruct F as (l1 & n & l2 & Q & _ & Fn).
  assert (In n (seq 1 17)) as I by (rewrite Q; apply in_elt). apply in_seq in I.
  destruct (find_best p w P W Big Small Digits x X0 X1 n t Fn) as (c & -> & C & _).
  apply cand_short; [lia|]. destruct (fl_digits p w P W Big Small Digits x X0 X1 n ltac:(lia)) as [_ K].
  destruct C as [->| ->].
  - apply N.lt_le_incl. exact K.
  - apply N.lt_pred_le. rewrite N.add_1_r, N.pred_succ. exact K.
Qed.
End One.

Lemma show_short : forall x, (List.length (show_float p w x) <= 359)%nat.
Proof.
  intro x. unfold show_float. set (m := x mod 2 ^ (p + w)). destruct (N.ltb_spec (inf p w) m) as [H|H]; [cbn; lia|].
  rewrite app_length. assert (K : (List.length (show_magnitude p w m) <= 358)%nat).
  { destruct (N.eq_dec m (inf p w)) as [->|Ne].
    - unfold show_magnitude. rewrite N.leb_refl. cbn. lia.
    - destruct (N.eq_dec m 0) as [->|N0]; [|apply found_short; lia].
      unfold show_magnitude. destruct (inf p w <=? 0); [cbn; lia|]. rewrite N.div_0_l by (apply N.pow_nonzero; lia). cbn. lia. }
  destruct (N.testbit x (p + w)); cbn [List.length]; lia.
Qed.
End Float.

Lemma top32 : magnitude 23 (inf 23 8) <= 10 ^ 309 * 2 ^ unit_exp 23 8. Proof. apply N.leb_le. vm_compute. reflexivity. Qed.
Lemma top64 : magnitude 52 (inf 52 11) <= 10 ^ 309 * 2 ^ unit_exp 52 11. Proof. apply N.leb_le. vm_compute. reflexivity. Qed.
Lemma bottom32 : 2 ^ unit_exp 23 8 <= 10 ^ 324. Proof. apply N.leb_le. vm_compute. reflexivity. Qed.
Lemma bottom64 : 2 ^ unit_exp 52 11 <= 10 ^ 324. Proof. apply N.leb_le. vm_compute. reflexivity. Qed.

Lemma floats0 : floats_within (E := Ext0) 359.
Proof.
  split; intros x _; unfold text; cbn [show_f32 show_f64 Ext0].
  - exact (show_short 23 8 (le1 23 eq_refl) (le2 8 eq_refl) big32 small32 digits32 top32 bottom32 x).
  - exact (show_short 52 11 (le1 52 eq_refl) (le2 11 eq_refl) big64 small64 digits64 top64 bottom64 x).
Qed.
Lemma floats_std : forall E : Ext, std_floats E -> floats_within 359.
Proof.
  intros E H. destruct (std_one E Ext0 H ext0_std) as (_ & _ & A & B). destruct floats0 as [F G]. split; intros x X.
  - rewrite A; [apply F; exact X|]. change (2 ^ 32) with (u32_max + 1). lia.
  - rewrite B; [apply G; exact X|]. change (2 ^ 64) with (u64_max + 1). lia.
Qed.
