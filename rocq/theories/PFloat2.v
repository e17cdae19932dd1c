(** * Lemmas for C60: printing with the fewest digits *)
From Coq Require Import List NArith ZArith Bool Ascii String Lia.
From Coq Require Import ZifyBool ZifyNat ZifyN.
From Verif Require Import Str Num Net Types Ext Ext0 StrLemmas NumLemmas PExt0 SpecFloat PFloat.
Import ListNotations.
Open Scope N_scope.
Open Scope list_scope.
Notation up z := (10 ^ Z.to_N z).
Notation dn z := (10 ^ Z.to_N (- z)).
Lemma tp : forall n, 0 < 10 ^ n. Proof. intro n. apply pow_pos. lia. Qed.
Lemma cross : forall z z', (z <= z')%Z -> up z' * dn z = 10 ^ Z.to_N (z' - z) * (up z * dn z').
Proof. intros z z' H. rewrite <- !N.pow_add_r. f_equal. lia. Qed.
Lemma mul_cancel_le : forall a b c, 0 < c -> a * c <= b * c -> a <= b. Proof. intros a b c H K. nia. Qed.
Lemma mul_cancel_lt : forall a b c, 0 < c -> a * c < b * c -> a < b. Proof. intros a b c H K. nia. Qed.

(** ** Decimals in order *)
(** [d * 10^z <= d' * 10^z'] *)
Definition dec_le (d : N) (z : Z) (d' : N) (z' : Z) : Prop := d * up z * dn z' <= d' * up z' * dn z.
Section Value.
Variables V U : N.
Hypothesis Up : 0 < U.
(** [d * 10^z <= V / U] and the like. *)
Definition below (d : N) (z : Z) : Prop := d * (U * up z) <= V * dn z.
Definition above (d : N) (z : Z) : Prop := V * dn z < d * (U * up z).
Definition floor (z : Z) : N := V * dn z / (U * up z).
Lemma floor_spec : forall z, below (floor z) z /\ above (floor z + 1) z.
Proof.
  intro z. unfold below, above, floor. set (b := U * up z). assert (0 < b) by (pose proof (tp (Z.to_N z)); unfold b; nia).
  assert (D := N.div_mod (V * dn z) b ltac:(lia)). assert (M := N.mod_lt (V * dn z) b ltac:(lia)). nia.
Qed.
Lemma below_floor : forall j z, below j z -> j <= floor z.
Proof.
  intros j z H. unfold below, floor in *. apply N.div_le_lower_bound; [pose proof (tp (Z.to_N z)); nia | lia].
Qed.
Lemma below_raise : forall d z z', (z <= z')%Z -> below d z' <-> below (d * 10 ^ Z.to_N (z' - z)) z.
Proof.
  intros d z z' H. unfold below. assert (C := cross z z' H). set (j := 10 ^ Z.to_N (z' - z)) in *.
  pose proof (tp (Z.to_N (- z))). pose proof (tp (Z.to_N (- z'))). set (a := up z) in *. set (b := dn z) in *. set (a' := up z') in *. set (b' := dn z') in *. clearbody j a b a' b'.
  split; intro K.
  - apply (mul_cancel_le _ _ b'); [assumption|]. replace (d * j * (U * a) * b') with (d * U * (j * (a * b'))) by ring. rewrite <- C.
    replace (d * U * (a' * b)) with (d * (U * a') * b) by ring. replace (V * b * b') with (V * b' * b) by ring. apply N.mul_le_mono_r. exact K.
  - apply (mul_cancel_le _ _ b); [assumption|]. replace (d * (U * a') * b) with (d * U * (a' * b)) by ring. rewrite C.
    replace (d * U * (j * (a * b'))) with (d * j * (U * a) * b') by ring. replace (V * b' * b) with (V * b * b') by ring. apply N.mul_le_mono_r. exact K.
Qed.
Lemma above_not : forall d z, above d z <-> ~ below d z. Proof. intros d z. unfold above, below. lia. Qed.
Lemma dec_le_raise : forall d z d' z', (z <= z')%Z -> d' * 10 ^ Z.to_N (z' - z) <= d -> dec_le d' z' d z.
Proof.
  intros d z d' z' H K. unfold dec_le. assert (C := cross z z' H). set (j := 10 ^ Z.to_N (z' - z)) in *.
  rewrite <- (N.mul_assoc d'), C. replace (d' * (j * (up z * dn z'))) with (d' * j * (up z * dn z')) by ring. rewrite <- (N.mul_assoc d (up z)). apply N.mul_le_mono_r. exact K.
Qed.
Lemma dec_le_raise_r : forall d z d' z', (z <= z')%Z -> d <= d' * 10 ^ Z.to_N (z' - z) -> dec_le d z d' z'.
Proof.
  intros d z d' z' H K. unfold dec_le. assert (C := cross z z' H). set (j := 10 ^ Z.to_N (z' - z)) in *.
  rewrite <- (N.mul_assoc d'), C. replace (d' * (j * (up z * dn z'))) with (d' * j * (up z * dn z')) by ring. rewrite <- (N.mul_assoc d (up z)). apply N.mul_le_mono_r. exact K.
Qed.
(** The decade. *)
Variable e10 : Z.
Hypothesis Lo : below 1 e10.
Hypothesis Hi : above 1 (e10 + 1).
Notation zn n := (e10 - (Z.of_N n - 1))%Z.
Lemma floor_digits : forall n, 1 <= n -> 10 ^ (n - 1) <= floor (zn n) /\ floor (zn n) < 10 ^ n.
Proof.
  intros n H. split.
  - apply below_floor. apply (below_raise 1 (zn n) e10) in Lo; [|lia]. replace (Z.to_N (e10 - zn n)) with (n - 1) in Lo by lia. rewrite N.mul_1_l in Lo. exact Lo.
  - destruct (floor_spec (zn n)) as [F _]. apply N.nle_gt. intro K. apply above_not in Hi. apply Hi.
    apply (below_raise 1 (zn n) (e10 + 1)); [lia|]. replace (Z.to_N (e10 + 1 - zn n)) with n by lia. rewrite N.mul_1_l.
    unfold below in *. eapply N.le_trans; [apply N.mul_le_mono_r; exact K | exact F].
Qed.
Lemma floor_between : forall n d z, 1 <= n -> d < 10 ^ n -> below d z -> dec_le d z (floor (zn n)) (zn n).
Proof.
  intros n d z H D B. destruct (Z.le_gt_cases (zn n) z) as [L|L].
  - apply dec_le_raise; [exact L|]. apply below_floor, (below_raise d (zn n) z); assumption.
  - apply dec_le_raise_r; [lia|]. destruct (floor_digits n H) as [F _].
    assert (10 <= 10 ^ Z.to_N (zn n - z)). { change 10 with (10 ^ 1) at 1. apply N.pow_le_mono_r; lia. }
    assert (10 ^ n = 10 ^ (n - 1) * 10). { rewrite <- (N.pow_1_r 10) at 3. rewrite <- N.pow_add_r. f_equal. lia. } nia.
Qed.
Lemma ceil_between : forall n d z, 1 <= n -> d < 10 ^ n -> above d z -> dec_le (floor (zn n) + 1) (zn n) d z.
Proof.
  intros n d z H D B. destruct (Z.le_gt_cases (zn n) z) as [L|L].
  - apply dec_le_raise_r; [exact L|]. apply N.nlt_ge. intro K. apply above_not in B. apply B, (below_raise d (zn n) z); [exact L|].
    destruct (floor_spec (zn n)) as [F _]. unfold below in *. eapply N.le_trans; [apply N.mul_le_mono_r; apply N.lt_succ_r; rewrite <- N.add_1_r; exact K | exact F].
  - exfalso. apply above_not in B. apply B. destruct (floor_digits n H) as [F _]. destruct (floor_spec (zn n)) as [F1 _].
    apply (below_raise _ z (zn n)) in F1; [|lia]. unfold below in *. eapply N.le_trans; [apply N.mul_le_mono_r | exact F1].
    assert (10 <= 10 ^ Z.to_N (zn n - z)). { change 10 with (10 ^ 1) at 1. apply N.pow_le_mono_r; lia. }
    assert (10 ^ n = 10 ^ (n - 1) * 10). { rewrite <- (N.pow_1_r 10) at 3. rewrite <- N.pow_add_r. f_equal. lia. } nia.
Qed.
End Value.
Lemma length_bounds : forall n, 1 <= n -> 10 ^ N.of_nat (List.length (show_N n) - 1) <= n /\ n < 10 ^ N.of_nat (List.length (show_N n)).
Proof.
  intros n H. assert (Ne := show_N_nonempty n). destruct (show_N n) as [|c s] eqn:Q; [congruence|]. rewrite <- Q. clear c s Q Ne. split.
  - apply N.nlt_ge. intro K. assert (L : (1 <= List.length (show_N n))%nat) by (pose proof (show_N_nonempty n); destruct (show_N n); [congruence | cbn; lia]).
    destruct (Nat.eq_dec (List.length (show_N n)) 1) as [E|E]; [rewrite E in K; cbn in K; lia|]. apply show_N_short in K; lia.
  - rewrite <- (show_N_value n) at 1. apply value_bound, digits_iff, show_N_digits.
Qed.
Lemma leading_spec : forall f num den j, den <= num * 10 ^ (j + N.of_nat f) -> (j = 1 \/ num * 10 ^ (j - 1) < den) -> 1 <= j ->
  den <= num * 10 ^ leading f num den j /\ (leading f num den j = 1 \/ num * 10 ^ (leading f num den j - 1) < den) /\ 1 <= leading f num den j.
Proof.
  induction f as [|f IH]; intros num den j H K L; cbn [leading].
  - rewrite N.add_0_r in H. auto.
  - destruct (N.leb_spec den (num * 10 ^ j)) as [Q|Q]; [auto|]. apply IH; [replace (j + 1 + N.of_nat f) with (j + N.of_nat (S f)) by lia; exact H | right; replace (j + 1 - 1) with j by lia; exact Q | lia].
Qed.
Lemma decade_spec : forall V U, 0 < V -> 0 < U -> U <= V * 10 ^ 1101 -> below V U 1 (decade V U) /\ above V U 1 (decade V U + 1).
Proof.
  intros V U Vp Up Big. unfold decade, below, above. destruct (N.leb_spec U V) as [L|L].
  - assert (Q : 1 <= V / U) by (apply N.div_le_lower_bound; lia). destruct (length_bounds _ Q) as [B1 B2].
    assert (Nl : (1 <= List.length (show_N (V / U)))%nat) by (pose proof (show_N_nonempty (V / U)); destruct (show_N (V / U)); [congruence | cbn; lia]).
    set (l := List.length (show_N (V / U))) in *. clearbody l.
    replace (Z.to_N (Z.of_nat l - 1)) with (N.of_nat (l - 1)) by lia. replace (Z.to_N (- (Z.of_nat l - 1))) with 0 by lia.
    replace (Z.to_N (Z.of_nat l - 1 + 1)) with (N.of_nat l) by lia. replace (Z.to_N (- (Z.of_nat l - 1 + 1))) with 0 by lia.
    rewrite N.pow_0_r, !N.mul_1_r, !N.mul_1_l. assert (D := N.div_mod V U ltac:(lia)). assert (M := N.mod_lt V U ltac:(lia)).
    set (q := V / U) in *. set (r := V mod U) in *. set (x := 10 ^ N.of_nat (l - 1)) in *. set (y := 10 ^ N.of_nat l) in *. clearbody q r x y. nia.
  - destruct (leading_spec 1100 V U 1 Big (or_introl eq_refl) ltac:(lia)) as (A & B & C). set (j := leading 1100 V U 1) in *. clearbody j.
    replace (Z.to_N (- Z.of_N j)) with 0 by lia. replace (Z.to_N (- - Z.of_N j)) with j by lia.
    replace (Z.to_N (- Z.of_N j + 1)) with 0 by lia. replace (Z.to_N (- (- Z.of_N j + 1))) with (j - 1) by lia.
    rewrite N.pow_0_r, !N.mul_1_r, !N.mul_1_l. split; [exact A|]. destruct B as [->|B]; [cbn; lia | exact B].
Qed.
Lemma find_flat_map : forall {A B} (f : B -> bool) (g : A -> list B) l t, find f (flat_map g l) = Some t ->
  exists l1 n l2, l = l1 ++ n :: l2 /\ (forall m, In m l1 -> find f (g m) = None) /\ find f (g n) = Some t.
Proof.
  intros A B f g l t. assert (Fa : forall (x y : list B), find f (x ++ y) = match find f x with Some t => Some t | None => find f y end).
  { induction x as [|b x IH]; intro y; [reflexivity|]. cbn [app find]. destruct (f b); [reflexivity | apply IH]. }
  induction l as [|n l IH]; intro H; [discriminate H|]. cbn [flat_map] in H. rewrite Fa in H. destruct (find f (g n)) as [t'|] eqn:Q.
  - injection H as ->. exists [], n, l. split; [reflexivity|]. split; [intros m []|exact Q].
  - destruct (IH H) as (l1 & k & l2 & -> & K & Z). exists (n :: l1), k, l2. split; [reflexivity|]. split; [|exact Z].
    intros m [<-|I]; [exact Q | exact (K m I)].
Qed.

Section Float.
Variables p w : N.
Hypothesis P : 1 <= p.
Hypothesis W : 2 <= w.
Notation INF := (inf p w).
Notation mag := (magnitude p).
Notation U := (2 ^ unit_exp p w).

(** ** What lies between *)
Lemma convex : forall n1 d1 n2 d2 x, 0 < d1 -> 0 < d2 -> nearest p w n1 d1 x ->
  (n1 * d2 <= n2 * d1 /\ n2 * U <= d2 * mag x) \/ (n2 * d1 <= n1 * d2 /\ d2 * mag x <= n2 * U) ->
  nearest p w n2 d2 x /\ (distance p w n2 d2 x * Z.of_N d1 <= distance p w n1 d1 x * Z.of_N d2)%Z.
Proof.
  intros n1 d1 n2 d2 x D1 D2 [Xi Nx] H.
  assert (S1 : forall y, (distance p w n1 d1 y * Z.of_N d2 = Z.abs (Z.of_N (n1 * U * d2) - Z.of_N (d1 * d2 * mag y)))%Z).
  { intro y. unfold distance. rewrite <- (Z.abs_eq (Z.of_N d2)) at 1 by lia. rewrite <- Z.abs_mul. f_equal. lia. }
  assert (S2 : forall y, (distance p w n2 d2 y * Z.of_N d1 = Z.abs (Z.of_N (n2 * U * d1) - Z.of_N (d1 * d2 * mag y)))%Z).
  { intro y. unfold distance. rewrite <- (Z.abs_eq (Z.of_N d1)) at 1 by lia. rewrite <- Z.abs_mul. f_equal. lia. }
  assert (H' : n1 * U * d2 <= n2 * U * d1 /\ n2 * U * d1 <= d1 * d2 * mag x \/ n2 * U * d1 <= n1 * U * d2 /\ d1 * d2 * mag x <= n2 * U * d1).
  { destruct H as [[A B]|[A B]]; [left | right]; (split; [replace (n1 * U * d2) with (n1 * d2 * U) by ring; replace (n2 * U * d1) with (n2 * d1 * U) by ring; apply N.mul_le_mono_r; exact A
      | rewrite (N.mul_comm (n2 * U)), <- (N.mul_assoc d1); apply N.mul_le_mono_l; exact B]). }
  split.
  - split; [exact Xi|]. intros y Y. destruct (Nx y Y) as [A B].
    assert (A' : (distance p w n1 d1 x * Z.of_N d2 <= distance p w n1 d1 y * Z.of_N d2)%Z) by (apply Z.mul_le_mono_nonneg_r; [lia | exact A]).
    rewrite !S1 in A'.
    assert (C : (distance p w n2 d2 x * Z.of_N d1 <= distance p w n2 d2 y * Z.of_N d1)%Z) by (rewrite !S2; lia).
    split; [apply (Z.mul_le_mono_pos_r _ _ (Z.of_N d1)); [lia | exact C]|]. intros Q Ne. apply B; [|exact Ne].
    apply (Z.mul_cancel_r _ _ (Z.of_N d2)); [lia|]. assert (Q' : (distance p w n2 d2 x * Z.of_N d1 = distance p w n2 d2 y * Z.of_N d1)%Z) by (rewrite Q; reflexivity).
    rewrite !S2 in Q'. rewrite !S1. lia.
  - rewrite S1, S2. lia.
Qed.
Lemma gap : forall x y, y <> x -> mag x <= (if mag x <? mag y then mag y - mag x else mag x - mag y) * 2 ^ (p + 1).
Proof.
  intros x y Ne. pose proof (pp p w P W) as Pp. destruct (pattern_of p w P W x) as (k & m & Q & M & K). assert (Mx : mag x = m * 2 ^ k) by (rewrite Q; apply (mag_pattern p w P W); lia).
  destruct (N.lt_trichotomy x y) as [L|[L|L]]; [| congruence|].
  - assert (L1 := mag_lt p w P W _ _ L). apply N.ltb_lt in L1. rewrite L1. apply N.ltb_lt in L1. assert (L2 := mag_le p w P W (x + 1) y ltac:(lia)).
    assert (Mx1 : mag (x + 1) = (m + 1) * 2 ^ k). { rewrite Q. replace (k * 2 ^ p + m + 1) with (k * 2 ^ p + (m + 1)) by lia. apply (mag_pattern p w P W); lia. }
    assert (2 ^ k <= mag y - mag x) by nia. rewrite Mx at 1. nia.
  - assert (L1 := mag_lt p w P W _ _ L). destruct (N.ltb_spec (mag x) (mag y)) as [L2|_]; [lia|]. assert (L2 := mag_le p w P W y (x - 1) ltac:(lia)).
    assert (Two := two_p p). destruct (N.eq_dec k 0) as [K0|K0]; [|destruct (N.eq_dec m (2 ^ p)) as [Mp|Mp]].
    + subst k. rewrite N.pow_0_r in *. assert (M1 : mag (x - 1) = (m - 1) * 2 ^ 0). { rewrite Q. replace (0 * 2 ^ p + m - 1) with (0 * 2 ^ p + (m - 1)) by lia. apply (mag_pattern p w P W); lia. }
      rewrite N.pow_0_r in M1. assert (1 <= mag x - mag y) by lia. nia.
    + assert (M1 : mag (x - 1) = (2 ^ (p + 1) - 1) * 2 ^ (k - 1)).
      { rewrite Q, Mp. replace (k * 2 ^ p + 2 ^ p - 1) with ((k - 1) * 2 ^ p + (2 ^ (p + 1) - 1)) by (rewrite Two; replace (k * 2 ^ p) with ((k - 1) * 2 ^ p + 2 ^ p) by (rewrite <- N.mul_succ_l; f_equal; lia); lia). apply (mag_pattern p w P W); lia. }
      assert (E : 2 ^ k = 2 * 2 ^ (k - 1)) by (rewrite <- N.pow_succ_r'; f_equal; lia). pose proof (pow_pos 2 (k - 1)).
      rewrite Mp, E in Mx. assert (2 ^ (k - 1) <= mag x - mag y) by (rewrite Two in M1; nia). rewrite Mx at 1. rewrite Two. nia.
    + assert (M1 : mag (x - 1) = (m - 1) * 2 ^ k). { rewrite Q. replace (k * 2 ^ p + m - 1) with (k * 2 ^ p + (m - 1)) by lia. apply (mag_pattern p w P W); lia. }
      assert (2 ^ k <= mag x - mag y) by nia. rewrite Mx at 1. nia.
Qed.
Lemma U_pos : 0 < U. Proof. apply pow_pos. lia. Qed.
Notation fl x z := (floor (mag x) U z).
Lemma scaled_distance : forall d z y, distance p w (scaled_num d z) (scaled_den z) y = Z.abs (Z.of_N (d * (U * up z)) - Z.of_N (dn z * mag y)).
Proof. intros d z y. unfold distance, scaled_num, scaled_den. f_equal. f_equal. f_equal. ring. Qed.
Lemma close_enough : forall x d z, x <= INF -> 2 ^ (p + 1) * (U * up z) < mag x * dn z ->
  (2 * Z.abs (Z.of_N (d * (U * up z)) - Z.of_N (dn z * mag x)) <= Z.of_N (U * up z))%Z -> nearest p w (scaled_num d z) (scaled_den z) x.
Proof.
  intros x d z X L C. split; [exact X|]. intros y _. rewrite !scaled_distance. destruct (N.eq_dec y x) as [->|Ne]; [split; [lia | intros _ K; destruct (K eq_refl)]|].
  assert (G := gap x y Ne). set (b := U * up z) in *. set (t := dn z) in *.
  assert (Gt : b < t * (if mag x <? mag y then mag y - mag x else mag x - mag y)).
  { set (g := if mag x <? mag y then _ else _) in *. apply (mul_cancel_lt _ _ (2 ^ (p + 1))); [apply pow_pos; lia|].
    eapply N.lt_le_trans; [rewrite N.mul_comm; exact L|]. rewrite (N.mul_comm (mag x)), <- N.mul_assoc. apply N.mul_le_mono_l. exact G. }
  assert (Gz : (Z.of_N b < Z.abs (Z.of_N (t * mag x) - Z.of_N (t * mag y)))%Z).
  { destruct (N.ltb_spec (mag x) (mag y)) as [K|K]; rewrite N.mul_sub_distr_l in Gt; lia. }
  split; [lia|]. intro Q. exfalso. lia.
Qed.
Lemma text_of_plain : forall d z, plain_text (plain_decimal d (Z.to_N z) (Z.to_N (- z))) d z.
Proof.
  assert (Hs : forall n, Forall digit (show_N n) /\ (show_N n = [48] \/ exists c r, show_N n = c :: r /\ c <> 48)).
  { intro n. split; [apply digits_iff, show_N_digits|]. destruct (show_radix_spec digit_lower 10 n ltac:(lia)) as (ds & E & F & _ & (Ne & C)).
    unfold show_N. rewrite E. destruct ds as [|d ds]; [congruence|]. destruct C as [C|(d' & ds' & Q & C)].
    - destruct ds; [|discriminate C]. destruct (N.eq_dec d 0) as [->|Nz]; [left; reflexivity | right]. exists (digit_lower d), []. split; [reflexivity|].
      pose proof (Forall_inv F) as K. cbn in K. unfold digit_lower. destruct (d <? 10) eqn:Q; lia.
    - injection Q as <- <-. right. exists (digit_lower d), (map digit_lower ds). split; [reflexivity|].
      pose proof (Forall_inv F) as K. cbn in K. unfold digit_lower. destruct (d <? 10) eqn:Q; lia. }
  intros d z. unfold plain_decimal. destruct (N.eqb_spec (Z.to_N (- z)) 0) as [Q|Q].
  - exists (show_N (d * up z)), []. destruct (Hs (d * up z)) as [H1 H2]. split; [exact H1|]. split; [constructor|]. split; [exact H2|]. left.
    split; [lia|]. split; [reflexivity|]. split; [reflexivity|]. rewrite number_value, show_N_value. reflexivity.
  - set (k := Z.to_N (- z)) in *. exists (show_N (d / 10 ^ k)), (pad0 (N.to_nat k) (show_N (d mod 10 ^ k))). destruct (Hs (d / 10 ^ k)) as [H1 H2].
    split; [exact H1|]. split; [apply digits_iff, pad0_digits|]. split; [exact H2|]. right. split; [lia|]. split; [reflexivity|].
    assert (Lf : List.length (pad0 (N.to_nat k) (show_N (d mod 10 ^ k))) = N.to_nat k).
    { apply pad0_length, show_N_short; [|lia]. rewrite N2Nat.id. apply N.mod_lt, N.pow_nonzero. lia. }
    split; [lia|]. rewrite number_value, digits_value_app, show_N_value, Lf, N2Nat.id. unfold pad0. rewrite digits_value_zeros, show_N_value.
    rewrite N.mul_comm, <- N.div_mod; [reflexivity|]. apply N.pow_nonzero. lia.
Qed.
Lemma plain_is_decimal : forall t d z, plain_text t d z -> exists dt zt, decimal_text t dt zt /\ scaled_num dt zt = scaled_num d z /\ scaled_den zt = scaled_den z.
Proof.
  intros t d z (i & f & Di & Df & I & [(Z0 & -> & -> & V)|(Z0 & -> & L & V)]).
  - exists (number i), 0%Z. split; [|split; [rewrite V; unfold scaled_num at 1; cbn; lia | unfold scaled_den; replace (Z.to_N (- z)) with 0 by lia; reflexivity]].
    exists i, [], [], 0%Z. split; [left; rewrite app_nil_r; split; reflexivity|]. split; [exact Di|]. split; [constructor|].
    rewrite app_nil_r. split; [destruct I as [->|(c & r & -> & _)]; discriminate|]. split; [left; split; reflexivity|]. split; reflexivity.
  - exists d, z. split; [|split; reflexivity]. exists i, f, [], 0%Z. split; [right; rewrite app_nil_r; reflexivity|]. split; [exact Di|]. split; [exact Df|].
    split; [destruct I as [->|(c & r & -> & _)]; discriminate|]. split; [left; split; reflexivity|]. split; [symmetry; exact V | lia].
Qed.
Lemma same_value : forall n1 d1 n2 d2 x, 0 < d1 -> 0 < d2 -> n1 * d2 = n2 * d1 -> nearest p w n1 d1 x ->
  nearest p w n2 d2 x /\ (distance p w n2 d2 x * Z.of_N d1 = distance p w n1 d1 x * Z.of_N d2)%Z.
Proof.
  intros n1 d1 n2 d2 x D1 D2 Q H.
  assert (C1 : n1 * d2 <= n2 * d1 /\ n2 * U <= d2 * mag x \/ n2 * d1 <= n1 * d2 /\ d2 * mag x <= n2 * U) by lia.
  destruct (convex _ _ _ _ _ D1 D2 H C1) as [H2 L1].
  assert (C2 : n2 * d1 <= n1 * d2 /\ n1 * U <= d1 * mag x \/ n1 * d2 <= n2 * d1 /\ d1 * mag x <= n1 * U) by lia.
  destruct (convex _ _ _ _ _ D2 D1 H2 C2) as [_ L2]. split; [exact H2 | lia].
Qed.
Hypothesis Big : mag INF <= 10 ^ 401 * U.
Hypothesis Small : 2 * U < 10 ^ 1100.
Hypothesis Digits : 2 ^ (p + 1) < 10 ^ 16.

Lemma plain_reads_iff : forall t d z x, plain_text t d z -> (reads_as p w x t = true <-> nearest p w (scaled_num d z) (scaled_den z) x).
Proof.
  intros t d z x T. destruct (plain_is_decimal _ _ _ T) as (dt & zt & D & Q1 & Q2). rewrite <- Q1, <- Q2.
  assert (R := round_nearest p w P W (scaled_num dt zt) (scaled_den zt) (tp _)).
  assert (B : parse_body p w t = Some (round p w (scaled_num dt zt) (scaled_den zt))).
  { apply (magnitude_iff p w P W Big Small). right. right. exists dt, zt. split; [exact D | exact R]. }
  unfold reads_as. rewrite B. split; intro H.
  - apply N.eqb_eq in H. rewrite H in R. exact R.
  - apply N.eqb_eq. exact (nearest_unique p w P W _ _ _ _ (tp _) R H).
Qed.
(** ** The candidates *)
Section Candidates.
Variable x : N.
Hypothesis X0 : 0 < x.
Hypothesis X1 : x < INF.
Notation V := (mag x).
Notation e10 := (decade V U).
Lemma V_pos : 0 < V. Proof. rewrite <- (mag_0 p w P W). apply (mag_lt p w P W). exact X0. Qed.
Lemma in_decade : below V U 1 e10 /\ above V U 1 (e10 + 1).
Proof.
  apply decade_spec; [exact V_pos | exact U_pos|]. apply N.le_trans with (10 ^ 1101).
  - assert (10 ^ 1100 <= 10 ^ 1101) by (apply N.pow_le_mono_r; lia). set (a := 10 ^ 1100) in *. set (b := 10 ^ 1101) in *. clearbody a b. clear Big Digits. lia.
  - pose proof V_pos. set (b := 10 ^ 1101). clearbody b. clear Big Small Digits. nia.
Qed.
Notation zz n := (e10 - (Z.of_nat n - 1))%Z.
Notation reading d z := (nearest p w (scaled_num d z) (scaled_den z) x).
Notation dist d z := (distance p w (scaled_num d z) (scaled_den z) x).
Lemma not_zero : forall z, ~ reading 0 z.
Proof.
  intros z H. assert (K : nearest p w (scaled_num 0 z) (scaled_den z) 0).
  { apply (near_zero p w P W). unfold scaled_num. rewrite !N.mul_0_l, N.mul_0_r. apply tp. }
  assert (Q := nearest_unique p w P W _ _ _ _ (tp _) H K). lia.
Qed.
Lemma fl_digits : forall n, (1 <= n)%nat -> 10 ^ (N.of_nat n - 1) <= fl x (zz n) /\ fl x (zz n) < 10 ^ N.of_nat n.
Proof.
  intros n H. destruct in_decade as [D1 D2]. assert (K := floor_digits V U U_pos e10 D1 D2 (N.of_nat n) ltac:(lia)). rewrite nat_N_Z in K. exact K.
Qed.
Notation value d z d' z' := (scaled_num d' z' * scaled_den z <= scaled_num d z * scaled_den z').
Lemma floor_or_ceil : forall n d' z', d' < 10 ^ N.of_nat n -> reading d' z' ->
  (1 <= n)%nat /\ exists c, (c = fl x (zz n) /\ value c (zz n) d' z' \/ c = fl x (zz n) + 1) /\ reading c (zz n) /\ no_worse p w x c (zz n) d' z'.
Proof.
  intros n d' z' L R. assert (N1 : (1 <= n)%nat). { destruct n; [|lia]. assert (d' = 0) by (cbn in L; lia). subst d'. destruct (not_zero _ R). }
  split; [exact N1|]. destruct in_decade as [D1 D2]. destruct (floor_spec V U U_pos (zz n)) as [F1 F2].
  destruct (N.le_gt_cases (d' * (U * up z')) (V * dn z')) as [B|B].
  - exists (fl x (zz n)). 
    assert (K := floor_between V U U_pos e10 D1 D2 (N.of_nat n) d' z' ltac:(lia) L B). rewrite nat_N_Z in K.
    split; [left; split; [reflexivity | exact K]|].
    destruct (convex (scaled_num d' z') (scaled_den z') (scaled_num (fl x (zz n)) (zz n)) (scaled_den (zz n)) x (tp _) (tp _) R) as [R2 D].
    { left. split; [exact K|]. unfold below in F1. unfold scaled_num, scaled_den. lia. }
    split; [exact R2|]. unfold no_worse. apply Z.le_lteq in D. destruct D as [D|D]; [left; exact D | right; split; [exact D | exact K]].
  - exists (fl x (zz n) + 1). split; [right; reflexivity|].
    assert (K := ceil_between V U U_pos e10 D1 D2 (N.of_nat n) d' z' ltac:(lia) L B). rewrite nat_N_Z in K.
    destruct (convex (scaled_num d' z') (scaled_den z') (scaled_num (fl x (zz n) + 1) (zz n)) (scaled_den (zz n)) x (tp _) (tp _) R) as [R2 D].
    { right. split; [exact K|]. unfold above in F2. unfold scaled_num, scaled_den. lia. }
    split; [exact R2|]. unfold no_worse. apply Z.le_lteq in D. destruct D as [D|D]; [left; exact D | right; split; [exact D|]].
    rewrite !scaled_distance in D. unfold above in F2. unfold scaled_num, scaled_den in *.
    set (f := fl x (zz n) + 1) in *. set (u1 := up (zz n)) in *. set (t1 := dn (zz n)) in *. set (u2 := up z') in *. set (t2 := dn z') in *.
    pose proof U_pos as Up0. set (u := U) in *. set (v := V) in *. clearbody f u1 t1 u2 t2 u v. clear -D F2 B Up0.
    assert (Q : f * (u * u1) * t2 = d' * (u * u2) * t1) by nia. assert (u * (f * u1 * t2) = u * (d' * u2 * t1)) by lia. nia.
Qed.
(** The nearer one first; the one above if they are equally near. *)
Definition first (n : nat) : N := if 2 * (V * dn (zz n) mod (U * up (zz n))) <? U * up (zz n) then fl x (zz n) else fl x (zz n) + 1.
Definition second (n : nat) : N := if 2 * (V * dn (zz n) mod (U * up (zz n))) <? U * up (zz n) then fl x (zz n) + 1 else fl x (zz n).
Lemma first_near : forall n, (dist (first n) (zz n) <= dist (second n) (zz n))%Z /\ (2 * dist (first n) (zz n) <= Z.of_N (U * up (zz n)))%Z /\
  (first n = fl x (zz n) /\ second n = fl x (zz n) + 1 /\ (dist (first n) (zz n) < dist (second n) (zz n))%Z \/ first n = fl x (zz n) + 1 /\ second n = fl x (zz n)).
Proof.
  intro n. rewrite !scaled_distance. unfold first, second, floor. set (b := U * up (zz n)). assert (Bp : 0 < b) by (pose proof (tp (Z.to_N (zz n))); pose proof U_pos; unfold b; clear Big Small Digits; nia).
  rewrite (N.mul_comm (dn (zz n))). set (a := V * dn (zz n)). clearbody a b. assert (D := N.div_mod a b ltac:(lia)). assert (M := N.mod_lt a b ltac:(lia)).
  set (q := a / b) in *. set (r := a mod b) in *. clearbody q r. clear Big Small Digits.
  assert (Q : b * (q + 1) = b * q + b) by ring.
  destruct (N.ltb_spec (2 * r) b) as [K|K]; rewrite ?(N.mul_comm q b), ?(N.mul_comm (q + 1) b), ?Q; lia.
Qed.
Lemma first_second : forall n c, (c = fl x (zz n) \/ c = fl x (zz n) + 1) <-> (c = first n \/ c = second n).
Proof. intros n c. unfold first, second. destruct (_ <? _); tauto. Qed.
Lemma seventeen : reading (first 17) (zz 17).
Proof.
  apply close_enough; [apply N.lt_le_incl; exact X1| |rewrite <- scaled_distance; apply first_near].
  destruct (fl_digits 17 ltac:(lia)) as [F _]. change (N.of_nat 17 - 1) with 16 in F. destruct (floor_spec V U U_pos (zz 17)) as [F1 _]. unfold below in F1.
  set (b := U * up (zz 17)) in *. assert (Bp : 0 < b) by (pose proof (tp (Z.to_N (zz 17))); pose proof U_pos; unfold b; clear Big Small Digits; nia).
  eapply N.lt_le_trans; [|exact F1]. eapply N.lt_le_trans; [|apply N.mul_le_mono_r; exact F]. apply N.mul_lt_mono_pos_r; [exact Bp | exact Digits].
Qed.
(** What a candidate is written as. *)
Definition rep (n : nat) (c : N) : N * Z := if c =? 10 ^ N.of_nat n then (1, (e10 + 1)%Z) else (c, zz n).
Definition cand_text (n : nat) (c : N) : str := let (d, z) := rep n c in plain_decimal d (Z.to_N z) (Z.to_N (- z)).
Lemma candidates_eq : forall n, candidates V U n = [cand_text n (first n); cand_text n (second n)].
Proof.
  intro n. unfold candidates. fold (fl x (zz n)). unfold first, second. destruct (_ <? _); cbn [map]; unfold cand_text, rep;
    repeat match goal with |- context [?a =? 10 ^ N.of_nat n] => destruct (a =? 10 ^ N.of_nat n) end; reflexivity.
Qed.
Lemma rep_value : forall n c, reading (fst (rep n c)) (snd (rep n c)) <-> reading c (zz n).
Proof.
  intros n c. unfold rep. destruct (N.eqb_spec c (10 ^ N.of_nat n)) as [->|Ne]; [|reflexivity]. cbn [fst snd].
  assert (Q : scaled_num 1 (e10 + 1) * scaled_den (zz n) = scaled_num (10 ^ N.of_nat n) (zz n) * scaled_den (e10 + 1)).
  { unfold scaled_num, scaled_den. rewrite N.mul_1_l, (cross (zz n) (e10 + 1)) by lia. replace (Z.to_N (e10 + 1 - zz n)) with (N.of_nat n) by lia. ring. }
  split; intro H; [apply (same_value _ _ _ _ _ (tp _) (tp _) Q) in H | apply (same_value _ _ _ _ _ (tp _) (tp _) (eq_sym Q)) in H]; exact (proj1 H).
Qed.
Lemma cand_plain : forall n c, plain_text (cand_text n c) (fst (rep n c)) (snd (rep n c)).
Proof. intros n c. unfold cand_text. destruct (rep n c) as [d z]. apply (text_of_plain). Qed.
Lemma cand_reads : forall n c, reads_as p w x (cand_text n c) = true <-> reading c (zz n).
Proof. intros n c. rewrite <- rep_value. apply plain_reads_iff, cand_plain. Qed.
(** A candidate that reads is found if there is any decimal with so few digits. *)
Lemma find_any : forall n d' z', d' < 10 ^ N.of_nat n -> reading d' z' -> find (reads_as p w x) (candidates V U n) <> None.
Proof.
  intros n d' z' L R K. destruct (floor_or_ceil n d' z' L R) as (_ & c & C & Rc & _). assert (C' : c = first n \/ c = second n) by (apply first_second; destruct C as [[C _]|C]; [left | right]; exact C).
  apply cand_reads in Rc.
  rewrite candidates_eq in K. cbn [find] in K. destruct (reads_as p w x (cand_text n (first n))) eqn:K1; [discriminate K|].
  destruct (reads_as p w x (cand_text n (second n))) eqn:K2; [discriminate K|]. destruct C' as [->| ->]; congruence.
Qed.
Lemma find_best : forall n t, find (reads_as p w x) (candidates V U n) = Some t -> exists c, t = cand_text n c /\ (c = fl x (zz n) \/ c = fl x (zz n) + 1) /\ reading c (zz n) /\
  forall d' z', d' < 10 ^ N.of_nat n -> reading d' z' -> no_worse p w x c (zz n) d' z'.
Proof.
  intros n t H. rewrite candidates_eq in H. cbn [find] in H. destruct (reads_as p w x (cand_text n (first n))) eqn:K1.
  - injection H as <-. exists (first n). split; [reflexivity|]. split; [apply first_second; left; reflexivity|]. split; [apply cand_reads; exact K1|].
    intros d' z' L R. destruct (floor_or_ceil n d' z' L R) as (_ & c & C & Rc & D). destruct (N.eq_dec c (first n)) as [<-|Ne]; [exact D|].
    assert (C' : c = first n \/ c = second n) by (apply first_second; destruct C as [[C _]|C]; [left | right]; exact C). destruct C' as [C'|C']; [destruct (Ne C')|]. subst c.
    destruct (first_near n) as (G1 & _ & [(E1 & E2 & G2)|(E1 & E2)]).
    + left. assert (D2 : (dist (second n) (zz n) * Z.of_N (scaled_den z') <= dist d' z' * Z.of_N (scaled_den (zz n)))%Z) by (destruct D as [D|[D _]]; clear -D; lia).
      eapply Z.lt_le_trans; [|exact D2]. apply Z.mul_lt_mono_pos_r; [|exact G2]. assert (K := tp (Z.to_N (- z'))). unfold scaled_den. clear -K. lia.
    + destruct C as [[_ C]|C]; [|exfalso; clear -C E2; lia].
      assert (D2 : (dist (second n) (zz n) * Z.of_N (scaled_den z') <= dist d' z' * Z.of_N (scaled_den (zz n)))%Z) by (destruct D as [D|[D _]]; clear -D; lia).
      assert (D3 : (dist (first n) (zz n) * Z.of_N (scaled_den z') <= dist (second n) (zz n) * Z.of_N (scaled_den z'))%Z) by (apply Z.mul_le_mono_nonneg_r; [clear; lia | exact G1]).
      unfold no_worse. assert (D4 := Z.le_trans _ _ _ D3 D2). apply Z.le_lteq in D4. destruct D4 as [D4|D4]; [left; exact D4|]. right. split; [exact D4|].
      rewrite E1. rewrite E2 in C. eapply N.le_trans; [exact C|]. apply N.mul_le_mono_r. unfold scaled_num. apply N.mul_le_mono_r. clear. lia.
  - destruct (reads_as p w x (cand_text n (second n))) eqn:K2; [|discriminate H]. injection H as <-. exists (second n). split; [reflexivity|].
    split; [apply first_second; right; reflexivity|]. split; [apply cand_reads; exact K2|].
    intros d' z' L R. destruct (floor_or_ceil n d' z' L R) as (_ & c & C & Rc & D).
    assert (C' : c = first n \/ c = second n) by (apply first_second; destruct C as [[C _]|C]; [left | right]; exact C). destruct C' as [->| ->]; [|exact D].
    apply cand_reads in Rc. congruence.
Qed.
Lemma fewest : exists t d z, find (reads_as p w x) (flat_map (candidates V U) (seq 1 17)) = Some t /\ plain_text t d z /\ shortest p w x d z.
Proof.
  destruct (find (reads_as p w x) (flat_map (candidates V U) (seq 1 17))) as [t|] eqn:F.
  2:{ exfalso. assert (K := find_none _ _ F (cand_text 17 (first 17))). rewrite (proj2 (cand_reads 17 (first 17)) seventeen) in K. discriminate K.
      apply in_flat_map. exists 17%nat. split; [apply in_seq; clear; lia|]. rewrite candidates_eq. left. reflexivity. }
  apply find_flat_map in F. destruct F as (l1 & n & l2 & Q & Before & Fn).
  assert (Nn : n = S (List.length l1)).
  { assert (E := f_equal (fun l => nth (List.length l1) l 0%nat) Q). cbn beta in E. rewrite nth_middle in E.
    assert (List.length l1 < 17)%nat. { apply (f_equal (@List.length nat)) in Q. rewrite app_length, seq_length in Q. cbn [List.length] in Q. clear Big Small Digits. lia. }
    rewrite seq_nth in E by assumption. symmetry. exact E. }
  assert (Prev : forall m, (1 <= m < n)%nat -> find (reads_as p w x) (candidates V U m) = None).
  { intros m M. apply Before. assert (E := f_equal (fun l => firstn (List.length l1) l) Q). cbn beta in E. rewrite firstn_app, firstn_all, Nat.sub_diag, firstn_O, app_nil_r in E.
    assert (Ln : (List.length l1 <= 17)%nat). { apply (f_equal (@List.length nat)) in Q. rewrite app_length, seq_length in Q. cbn [List.length] in Q. clear Big Small Digits. lia. }
    rewrite <- E. replace 17%nat with (List.length l1 + (17 - List.length l1))%nat by (clear -Ln; lia). rewrite seq_app, firstn_app, seq_length, Nat.sub_diag, firstn_O, app_nil_r.
    rewrite firstn_all2 by (rewrite seq_length; clear; lia). apply in_seq. clear -M Nn. lia. }
  destruct (find_best n t Fn) as (c & -> & C & R & Best). exists (cand_text n c), (fst (rep n c)), (snd (rep n c)).
  split; [reflexivity|]. split; [apply cand_plain|]. split; [apply rep_value; exact R|].
  assert (Least : forall m d' z', d' < 10 ^ m -> reading d' z' -> N.of_nat n <= m).
  { intros m d' z' L R'. apply N.nlt_ge. intro K. rewrite <- (N2Nat.id m) in L. destruct (floor_or_ceil _ _ _ L R') as (M1 & _). apply (find_any _ _ _ L R'), Prev. clear -K M1. lia. }
  intros m d' z' L R'. assert (Lm := Least m d' z' L R'). destruct (fl_digits n ltac:(clear -Nn; lia)) as [G1 G2].
  assert (Pm : 10 ^ N.of_nat n <= 10 ^ m) by (apply N.pow_le_mono_r; [clear; lia | exact Lm]).
  unfold rep. destruct (N.eqb_spec c (10 ^ N.of_nat n)) as [Ec|Ne]; cbn [fst snd].
  - assert (N1 : n = 1%nat).
    { assert (Rv : reading 1 (e10 + 1)). { assert (K := proj2 (rep_value n c) R). unfold rep in K. apply N.eqb_eq in Ec. rewrite Ec in K. exact K. }
      assert (K := Least 1 1 (e10 + 1)%Z ltac:(clear; lia) Rv). clear -K Nn. lia. }
    clear Nn. subst n. change (10 ^ N.of_nat 1) with 10 in *. split; [clear -Pm; lia|]. intro Up1. assert (m = 1).
    { apply N.le_antisymm; [|exact Lm]. apply N.nlt_ge. intro K. assert (10 ^ 2 <= 10 ^ m) by (apply N.pow_le_mono_r; clear -K; lia). change (10 ^ 2) with 100 in *. clear -H Up1. lia. }
    subst m. assert (B := Best d' z' L R'). subst c.
    assert (Q1 : scaled_num 1 (e10 + 1) * scaled_den (zz 1) = scaled_num 10 (zz 1) * scaled_den (e10 + 1)).
    { unfold scaled_num, scaled_den. rewrite N.mul_1_l, (cross (zz 1) (e10 + 1)) by (clear; lia). replace (Z.to_N (e10 + 1 - zz 1)) with 1 by (clear; lia). rewrite N.pow_1_r. ring. }
    assert (E := proj2 (same_value (scaled_num 10 (zz 1)) (scaled_den (zz 1)) (scaled_num 1 (e10 + 1)) (scaled_den (e10 + 1)) x (tp _) (tp _) (eq_sym Q1) R)).
    assert (P1 : 0 < scaled_den (zz 1)) by apply tp. assert (P2 : 0 < scaled_den (e10 + 1)) by apply tp. unfold no_worse in *.
    clear -E B P1 P2 Q1. set (a := dist 1 (e10 + 1)) in *. set (b := dist 10 (zz 1)) in *. set (f := dist d' z') in *.
    set (d1 := scaled_den (zz 1)) in *. set (d2 := scaled_den (e10 + 1)) in *. set (d3 := scaled_den z') in *.
    set (n1 := scaled_num 1 (e10 + 1)) in *. set (n2 := scaled_num 10 (zz 1)) in *. set (n3 := scaled_num d' z') in *. clearbody a b f d1 d2 d3 n1 n2 n3.
    assert (A : (a * Z.of_N d3 * Z.of_N d1 = b * Z.of_N d3 * Z.of_N d2)%Z) by nia.
    destruct B as [B|[B1 B2]]; [left; nia|]. right. split; [nia|].
    assert (n1 * d3 * d1 = n2 * d3 * d2) by nia. nia.
  - assert (Cl : c < 10 ^ N.of_nat n) by (clear -C Ne G2; lia). split; [clear -Cl Pm; lia|]. intro Up1. apply Best; [|exact R'].
    assert (m = N.of_nat n); [|subst m; exact L]. apply N.le_antisymm; [|exact Lm]. apply N.nlt_ge. intro K.
    assert (10 ^ (N.of_nat n + 1) <= 10 ^ m) by (apply N.pow_le_mono_r; clear -K; lia). rewrite N.pow_add_r, N.pow_1_r in H. set (a := 10 ^ N.of_nat n) in *. set (b := 10 ^ m) in *. clearbody a b. clear -H Up1 Cl. lia.
Qed.
Lemma show_magnitude_find : show_magnitude p w x = match find (reads_as p w x) (flat_map (candidates V U) (seq 1 17)) with Some t => t | None => exact p w (if x / 2 ^ p =? 0 then x else 2 ^ p + x mod 2 ^ p) (x / 2 ^ p - 1) end.
Proof.
  unfold show_magnitude. assert (B : (INF <=? x) = false) by (apply N.leb_gt; exact X1). rewrite B. cbv zeta.
  assert (Pp := pow_pos 2 p ltac:(clear; lia)).
  assert (Q : (if x / 2 ^ p =? 0 then x else 2 ^ p + x mod 2 ^ p) * 2 ^ (x / 2 ^ p - 1) = V).
  { unfold magnitude. destruct (N.ltb_spec x (2 ^ p)) as [L|L]; [rewrite N.div_small by exact L; cbn; apply N.mul_1_r|].
    assert (H : x / 2 ^ p <> 0) by (intro H; apply N.div_small_iff in H; clear -H L Pp; lia). apply N.eqb_neq in H. rewrite H. reflexivity. }
  assert (M : ((if x / 2 ^ p =? 0 then x else 2 ^ p + x mod 2 ^ p) =? 0) = false).
  { apply N.eqb_neq. destruct (x / 2 ^ p =? 0); clear -X0 Pp; lia. }
  rewrite M, Q. reflexivity.
Qed.
Lemma magnitude_printed : printed_magnitude p w x (show_magnitude p w x).
Proof.
  right. right. split; [exact X0|]. split; [exact X1|]. rewrite show_magnitude_find. destruct fewest as (t & d & z & -> & T & Sh). exists d, z. split; assumption.
Qed.
End Candidates.
End Float.
