(** * Lemmas for C60: rounding *)
From Coq Require Import List NArith ZArith Bool Ascii String Lia.
From Coq Require Import ZifyBool ZifyNat ZifyN.
From Verif Require Import Str Num Net Types Ext Ext0 StrLemmas NumLemmas PExt0 SpecFloat.
Import ListNotations.
Open Scope N_scope.
Open Scope list_scope.

(** ** Digits and texts *)
Lemma ten_pos : forall n, 0 < 10 ^ n. Proof. intro n. apply pow_pos. lia. Qed.
Lemma number_value : forall ds, number ds = digits_value ds.
Proof.
  intro ds. unfold number, digits_value. generalize 0. induction ds as [|c ds IH]; intro n; [reflexivity|]. cbn [fold_left]. rewrite IH. f_equal. lia.
Qed.
Lemma digit_iff : forall c, digit c <-> is_digit c = true. Proof. intro c. unfold digit, is_digit. lia. Qed.
Lemma digits_iff : forall ds, Forall digit ds <-> forallb is_digit ds = true.
Proof. intro ds. rewrite forallb_forall, Forall_forall. split; intros H c I; apply digit_iff, H, I. Qed.
Lemma value_bound : forall ds, Forall digit ds -> digits_value ds < 10 ^ N.of_nat (List.length ds).
Proof.
  intro ds. induction ds as [|c ds IH] using rev_ind; intro F; [reflexivity|]. apply Forall_app in F. destruct F as [F1 F2].
  rewrite digits_value_app, app_length, Nat2N.inj_add, N.pow_add_r. cbn [List.length]. change (10 ^ N.of_nat 1) with 10.
  assert (c - 48 < 10) by (pose proof (Forall_inv F2) as K; unfold digit in K; lia). change (digits_value [c]) with (0 * 10 + (c - 48)). specialize (IH F1). lia.
Qed.
Lemma take_digits_split : forall s d r, take_digits s = (d, r) -> s = d ++ r /\ Forall digit d /\ match r with c :: _ => is_digit c = false | [] => True end.
Proof.
  induction s as [|c s IH]; intros d r H; cbn [take_digits] in H; [injection H as <- <-; repeat split; constructor|].
  destruct (is_digit c) eqn:Dc.
  - destruct (take_digits s) as [d1 r1]. injection H as <- <-. destruct (IH _ _ eq_refl) as (-> & F & K). split; [reflexivity|]. split; [|exact K].
    constructor; [apply digit_iff; exact Dc | exact F].
  - injection H as <- <-. split; [reflexivity|]. split; [constructor | exact Dc].
Qed.
Lemma take_all : forall d, Forall digit d -> take_digits d = (d, []).
Proof. intros d F. rewrite <- (app_nil_r d) at 1. apply take_digits_app; [apply digits_iff; exact F | exact I]. Qed.
Lemma exponent_iff : forall x z, exponent x = Some z <-> exponent_text x z.
Proof.
  intros x z. unfold exponent_text. split.
  - intro H. destruct x as [|e t]; cbn [exponent] in H; [injection H as <-; left; split; reflexivity|]. right.
    destruct ((e =? 101) || (e =? 69)) eqn:K; [|discriminate H].
    assert (Ee : e = 101 \/ e = 69) by lia. clear K.
    assert (G : forall sg ds0 (neg : bool), match take_digits ds0 with ([], _) | (_, _ :: _) => None | (ds, []) => Some (if neg then (- Z.of_N (digits_value ds))%Z else Z.of_N (digits_value ds)) end = Some z ->
      t = sg ++ ds0 -> ds0 <> [] /\ Forall digit ds0 /\ z = if neg then (- Z.of_N (number ds0))%Z else Z.of_N (number ds0)).
    { intros sg ds0 neg Q _. destruct (take_digits ds0) as [ds r] eqn:T. apply take_digits_split in T. destruct T as (-> & F & _).
      destruct ds as [|c ds]; [discriminate Q|]. destruct r; [|discriminate Q]. injection Q as <-. rewrite app_nil_r, number_value. split; [discriminate|]. split; [exact F | reflexivity]. }
    destruct t as [|d t]; [discriminate H|]. destruct (N.eqb_spec d 45) as [->|N1]; [|destruct (N.eqb_spec d 43) as [->|N2]].
    + destruct (G [45] t true H eq_refl) as (A & B & C). exists e, [45], t. split; [reflexivity|]. split; [exact Ee|]. split; [exact A|]. split; [exact B|].
      right. right. split; [reflexivity | exact C].
    + destruct (G [43] t false H eq_refl) as (A & B & C). exists e, [43], t. split; [reflexivity|]. split; [exact Ee|]. split; [exact A|]. split; [exact B|].
      right. left. split; [reflexivity | exact C].
    + destruct (G [] (d :: t) false H eq_refl) as (A & B & C). exists e, [], (d :: t). split; [reflexivity|]. split; [exact Ee|]. split; [exact A|]. split; [exact B|].
      left. split; [reflexivity | exact C].
  - intros [[-> ->]|(e & sign & ds & -> & Ee & Ne & F & S0)]; [reflexivity|]. cbn [exponent].
    replace ((e =? 101) || (e =? 69)) with true by lia.
    destruct ds as [|c ds]; [destruct (Ne eq_refl)|]. assert (T := take_all _ F). pose proof (Forall_inv F) as Dc. unfold digit in Dc.
    destruct S0 as [[-> ->]|[[-> ->]|[-> ->]]]; cbn [app].
    + replace (c =? 45) with false by lia. replace (c =? 43) with false by lia. rewrite T, number_value. reflexivity.
    + change (43 =? 45) with false. change (43 =? 43) with true. cbn iota. rewrite T, number_value. reflexivity.
    + change (45 =? 45) with true. cbn iota. rewrite T, number_value. reflexivity.
Qed.
Lemma word_iff : forall u, Forall (fun d => 97 <= d /\ d <= 122) u -> forall t, word t u <-> map ascii_lower t = u.
Proof.
  intros u F t. split.
  - intro H. induction H as [|c d t u K _ IH]; [reflexivity|]. cbn [map]. rewrite (IH (Forall_inv_tail F)). f_equal.
    pose proof (Forall_inv F) as D. cbn in D. unfold ascii_lower. destruct ((65 <=? c) && (c <=? 90)) eqn:Q; lia.
  - intros <-. induction t as [|c t IH]; [constructor|]. constructor; [|apply IH; exact (Forall_inv_tail F)].
    pose proof (Forall_inv F) as D. cbn in D. unfold ascii_lower in *. destruct ((65 <=? c) && (c <=? 90)) eqn:Q; lia.
Qed.
Lemma inf_word : forall t, word t (lit "inf") <-> map ascii_lower t = lit "inf".
Proof. apply word_iff. repeat constructor; discriminate. Qed.
Lemma infinity_word : forall t, word t (lit "infinity") <-> map ascii_lower t = lit "infinity".
Proof. apply word_iff. repeat constructor; discriminate. Qed.
Lemma nan_word : forall t, word t (lit "nan") <-> map ascii_lower t = lit "nan".
Proof. apply word_iff. repeat constructor; discriminate. Qed.
Lemma exponent_head : forall x z, exponent_text x z -> match x with [] => True | c :: _ => is_digit c = false /\ c <> 46 end.
Proof. intros x z [[-> _]|(e & sign & ds & -> & [->| ->] & _)]; [exact I | |]; (split; [reflexivity | discriminate]). Qed.
Lemma decimal_head : forall t d z, decimal_text t d z -> exists c r, t = c :: r /\ (digit c \/ c = 46).
Proof.
  intros t d z (i & f & x & ez & R & Fi & Ff & Ne & _). destruct i as [|c i].
  - destruct R as [[-> ->]| ->]; [destruct (Ne eq_refl)|]. eexists. eexists. split; [reflexivity | right; reflexivity].
  - destruct R as [[-> ->]| ->]; exists c; eexists; (split; [reflexivity | left; exact (Forall_inv Fi)]).
Qed.

Section Float.
Variables p w : N.
Hypothesis P : 1 <= p.
Hypothesis W : 2 <= w.
Notation INF := (inf p w).
Notation mag := (magnitude p).

(** ** Patterns and magnitudes *)
Lemma two_p : 2 ^ (p + 1) = 2 * 2 ^ p. Proof. rewrite N.add_1_r. apply N.pow_succ_r'. Qed.
Lemma pp : 0 < 2 ^ p. Proof. apply pow_pos; lia. Qed.
Lemma mag_pattern : forall k m, m <= 2 ^ (p + 1) -> k = 0 \/ 2 ^ p <= m -> mag (k * 2 ^ p + m) = m * 2 ^ k.
Proof.
  intros k m M K. rewrite two_p in M. pose proof pp as H. unfold magnitude. destruct (N.ltb_spec (k * 2 ^ p + m) (2 ^ p)) as [L|L].
  - assert (k = 0) by nia. subst k. cbn. lia.
  - destruct (N.eq_dec m (2 * 2 ^ p)) as [->|Ne].
    + replace (k * 2 ^ p + 2 * 2 ^ p) with ((k + 2) * 2 ^ p) by ring. rewrite N.mod_mul, N.div_mul by lia.
      replace (k + 2 - 1) with (N.succ k) by lia. rewrite N.pow_succ_r'. ring.
    + assert (Km : 2 ^ p <= m) by (destruct K as [->|K]; lia).
      assert (Q : k * 2 ^ p + m = (k + 1) * 2 ^ p + (m - 2 ^ p)) by lia.
      rewrite Q, (N.add_comm ((k + 1) * 2 ^ p)), N.mod_add, N.div_add by lia.
      rewrite N.mod_small, N.div_small by lia. replace (0 + (k + 1) - 1) with k by lia. f_equal. lia.
Qed.
Lemma pattern_of : forall y, exists k m, y = k * 2 ^ p + m /\ m < 2 ^ (p + 1) /\ (k = 0 \/ 2 ^ p <= m).
Proof.
  intro y. pose proof pp as H. rewrite two_p. destruct (N.ltb_spec y (2 ^ p)) as [L|L]; [exists 0, y; lia|].
  assert (D := N.div_mod y (2 ^ p) ltac:(lia)). assert (M := N.mod_lt y (2 ^ p) ltac:(lia)).
  assert (1 <= y / 2 ^ p). { apply N.div_le_lower_bound; lia. }
  exists (y / 2 ^ p - 1), (2 ^ p + y mod 2 ^ p). split; [|split; [lia | right; lia]]. nia.
Qed.
Lemma mag_step : forall y, mag y < mag (y + 1).
Proof.
  intro y. destruct (pattern_of y) as (k & m & -> & M & K). rewrite mag_pattern by lia.
  replace (k * 2 ^ p + m + 1) with (k * 2 ^ p + (m + 1)) by lia. rewrite mag_pattern by lia. pose proof (pow_pos 2 k). nia.
Qed.
Lemma mag_lt : forall x y, x < y -> mag x < mag y.
Proof.
  intros x y H. replace y with (x + 1 + (y - x - 1)) by lia. generalize (y - x - 1). intro n. induction n as [|n IH] using N.peano_ind.
  - rewrite N.add_0_r. apply mag_step.
  - replace (x + 1 + N.succ n) with (x + 1 + n + 1) by lia. eapply N.lt_trans; [exact IH | apply mag_step].
Qed.
Lemma mag_le : forall x y, x <= y -> mag x <= mag y.
Proof. intros x y H. destruct (N.eq_dec x y) as [->|Ne]; [lia|]. apply N.lt_le_incl, mag_lt. lia. Qed.
Lemma mag_inj : forall x y, mag x = mag y -> x = y.
Proof. intros x y H. destruct (N.lt_trichotomy x y) as [L|[L|L]]; [apply mag_lt in L; lia | exact L | apply mag_lt in L; lia]. Qed.
Lemma mag_0 : mag 0 = 0. Proof. unfold magnitude. pose proof pp. destruct (N.ltb_spec 0 (2 ^ p)); [reflexivity | lia]. Qed.
Lemma w_pow4 : 4 <= 2 ^ w. Proof. change 4 with (2 ^ 2). apply N.pow_le_mono_r; lia. Qed.
Lemma mag_inf : mag INF = 2 ^ (p + 1 + (2 ^ w - 3)).
Proof.
  unfold inf. pose proof w_pow4. replace ((2 ^ w - 1) * 2 ^ p) with ((2 ^ w - 3) * 2 ^ p + 2 ^ (p + 1)) by (rewrite two_p; nia).
  rewrite mag_pattern; [rewrite <- N.pow_add_r; reflexivity | lia | right; rewrite two_p; lia].
Qed.

(** ** Nearest *)
Notation dist := (distance p w).
Lemma div_even_near : forall a b j, 0 < b ->
  (Z.abs (Z.of_N a - Z.of_N (b * div_even a b)) <= Z.abs (Z.of_N a - Z.of_N (b * j)))%Z /\
  (Z.abs (Z.of_N a - Z.of_N (b * div_even a b)) = Z.abs (Z.of_N a - Z.of_N (b * j)) -> j <> div_even a b -> N.even (div_even a b) = true)%Z.
Proof.
  intros a b j B. unfold div_even. assert (D := N.div_mod a b ltac:(lia)). assert (M := N.mod_lt a b ltac:(lia)).
  set (q := a / b) in *. set (r := a mod b) in *. clearbody q r. 
  assert (J : j <= q /\ b * j <= b * q /\ (j < q -> b * j + b <= b * q) \/ q + 1 <= j /\ b * q + b <= b * j /\ (q + 1 < j -> b * q + 2 * b <= b * j)) by (destruct (N.le_gt_cases j q); [left | right]; repeat split; nia).
  assert (Q1 : b * (q + 1) = b * q + b) by ring.
  destruct ((2 * r <? b) || (2 * r =? b) && N.even q) eqn:K.
  - split; [lia|]. intros Q Ne. destruct (N.even q) eqn:Ev; [reflexivity|]. exfalso. lia.
  - rewrite Q1. split; [lia|]. intros Q Ne. rewrite N.even_add. change (N.even 1) with false. destruct (N.even q) eqn:Ev; [|reflexivity]. exfalso. lia.
Qed.
Lemma scale_some : forall f num den j k, scale p f num den j = Some k ->
  j <= k /\ k < j + N.of_nat f /\ num < den * 2 ^ (p + 1 + k) /\ (k = j \/ den * 2 ^ (p + k) <= num).
Proof.
  induction f as [|f IH]; intros num den j k H; [discriminate H|]. cbn [scale] in H. destruct (N.ltb_spec num (den * 2 ^ (p + 1 + j))) as [L|L].
  - injection H as <-. split; [lia|]. split; [lia|]. split; [exact L | left; reflexivity].
  - apply IH in H. destruct H as (A & B & C & D). split; [lia|]. split; [lia|]. split; [exact C|]. right.
    destruct D as [->|D]; [|exact D]. replace (p + (j + 1)) with (p + 1 + j) by lia. exact L.
Qed.
Lemma scale_none : forall f num den j, scale p f num den j = None -> forall i, (i < f)%nat -> den * 2 ^ (p + 1 + (j + N.of_nat i)) <= num.
Proof.
  induction f as [|f IH]; intros num den j H i I; [lia|]. cbn [scale] in H. destruct (N.ltb_spec num (den * 2 ^ (p + 1 + j))) as [L|L]; [discriminate H|].
  destruct i as [|i]; [rewrite N.add_0_r; exact L|]. replace (j + N.of_nat (S i)) with (j + 1 + N.of_nat i) by lia. apply (IH _ _ _ H). lia.
Qed.
Lemma near_inf : forall num den, 0 < den -> den * mag INF <= num * 2 ^ unit_exp p w -> nearest p w num den INF.
Proof.
  intros num den D H. split; [apply N.le_refl|]. intros y Y. change (infinity p w) with INF in Y. unfold distance.
  assert (M := mag_le _ _ Y). assert (L : den * mag y <= den * mag INF) by (apply N.mul_le_mono_l; exact M).
  split; [lia|]. intros Q Ne. exfalso. apply Ne, mag_inj. apply (N.mul_cancel_l _ _ den); lia.
Qed.
Lemma round_nearest : forall num den, 0 < den -> nearest p w num den (round p w num den).
Proof.
  intros num den D. unfold round. change (off p w) with (unit_exp p w). set (A := num * 2 ^ unit_exp p w).
  destruct (scale p _ A den 0) as [k|] eqn:S0.
  - apply scale_some in S0. destruct S0 as (_ & Kf & Up & Lo).
    assert (Bp : 0 < den * 2 ^ k) by (pose proof (pow_pos 2 k); nia).
    assert (Dv := div_even_near A (den * 2 ^ k)). set (B := den * 2 ^ k) in *. set (q := div_even A B) in *.
    assert (E1 : den * 2 ^ (p + 1 + k) = B * 2 ^ (p + 1)) by (unfold B; rewrite N.pow_add_r; ring). rewrite E1 in Up.
    assert (E2 : den * 2 ^ (p + k) = B * 2 ^ p) by (unfold B; rewrite N.pow_add_r; ring). rewrite E2 in Lo.
    assert (D1 := N.div_mod A B ltac:(lia)). assert (M1 := N.mod_lt A B ltac:(lia)).
    assert (Q1 : A / B < 2 ^ (p + 1)) by (apply N.div_lt_upper_bound; lia).
    assert (Qle : q <= 2 ^ (p + 1)) by (unfold q, div_even; destruct (_ || _); lia).
    assert (Qge : k = 0 \/ 2 ^ p <= q).
    { destruct Lo as [->|Lo]; [left; reflexivity | right]. assert (2 ^ p <= A / B) by (apply N.div_le_lower_bound; lia). unfold q, div_even; destruct (_ || _); lia. }
    pose proof w_pow4 as W4. pose proof pp as Hp.
    assert (XI : k * 2 ^ p + q <= INF) by (unfold inf; rewrite two_p in Qle; nia).
    rewrite N.min_r by exact XI. split; [exact XI|]. intros y Y. unfold distance. fold A. rewrite (mag_pattern k q Qle Qge).
    replace (den * (q * 2 ^ k)) with (B * q) by (unfold B; ring).
    destruct (pattern_of y) as (ky & my & -> & My & Ky). rewrite (mag_pattern ky my) by lia.
    destruct (N.le_gt_cases k ky) as [Le|Gt].
    + assert (J : den * (my * 2 ^ ky) = B * (my * 2 ^ (ky - k))).
      { unfold B. replace ky with (k + (ky - k)) at 1 by lia. rewrite N.pow_add_r. ring. }
      rewrite J. destruct (Dv (my * 2 ^ (ky - k)) Bp) as [D2 D3]. split; [exact D2|]. intros Q Ne.
      rewrite N.even_add, N.even_mul, N.even_pow by lia. change (N.even 2) with true. rewrite orb_true_r.
      rewrite (D3 Q); [reflexivity|]. intro Q2. apply Ne, mag_inj. rewrite !mag_pattern by lia. rewrite <- Q2.
      replace ky with (k + (ky - k)) at 1 by lia. rewrite N.pow_add_r. ring.
    + destruct Lo as [->|Lo]; [lia|]. destruct (Dv (2 ^ p) Bp) as [D2 _].
      assert (L : den * (my * 2 ^ ky) < B * 2 ^ p).
      { unfold B. apply N.lt_le_trans with (den * (2 ^ (p + 1) * 2 ^ ky)).
        - pose proof (pow_pos 2 ky). nia.
        - rewrite <- N.mul_assoc, <- !N.pow_add_r. apply N.mul_le_mono_l, N.pow_le_mono_r; lia. }
      split; [lia|]. intros Q. exfalso. lia.
  - assert (Q : INF = N.min INF INF) by lia. apply near_inf; [exact D|]. fold A. rewrite mag_inf.
    pose proof w_pow4 as W4. assert (K := scale_none _ _ _ _ S0 (N.to_nat (2 ^ w - 3)) ltac:(lia)). rewrite N2Nat.id in K. exact K.
Qed.
Lemma nearest_unique : forall num den x y, 0 < den -> nearest p w num den x -> nearest p w num den y -> x = y.
Proof.
  assert (H : forall num den x y, 0 < den -> nearest p w num den x -> nearest p w num den y -> ~ x < y).
  { intros num den x y D [Xi Nx] [Yi Ny] L. destruct (Nx y Yi) as [A1 A2]. destruct (Ny x Xi) as [B1 B2].
    assert (Ex := A2 ltac:(lia) ltac:(lia)). assert (Ey := B2 ltac:(lia) ltac:(lia)).
    assert (x + 1 < y). { destruct (N.eq_dec (x + 1) y) as [<-|]; [|lia]. rewrite N.even_add, Ex in Ey. discriminate Ey. }
    destruct (Nx (x + 1) ltac:(lia)) as [C1 _]. unfold distance in *.
    assert (M1 := mag_lt x (x + 1) ltac:(lia)). assert (M2 := mag_lt (x + 1) y ltac:(lia)).
    assert (K1 : den * mag x < den * mag (x + 1)) by nia. assert (K2 : den * mag (x + 1) < den * mag y) by nia. lia. }
  intros num den x y D Nx Ny. destruct (N.lt_trichotomy x y) as [L|[L|L]]; [destruct (H num den x y D Nx Ny L) | exact L | destruct (H num den y x D Ny Nx L)].
Qed.
Lemma near_zero : forall num den, 2 * (num * 2 ^ unit_exp p w) < den -> nearest p w num den 0.
Proof.
  intros num den H. split; [apply N.le_0_l|]. intros y Y. unfold distance. rewrite mag_0, N.mul_0_r.
  destruct (N.eq_dec y 0) as [->|Ne]; [rewrite mag_0, N.mul_0_r; split; [lia|]; intros _ K; destruct (K eq_refl)|].
  assert (M := mag_lt 0 y ltac:(lia)). rewrite mag_0 in M. assert (den <= den * mag y) by nia. split; [lia|]. intro Q. exfalso. lia.
Qed.

(** ** Decimals *)
Hypothesis Big : mag INF <= 10 ^ 401 * 2 ^ unit_exp p w.
Hypothesis Small : 2 * 2 ^ unit_exp p w < 10 ^ 1100.
Lemma decimal_nearest : forall ds z, digits_value ds < 10 ^ N.of_nat (List.length ds) ->
  nearest p w (scaled_num (digits_value ds) z) (scaled_den z) (decimal p w ds z).
Proof.
  intros ds z L. unfold decimal, scaled_num, scaled_den. set (d := digits_value ds) in *.
  clearbody d. destruct (N.eqb_spec d 0) as [->|Nz]; [apply near_zero; rewrite !N.mul_0_l, N.mul_0_r; apply ten_pos|].
  destruct (Z.leb_spec 0 z) as [Hz|Hz].
  - replace (Z.to_N (- z)) with 0 by lia. rewrite N.pow_0_r. destruct (Z.ltb_spec 400 z) as [H4|H4]; [|apply round_nearest; lia].
    apply near_inf; [lia|]. eapply N.le_trans; [rewrite N.mul_1_l; exact Big|]. apply N.mul_le_mono_r.
    assert (10 ^ 401 <= 10 ^ Z.to_N z) by (apply N.pow_le_mono_r; lia). nia.
  - replace (Z.to_N z) with 0 by lia. rewrite N.pow_0_r, N.mul_1_r.
    destruct (Z.ltb_spec (Z.of_nat (List.length ds) + 1100) (- z)) as [H4|H4]; [|apply round_nearest, ten_pos].
    apply near_zero.
    replace (Z.to_N (- z)) with (N.of_nat (List.length ds) + 1100 + (Z.to_N (- z) - N.of_nat (List.length ds) - 1100)) by lia.
    rewrite !N.pow_add_r. set (t := 10 ^ (_ - 1100)). assert (0 < t) by apply ten_pos.
    set (b := 10 ^ N.of_nat (List.length ds)) in *. set (c := 10 ^ 1100) in *. set (u := 2 ^ unit_exp p w) in *. clearbody t b c u.
    assert (2 * (d * u) < b * c) by nia. nia.
Qed.
Definition body_number (s : str) : option N :=
    let (ip, r) := take_digits s in
    let (fp, r2) := match r with
                    | c :: r' => if c =? 46 then take_digits r' else ([], r)
                    | [] => ([], [])
                    end in
    match ip ++ fp, exponent r2 with
    | [], _ | _, None => None
    | ds, Some e => Some (decimal p w ds (e - Z.of_nat (List.length fp)))
    end.
Lemma body_number_iff : forall s x, body_number s = Some x <-> exists d z, decimal_text s d z /\ nearest p w (scaled_num d z) (scaled_den z) x.
Proof.
  intros s x. unfold body_number. split.
  - destruct (take_digits s) as [i r] eqn:T. apply take_digits_split in T. destruct T as (-> & Fi & Hr).
    intro H. assert (G : exists f r2, (match r with c :: r' => if c =? 46 then take_digits r' else ([], r) | [] => ([], []) end) = (f, r2) /\
      Forall digit f /\ (r = r2 /\ f = [] \/ r = 46 :: f ++ r2)).
    { destruct r as [|c r]; [exists [], []; split; [reflexivity|]; split; [constructor | left; split; reflexivity]|].
      destruct (N.eqb_spec c 46) as [->|Ne]; [|exists [], (c :: r); split; [reflexivity|]; split; [constructor | left; split; reflexivity]].
      destruct (take_digits r) as [f r2] eqn:T. apply take_digits_split in T. destruct T as (-> & Ff & _). exists f, r2.
      split; [reflexivity|]. split; [exact Ff | right; reflexivity]. }
    destruct G as (f & r2 & Q & Ff & R). rewrite Q in H. destruct (i ++ f) as [|c ds] eqn:I; [discriminate H|].
    destruct (exponent r2) as [ez|] eqn:X; [|discriminate H]. injection H as <-. apply exponent_iff in X.
    exists (number (c :: ds)), (ez - Z.of_nat (List.length f))%Z. split.
    + exists i, f, r2, ez. split; [destruct R as [[-> ->]| ->]; [left; split; reflexivity | right; reflexivity]|]. split; [exact Fi|]. split; [exact Ff|].
      rewrite I. split; [discriminate|]. split; [exact X|]. split; reflexivity.
    + rewrite number_value. apply decimal_nearest. apply value_bound. rewrite <- I. apply Forall_app. split; assumption.
  - intros (d & z & (i & f & r2 & ez & R & Fi & Ff & Ne & X & -> & ->) & Nr).
    assert (Hx := exponent_head _ _ X). apply exponent_iff in X.
    assert (D : Forall digit (i ++ f)) by (apply Forall_app; split; assumption).
    assert (U : x = decimal p w (i ++ f) (ez - Z.of_nat (List.length f))).
    { refine (nearest_unique _ _ _ _ _ Nr _); [apply ten_pos|]. rewrite number_value. apply decimal_nearest, value_bound, D. }
    destruct R as [[-> ->]| ->].
    + rewrite take_digits_app; [|apply digits_iff; exact Fi | destruct r2; [exact I | exact (proj1 Hx)]].
      assert (Q : match r2 with c :: r' => if c =? 46 then take_digits r' else ([], r2) | [] => ([], []) end = ([], r2)).
      { destruct r2 as [|c r2]; [reflexivity|]. destruct Hx as [_ Hx]. apply N.eqb_neq in Hx. rewrite Hx. reflexivity. }
      rewrite Q, X. destruct (i ++ []) as [|c ds] eqn:I; [destruct (Ne eq_refl)|]. rewrite U. reflexivity.
    + rewrite take_digits_app; [|apply digits_iff; exact Fi | reflexivity]. change (46 =? 46) with true. cbn iota.
      rewrite take_digits_app; [|apply digits_iff; exact Ff | destruct r2; [exact I | exact (proj1 Hx)]].
      rewrite X. destruct (i ++ f) as [|c ds] eqn:I; [destruct (Ne eq_refl)|]. rewrite U. reflexivity.
Qed.
Lemma magnitude_iff : forall t x, parse_body p w t = Some x <-> magnitude_text p w t x.
Proof.
  intros t x. unfold parse_body. fold (body_number t). unfold magnitude_text. change (infinity p w) with INF.
  rewrite inf_word, infinity_word, nan_word. change (INF + 2 ^ (p - 1)) with (nan p w).
  destruct (str_eqb (map ascii_lower t) (lit "inf") || str_eqb (map ascii_lower t) (lit "infinity")) eqn:K1.
  - apply orb_true_iff in K1. rewrite !str_eqb_eq in K1. split.
    + intro H. injection H as <-. left. split; [exact K1 | reflexivity].
    + intros [[_ ->]|[[K _]|(d & z & D & _)]]; [reflexivity | destruct K1 as [K1|K1]; rewrite K1 in K; discriminate K|].
      exfalso. destruct (decimal_head _ _ _ D) as (c & r & -> & Hc). destruct K1 as [K1|K1]; cbn [map] in K1; injection K1 as K1 _; unfold ascii_lower, digit in *; destruct ((65 <=? c) && (c <=? 90)) eqn:Q; lia.
  - apply orb_false_iff in K1. destruct K1 as [K1 K2]. destruct (str_eqb (map ascii_lower t) (lit "nan")) eqn:K3.
    + apply str_eqb_eq in K3. split.
      * intro H. injection H as <-. right. left. split; [exact K3 | reflexivity].
      * intros [[[K|K] _]|[[_ ->]|(d & z & D & _)]]; [rewrite K3 in K; discriminate K | rewrite K3 in K; discriminate K | reflexivity|].
        exfalso. destruct (decimal_head _ _ _ D) as (c & r & -> & Hc). cbn [map] in K3. injection K3 as K3 _. unfold ascii_lower, digit in *. destruct ((65 <=? c) && (c <=? 90)) eqn:Q; lia.
    + rewrite body_number_iff. split; [intro H; right; right; exact H|].
      intros [[[K|K] _]|[[K _]|H]]; [rewrite K in K1; discriminate K1 | rewrite K in K2; discriminate K2 | rewrite K in K3; discriminate K3 | exact H].
Qed.
Lemma text_head : forall t x, magnitude_text p w t x -> exists c r, t = c :: r /\ c <> 43 /\ c <> 45.
Proof.
  assert (Hw : forall t u, word t u -> Forall (fun d => 97 <= d /\ d <= 122) u -> u <> [] -> exists c r, t = c :: r /\ c <> 43 /\ c <> 45).
  { intros t u H F Ne. destruct H as [|c d t u K _]; [destruct (Ne eq_refl)|]. exists c, t. split; [reflexivity|]. pose proof (Forall_inv F) as D. cbn in D. lia. }
  intros t x [[[H|H] _]|[[H _]|(d & z & D & _)]].
  - apply (Hw _ _ H); [repeat constructor; discriminate | discriminate].
  - apply (Hw _ _ H); [repeat constructor; discriminate | discriminate].
  - apply (Hw _ _ H); [repeat constructor; discriminate | discriminate].
  - destruct (decimal_head _ _ _ D) as (c & r & -> & Hc). exists c, r. split; [reflexivity|]. unfold digit in Hc. lia.
Qed.
Lemma float_iff : forall s x, parse_float p w s = Ok x <-> float_text p w s x.
Proof.
  intros s x. unfold float_text. split.
  - intro H. destruct s as [|c s]; [discriminate H|]. cbn [parse_float] in H.
    destruct (N.eqb_spec c 45) as [->|N1]; [|destruct (N.eqb_spec c 43) as [->|N2]];
      match type of H with context [parse_body p w ?b] => destruct (parse_body p w b) as [m|] eqn:B; [|discriminate H]; injection H as <-; apply magnitude_iff in B end.
    + exists [45], s, m. split; [reflexivity|]. split; [exact B|]. right. right. split; reflexivity.
    + exists [43], s, m. split; [reflexivity|]. split; [exact B|]. right. left. split; reflexivity.
    + exists [], (c :: s), m. split; [reflexivity|]. split; [exact B|]. left. split; reflexivity.
  - intros (sign & t & m & -> & M & S0). assert (Hd := text_head _ _ M). apply magnitude_iff in M. destruct S0 as [[-> ->]|[[-> ->]|[-> ->]]].
    + destruct Hd as (c & r & -> & N1 & N2). cbn [app parse_float]. apply N.eqb_neq in N1, N2. rewrite N1, N2, M. reflexivity.
    + cbn [app parse_float]. change (43 =? 45) with false. change (43 =? 43) with true. cbn iota. rewrite M. reflexivity.
    + cbn [app parse_float]. change (45 =? 45) with true. cbn iota. rewrite M. reflexivity.
Qed.
Lemma float_err_iff : forall s e, parse_float p w s = Err e <-> (forall x, ~ float_text p w s x) /\ (s = [] /\ e = FloatEmpty \/ s <> [] /\ e = FloatInvalid).
Proof.
  intros s e. split.
  - intro H. split; [intros x K; apply float_iff in K; rewrite H in K; discriminate K|]. destruct s as [|c s]; [injection H as <-; left; split; reflexivity|].
    right. split; [discriminate|]. cbn [parse_float] in H. destruct (if c =? 45 then _ else _) as [neg body]. destruct (parse_body p w body); [discriminate H|]. injection H as <-. reflexivity.
  - intros [H K]. destruct (parse_float p w s) as [x|e'|] eqn:Q.
    + destruct (H x). apply float_iff. exact Q.
    + destruct s as [|c s]; [injection Q as <-; destruct K as [[_ ->]|[K _]]; [reflexivity | destruct (K eq_refl)]|].
      destruct K as [[K _]|[_ ->]]; [discriminate K|]. cbn [parse_float] in Q. destruct (if c =? 45 then _ else _) as [neg body]. destruct (parse_body p w body); [discriminate Q|]. injection Q as <-. reflexivity.
    + destruct (parse_float_returns p w s Q).
Qed.
End Float.
