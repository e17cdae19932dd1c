(** * Proofs: the concrete external components meet the hypotheses *)
From Coq Require Import List NArith ZArith Lia Bool Ascii String.
From Coq Require Import ZifyBool ZifyNat ZifyN.
From Verif Require Import Str Num Net Types Ext Ext0 StrLemmas NumLemmas NetLemmas.
Import ListNotations.
Open Scope N_scope.
Open Scope list_scope.

(** ** Digits *)
Lemma take_digits_app : forall d r, forallb is_digit d = true ->
  match r with c :: _ => is_digit c = false | [] => True end -> take_digits (d ++ r) = (d, r).
Proof.
  intros d r H R. induction d as [|c d IH]; cbn [app take_digits].
  - destruct r as [|c r]; [reflexivity|]. cbn [take_digits]. rewrite R. reflexivity.
  - cbn [forallb] in H. apply andb_prop in H. destruct H as [Hc H]. rewrite Hc, (IH H). reflexivity.
Qed.
Lemma digits_value_acc : forall ds acc, fold_left (fun acc c => acc * 10 + (c - 48)) ds acc =
  acc * 10 ^ N.of_nat (List.length ds) + digits_value ds.
Proof.
  intro ds. unfold digits_value. induction ds as [|c ds IH]; intro acc; cbn [fold_left List.length].
  - rewrite N.pow_0_r. lia.
  - rewrite (IH (acc * 10 + (c - 48))), (IH (0 * 10 + (c - 48))). rewrite Nat2N.inj_succ, N.pow_succ_r'. ring.
Qed.
Lemma digits_value_app : forall a b, digits_value (a ++ b) = digits_value a * 10 ^ N.of_nat (List.length b) + digits_value b.
Proof. intros a b. unfold digits_value at 1. rewrite fold_left_app. apply digits_value_acc. Qed.
Lemma digits_value_map : forall ds, Forall (fun d => d < 10) ds -> digits_value (map digit_lower ds) = pos_value 10 ds.
Proof.
  intros ds F. induction F as [|d ds Hd F IH]; [reflexivity|]. cbn [map]. change (digit_lower d :: map digit_lower ds) with ([digit_lower d] ++ map digit_lower ds).
  rewrite digits_value_app, IH. cbn [pos_value]. rewrite map_length. f_equal. f_equal.
  unfold digits_value. cbn [fold_left]. unfold digit_lower. destruct (d <? 10) eqn:K; lia.
Qed.
Lemma show_N_value : forall n, digits_value (show_N n) = n.
Proof. intro n. destruct (show_radix_spec digit_lower 10 n) as (ds & E & F & V & _); [lia|]. unfold show_N. rewrite E, digits_value_map; assumption. Qed.
Lemma digits_value_zeros : forall k ds, digits_value (repeat 48 k ++ ds) = digits_value ds.
Proof.
  intros k ds. rewrite digits_value_app. replace (digits_value (repeat 48 k)) with 0; [lia|].
  induction k as [|k IH]; [reflexivity|]. change (repeat 48 (S k)) with ([48] ++ repeat 48 k). rewrite digits_value_app, <- IH. reflexivity.
Qed.
Lemma show_N_digits : forall n, forallb is_digit (show_N n) = true.
Proof. intro n. exact (show_N_chars n). Qed.
Lemma pad0_digits : forall w n, forallb is_digit (pad0 w (show_N n)) = true.
Proof. intros w n. apply pad0_chars; [reflexivity | apply show_N_digits]. Qed.
Lemma show_N_short : forall n w, n < 10 ^ N.of_nat w -> (1 <= w)%nat -> (List.length (show_N n) <= w)%nat.
Proof. intros n w H W. apply show_radix_length; [lia | exact W | exact H]. Qed.

Section Float.
Variables p w : N.
Hypothesis P : 1 <= p.
Hypothesis W : 2 <= w.
Notation OFF := (off p w). Notation INF := (inf p w).

Lemma pow_pos : forall a b, a <> 0 -> 0 < a ^ b.
Proof. intros a b H. apply N.neq_0_lt_0, N.pow_nonzero, H. Qed.
Lemma w_pow : 4 <= 2 ^ w.
Proof. change 4 with (2 ^ 2). apply N.pow_le_mono_r; lia. Qed.
Lemma inf_lt : INF < 2 ^ (p + w).
Proof. unfold inf. rewrite N.pow_add_r. pose proof (pow_pos 2 p). pose proof w_pow. nia. Qed.
Lemma nan_lt : nan p w < 2 ^ (p + w).
Proof.
  unfold nan, inf. rewrite N.pow_add_r. pose proof (pow_pos 2 (p - 1)). pose proof w_pow.
  assert (E : 2 ^ p = 2 * 2 ^ (p - 1)). { rewrite <- N.pow_succ_r'. f_equal. lia. } rewrite E. nia.
Qed.
Lemma round_le : forall a b, round p w a b <= INF.
Proof. intros a b. unfold round. destruct scale; [|lia]. lia. Qed.
Lemma decimal_le : forall ds e, decimal p w ds e <= INF.
Proof.
  intros ds e. unfold decimal. repeat match goal with |- context [if ?b then _ else _] => destruct b end; try apply round_le; lia.
Qed.
Lemma body_lt : forall s x, parse_body p w s = Some x -> x < 2 ^ (p + w).
Proof.
  intros s x H. unfold parse_body in H. pose proof inf_lt. pose proof nan_lt.
  destruct (_ || _); [injection H as <-; assumption|]. destruct (str_eqb _ _); [injection H as <-; assumption|].
  destruct (take_digits s) as [ip r]. destruct (match r with [] => _ | _ => _ end) as [fp r2].
  destruct (ip ++ fp) as [|d ds]; [discriminate|]. destruct (exponent r2) as [e|]; [|discriminate]. injection H as <-.
  eapply N.le_lt_trans; [apply decimal_le | assumption].
Qed.

(** ** Rounding of representable values *)
Lemma scale_finds : forall k num den f j, num < den * 2 ^ (p + 1 + k) ->
  (forall i, i < k -> den * 2 ^ (p + 1 + i) <= num) -> j <= k -> k < j + N.of_nat f ->
  scale p f num den j = Some k.
Proof.
  intros k num den f. induction f as [|f IH]; intros j K L J F; [lia|]. cbn [scale].
  destruct (N.eq_dec j k) as [->|Ne].
  - apply N.ltb_lt in K. rewrite K. reflexivity.
  - pose proof (L j ltac:(lia)) as Lj. apply N.ltb_ge in Lj. rewrite Lj. apply IH; [exact K | exact L | lia | lia].
Qed.
Lemma round_exact : forall num den m k, 0 < den -> num * 2 ^ OFF = m * 2 ^ k * den -> m < 2 ^ (p + 1) ->
  (k = 0 \/ 2 ^ p <= m) -> k <= 2 ^ w - 3 -> round p w num den = k * 2 ^ p + m.
Proof.
  intros num den m k D Q M K Kw. unfold round.
  assert (Sc : scale p (N.to_nat (2 ^ w - 2)) (num * 2 ^ OFF) den 0 = Some k).
  { apply scale_finds; [| |lia|].
    - rewrite Q, N.pow_add_r. pose proof (pow_pos 2 k). nia.
    - intros i Hi. destruct K as [->|K]; [lia|]. rewrite Q.
      assert (E : 2 ^ p * 2 ^ k = 2 ^ (p + 1 + i) * 2 ^ (k - i - 1)).
      { rewrite <- !N.pow_add_r. f_equal. lia. }
      pose proof (pow_pos 2 (k - i - 1)). pose proof (pow_pos 2 (p + 1 + i)). pose proof (pow_pos 2 k).
      assert (2 ^ (p + 1 + i) <= m * 2 ^ k) by nia. nia.
    - pose proof w_pow. lia. }
  rewrite Sc.
  assert (Dv : div_even (num * 2 ^ OFF) (den * 2 ^ k) = m).
  { unfold div_even. pose proof (pow_pos 2 k). replace (num * 2 ^ OFF) with (m * (den * 2 ^ k)) by (rewrite Q; ring).
    rewrite N.div_mul, N.mod_mul by nia. replace (2 * 0 <? den * 2 ^ k) with true by (symmetry; apply N.ltb_lt; nia). reflexivity. }
  rewrite Dv. apply N.min_r. unfold inf. rewrite N.pow_add_r, N.pow_1_r in M. pose proof w_pow. pose proof (pow_pos 2 p). nia.
Qed.

(** ** Plain decimals *)
Definition plain_char (c : char) : bool := is_digit c || (c =? 46).
Lemma plain_chars : forall d up down, forallb plain_char (plain_decimal d up down) = true.
Proof.
  assert (K : forall s, forallb is_digit s = true -> forallb plain_char s = true).
  { intros s H. eapply forallb_weaken; [|exact H]. intro c. unfold plain_char. intros ->. reflexivity. }
  intros d up down. unfold plain_decimal. destruct (down =? 0); [apply K, show_N_digits|].
  rewrite !forallb_app. rewrite (K _ (show_N_digits _)), (K _ (pad0_digits _ _)). reflexivity.
Qed.
Lemma plain_nonempty : forall d up down, exists c s, plain_decimal d up down = c :: s /\ is_digit c = true.
Proof.
  intros d up down. unfold plain_decimal.
  assert (K : forall n r, exists c s, show_N n ++ r = c :: s /\ is_digit c = true).
  { intros n r. pose proof (show_N_digits n) as H. pose proof (show_N_nonempty n) as Q. destruct (show_N n) as [|c s]; [congruence|].
    cbn [forallb] in H. apply andb_prop in H. exists c, (s ++ r). split; [reflexivity | apply H]. }
  destruct (down =? 0); [|apply K]. rewrite <- (app_nil_r (show_N _)). apply K.
Qed.
Lemma plain_not_word : forall c s t, is_digit c = true -> t <> [] -> (forall x r, t = x :: r -> is_digit x = false) ->
  str_eqb (map ascii_lower (c :: s)) t = false.
Proof.
  intros c s t H T F. destruct t as [|x t]; [congruence|]. cbn [map str_eqb]. replace (ascii_lower c =? x) with false; [reflexivity|].
  specialize (F x t eq_refl). unfold is_digit, ascii_lower in *. destruct ((65 <=? c) && (c <=? 90)) eqn:K; lia.
Qed.
Lemma body_plain : forall c s, is_digit c = true -> parse_body p w (c :: s) =
  let (ip, r) := take_digits (c :: s) in
    let (fp, r2) := match r with
                    | c :: r' => if c =? 46 then take_digits r' else ([], r)
                    | [] => ([], [])
                    end in
    match ip ++ fp, exponent r2 with
    | [], _ | _, None => None
    | ds, Some e => Some (decimal p w ds (e - Z.of_nat (List.length fp)))
    end.
Proof.
  intros c s H. unfold parse_body.
  rewrite !plain_not_word; [reflexivity | exact H | discriminate | | exact H | discriminate | | exact H | discriminate |];
    intros x r Q; injection Q as <- _; reflexivity.
Qed.
Lemma decimal_round : forall ds (k : N), digits_value ds <> 0 -> k <= 1100 ->
  decimal p w ds (- Z.of_N k) = round p w (digits_value ds) (10 ^ k).
Proof.
  intros ds k D K. unfold decimal. destruct (N.eqb_spec (digits_value ds) 0) as [Q|_]; [congruence|].
  destruct (Z.leb_spec 0 (- Z.of_N k)) as [Q|Q].
  - assert (k = 0) by lia. subst k. cbn. rewrite N.mul_1_r. reflexivity.
  - destruct (Z.ltb_spec (Z.of_nat (List.length ds) + 1100) (- - Z.of_N k)) as [R|R]; [lia|].
    rewrite Z.opp_involutive, N2Z.id. reflexivity.
Qed.
Lemma plain_reads : forall d down, d <> 0 -> down <= 1100 ->
  parse_body p w (plain_decimal d 0 down) = Some (round p w d (10 ^ down)).
Proof.
  intros d down D L. destruct (plain_nonempty d 0 down) as (c & s & E & Hc). rewrite E, body_plain by exact Hc. rewrite <- E. clear c s E Hc.
  unfold plain_decimal. destruct (N.eqb_spec down 0) as [->|Nz].
  - rewrite N.pow_0_r, N.mul_1_r. rewrite <- (app_nil_r (show_N d)) at 1. rewrite take_digits_app by (exact I || apply show_N_digits).
    rewrite app_nil_r. pose proof (show_N_nonempty d) as K. pose proof (show_N_value d) as V.
    destruct (show_N d) as [|c s] eqn:Q; [congruence|]. cbn [exponent List.length]. rewrite <- Q in *. 
    change (0 - Z.of_nat 0)%Z with (- Z.of_N 0)%Z. rewrite decimal_round; [rewrite V; reflexivity | rewrite V; exact D | lia].
  - cbn [app]. rewrite take_digits_app by (reflexivity || apply show_N_digits). change (46 =? 46) with true. cbn iota beta.
    set (fp := pad0 _ _). rewrite <- (app_nil_r fp) at 1. rewrite take_digits_app by (exact I || apply pad0_digits).
    pose proof (show_N_nonempty (d / 10 ^ down)) as K.
    assert (Lf : List.length fp = N.to_nat down).
    { apply pad0_length, show_N_short; [|lia]. rewrite N2Nat.id. apply N.mod_lt, N.pow_nonzero. lia. }
    assert (V : digits_value (show_N (d / 10 ^ down) ++ fp) = d).
    { rewrite digits_value_app, show_N_value, Lf, N2Nat.id. unfold fp, pad0. rewrite digits_value_zeros, show_N_value.
      rewrite N.mul_comm, <- N.div_mod; [reflexivity|]. apply N.pow_nonzero. lia. }
    destruct (show_N (d / 10 ^ down) ++ fp) as [|c s] eqn:Q; [apply app_eq_nil in Q; destruct Q; congruence|].
    cbn [exponent]. rewrite Lf. replace (0 - Z.of_nat (N.to_nat down))%Z with (- Z.of_N down)%Z by lia.
    rewrite decimal_round; [rewrite V; reflexivity | rewrite V; exact D | exact L].
Qed.

(** ** Printed magnitudes are read back *)
Hypothesis OffBound : OFF <= 1100.
Lemma exact_reads : forall m k, m <> 0 -> m < 2 ^ (p + 1) -> (k = 0 \/ 2 ^ p <= m) -> k <= 2 ^ w - 3 ->
  parse_body p w (exact p w m k) = Some (k * 2 ^ p + m).
Proof.
  intros m k M L K Kw. unfold exact. destruct (N.leb_spec OFF k) as [Q|Q].
  - rewrite plain_reads; [|pose proof (pow_pos 2 (k - OFF)); nia | lia]. f_equal. apply round_exact; try assumption; [reflexivity|].
    rewrite N.pow_0_r, N.mul_1_r, <- N.mul_assoc, <- N.pow_add_r. f_equal. f_equal. lia.
  - rewrite plain_reads; [|pose proof (pow_pos 5 (OFF - k)); nia | lia]. f_equal. apply round_exact; try assumption; [apply pow_pos; lia|].
    replace OFF with (k + (OFF - k)) at 2 by lia. change 10 with (5 * 2). rewrite N.pow_mul_l, N.pow_add_r. ring.
Qed.
Lemma magnitude_plain : forall x, x < INF -> exists c s, show_magnitude p w x = c :: s /\ is_digit c = true /\ forallb plain_char (c :: s) = true /\
  parse_body p w (c :: s) = Some x.
Proof.
  intros x H. unfold show_magnitude. destruct (N.leb_spec INF x) as [Q|_]; [lia|].
  set (e := x / 2 ^ p). set (m := if e =? 0 then x else 2 ^ p + x mod 2 ^ p).
  pose proof (pow_pos 2 p ltac:(lia)) as Pp. pose proof w_pow as Wp.
  assert (Ex : x = e * 2 ^ p + x mod 2 ^ p) by (unfold e; rewrite N.mul_comm; apply N.div_mod; lia).
  assert (Mx : x mod 2 ^ p < 2 ^ p) by (apply N.mod_lt; lia).
  assert (El : e < 2 ^ w - 1). { unfold inf in H. nia. }
  assert (R : m < 2 ^ (p + 1) /\ (e - 1 = 0 \/ 2 ^ p <= m) /\ (e - 1) * 2 ^ p + m = x).
  { rewrite N.pow_add_r, N.pow_1_r. unfold m. destruct (N.eqb_spec e 0) as [Z|Z]; [rewrite Z in *|]; nia. }
  destruct R as (R1 & R2 & R3).
  destruct (N.eqb_spec m 0) as [Z|Z].
  { assert (X0 : x = 0) by nia. exists 48, []. split; [reflexivity|]. split; [reflexivity|]. split; [reflexivity|]. 
    rewrite X0. reflexivity. }
  destruct (find _ _) as [t|] eqn:F.
  - apply find_some in F. destruct F as [Ft Fr]. apply in_flat_map in Ft. destruct Ft as (n & _ & Ft).
    unfold candidates in Ft. apply in_map_iff in Ft. destruct Ft as (d & <- & _).
    assert (Q : exists d' up down, (if d =? 10 ^ N.of_nat n then plain_decimal 1 (Z.to_N (decade (m * 2 ^ (e - 1)) (2 ^ OFF) + 1)) (Z.to_N (- (decade (m * 2 ^ (e - 1)) (2 ^ OFF) + 1)))
      else plain_decimal d (Z.to_N (decade (m * 2 ^ (e - 1)) (2 ^ OFF) - (Z.of_nat n - 1))) (Z.to_N (- (decade (m * 2 ^ (e - 1)) (2 ^ OFF) - (Z.of_nat n - 1))))) = plain_decimal d' up down).
    { destruct (d =? 10 ^ N.of_nat n); repeat eexists. }
    destruct Q as (d' & up & down & Q). cbv beta zeta in Fr |- *. rewrite Q in *. clear Q. destruct (plain_nonempty d' up down) as (c & s & Q & Hc).
    rewrite Q in *. exists c, s. split; [reflexivity|]. split; [exact Hc|]. split; [rewrite <- Q; apply plain_chars|].
    unfold reads_as in Fr. destruct (parse_body p w (c :: s)) as [y|]; [|discriminate]. apply N.eqb_eq in Fr. f_equal. exact Fr.
  - assert (Q : exists c s, exact p w m (e - 1) = c :: s /\ is_digit c = true /\ forallb plain_char (c :: s) = true).
    { unfold exact. destruct (OFF <=? e - 1).
      - destruct (plain_nonempty (m * 2 ^ (e - 1 - OFF)) 0 0) as (c & s & Q & Hc). exists c, s. rewrite <- Q. split; [reflexivity|]. split; [exact Hc | apply plain_chars].
      - destruct (plain_nonempty (m * 5 ^ (OFF - (e - 1))) 0 (OFF - (e - 1))) as (c & s & Q & Hc). exists c, s. rewrite <- Q. split; [reflexivity|]. split; [exact Hc | apply plain_chars]. }
    destruct Q as (c & s & Q & Hc & Hs). exists c, s. split; [exact Q|]. split; [exact Hc|]. split; [exact Hs|].
    rewrite <- Q, <- R3 at 1. apply exact_reads; try assumption. lia.
Qed.

(** ** The facts of [ext_ok] *)
Lemma parse_float_returns : forall s, parse_float p w s <> Panic.
Proof.
  intros s. destruct s as [|c s]; [discriminate|]. cbn [parse_float].
  destruct (if c =? 45 then _ else _) as [neg body]. destruct (parse_body p w body); discriminate.
Qed.
Lemma parse_float_range : forall s x, parse_float p w s = Ok x -> x < 2 ^ (p + w + 1).
Proof.
  intros s x H. destruct s as [|c s]; [discriminate|]. cbn [parse_float] in H.
  destruct (if c =? 45 then _ else _) as [neg body]. destruct (parse_body p w body) as [y|] eqn:B; [|discriminate].
  apply body_lt in B. rewrite N.pow_add_r, N.pow_1_r. destruct neg; injection H as <-; lia.
Qed.
Lemma parse_float_pos : forall s x, parse_float p w s = Ok x -> contains c_minus s = false -> f_neg (p + w) x = false.
Proof.
  intros s x H C. destruct s as [|c s]; [discriminate|]. cbn [parse_float] in H. unfold contains, c_minus in C. cbn [existsb] in C.
  apply orb_false_elim in C. destruct C as [C _]. rewrite N.eqb_sym in C. rewrite C in H.
  destruct (if c =? 43 then (false, s) else (false, c :: s)) as [neg body] eqn:Q.
  assert (neg = false) by (destruct (c =? 43); injection Q; auto). subst neg.
  destruct (parse_body p w body) as [y|] eqn:B; [|discriminate]. injection H as <-.
  apply body_lt in B. unfold f_neg. destruct (N.eq_dec y 0) as [->|Nz]; [apply N.bits_0|].
  apply N.bits_above_log2, N.log2_lt_pow2; lia.
Qed.
Lemma float_round_trip : forall x, x < 2 ^ (p + w + 1) -> (INF <? f_mag (p + w) x) = false ->
  parse_float p w (show_float p w x) = Ok x.
Proof.
  intros x L H. unfold show_float. unfold f_mag in H. rewrite H. apply N.ltb_ge in H.
  set (m := x mod 2 ^ (p + w)) in *.
  assert (Bd : exists c s, show_magnitude p w m = c :: s /\ (c =? 45) = false /\ (c =? 43) = false /\ parse_body p w (c :: s) = Some m).
  { destruct (N.eq_dec m INF) as [Q|Q].
    - exists 105, (lit "nf"). split; [|split; [reflexivity|split; [reflexivity|]]].
      + unfold show_magnitude. rewrite Q, N.leb_refl. reflexivity.
      + rewrite Q. reflexivity.
    - destruct (magnitude_plain m) as (c & s & E1 & E2 & _ & E4); [lia|]. exists c, s. split; [exact E1|].
      unfold is_digit in E2. split; [lia|]. split; [lia | exact E4]. }
  destruct Bd as (c & s & E1 & E2 & E3 & E4). rewrite E1.
  assert (T : x = (if N.testbit x (p + w) then 2 ^ (p + w) else 0) + m).
  { unfold m. rewrite N.testbit_eqb. pose proof (pow_pos 2 (p + w) ltac:(lia)) as Q.
    pose proof (N.div_mod x (2 ^ (p + w)) ltac:(lia)) as D.
    assert (x / 2 ^ (p + w) < 2). { apply N.div_lt_upper_bound; [lia|]. rewrite N.pow_add_r, N.pow_1_r in L. lia. }
    revert H0 D. generalize (x / 2 ^ (p + w)) (x mod 2 ^ (p + w)). intros q r Hq D.
    assert (R : q = 0 \/ q = 1) by lia. destruct R as [R|R]; subst q.
    - change (0 mod 2 =? 1) with false. cbn iota. lia.
    - change (1 mod 2 =? 1) with true. cbn iota. lia. }
  destruct (N.testbit x (p + w)).
  - cbn [app parse_float]. change (45 =? 45) with true. cbn iota beta. rewrite E4. f_equal. lia.
  - cbn [app parse_float]. rewrite E2, E3. rewrite E4. f_equal. lia.
Qed.
Lemma magnitude_chars : forall x, show_magnitude p w x <> [] /\ forallb (fun c => float_char c && negb (c =? 45)) (show_magnitude p w x) = true.
Proof.
  intro x. destruct (N.leb_spec INF x) as [Q|Q].
  - unfold show_magnitude. apply N.leb_le in Q. rewrite Q. split; [discriminate | reflexivity].
  - destruct (magnitude_plain x Q) as (c & s & E1 & _ & E3 & _). rewrite E1. split; [discriminate|].
    eapply forallb_weaken; [|exact E3]. intro a. unfold plain_char, is_digit, float_char. cbn [mem_N existsb]. lia.
Qed.
Lemma show_float_chars : forall x, show_float p w x <> [] /\ forallb float_char (show_float p w x) = true.
Proof.
  intro x. unfold show_float. destruct (_ <? _); [split; [discriminate | reflexivity]|].
  destruct (magnitude_chars (x mod 2 ^ (p + w))) as [A B]. split.
  - destruct (N.testbit x (p + w)); [discriminate | exact A].
  - rewrite forallb_app. apply andb_true_intro. split; [destruct (N.testbit x (p + w)); reflexivity|].
    eapply forallb_weaken; [|exact B]. intros c H. apply andb_prop in H. apply H.
Qed.
Lemma show_float_pos : forall x, f_neg (p + w) x = false -> contains c_minus (show_float p w x) = false.
Proof.
  intros x H. unfold show_float. unfold f_neg in H. rewrite H. destruct (_ <? _); [reflexivity|].
  destruct (magnitude_chars (x mod 2 ^ (p + w))) as [_ B]. cbn [app]. eapply class_not_contains; [exact B | reflexivity].
Qed.
End Float.

(** ** Hosts *)
Lemma parse_ip_range : forall s n, parse_ip s = Some (V6 n) -> n <= u128_max.
Proof. intros s n H. exact (parse_ip_ok _ _ H). Qed.
Lemma host0_returns : forall s, host0 s <> Panic.
Proof.
  intro s. unfold host0.
  repeat match goal with |- context [match ?x with _ => _ end] => destruct x end; discriminate.
Qed.
Lemma ipv4_parts_range : forall l left acc n, ipv4_parts left acc l = Some n -> (List.length l <= N.to_nat left)%nat ->
  n < (acc + 1) * 256 ^ left.
Proof.
  intro l. induction l as [|x l IH]; intros left acc n H L; [discriminate|]. cbn [ipv4_parts] in H. destruct l as [|y l].
  - destruct (N.ltb_spec x (256 ^ left)); [|discriminate]. injection H as <-. lia.
  - destruct (N.ltb_spec x 256) as [Q|Q]; [|discriminate]. cbn [List.length] in *. apply IH in H; [|cbn [List.length]; lia].
    assert (E : 256 ^ left = 256 * 256 ^ (left - 1)) by (rewrite <- N.pow_succ_r'; f_equal; lia). rewrite E. 
    pose proof (pow_pos 256 (left - 1) ltac:(lia)). nia.
Qed.
Lemma option_all_length : forall {A} (l : list (option A)) r, option_all l = Some r -> List.length r = List.length l.
Proof.
  intros A l. induction l as [|o l IH]; intros r H; cbn [option_all] in H.
  - injection H as <-. reflexivity.
  - destruct o as [x|]; [|discriminate]. destruct (option_all l) as [r'|]; [|discriminate]. injection H as <-.
    cbn [List.length]. f_equal. apply IH. reflexivity.
Qed.
Lemma ipv4_range : forall s n, ipv4 s = Some n -> n <= u32_max.
Proof.
  intros s n H. unfold ipv4 in H. destruct (Nat.ltb_spec 4 (List.length (labels s))) as [Q|Q]; [discriminate|].
  destruct (option_all _) as [ns|] eqn:E; [|discriminate]. apply option_all_length in E. rewrite map_length in E.
  apply ipv4_parts_range in H; [|change (N.to_nat 4) with 4%nat; lia]. change ((0 + 1) * 256 ^ 4) with 4294967296 in H. unfold u32_max. lia.
Qed.
Lemma domain_chars_head : forall s, forallb domain_char s = true -> match s with 91 :: _ => False | _ => True end.
Proof.
  intros s H. destruct s as [|c s]; [exact I|]. destruct (N.eq_dec c 91) as [->|Q]; [discriminate|].
  destruct c as [|c]; [exact I|]. do 7 (destruct c as [c|c|]; try exact I; try congruence).
Qed.
Definition host0_name (s : str) : res str host :=
  let d := map ascii_lower s in
  if is_empty d then Err (lit "empty host")
  else if negb (forallb domain_char d) then Err (lit "invalid domain character")
  else if ends_in_number d then
    match ipv4 d with
    | Some n => Ok (HIpv4 n)
    | None => Err (lit "invalid IPv4 address")
    end
  else Ok (HDomain d).
Lemma host0_cases : forall s, (exists r, s = 91 :: r /\ host0 s = match rev r with
      | 93 :: t => match parse_ip (rev t) with
                   | Some (V6 n) => Ok (HIpv6 n)
                   | _ => Err (lit "invalid IPv6 address")
                   end
      | _ => Err (lit "invalid IPv6 address")
      end) \/ (match s with 91 :: _ => False | _ => True end /\ host0 s = host0_name s).
Proof.
  intro s. destruct s as [|c s]; [right; split; [exact I | reflexivity]|]. destruct (N.eq_dec c 91) as [->|Q]; [left; exists s; split; reflexivity|].
  right. destruct c as [|c]; [split; [exact I|reflexivity]|].
  do 7 (destruct c as [c|c|]; try (split; [exact I | reflexivity]); try congruence).
Qed.
Lemma host0_domain : forall s d, host0 s = Ok (HDomain d) ->
  d = map ascii_lower s /\ d <> [] /\ forallb domain_char d = true /\ ends_in_number d = false.
Proof.
  intros s d H. destruct (host0_cases s) as [(r & _ & E)|[_ E]]; rewrite E in H.
  - exfalso. revert H. repeat match goal with |- context [match ?x with _ => _ end] => destruct x end; discriminate.
  - unfold host0_name in H. set (l := map ascii_lower s) in *. destruct (is_empty l) eqn:E1; [discriminate|].
    destruct (forallb domain_char l) eqn:E2; [|discriminate]. cbn [negb] in H.
    destruct (ends_in_number l) eqn:E3; [destruct (ipv4 l); discriminate|]. injection H as <-.
    split; [reflexivity|]. split; [intro K; rewrite K in E1; discriminate|]. split; assumption.
Qed.
Lemma ascii_lower_idem : forall c, ascii_lower (ascii_lower c) = ascii_lower c.
Proof. intro c. unfold ascii_lower. destruct ((65 <=? c) && (c <=? 90)) eqn:K; [|rewrite K; reflexivity]. destruct ((65 <=? c + 32) && (c + 32 <=? 90)) eqn:Q; lia. Qed.
Lemma host0_name_ok : forall d, map ascii_lower d = d -> d <> [] -> forallb domain_char d = true -> host0 d =
  if ends_in_number d then match ipv4 d with Some n => Ok (HIpv4 n) | None => Err (lit "invalid IPv4 address") end else Ok (HDomain d).
Proof.
  intros d L N C. destruct (host0_cases d) as [(r & -> & _)|[_ E]]; [exfalso; exact (domain_chars_head _ C)|].
  rewrite E. unfold host0_name. rewrite L, C. destruct d; [congruence|]. reflexivity.
Qed.
Lemma octet_number : forall o, o < 256 -> ipv4_number (show_N o) = Some o /\ all_digits 10 (show_N o) = true.
Proof.
  assert (K : forallb (fun k => let o := N.of_nat k in
    match ipv4_number (show_N o) with Some x => x =? o | None => false end && all_digits 10 (show_N o)) (seq 0 256) = true) by (vm_compute; reflexivity).
  intros o H. rewrite forallb_forall in K. specialize (K (N.to_nat o)). rewrite in_seq in K. specialize (K ltac:(lia)).
  cbv zeta in K. rewrite N2Nat.id in K. apply andb_prop in K. destruct K as [K1 K2]. split; [|exact K2].
  destruct (ipv4_number (show_N o)) as [x|]; [|discriminate]. apply N.eqb_eq in K1. now subst.
Qed.
Lemma host0_ip4 : forall n, n <= u32_max -> host0 (show_ip4 n) = Ok (HIpv4 n).
Proof.
  intros n H. pose proof (show_ip4_chars n) as C.
  destruct (octets4_four n) as (a & b & c & d & E & Ha & Hb & Hc & Hd).
  apply N.lt_succ_r in Ha, Hb, Hc, Hd. change (N.succ 255) with 256 in *.
  assert (Lb : labels (show_ip4 n) = [show_N a; show_N b; show_N c; show_N d]).
  { unfold labels. unfold show_ip4. rewrite E. cbn [map]. rewrite split_join; [| discriminate |].
    - cbn [rev app]. pose proof (show_N_nonempty d). destruct (show_N d); [congruence | reflexivity].
    - repeat constructor; apply show_N_no; reflexivity. }
  rewrite host0_name_ok.
  - assert (En : ends_in_number (show_ip4 n) = true).
    { unfold ends_in_number. rewrite Lb. cbn [rev app]. rewrite (proj2 (octet_number d Hd)). pose proof (show_N_nonempty d).
      destruct (show_N d); [congruence | reflexivity]. }
    rewrite En. unfold ipv4. rewrite Lb. cbn [List.length Nat.ltb Nat.leb map].
    rewrite (proj1 (octet_number a Ha)), (proj1 (octet_number b Hb)), (proj1 (octet_number c Hc)), (proj1 (octet_number d Hd)).
    cbn [option_all ipv4_parts]. apply N.ltb_lt in Ha, Hb, Hc. rewrite Ha, Hb, Hc.
    change (256 ^ (4 - 1 - 1 - 1)) with 256. apply N.ltb_lt in Hd. rewrite Hd.
    f_equal. f_equal. rewrite <- (octets4_value n H) at 1. rewrite E. unfold of_be. cbn [fold_left]. ring.
  - rewrite <- (map_id (show_ip4 n)) at 2. apply map_ext_in. intros x Hx. rewrite forallb_forall in C. specialize (C x Hx).
    unfold ascii_lower, dec_char, c_dot in *. destruct ((65 <=? x) && (x <=? 90)) eqn:K; lia.
  - intro K. rewrite K in Lb. vm_compute in Lb. pose proof (show_N_nonempty a). congruence.
  - eapply forallb_weaken; [|exact C]. intros x Hx. unfold dec_char, c_dot, domain_char in *. cbn [mem_N existsb]. lia.
Qed.

Lemma ext0_ok : ext_ok Ext0.
Proof.
  assert (O32 : off 23 8 <= 1100) by (vm_compute; discriminate). assert (O64 : off 52 11 <= 1100) by (vm_compute; discriminate).
  constructor; cbn [Ext0 host_parse parse_f32 show_f32 parse_f64 show_f64].
  - constructor; [exact host0_returns | apply parse_float_returns | apply parse_float_returns].
  - intros s n H. destruct (host0_cases s) as [(r & _ & E)|[_ E]]; rewrite E in H.
    + exfalso. revert H. repeat match goal with |- context [match ?x with _ => _ end] => destruct x end; discriminate.
    + unfold host0_name in H. destruct (is_empty _); [discriminate|]. destruct (negb _); [discriminate|]. destruct (ends_in_number _); [|discriminate].
      destruct (ipv4 _) as [m|] eqn:Q; [|discriminate]. injection H as <-. exact (ipv4_range _ _ Q).
  - intros s n H. destruct (host0_cases s) as [(r & _ & E)|[_ E]]; rewrite E in H.
    + destruct (rev r) as [|c t]; [discriminate|]. destruct (N.eq_dec c 93) as [->|Nc].
      * destruct (parse_ip (rev t)) as [[|m]|] eqn:Q; [discriminate| |discriminate]. injection H as <-. exact (parse_ip_range _ _ Q).
      * exfalso. revert H. destruct c as [|c]; [discriminate|].
        do 7 (destruct c as [c|c|]; try discriminate; try congruence).
    + exfalso. unfold host0_name in H. destruct (is_empty _); [discriminate|]. destruct (negb _); [discriminate|]. destruct (ends_in_number _); [|discriminate].
      destruct (ipv4 _); discriminate.
  - intros s x H. apply parse_float_range in H; [|lia|lia|assumption]. change (2 ^ (23 + 8 + 1)) with 4294967296 in H. unfold u32_max. lia.
  - intros s x H. apply parse_float_range in H; [|lia|lia|assumption]. change (2 ^ (52 + 11 + 1)) with 18446744073709551616 in H. unfold u64_max. lia.
  - reflexivity.
  - exact host0_ip4.
  - intros s d H. apply host0_domain in H. split; apply H.
  - intros s d H. apply host0_domain in H. destruct H as (E & D1 & D2 & D3). rewrite host0_name_ok; [rewrite D3; reflexivity| |exact D1|exact D2].
    rewrite E, map_map. apply map_ext. intro c. apply ascii_lower_idem.
  - intros x R N. apply float_round_trip; [lia | lia | exact O32 | |exact N].
    change (2 ^ (23 + 8 + 1)) with 4294967296. unfold u32_max in R. lia.
  - intros x R N. apply float_round_trip; [lia | lia | exact O64 | |exact N].
    change (2 ^ (52 + 11 + 1)) with 18446744073709551616. unfold u64_max in R. lia.
  - apply show_float_chars; [lia | lia | exact O32].
  - apply show_float_chars; [lia | lia | exact O64].
  - intros s x. apply (parse_float_pos 23 8); lia.
  - apply (show_float_pos 23 8); [lia | lia | exact O32].
  - apply (show_float_pos 52 11); [lia | lia | exact O64].
Qed.
