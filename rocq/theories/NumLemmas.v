(** * Lemmas about Num.v (proofs only) *)
From Coq Require Import List NArith ZArith Bool Ascii String Lia.
From Coq Require Import ZifyBool ZifyNat ZifyN.
From Verif Require Import Str Num StrLemmas.
Import ListNotations.
Open Scope N_scope.
Open Scope list_scope.

(** Positional value of a digit list, most significant digit first. *)
Fixpoint pos_value (b : N) (ds : list N) : N :=
  match ds with
  | [] => 0
  | d :: ds' => d * b ^ N.of_nat (List.length ds') + pos_value b ds'
  end.

Lemma pos_value_app : forall b x y,
  pos_value b (x ++ y) = pos_value b x * b ^ N.of_nat (List.length y) + pos_value b y.
Proof.
  intros b x y. induction x as [|d x IH]; simpl; auto.
  rewrite IH, app_length. rewrite Nat2N.inj_add, N.pow_add_r. ring.
Qed.
Lemma pos_value_bound : forall b ds, 1 <= b -> Forall (fun d => d < b) ds ->
  pos_value b ds < b ^ N.of_nat (List.length ds).
Proof.
  intros b ds Hb H. induction H as [|d ds Hd H IH]; cbn [pos_value List.length].
  - reflexivity.
  - rewrite Nat2N.inj_succ, N.pow_succ_r'. nia.
Qed.

Lemma parse_digits_spec : forall radix max s acc v, 1 <= radix -> acc <= max ->
  (parse_digits radix max acc s = Ok v <->
   exists ds, Forall2 (fun c d => to_digit radix c = Some d) s ds /\
              v = acc * radix ^ N.of_nat (List.length ds) + pos_value radix ds /\ v <= max).
Proof.
  intros radix max s. induction s as [|c s IH]; intros acc v Hr Ha; cbn [parse_digits].
  - split.
    + intros H. inv H. exists []. split; [constructor|]. simpl. lia.
    + intros [ds [H1 [H2 H3]]]. inv H1. simpl. f_equal. lia.
  - destruct (to_digit radix c) as [d|] eqn:Hd.
    + destruct (max <? acc * radix + d) eqn:Hm.
      * split; [discriminate|]. intros [ds [H1 [H2 H3]]]. exfalso.
        inversion H1 as [|? d' ? ds' Hd' Hs]; subst. rewrite Hd in Hd'. inv Hd'.
        cbn [pos_value List.length] in H3. rewrite Nat2N.inj_succ, N.pow_succ_r' in H3.
        assert (1 <= radix ^ N.of_nat (List.length ds')).
        { pose proof (N.pow_nonzero radix (N.of_nat (List.length ds'))). lia. }
        nia.
      * rewrite IH by lia. split.
        -- intros [ds [H1 [H2 H3]]]. exists (d :: ds). split; [constructor; auto|].
           cbn [pos_value List.length]. rewrite Nat2N.inj_succ, N.pow_succ_r'.
           split; auto. rewrite H2. ring.
        -- intros [ds [H1 [H2 H3]]].
           inversion H1 as [|? d' ? ds' Hd' Hs]; subst. rewrite Hd in Hd'. inv Hd'.
           exists ds'. split; auto. split; auto.
           cbn [pos_value List.length]. rewrite Nat2N.inj_succ, N.pow_succ_r'. ring.
    + split; [discriminate|]. intros [ds [H1 [H2 H3]]]. inv H1. congruence.
Qed.

Lemma parse_digits_no_panic : forall radix max s acc, parse_digits radix max acc s <> Panic.
Proof.
  intros radix max s. induction s as [|c s IH]; intros acc; cbn [parse_digits]; [discriminate|].
  destruct (to_digit radix c); [|discriminate].
  destruct (max <? acc * radix + n); [discriminate|auto].
Qed.
Lemma parse_uint_no_panic : forall radix max s, parse_uint radix max s <> Panic.
Proof.
  intros. unfold parse_uint. destruct s as [|c [|c' s]]; try discriminate.
  - destruct ((c =? c_plus) || (c =? c_minus)); [discriminate|apply parse_digits_no_panic].
  - destruct (c =? c_plus); apply parse_digits_no_panic.
Qed.

Lemma to_digit_plus : forall r, to_digit r c_plus = None.
Proof. reflexivity. Qed.
Lemma to_digit_minus : forall r, to_digit r c_minus = None.
Proof. reflexivity. Qed.
Lemma to_digit_lt : forall r c d, to_digit r c = Some d -> d < r.
Proof.
  intros r c d. unfold to_digit.
  destruct (if (48 <=? c) && (c <=? 57) then Some (c - 48) else _); [|discriminate].
  destruct (n <? r) eqn:H; [|discriminate]. intros K. inv K. lia.
Qed.

(** [Numeral radix max s n]: an optional plus sign and digits of value [n <= max]. *)
Definition Numeral (radix max : N) (s : str) (n : N) : Prop :=
  exists sign body ds,
    s = sign ++ body /\ (sign = [] \/ sign = [c_plus]) /\ body <> [] /\
    Forall2 (fun c d => to_digit radix c = Some d) body ds /\
    n = pos_value radix ds /\ n <= max.

Lemma parse_uint_spec : forall radix max s n, 1 <= radix ->
  (parse_uint radix max s = Ok n <-> Numeral radix max s n).
Proof.
  intros radix max s n Hr. unfold parse_uint, Numeral. split.
  - intros H.
    assert (K : forall body, parse_digits radix max 0 body = Ok n -> exists ds,
               Forall2 (fun c d => to_digit radix c = Some d) body ds /\
               n = pos_value radix ds /\ n <= max).
    { intros body Hb. apply parse_digits_spec in Hb; [|lia|lia].
      destruct Hb as [ds [H1 [H2 H3]]]. exists ds. repeat split; auto. }
    destruct s as [|c [|c' s]]; [discriminate| |].
    + destruct ((c =? c_plus) || (c =? c_minus)); [discriminate|].
      apply K in H. destruct H as [ds [H1 H2]].
      exists [], [c], ds. repeat split; auto; try congruence; apply H2.
    + destruct (c =? c_plus) eqn:Hc.
      * apply N.eqb_eq in Hc. subst c. apply K in H. destruct H as [ds [H1 H2]].
        exists [c_plus], (c' :: s), ds. repeat split; auto; try congruence; apply H2.
      * apply K in H. destruct H as [ds [H1 H2]].
        exists [], (c :: c' :: s), ds. repeat split; auto; try congruence; apply H2.
  - intros [sign [body [ds [H1 [H2 [H3 [H4 [H5 H6]]]]]]]].
    assert (K : parse_digits radix max 0 body = Ok n).
    { apply parse_digits_spec; [lia|lia|]. exists ds. auto. }
    destruct H2 as [->| ->]; simpl in H1; subst s.
    + inversion H4 as [|c d body' ds' Hc Hb]; subst; [exfalso; apply H3; reflexivity|].
      assert (Hp : c =? c_plus = false).
      { apply N.eqb_neq. intros ->. discriminate Hc. }
      assert (Hm : c =? c_minus = false).
      { apply N.eqb_neq. intros ->. discriminate Hc. }
      rewrite Hp, Hm. simpl orb. destruct body'; auto.
    + destruct body as [|c body]; [congruence|]. exact K.
Qed.

(** ** Printing *)
Definition canonical (ds : list N) : Prop :=
  ds <> [] /\ (List.length ds = 1%nat \/ exists d ds', ds = d :: ds' /\ 0 < d).

Lemma show_radix_aux_spec : forall digit radix f n acc, 2 <= radix -> n < 2 ^ N.of_nat f ->
  exists ds, show_radix_aux (S f) digit radix n acc = map digit ds ++ acc /\
             Forall (fun d => d < radix) ds /\ pos_value radix ds = n /\ canonical ds.
Proof.
  intros digit radix f. induction f as [|f IH]; intros n acc Hr Hn.
  - simpl in Hn. assert (n = 0) by lia. subst n.
    exists [0]. cbn [show_radix_aux]. rewrite N.mod_0_l, N.div_0_l by lia. simpl.
    split; auto. split; [constructor; [lia|constructor]|]. split; auto.
    split; [congruence|]. left. reflexivity.
  - remember (S f) as f' eqn:Hf. cbn [show_radix_aux]. subst f'.
    destruct (n / radix =? 0) eqn:Hd.
    + exists [n mod radix]. split; auto.
      assert (Hlt : n mod radix < radix) by (apply N.mod_lt; lia).
      split; [constructor; [auto|constructor]|]. split.
      * simpl. pose proof (N.div_mod n radix). lia.
      * split; [congruence|]. left. reflexivity.
    + assert (Hq : n / radix < 2 ^ N.of_nat f).
      { apply N.div_lt_upper_bound; [lia|].
        rewrite Nat2N.inj_succ, N.pow_succ_r' in Hn. nia. }
      destruct (IH (n / radix) (digit (n mod radix) :: acc) Hr Hq) as [ds [H1 [H2 [H3 H4]]]].
      exists (ds ++ [n mod radix]). rewrite H1, map_app, <- app_assoc.
      split; auto. split.
      { apply Forall_app. split; auto. constructor; [|constructor]. apply N.mod_lt. lia. }
      split.
      { rewrite pos_value_app, H3. cbn [pos_value List.length]. change (N.of_nat 1) with 1.
        change (N.of_nat 0) with 0. rewrite N.pow_1_r, N.pow_0_r.
        pose proof (N.div_mod n radix ltac:(lia)) as Hm. lia. }
      destruct H4 as [H4 H5]. split; [destruct ds; simpl; congruence|]. right.
      destruct ds as [|d ds]; [congruence|]. exists d, (ds ++ [n mod radix]). split; auto.
      destruct H5 as [H5|[d' [ds' [H5 H6]]]].
      * destruct ds; [|discriminate]. simpl in H3. lia.
      * inv H5. auto.
Qed.

Lemma size_nat_bound : forall n, n < 2 ^ N.of_nat (N.size_nat n).
Proof.
  intros n. destruct n as [|p]; [reflexivity|].
  assert (K : forall p, N.pos p < 2 ^ N.of_nat (Pos.size_nat p)).
  { clear. induction p as [p IH|p IH|]; cbn [Pos.size_nat];
      rewrite ?Nat2N.inj_succ, ?N.pow_succ_r'; try lia. }
  apply K.
Qed.

Lemma show_radix_spec : forall digit radix n, 2 <= radix ->
  exists ds, show_radix digit radix n = map digit ds /\
             Forall (fun d => d < radix) ds /\ pos_value radix ds = n /\ canonical ds.
Proof.
  intros digit radix n Hr. unfold show_radix.
  destruct (show_radix_aux_spec digit radix (N.size_nat n) n [] Hr (size_nat_bound n))
    as [ds [H1 H2]].
  exists ds. rewrite app_nil_r in H1. auto.
Qed.

Lemma to_digit_lower : forall r d, d < r -> r <= 16 -> to_digit r (digit_lower d) = Some d.
Proof.
  intros r d H1 H2. unfold digit_lower, to_digit. destruct (d <? 10) eqn:Hd.
  - replace ((48 <=? 48 + d) && (48 + d <=? 57)) with true by lia.
    replace (48 + d - 48) with d by lia. replace (d <? r) with true by lia. reflexivity.
  - replace ((48 <=? 87 + d) && (87 + d <=? 57)) with false by lia.
    replace ((97 <=? 87 + d) && (87 + d <=? 102)) with true by lia.
    replace (87 + d - 87) with d by lia. replace (d <? r) with true by lia. reflexivity.
Qed.
Lemma to_digit_upper : forall r d, d < r -> r <= 16 -> to_digit r (digit_upper d) = Some d.
Proof.
  intros r d H1 H2. unfold digit_upper, to_digit. destruct (d <? 10) eqn:Hd.
  - replace ((48 <=? 48 + d) && (48 + d <=? 57)) with true by lia.
    replace (48 + d - 48) with d by lia. replace (d <? r) with true by lia. reflexivity.
  - replace ((48 <=? 55 + d) && (55 + d <=? 57)) with false by lia.
    replace ((97 <=? 55 + d) && (55 + d <=? 102)) with false by lia.
    replace ((65 <=? 55 + d) && (55 + d <=? 70)) with true by lia.
    replace (55 + d - 55) with d by lia. replace (d <? r) with true by lia. reflexivity.
Qed.

Lemma pos_value_repeat0 : forall b k ds, pos_value b (repeat 0 k ++ ds) = pos_value b ds.
Proof. intros b k ds. induction k as [|k IH]; simpl; auto. Qed.

(** Reading back what was printed, possibly with leading zeros. *)
Lemma parse_uint_show : forall digit radix max n w, 2 <= radix -> n <= max ->
  (forall d, d < radix -> to_digit radix (digit d) = Some d) ->
  digit 0 = 48 ->
  parse_uint radix max (pad0 w (show_radix digit radix n)) = Ok n.
Proof.
  intros digit radix max n w Hr Hn Hd H0. apply parse_uint_spec; [lia|].
  destruct (show_radix_spec digit radix n Hr) as [ds [H1 [H2 [H3 H4]]]].
  unfold pad0. rewrite H1. set (k := (w - List.length (map digit ds))%nat).
  exists [], (repeat 48 k ++ map digit ds), (repeat 0 k ++ ds).
  split; [reflexivity|]. split; [auto|]. split.
  { destruct H4 as [H4 _]. destruct ds; [congruence|]. destruct k; simpl; congruence. }
  split.
  { apply Forall2_app.
    - clearbody k. induction k as [|k IH]; simpl; constructor; auto.
      rewrite <- H0. apply Hd. lia.
    - clear -H2 Hd. induction H2; simpl; constructor; auto. }
  split; auto. rewrite pos_value_repeat0. auto.
Qed.
Lemma pad0_zero : forall s, pad0 0 s = s.
Proof. reflexivity. Qed.
Lemma parse_show_N : forall max n, n <= max -> parse_uint 10 max (show_N n) = Ok n.
Proof.
  intros. rewrite <- (pad0_zero (show_N n)). apply parse_uint_show; auto; try lia.
  intros. apply to_digit_lower; lia.
Qed.
Lemma parse_show_hex : forall max n w, n <= max -> parse_uint 16 max (pad0 w (show_hex n)) = Ok n.
Proof.
  intros. apply parse_uint_show; auto; try lia. intros. apply to_digit_lower; lia.
Qed.
Lemma parse_show_HEX : forall max n w, n <= max -> parse_uint 16 max (pad0 w (show_HEX n)) = Ok n.
Proof.
  intros. apply parse_uint_show; auto; try lia. intros. apply to_digit_upper; lia.
Qed.
Lemma show_N_inj : forall a b, show_N a = show_N b -> a = b.
Proof.
  intros a b H. pose proof (parse_show_N (N.max a b) a ltac:(lia)) as H1.
  pose proof (parse_show_N (N.max a b) b ltac:(lia)) as H2. rewrite H in H1. congruence.
Qed.

(** ** Characters of printed numbers *)
Definition dec_char (c : char) : bool := (48 <=? c) && (c <=? 57).
Definition hex_char (c : char) : bool :=
  ((48 <=? c) && (c <=? 57)) || ((97 <=? c) && (c <=? 102)) || ((65 <=? c) && (c <=? 70)).

Lemma show_radix_chars : forall digit radix n (p : char -> bool), 2 <= radix ->
  (forall d, d < radix -> p (digit d) = true) ->
  forallb p (show_radix digit radix n) = true /\ show_radix digit radix n <> [].
Proof.
  intros digit radix n p Hr Hp.
  destruct (show_radix_spec digit radix n Hr) as [ds [H1 [H2 [H3 [H4 _]]]]].
  rewrite H1. split.
  - clear -H2 Hp. induction H2; simpl; auto. rewrite Hp; auto.
  - destruct ds; simpl; congruence.
Qed.
Lemma show_N_chars : forall n, forallb dec_char (show_N n) = true.
Proof.
  intros. apply show_radix_chars; [lia|]. intros d Hd. unfold dec_char, digit_lower.
  destruct (d <? 10) eqn:H; lia.
Qed.
Lemma show_N_nonempty : forall n, show_N n <> [].
Proof. intros. apply (show_radix_chars digit_lower 10 n (fun _ => true)); auto; lia. Qed.
Lemma show_hex_chars : forall n, forallb hex_char (show_hex n) = true.
Proof.
  intros. apply show_radix_chars; [lia|]. intros d Hd. unfold hex_char, digit_lower.
  destruct (d <? 10) eqn:H; lia.
Qed.
Lemma show_hex_nonempty : forall n, show_hex n <> [].
Proof. intros. apply (show_radix_chars digit_lower 16 n (fun _ => true)); auto; lia. Qed.
Lemma show_HEX_chars : forall n, forallb hex_char (show_HEX n) = true.
Proof.
  intros. apply show_radix_chars; [lia|]. intros d Hd. unfold hex_char, digit_upper.
  destruct (d <? 10) eqn:H; lia.
Qed.
Lemma show_HEX_nonempty : forall n, show_HEX n <> [].
Proof. intros. apply (show_radix_chars digit_upper 16 n (fun _ => true)); auto; lia. Qed.

Lemma pad0_chars : forall p w s, p 48 = true -> forallb p s = true -> forallb p (pad0 w s) = true.
Proof.
  intros p w s Hp Hs. unfold pad0. rewrite forallb_app, Hs, andb_true_r.
  assert (K : forall k, forallb p (repeat 48 k) = true); [|apply K].
  clear -Hp. induction k as [|k IH]; simpl; auto. rewrite Hp. auto.
Qed.
Lemma pad0_nonempty : forall w s, s <> [] -> pad0 w s <> [].
Proof.
  intros w s H. unfold pad0. destruct (repeat 48 (w - List.length s)); simpl; congruence.
Qed.

(** A string over a char class contains no char outside of it. *)
Lemma class_not_contains : forall p c s, forallb p s = true -> p c = false -> contains c s = false.
Proof.
  intros p c s H Hc. apply contains_not_In. intros K. rewrite forallb_forall in H.
  apply H in K. congruence.
Qed.
Lemma class_no_ws : forall p s, forallb p s = true -> (forall c, p c = true -> is_ws c = false) ->
  no_ws s = true.
Proof.
  intros p s H K. unfold no_ws. rewrite forallb_forall in *. intros x Hx. rewrite K; auto.
Qed.
Lemma dec_not_ws : forall c, dec_char c = true -> is_ws c = false.
Proof. intros c. unfold dec_char, is_ws. lia. Qed.
Lemma hex_not_ws : forall c, hex_char c = true -> is_ws c = false.
Proof. intros c. unfold hex_char, is_ws. lia. Qed.
Lemma show_N_token : forall n, token (show_N n).
Proof.
  intros n. split; [apply show_N_nonempty|].
  eapply class_no_ws; [apply show_N_chars|apply dec_not_ws].
Qed.
Lemma show_N_no : forall c n, dec_char c = false -> contains c (show_N n) = false.
Proof. intros. eapply class_not_contains; [apply show_N_chars|auto]. Qed.

(** ** Lengths *)
Lemma show_radix_length : forall digit radix n k, 2 <= radix -> (1 <= k)%nat ->
  n < radix ^ N.of_nat k -> (List.length (show_radix digit radix n) <= k)%nat.
Proof.
  intros digit radix n k Hr Hk Hn.
  destruct (show_radix_spec digit radix n Hr) as [ds [H1 [H2 [H3 [H4 H5]]]]].
  rewrite H1, map_length. destruct H5 as [H5|[d [ds' [H5 H6]]]]; [lia|].
  subst ds. cbn [pos_value List.length] in *.
  destruct (Nat.le_gt_cases k (List.length ds')) as [K|K]; [|lia].
  assert (radix ^ N.of_nat k <= radix ^ N.of_nat (List.length ds')).
  { apply N.pow_le_mono_r; lia. }
  nia.
Qed.
Lemma pad0_length : forall w s, (List.length s <= w)%nat -> List.length (pad0 w s) = w.
Proof. intros. unfold pad0. rewrite app_length, repeat_length. lia. Qed.
Lemma ascii_byte_len : forall s, forallb (fun c => c <? 128) s = true ->
  byte_len s = N.of_nat (List.length s).
Proof.
  induction s as [|c s IH]; simpl; auto. intros H. apply andb_true_iff in H.
  destruct H as [H1 H2]. rewrite IH by auto. unfold utf8_len. rewrite H1. lia.
Qed.
